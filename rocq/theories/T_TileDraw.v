(** * Theorems: drawing on a part of a picture *)
From Verif Require Import Base F Heap Spec Spec_Draw Spec_Ops Spec_Parse M_Geom M_Draw P_TileDraw ExUtil.
From Coq Require Import String.
Local Open Scope string_scope.
Local Open Scope list_scope.
Local Open Scope Z_scope.

(** ** C128: cutting a rectangle out of a picture with a circle or disk on it gives the same
    bytes as drawing it, with its centre moved accordingly, on the rectangle. *)
Theorem C128_draw_crop : forall f w h ch hex r cx cy x y cw chh cx' cy' s p b s1 b1 c1 d t q t1 d1,
  In f drawings -> draw_ok w h ch r cx cy -> draw_ok cw chh ch r cx' cy' ->
  int_part cx' = int_part cx - x -> int_part cy' = int_part cy - y ->
  0 <= x -> 0 <= y -> x + cw <= w -> y + chh <= h -> w * h * ch <= SIZE_MAX -> image (w * h * ch) b ->
  holds s p b -> f w h ch (Some hex) r cx cy p s = Ok (tt, s1) -> holds s1 p b1 ->
  calls (fun w h p => crop w h ch p x y cw chh) w h b1 c1 ->
  calls (fun w h p => crop w h ch p x y cw chh) w h b d ->
  holds t q d -> f cw chh ch (Some hex) r cx' cy' q t = Ok (tt, t1) -> holds t1 q d1 ->
  same_bytes (cw * chh * ch) c1 d1.
Proof. exact draw_crop. Qed.
Print Assumptions C128_draw_crop.

(** What drawing on a heap that holds just [b] leaves. *)
Definition drawn (r : res (unit * st)) : st := match r with Ok (_, s) => s | _ => stb (bnew 0) end.
Definition blk0 (s : st) : buf Z := match mem s 0 with Some (OBytes b) => b | _ => bnew 0 end.
Definition ring_on (w h : Z) (cx cy : f64) (b : buf Z) : res (unit * st) :=
  draw_circle w h 1 (Some (txt "#ff0000")) (d_of_Z 2) cx cy (Ptr 0) (stb b).

(** A circle of radius 2 about (2, 2) in a 6x5 picture and the part 3x4 at (2, 1) of it, so
    that the circle sticks out of the part: its centre there is (0, 1). *)
Example C128_ex : let b := of_list (repeat 9 30) in let cut := fun w h p => crop w h 1 p 2 1 3 4 in
  let d := call1 cut 6 5 b in let s1 := drawn (ring_on 6 5 (d_of_Z 2) (d_of_Z 2) b) in let t1 := drawn (ring_on 3 4 (d_of_Z 0) (d_of_Z 1) d) in
  In draw_circle drawings /\ draw_ok 6 5 1 (d_of_Z 2) (d_of_Z 2) (d_of_Z 2) /\ draw_ok 3 4 1 (d_of_Z 2) (d_of_Z 0) (d_of_Z 1) /\
  int_part (d_of_Z 0) = int_part (d_of_Z 2) - 2 /\ int_part (d_of_Z 1) = int_part (d_of_Z 2) - 1 /\
  image (6 * 5 * 1) b /\ holds (stb b) (Ptr 0) b /\
  ring_on 6 5 (d_of_Z 2) (d_of_Z 2) b = Ok (tt, s1) /\ holds s1 (Ptr 0) (blk0 s1) /\
  calls cut 6 5 (blk0 s1) (call1 cut 6 5 (blk0 s1)) /\ calls cut 6 5 b d /\
  holds (stb d) (Ptr 0) d /\ ring_on 3 4 (d_of_Z 0) (d_of_Z 1) d = Ok (tt, t1) /\ holds t1 (Ptr 0) (blk0 t1) /\
  to_list (call1 cut 6 5 (blk0 s1)) = map Some [9;9;76; 9;9;76; 9;9;76; 76;76;9] /\
  to_list (blk0 t1) = map Some [9;9;76; 9;9;76; 9;9;76; 76;76;9].
Proof.
  cbv zeta. split; [left; reflexivity|].
  do 2 (split; [unfold draw_ok; split; [lia|]; split; [lia|]; split; [auto|]; do 4 (split; [vm_compute; reflexivity|]);
    do 2 (split; [vm_compute; congruence|]); vm_compute; congruence|]).
  do 2 (split; [vm_compute; reflexivity|]). split; [apply image_of_list; reflexivity|].
  split; [exists 0; split; reflexivity|]. split; [vm_compute; reflexivity|].
  split; [eexists; split; [reflexivity|vm_compute; reflexivity]|].
  do 2 (split; [apply call1_calls; vm_compute; reflexivity|]).
  split; [exists 0; split; reflexivity|]. split; [vm_compute; reflexivity|].
  split; [eexists; split; [reflexivity|vm_compute; reflexivity]|].
  split; vm_compute; reflexivity.
Qed.

(** * Theorems: drawing on turned pictures *)
From Verif Require Import Base F Heap Spec Spec_Rel Spec_Ops Spec_Parse Spec_Draw M_Geom M_Draw P_TurnDraw ExUtil T_TileDraw.
From Coq Require Import String.
Local Open Scope string_scope.
Local Open Scope list_scope.
Local Open Scope Z_scope.

(** ** C129: turning a picture with a circle on it gives the same bytes as drawing the circle
    on the turned picture, about the place its centre is turned to. *)
Theorem C129_circle : forall o w h hex r cx cy cx' cy' s p b s1 b1 c1 d t q t1 d1,
  draw_ok w h 4 r cx cy -> draw_ok (tw o w h) (th o w h) 4 r cx' cy' ->
  int_part cx = from_x o w h (int_part cx') (int_part cy') -> int_part cy = from_y o w h (int_part cx') (int_part cy') ->
  w * h * 4 <= SIZE_MAX -> image (w * h * 4) b ->
  holds s p b -> draw_circle w h 4 (Some hex) r cx cy p s = Ok (tt, s1) -> holds s1 p b1 -> calls (turn o) w h b1 c1 ->
  calls (turn o) w h b d -> holds t q d -> draw_circle (tw o w h) (th o w h) 4 (Some hex) r cx' cy' q t = Ok (tt, t1) -> holds t1 q d1 ->
  same_bytes (w * h * 4) c1 d1.
Proof. exact circle_turn. Qed.
Print Assumptions C129_circle.

(** The same for disks.  Missing: radii below 1 if the turning exchanges rows and columns. *)
Theorem C129_disk_partial : forall o w h hex r cx cy cx' cy' s p b s1 b1 c1 d t q t1 d1, (swaps o = true -> 1 <= int_part r) ->
  draw_ok w h 4 r cx cy -> draw_ok (tw o w h) (th o w h) 4 r cx' cy' ->
  int_part cx = from_x o w h (int_part cx') (int_part cy') -> int_part cy = from_y o w h (int_part cx') (int_part cy') ->
  w * h * 4 <= SIZE_MAX -> image (w * h * 4) b ->
  holds s p b -> draw_disk w h 4 (Some hex) r cx cy p s = Ok (tt, s1) -> holds s1 p b1 -> calls (turn o) w h b1 c1 ->
  calls (turn o) w h b d -> holds t q d -> draw_disk (tw o w h) (th o w h) 4 (Some hex) r cx' cy' q t = Ok (tt, t1) -> holds t1 q d1 ->
  same_bytes (w * h * 4) c1 d1.
Proof. exact disk_turn. Qed.
Print Assumptions C129_disk_partial.

(** A picture of 3x4 pixels, its right turn, and a circle or disk of the given radius about
    (1, 1), which is turned to (2, 1). *)
Definition onto (disk : bool) (w h r : Z) (cx cy : f64) (b : buf Z) : res (unit * st) :=
  (if disk then draw_disk else draw_circle) w h 4 (Some (txt "#ff0000")) (d_of_Z r) cx cy (Ptr 0) (stb b).
Definition gray34 : buf Z := of_list (repeat 9 48).
Definition meets (disk : bool) (r : Z) : Prop :=
  let o := Right_turn in let b := gray34 in let d := call1 (turn o) 3 4 b in
  let s1 := drawn (onto disk 3 4 r (d_of_Z 1) (d_of_Z 1) b) in let t1 := drawn (onto disk 4 3 r (d_of_Z 2) (d_of_Z 1) d) in
  draw_ok 3 4 4 (d_of_Z r) (d_of_Z 1) (d_of_Z 1) /\ draw_ok (tw o 3 4) (th o 3 4) 4 (d_of_Z r) (d_of_Z 2) (d_of_Z 1) /\
  int_part (d_of_Z 1) = from_x o 3 4 (int_part (d_of_Z 2)) (int_part (d_of_Z 1)) /\
  int_part (d_of_Z 1) = from_y o 3 4 (int_part (d_of_Z 2)) (int_part (d_of_Z 1)) /\
  3 * 4 * 4 <= SIZE_MAX /\ image (3 * 4 * 4) b /\ holds (stb b) (Ptr 0) b /\
  onto disk 3 4 r (d_of_Z 1) (d_of_Z 1) b = Ok (tt, s1) /\ holds s1 (Ptr 0) (blk0 s1) /\
  calls (turn o) 3 4 (blk0 s1) (call1 (turn o) 3 4 (blk0 s1)) /\ calls (turn o) 3 4 b d /\
  holds (stb d) (Ptr 0) d /\ onto disk (tw o 3 4) (th o 3 4) r (d_of_Z 2) (d_of_Z 1) d = Ok (tt, t1) /\ holds t1 (Ptr 0) (blk0 t1).
(** The pixels of the red channel, by the two ways *)
Definition reds (b : buf Z) : list (option Z) := map (fun i => bget b (4 * Z.of_nat i)) (seq 0 12).
Definition turned_drawing (disk : bool) (r : Z) : buf Z := call1 (turn Right_turn) 3 4 (blk0 (drawn (onto disk 3 4 r (d_of_Z 1) (d_of_Z 1) gray34))).
Definition drawing_turned (disk : bool) (r : Z) : buf Z :=
  blk0 (drawn (onto disk 4 3 r (d_of_Z 2) (d_of_Z 1) (call1 (turn Right_turn) 3 4 gray34))).

Ltac meet := unfold meets; cbv zeta;
  do 2 (split; [unfold draw_ok; split; [cbn; lia|]; split; [cbn; lia|]; split; [auto|]; do 4 (split; [vm_compute; reflexivity|]);
    do 2 (split; [vm_compute; congruence|]); vm_compute; congruence|]);
  do 2 (split; [vm_compute; reflexivity|]); split; [vm_compute; congruence|]; split; [apply image_of_list; reflexivity|];
  split; [exists 0; split; reflexivity|]; split; [vm_compute; reflexivity|];
  split; [eexists; split; [reflexivity|vm_compute; reflexivity]|];
  do 2 (split; [apply call1_calls; vm_compute; reflexivity|]);
  split; [exists 0; split; reflexivity|]; split; [vm_compute; reflexivity|];
  eexists; split; [reflexivity|vm_compute; reflexivity].
Lemma meets_circle : meets false 1. Proof. meet. Qed.
Lemma meets_disk : meets true 1. Proof. meet. Qed.
Lemma meets_zero : meets true 0. Proof. meet. Qed.

Example C129_ex : meets false 1 /\ meets true 1 /\ int_part (d_of_Z 1) = 1 /\
  reds (turned_drawing false 1) = map Some [9;9;255;9; 9;255;9;255; 9;9;255;9] /\ reds (drawing_turned false 1) = reds (turned_drawing false 1) /\
  reds (turned_drawing true 1) = map Some [9;9;255;9; 9;255;255;255; 9;9;255;9] /\ reds (drawing_turned true 1) = reds (turned_drawing true 1).
Proof.
  split; [apply meets_circle|]. split; [apply meets_disk|]. do 4 (split; [vm_compute; reflexivity|]). vm_compute; reflexivity.
Qed.

(** A disk of radius 0 covers the centre and two rows of three pixels above and below it, so
    it does matter whether the picture is turned before or after. *)
Lemma disk_zero_turn : ~ forall o w h hex r cx cy cx' cy' s p b s1 b1 c1 d t q t1 d1,
  draw_ok w h 4 r cx cy -> draw_ok (tw o w h) (th o w h) 4 r cx' cy' ->
  int_part cx = from_x o w h (int_part cx') (int_part cy') -> int_part cy = from_y o w h (int_part cx') (int_part cy') ->
  w * h * 4 <= SIZE_MAX -> image (w * h * 4) b ->
  holds s p b -> draw_disk w h 4 (Some hex) r cx cy p s = Ok (tt, s1) -> holds s1 p b1 -> calls (turn o) w h b1 c1 ->
  calls (turn o) w h b d -> holds t q d -> draw_disk (tw o w h) (th o w h) 4 (Some hex) r cx' cy' q t = Ok (tt, t1) -> holds t1 q d1 ->
  same_bytes (w * h * 4) c1 d1.
Proof.
  intros H. assert (NE : bget (drawing_turned true 0) 8 <> bget (turned_drawing true 0) 8) by (vm_compute; congruence).
  pose proof meets_zero as M. unfold meets in M. unfold drawing_turned, turned_drawing in NE. cbv zeta in M. revert M NE.
  generalize (drawn (onto true 4 3 0 (d_of_Z 2) (d_of_Z 1) (call1 (turn Right_turn) 3 4 gray34))) as t1.
  generalize (drawn (onto true 3 4 0 (d_of_Z 1) (d_of_Z 1) gray34)) as s1. unfold onto. cbv iota.
  intros s1 t1 (A1 & A2 & A3 & A4 & A5 & A6 & A7 & A8 & A9 & A10 & A11 & A12 & A13 & A14) NE. apply NE.
  generalize dependent (call1 (turn Right_turn) 3 4 (blk0 s1)). generalize dependent (call1 (turn Right_turn) 3 4 gray34).
  intros d A11 A12 A13 c1 A10 NE.
  exact (H Right_turn 3 4 _ _ _ _ _ _ _ _ _ _ _ _ _ _ _ _ _ A1 A2 A3 A4 A5 A6 A7 A8 A9 A10 A11 A12 A13 A14 8 ltac:(lia)).
Qed.
Theorem C129_disk_refuted : ~ forall o w h hex r cx cy cx' cy' s p b s1 b1 c1 d t q t1 d1,
  draw_ok w h 4 r cx cy -> draw_ok (tw o w h) (th o w h) 4 r cx' cy' ->
  int_part cx = from_x o w h (int_part cx') (int_part cy') -> int_part cy = from_y o w h (int_part cx') (int_part cy') ->
  w * h * 4 <= SIZE_MAX -> image (w * h * 4) b ->
  holds s p b -> draw_disk w h 4 (Some hex) r cx cy p s = Ok (tt, s1) -> holds s1 p b1 -> calls (turn o) w h b1 c1 ->
  calls (turn o) w h b d -> holds t q d -> draw_disk (tw o w h) (th o w h) 4 (Some hex) r cx' cy' q t = Ok (tt, t1) -> holds t1 q d1 ->
  same_bytes (w * h * 4) c1 d1.
Proof. exact disk_zero_turn. Qed.
Print Assumptions C129_disk_refuted.

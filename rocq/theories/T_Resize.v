(** * T_Resize: theorems about fcv_resize *)
From Verif Require Import Base F Heap Spec ExUtil Spec_Resize M_Resize P_Resize.
Local Open Scope Z_scope.

(** ** C43: the result has trunc(w * rx) columns and trunc(h * ry) rows, all
    opaque; every channel lies between the extremes of the source pixels around
    its position. *)
Theorem C43_resize : forall w h rx ry ow0 oh0 s p b,
  0 < w -> 0 < h -> w * h * 4 <= 4294967296 -> factor_ok w rx -> factor_ok h ry ->
  out_size w rx * out_size h ry * 4 <= 4294967296 ->
  wf s -> holds s p b -> image (w * h * 4) b ->
  returns_sized s (resize w h rx ry ow0 oh0 p s) (out_size w rx) (out_size h ry) (resized w h rx ry b).
Proof. exact resize_main. Qed.
Print Assumptions C43_resize.

(** Both factors 1.0: size and colours are unchanged. *)
Theorem C43_identity : forall w h ow0 oh0 s p b,
  0 < w -> 0 < h -> w * h * 4 <= 4294967296 -> wf s -> holds s p b -> image (w * h * 4) b ->
  returns_sized s (resize w h F.d1 F.d1 ow0 oh0 p s) w h (fun b' => exact_image (w * h * 4) b' /\
    forall x y, 0 <= x < w -> 0 <= y < h ->
      pix b' w 4 x y 3 = Some 255 /\ forall c, 0 <= c < 3 -> pix b' w 4 x y c = pix b w 4 x y c).
Proof. exact resize_identity. Qed.
Print Assumptions C43_identity.

(** NULL data, an empty picture, a factor that is not positive or not finite,
    and a result of 2^32 columns or rows are rejected without any effect. *)
Theorem C43_rejects : forall w h rx ry ow0 oh0 s p,
  wf s -> 0 <= w < 4294967296 -> 0 <= h < 4294967296 ->
  p = Null \/ w = 0 \/ h = 0 \/ dle rx d0 = true \/ dle ry d0 = true \/ dfinite rx = false \/ dfinite ry = false \/
  dlt (d_of_Z 4294967295) (dmul (d_of_Z w) rx) = true \/ dlt (d_of_Z 4294967295) (dmul (d_of_Z h) ry) = true ->
  resize w h rx ry ow0 oh0 p s = Ok ((Null, ow0, oh0), s).
Proof. exact resize_rejects. Qed.
Print Assumptions C43_rejects.

Definition sized_bytes (r : res (ptr * Z * Z * st)) : option (Z * Z * list (option Z)) :=
  match r with
  | Ok ((Ptr i, ow, oh), s) => match mem s i with Some (OBytes b) => Some (ow, oh, to_list b) | _ => None end
  | _ => None
  end.

(** A 3x2 picture shrunk to 2x1, and enlarged to 4x2. *)
Example C43_ex :
  (wf (st1 pic32) /\ holds (st1 pic32) (Ptr 0) (of_list pic32) /\ image (3 * 2 * 4) (of_list pic32)) /\
  (factor_ok 3 (lit 3 4) /\ factor_ok 2 (lit 1 2) /\ factor_ok 3 (lit 3 2) /\ factor_ok 2 F.d1) /\
  sized_bytes (resize 3 2 (lit 3 4) (lit 1 2) 0 0 (Ptr 0) (st1 pic32)) =
    Some (2, 1, map Some [3; 4; 5; 255; 32; 41; 50; 255]) /\
  sized_bytes (resize 3 2 (lit 3 2) F.d1 0 0 (Ptr 0) (st1 pic32)) =
    Some (4, 2, map Some [1; 2; 3; 255; 6; 11; 17; 255; 25; 35; 45; 255; 85; 95; 105; 255;
                          7; 8; 9; 255; 24; 29; 35; 255; 67; 77; 87; 255; 173; 183; 193; 255]) /\
  resize 3 2 (dneg F.d1) F.d1 0 0 (Ptr 0) (st1 pic32) = Ok ((Null, 0, 0), st1 pic32).
Proof.
  split; [split; [apply wf_st1|split; [apply holds_st1|apply image_of_list; reflexivity]]|].
  split; [unfold factor_ok; vm_compute; repeat split; discriminate|].
  split; [vm_compute; reflexivity|]. split; vm_compute; reflexivity.
Qed.

(** ** C44: refuted: "resize 256x1" of a picture with 49 columns gives 255
    columns, and "resize 1x1" of it fails. *)
Theorem C44_absolute_refuted : exists w h tw th s p b q ow oh s',
  wf s /\ holds s p b /\ image (w * h * 4) b /\ 0 < w /\ 0 < h /\ 0 < tw /\ 0 < th /\
  resize_to w h (d_of_Z tw) (d_of_Z th) p s = Ok ((Ptr q, ow, oh), s') /\ ow <> tw.
Proof. exact absolute_off. Qed.
Print Assumptions C44_absolute_refuted.

Theorem C44_absolute_fails_refuted : exists w h tw th s p b,
  wf s /\ holds s p b /\ image (w * h * 4) b /\ 0 < w /\ 0 < h /\ 0 < tw /\ 0 < th /\ (forall n, orc s n = true) /\
  resize_to w h (d_of_Z tw) (d_of_Z th) p s = Ok ((Null, w, h), s).
Proof. exact absolute_null. Qed.
Print Assumptions C44_absolute_fails_refuted.

(** What does hold: for targets of at least 2 the result is at most one column
    and one row short, never larger. *)
Theorem C44_absolute_partial : forall w h tw th s p b,
  0 < w -> 0 < h -> w * h * 4 <= 4294967296 -> w <= INT_MAX -> h <= INT_MAX -> 2 <= tw -> 2 <= th -> tw * th * 4 <= 4294967296 ->
  wf s -> holds s p b -> image (w * h * 4) b ->
  exists q ow oh s', resize_to w h (d_of_Z tw) (d_of_Z th) p s = Ok ((q, ow, oh), s') /\
    match q with
    | Null => same_mem s s' /\ alloc_failed s s' /\ ow = w /\ oh = h
    | Ptr i => tw - 1 <= ow <= tw /\ th - 1 <= oh <= th /\ mem s i = None /\
       exists b', mem s' i = Some (OBytes b') /\ exact_image (ow * oh * 4) b'
    end.
Proof. exact resize_to_main. Qed.
Print Assumptions C44_absolute_partial.

Example C44_ex : sized_bytes (resize_to 3 2 (d_of_Z 2) (d_of_Z 2) (Ptr 0) (st1 pic32)) =
  Some (2, 2, map Some [1; 2; 3; 255; 40; 50; 60; 255; 4; 5; 6; 255; 67; 77; 87; 255]).
Proof. vm_compute. reflexivity. Qed.

(** ** C66: refuted: a picture of one colour, enlarged horizontally and shrunk
    vertically, gets black columns. *)
Theorem C66_constant_refuted : exists w h rx ry s p b q ow oh s' b',
  wf s /\ holds s p b /\ image (w * h * 4) b /\ factor_ok w rx /\ factor_ok h ry /\
  (forall x y c, 0 <= x < w -> 0 <= y < h -> 0 <= c < 3 -> pix b w 4 x y c = Some 100) /\
  resize w h rx ry 0 0 p s = Ok ((Ptr q, ow, oh), s') /\ mem s' q = Some (OBytes b') /\
  pix b' ow 4 0 0 0 = Some 0 /\ pix b' ow 4 (ow - 1) 0 0 = Some 100.
Proof. exact constant_black. Qed.
Print Assumptions C66_constant_refuted.

(** It does hold when both factors enlarge or both shrink. *)
Theorem C66_constant_partial : forall w h rx ry ow0 oh0 s p b k c,
  0 < w -> 0 < h -> w * h * 4 <= 4294967296 -> factor_ok w rx -> factor_ok h ry ->
  out_size w rx * out_size h ry * 4 <= 4294967296 ->
  wf s -> holds s p b -> image (w * h * 4) b -> same_way rx ry -> 0 <= c < 3 -> byte k ->
  (forall x y, 0 <= x < w -> 0 <= y < h -> pix b w 4 x y c = Some k) ->
  returns_sized s (resize w h rx ry ow0 oh0 p s) (out_size w rx) (out_size h ry) (fun b' =>
    forall x y, 0 <= x < out_size w rx -> 0 <= y < out_size h ry -> pix b' (out_size w rx) 4 x y c = Some k).
Proof. exact resize_constant. Qed.
Print Assumptions C66_constant_partial.

Example C66_ex : (factor_ok 2 (lit 3 2) /\ same_way (lit 3 2) (lit 3 2)) /\
  sized_bytes (resize 2 2 (lit 3 2) (lit 3 2) 0 0 (Ptr 0) (st1 pic22)) =
    Some (3, 3, map Some (concat (repeat [100; 100; 100; 255] 9))).
Proof. split; [|vm_compute; reflexivity]. split; [unfold factor_ok; vm_compute; repeat split; discriminate|right; split; reflexivity]. Qed.

(** ** C67: refuted: shrinking a 2x2 picture by one half gives 33 where the mean
    of the four pixels is 50. *)
Theorem C67_half_mean_refuted : exists s p b q s' b',
  wf s /\ holds s p b /\ image (2 * 2 * 4) b /\
  resize 2 2 (lit 1 2) (lit 1 2) 0 0 p s = Ok ((Ptr q, 1, 1), s') /\ mem s' q = Some (OBytes b') /\
  pixv b 2 4 0 0 0 + pixv b 2 4 1 0 0 + pixv b 2 4 0 1 0 + pixv b 2 4 1 1 0 = 200 /\ pix b' 1 4 0 0 0 = Some 33.
Proof. exact half_not_mean. Qed.
Print Assumptions C67_half_mean_refuted.

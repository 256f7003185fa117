(** * Theorems C08-C10: trim *)
From Verif Require Import Base F Heap Spec Spec_Trim M_Trim P_Trim ExUtil.

(** ** C08: the result is the trim box of the picture, which is unique *)
Theorem C08_trim : forall w h ch s p b,
  wf s -> 0 < w <= 2147483647 -> 0 < h <= 2147483647 -> 0 < ch -> w * h * ch <= 4294967296 ->
  holds s p b -> image (w * h * ch) b ->
  returns_sized s (trim w h ch p s) (fun w' h' b' =>
    exists l r t bt, trim_box 0 b w h ch l r t bt /\ is_box b w ch l r t bt w' h' b').
Proof. exact trim_ok. Qed.
Print Assumptions C08_trim.

Theorem C08_box_unique : forall tol b w h ch l r t bt l' r' t' bt',
  trim_box tol b w h ch l r t bt -> trim_box tol b w h ch l' r' t' bt' ->
  l = l' /\ r = r' /\ t = t' /\ bt = bt'.
Proof. exact trim_box_unique. Qed.
Print Assumptions C08_box_unique.

Theorem C08_rejects : forall w h ch s p pct,
  p = Null \/ w <= 0 \/ h <= 0 \/ ch = 0 ->
  trim w h ch p s = Ok (Null, w, h, s) /\ trim_threshold w h ch p pct s = Ok (Null, w, h, s).
Proof. exact trim_rejects. Qed.
Print Assumptions C08_rejects.

(** A 5x4 one-channel picture with a border of 9s, uneven on the four sides. *)
Definition trim_pic : list Z :=
  [ 9;9;9;9;9;
    9;9;1;2;9;
    9;9;3;4;9;
    9;9;9;9;9 ].
Definition sized_bytes (r : res (ptr * Z * Z * st)) : option (Z * Z * list (option Z)) :=
  match r with
  | Ok (p, w, h, s) => match out_bytes (Ok (p, s)) with Some l => Some (w, h, l) | None => None end
  | _ => None
  end.
Lemma trim_pic_hyps : wf (st1 trim_pic) /\ holds (st1 trim_pic) (Ptr 0) (of_list trim_pic) /\
  image (5 * 4 * 1) (of_list trim_pic).
Proof. split; [apply wf_st1|]. split; [apply holds_st1|]. apply image_of_list; reflexivity. Qed.
Example C08_ex :
  (wf (st1 trim_pic) /\ holds (st1 trim_pic) (Ptr 0) (of_list trim_pic) /\ image (5 * 4 * 1) (of_list trim_pic)) /\
  sized_bytes (trim 5 4 1 (Ptr 0) (st1 trim_pic)) = Some (2, 2, map Some [1;2;3;4]) /\
  sized_bytes (trim 5 4 1 (Ptr 0) (st1_oom trim_pic)) = None.
Proof. split; [exact trim_pic_hyps|]. split; vm_compute; reflexivity. Qed.

(** ** C09: trim with a tolerance.  [T] turns the percentage into a difference of
    0..255; it is non-decreasing and floor(255 n / 100) for whole percentages
    n (so 0 up to 0 %, 255 from 100 %). *)
Theorem C09_trim_threshold : exists T : f64 -> Z,
  (forall n, 0 <= n <= 100 -> T (d_of_Z n) = n * 255 / 100) /\
  (forall p q, dfinite p = true -> dfinite q = true -> dle p q = true -> T p <= T q) /\
  (forall p, dfinite p = true -> 0 <= T p <= 255) /\
  (forall w h ch s p pct, dfinite pct = true -> T pct = 0 -> trim_threshold w h ch p pct s = trim w h ch p s) /\
  forall w h ch s p b pct,
  wf s -> 0 < w <= 2147483647 -> 0 < h <= 2147483647 -> 0 < ch -> w * h * ch <= 4294967296 ->
  holds s p b -> image (w * h * ch) b -> dfinite pct = true ->
  returns_sized s (trim_threshold w h ch p pct s) (fun w' h' b' =>
    exists l r t bt, trim_box (T pct) b w h ch l r t bt /\ is_box b w ch l r t bt w' h' b').
Proof. exact trim_threshold_spec. Qed.
Print Assumptions C09_trim_threshold.

Theorem C09_not_finite : forall w h ch s p pct, dfinite pct = false ->
  trim_threshold w h ch p pct s = Ok (Null, w, h, s).
Proof. exact trim_threshold_nonfinite. Qed.
Print Assumptions C09_not_finite.

(** A larger tolerance trims at least as many columns on the left. *)
Theorem C09_larger_tolerance : forall tol tol' b w h ch l r t bt l' r' t' bt', tol <= tol' ->
  trim_box tol b w h ch l r t bt -> trim_box tol' b w h ch l' r' t' bt' -> l <= l'.
Proof. exact trim_left_mono. Qed.
Print Assumptions C09_larger_tolerance.

Example C09_ex :
  (wf (st1 trim_pic) /\ holds (st1 trim_pic) (Ptr 0) (of_list trim_pic) /\ image (5 * 4 * 1) (of_list trim_pic)) /\
  dfinite (d_of_Z 2) = true /\
  sized_bytes (trim_threshold 5 4 1 (Ptr 0) (d_of_Z 2) (st1 trim_pic)) = Some (2, 1, map Some [9;9]) /\
  sized_bytes (trim_threshold 5 4 1 (Ptr 0) (d_of_Z 3) (st1 trim_pic)) = Some (1, 1, map Some [9]) /\
  sized_bytes (trim_threshold 5 4 1 (Ptr 0) (d_of_Z (-7)) (st1 trim_pic)) = Some (2, 2, map Some [1;2;3;4]).
Proof. split; [exact trim_pic_hyps|]. do 3 (split; [vm_compute; reflexivity|]). vm_compute; reflexivity. Qed.

(** ** C10: trim is not idempotent: dropping a uniform row can make columns uniform *)
Definition trim_twice : list Z := [ 5;5;5; 1;2;3 ].
Theorem C10_trim_idempotent_refuted : exists b1 b2,
  image (3 * 2 * 1) (of_list trim_twice) /\
  calls_sized (fun w h p => trim w h 1 p) 3 2 (of_list trim_twice) 3 1 b1 /\
  calls_sized (fun w h p => trim w h 1 p) 3 1 b1 1 1 b2.
Proof.
  exists (out_buf (match trim 3 2 1 (Ptr 0) (st1 trim_twice) with Ok (p, _, _, s) => Ok (p, s) | _ => UB UseAfterFree end)).
  eexists. split; [apply image_of_list; reflexivity|]. split.
  - exists (st1 trim_twice), (Ptr 0), (Ptr 1). eexists. split; [apply wf_st1|]. split; [apply holds_st1|].
    split; [vm_compute; reflexivity|]. exists 1. split; vm_compute; reflexivity.
  - eexists (stb _), (Ptr 0), (Ptr 1). eexists.
    split; [intros i Hi; cbn [stb mem nxt] in *; unfold upd; destruct (Z.eqb_spec 0 i); [lia|destruct (Z.eqb_spec i 0); [lia|reflexivity]]|].
    split; [exists 0; split; reflexivity|]. split; [vm_compute; reflexivity|].
    exists 1. split; vm_compute; reflexivity.
Qed.
Print Assumptions C10_trim_idempotent_refuted.

(** What does hold: if the first trim drops no row, a second trim changes nothing. *)
Theorem C10_trim_idempotent_partial : forall w h ch b w' b' w'' h'' b'',
  0 < w <= 2147483647 -> 0 < h <= 2147483647 -> 0 < ch -> w * h * ch <= 4294967296 ->
  image (w * h * ch) b ->
  calls_sized (fun w h p => trim w h ch p) w h b w' h b' ->
  calls_sized (fun w h p => trim w h ch p) w' h b' w'' h'' b'' ->
  w'' = w' /\ h'' = h /\ same_bytes (w' * h * ch) b' b''.
Proof. exact trim_idempotent_rows. Qed.
Print Assumptions C10_trim_idempotent_partial.

Example C10_ex : image (3 * 2 * 1) (of_list [7;1;2; 7;3;4]) /\
  sized_bytes (trim 3 2 1 (Ptr 0) (st1 [7;1;2; 7;3;4])) = Some (2, 2, map Some [1;2;3;4]) /\
  sized_bytes (trim 2 2 1 (Ptr 0) (st1 [1;2;3;4])) = Some (2, 2, map Some [1;2;3;4]).
Proof. split; [apply image_of_list; reflexivity|]. split; vm_compute; reflexivity. Qed.

(** * T_Detect: theorems about fcv_detect_corners *)
From Coq Require Import Reals.
From Verif Require Import Base F Heap Spec ExUtil Spec_Morph Spec_Corners Spec_Detect M_Detect P_Blur P_Corners P_Detect P_Black.
From Verif Require Spec_Blur.
Local Open Scope Z_scope.

(** ** C50: what happens for every picture, as long as no allocation fails.  The
    statement is false when fewer than four peaks are found: then the behaviour is
    undefined (see the refutation below).  Missing: what happens when an allocation other than the first
    fails. *)
Theorem C50_detect_partial : forall ex at2 asin fuel w h s p b, Spec_Blur.exp_ok ex -> atan2_ok at2 ->
  0 < w -> 0 < h -> w * h <= 1073741824 -> 66565 < Z.of_nat fuel -> wf s -> holds s p b -> image (w * h * 4) b ->
  (forall n, orc s n = true) ->
  detection at2 asin w h b s (detect_corners ex at2 asin fuel p w h s).
Proof. exact detect_main. Qed.
Print Assumptions C50_detect_partial.

(** NULL or an empty picture ends the program. *)
Theorem C50_rejects : forall ex at2 asin fuel w h s p, p = Null \/ w <= 0 \/ h <= 0 ->
  detect_corners ex at2 asin fuel p w h s = Abort.
Proof. exact detect_rejects. Qed.
Print Assumptions C50_rejects.

(** Without any memory, the corners of the picture are returned. *)
Theorem C50_no_memory : forall ex at2 asin fuel w h s p b, wf s -> 0 < w -> 0 < h -> w * h <= 1073741824 ->
  holds s p b -> image (w * h * 4) b -> (forall n, (tick s <= n)%nat -> orc s n = false) ->
  exists s', same_mem s s' /\ detect_corners ex at2 asin fuel p w h s =
    Ok (mkc (d0, d0) (d_of_Z (w - 1), d0) (d_of_Z (w - 1), d_of_Z (h - 1)) (d0, d_of_Z (h - 1)), s').
Proof. exact detect_no_memory. Qed.
Print Assumptions C50_no_memory.

Example C50_ex : Spec_Blur.exp_ok exp_round /\ atan2_ok toy_atan2 /\
  wf (st1 [255; 0; 0; 255; 9; 9; 9; 255]) /\ holds (st1 [255; 0; 0; 255; 9; 9; 9; 255]) (Ptr 0) (of_list [255; 0; 0; 255; 9; 9; 9; 255]) /\
  image (2 * 1 * 4) (of_list [255; 0; 0; 255; 9; 9; 9; 255]) /\ (forall n, orc (st1 [255; 0; 0; 255; 9; 9; 9; 255]) n = true) /\
  (forall n, orc (st1_oom [255; 0; 0; 255; 9; 9; 9; 255]) n = false).
Proof.
  split; [apply exp_round_ok|]. split; [apply toy_ok|]. split; [apply wf_st1|]. split; [apply holds_st1|].
  split; [apply image_of_list; reflexivity|]. split; reflexivity.
Qed.

(** Refuted: for every black picture the behaviour is undefined (an uninitialised
    corner is read). *)
Theorem C50_black_refuted : forall ex at2 asin fuel w h s p b, Spec_Blur.exp_ok ex -> atan2_ok at2 ->
  0 < w -> 0 < h -> w * h <= 1073741824 -> 66565 < Z.of_nat fuel -> wf s -> holds s p b -> image (w * h * 4) b ->
  (forall n, orc s n = true) -> all_black w h b ->
  exists u, detect_corners ex at2 asin fuel p w h s = UB u.
Proof. exact detect_black. Qed.
Print Assumptions C50_black_refuted.

Example C50_black : wf (st1 [0; 0; 0; 255; 0; 0; 0; 0]) /\ holds (st1 [0; 0; 0; 255; 0; 0; 0; 0]) (Ptr 0) (of_list [0; 0; 0; 255; 0; 0; 0; 0]) /\
  image (2 * 1 * 4) (of_list [0; 0; 0; 255; 0; 0; 0; 0]) /\ (forall n, orc (st1 [0; 0; 0; 255; 0; 0; 0; 0]) n = true) /\
  all_black 2 1 (of_list [0; 0; 0; 255; 0; 0; 0; 0]).
Proof.
  split; [apply wf_st1|]. split; [apply holds_st1|]. split; [apply image_of_list; reflexivity|]. split; [reflexivity|].
  intros x y c [Hx Hy] Hc. assert (Hx' : x = 0 \/ x = 1) by lia. assert (y = 0) as -> by lia.
  assert (Hc' : c = 0 \/ c = 1 \/ c = 2) by lia. destruct Hx' as [-> | ->], Hc' as [-> | [-> | ->]]; reflexivity.
Qed.

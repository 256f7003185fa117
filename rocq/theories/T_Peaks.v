(** * Theorems C35, C64: corner peaks *)
From Verif Require Import Base F Heap Spec Spec_Peaks M_Peaks P_Peaks ExUtil.

(** ** C35: the points returned are local maxima above the thresholds, at least
    the minimum distance apart, the strongest among them *)
Theorem C35_corner_peaks : forall w h s p b md acc rnd,
  wf s -> 0 < w <= 33554432 -> 0 < h <= 33554432 -> w * h <= 2147483648 ->
  is_u32 md -> dfinite acc = true -> dfinite rnd = true -> holds s p b -> image (w * h * 2) b ->
  returns_peaks s (corner_peaks w h p md acc rnd s) (peaks_of w h b md acc rnd).
Proof. exact corner_peaks_ok. Qed.
Print Assumptions C35_corner_peaks.

Theorem C35_rejects : forall w h s p md acc rnd, is_u32 w -> is_u32 h ->
  (p = Null \/ w = 0 \/ h = 0 \/ dfinite acc = false \/ dfinite rnd = false) ->
  corner_peaks w h p md acc rnd s = Ok (Null, s).
Proof. exact corner_peaks_rejects. Qed.
Print Assumptions C35_rejects.

(** Three local maxima; all are kept when they may be 2 apart, and one when they
    must be 3 apart. *)
Example C35_ex :
  (wf (st1 chain3) /\ holds (st1 chain3) (Ptr 0) (of_list chain3) /\ image (7 * 3 * 2) (of_list chain3)) /\
  out_peaks (corner_peaks 7 3 (Ptr 0) 2 d0 d0 (st1 chain3)) = Some [Some (1, 1); Some (3, 1); Some (5, 1)] /\
  out_peaks (corner_peaks 7 3 (Ptr 0) 3 d0 d0 (st1 chain3)) = Some [Some (5, 1)] /\
  out_peaks (corner_peaks 7 3 (Ptr 0) 2 (lit 1 20) d0 (st1 chain3)) = Some [Some (3, 1); Some (5, 1)].
Proof.
  split; [split; [apply wf_st1|]; split; [apply holds_st1|apply chain3_image]|].
  do 2 (split; [vm_compute; reflexivity|]). vm_compute; reflexivity.
Qed.

(** ** C64: refuted: the left one of the three local maxima gives way to the
    middle one, which gives way to the right one, so that no peak is returned
    within the minimum distance of the left one *)
Theorem C64_covered_refuted : exists w h s p b md acc rnd i s' k n pts q,
  wf s /\ holds s p b /\ image (w * h * 2) b /\ corner_peaks w h p md acc rnd s = Ok (Ptr i, s') /\
  mem s' i = Some (OPeaks (Some k) n) /\ mem s' k = Some (OPts pts) /\
  local_max w h b acc rnd q /\
  forall t, 0 <= t < n -> exists x y, bget pts t = Some (d_of_Z x, d_of_Z y) /\ md * md <= dist2 q (x, y).
Proof. exact coverage_fails. Qed.
Print Assumptions C64_covered_refuted.

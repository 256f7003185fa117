(** * Theorems C29-C31, C57: the EXIF reader *)
From Verif Require Import Base F Heap Spec Spec_Exif M_Exif P_Exif.

(** ** C29: the orientation stored in the file is returned *)
Theorem C29_orientation : forall segs size le off n es e es' v pad tiff fuel,
  Forall segment_ok segs -> 0 <= size < 65536 -> tiff_with le off n (es ++ e :: es') tiff ->
  Forall (fun e => e_tag e <> ORIENTATION) es -> e_tag e = ORIENTATION ->
  e_value e = num16 le v ++ pad -> 0 <= v < 65536 ->
  len (exif_file segs size tiff) < Z.of_nat fuel ->
  get_exif_orientation fuel (Some (exif_file segs size tiff)) = Ok v.
Proof. exact exif_found. Qed.
Print Assumptions C29_orientation.

(** An Exif segment without the tag. *)
Theorem C29_no_tag : forall segs size le off es tiff fuel,
  Forall segment_ok segs -> 0 <= size < 65536 -> tiff_with le off (len (map e_tag es)) es tiff ->
  Forall (fun e => e_tag e <> ORIENTATION) es ->
  len (exif_file segs size tiff) < Z.of_nat fuel ->
  get_exif_orientation fuel (Some (exif_file segs size tiff)) = Ok 1.
Proof. exact exif_absent. Qed.
Print Assumptions C29_no_tag.

(** No Exif segment before the end of the file, the end-of-image or the
    start-of-scan marker, or something that is not a marker. *)
Theorem C29_no_exif : forall segs rest fuel, Forall segment_ok segs ->
  rest = [] \/ (exists a, rest = [a]) \/ (exists a b rest', rest = a :: b :: rest' /\ (a <> 255 \/ b = 217 \/ b = 218)) ->
  len ([255; 216] ++ segments_bytes segs ++ rest) < Z.of_nat fuel ->
  get_exif_orientation fuel (Some ([255; 216] ++ segments_bytes segs ++ rest)) = Ok 1.
Proof. exact no_exif. Qed.
Print Assumptions C29_no_exif.

(** No such file, or not a JPEG. *)
Theorem C29_not_jpeg : forall fuel, get_exif_orientation fuel None = Ok 1 /\
  forall f, (forall rest, f <> [255; 216] ++ rest) -> get_exif_orientation fuel (Some f) = Ok 1.
Proof. exact not_jpeg. Qed.
Print Assumptions C29_not_jpeg.

(** A file with a JFIF segment, an XMP-like APP1 segment and an Exif segment
    whose third entry is the orientation. *)
Example C29_ex : Forall segment_ok sample_segs /\
  tiff_with true 10 3 (sample_es ++ sample_entry 6 :: []) (sample_tiff 6) /\
  get_exif_orientation 100 (Some (exif_file sample_segs 1000 (sample_tiff 6))) = Ok 6 /\
  get_exif_orientation 100 (Some (exif_file [] 1000 ([77; 77] ++ num16 false 42 ++ num32 false 8 ++ num16 false 1 ++
    entry_bytes false (mkentry ORIENTATION 3 1 [0; 8; 0; 0])))) = Ok 8.
Proof.
  split; [exact sample_segs_ok|]. split; [apply sample_tiff_ok; unfold byte; lia|]. split; vm_compute; reflexivity.
Qed.

(** ** C30: termination.  False: any file that stops right after a marker
    makes the reader loop for ever, however long it is given. *)
Theorem C30_terminates_refuted : forall segs m fuel,
  Forall segment_ok segs -> byte m -> m <> 217 -> m <> 218 -> m <> 225 ->
  get_exif_orientation fuel (Some ([255; 216] ++ segments_bytes segs ++ [255; m])) = Hang.
Proof. exact dangling. Qed.
Print Assumptions C30_terminates_refuted.

Example C30_hang_ex : Forall segment_ok sample_segs /\ byte 192 /\ 192 <> 217 /\ 192 <> 218 /\ 192 <> 225.
Proof. split; [exact sample_segs_ok|]. unfold byte. lia. Qed.

(** Every other file is read in a number of rounds bounded by its length. *)
Theorem C30_terminates_partial : forall f fuel,
  bytes f -> ~ ends_in_marker f -> len f < Z.of_nat fuel ->
  get_exif_orientation fuel (Some f) <> Hang.
Proof. exact exif_terminates. Qed.
Print Assumptions C30_terminates_partial.

Example C30_ex : bytes (exif_file sample_segs 1000 (sample_tiff 9)) /\ ~ ends_in_marker (exif_file sample_segs 1000 (sample_tiff 9)).
Proof.
  split; [exact sample_bytes|]. intros (pre & m & E & N1 & N2 & N3).
  apply (f_equal (@rev Z)) in E. rewrite rev_app_distr in E. vm_compute in E. injection E as E1 _. congruence.
Qed.

(** ** C31: the result is not always 1..8, but always fits in 16 bits *)
Theorem C31_range_refuted : exists f, bytes f /\ forall fuel, len f < Z.of_nat fuel ->
  exists v, get_exif_orientation fuel (Some f) = Ok v /\ ~ (1 <= v <= 8).
Proof. exact range_refuted. Qed.
Print Assumptions C31_range_refuted.

Theorem C31_range_partial : forall f fuel v, bytes f -> get_exif_orientation fuel (Some f) = Ok v -> 0 <= v < 65536.
Proof. exact exif_range. Qed.
Print Assumptions C31_range_partial.

Example C31_ex : bytes (exif_file sample_segs 1000 (sample_tiff 9)) /\
  get_exif_orientation 100 (Some (exif_file sample_segs 1000 (sample_tiff 9))) = Ok 9.
Proof. split; [exact sample_bytes|]. vm_compute; reflexivity. Qed.

(** ** C57: the reader shifts a byte of 128 or more left by 24 *)
Theorem C57_shift_refuted : exists f, bytes f /\ forall fuel, (0 < fuel)%nat -> get_exif_orientation fuel (Some f) = UB BadShift.
Proof. exact exif_ub. Qed.
Print Assumptions C57_shift_refuted.

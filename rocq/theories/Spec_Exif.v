(** * Spec_Exif: the JPEG/EXIF file format, as far as the orientation is concerned *)
From Verif Require Import Base F Heap Spec.

Definition bytes (l : list Z) : Prop := Forall byte l.
Definition len (l : list Z) : Z := Z.of_nat (length l).

(** 16- and 32-bit numbers, little- or big-endian. *)
Definition num16 (le : bool) (n : Z) : list Z :=
  if le then [n mod 256; n / 256] else [n / 256; n mod 256].
Definition num32 (le : bool) (n : Z) : list Z :=
  if le then [n mod 256; n / 256 mod 256; n / 65536 mod 256; n / 16777216]
  else [n / 16777216; n / 65536 mod 256; n / 256 mod 256; n mod 256].

Definition exif_id : list Z := [69; 120; 105; 102; 0; 0]. (* "Exif\0\0" *)

(** A JPEG segment that is not the Exif segment: marker FF m, big-endian size
    (which counts itself), payload. *)
Definition segment := (Z * list Z)%type.
Definition segment_ok (g : segment) : Prop :=
  let '(m, p) := g in
  byte m /\ m <> 217 /\ m <> 218 /\ bytes p /\ len p + 2 < 65536 /\
  (m = 225 -> 6 <= len p /\ firstn 6 p <> exif_id).
Definition segment_bytes (g : segment) : list Z :=
  let '(m, p) := g in [255; m] ++ num16 false (len p + 2) ++ p.
Definition segments_bytes (l : list segment) : list Z := concat (map segment_bytes l).

(** An IFD entry: tag, type, count and a 4-byte value field. *)
Record entry := mkentry { e_tag : Z; e_type : Z; e_count : Z; e_value : list Z }.
Definition entry_ok (e : entry) : Prop :=
  0 <= e_tag e < 65536 /\ 0 <= e_type e < 65536 /\ 0 <= e_count e < 2147483648 /\
  bytes (e_value e) /\ len (e_value e) = 4.
Definition entry_bytes (le : bool) (e : entry) : list Z :=
  num16 le (e_tag e) ++ num16 le (e_type e) ++ num32 le (e_count e) ++ e_value e.
Definition ORIENTATION : Z := 274. (* 0x0112 *)

(** A file: start of image, other segments, the Exif segment marker, its size,
    the Exif identifier, then [tiff] (which extends to the end of the file). *)
Definition exif_file (segs : list segment) (size : Z) (tiff : list Z) : list Z :=
  [255; 216] ++ segments_bytes segs ++ [255; 225] ++ num16 false size ++ exif_id ++ tiff.

(** [tiff] starts with a TIFF header whose first directory, at offset [off],
    announces [n] entries and begins with the entries [es]. *)
Definition tiff_with (le : bool) (off n : Z) (es : list entry) (tiff : list Z) : Prop :=
  0 <= off < 2147483648 /\ 0 <= n < 65536 /\ Forall entry_ok es /\ len (map e_tag es) <= n /\
  (exists rest, tiff = (if le then [73; 73] else [77; 77]) ++ num16 le 42 ++ num32 le off ++ rest) /\
  (exists rest, skipn (Z.to_nat off) tiff = num16 le n ++ concat (map (entry_bytes le) es) ++ rest).

(** The file ends with a marker FF m other than EOI, SOS and APP1. *)
Definition ends_in_marker (f : list Z) : Prop :=
  exists pre m, f = pre ++ [255; m] /\ m <> 217 /\ m <> 218 /\ m <> 225.

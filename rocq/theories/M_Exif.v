(** * Model of src/exif.c

    A file is its list of bytes ([None]: it cannot be opened) and the stream a
    position in it, which may lie beyond the end.  The stdio calls are modelled
    here as the C standard and POSIX describe them for a regular file: [fread]
    returns the bytes that are left if fewer are available than requested, and
    [fseek] to a negative position fails without moving. *)
From Verif Require Import Base F.

Definition flen (f : list Z) : Z := Z.of_nat (length f).

(** fread(buf, 1, n, file): [Some] bytes if all [n] could be read *)
Definition fread (f : list Z) (pos n : Z) : option (list Z) * Z :=
  if pos + n <=? flen f
  then (Some (firstn (Z.to_nat n) (skipn (Z.to_nat pos) f)), pos + n)
  else (None, Z.max pos (flen f)).
(** fseek(file, off, SEEK_CUR) *)
Definition fseek_cur (pos off : Z) : Z := if pos + off <? 0 then pos else pos + off.
(** fseek(file, off, SEEK_SET) *)
Definition fseek_set (pos off : Z) : Z := if off <? 0 then pos else off.

(** exif.c:9-18 [read_u16]; the bytes do not overlap, so | is + *)
Definition read_u16 (f : list Z) (pos : Z) (le : bool) : Z * Z :=
  match fread f pos 2 with
  | (Some [b0; b1], pos) => (if le then b0 + b1 * 256 else b0 * 256 + b1, pos)
  | (_, pos) => (0, pos)
  end.

(** exif.c:20-29 [read_u32]; shifting a byte of 128 or more left by 24
    overflows int *)
Definition shl24 (b : Z) : res Z := if 128 <=? b then UB BadShift else Ok (b * 16777216).
Definition read_u32 (f : list Z) (pos : Z) (le : bool) : res (Z * Z) :=
  match fread f pos 4 with
  | (Some [b0; b1; b2; b3], pos) =>
      if le then t <- shl24 b3 ;; Ok (b0 + b1 * 256 + b2 * 65536 + t, pos)
      else t <- shl24 b0 ;; Ok (t + b1 * 65536 + b2 * 256 + b3, pos)
  | (_, pos) => Ok (0, pos)
  end.

(** exif.c:91-104: the entries of the directory; [inr]: the orientation *)
Definition ifd_loop (f : list Z) (le : bool) (num_entries pos : Z) : res (Z + Z) :=
  for_brk 0 num_entries (fun _ pos =>
    let '(tag, pos) := read_u16 f pos le in
    let '(_, pos) := read_u16 f pos le in
    c <- read_u32 f pos le ;;
    let '(_, pos) := c in
    if tag =? 274 then
      let '(orientation, _) := read_u16 f pos le in
      Ok (inr orientation)
    else Ok (inl (fseek_cur pos 4))) pos.

(** exif.c:67-105: from the TIFF header on; 1 if the loop is left by break *)
Definition read_tiff (f : list Z) (tiff_start : Z) : res Z :=
  match fread f tiff_start 2 with
  | (Some [h0; h1], pos) =>
      let is_little_endian := (h0 =? 73) && (h1 =? 73) in
      let is_big_endian := (h0 =? 77) && (h1 =? 77) in
      if negb is_little_endian && negb is_big_endian then Ok 1 else
      let '(magic, pos) := read_u16 f pos is_little_endian in
      if negb (magic =? 42) then Ok 1 else
      o <- read_u32 f pos is_little_endian ;;
      let '(ifd_offset, pos) := o in
      let pos := fseek_set pos (tiff_start + ifd_offset) in
      let '(num_entries, pos) := read_u16 f pos is_little_endian in
      r <- ifd_loop f is_little_endian num_entries pos ;;
      match r with inr orientation => Ok orientation | inl _ => Ok 1 end
  | _ => Ok 1
  end.

(** exif.c:62 memcmp(exif_header, "Exif\0\0", 6) == 0 *)
Definition is_exif_header (h : list Z) : bool :=
  match h with
  | [a; b; c; d; e; g] => (a =? 69) && (b =? 120) && (c =? 105) && (d =? 102) && (e =? 0) && (g =? 0)
  | _ => false
  end.

(** exif.c:45-109: one iteration of the marker loop; [inr]: the result *)
Definition marker_body (f : list Z) (pos : Z) : res (Z + Z) :=
  match fread f pos 2 with
  | (Some [m0; m1], pos) =>
      if negb (m0 =? 255) then Ok (inr 1) else
      if (m1 =? 217) || (m1 =? 218) then Ok (inr 1) else
      let '(size, pos) := read_u16 f pos false in
      if m1 =? 225 then
        match fread f pos 6 with
        | (Some h, pos) =>
            if negb (is_exif_header h) then Ok (inl (fseek_cur pos (size - 2 - 6)))
            else r <- read_tiff f pos ;; Ok (inr r)
        | (None, _) => Ok (inr 1)
        end
      else Ok (inl (fseek_cur pos (size - 2)))
  | _ => Ok (inr 1)
  end.

(** exif.c:31-114 [fcv_get_exif_orientation]; fclose is not modelled *)
Definition get_exif_orientation (fuel : nat) (file : option (list Z)) : res Z :=
  match file with
  | None => Ok 1
  | Some f =>
      match fread f 0 2 with
      | (Some [h0; h1], pos) =>
          if negb (h0 =? 255) || negb (h1 =? 216) then Ok 1
          else while_ fuel (marker_body f) pos
      | _ => Ok 1
      end
  end.

(** * Model of the Haskell binding: bindings/flatcv-hs/src/FlatCV.hs

    The functions that take and return vectors of bytes.  Raw.chs passes its
    arguments on unchanged (simplification: also a NaN or an infinity), so that a
    call of Raw.fcv_f is a call of the C function.  A text argument is the
    NUL-terminated string withCString makes of it.  [None]: an exception is thrown.
    The pointer-based functions (FlatCV.hs:653-742) are the C functions themselves. *)
From Verif Require Import Base F Heap M_Persp Spec_Corners M_Color M_Geom M_Trim M_Hist M_Morph M_Draw M_Resize M_Blur
  M_Sobel M_Watershed M_Foerstner M_Peaks M_Corners M_Otsu M_Smart M_Detect M_Cli.

(** Data.Vector.Storable: the address of the first byte and the number of bytes
    (simplification: not a slice, so that the address is that of a block) *)
Record vec := mkvec { v_ptr : ptr; v_len : Z }.

(** Data.Vector.Storable.toList: reading all elements; the library trusts the length. *)
Fixpoint read_from (b : buf Z) (i : Z) (n : nat) : res (list Z) :=
  match n with
  | O => Ok []
  | S n => v <- load b i ;; r <- read_from b (i + 1) n ;; Ok (v :: r)
  end.
Definition read_vec (v : vec) : M (list Z) :=
  b <-- get_bytes (v_ptr v) ;;
  lift (read_from b 0 (Z.to_nat (v_len v))).

(** The finalizer (FlatCV.hs:272, 277), run by the garbage collector when the
    vector is no longer in use *)
Definition finalize (v : vec) : M unit := free (v_ptr v).

(** FlatCV.hs:275-278 [makeVector] *)
Definition makeVector (outPtr : ptr) (len : Z) : vec := mkvec outPtr len.

(** FlatCV.hs:281-286 [withImageData]; [outputLen] is a Word32 *)
Definition withImageData (input : vec) (action : ptr -> M ptr) (outputLen : Z) : M (option vec) :=
  outPtr <-- action (v_ptr input) ;;
  if is_null outPtr then ret None else ret (Some (makeVector outPtr (u32 outputLen))).

(** Data.Vector.Storable.thaw: a copy; memory exhaustion is an exception *)
Definition thaw (input : vec) : M (option vec) :=
  b <-- get_bytes (v_ptr input) ;;
  out <-- alloc (OBytes (bnew (v_len input))) ;;
  if is_null out then ret None else
  ob <-- get_bytes out ;;
  ob <-- lift (bcopy ob 0 b 0 (v_len input)) ;;
  _ <-- put_bytes out ob ;;
  ret (Some (mkvec out (v_len input))).

(** Products of type Word32 and Int32 *)
Definition mul3 (a b c : Z) : Z := u32 (u32 (a * b) * c).
Definition mul3_i32 (a b c : Z) : Z := s32 (s32 (a * b) * c).

(** FlatCV.hs:293-310 *)
Definition hs_grayscale (width height : Z) (input : vec) : M (option vec) :=
  withImageData input (fun p => grayscale width height p) (mul3 width height 4).
Definition hs_grayscaleStretch (width height : Z) (input : vec) : M (option vec) :=
  withImageData input (fun p => grayscale_stretch width height p) (mul3 width height 4).
Definition hs_rgbaToGrayscale (width height : Z) (input : vec) : M (option vec) :=
  withImageData input (fun p => rgba_to_grayscale width height p) (u32 (width * height)).
Definition hs_singleToMultichannel (width height : Z) (input : vec) : M (option vec) :=
  withImageData input (fun p => single_to_multichannel width height p) (mul3 width height 4).

(** FlatCV.hs:337-342 [applyGlobalThreshold] *)
Definition hs_applyGlobalThreshold (imgLen threshold : Z) (input : vec) : M (option vec) :=
  output <-- thaw input ;;
  match output with
  | None => ret None
  | Some output =>
      b <-- get_bytes (v_ptr output) ;;
      b <-- lift (apply_global_threshold imgLen threshold b) ;;
      _ <-- put_bytes (v_ptr output) b ;;
      ret (Some output)
  end.

(** FlatCV.hs:327-329 *)
Definition hs_otsuThreshold (width height : Z) (useDouble : bool) (input : vec) : M (option vec) :=
  withImageData input (fun p => otsu_threshold_rgba width height useDouble p) (mul3 width height 4).

(** FlatCV.hs:349-356 *)
Definition hs_sobelEdgeDetection (width height channels : Z) (input : vec) : M (option vec) :=
  withImageData input (fun p => sobel_edge_detection width height channels p) (mul3 width height channels).
Definition hs_foerstnerCorner (width height : Z) (sigma : f64) (input : vec) : M (option vec) :=
  withImageData input (fun p => foerstner_corner width height p sigma) (mul3 width height 4).

(** FlatCV.hs:363-384 *)
Definition hs_binaryDilationDisk (width height radius : Z) (input : vec) : M (option vec) :=
  withImageData input (fun p => binary_dilation_disk p width height radius) (mul3_i32 width height 4).
Definition hs_binaryErosionDisk (width height radius : Z) (input : vec) : M (option vec) :=
  withImageData input (fun p => binary_erosion_disk p width height radius) (mul3_i32 width height 4).
Definition hs_binaryClosingDisk (width height radius : Z) (input : vec) : M (option vec) :=
  withImageData input (fun p => binary_closing_disk p width height radius) (mul3_i32 width height 4).
Definition hs_binaryOpeningDisk (width height radius : Z) (input : vec) : M (option vec) :=
  withImageData input (fun p => binary_opening_disk p width height radius) (mul3_i32 width height 4).

(** FlatCV.hs:391-423 *)
Definition hs_flipX (width height : Z) (input : vec) : M (option vec) :=
  withImageData input (fun p => flip_x width height p) (mul3 width height 4).
Definition hs_flipY (width height : Z) (input : vec) : M (option vec) :=
  withImageData input (fun p => flip_y width height p) (mul3 width height 4).
Definition hs_transpose (width height : Z) (input : vec) : M (option vec) :=
  withImageData input (fun p => transpose width height p) (mul3 width height 4).
Definition hs_transverse (width height : Z) (input : vec) : M (option vec) :=
  withImageData input (fun p => transverse width height p) (mul3 width height 4).
Definition hs_rotate90CW (width height : Z) (input : vec) : M (option vec) :=
  withImageData input (fun p => rotate_90_cw width height p) (mul3 width height 4).
Definition hs_rotate180 (width height : Z) (input : vec) : M (option vec) :=
  withImageData input (fun p => rotate_180 width height p) (mul3 width height 4).
Definition hs_rotate270CW (width height : Z) (input : vec) : M (option vec) :=
  withImageData input (fun p => rotate_270_cw width height p) (mul3 width height 4).

(** FlatCV.hs:427-437 [resize]; the cells for the size are local, their previous
    contents (0 here) are never read *)
Definition hs_resize (width height : Z) (scaleX scaleY : f64) (input : vec) : M (option (Z * Z * vec)) :=
  r <-- resize width height scaleX scaleY 0 0 (v_ptr input) ;;
  let '(outPtr, outW, outH) := r in
  if is_null outPtr then ret None else ret (Some (outW, outH, makeVector outPtr (mul3 outW outH 4))).

(** FlatCV.hs:444-447 *)
Definition hs_crop (width height channels x y newWidth newHeight : Z) (input : vec) : M (option vec) :=
  withImageData input (fun p => crop width height channels p x y newWidth newHeight) (mul3 newWidth newHeight channels).

(** FlatCV.hs:451-463 [trim]: the length is an Int32 (fromIntegral channels too) *)
Definition hs_trim (width height channels : Z) (input : vec) : M (option (Z * Z * vec)) :=
  r <-- trim width height channels (v_ptr input) ;;
  let '(outPtr, outW, outH) := r in
  if is_null outPtr then ret None else ret (Some (outW, outH, makeVector outPtr (mul3_i32 outW outH (s32 channels)))).
(** FlatCV.hs:467-479 [trimThreshold] *)
Definition hs_trimThreshold (width height channels : Z) (thresholdPercent : f64) (input : vec) : M (option (Z * Z * vec)) :=
  r <-- trim_threshold width height channels (v_ptr input) thresholdPercent ;;
  let '(outPtr, outW, outH) := r in
  if is_null outPtr then ret None else ret (Some (outW, outH, makeVector outPtr (mul3_i32 outW outH (s32 channels)))).

(** C library: free of the address [p]; the static identity matrix of
    perspectivetransform.c does not come from malloc *)
Definition c_free (identity p : ptr) : M unit :=
  if ptr_eqb p identity then (fun _ => UB BadFree) else free p.

(** FlatCV.hs:486-496 [calculatePerspectiveTransform]; the fields are read at the
    offsets of the nine numbers (lines 239-252), in their order *)
Definition hs_calculatePerspectiveTransform (identity : ptr) (src dst : M_Persp.corners f64) : M (option (list f64)) :=
  matPtr <-- calculate_perspective_transform identity (Some src) (Some dst) ;;
  if is_null matPtr then ret None else
  m <-- get_mat matPtr ;;
  _ <-- c_free identity matPtr ;;
  ret (Some m).

(** FlatCV.hs:499-504 [applyMatrix3x3]; alloca's cell is a block that is released at
    the end; memory exhaustion is an exception *)
Definition hs_applyMatrix3x3 (inWidth inHeight outWidth outHeight : Z) (matrix : list f64) (input : vec) : M (option vec) :=
  matPtr <-- alloc (OMat matrix) ;;
  if is_null matPtr then ret None else
  r <-- withImageData input (fun p => apply_matrix_3x3 inWidth inHeight p outWidth outHeight matPtr)
          (mul3_i32 outWidth outHeight 4) ;;
  _ <-- free matPtr ;;
  ret r.

(** FlatCV.hs:545-560 [drawCircle], [drawDisk] *)
Definition hs_draw (f : Z -> Z -> Z -> option cstr -> f64 -> f64 -> f64 -> ptr -> M unit)
    (width height channels : Z) (hexColor : cstr) (radius centerX centerY : f64) (input : vec) : M (option vec) :=
  output <-- thaw input ;;
  match output with
  | None => ret None
  | Some output =>
      _ <-- f width height channels (Some hexColor) radius centerX centerY (v_ptr output) ;;
      ret (Some output)
  end.
Definition hs_drawCircle := hs_draw draw_circle.
Definition hs_drawDisk := hs_draw draw_disk.

(** FlatCV.hs:564-575 [addBorder] *)
Definition hs_addBorder (width height channels : Z) (hexColor : cstr) (borderWidth : Z) (input : vec) : M (option (Z * Z * vec)) :=
  r <-- add_border width height channels (Some hexColor) borderWidth (v_ptr input) 0 0 ;;
  let '(outPtr, outW, outH) := r in
  if is_null outPtr then ret None else ret (Some (outW, outH, makeVector outPtr (mul3 outW outH channels))).

(** FlatCV.hs:583-593 [generateHistogram] *)
Definition hs_generateHistogram (width height channels : Z) (input : vec) : M (option (Z * Z * vec)) :=
  r <-- generate_histogram width height channels (v_ptr input) 0 0 ;;
  let '(outPtr, outW, outH) := r in
  if is_null outPtr then ret None else ret (Some (outW, outH, makeVector outPtr (mul3 outW outH 4))).

(** FlatCV.hs:600-610 [watershedSegmentation]: the markers are not released when
    withImageData throws *)
Definition hs_watershedSegmentation (fuel : nat) (width height : Z) (markers : list (f64 * f64)) (createBoundaries : bool)
    (input : vec) : M (option vec) :=
  let numMarkers := Z.of_nat (length markers) in
  markersPtr <-- alloc (OPts (of_list markers)) ;;
  if is_null markersPtr then ret None else
  result <-- withImageData input (fun p => watershed fuel width height p markersPtr (u32 numMarkers) createBoundaries)
               (mul3 width height 4) ;;
  match result with
  | None => ret None
  | Some result => _ <-- free markersPtr ;; ret (Some result)
  end.

(** FlatCV.hs:640-645 [convertToBinary] *)
Definition hs_convertToBinary (width height : Z) (fgHex bgHex : cstr) (input : vec) : M (option vec) :=
  withImageData input (fun p => convert_to_binary p width height (Some fgHex) (Some bgHex)) (mul3_i32 width height 4).

Section Haskell.
(** The C library's functions (see M_Detect) *)
Variables (exp : f64 -> f64) (atan2 : f64 -> f64 -> f64) (asin pow2 : f64 -> f64).

(** FlatCV.hs:317-319 *)
Definition hs_gaussianBlur (width height : Z) (radius : f64) (input : vec) : M (option vec) :=
  withImageData input (fun p => apply_gaussian_blur exp width height radius p) (mul3 width height 4).
(** FlatCV.hs:332-334 *)
Definition hs_bwSmart (width height : Z) (useDouble : bool) (input : vec) : M (option vec) :=
  withImageData input (fun p => bw_smart exp width height useDouble p) (mul3 width height 4).

(** FlatCV.hs:507-514 [detectCorners]: the eight numbers in their order (lines 198-208) *)
Definition hs_detectCorners (fuel : nat) (width height : Z) (input : vec) : M (option corners) :=
  cornersPtr <-- detect_corners_ptr exp atan2 asin fuel (v_ptr input) width height ;;
  if is_null cornersPtr then ret None else
  b <-- get_pts cornersPtr ;;
  p0 <-- lift (load b 0) ;;
  p1 <-- lift (load b 1) ;;
  p2 <-- lift (load b 2) ;;
  p3 <-- lift (load b 3) ;;
  _ <-- free cornersPtr ;;
  ret (Some (mkc p0 p1 p2 p3)).

(** FlatCV.hs:521-524 [extractDocument] *)
Definition hs_extractDocument (fuel : nat) (identity : ptr) (width height outWidth outHeight : Z) (input : vec) : M (option vec) :=
  withImageData input (fun p => extract_document exp atan2 asin fuel identity width height p outWidth outHeight)
    (mul3 outWidth outHeight 4).
(** FlatCV.hs:528-538 [extractDocumentAuto] *)
Definition hs_extractDocumentAuto (fuel : nat) (identity : ptr) (width height : Z) (input : vec) : M (option (Z * Z * vec)) :=
  r <-- extract_document_auto exp atan2 asin pow2 fuel identity width height (v_ptr input) 0 0 ;;
  let '(outPtr, outW, outH) := r in
  if is_null outPtr then ret None else ret (Some (outW, outH, makeVector outPtr (mul3 outW outH 4))).
End Haskell.

(** * Theorems C32-C34, C62, C63: watershed segmentation *)
From Verif Require Import Base F Heap Spec Spec_Morph Spec_Draw Spec_Watershed M_Watershed P_Watershed P_WatershedEx ExUtil.

(** ** C32: regions of rising water.  [fuel] bounds the iterations of the while
    loops, so the theorem also bounds their number by the number of pixels. *)
Theorem C32_watershed : forall fuel w h s p q b mk n,
  wf s -> 0 < w -> 0 < h -> w * h <= 1073741824 -> w * h + 1 < Z.of_nat fuel ->
  holds s p b -> image (w * h) b -> holds_pts s q mk -> markers_ok w h mk n ->
  returns_fresh s (watershed fuel w h p q n false s) (fun b' => exists L,
    coloured w h L b' /\ (forall x y, inside w h x y -> 0 <= L x y < n) /\ seeded n mk L /\ connected w h mk L /\
    watershed_of w h (fun x y => pixv b w 1 x y 0) mk n L).
Proof. exact watershed_regions. Qed.
Print Assumptions C32_watershed.

Theorem C32_rejects : forall fuel w h s p q mk n bnd, wf s -> is_u32 w -> is_u32 h -> holds_pts s q mk ->
  (p = Null \/ n = 0 \/ w = 0 \/ h = 0 \/
   (is_i32 w /\ is_i32 h /\ small_markers mk n /\ exists m, 0 <= m < n /\ bad_marker w h mk m)) ->
  watershed fuel w h p q n bnd s = Ok (Null, s) /\ watershed fuel w h p Null n bnd s = Ok (Null, s).
Proof. exact watershed_rejects. Qed.
Print Assumptions C32_rejects.

(** A 4x3 picture with a ridge and markers in two of its corners. *)
Example C32_ex :
  (wf (stw ridge two) /\ holds (stw ridge two) (Ptr 0) (of_list ridge) /\ image (4 * 3) (of_list ridge) /\
   holds_pts (stw ridge two) (Ptr 1) (of_list two) /\ markers_ok 4 3 (of_list two) 2) /\
  out_bytes (watershed 20 4 3 (Ptr 0) (Ptr 1) 2 false (stw ridge two)) =
    Some (map Some (rgba [R;R;R;G; R;R;R;G; R;R;G;G])).
Proof. split; [exact ridge_hyps|]. vm_compute; reflexivity. Qed.

(** ** C33: markers keep their colour, every pixel is opaque and has the colour of
    a region or is black *)
Theorem C33_colours : forall fuel w h s p q b mk n bnd,
  wf s -> 0 < w -> 0 < h -> w * h <= 1073741824 -> w * h + 1 < Z.of_nat fuel ->
  holds s p b -> image (w * h) b -> holds_pts s q mk -> markers_ok w h mk n ->
  returns_fresh s (watershed fuel w h p q n bnd s) (fun b' => exact_image (w * h * 4) b' /\
    (forall m, 0 <= m < n -> (forall m', 0 <= m' < n -> m' <> m -> (mx mk m', my mk m') <> (mx mk m, my mk m)) ->
       (pixv b' w 4 (mx mk m) (my mk m) 0, pixv b' w 4 (mx mk m) (my mk m) 1, pixv b' w 4 (mx mk m) (my mk m) 2)
         = region_colour m) /\
    forall x y, inside w h x y -> pix b' w 4 x y 3 = Some 255 /\
      exists l, -1 <= l < n /\ (bnd = false -> 0 <= l) /\
        (pixv b' w 4 x y 0, pixv b' w 4 x y 1, pixv b' w 4 x y 2) = region_colour l).
Proof. exact watershed_colours. Qed.
Print Assumptions C33_colours.

(** ** C34: refuted: on a flat 4x1 picture with markers at both ends, the two
    pixels between them are flooded in the same step, one from each side *)
Theorem C34_separated_refuted : exists fuel w h s p q b mk n i s' b' x y u v,
  wf s /\ holds s p b /\ image (w * h) b /\ holds_pts s q mk /\ markers_ok w h mk n /\
  watershed fuel w h p q n true s = Ok (Ptr i, s') /\ holds s' (Ptr i) b' /\
  inside w h x y /\ inside w h u v /\ adjacent x y u v /\
  (forall m, 0 <= m < n -> (mx mk m, my mk m) <> (x, y) /\ (mx mk m, my mk m) <> (u, v)) /\
  (pixv b' w 4 x y 0, pixv b' w 4 x y 1, pixv b' w 4 x y 2) = region_colour 0 /\
  (pixv b' w 4 u v 0, pixv b' w 4 u v 1, pixv b' w 4 u v 2) = region_colour 1.
Proof. exact separation_fails. Qed.
Print Assumptions C34_separated_refuted.

(** What boundary mode does guarantee: connected regions around their markers,
    and a pixel is black only if it touches no region or at least two.  Missing
    for the full property: that touching regions are always separated, which is
    false. *)
Theorem C34_boundaries_partial : forall fuel w h s p q b mk n,
  wf s -> 0 < w -> 0 < h -> w * h <= 1073741824 -> w * h + 1 < Z.of_nat fuel ->
  holds s p b -> image (w * h) b -> holds_pts s q mk -> markers_ok w h mk n ->
  returns_fresh s (watershed fuel w h p q n true s) (fun b' => exists L,
    coloured w h L b' /\ labelling w h n L /\ seeded n mk L /\ connected w h mk L /\ only_boundaries_black w h L).
Proof. exact watershed_boundaries. Qed.
Print Assumptions C34_boundaries_partial.

Example C34_ex : out_bytes (watershed 20 4 3 (Ptr 0) (Ptr 1) 2 true (stw ridge two)) =
    Some (map Some (rgba [R;R;K;G; R;R;K;G; R;K;G;G])).
Proof. vm_compute; reflexivity. Qed.

(** ** C62: refuted: a finite marker coordinate outside the range of int *)
Theorem C62_every_marker_refuted : exists fuel w h s p q b mk n,
  wf s /\ 0 < w /\ 0 < h /\ holds s p b /\ image (w * h) b /\ holds_pts s q mk /\ 0 < n <= blen mk /\
  (forall m, 0 <= m < n -> finite_marker mk m) /\
  watershed fuel w h p q n false s = UB BadCast.
Proof. exact huge_marker. Qed.
Print Assumptions C62_every_marker_refuted.

(** ** C63: refuted: with 2^32 pixels the call never ends, and with more than
    2^30 pixels the last ones are never written *)
Theorem C63_every_size_refuted : exists w h s p q mk n, wf s /\ dims_ok w h /\ is_i32 w /\ is_i32 h /\ p <> Null /\
  holds_pts s q mk /\ markers_ok w h mk n /\ forall fuel, watershed fuel w h p q n false s = Hang.
Proof. exact watershed_never_ends. Qed.
Print Assumptions C63_every_size_refuted.

Theorem C63_unwritten_refuted : forall fuel w h s p q b mk n bnd,
  wf s -> 0 < w -> 0 < h -> 1073741824 < w * h <= 2147483647 -> w * h + 1 < Z.of_nat fuel ->
  holds s p b -> image (w * h) b -> holds_pts s q mk -> markers_ok w h mk n ->
  returns_fresh s (watershed fuel w h p q n bnd s)
    (fun b' => forall x y c, inside w h x y -> 1073741824 <= y * w + x -> 0 <= c < 4 -> pix b' w 4 x y c = None).
Proof. exact watershed_wraps. Qed.
Print Assumptions C63_unwritten_refuted.

Example C63_ex : exists w h s p q b mk n, wf s /\ 0 < w /\ 0 < h /\ 1073741824 < w * h <= 2147483647 /\
  holds s p b /\ image (w * h) b /\ holds_pts s q mk /\ markers_ok w h mk n.
Proof. exact wraps_hyps. Qed.

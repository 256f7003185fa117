(** * Theorems C23-C26, C54-C56: drawing and borders *)
From Verif Require Import Base F Heap Spec Spec_Morph Spec_Trim Spec_Draw M_Color M_Draw P_Draw P_Border P_Draw2 ExUtil.

(** ** C23: circles and disks *)
Theorem C23_circle : exists ring, draws draw_circle ring /\ forall r, 0 <= r -> ring_like r (ring r).
Proof. exact circle_ok. Qed.
Print Assumptions C23_circle.

Theorem C23_disk : exists disk, draws draw_disk disk /\ forall r, 0 <= r -> disk_like r (disk r).
Proof. exact disk_ok. Qed.
Print Assumptions C23_disk.

Theorem C23_rejects : forall w h ch hex radius cx cy s p,
  (p = Null \/ hex = None \/ w = 0 \/ h = 0 \/ ch = 0 \/ dlt radius d0 = true \/ dfinite radius = false \/
   dfinite cx = false \/ dfinite cy = false \/ dlt (d_of_Z 1073741823) radius = true) ->
  no_effect s (draw_circle w h ch hex radius cx cy p s) /\ no_effect s (draw_disk w h ch hex radius cx cy p s).
Proof. exact draw_rejects. Qed.
Print Assumptions C23_rejects.

(** A circle and a disk of radius 2.75 around (-0.5, 2.0) on a 5x5 one-channel
    picture of level 9, in the colour "#FF0000", whose luminance is 76. *)
Definition after (r : res (unit * st)) : option (list (option Z)) :=
  match r with Ok (_, s) => match mem s 0 with Some (OBytes b) => Some (to_list b) | _ => None end | _ => None end.
Lemma C23_hyps : draw_ok 5 5 1 (lit 11 4) (dneg (lit 1 2)) (d_of_Z 2) /\
  holds (st1 (repeat 9 25)) (Ptr 0) (of_list (repeat 9 25)) /\ 5 * 5 * 1 <= blen (of_list (repeat 9 25)) /\
  parse_hex_color red = Ok (255, 0, 0).
Proof.
  split.
  - unfold draw_ok. split; [lia|]. split; [lia|]. split; [auto|]. do 4 (split; [vm_compute; reflexivity|]).
    do 2 (split; [vm_compute; congruence|]). vm_compute; congruence.
  - split; [apply holds_st1|]. split; [vm_compute; congruence|vm_compute; reflexivity].
Qed.
Definition X := 76. (* shorthand in the expected pictures *)
Example C23_ex :
  (draw_ok 5 5 1 (lit 11 4) (dneg (lit 1 2)) (d_of_Z 2) /\
   holds (st1 (repeat 9 25)) (Ptr 0) (of_list (repeat 9 25)) /\ 5 * 5 * 1 <= blen (of_list (repeat 9 25)) /\
   parse_hex_color red = Ok (255, 0, 0)) /\
  after (draw_circle 5 5 1 (Some red) (lit 11 4) (dneg (lit 1 2)) (d_of_Z 2) (Ptr 0) (st1 (repeat 9 25))) =
    Some (map Some [X;X;9;9;9; 9;9;X;9;9; 9;9;X;9;9; 9;9;X;9;9; X;X;9;9;9]) /\
  after (draw_disk 5 5 1 (Some red) (lit 11 4) (dneg (lit 1 2)) (d_of_Z 2) (Ptr 0) (st1 (repeat 9 25))) =
    Some (map Some [X;X;9;9;9; X;X;X;9;9; X;X;X;9;9; X;X;X;9;9; X;X;9;9;9]).
Proof. split; [exact C23_hyps|]. split; [vm_compute; reflexivity|vm_compute; reflexivity]. Qed.

(** ** C24: the disk contains the circle, and each of its rows is one run
    around the centre column *)
Theorem C24_disk_rows : exists ring disk, draws draw_circle ring /\ draws draw_disk disk /\ forall r, 0 <= r ->
  (forall dx dy, ring r dx dy -> disk r dx dy) /\
  (forall dx dx' dy, disk r dx dy -> Z.abs dx' <= Z.abs dx -> disk r dx' dy) /\
  (forall dy, Z.abs dy <= r -> disk r 0 dy).
Proof. exact disk_rows. Qed.
Print Assumptions C24_disk_rows.

(** ** C25: refuted: with radius 0 a circle changes 5 pixels and a disk 7 *)
Theorem C25_radius_zero_refuted : exists w h hex radius cx cy s p b s1 s2 b1 b2,
  wf s /\ draw_ok w h 1 radius cx cy /\ int_part radius = 0 /\ holds s p b /\ image (w * h) b /\
  draw_circle w h 1 (Some hex) radius cx cy p s = Ok (tt, s1) /\ holds s1 p b1 /\
  draw_disk w h 1 (Some hex) radius cx cy p s = Ok (tt, s2) /\ holds s2 p b2 /\
  count (fun i => negb (match bget b1 i, bget b i with Some u, Some v => u =? v | _, _ => false end)) (w * h) = 5 /\
  count (fun i => negb (match bget b2 i, bget b i with Some u, Some v => u =? v | _, _ => false end)) (w * h) = 7.
Proof. exact radius_zero. Qed.
Print Assumptions C25_radius_zero_refuted.

(** ** C26: adding a border *)
Theorem C26_add_border : forall w h ch hex bw s p b ow0 oh0 cr cg cb, wf s ->
  0 < w -> 0 < h -> (ch = 1 \/ ch = 3 \/ ch = 4) -> 0 < bw ->
  (w + 2 * bw) * (h + 2 * bw) * ch <= 4294967296 ->
  holds s p b -> image (w * h * ch) b -> parse_hex_color hex = Ok (cr, cg, cb) ->
  exists col, drawn_colour ch cr cg cb col /\
  returns_sized s (add_border w h ch (Some hex) bw p ow0 oh0 s) (bordered w h ch bw col b).
Proof. exact add_border_ok. Qed.
Print Assumptions C26_add_border.

Theorem C26_rejects : forall w h ch hex bw s p ow0 oh0,
  is_u32 w -> is_u32 h -> is_u32 ch -> is_u32 bw ->
  (p = Null \/ hex = None \/ w = 0 \/ h = 0 \/ ch = 0 \/ bw = 0 \/ 4294967295 < w + 2 * bw \/ 4294967295 < h + 2 * bw) ->
  add_border w h ch hex bw p ow0 oh0 s = Ok (Null, ow0, oh0, s).
Proof. exact add_border_rejects. Qed.
Print Assumptions C26_rejects.

Example C26_ex :
  (wf (st1 [1;2;3;4;5;6]) /\ holds (st1 [1;2;3;4;5;6]) (Ptr 0) (of_list [1;2;3;4;5;6]) /\ image (2 * 1 * 3) (of_list [1;2;3;4;5;6])) /\
  match add_border 2 1 3 (Some red) 1 (Ptr 0) 0 0 (st1 [1;2;3;4;5;6]) with
  | Ok (Ptr q, 4, 3, s') => match mem s' q with Some (OBytes b) => Some (to_list b) | _ => None end
  | _ => None
  end = Some (map Some [255;0;0; 255;0;0; 255;0;0; 255;0;0;
                        255;0;0; 1;2;3; 4;5;6; 255;0;0;
                        255;0;0; 255;0;0; 255;0;0; 255;0;0]).
Proof.
  split; [split; [apply wf_st1|split; [apply holds_st1|apply image_of_list; reflexivity]]|vm_compute; reflexivity].
Qed.

(** ** C54: refuted: "#010101" is drawn as level 0 on a one-channel picture.
    The level is never off by more than one. *)
Theorem C54_gray_refuted : exists hex v s p b s' b',
  wf s /\ draw_ok 5 5 1 d0 (d_of_Z 2) (d_of_Z 2) /\ holds s p b /\ image (5 * 5) b /\
  parse_hex_color hex = Ok (v, v, v) /\
  draw_circle 5 5 1 (Some hex) d0 (d_of_Z 2) (d_of_Z 2) p s = Ok (tt, s') /\ holds s' p b' /\
  pix b 5 1 2 2 0 <> pix b' 5 1 2 2 0 /\ pix b' 5 1 2 2 0 = Some (v - 1).
Proof. exact gray_dark. Qed.
Print Assumptions C54_gray_refuted.

Theorem C54_gray_partial : forall v g, byte v -> drawn_gray v v v g -> g = v \/ g = v - 1.
Proof. exact gray_near. Qed.
Print Assumptions C54_gray_partial.
Example C54_ex : drawn_gray 1 1 1 0 /\ drawn_gray 128 128 128 128.
Proof. unfold drawn_gray, byte. split; (split; [lia|vm_compute; auto]). Qed.

(** ** C55: refuted: an accepted radius overflows the int arithmetic *)
Theorem C55_radius_overflow_refuted : exists w h ch hex radius cx cy s p b,
  wf s /\ holds s p b /\ image (w * h * ch) b /\ dlt (d_of_Z 1073741823) radius = false /\
  draw_circle w h ch (Some hex) radius cx cy p s = UB SignedOverflow.
Proof. exact radius_overflow. Qed.
Print Assumptions C55_radius_overflow_refuted.

(** ** C56: refuted: a border that makes the picture larger than 2^32 bytes
    leaves pixels of the returned picture unwritten *)
Theorem C56_large_border_refuted : exists w h hex bw s p b q ow oh s' b',
  wf s /\ holds s p b /\ image (w * h * 1) b /\
  add_border w h 1 (Some hex) bw p 0 0 s = Ok (Ptr q, ow, oh, s') /\
  mem s' q = Some (OBytes b') /\ ow = w + 2 * bw /\ oh = h + 2 * bw /\
  exists x y, inside ow oh x y /\ pix b' ow 1 x y 0 = None.
Proof. exact border_unwritten. Qed.
Print Assumptions C56_large_border_refuted.

(** * Theorems C96-C100, C102: how functions of the library go together *)
From Verif Require Import Base F Heap Spec Spec_Trim Spec_Hist Spec_Draw Spec_Rel Spec_Ops Spec_Parse M_Geom M_Color M_Sobel M_Hist M_Draw M_Trim P_Rel ExUtil.
From Coq Require Import String.
From Verif Require Import Spec_Morph.
Local Open Scope string_scope.
Local Open Scope list_scope.
Local Open Scope Z_scope.

(** Results of calls that also return a size, for the examples *)
Definition sized_buf (r : res (ptr * Z * Z * st)) : buf Z := match r with Ok (p, _, _, s) => out_buf (Ok (p, s)) | _ => bnew 0 end.
Definition sized_ok (r : res (ptr * Z * Z * st)) (w h : Z) : bool :=
  match r with
  | Ok (Ptr i, w', h', s) => (w' =? w) && (h' =? h) && match mem s i with Some (OBytes _) => true | _ => false end
  | _ => false
  end.
Lemma sized_calls f w h b w' h' : sized_ok (f w h (Ptr 0) (stb b)) w' h' = true ->
  calls_sized f w h b w' h' (sized_buf (f w h (Ptr 0) (stb b))).
Proof.
  unfold sized_ok, sized_buf, out_buf. intros H. destruct (f w h (Ptr 0) (stb b)) as [[[[[|i] w1] h1] s]| | |] eqn:E; try discriminate.
  destruct (mem s i) as [[]|] eqn:Em; try (rewrite Bool.andb_false_r in H; discriminate).
  assert (w1 = w' /\ h1 = h') as [-> ->] by lia.
  exists (stb b), (Ptr 0), (Ptr i), s. split; [intros j Hj; cbn [stb mem nxt] in *; unfold upd; destruct (Z.eqb_spec j 0); [lia|reflexivity]|].
  split; [exists 0; split; reflexivity|]. split; [exact E|]. exists i; auto.
Qed.

(** ** C96: turning a picture and then changing its tones gives the same bytes as
    changing its tones and then turning it.  [b1] is the turned picture, [c1] its new
    tones; [d] are the new tones of the picture, [d1] is [d] turned. *)
Theorem C96_turn_tones : forall o T w h b b1 c1 d d1,
  In T tones -> dims_ok w h -> w * h <= 1073741824 -> image (w * h * 4) b ->
  calls (turn o) w h b b1 -> calls T (tw o w h) (th o w h) b1 c1 ->
  calls T w h b d -> calls (turn o) w h d d1 -> same_bytes (w * h * 4) c1 d1.
Proof. exact turn_tone. Qed.
Print Assumptions C96_turn_tones.

Example C96_ex : dims_ok 3 2 /\ image (3 * 2 * 4) (of_list pic32) /\
  (forall o T, In T tones -> exists b1 c1 d d1,
    calls (turn o) 3 2 (of_list pic32) b1 /\ calls T (tw o 3 2) (th o 3 2) b1 c1 /\
    calls T 3 2 (of_list pic32) d /\ calls (turn o) 3 2 d d1) /\
  to_list (call1 (turn Right_turn) 3 2 (call1 (nth 3 tones (fun _ _ _ => ret Null)) 3 2 (of_list pic32))) =
    map Some ([0;0;0;255; 0;0;0;255; 127;127;127;255; 0;0;0;255; 255;255;255;255; 255;255;255;255]).
Proof.
  split; [apply pic32_hyps|]. split; [apply pic32_hyps|]. split.
  - intros o T HT. pose (b1 := call1 (turn o) 3 2 (of_list pic32)). pose (d := call1 T 3 2 (of_list pic32)).
    exists b1, (call1 T (tw o 3 2) (th o 3 2) b1), d, (call1 (turn o) 3 2 d). unfold b1, d.
    unfold tones in HT. cbn [In] in HT. destruct HT as [<-|[<-|[<-|[<-|[]]]]];
      (split; [apply call1_calls; destruct o; vm_compute; reflexivity|]);
      (split; [apply call1_calls; destruct o; vm_compute; reflexivity|]);
      (split; [apply call1_calls; vm_compute; reflexivity|]);
      apply call1_calls; destruct o; vm_compute; reflexivity.
  - vm_compute; reflexivity.
Qed.

(** ** C97: the edges of a turned picture are the turned edges of the picture *)
Theorem C97_turn_edges : forall o w h b b1 e e1,
  0 < w < 2147483648 -> 0 < h < 2147483648 -> w * h * 8 <= SIZE_MAX -> image (w * h * 4) b ->
  calls (turn o) w h b b1 ->
  calls (fun w h p => sobel_edge_detection w h 4 p) (tw o w h) (th o w h) b1 e1 ->
  calls (fun w h p => sobel_edge_detection w h 4 p) w h b e ->
  forall x y, inside (tw o w h) (th o w h) x y ->
    pix e1 (tw o w h) 1 x y 0 = pix e w 1 (from_x o w h x y) (from_y o w h x y) 0.
Proof. exact turn_edges. Qed.
Print Assumptions C97_turn_edges.

Example C97_ex : let sobel := fun w h p => sobel_edge_detection w h 4 p in
  image (3 * 2 * 4) (of_list pic32) /\
  (forall o, calls (turn o) 3 2 (of_list pic32) (call1 (turn o) 3 2 (of_list pic32)) /\
    calls sobel (tw o 3 2) (th o 3 2) (call1 (turn o) 3 2 (of_list pic32)) (call1 sobel (tw o 3 2) (th o 3 2) (call1 (turn o) 3 2 (of_list pic32)))) /\
  calls sobel 3 2 (of_list pic32) (call1 sobel 3 2 (of_list pic32)) /\
  to_list (call1 sobel 3 2 (of_list pic32)) = map Some [0;181;178; 18;255;226].
Proof.
  cbv zeta. split; [apply pic32_hyps|]. split; [|split; [apply call1_calls; vm_compute; reflexivity|vm_compute; reflexivity]].
  intros o. split; apply call1_calls; destruct o; vm_compute; reflexivity.
Qed.

(** ** C98: a turned picture has the same histogram picture, byte for byte *)
Theorem C98_turn_histogram : forall o w h b b1 ow oh ow1 oh1 cw ch c cw1 ch1 c1,
  dims_ok w h -> image (w * h * 4) b -> calls (turn o) w h b b1 ->
  calls_sized (fun w h p => generate_histogram w h 4 p ow oh) w h b cw ch c ->
  calls_sized (fun w h p => generate_histogram w h 4 p ow1 oh1) (tw o w h) (th o w h) b1 cw1 ch1 c1 ->
  cw1 = cw /\ ch1 = ch /\ same_bytes (cw * ch * 4) c c1.
Proof. exact turn_histogram. Qed.
Print Assumptions C98_turn_histogram.

Example C98_ex : let f := fun w h p => generate_histogram w h 4 p 0 0 in exists cw ch c c1,
  image (3 * 2 * 4) (of_list pic32) /\ calls (turn Left_turn) 3 2 (of_list pic32) (call1 (turn Left_turn) 3 2 (of_list pic32)) /\
  calls_sized f 3 2 (of_list pic32) cw ch c /\ calls_sized f 2 3 (call1 (turn Left_turn) 3 2 (of_list pic32)) cw ch c1.
Proof.
  cbv zeta. exists 256, 200. eexists. eexists. split; [apply pic32_hyps|]. split; [apply call1_calls; vm_compute; reflexivity|].
  split; apply sized_calls; vm_compute; reflexivity.
Qed.

(** ** C99: cropping a border off again gives the picture back, byte for byte, *)
Theorem C99_crop_border : forall w h ch hex bw b w1 h1 b1 b2 cr cg cb,
  0 < w -> 0 < h -> (ch = 1 \/ ch = 3 \/ ch = 4) -> 0 < bw -> (w + 2 * bw) * (h + 2 * bw) * ch <= 4294967296 ->
  image (w * h * ch) b -> parse_hex_color hex = Ok (cr, cg, cb) ->
  calls_sized (fun w h p => add_border w h ch (Some hex) bw p 0 0) w h b w1 h1 b1 ->
  calls (fun w h p => crop w h ch p bw bw (w - 2 * bw) (h - 2 * bw)) w1 h1 b1 b2 ->
  same_bytes (w * h * ch) b b2.
Proof. exact crop_border'. Qed.
Print Assumptions C99_crop_border.

(** and so does trim, if the first and last column of the picture have a pixel that is
    not of the border's colour, and its first and last row are not of one colour. *)
Theorem C99_trim_border : forall w h ch hex bw b w1 h1 b1 w2 h2 b2 cr cg cb,
  0 < w -> 0 < h -> (ch = 1 \/ ch = 3 \/ ch = 4) -> 0 < bw -> (w + 2 * bw) * (h + 2 * bw) * ch <= 4294967296 ->
  image (w * h * ch) b -> parse_hex_color hex = Ok (cr, cg, cb) ->
  calls_sized (fun w h p => add_border w h ch (Some hex) bw p 0 0) w h b w1 h1 b1 ->
  calls_sized (fun w h p => trim w h ch p) w1 h1 b1 w2 h2 b2 ->
  (forall x, x = 0 \/ x = w - 1 -> exists y c, 0 <= y < h /\ 0 <= c < ch /\ pix b w ch x y c <> pix b1 w1 ch 0 0 c) ->
  (forall y, y = 0 \/ y = h - 1 -> exists x c, 0 <= x < w /\ 0 <= c < ch /\ pix b w ch x y c <> pix b w ch 0 y c) ->
  w2 = w /\ h2 = h /\ same_bytes (w * h * ch) b b2.
Proof. exact trim_border. Qed.
Print Assumptions C99_trim_border.

Example C99_ex : let f := fun w h p => add_border w h 4 (Some (txt "#ff0000")) 2 p 0 0 in exists b1 b2 b3,
  image (3 * 2 * 4) (of_list pic32) /\ parse_hex_color (txt "#ff0000") = Ok (255, 0, 0) /\
  calls_sized f 3 2 (of_list pic32) 7 6 b1 /\
  calls (fun w h p => crop w h 4 p 2 2 (w - 2 * 2) (h - 2 * 2)) 7 6 b1 b2 /\
  calls_sized (fun w h p => trim w h 4 p) 7 6 b1 3 2 b3 /\ to_list b2 = map Some pic32 /\ to_list b3 = map Some pic32 /\
  pix b1 7 4 0 0 0 = Some 255 /\
  pix (of_list pic32) 3 4 0 1 0 = Some 7 /\ pix (of_list pic32) 3 4 2 1 0 = Some 200 /\ pix (of_list pic32) 3 4 2 0 0 = Some 100 /\
  pix (of_list pic32) 3 4 0 0 0 = Some 1.
Proof.
  cbv zeta. eexists. eexists. eexists. split; [apply pic32_hyps|]. split; [vm_compute; reflexivity|].
  split; [apply sized_calls; vm_compute; reflexivity|]. split; [apply call1_calls; vm_compute; reflexivity|].
  split; [apply sized_calls; vm_compute; reflexivity|]. do 6 (split; [vm_compute; reflexivity|]). vm_compute; reflexivity.
Qed.

(** ** C100: a larger radius dilates more *)
Theorem C100_dilation_radius : forall w h r r' b d d', morph_ok w h r -> morph_ok w h r' -> r <= r' -> image (w * h) b ->
  dilates r w h b d -> dilates r' w h b d' -> forall x y, inside w h x y -> white d w x y -> white d' w x y.
Proof. exact dilation_radius. Qed.
Print Assumptions C100_dilation_radius.

(** and erodes more; *)
Theorem C100_erosion_radius : forall w h r r' b e e', morph_ok w h r -> morph_ok w h r' -> r <= r' -> image (w * h) b ->
  erodes r w h b e -> erodes r' w h b e' -> forall x y, inside w h x y -> white e' w x y -> white e w x y.
Proof. exact erosion_radius. Qed.
Print Assumptions C100_erosion_radius.

(** eroding the white is dilating the black, away from the edge; *)
Theorem C100_erosion_dual : forall w h r b n e d, morph_ok w h r -> image (w * h) b -> image (w * h) n ->
  (forall x y, inside w h x y -> white n w x y <-> ~ white b w x y) ->
  erodes r w h b e -> dilates r w h n d ->
  forall x y, r <= x < w - r -> r <= y < h - r -> white e w x y <-> ~ white d w x y.
Proof. exact erosion_dual. Qed.
Print Assumptions C100_erosion_dual.

(** [a] is within the erosion of [b] if and only if the dilation of [a] is within [b]
    (away from the edge, in one direction); *)
Theorem C100_dilation_erosion : forall w h r a b d e, morph_ok w h r -> image (w * h) a -> image (w * h) b ->
  dilates r w h a d -> erodes r w h b e ->
  ((forall x y, inside w h x y -> white a w x y -> white e w x y) -> forall x y, inside w h x y -> white d w x y -> white b w x y) /\
  ((forall x y, inside w h x y -> white d w x y -> white b w x y) ->
   forall x y, r <= x < w - r -> r <= y < h - r -> white a w x y -> white e w x y).
Proof. exact dilation_erosion. Qed.
Print Assumptions C100_dilation_erosion.

(** two dilations reach no farther than one whose radius is one more than the sum of theirs. *)
Theorem C100_dilation_twice : forall w h r1 r2 b d1 d2 d,
  morph_ok w h r1 -> morph_ok w h r2 -> morph_ok w h (r1 + r2 + 1) -> image (w * h) b ->
  dilates r1 w h b d1 -> dilates r2 w h d1 d2 -> dilates (r1 + r2 + 1) w h b d ->
  forall x y, inside w h x y -> white d2 w x y -> white d w x y.
Proof. exact dilation_twice. Qed.
Print Assumptions C100_dilation_twice.

Definition spot : list Z := repeat 0 24 ++ [255] ++ repeat 0 24.
Definition hole : list Z := repeat 255 24 ++ [0] ++ repeat 255 24.
Example C100_ex : morph_ok 7 7 1 /\ morph_ok 7 7 2 /\ morph_ok 7 7 3 /\ image (7 * 7) (of_list spot) /\ image (7 * 7) (of_list hole) /\
  (forall x y, inside 7 7 x y -> white (of_list hole) 7 x y <-> ~ white (of_list spot) 7 x y) /\
  (forall r, r = 1 \/ r = 2 \/ r = 3 ->
    dilates r 7 7 (of_list spot) (call1 (fun w h p => M_Morph.binary_dilation_disk p w h r) 7 7 (of_list spot)) /\
    erodes r 7 7 (of_list hole) (call1 (fun w h p => M_Morph.binary_erosion_disk p w h r) 7 7 (of_list hole))) /\
  to_list (call1 (fun w h p => M_Morph.binary_dilation_disk p w h 1) 7 7 (of_list spot)) = map Some
    (repeat 0 16 ++ [255;255;255] ++ repeat 0 4 ++ [255;255;255] ++ repeat 0 4 ++ [255;255;255] ++ repeat 0 16).
Proof.
  do 3 (split; [unfold morph_ok; lia|]). do 2 (split; [apply image_of_list; reflexivity|]). split.
  { intros x y [Hx Hy]. unfold white. assert (D : x = 3 /\ y = 3 \/ (pix (of_list spot) 7 1 x y 0 = Some 0 /\ pix (of_list hole) 7 1 x y 0 = Some 255)).
    { assert (x = 0 \/ x = 1 \/ x = 2 \/ x = 3 \/ x = 4 \/ x = 5 \/ x = 6) as X by lia.
      assert (y = 0 \/ y = 1 \/ y = 2 \/ y = 3 \/ y = 4 \/ y = 5 \/ y = 6) as Y by lia.
      destruct X as [->|[->|[->|[->|[->|[->| ->]]]]]], Y as [->|[->|[->|[->|[->|[->| ->]]]]]]; first [left; split; reflexivity|right; split; reflexivity]. }
    destruct D as [[-> ->]|[-> ->]]; [vm_compute; split; congruence|split; congruence]. }
  split; [|vm_compute; reflexivity].
  intros r [->|[->| ->]]; split; apply call1_calls; vm_compute; reflexivity.
Qed.

(** ** C102: circles and disks of one colour may be drawn in any order, *)
Theorem C102_order : forall f g w h ch hex r cx cy r' cx' cy' s p b cr cg cb s1 b1 s2 b2 s3 b3 s4 b4,
  In f drawings -> In g drawings -> draw_ok w h ch r cx cy -> draw_ok w h ch r' cx' cy' ->
  holds s p b -> w * h * ch <= blen b -> parse_hex_color hex = Ok (cr, cg, cb) ->
  f w h ch (Some hex) r cx cy p s = Ok (tt, s1) -> holds s1 p b1 -> g w h ch (Some hex) r' cx' cy' p s1 = Ok (tt, s2) -> holds s2 p b2 ->
  g w h ch (Some hex) r' cx' cy' p s = Ok (tt, s3) -> holds s3 p b3 -> f w h ch (Some hex) r cx cy p s3 = Ok (tt, s4) -> holds s4 p b4 ->
  blen b2 = blen b4 /\ forall j, bget b2 j = bget b4 j.
Proof. exact draw_order. Qed.
Print Assumptions C102_order.

(** drawing twice is drawing once, *)
Theorem C102_twice : forall f w h ch hex r cx cy s p b cr cg cb s1 b1 s2 b2,
  In f drawings -> draw_ok w h ch r cx cy -> holds s p b -> w * h * ch <= blen b -> parse_hex_color hex = Ok (cr, cg, cb) ->
  f w h ch (Some hex) r cx cy p s = Ok (tt, s1) -> holds s1 p b1 -> f w h ch (Some hex) r cx cy p s1 = Ok (tt, s2) -> holds s2 p b2 ->
  blen b2 = blen b1 /\ forall j, bget b2 j = bget b1 j.
Proof. exact draw_twice. Qed.
Print Assumptions C102_twice.

(** and a disk covers its circle. *)
Theorem C102_circle_disk : forall w h ch hex r cx cy s p b cr cg cb s1 b1 s2 b2 s3 b3,
  draw_ok w h ch r cx cy -> holds s p b -> w * h * ch <= blen b -> parse_hex_color hex = Ok (cr, cg, cb) ->
  draw_circle w h ch (Some hex) r cx cy p s = Ok (tt, s1) -> holds s1 p b1 ->
  draw_disk w h ch (Some hex) r cx cy p s1 = Ok (tt, s2) -> holds s2 p b2 ->
  draw_disk w h ch (Some hex) r cx cy p s = Ok (tt, s3) -> holds s3 p b3 ->
  blen b2 = blen b3 /\ forall j, bget b2 j = bget b3 j.
Proof. exact circle_disk. Qed.
Print Assumptions C102_circle_disk.

Definition bytes0 (r : res (unit * st)) : option (list (option Z)) :=
  match r with Ok (_, s) => match mem s 0 with Some (OBytes b) => Some (to_list b) | _ => None end | _ => None end.
Example C102_ex : let s := st1 (repeat 9 25) in
  draw_ok 5 5 1 (d_of_Z 1) (d_of_Z 1) (d_of_Z 1) /\ draw_ok 5 5 1 (d_of_Z 2) (d_of_Z 4) (d_of_Z 3) /\
  holds s (Ptr 0) (of_list (repeat 9 25)) /\ 5 * 5 * 1 <= blen (of_list (repeat 9 25)) /\ parse_hex_color (txt "#ff0000") = Ok (255, 0, 0) /\
  exists s1 s2 s3 s4,
    draw_circle 5 5 1 (Some (txt "#ff0000")) (d_of_Z 1) (d_of_Z 1) (d_of_Z 1) (Ptr 0) s = Ok (tt, s1) /\
    draw_disk 5 5 1 (Some (txt "#ff0000")) (d_of_Z 2) (d_of_Z 4) (d_of_Z 3) (Ptr 0) s1 = Ok (tt, s2) /\
    draw_disk 5 5 1 (Some (txt "#ff0000")) (d_of_Z 2) (d_of_Z 4) (d_of_Z 3) (Ptr 0) s = Ok (tt, s3) /\
    draw_circle 5 5 1 (Some (txt "#ff0000")) (d_of_Z 1) (d_of_Z 1) (d_of_Z 1) (Ptr 0) s3 = Ok (tt, s4) /\
    bytes0 (Ok (tt, s2)) = bytes0 (Ok (tt, s4)) /\ bytes0 (Ok (tt, s2)) <> bytes0 (Ok (tt, s1)).
Proof.
  cbv zeta. do 2 (split; [unfold draw_ok; split; [lia|]; split; [lia|]; split; [auto|]; do 4 (split; [vm_compute; reflexivity|]);
    do 2 (split; [vm_compute; congruence|]); vm_compute; congruence|]).
  split; [apply holds_st1|]. split; [vm_compute; congruence|]. split; [vm_compute; reflexivity|].
  eexists. eexists. eexists. eexists. do 4 (split; [vm_compute; reflexivity|]). split; [vm_compute; reflexivity|vm_compute; congruence].
Qed.

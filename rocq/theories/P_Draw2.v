(** * The drawing contracts, and where they fail *)
From Verif Require Import Base BaseLemmas F Heap HeapLemmas Spec FLemmas PaintLemmas Spec_Morph Spec_Trim Spec_Draw
  M_Color M_Draw P_Color P_Color3 P_Draw P_Border ExUtil.

Lemma circle_draws : draws draw_circle ring.
Proof.
  intros w h ch hex radius cx cy s p b cr cg cb Hok Hb HL Hhex.
  apply (draw_shape_ok draw_circle_points circ1); auto.
  intros L v Pt setp cx' cy' x y data Hs Hd H1 H2 H3 H4. apply (circle_points_ok L); auto; lia.
Qed.
Lemma disk_draws : draws draw_disk filled.
Proof.
  intros w h ch hex radius cx cy s p b cr cg cb Hok Hb HL Hhex.
  apply (draw_shape_ok fill_disk_lines dsk1); auto.
  intros L v Pt setp cx' cy' x y data Hs Hd H1 H2 H3 H4. apply (fill_disk_ok L); auto.
Qed.

Lemma ring_ring_like r : 0 <= r -> ring_like r (ring r).
Proof.
  intros Hr. split; [|split].
  - intros; now apply ring_bound.
  - intros; now apply ring_sym.
  - intros d Hd. destruct (ring_rows r d Hr Hd) as [e He]. exists e. split; auto. now apply ring_sym.
Qed.
Lemma filled_disk_like r : 0 <= r -> disk_like r (filled r).
Proof.
  intros Hr. split; [|split].
  - intros; now apply filled_bound.
  - intros; now apply filled_all.
  - intros; now apply filled_sym.
Qed.

Lemma circle_ok : exists ring, draws draw_circle ring /\ forall r, 0 <= r -> ring_like r (ring r).
Proof. exists ring. split; [apply circle_draws|apply ring_ring_like]. Qed.
Lemma disk_ok : exists disk, draws draw_disk disk /\ forall r, 0 <= r -> disk_like r (disk r).
Proof. exists filled. split; [apply disk_draws|apply filled_disk_like]. Qed.
Lemma disk_rows : exists ring disk, draws draw_circle ring /\ draws draw_disk disk /\ forall r, 0 <= r ->
  (forall dx dy, ring r dx dy -> disk r dx dy) /\
  (forall dx dx' dy, disk r dx dy -> Z.abs dx' <= Z.abs dx -> disk r dx' dy) /\
  (forall dy, Z.abs dy <= r -> disk r 0 dy).
Proof.
  exists ring, filled. split; [apply circle_draws|]. split; [apply disk_draws|]. intros r Hr. split; [|split].
  - intros; now apply ring_filled.
  - intros; eapply filled_run; eauto.
  - intros; now apply filled_row.
Qed.

Lemma draw_rejects : forall w h ch hex radius cx cy s p,
  (p = Null \/ hex = None \/ w = 0 \/ h = 0 \/ ch = 0 \/ dlt radius d0 = true \/ dfinite radius = false \/
   dfinite cx = false \/ dfinite cy = false \/ dlt (d_of_Z 1073741823) radius = true) ->
  no_effect s (draw_circle w h ch hex radius cx cy p s) /\ no_effect s (draw_disk w h ch hex radius cx cy p s).
Proof.
  intros w h ch hex radius cx cy s p H.
  assert (G : forall sh, draw_shape sh w h ch hex radius cx cy p s = Ok (tt, s)).
  { intros sh. unfold draw_shape. destruct hex as [hx|]; [|reflexivity].
    destruct (is_null p) eqn:En; [reflexivity|]. destruct (Z.eqb_spec w 0); [reflexivity|].
    destruct (Z.eqb_spec h 0); [reflexivity|]. destruct (Z.eqb_spec ch 0); [reflexivity|]. cbn [orb].
    destruct (dlt radius d0) eqn:E1; [reflexivity|]. destruct (dfinite radius) eqn:E2; [|reflexivity].
    destruct (dfinite cx) eqn:E3; [|reflexivity]. destruct (dfinite cy) eqn:E4; [|reflexivity]. cbn [orb negb].
    change (INT_MAX / 2) with 1073741823. destruct (dlt (d_of_Z 1073741823) radius) eqn:E5; [reflexivity|].
    exfalso. destruct H as [->|[H|[H|[H|[H|[H|[H|[H|[H|H]]]]]]]]]; try congruence. discriminate. }
  split; apply G.
Qed.

(** ** Refutations *)
Definition red : cstr := [35; 70; 70; 48; 48; 48; 48]. (* "#FF0000" *)

Lemma ok55 : draw_ok 5 5 1 d0 (d_of_Z 2) (d_of_Z 2).
Proof.
  unfold draw_ok. split; [lia|]. split; [lia|]. split; [auto|]. do 4 (split; [vm_compute; reflexivity|]).
  do 2 (split; [vm_compute; congruence|]). vm_compute; congruence.
Qed.
Lemma radius_zero : exists w h hex radius cx cy s p b s1 s2 b1 b2,
  wf s /\ draw_ok w h 1 radius cx cy /\ int_part radius = 0 /\ holds s p b /\ image (w * h) b /\
  draw_circle w h 1 (Some hex) radius cx cy p s = Ok (tt, s1) /\ holds s1 p b1 /\
  draw_disk w h 1 (Some hex) radius cx cy p s = Ok (tt, s2) /\ holds s2 p b2 /\
  count (fun i => negb (match bget b1 i, bget b i with Some u, Some v => u =? v | _, _ => false end)) (w * h) = 5 /\
  count (fun i => negb (match bget b2 i, bget b i with Some u, Some v => u =? v | _, _ => false end)) (w * h) = 7.
Proof.
  exists 5, 5, red, d0, (d_of_Z 2), (d_of_Z 2), (st1 (repeat 0 25)), (Ptr 0), (of_list (repeat 0 25)).
  destruct (circle_draws 5 5 1 red d0 (d_of_Z 2) (d_of_Z 2) (st1 (repeat 0 25)) (Ptr 0) (of_list (repeat 0 25)) 255 0 0)
    as (col & _ & dd & s1 & b1 & Hd & Ea & M1 & _).
  { exact ok55. }
  { apply holds_st1. } { vm_compute; congruence. } { vm_compute; reflexivity. }
  destruct (disk_draws 5 5 1 red d0 (d_of_Z 2) (d_of_Z 2) (st1 (repeat 0 25)) (Ptr 0) (of_list (repeat 0 25)) 255 0 0)
    as (col2 & _ & dd2 & s2 & b2 & Hd2 & Eb & M2 & _).
  { exact ok55. }
  { apply holds_st1. } { vm_compute; congruence. } { vm_compute; reflexivity. }
  injection Hd as <-. injection Hd2 as <-.
  exists s1, s2, b1, b2. split; [apply wf_st1|]. split.
  { exact ok55. }
  split; [reflexivity|]. split; [apply holds_st1|]. split; [apply image_of_list; reflexivity|].
  split; [exact Ea|]. split; [exists 0; auto|]. split; [exact Eb|]. split; [exists 0; auto|].
  assert (F1 : b1 = match mem s1 0 with Some (OBytes x) => x | _ => bnew 0 end) by now rewrite M1.
  assert (F2 : b2 = match mem s2 0 with Some (OBytes x) => x | _ => bnew 0 end) by now rewrite M2.
  rewrite F1, F2. clear F1 F2 M1 M2. split.
  - transitivity (match draw_circle 5 5 1 (Some red) d0 (d_of_Z 2) (d_of_Z 2) (Ptr 0) (st1 (repeat 0 25)) with
      | Ok (_, s1) => count (fun i => negb (match bget (match mem s1 0 with Some (OBytes x) => x | _ => bnew 0 end) i, bget (of_list (repeat 0 25)) i with Some u, Some v => u =? v | _, _ => false end)) (5 * 5)
      | _ => 0 end).
    + now rewrite Ea.
    + vm_compute; reflexivity.
  - transitivity (match draw_disk 5 5 1 (Some red) d0 (d_of_Z 2) (d_of_Z 2) (Ptr 0) (st1 (repeat 0 25)) with
      | Ok (_, s1) => count (fun i => negb (match bget (match mem s1 0 with Some (OBytes x) => x | _ => bnew 0 end) i, bget (of_list (repeat 0 25)) i with Some u, Some v => u =? v | _, _ => false end)) (5 * 5)
      | _ => 0 end).
    + now rewrite Eb.
    + vm_compute; reflexivity.
Qed.

(** The loop without the drawing. *)
Definition pbody (st : Z * Z * Z) : res (Z * Z * Z + unit) :=
  let '(x, y, d) := st in
  if x <=? y then
    x <- ck32 (x + 1) ;;
    if 0 <? d then
      y <- ck32 (y - 1) ;; t <- ck32 (x - y) ;; t <- ck32 (4 * t) ;; t <- ck32 (d + t) ;; d <- ck32 (t + 10) ;;
      Ok (inl (x, y, d))
    else
      t <- ck32 (4 * x) ;; t <- ck32 (d + t) ;; d <- ck32 (t + 6) ;; Ok (inl (x, y, d))
  else Ok (inr tt).

Lemma bresenham_ub L shape r data u : 0 <= r <= 1073741823 -> blen data = L ->
  (forall x y data, 0 <= x <= INT_MAX -> -1 <= y <= r -> blen data = L -> exists b', shape x y data = Ok b' /\ blen b' = L) ->
  wsteps 32 pbody (0, r, 3 - 2 * r) = UB u -> bresenham shape r data = UB u.
Proof.
  intros Hr HL Hs Hu. unfold bresenham.
  rewrite (ck32_ok (2 * r)), bind_Ok, (ck32_ok (3 - 2 * r)), bind_Ok by (unfold INT_MIN, INT_MAX; lia).
  destruct (Hs 0 r data ltac:(unfold INT_MAX; lia) ltac:(lia) HL) as (b0 & -> & L0). rewrite bind_Ok.
  match goal with |- context [while2 32 ?f _] => set (body := f) end.
  assert (S1 : forall x y d data, 0 <= x -> -1 <= y <= r -> blen data = L -> match pbody (x, y, d) with
     | Ok (inl (x', y', d')) => 0 <= x' /\ -1 <= y' <= r /\ exists data', body (x, y, d, data) = Ok (inl (x', y', d', data')) /\ blen data' = L
     | Ok (inr _) => exists data', body (x, y, d, data) = Ok (inr data')
     | UB v => body (x, y, d, data) = UB v
     | _ => True end).
  { intros x y d data' Hx Hy Hd. unfold pbody, body. destruct (Z.leb_spec x y); [|eauto].
    unfold ck32 at 1. destruct ((INT_MIN <=? x + 1) && (x + 1 <=? INT_MAX)) eqn:E1.
    2: { unfold ck32. rewrite E1. reflexivity. }
    rewrite bind_Ok. rewrite (ck32_ok (x + 1)) by lia. rewrite bind_Ok. destruct (0 <? d).
    - rewrite (ck32_ok (y - 1)), !bind_Ok by (unfold INT_MIN, INT_MAX in *; lia).
      destruct (ck32 (x + 1 - (y - 1))) as [t| | |]; cbn [bind]; auto.
      destruct (ck32 (4 * t)) as [t2| | |]; cbn [bind]; auto.
      destruct (ck32 (d + t2)) as [t3| | |]; cbn [bind]; auto.
      destruct (ck32 (t3 + 10)) as [t4| | |]; cbn [bind]; auto.
      destruct (Hs (x + 1) (y - 1) data' ltac:(lia) ltac:(lia) Hd) as (b' & -> & Lb'). cbn [bind]. split; [lia|]. split; [lia|]. eauto.
    - destruct (ck32 (4 * (x + 1))) as [t2| | |]; cbn [bind]; auto.
      destruct (ck32 (d + t2)) as [t3| | |]; cbn [bind]; auto.
      destruct (ck32 (t3 + 6)) as [t4| | |]; cbn [bind]; auto.
      destruct (Hs (x + 1) y data' ltac:(lia) ltac:(lia) Hd) as (b' & -> & Lb'). cbn [bind]. split; [lia|]. split; [lia|]. eauto. }
  assert (Sk : forall k x y d data, 0 <= x -> -1 <= y <= r -> blen data = L -> match wsteps k pbody (x, y, d) with
     | Ok (inl (x', y', d')) => 0 <= x' /\ -1 <= y' <= r /\ exists data', wsteps k body (x, y, d, data) = Ok (inl (x', y', d', data')) /\ blen data' = L
     | Ok (inr _) => exists data', wsteps k body (x, y, d, data) = Ok (inr data')
     | UB v => wsteps k body (x, y, d, data) = UB v
     | _ => True end).
  { induction k; intros x y d data' Hx Hy Hd.
    - cbn [wsteps]. apply S1; auto.
    - cbn [wsteps]. pose proof (IHk x y d data' Hx Hy Hd) as I1.
      destruct (wsteps k pbody (x, y, d)) as [[[[x' y'] d']|[]]|v| |]; cbn [bind].
      + destruct I1 as (Hx' & Hy' & data2 & -> & Hd2). cbn [bind]. apply IHk; auto.
      + destruct I1 as (data2 & ->). cbn [bind]. eauto.
      + rewrite I1. reflexivity.
      + auto.
      + auto. }
  unfold while2. pose proof (Sk 32%nat 0 r (3 - 2 * r) b0 ltac:(lia) ltac:(lia) L0) as H. rewrite Hu in H. rewrite H. reflexivity.
Qed.

Lemma radius_overflow : exists w h ch hex radius cx cy s p b,
  wf s /\ holds s p b /\ image (w * h * ch) b /\ dlt (d_of_Z 1073741823) radius = false /\
  draw_circle w h ch (Some hex) radius cx cy p s = UB SignedOverflow.
Proof.
  exists 1, 1, 1, red, (d_of_Z 1073741823), d0, d0, (st1 [7]), (Ptr 0), (of_list [7]).
  split; [apply wf_st1|]. split; [apply holds_st1|]. split; [apply image_of_list; reflexivity|].
  split; [vm_compute; reflexivity|].
  unfold draw_circle, draw_shape. change (is_null (Ptr 0)) with false. cbn [orb Z.eqb]. cbv iota.
  replace (dlt (d_of_Z 1073741823) d0 || negb (dfinite (d_of_Z 1073741823)) || negb (dfinite d0) || negb (dfinite d0)) with false
    by (vm_compute; reflexivity). cbv iota.
  replace (dlt (d_of_Z (INT_MAX / 2)) (d_of_Z 1073741823)) with false by (vm_compute; reflexivity). cbv iota.
  replace (parse_hex_color red) with (Ok (255, 0, 0)) by (vm_compute; reflexivity).
  replace (to_i32 (d_of_Z 1073741823)) with (Ok 1073741823) by (vm_compute; reflexivity).
  replace (to_i32 d0) with (Ok 0) by (vm_compute; reflexivity).
  rewrite (bindM_lift _ _ _ _ eq_refl), (bindM_lift _ _ _ _ eq_refl), (bindM_lift _ _ _ _ eq_refl), (bindM_lift _ _ _ _ eq_refl).
  rewrite (bindM_Ok _ _ _ (of_list [7]) (st1 [7])) by (apply get_bytes_ok; reflexivity).
  assert (B : bresenham (draw_circle_points (set_circle_pixel 1 1 1 (255, 0, 0)) 0 0) 1073741823 (of_list [7]) = UB SignedOverflow).
  2: { revert B. generalize (bresenham (draw_circle_points (set_circle_pixel 1 1 1 (255, 0, 0)) 0 0) 1073741823 (of_list [7])).
       intros X ->. reflexivity. }
  apply (bresenham_ub 1).
  - lia.
  - reflexivity.
  - intros x y data Hx Hy L. unfold INT_MAX in Hx.
    destruct (draw_luma_ok 255 0 0) as (gv & Eg & _); try (unfold byte; lia).
    destruct (circle_points_ok 1 _ _ (set_circle_pixel 1 1 1 (255, 0, 0))
      (fun px py data L => set_px_ok 1 1 1 255 0 0 gv px py data ltac:(lia) ltac:(lia) ltac:(auto) Eg ltac:(lia)) 0 0 x y data L)
      as (b' & E & P); try (unfold INT_MAX; lia).
    exists b'. split; auto. rewrite (proj1 P). exact L.
  - vm_compute. reflexivity.
Qed.

(** Neutral grays on one-channel pictures: "#010101" comes out as 0. *)
Definition gray1 : cstr := [48; 49; 48; 49; 48; 49]. (* "010101" *)
Lemma gray_dark : exists hex v s p b s' b',
  wf s /\ draw_ok 5 5 1 d0 (d_of_Z 2) (d_of_Z 2) /\ holds s p b /\ image (5 * 5) b /\
  parse_hex_color hex = Ok (v, v, v) /\
  draw_circle 5 5 1 (Some hex) d0 (d_of_Z 2) (d_of_Z 2) p s = Ok (tt, s') /\ holds s' p b' /\
  pix b 5 1 2 2 0 <> pix b' 5 1 2 2 0 /\ pix b' 5 1 2 2 0 = Some (v - 1).
Proof.
  exists gray1, 1, (st1 (repeat 9 25)), (Ptr 0), (of_list (repeat 9 25)).
  destruct (circle_draws 5 5 1 gray1 d0 (d_of_Z 2) (d_of_Z 2) (st1 (repeat 9 25)) (Ptr 0) (of_list (repeat 9 25)) 1 1 1)
    as (col & _ & dd & s1 & b1 & Hd & Ea & M1 & _).
  { exact ok55. } { apply holds_st1. } { vm_compute; congruence. } { vm_compute; reflexivity. }
  injection Hd as <-. exists s1, b1. split; [apply wf_st1|]. split; [exact ok55|]. split; [apply holds_st1|].
  split; [apply image_of_list; reflexivity|]. split; [vm_compute; reflexivity|]. split; [exact Ea|]. split; [exists 0; auto|].
  assert (F1 : b1 = match mem s1 0 with Some (OBytes x) => x | _ => bnew 0 end) by now rewrite M1.
  assert (P : pix b1 5 1 2 2 0 = Some 0).
  { rewrite F1. transitivity (match draw_circle 5 5 1 (Some gray1) d0 (d_of_Z 2) (d_of_Z 2) (Ptr 0) (st1 (repeat 9 25)) with
      | Ok (_, s1) => pix (match mem s1 0 with Some (OBytes x) => x | _ => bnew 0 end) 5 1 2 2 0 | _ => None end).
    - now rewrite Ea.
    - vm_compute; reflexivity. }
  rewrite P. split; [vm_compute; congruence|reflexivity].
Qed.
(** Otherwise the drawn level of a neutral gray is exact or one too dark. *)
Lemma gray_near v g : byte v -> drawn_gray v v v g -> g = v \/ g = v - 1.
Proof.
  intros _ [_ H]. replace (299 * v + 587 * v + 114 * v) with (v * 1000) in H by ring. rewrite Z.div_mul in H by lia. lia.
Qed.

(** A 1x1 picture with a border of 32768: the last pixel is never written. *)
Lemma border_unwritten : exists w h hex bw s p b q ow oh s' b',
  wf s /\ holds s p b /\ image (w * h * 1) b /\
  add_border w h 1 (Some hex) bw p 0 0 s = Ok (Ptr q, ow, oh, s') /\
  mem s' q = Some (OBytes b') /\ ow = w + 2 * bw /\ oh = h + 2 * bw /\
  exists x y, inside ow oh x y /\ pix b' ow 1 x y 0 = None.
Proof.
  exists 1, 1, red, 32768, (st1 [7]), (Ptr 0), (of_list [7]).
  destruct (border_high 65537 65537 1 255 0 0 (bnew 4295098369) 4295098369) as (b1 & E1 & L1 & H1); try lia; try reflexivity;
    try (unfold byte; lia).
  assert (E2 : exists b2, border_copy 1 1 1 32768 65537 (of_list [7]) b1 = Ok b2 /\ forall j, 4294967296 <= j -> bget b2 j = bget b1 j).
  { unfold border_copy. exists (bset b1 (u32 (u32 (u32 (u32 (u32 (0 + 32768) * 65537) + u32 (0 + 32768)) * 1) + 0)) 7). split.
    - idtac.
      rewrite for_step, (for_step 0 1), (for_step 0 1) by lia.
      match goal with |- context [load ?a ?b] => change (load a b) with (Ok 7) end. rewrite bind_Ok.
      rewrite store_ok.
      2: { rewrite L1. vm_compute. split; congruence. }
      rewrite bind_Ok. rewrite for_empty by lia. rewrite bind_Ok. rewrite for_empty by lia. rewrite bind_Ok. rewrite for_empty by lia. reflexivity.
    - intros j Hj. apply bget_bset_other. match goal with |- _ <> ?x => pose proof (u32_range x) end.
      match goal with |- _ <> u32 ?x => pose proof (u32_range x) as R end. unfold U32 in R. lia. }
  destruct E2 as (b2 & E2 & H2).
  assert (R : add_border 1 1 1 (Some red) 32768 (Ptr 0) 0 0 (st1 [7]) =
    Ok (Ptr 1, 65537, 65537, mkst (upd (upd (mem (st1 [7])) 1 (Some (OBytes (bnew 4295098369)))) 1 (Some (OBytes b2))) 2 (fun _ => true) 1)).
  { unfold add_border. change (is_null (Ptr 0)) with false.
    change (parse_hex_color red) with (Ok (255, 0, 0)).
    match goal with |- context [if ?c then ret (Null, 0, 0) else _] => change c with false end.
    cbv iota.
    match goal with |- context [if ?c then ret (Null, 0, 0) else _] => change c with false end.
    cbv iota.
    match goal with |- context [if ?c then ret (Null, 0, 0) else _] => change c with false end.
    cbv iota. rewrite (bindM_lift _ _ _ _ eq_refl). cbv zeta.
    change (u32 (1 + u32 (2 * 32768))) with 65537.
    change (SIZE_MAX / 65537 <? 65537) with false. change (SIZE_MAX / 1 <? u64 (65537 * 65537)) with false. cbv iota.
    change (u64 (u64 (65537 * 65537) * 1)) with 4295098369.
    unfold malloc_bytes, alloc, bindM at 1. cbn [orc tick st1]. cbv beta iota.
    cbn [is_null]. cbv iota.
    set (s1 := mkst _ _ _ _). revert E1 E2. clear. generalize (border_copy 1 1 1 32768 65537). generalize (border_fill 65537 65537 1 (255, 0, 0)). intros bf bc E1 E2.
    rewrite (bindM_Ok _ _ _ (bnew 4295098369) s1) by (apply get_bytes_ok; reflexivity).
    rewrite (bindM_lift _ _ _ _ E1).
    rewrite (bindM_Ok _ _ _ (of_list [7]) s1) by (apply get_bytes_ok; reflexivity).
    rewrite (bindM_lift _ _ _ _ E2).
    erewrite bindM_Ok by (apply put_bytes_ok with (o := OBytes (bnew 4295098369)); reflexivity).
    reflexivity. }
  eexists 1, 65537, 65537, _, b2. split; [apply wf_st1|]. split; [apply holds_st1|]. split; [apply image_of_list; reflexivity|].
  split; [exact R|]. split; [reflexivity|]. split; [lia|]. split; [lia|].
  exists 65536, 65536. split; [split; lia|]. unfold pix. rewrite H2, H1 by lia. reflexivity.
Qed.

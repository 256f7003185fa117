(** * Proofs about [M_Color.v]: consequences for stretch, thresholds, hex colours, binary *)
From Verif Require Import Base BaseLemmas F Heap HeapLemmas Spec Spec_Color CountLemmas M_Color P_Color P_Color2.

Lemma stretch_rejects : forall w h s p,
  wf s -> is_u32 w -> is_u32 h ->
  p = Null \/ w = 0 \/ h = 0 \/ w * h * 4 > SIZE_MAX ->
  returns_null s (grayscale_stretch w h p s).
Proof.
  unfold is_u32, SIZE_MAX; intros w h s data Hwf Hw Hh Hbad.
  pose proof (returns_null_ret s Hwf) as R.
  unfold grayscale_stretch.
  destruct (is_null data || (w =? 0) || (h =? 0)) eqn:E; [exact R|].
  destruct (SIZE_MAX / h <? w) eqn:E2; [exact R|].
  assert (data <> Null) by (destruct data; [discriminate|congruence]).
  assert (w * h * 4 > 18446744073709551615) by (destruct Hbad as [|[|[|]]]; try lia; congruence).
  assert (0 <= w * h < 18446744073709551616) by nia.
  rewrite u64_small by lia.
  replace (SIZE_MAX / 4 <? w * h) with true; [exact R|].
  change (SIZE_MAX / 4) with 4611686018427387903. lia.
Qed.

Lemma stretch_monotone : forall w h b b' x y x' y' g g',
  dims_ok w h -> w * h <= 1073741824 -> image (w * h * 4) b ->
  calls grayscale_stretch w h b b' ->
  0 <= x < w -> 0 <= y < h -> 0 <= x' < w -> 0 <= y' < h ->
  gray_at b w x y <= gray_at b w x' y' ->
  pix b' w 4 x y 0 = Some g -> pix b' w 4 x' y' 0 = Some g' -> g <= g'.
Proof.
  intros w h b b' x y x' y' g g' D Hn Hi C Hx Hy Hx' Hy' Hle P P'.
  assert (H1 := calls_inv' _ _ _ _ _ _ (fun s p Hwf Hp => grayscale_stretch_ok w h s p b Hwf D Hn Hp Hi) C).
  destruct H1 as [_ (lo & hi & Hlo & Hhi & _ & _ & G)].
  destruct (G x y Hx Hy) as (A & _). destruct (G x' y' Hx' Hy') as (A' & _).
  assert (g = stretch_map lo hi (gray_at b w x y)) by congruence.
  assert (g' = stretch_map lo hi (gray_at b w x' y')) by congruence. subst.
  rewrite <- !lum_gray_at in *.
  apply stretch_map_mono; auto; try lia; eapply lum_byte; eauto; now apply rm_bound.
Qed.

(** 65536x65536: the 32-bit counter of the first loop never reaches 2^32. *)
Lemma stretch_hangs : exists w h s p b,
  wf s /\ dims_ok w h /\ holds s p b /\ image (w * h * 4) b /\
  grayscale_stretch w h p s = Hang.
Proof.
  exists 65536, 65536, (st_const (65536 * 65536 * 4) 7), (Ptr 0), (bconst (65536 * 65536 * 4) 7).
  split; [apply wf_st_const|]. split; [unfold dims_ok, is_u32, SIZE_MAX; lia|].
  split; [exists 0; split; reflexivity|].
  split; [apply image_const; unfold byte; lia|].
  change (65536 * 65536 * 4) with 17179869184.
  unfold grayscale_stretch. change (is_null (Ptr 0)) with false.
  change (65536 =? 0) with false. cbn [orb]. cbv iota.
  change (SIZE_MAX / 65536 <? 65536) with false. cbv iota zeta.
  change (u64 (65536 * 65536)) with 4294967296.
  change (SIZE_MAX / 4 <? 4294967296) with false. cbv iota.
  change (u64 (4294967296 * 4)) with 17179869184.
  unfold malloc_bytes. unfold st_const.
  unfold bindM at 1. unfold alloc at 1. cbn [orc mem nxt tick]. cbn beta iota delta [is_null].
  unfold bindM at 1. unfold alloc at 1. cbn [orc mem nxt tick]. cbn beta iota delta [is_null].
  hget. hget.
  assert (H : stretch_gray_loop 4294967296 (bconst 17179869184 7) (bnew 4294967296) = Hang).
  { unfold stretch_gray_loop, for_u32. change (4294967296 <? U32) with false. cbv iota.
    destruct (for_inv (fun (_ : Z) (b : buf Z) => blen b = 4294967296) 0 U32
      (fun i gv => gray <- get_gray32 (bconst 17179869184 7) (u32 (i * 4));; store gv i gray) (bnew 4294967296))
      as [b' [E _]].
    - unfold U32; lia.
    - reflexivity.
    - intros i gv Hi L. unfold U32 in Hi. unfold get_gray32.
      pose proof (u32_range (i * 4)). pose proof (u32_range (u32 (i * 4) + 1)). pose proof (u32_range (u32 (i * 4) + 2)).
      rewrite (load_ok _ _ 7) by (auto; cbn [blen bconst]; lia). simpl bind.
      rewrite (load_ok _ _ 7) by (auto; cbn [blen bconst]; lia). simpl bind.
      rewrite (load_ok _ _ 7) by (auto; cbn [blen bconst]; lia). simpl bind.
      rewrite store_ok by lia. eexists; split; [reflexivity|]. exact L.
    - rewrite E. reflexivity. }
  unfold bindM at 1. rewrite H. reflexivity.
Qed.

(** ** Thresholds *)

Lemma inplace1 n (f : Z -> res Z) (g : Z -> Z) data :
  image n data -> 0 <= n -> (forall v, byte v -> f v = Ok (g v)) ->
  exists b, for_ 0 n (fun i data => v <- load data i ;; v' <- f v ;; store data i v') data = Ok b /\
    blen b = blen data /\
    (forall i, 0 <= i < n -> bget b i = Some (g (val data i))) /\
    (forall i, ~ (0 <= i < n) -> bget b i = bget data i).
Proof.
  intros [Hl Hi] Hn Hf.
  destruct (for_inv (fun k b => blen b = blen data /\
      (forall i, 0 <= i < k -> bget b i = Some (g (val data i))) /\
      (forall i, ~ (0 <= i < k) -> bget b i = bget data i)) 0 n
    (fun i data => v <- load data i ;; v' <- f v ;; store data i v') data) as [b [E H]]; auto.
  - split; auto. split; intros; auto; lia.
  - intros i b Hi' (L & G1 & G2).
    destruct (Hi i) as [v [Ev Bv]]; [lia|].
    rewrite (load_ok _ _ v) by (try lia; rewrite G2 by lia; auto). simpl bind.
    rewrite Hf by auto. simpl bind. rewrite store_ok by lia.
    eexists; split; [reflexivity|]. split; [exact L|]. split; intros j Hj; rewrite bget_bset.
    + destruct (Z.eqb_spec j i); [subst; unfold val; now rewrite Ev|]. apply G1; lia.
    + destruct (Z.eqb_spec j i); [lia|]. apply G2; lia.
  - eauto.
Qed.

Lemma global_threshold_ok n t data : image n data -> 0 <= n ->
  exists b, apply_global_threshold n t data = Ok b /\ blen b = blen data /\
    (forall i, 0 <= i < n -> bget b i = Some (if t <? val data i then 255 else 0)) /\
    (forall i, ~ (0 <= i < n) -> bget b i = bget data i).
Proof.
  intros Hi Hn. unfold apply_global_threshold.
  apply (inplace1 n (fun v => Ok (if t <? v then 255 else 0)) (fun v => if t <? v then 255 else 0)); auto.
Qed.

Lemma double_threshold_px_ok lower upper v : byte lower -> byte upper -> lower <> upper -> byte v ->
  double_threshold_px lower upper v = Ok (dbl_map lower upper v) /\ byte (dbl_map lower upper v).
Proof.
  unfold byte, double_threshold_px, dbl_map; intros.
  destruct (Z.ltb_spec v lower); [split; auto; lia|]. destruct (Z.ltb_spec upper v); [split; auto; lia|].
  replace (upper - lower =? 0) with false by lia.
  assert (0 <= (v - lower) * 255 / (upper - lower) < 256).
  { split; [apply Z.div_pos; lia|apply Z.div_lt_upper_bound; nia]. }
  rewrite Z.quot_div_nonneg by lia. rewrite u8_small by lia. auto.
Qed.

Lemma double_threshold_ok n lower upper data : image n data -> 0 <= n ->
  byte lower -> byte upper -> lower <> upper ->
  exists b, apply_double_threshold n lower upper data = Ok b /\ blen b = blen data /\
    (forall i, 0 <= i < n -> bget b i = Some (dbl_map lower upper (val data i))) /\
    (forall i, ~ (0 <= i < n) -> bget b i = bget data i).
Proof.
  intros Hi Hn Hl Hu Hne. unfold apply_double_threshold.
  apply (inplace1 n (double_threshold_px lower upper) (dbl_map lower upper)); auto.
  intros v Hv. now apply double_threshold_px_ok.
Qed.

(** ** Hex colours *)


Lemma hex_digit_spec c v : hex_digit c = Some v -> is_hex_digit c = true /\ hex_val c = v /\ 0 <= v < 16 /\ c <> 35.
Proof.
  unfold hex_digit, is_hex_digit, hex_val.
  destruct ((48 <=? c) && (c <=? 57)) eqn:E1; [intros [= <-]|destruct ((65 <=? c) && (c <=? 70)) eqn:E2;
   [intros [= <-]|destruct ((97 <=? c) && (c <=? 102)) eqn:E3; [intros [= <-]|discriminate]]];
   destruct (Z.leb_spec c 57), (Z.leb_spec c 70); lia.
Qed.
Lemma hex_digit_none c : hex_digit c = None -> is_hex_digit c = false.
Proof.
  unfold hex_digit, is_hex_digit.
  destruct ((48 <=? c) && (c <=? 57)); [discriminate|]. destruct ((65 <=? c) && (c <=? 70)); [discriminate|].
  destruct ((97 <=? c) && (c <=? 102)); [discriminate|]. reflexivity.
Qed.

Lemma land255 x : Z.land x 255 = x mod 256.
Proof. change 255 with (Z.ones 8). rewrite Z.land_ones by lia. reflexivity. Qed.

(** The parser without the bounds checks. *)
Definition hex_pure (hex_color : cstr) : Z * Z * Z :=
  let hex := if nth 0 hex_color 0 =? 35 then tl hex_color else hex_color in
  if negb (strlen hex =? 6) then (255, 255, 255) else
  if negb (forallb is_hex_digit (firstn 6 hex)) then (255, 255, 255) else
  let rgb := sscanf_x hex in
  (Z.land (Z.shiftr rgb 16) 255, Z.land (Z.shiftr rgb 8) 255, Z.land rgb 255).

Lemma has_bad_digit_ok hex : strlen hex = 6 ->
  has_bad_digit hex = Ok (negb (forallb is_hex_digit (firstn 6 hex))).
Proof.
  unfold strlen. intros H.
  destruct hex as [|a [|b [|c [|d [|e [|f [|]]]]]]]; cbn [length] in H; try lia.
  unfold has_bad_digit. cbn [firstn forallb].
  generalize is_hex_digit; intros P; vm_compute.
  destruct (P a), (P b), (P c), (P d), (P e), (P f); reflexivity.
Qed.

Lemma parse_hex_pure s : parse_hex_color s = Ok (hex_pure s).
Proof.
  unfold parse_hex_color, hex_pure. unfold char_at.
  replace ((0 <=? 0) && (0 <=? Z.of_nat (length s))) with true by lia. simpl bind.
  change (Z.to_nat 0) with 0%nat.
  set (t := if nth 0 s 0 =? 35 then tl s else s). cbv zeta.
  destruct (Z.eqb_spec (strlen t) 6) as [E|E]; cbn [negb]; [|reflexivity].
  rewrite has_bad_digit_ok by auto. rewrite bind_Ok.
  destruct (negb (forallb is_hex_digit (firstn 6 t))); reflexivity.
Qed.

Lemma hex6 c1 c2 c3 c4 c5 c6 v1 v2 v3 v4 v5 v6 :
  hex_digit c1 = Some v1 -> hex_digit c2 = Some v2 -> hex_digit c3 = Some v3 ->
  hex_digit c4 = Some v4 -> hex_digit c5 = Some v5 -> hex_digit c6 = Some v6 ->
  hex_pure [c1; c2; c3; c4; c5; c6] = (16 * v1 + v2, 16 * v3 + v4, 16 * v5 + v6) /\
  hex_pure [35; c1; c2; c3; c4; c5; c6] = (16 * v1 + v2, 16 * v3 + v4, 16 * v5 + v6).
Proof.
  intros H1 H2 H3 H4 H5 H6.
  apply hex_digit_spec in H1 as (A1 & B1 & C1 & N1). apply hex_digit_spec in H2 as (A2 & B2 & C2 & N2).
  apply hex_digit_spec in H3 as (A3 & B3 & C3 & N3). apply hex_digit_spec in H4 as (A4 & B4 & C4 & N4).
  apply hex_digit_spec in H5 as (A5 & B5 & C5 & N5). apply hex_digit_spec in H6 as (A6 & B6 & C6 & N6).
  assert (S : sscanf_x [c1; c2; c3; c4; c5; c6] =
    v1 * 1048576 + v2 * 65536 + v3 * 4096 + v4 * 256 + v5 * 16 + v6).
  { unfold sscanf_x. cbn [fold_left]. rewrite B1, B2, B3, B4, B5, B6.
    rewrite (u32_small (0 * 16 + v1)) by lia.
    rewrite (u32_small ((0 * 16 + v1) * 16 + v2)) by lia.
    rewrite (u32_small (((0 * 16 + v1) * 16 + v2) * 16 + v3)) by lia.
    rewrite (u32_small ((((0 * 16 + v1) * 16 + v2) * 16 + v3) * 16 + v4)) by lia.
    rewrite (u32_small (((((0 * 16 + v1) * 16 + v2) * 16 + v3) * 16 + v4) * 16 + v5)) by lia.
    rewrite u32_small by lia. ring. }
  assert (R : hex_pure [c1; c2; c3; c4; c5; c6] = (16 * v1 + v2, 16 * v3 + v4, 16 * v5 + v6)).
  { unfold hex_pure. cbn [nth].
    replace (c1 =? 35) with false by lia. unfold strlen. cbn [length firstn forallb].
    change (Z.of_nat 6 =? 6) with true. rewrite A1, A2, A3, A4, A5, A6. cbn [negb andb].
    rewrite S, !land255, !Z.shiftr_div_pow2 by lia.
    change (2 ^ 16) with 65536. change (2 ^ 8) with 256.
    f_equal; [f_equal|]; Z.div_mod_to_equations; lia. }
  split; auto.
  unfold hex_pure in *. cbn [nth tl] in *.
  replace (c1 =? 35) with false in R by lia. exact R.
Qed.

Lemma parse_hex_rejects s : ~ six_hex s -> ~ (exists t, s = 35 :: t /\ six_hex t) ->
  hex_pure s = (255, 255, 255).
Proof.
  intros H1 H2.
  assert (W : forall t, ~ six_hex t ->
    (if negb (strlen t =? 6) then (255, 255, 255) else
     if negb (forallb is_hex_digit (firstn 6 t)) then (255, 255, 255) else
     (Z.land (Z.shiftr (sscanf_x t) 16) 255, Z.land (Z.shiftr (sscanf_x t) 8) 255, Z.land (sscanf_x t) 255))
     = (255, 255, 255)).
  { intros t Ht. destruct (Z.eqb_spec (strlen t) 6) as [E|E]; cbn [negb]; auto.
    assert (L : length t = 6%nat) by (unfold strlen in E; lia).
    destruct (forallb is_hex_digit (firstn 6 t)) eqn:F; auto. exfalso. apply Ht. split; auto.
    rewrite firstn_all2 in F by lia. apply Forall_forall. intros c Hc Hn.
    rewrite forallb_forall in F. apply F in Hc. apply hex_digit_none in Hn. congruence. }
  unfold hex_pure. cbv zeta. destruct s as [|c t].
  - cbn [nth]. change (0 =? 35) with false. cbv iota. now apply W.
  - cbn [nth tl]. destruct (Z.eqb_spec c 35) as [->|].
    + apply W. intros Ht. apply H2. eauto.
    + now apply W.
Qed.

Lemma parse_hex_bytes s r g b : hex_pure s = (r, g, b) -> byte r /\ byte g /\ byte b.
Proof.
  unfold hex_pure. set (t := if nth 0 s 0 =? 35 then tl s else s).
  destruct (negb (strlen t =? 6)); [intros E; injection E; unfold byte; lia|].
  destruct (negb (forallb is_hex_digit (firstn 6 t))); [intros E; injection E; unfold byte; lia|].
  intros E; injection E as <- <- <-. rewrite !land255. unfold byte. Z.div_mod_to_equations. lia.
Qed.


Lemma parse_hex_decodes c1 c2 c3 c4 c5 c6 v1 v2 v3 v4 v5 v6 :
  hex_digit c1 = Some v1 -> hex_digit c2 = Some v2 -> hex_digit c3 = Some v3 ->
  hex_digit c4 = Some v4 -> hex_digit c5 = Some v5 -> hex_digit c6 = Some v6 ->
  parse_hex_color [c1; c2; c3; c4; c5; c6] = Ok (16 * v1 + v2, 16 * v3 + v4, 16 * v5 + v6) /\
  parse_hex_color [35; c1; c2; c3; c4; c5; c6] = Ok (16 * v1 + v2, 16 * v3 + v4, 16 * v5 + v6).
Proof.
  intros H1 H2 H3 H4 H5 H6. rewrite !parse_hex_pure.
  destruct (hex6 _ _ _ _ _ _ _ _ _ _ _ _ H1 H2 H3 H4 H5 H6) as [E1 E2]. now rewrite E1, E2.
Qed.

Lemma parse_hex_else s : ~ six_hex s -> ~ (exists t, s = 35 :: t /\ six_hex t) ->
  parse_hex_color s = Ok (255, 255, 255).
Proof. intros. rewrite parse_hex_pure. f_equal. now apply parse_hex_rejects. Qed.

(** ** convert_to_binary *)

Lemma convert_loop_ok n fg bg src : 0 <= n -> n * 4 <= 18446744073709551615 -> image (n * 4) src ->
  exists b, convert_to_binary_loop n fg bg src (bnew n) = Ok b /\ blen b = n /\
    forall i, 0 <= i < n -> bget b i =
      Some (if (val src (i * 4) =? fst (fst fg)) && (val src (i * 4 + 1) =? snd (fst fg)) && (val src (i * 4 + 2) =? snd fg)
            then 255 else 0).
Proof.
  intros Hn HS Hi. destruct fg as [[r1 g1] b1]. destruct bg as [[r2 g2] b2]. unfold convert_to_binary_loop.
  cbn [fst snd].
  destruct (loop1d_writes n 1 n (fun i => i) (fun i c =>
      Some (if (val src (i * 4) =? r1) && (val src (i * 4 + 1) =? g1) && (val src (i * 4 + 2) =? b1) then 255 else 0))
    (fun i dst =>
    let rgba_index := u64 (i * 4) in
    r <- load src rgba_index ;;
    g <- load src (u64 (rgba_index + 1)) ;;
    b <- load src (u64 (rgba_index + 2)) ;;
    if (r =? r1) && (g =? g1) && (b =? b1) then store dst i 255
    else if (r =? r2) && (g =? g2) && (b =? b2) then store dst i 0
    else store dst i 0) (bnew n)) as [b [E [L G]]]; try lia; auto.
  - intros i Hi' b Hb. cbv zeta. rewrite (u64_small (i * 4)) by lia.
    rewrite (u64_small (i * 4 + 1)) by lia. rewrite (u64_small (i * 4 + 2)) by lia.
    rewrite (image_load (n * 4)) by (auto; lia). simpl bind.
    rewrite (image_load (n * 4)) by (auto; lia). simpl bind.
    rewrite (image_load (n * 4)) by (auto; lia). simpl bind.
    rewrite !store_ok by lia.
    destruct ((val src (i * 4) =? r1) && (val src (i * 4 + 1) =? g1) && (val src (i * 4 + 2) =? b1));
    [|destruct ((val src (i * 4) =? r2) && (val src (i * 4 + 1) =? g2) && (val src (i * 4 + 2) =? b2))];
    (eexists; split; [reflexivity|]; split; [exact Hb|];
    intros j; rewrite bget_bset;
    destruct (Z.eqb_spec j i); [subst|];
      [replace ((i <=? i) && (i <? i + 1)) with true by lia
      |replace ((i <=? j) && (j <? i + 1)) with false by lia]; reflexivity).
  - exists b; split; auto. split; auto. intros i Hi'. specialize (G i 0 Hi').
    rewrite Z.add_0_r in G. apply G; lia.
Qed.

Lemma convert_to_binary_ok : forall w h s p b fg bg r g bl,
  wf s -> 0 < w <= 2147483647 -> 0 < h <= 2147483647 -> holds s p b -> image (w * h * 4) b ->
  parse_hex_color fg = Ok (r, g, bl) ->
  returns_fresh s (convert_to_binary p w h (Some fg) (Some bg) s) (fun b' =>
    exact_image (w * h) b' /\
    forall x y, 0 <= x < w -> 0 <= y < h ->
      (pix b' w 1 x y 0 = Some 255 <->
        pix b w 4 x y 0 = Some r /\ pix b w 4 x y 1 = Some g /\ pix b w 4 x y 2 = Some bl) /\
      (pix b' w 1 x y 0 = Some 0 \/ pix b' w 1 x y 0 = Some 255)).
Proof.
  intros w h s p b fg bg r g bl Hwf Hw Hh [d [-> Hd]] Hi Hfg. rewrite parse_hex_pure in Hfg. injection Hfg as Hfg.
  assert (HS : w * h * 4 <= 18446744073709551615) by nia.
  destruct (convert_loop_ok (w * h) (hex_pure fg) (hex_pure bg) b) as [b' [E [L G]]]; auto; try nia.
  unfold convert_to_binary. change (is_null (Ptr d)) with false. cbv iota.
  replace (w <=? 0) with false by lia. replace (h <=? 0) with false by lia. cbn [orb]. cbv iota.
  assert (SIZE_MAX / h <? w = false) as ->.
  { unfold SIZE_MAX; apply Z.ltb_ge. apply Z.div_le_lower_bound; nia. }
  cbv zeta. assert (u64 (w * h) = w * h) as -> by (apply u64_small; nia).
  rewrite !parse_hex_pure. eapply returns_fresh_1; eauto. cbv beta. split.
  - split; auto. split; [lia|]. intros i Hi'. rewrite G by auto. eexists; split; [reflexivity|].
    match goal with |- byte (if ?c then _ else _) => destruct c end; unfold byte; lia.
  - intros x y Hx Hy. pose proof (rm_bound w h x y Hx Hy). unfold pix.
    replace ((y * w + x) * 1 + 0) with (y * w + x) by ring. rewrite G by lia.
    rewrite Hfg. cbn [fst snd].
    destruct (image_val _ _ ((y * w + x) * 4) Hi) as [E0 _]; [lia|].
    destruct (image_val _ _ ((y * w + x) * 4 + 1) Hi) as [E1 _]; [lia|].
    destruct (image_val _ _ ((y * w + x) * 4 + 2) Hi) as [E2 _]; [lia|].
    rewrite Z.add_0_r, E0, E1, E2.
    destruct (Z.eqb_spec (val b ((y * w + x) * 4)) r); destruct (Z.eqb_spec (val b ((y * w + x) * 4 + 1)) g);
      destruct (Z.eqb_spec (val b ((y * w + x) * 4 + 2)) bl); cbn [andb]; split; auto; split; intros H0;
      try discriminate; try (destruct H0 as (X & Y & Z0); congruence); subst; auto.
Qed.

Lemma convert_to_binary_rejects : forall w h s p fg bg,
  wf s -> is_i32 w -> is_i32 h ->
  p = Null \/ w <= 0 \/ h <= 0 \/ fg = None \/ bg = None ->
  returns_null s (convert_to_binary p w h fg bg s).
Proof.
  intros w h s p fg bg Hwf Hw Hh Hbad. pose proof (returns_null_ret s Hwf) as R.
  unfold convert_to_binary. destruct fg; [|exact R]. destruct bg; [|exact R].
  destruct (is_null p) eqn:Ep; [exact R|].
  assert (p <> Null) by (destruct p; [discriminate|congruence]).
  replace ((w <=? 0) || (h <=? 0)) with true; [exact R|].
  destruct Hbad as [|[|[|[|]]]]; try congruence; lia.
Qed.

Lemma rgba_to_grayscale_rejects : forall w h s p,
  wf s -> p = Null \/ w = 0 \/ h = 0 -> returns_null s (rgba_to_grayscale w h p s).
Proof.
  intros w h s data Hwf Hbad. pose proof (returns_null_ret s Hwf) as R. unfold rgba_to_grayscale.
  replace (is_null data || (w =? 0) || (h =? 0)) with true; [exact R|].
  destruct Hbad as [->|[->| ->]]; cbn; rewrite ?orb_true_r; reflexivity.
Qed.

Lemma single_to_multichannel_rejects : forall w h s p,
  wf s -> is_u32 w -> is_u32 h ->
  p = Null \/ w = 0 \/ h = 0 \/ w * h * 4 > SIZE_MAX ->
  returns_null s (single_to_multichannel w h p s).
Proof.
  unfold is_u32, SIZE_MAX; intros w h s data Hwf Hw Hh Hbad.
  pose proof (returns_null_ret s Hwf) as R.
  unfold single_to_multichannel.
  destruct (is_null data || (w =? 0) || (h =? 0)) eqn:E; [exact R|].
  destruct (SIZE_MAX / h <? w) eqn:E2; [exact R|].
  assert (data <> Null) by (destruct data; [discriminate|congruence]).
  assert (w * h * 4 > 18446744073709551615) by (destruct Hbad as [|[|[|]]]; try lia; congruence).
  assert (0 <= w * h < 18446744073709551616) by nia.
  rewrite u64_small by lia.
  replace (SIZE_MAX / 4 <? w * h) with true; [exact R|].
  change (SIZE_MAX / 4) with 4611686018427387903. lia.
Qed.

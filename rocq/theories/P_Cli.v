(** * Proofs for the CLI picture handling *)
From Verif Require Import Base BaseLemmas F Heap HeapLemmas Spec Spec_Draw Spec_Cli M_Geom P_Geom P_Crop M_Cli.

Lemma cli_dims_ok w h : cli_dims w h -> dims_ok w h.
Proof. unfold cli_dims, dims_ok, is_u32. lia. Qed.
Lemma cli_dims_swap w h : cli_dims w h -> cli_dims h w.
Proof. unfold cli_dims. lia. Qed.
Lemma u32_cli v : 0 < v <= 2147483647 -> u32 v = v.
Proof. intros; apply u32_small; lia. Qed.
Lemma s32_cli v : 0 < v <= 2147483647 -> s32 v = v.
Proof. intros; apply s32_small; unfold INT_MIN, INT_MAX; lia. Qed.

Lemma to_i32_ok x : dfinite x = true -> is_i32 (int_part x) -> to_i32 x = Ok (int_part x).
Proof.
  unfold is_i32, int_part, dfinite, to_i32, cast_int, INT_MIN, INT_MAX. intros -> H.
  destruct ((-2147483648 <=? Btrunc x) && (Btrunc x <=? 2147483647)) eqn:E; [reflexivity|lia].
Qed.
Lemma to_u32_ok x : dfinite x = true -> is_u32 (int_part x) -> to_u32 x = Ok (int_part x).
Proof.
  unfold is_u32, int_part, dfinite, to_u32, cast_int. intros -> H.
  destruct ((0 <=? Btrunc x) && (Btrunc x <=? 4294967295)) eqn:E; [reflexivity|lia].
Qed.

(** ** Turning a [returns_fresh] call into an operation *)
Lemma pic_of_fresh s w h w' h' (m : M ptr) (P : buf Z -> Prop) (Q : Z -> Z -> buf Z -> Prop) :
  returns_fresh s (m s) P -> (forall b, P b -> Q w' h' b) ->
  returns_pic s w h ((p <-- m ;; if is_null p then ret (p, w, h) else ret (p, w', h')) s) Q.
Proof.
  intros (p & s' & E & L & H) HQ. rewrite (bindM_Ok _ _ _ _ _ E). destruct p as [|i].
  - exists Null, w, h, s'. split; [reflexivity|]. tauto.
  - exists (Ptr i), w', h', s'. split; [reflexivity|]. split; [exact L|].
    destruct H as (A & (b & B & C) & D). split; [exact A|]. split; [|exact D]. exists b; auto.
Qed.
Lemma pic_of_fresh_same s w h (m : M ptr) (P : buf Z -> Prop) (Q : Z -> Z -> buf Z -> Prop) :
  returns_fresh s (m s) P -> (forall b, P b -> Q w h b) ->
  returns_pic s w h ((p <-- m ;; ret (p, w, h)) s) Q.
Proof.
  intros (p & s' & E & L & H) HQ. rewrite (bindM_Ok _ _ _ _ _ E). exists p, w, h, s'.
  split; [reflexivity|]. split; [exact L|]. destruct p as [|i]; [tauto|].
  destruct H as (A & (b & B & C) & D). split; [exact A|]. split; [|exact D]. exists b; auto.
Qed.

(** ** Copy *)
Lemma copy_ok w h s p b : wf s -> dims_ok w h -> holds s p b -> image (w * h * 4) b ->
  returns_fresh s (copy_picture w h p s) (fun b' => exact_image (w * h * 4) b' /\
    forall x y c, 0 <= x < w -> 0 <= y < h -> 0 <= c < 4 -> pix b' w 4 x y c = pix b w 4 x y c).
Proof.
  intros Hwf (Hw & Hh & Hw0 & Hh0 & HS) (d & -> & Hd) [Hl Him]. unfold is_u32, SIZE_MAX in *.
  assert (E : u64 (u64 (u64 w * u64 h) * 4) = w * h * 4).
  { rewrite (u64_small w), (u64_small h) by lia. rewrite (u64_small (w * h)) by lia. apply u64_small; lia. }
  unfold copy_picture. rewrite E.
  destruct (bcopy_ok (bnew (w * h * 4)) 0 b 0 (w * h * 4)) as (b' & E' & L & G); try lia; [simpl; lia|].
  apply returns_fresh_1 with (b := b) (f := fun src dst => bcopy dst 0 src 0 (w * h * 4)) (b' := b'); auto.
  assert (G' : forall j, 0 <= j < w * h * 4 -> bget b' j = bget b j).
  { intros j Hj. rewrite G. replace ((0 <=? j) && (j <? 0 + w * h * 4)) with true by lia. f_equal. lia. }
  split.
  - split; [rewrite L; reflexivity|]. split; [rewrite L; simpl; lia|]. intros i Hi. rewrite G' by lia. apply Him; lia.
  - intros x y c Hx Hy Hc. unfold pix. apply G'. pose proof (rm_bound w h x y Hx Hy). lia.
Qed.

(** ** Rotate *)
Lemma rotate_op_ok w h s p b a k : wf s -> cli_dims w h -> holds s p b -> image (w * h * 4) b ->
  dfinite a = true -> is_i32 (int_part a) -> int_part a = 90 * k ->
  returns_pic s w h (rotate_op true a w h p s) (turned k w h b).
Proof.
  intros Hwf HD Hp Him Fa Ia Ek. pose proof (cli_dims_ok _ _ HD) as HD'.
  pose proof HD as (Hw & Hh & HS).
  unfold rotate_op. cbn [negb]. cbv iota.
  rewrite (bindM_lift _ _ _ _ (to_i32_ok a Fa Ia)).
  assert (Hr : Z.rem (int_part a) 360 = 90 * Z.rem k 4).
  { rewrite Ek. change 360 with (90 * 4). apply Z.mul_rem_distr_l; lia. }
  assert (Hk : -4 < Z.rem k 4 < 4) by (pose proof (Z.rem_bound_abs k 4 ltac:(lia)); lia).
  assert (Hm : k mod 4 = (Z.rem k 4 + 4) mod 4).
  { rewrite (Z.quot_rem' k 4) at 1. replace (4 * (k ÷ 4) + Z.rem k 4) with (Z.rem k 4 + (k ÷ 4) * 4) by lia.
    rewrite Z.mod_add by lia. replace (Z.rem k 4 + 4) with (Z.rem k 4 + 1 * 4) by lia. rewrite Z.mod_add by lia. reflexivity. }
  rewrite Hr. assert (C : ck32 (90 * Z.rem k 4 + 360) = Ok (90 * Z.rem k 4 + 360)) by (apply ck32_ok; unfold INT_MIN, INT_MAX; lia).
  rewrite (bindM_lift _ _ _ _ C).
  assert (A : Z.rem (90 * Z.rem k 4 + 360) 360 = 90 * (k mod 4)).
  { rewrite Z.rem_mod_nonneg by lia. replace (90 * Z.rem k 4 + 360) with (90 * (Z.rem k 4 + 4)) by lia.
    change 360 with (90 * 4). rewrite Z.mul_mod_distr_l by lia. rewrite Hm. reflexivity. }
  rewrite A. clear A C Hr Hm Hk.
  assert (K : k mod 4 = 0 \/ k mod 4 = 1 \/ k mod 4 = 2 \/ k mod 4 = 3) by (pose proof (Z.mod_pos_bound k 4); lia).
  rewrite !u32_cli, s32_cli by lia.
  destruct K as [K|[K|[K|K]]]; rewrite K; cbn [Z.mul Z.eqb Pos.mul Pos.eqb negb andb]; cbv iota.
  - eapply pic_of_fresh_same; [apply copy_ok; eauto|]. intros b' [X G].
    split; [exact X|]. repeat split; try (intros; exfalso; lia). intros; apply G; auto.
  - eapply pic_of_fresh; [apply rotate_90_main; eauto|]. intros b' [X G].
    split; [exact X|]. split; [intros; exfalso; lia|]. split; [|split; intros; exfalso; lia].
    intros _. split; [reflexivity|]. split; [reflexivity|]. intros x y c Hx Hy Hc.
    rewrite G by lia. f_equal. lia.
  - eapply pic_of_fresh_same; [apply rotate_180_main; eauto|]. intros b' [X G].
    split; [exact X|]. split; [intros; exfalso; lia|]. split; [intros; exfalso; lia|]. split; [|intros; exfalso; lia].
    intros _. split; [reflexivity|]. split; [reflexivity|]. intros x y c Hx Hy Hc.
    rewrite G by lia. f_equal; lia.
  - eapply pic_of_fresh; [apply rotate_270_main; eauto|]. intros b' [X G].
    split; [exact X|]. split; [intros; exfalso; lia|]. split; [intros; exfalso; lia|]. split; [intros; exfalso; lia|].
    intros _. split; [reflexivity|]. split; [reflexivity|]. intros x y c Hx Hy Hc.
    rewrite G by lia. f_equal; lia.
Qed.

Lemma rotate_op_rejects w h s p a :
  dfinite a = true -> is_i32 (int_part a) -> (int_part a) mod 90 <> 0 ->
  rotate_op true a w h p s = Ok (Null, w, h, s).
Proof.
  intros Fa Ia Hn. unfold rotate_op. cbn [negb]. cbv iota.
  rewrite (bindM_lift _ _ _ _ (to_i32_ok a Fa Ia)).
  assert (Hk : -360 < Z.rem (int_part a) 360 < 360) by (pose proof (Z.rem_bound_abs (int_part a) 360 ltac:(lia)); lia).
  assert (C : ck32 (Z.rem (int_part a) 360 + 360) = Ok (Z.rem (int_part a) 360 + 360)) by (apply ck32_ok; unfold INT_MIN, INT_MAX; lia).
  rewrite (bindM_lift _ _ _ _ C).
  rewrite Z.rem_mod_nonneg by lia.
  pose proof (Z.quot_rem' (int_part a) 360) as Q.
  pose proof (Z.mod_pos_bound (Z.rem (int_part a) 360 + 360) 360).
  pose proof (Z.div_mod (Z.rem (int_part a) 360 + 360) 360).
  set (r := (Z.rem (int_part a) 360 + 360) mod 360) in *.
  assert (N : forall m, r <> 90 * m).
  { intros m Em. apply Hn. apply Z.mod_divide; [lia|].
    exists (4 * (int_part a ÷ 360) + 4 * ((Z.rem (int_part a) 360 + 360) / 360) + m - 4). lia. }
  replace (r =? 0) with false by (specialize (N 0); lia).
  replace (r =? 90) with false by (specialize (N 1); lia).
  replace (r =? 180) with false by (specialize (N 2); lia).
  replace (r =? 270) with false by (specialize (N 3); lia).
  reflexivity.
Qed.

(** ** Crop *)
Lemma crop_op_ok w h s p b a1 a2 a3 a4 : wf s -> cli_dims w h -> holds s p b -> image (w * h * 4) b ->
  dfinite a1 = true -> is_i32 (int_part a1) -> dfinite a2 = true -> is_i32 (int_part a2) ->
  dfinite a3 = true -> is_u32 (int_part a3) -> dfinite a4 = true -> is_u32 (int_part a4) ->
  0 < int_part a3 -> 0 < int_part a4 -> int_part a1 < w -> int_part a2 < h ->
  returns_pic s w h (crop_op true a1 a2 a3 a4 w h p s) (cropped (int_part a1) (int_part a2) (int_part a3) (int_part a4) w h b).
Proof.
  intros Hwf HD Hp Him F1 I1 F2 I2 F3 I3 F4 I4 P3 P4 L1 L2. pose proof HD as (Hw & Hh & HS).
  unfold crop_op. cbn [negb]. cbv iota.
  rewrite (bindM_lift _ _ _ _ (to_i32_ok a1 F1 I1)), (bindM_lift _ _ _ _ (to_i32_ok a2 F2 I2)).
  rewrite (bindM_lift _ _ _ _ (to_u32_ok a3 F3 I3)), (bindM_lift _ _ _ _ (to_u32_ok a4 F4 I4)).
  set (x := int_part a1) in *. set (y := int_part a2) in *. set (cw := int_part a3) in *. set (ch := int_part a4) in *.
  unfold is_i32, is_u32 in *.
  replace (if x <? 0 then 0 else u32 x) with (Z.max 0 x) by (destruct (x <? 0) eqn:E; [lia|rewrite u32_small; lia]).
  replace (if y <? 0 then 0 else u32 y) with (Z.max 0 y) by (destruct (y <? 0) eqn:E; [lia|rewrite u32_small; lia]).
  rewrite (u32_cli w), (u32_cli h) by lia.
  replace ((w <=? Z.max 0 x) || (h <=? Z.max 0 y)) with false by lia. cbv iota.
  rewrite (u32_small (w - Z.max 0 x)), (u32_small (h - Z.max 0 y)) by lia.
  replace (if w - Z.max 0 x <? cw then w - Z.max 0 x else cw) with (Z.min cw (w - Z.max 0 x)) by (destruct (w - Z.max 0 x <? cw) eqn:E; lia).
  replace (if h - Z.max 0 y <? ch then h - Z.max 0 y else ch) with (Z.min ch (h - Z.max 0 y)) by (destruct (h - Z.max 0 y <? ch) eqn:E; lia).
  rewrite !s32_cli by lia.
  eapply pic_of_fresh.
  - apply crop_ok with (b := b); unfold is_u32; auto; lia.
  - intros b' [X G]. unfold cropped. split; [reflexivity|]. split; [reflexivity|]. split; [exact X|]. exact G.
Qed.

Lemma crop_op_rejects w h s p a1 a2 a3 a4 : cli_dims w h ->
  dfinite a1 = true -> is_i32 (int_part a1) -> dfinite a2 = true -> is_i32 (int_part a2) ->
  dfinite a3 = true -> is_u32 (int_part a3) -> dfinite a4 = true -> is_u32 (int_part a4) ->
  w <= int_part a1 \/ h <= int_part a2 ->
  crop_op true a1 a2 a3 a4 w h p s = Ok (Null, w, h, s).
Proof.
  intros HD F1 I1 F2 I2 F3 I3 F4 I4 L. pose proof HD as (Hw & Hh & HS).
  unfold crop_op. cbn [negb]. cbv iota.
  rewrite (bindM_lift _ _ _ _ (to_i32_ok a1 F1 I1)), (bindM_lift _ _ _ _ (to_i32_ok a2 F2 I2)).
  rewrite (bindM_lift _ _ _ _ (to_u32_ok a3 F3 I3)), (bindM_lift _ _ _ _ (to_u32_ok a4 F4 I4)).
  set (x := int_part a1) in *. set (y := int_part a2) in *.
  unfold is_i32, is_u32 in *.
  replace (if x <? 0 then 0 else u32 x) with (Z.max 0 x) by (destruct (x <? 0) eqn:E; [lia|rewrite u32_small; lia]).
  replace (if y <? 0 then 0 else u32 y) with (Z.max 0 y) by (destruct (y <? 0) eqn:E; [lia|rewrite u32_small; lia]).
  rewrite (u32_cli w), (u32_cli h) by lia.
  replace ((w <=? Z.max 0 x) || (h <=? Z.max 0 y)) with true by lia. reflexivity.
Qed.

(** ** EXIF *)
Definition exif_outcome s i o w h b (run : res (ptr * Z * Z * st)) : Prop :=
  exists w' h' s', later s s' /\
    ((exists j b', run = Ok (Ptr j, w', h', s') /\ replaced s s' i j b' /\ upright o w h b w' h' b') \/
     (run = Ok (Ptr i, w', h', s') /\ same_mem s s' /\ alloc_failed s s' /\
      ((o <= 4 -> w' = w /\ h' = h) /\ (4 < o -> w' = h /\ h' = w)))).

Lemma exif_step s i o w h b (m : M ptr) (P : buf Z -> Prop) :
  mem s i = Some (OBytes b) -> 2 <= o <= 8 ->
  returns_fresh s (m s) P ->
  (forall b', P b' -> upright o w h b (if 5 <=? o then h else w) (if 5 <=? o then w else h) b') ->
  exif_outcome s i o w h b ((r <-- m ;;
     if is_null r then ret (Ptr i, if 5 <=? o then h else w, if 5 <=? o then w else h)
     else _ <-- free (Ptr i) ;; ret (r, if 5 <=? o then h else w, if 5 <=? o then w else h)) s).
Proof.
  intros Hi Ho (q & s' & E & L & H) K. rewrite (bindM_Ok _ _ _ _ _ E). destruct q as [|j].
  - exists (if 5 <=? o then h else w), (if 5 <=? o then w else h), s'. split; [exact L|]. right.
    split; [reflexivity|]. destruct H as [A B]. split; [exact A|]. split; [exact B|].
    destruct (5 <=? o) eqn:E5; lia.
  - destruct H as (A & (b' & B & C) & D).
    assert (Nij : i <> j) by congruence.
    change (is_null (Ptr j)) with false. cbv iota.
    assert (Mi : mem s' i = Some (OBytes b)) by (rewrite D by auto; exact Hi).
    rewrite (bindM_Ok _ _ _ _ _ (free_ok _ _ _ Mi)).
    exists (if 5 <=? o then h else w), (if 5 <=? o then w else h), (mkst (upd (mem s') i None) (nxt s') (orc s') (tick s')).
    split.
    { destruct L as (W & O & T & N). split; [|cbn [orc tick nxt]; auto].
      intros k Hk. cbn [mem nxt] in *. unfold upd. destruct (k =? i); [reflexivity|apply W; exact Hk]. }
    left. exists j, b'. split; [reflexivity|]. split; [|apply K; exact C].
    split; [exact A|]. cbn [mem]. split; [rewrite upd_other by auto; exact B|]. split; [apply upd_same|].
    intros k Hk1 Hk2. rewrite upd_other by auto. apply D; auto.
Qed.

Lemma apply_exif_ok o w h s i b : wf s -> cli_dims w h -> mem s i = Some (OBytes b) -> image (w * h * 4) b ->
  2 <= o <= 8 -> exif_outcome s i o w h b (apply_exif o w h (Ptr i) s).
Proof.
  intros Hwf HD Hi Him Ho. pose proof HD as (Hw & Hh & HS). pose proof (cli_dims_ok _ _ HD) as HD'.
  assert (Hp : holds s (Ptr i) b) by (exists i; auto).
  unfold apply_exif. replace ((1 <? o) && (o <=? 8)) with true by lia. cbv iota zeta.
  rewrite !u32_cli, !s32_cli by lia.
  assert (K : o = 2 \/ o = 3 \/ o = 4 \/ o = 5 \/ o = 6 \/ o = 7 \/ o = 8) by lia.
  destruct K as [->|[->|[->|[->|[->|[->| ->]]]]]].
  - apply exif_step with (1 := Hi) (3 := flip_x_main w h s (Ptr i) b Hwf HD' Hp Him); [lia|]. intros b' [X G].
    exists Top, Right. split; [reflexivity|]. split; [reflexivity|]. split; [exact X|].
    intros x y k Hx Hy Hk. cbn [fst snd upright_pos along]. change (5 <=? 2) with false. cbv iota. rewrite G by lia. f_equal; lia.
  - apply exif_step with (1 := Hi) (3 := rotate_180_main w h s (Ptr i) b Hwf HD' Hp Him); [lia|]. intros b' [X G].
    exists Bottom, Right. split; [reflexivity|]. split; [reflexivity|]. split; [exact X|].
    intros x y k Hx Hy Hk. cbn [fst snd upright_pos along]. change (5 <=? 3) with false. cbv iota. rewrite G by lia. f_equal; lia.
  - apply exif_step with (1 := Hi) (3 := flip_y_main w h s (Ptr i) b Hwf HD' Hp Him); [lia|]. intros b' [X G].
    exists Bottom, Left. split; [reflexivity|]. split; [reflexivity|]. split; [exact X|].
    intros x y k Hx Hy Hk. cbn [fst snd upright_pos along]. change (5 <=? 4) with false. cbv iota. rewrite G by lia. f_equal; lia.
  - apply exif_step with (1 := Hi) (3 := transpose_main w h s (Ptr i) b Hwf HD' Hp Him); [lia|]. intros b' [X G].
    exists Left, Top. split; [reflexivity|]. split; [reflexivity|]. split; [exact X|].
    intros x y k Hx Hy Hk. cbn [fst snd upright_pos along]. change (5 <=? 5) with true. cbv iota. rewrite G by lia. f_equal; lia.
  - apply exif_step with (1 := Hi) (3 := rotate_90_main w h s (Ptr i) b Hwf HD' Hp Him); [lia|]. intros b' [X G].
    exists Right, Top. split; [reflexivity|]. split; [reflexivity|]. split; [exact X|].
    intros x y k Hx Hy Hk. cbn [fst snd upright_pos along]. change (5 <=? 6) with true. cbv iota. rewrite G by lia. f_equal; lia.
  - apply exif_step with (1 := Hi) (3 := transverse_main w h s (Ptr i) b Hwf HD' Hp Him); [lia|]. intros b' [X G].
    exists Right, Bottom. split; [reflexivity|]. split; [reflexivity|]. split; [exact X|].
    intros x y k Hx Hy Hk. cbn [fst snd upright_pos along]. change (5 <=? 7) with true. cbv iota. rewrite G by lia. f_equal; lia.
  - apply exif_step with (1 := Hi) (3 := rotate_270_main w h s (Ptr i) b Hwf HD' Hp Him); [lia|]. intros b' [X G].
    exists Left, Bottom. split; [reflexivity|]. split; [reflexivity|]. split; [exact X|].
    intros x y k Hx Hy Hk. cbn [fst snd upright_pos along]. change (5 <=? 8) with true. cbv iota. rewrite G by lia. f_equal; lia.
Qed.

Lemma apply_exif_main o w h s i b : wf s -> cli_picture w h b -> mem s i = Some (OBytes b) -> 2 <= o <= 8 ->
  exists q w' h' s', apply_exif o w h (Ptr i) s = Ok (q, w', h', s') /\ later s s' /\
    ((exists j b', q = Ptr j /\ replaced s s' i j b' /\ upright o w h b w' h' b') \/
     (q = Ptr i /\ same_mem s s' /\ alloc_failed s s')).
Proof.
  intros Hwf [HD Him] Hi Ho. destruct (apply_exif_ok o w h s i b Hwf HD Hi Him Ho) as (w' & h' & s' & L & [K|K]).
  - destruct K as (j & b' & E & K). exists (Ptr j), w', h', s'. split; [exact E|]. split; [exact L|]. left. exists j, b'. tauto.
  - exists (Ptr i), w', h', s'. tauto.
Qed.
Lemma apply_exif_plain o w h s p : o <= 1 \/ 8 < o -> apply_exif o w h p s = Ok (p, w, h, s).
Proof. intros H. unfold apply_exif. replace ((1 <? o) && (o <=? 8)) with false by lia. reflexivity. Qed.

(** ** Pipelines *)
Section pipe.
Context {op : Type} (app : op -> Z -> Z -> ptr -> M (ptr * Z * Z)).
Context (Inv : Z -> Z -> buf Z -> Prop) (R : op -> Z -> Z -> buf Z -> Z -> Z -> buf Z -> Prop).

Lemma later_upd s s' t : later s s' -> later s (mkst (upd (mem s') t None) (nxt s') (orc s') (tick s')).
Proof.
  intros (W & O & T & N). split; [|cbn [orc tick nxt]; auto].
  intros k Hk. cbn [mem nxt] in *. unfold upd. destruct (k =? t); [reflexivity|apply W; exact Hk].
Qed.

Lemma loop_mid (ops : list op) : (forall o, In o ops -> op_safe Inv (app o) (R o)) ->
  forall w h i t s b, wf s -> mem s t = Some (OBytes b) -> Inv w h b -> t <> i -> mem s i <> None ->
  exists q w' h' s', pipeline_loop app ops w h (Ptr t) (Ptr t) (Ptr i) s = Ok (q, w', h', s') /\ later s s' /\
    match q with
    | Null => mem s' t = None /\ forall j, j <> t -> mem s' j = mem s j
    | Ptr j => (j = t \/ mem s j = None /\ mem s' t = None) /\
               (exists b', mem s' j = Some (OBytes b') /\ Inv w' h' b' /\ composed R ops w h b w' h' b') /\
               (forall k, k <> t -> k <> j -> mem s' k = mem s k)
    end.
Proof.
  induction ops as [|o ops IH]; intros HS w h i t s b Hwf Ht HI Nt Li.
  - exists (Ptr t), w, h, s. split; [reflexivity|]. split; [apply later_refl; auto|].
    split; [auto|]. split; [|auto]. exists b. split; [auto|]. split; [auto|]. cbn. auto.
  - cbn [pipeline_loop].
    destruct (HS o (or_introl eq_refl) w h s (Ptr t) b Hwf ltac:(exists t; auto) HI) as (q & w1 & h1 & s1 & E & L & H).
    rewrite (bindM_Ok _ _ _ _ _ E).
    assert (FT : forall (s2 : st) ob, mem s2 t = Some ob ->
      free_temp (Ptr t) (Ptr i) s2 = Ok (tt, mkst (upd (mem s2) t None) (nxt s2) (orc s2) (tick s2))).
    { intros s2 ob Hs2. unfold free_temp. cbn [is_null ptr_eqb negb andb]. replace (t =? i) with false by lia.
      cbn [negb]. cbv iota. eapply free_ok; eauto. }
    destruct q as [|q].
    + change (is_null Null) with true. cbv iota.
      rewrite (bindM_Ok _ _ _ _ _ (FT s1 _ (eq_trans (H t) Ht))).
      exists Null, w1, h1, (mkst (upd (mem s1) t None) (nxt s1) (orc s1) (tick s1)).
      split; [reflexivity|]. split; [apply later_upd; auto|]. cbn [mem]. split; [apply upd_same|].
      intros j Hj. rewrite upd_other by auto. apply H.
    + change (is_null (Ptr q)) with false. cbv iota.
      destruct H as (A & (b1 & B & I1 & R1) & D).
      assert (Nqt : t <> q) by congruence.
      assert (Nqi : q <> i) by congruence.
      assert (Mt : mem s1 t = Some (OBytes b)) by (rewrite D by auto; auto).
      rewrite (bindM_Ok _ _ _ _ _ (FT s1 _ Mt)).
      set (s2 := mkst (upd (mem s1) t None) (nxt s1) (orc s1) (tick s1)).
      assert (L2 : later s s2) by (apply later_upd; auto).
      assert (W2 : wf s2) by apply L2.
      assert (M2q : mem s2 q = Some (OBytes b1)) by (cbn [mem s2]; rewrite upd_other by auto; auto).
      assert (M2 : forall j, j <> t -> j <> q -> mem s2 j = mem s j)
        by (intros j J1 J2; cbn [mem s2]; rewrite upd_other by auto; apply D; auto).
      assert (M2t : mem s2 t = None) by (cbn [mem s2]; apply upd_same).
      destruct (IH (fun o' Ho => HS o' (or_intror Ho)) w1 h1 i q s2 b1 W2 M2q I1 Nqi) as (r & w3 & h3 & s3 & E3 & L3 & H3).
      { rewrite M2 by auto. exact Li. }
      exists r, w3, h3, s3. split; [exact E3|].
      split; [eapply later_trans; eauto|].
      destruct r as [|j].
      * destruct H3 as [X Y]. split; [rewrite Y by auto; exact M2t|].
        intros k Hk. destruct (Z.eq_dec k q) as [->|Nk]; [rewrite X; symmetry; exact A|]. rewrite Y by auto. apply M2; auto.
      * destruct H3 as (X & (b3 & B3 & I3 & R3) & Y).
        assert (Njt : j <> t \/ mem s3 t <> None) by (destruct (Z.eq_dec j t); [right; congruence|auto]).
        destruct X as [-> | [X1 X2]].
        -- split; [right; split; [exact A|rewrite Y by auto; exact M2t]|].
           split; [exists b3; split; [exact B3|]; split; [exact I3|]; exists w1, h1, b1; auto|].
           intros k K1 K2. rewrite Y by auto. apply M2; auto.
        -- assert (Hj : j <> q) by congruence.
           split.
           { destruct (Z.eq_dec j t) as [Ej|Nj]; [left; exact Ej|right]. split; [rewrite <- M2 by auto; exact X1|].
             rewrite Y by auto. exact M2t. }
           split; [exists b3; split; [exact B3|]; split; [exact I3|]; exists w1, h1, b1; auto|].
           intros k K1 K2. destruct (Z.eq_dec k q) as [->|Nk]; [rewrite X2; symmetry; exact A|].
           rewrite Y by auto. apply M2; auto.
Qed.

Lemma pipeline_ok (ops : list op) : (forall o, In o ops -> op_safe Inv (app o) (R o)) ->
  forall w h i s b, wf s -> mem s i = Some (OBytes b) -> Inv w h b ->
  exists q w' h' s', execute_pipeline app w h ops (Ptr i) s = Ok (q, w', h', s') /\ later s s' /\
    match q with
    | Null => same_mem s s'
    | Ptr j =>
        (ops = [] /\ j = i /\ w' = w /\ h' = h /\ s' = s) \/
        (ops <> [] /\ mem s j = None /\
         (exists b', mem s' j = Some (OBytes b') /\ Inv w' h' b' /\ composed R ops w h b w' h' b') /\
         (forall k, k <> j -> mem s' k = mem s k))
    end.
Proof.
  intros HS w h i s b Hwf Hi HI. unfold execute_pipeline. destruct ops as [|o ops].
  - exists (Ptr i), w, h, s. split; [reflexivity|]. split; [apply later_refl; auto|]. left; auto.
  - cbn [pipeline_loop].
    destruct (HS o (or_introl eq_refl) w h s (Ptr i) b Hwf ltac:(exists i; auto) HI) as (q & w1 & h1 & s1 & E & L & H).
    rewrite (bindM_Ok _ _ _ _ _ E). destruct q as [|q].
    + exists Null, w1, h1, s1. split; [reflexivity|]. auto.
    + change (is_null (Ptr q)) with false. cbv iota.
      destruct H as (A & (b1 & B & I1 & R1) & D).
      assert (Nqi : q <> i) by congruence.
      destruct (loop_mid ops (fun o' Ho => HS o' (or_intror Ho)) w1 h1 i q s1 b1 (proj1 L) B I1 Nqi) as (r & w3 & h3 & s3 & E3 & L3 & H3).
      { rewrite D by auto. congruence. }
      exists r, w3, h3, s3. split; [exact E3|]. split; [eapply later_trans; eauto|].
      destruct r as [|j].
      * destruct H3 as [X Y]. intros k. destruct (Z.eq_dec k q) as [->|Nk]; [congruence|]. rewrite Y by auto. apply D; auto.
      * destruct H3 as (X & (b3 & B3 & I3 & R3) & Y). right. split; [discriminate|].
        assert (C : composed R (o :: ops) w h b w3 h3 b3) by (exists w1, h1, b1; auto).
        destruct X as [-> | [X1 X2]].
        -- split; [exact A|]. split; [exists b3; auto|]. intros k Hk. rewrite Y by auto. apply D; auto.
        -- assert (Hj : j <> q) by congruence. split; [rewrite <- D by auto; exact X1|].
           split; [exists b3; auto|]. intros k Hk. destruct (Z.eq_dec k q) as [->|Nk]; [congruence|].
           rewrite Y by auto. apply D; auto.
Qed.

(** [main] releases every picture. *)
Lemma process_ok is_jpeg o (ops : list op) wok w h i s b :
  (forall o, In o ops -> op_safe Inv (app o) (R o)) ->
  (forall w h b, cli_dims w h -> image (w * h * 4) b -> Inv w h b) ->
  wf s -> mem s i = Some (OBytes b) -> cli_dims w h -> image (w * h * 4) b ->
  exists code s', process_image app is_jpeg o w h ops wok (Ptr i) s = Ok (code, s') /\ later s s' /\
    (code = 0 \/ code = 1) /\
    mem s' i = None /\ forall j, j <> i -> mem s' j = mem s j.
Proof.
  intros HS HI Hwf Hi HD Him. unfold process_image.
  assert (X : exists i1 w1 h1 s1 b1,
    (if is_jpeg then apply_exif o w h (Ptr i) else ret (Ptr i, w, h)) s = Ok (Ptr i1, w1, h1, s1) /\ later s s1 /\
    mem s1 i1 = Some (OBytes b1) /\ Inv w1 h1 b1 /\ (i1 <> i -> mem s1 i = None /\ mem s i1 = None) /\
    (forall j, j <> i -> j <> i1 -> mem s1 j = mem s j)).
  { assert (P : exists i1 w1 h1 s1 b1, Ok (Ptr i, w, h, s) = Ok (Ptr i1, w1, h1, s1) /\ later s s1 /\
      mem s1 i1 = Some (OBytes b1) /\ Inv w1 h1 b1 /\ (i1 <> i -> mem s1 i = None /\ mem s i1 = None) /\
      (forall j, j <> i -> j <> i1 -> mem s1 j = mem s j)).
    { exists i, w, h, s, b. split; [reflexivity|]. split; [apply later_refl; auto|]. split; [auto|].
      split; [apply HI; auto|]. split; [tauto|auto]. }
    destruct is_jpeg; [|exact P].
    destruct (Z_le_dec 2 o) as [Ho1|Ho1]; [|rewrite apply_exif_plain by lia; exact P].
    destruct (Z_le_dec o 8) as [Ho2|Ho2]; [|rewrite apply_exif_plain by lia; exact P].
    destruct (apply_exif_ok o w h s i b Hwf HD Hi Him (conj Ho1 Ho2)) as (w1 & h1 & s1 & L & [K|K]).
    - destruct K as (j & b' & E & (A & B & C & D) & U). exists j, w1, h1, s1, b'.
      split; [exact E|]. split; [exact L|]. split; [exact B|]. split; [|split; [auto|auto]].
      destruct U as (r & c & U1 & U2 & U3 & _). apply HI; [|apply U3].
      destruct c; cbn [upright_size] in U2; injection U2 as -> ->; auto using cli_dims_swap.
    - destruct K as (E & S & _ & D1 & D2). exists i, w1, h1, s1, b. split; [exact E|]. split; [exact L|].
      split; [rewrite S; exact Hi|]. split; [|split; [tauto|intros; apply S]].
      destruct (Z_le_dec o 4) as [H4|H4].
      + destruct (D1 H4) as [-> ->]. apply HI; auto.
      + destruct D2 as [-> ->]; [lia|]. apply HI; [apply cli_dims_swap; auto|]. rewrite (Z.mul_comm h w). exact Him. }
  destruct X as (i1 & w1 & h1 & s1 & b1 & E1 & L1 & M1 & I1 & N1 & O1).
  rewrite (bindM_Ok _ _ _ _ _ E1).
  destruct (pipeline_ok ops HS w1 h1 i1 s1 b1 (proj1 L1) M1 I1) as (q & w2 & h2 & s2 & E2 & L2 & H2).
  rewrite (bindM_Ok _ _ _ _ _ E2).
  assert (L12 : later s s2) by (eapply later_trans; eauto).
  assert (FIN : forall s3, later s s3 -> (forall j, j <> i1 -> mem s3 j = mem s1 j) ->
    let s4 := mkst (upd (mem s3) i1 None) (nxt s3) (orc s3) (tick s3) in
    later s s4 /\ mem s4 i = None /\ forall j, j <> i -> mem s4 j = mem s j).
  { intros s3 L3 H3. cbv zeta. split; [apply later_upd; auto|]. cbn [mem].
    destruct (Z.eq_dec i1 i) as [->|Ni].
    - split; [apply upd_same|]. intros j Hj. rewrite upd_other by auto. rewrite H3 by auto. apply O1; auto.
    - destruct (N1 Ni) as [A B]. split; [rewrite upd_other by auto; rewrite H3 by auto; exact A|].
      intros j Hj. unfold upd. destruct (Z.eqb_spec j i1) as [->|Nj]; [auto|]. rewrite H3 by auto. apply O1; auto. }
  destruct q as [|j].
  - change (is_null Null) with true. cbv iota.
    rewrite (bindM_Ok _ _ _ _ _ (free_ok _ _ _ (eq_trans (H2 i1) M1))).
    destruct (FIN s2 L12) as (F1 & F2 & F3); [intros; apply H2|].
    exists 1, (mkst (upd (mem s2) i1 None) (nxt s2) (orc s2) (tick s2)). split; [reflexivity|]. auto.
  - change (is_null (Ptr j)) with false. cbv iota.
    destruct H2 as [(-> & -> & -> & -> & ->)|(_ & A & (b2 & B & _ & _) & D)].
    + rewrite (bindM_Ok _ _ _ _ _ (free_ok _ _ _ M1)).
      cbn [ptr_eqb]. rewrite Z.eqb_refl. cbn [negb]. cbv iota.
      destruct (FIN s1 L1) as (F1 & F2 & F3); [auto|].
      exists (if wok then 0 else 1), (mkst (upd (mem s1) i1 None) (nxt s1) (orc s1) (tick s1)). split; [reflexivity|].
      split; [exact F1|]. split; [destruct wok; auto|]. auto.
    + assert (Nj : j <> i1) by congruence.
      assert (M2 : mem s2 i1 = Some (OBytes b1)) by (rewrite D by auto; auto).
      rewrite (bindM_Ok _ _ _ _ _ (free_ok _ _ _ M2)).
      cbn [ptr_eqb]. replace (j =? i1) with false by lia. cbn [negb]. cbv iota.
      set (s4 := mkst (upd (mem s2) i1 None) (nxt s2) (orc s2) (tick s2)).
      assert (M4 : mem s4 j = Some (OBytes b2)) by (cbn [mem s4]; rewrite upd_other by auto; auto).
      rewrite (bindM_Ok _ _ _ _ _ (free_ok _ _ _ M4)).
      assert (L4 : later s s4) by (apply later_upd; auto).
      exists (if wok then 0 else 1), (mkst (upd (mem s4) j None) (nxt s4) (orc s4) (tick s4)). split; [reflexivity|].
      split; [apply later_upd; auto|]. split; [destruct wok; auto|].
      assert (V : forall k, upd (mem s4) j None k = upd (upd (mem s1) i1 None) j None k).
      { intros k. unfold upd. destruct (Z.eqb_spec k j); [reflexivity|]. cbn [mem s4]. unfold upd.
        destruct (k =? i1); [reflexivity|]. apply D; auto. }
      cbn [mem].
      assert (V' : forall k, upd (mem s4) j None k = upd (mem s1) i1 None k).
      { intros k. rewrite V. unfold upd at 1. destruct (Z.eqb_spec k j) as [->|]; [|reflexivity].
        rewrite upd_other by auto. symmetry; exact A. }
      destruct (FIN s1 L1) as (F1 & F2 & F3); [auto|]. cbn [mem] in F2, F3.
      split; [rewrite V'; exact F2|]. intros k Hk. rewrite V'. apply F3; auto.
Qed.
End pipe.

(** ** Some operations meet [op_safe] *)

Lemma safe_of_pic (f : Z -> Z -> ptr -> M (ptr * Z * Z)) (R : Z -> Z -> buf Z -> Z -> Z -> buf Z -> Prop) :
  (forall w h s p b, wf s -> holds s p b -> cli_picture w h b ->
     returns_pic s w h (f w h p s) (R w h b) \/ f w h p s = Ok (Null, w, h, s)) ->
  (forall w h b w' h' b', cli_picture w h b -> R w h b w' h' b' -> cli_picture w' h' b') ->
  op_safe cli_picture f R.
Proof.
  intros H HI w h s p b Hwf Hp HP. destruct (H w h s p b Hwf Hp HP) as [(q & w' & h' & s' & E & L & K)|E].
  - exists q, w', h', s'. split; [exact E|]. split; [exact L|]. destruct q as [|i]; [tauto|].
    destruct K as (A & (b' & B & C) & D). split; [exact A|]. split; [|exact D]. exists b'. eauto.
  - exists Null, w, h, s. split; [exact E|]. split; [apply later_refl; auto|apply same_mem_refl].
Qed.

Lemma rotate_safe a : dfinite a = true -> is_i32 (int_part a) ->
  op_safe cli_picture (rotate_op true a) (turned (int_part a / 90)).
Proof.
  intros Fa Ia. apply safe_of_pic.
  - intros w h s p b Hwf Hp [HD Him]. destruct (Z.eq_dec (int_part a mod 90) 0) as [E|E].
    + left. apply rotate_op_ok; auto. pose proof (Z.div_mod (int_part a) 90). lia.
    + right. apply rotate_op_rejects; auto.
  - intros w h b w' h' b' [HD Him] (X & K0 & K1 & K2 & K3).
    assert (S : (w' = w /\ h' = h) \/ (w' = h /\ h' = w)).
    { assert (K : int_part a / 90 mod 4 = 0 \/ int_part a / 90 mod 4 = 1 \/ int_part a / 90 mod 4 = 2 \/ int_part a / 90 mod 4 = 3)
        by (pose proof (Z.mod_pos_bound (int_part a / 90) 4); lia).
      destruct K as [K|[K|[K|K]]].
      - destruct (K0 K) as (A & B & _); auto.
      - destruct (K1 K) as (A & B & _); auto.
      - destruct (K2 K) as (A & B & _); auto.
      - destruct (K3 K) as (A & B & _); auto. }
    split; [|apply X]. destruct S as [[-> ->]|[-> ->]]; auto using cli_dims_swap.
Qed.

Lemma crop_safe a1 a2 a3 a4 : dfinite a1 = true -> is_i32 (int_part a1) -> dfinite a2 = true -> is_i32 (int_part a2) ->
  dfinite a3 = true -> is_u32 (int_part a3) -> dfinite a4 = true -> is_u32 (int_part a4) ->
  0 < int_part a3 -> 0 < int_part a4 ->
  op_safe cli_picture (crop_op true a1 a2 a3 a4)
    (fun w h b w' h' b' => int_part a1 < w /\ int_part a2 < h /\ cropped (int_part a1) (int_part a2) (int_part a3) (int_part a4) w h b w' h' b').
Proof.
  intros F1 I1 F2 I2 F3 I3 F4 I4 P3 P4. apply safe_of_pic.
  - intros w h s p b Hwf Hp [HD Him].
    destruct (Z_lt_dec (int_part a1) w) as [L1|L1]; [|right; apply crop_op_rejects; auto; lia].
    destruct (Z_lt_dec (int_part a2) h) as [L2|L2]; [|right; apply crop_op_rejects; auto; lia].
    left. destruct (crop_op_ok w h s p b a1 a2 a3 a4 Hwf HD Hp Him F1 I1 F2 I2 F3 I3 F4 I4 P3 P4 L1 L2) as (q & w' & h' & s' & E & L & K).
    exists q, w', h', s'. split; [exact E|]. split; [exact L|]. destruct q as [|i]; [tauto|].
    destruct K as (A & (b' & B & C) & D). split; [exact A|]. split; [|exact D]. exists b'. auto.
  - intros w h b w' h' b' [(Hw & Hh & HS) Him] (L1 & L2 & -> & -> & X & _). split; [|apply X].
    unfold cli_dims. assert (0 <= Z.max 0 (int_part a1)) by lia. assert (0 <= Z.max 0 (int_part a2)) by lia.
    set (x0 := Z.max 0 (int_part a1)) in *. set (y0 := Z.max 0 (int_part a2)) in *.
    split; [lia|]. split; [lia|].
    assert (M : Z.min (int_part a3) (w - x0) * Z.min (int_part a4) (h - y0) <= w * h) by (apply mul_le; lia). lia.
Qed.

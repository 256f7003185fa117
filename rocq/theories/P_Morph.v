(** * Proofs about [M_Morph.v] *)
From Verif Require Import Base BaseLemmas F FLemmas Heap HeapLemmas PaintLemmas Spec Spec_Morph M_Morph P_Color P_Trim.
From Coq Require Import Reals Lra.
From Flocq Require Import Core.Zaux Core.Raux Core.Defs.
Open Scope Z_scope.

Lemma half_R : isd (lit 1 2) (1 * bpow radix2 (-1)).
Proof.
  unfold lit. assert (B1 : (1 * bpow radix2 (-1) = 1 / 2)%R) by (simpl; lra).
  pose proof (rd_dyadic 1 (-1) ltac:(lia) ltac:(lia)) as E. rewrite <- E, B1.
  apply ddiv_R; [apply d_of_Z_exact; lia|apply d_of_Z_exact; lia|lra|].
  apply (abs_big _ 1); [|lia]. apply Rabs_le; lra.
Qed.

Lemma in_disk_ok r dx dy : 0 <= r <= 32767 -> - r <= dx <= r -> - r <= dy <= r ->
  exists q, in_disk r dx dy = Ok q /\ decides q (disk r dx dy).
Proof.
  intros Hr Hx Hy. unfold in_disk.
  assert (0 <= dx * dx <= 1073676289) by nia. assert (0 <= dy * dy <= 1073676289) by nia.
  rewrite ck32_ok by (unfold INT_MIN, INT_MAX; lia). rewrite bind_Ok.
  rewrite ck32_ok by (unfold INT_MIN, INT_MAX; lia). rewrite bind_Ok.
  rewrite ck32_ok by (unfold INT_MIN, INT_MAX; lia). rewrite bind_Ok.
  eexists; split; [reflexivity|]. cbv zeta.
  assert (B1 : bpow radix2 (-1) = (/ 2)%R) by (simpl; lra).
  assert (B2 : bpow radix2 (-2) = (/ 4)%R) by (simpl; lra).
  assert (R1 : isd (dadd (d_of_Z r) (lit 1 2)) (IZR (2 * r + 1) / 2)).
  { replace (IZR (2 * r + 1) / 2)%R with (gr 53 1024 (IZR r + 1 * bpow radix2 (-1))).
    - apply dadd_R; [apply d_of_Z_exact; lia|exact half_R|]. rewrite B1. apply (abs_big _ 100000); [|lia].
      assert (0 <= IZR r <= 32767)%R by (split; apply IZR_le; lia). apply Rabs_le; lra.
    - rewrite B1. replace (IZR r + 1 * / 2)%R with (IZR (2 * r + 1) * bpow radix2 (-1))%R.
      + rewrite rd_dyadic by lia. rewrite B1. lra.
      + rewrite B1, plus_IZR, mult_IZR. lra. }
  assert (R2 : isd (dmul (dadd (d_of_Z r) (lit 1 2)) (dadd (d_of_Z r) (lit 1 2))) (IZR ((2 * r + 1) * (2 * r + 1)) / 4)).
  { replace (IZR ((2 * r + 1) * (2 * r + 1)) / 4)%R with (gr 53 1024 (IZR (2 * r + 1) / 2 * (IZR (2 * r + 1) / 2))).
    - apply dmul_R; auto.
      assert (0 <= IZR (2 * r + 1) <= 65535)%R by (split; apply IZR_le; lia).
      apply (abs_big _ 10000000000); [|lia]. apply Rabs_le. nra.
    - replace (IZR (2 * r + 1) / 2 * (IZR (2 * r + 1) / 2))%R with (IZR ((2 * r + 1) * (2 * r + 1)) * bpow radix2 (-2))%R.
      + rewrite rd_dyadic by nia. rewrite B2. lra.
      + rewrite B2, mult_IZR. lra. }
  rewrite (dle_R _ _ _ _ (d_of_Z_exact (dx * dx + dy * dy) ltac:(lia)) R2).
  unfold decides, disk.
  assert (E : (IZR (dx * dx + dy * dy) <= IZR ((2 * r + 1) * (2 * r + 1)) / 4)%R <->
          4 * (dx * dx + dy * dy) <= (2 * r + 1) * (2 * r + 1)).
  { split; intros H1.
    - apply le_IZR. rewrite (mult_IZR 4). lra.
    - apply IZR_le in H1. rewrite (mult_IZR 4) in H1. lra. }
  rewrite <- E. destruct (Rle_bool_spec (IZR (dx * dx + dy * dy)) (IZR ((2 * r + 1) * (2 * r + 1)) / 4)); split; auto; try discriminate.
  intros; lra.
Qed.

Lemma disk_box r dx dy : 0 <= r -> disk r dx dy -> - r <= dx <= r /\ - r <= dy <= r.
Proof. unfold disk. intros. nia. Qed.
Lemma disk_sym r dx dy : disk r (- dx) (- dy) <-> disk r dx dy.
Proof. unfold disk. lia. Qed.
Lemma disk_sym' r x y x' y' : disk r (x' - x) (y' - y) <-> disk r (x - x') (y - y').
Proof. rewrite <- disk_sym. replace (- (x' - x)) with (x - x') by lia. now replace (- (y' - y)) with (y - y') by lia. Qed.

Section Loops.
Variables (w h r : Z) (b : buf Z).
Hypothesis Hok : morph_ok w h r.
Hypothesis Hi : image (w * h) b.

Lemma ck_idx x y : inside w h x y -> ck32 (y * w) = Ok (y * w) /\ ck32 (y * w + x) = Ok (y * w + x) /\ 0 <= y * w + x < w * h.
Proof.
  destruct Hok as (H1 & H2 & H3 & H4 & H5 & H6). intros [Hx Hy]. pose proof (rm_bound w h x y Hx Hy).
  split; [apply ck32_ok; unfold INT_MIN, INT_MAX; nia|]. split; auto. apply ck32_ok; unfold INT_MIN, INT_MAX; lia.
Qed.

Lemma white_val x y : inside w h x y -> (val b (y * w + x) =? 255) = true <-> white b w x y.
Proof.
  intros Hin. destruct (ck_idx x y Hin) as (_ & _ & B). unfold white, pix.
  replace ((y * w + x) * 1 + 0) with (y * w + x) by ring.
  destruct (image_val (w * h) b (y * w + x) Hi B) as [-> _]. rewrite Z.eqb_eq. split; congruence.
Qed.

Lemma dilate_loop_ok : exists b', dilate_loop w h r (w * h) b (bnew (w * h)) = Ok b' /\
  bw_picture w h b' (dilated w h r (white b w)).
Proof.
  pose proof Hok as (H1 & H2 & H3 & H4 & H5 & H6). assert (0 < w * h) by nia.
  unfold dilate_loop. destruct (bfill_ok (bnew (w * h)) (w * h) 0) as (z & -> & Lz & Gz); [cbn; lia|].
  rewrite bind_Ok. cbn [blen bnew] in Lz.
  set (near := fun y x dy dx j => disk r dx dy /\ inside w h (x + dx) (y + dy) /\ j = (y + dy) * w + (x + dx)).
  match goal with |- exists b', for_ _ _ ?f _ = _ /\ _ =>
  destruct (for_paints (fun _ => 255) (fun y j => exists x, 0 <= x < w /\ (white b w x y /\
     exists dy, - r <= dy < r + 1 /\ exists dx, - r <= dx < r + 1 /\ near y x dy dx j)) 0 h f z (w * h))
    as (b' & E & P); auto end.
  - intros y b1 Hy L1. apply for_paints with (L := w * h) (S := fun x j => white b w x y /\
     exists dy, - r <= dy < r + 1 /\ exists dx, - r <= dx < r + 1 /\ near y x dy dx j); auto.
    intros x b2 Hx L2. assert (Hin : inside w h x y) by (split; auto).
    destruct (ck_idx x y Hin) as (-> & C & B). rewrite bind_Ok, C, bind_Ok.
    rewrite (image_load (w * h)) by auto. rewrite bind_Ok.
    destruct (val b (y * w + x) =? 255) eqn:V.
    + apply white_val in V; auto.
      destruct (for_paints (fun _ => 255) (fun dy j => exists dx, - r <= dx < r + 1 /\ near y x dy dx j) (- r) (r + 1)
        (fun dy b => for_ (- r) (r + 1) (fun dx b =>
          d <- in_disk r dx dy ;;
          if (d : bool) then
            ny <- ck32 (y + dy) ;; nx <- ck32 (x + dx) ;;
            if (0 <=? ny) && (ny <? h) && (0 <=? nx) && (nx <? w) then
              t <- ck32 (ny * w) ;; nidx <- ck32 (t + nx) ;; store b nidx 255
            else Ok b
          else Ok b) b) b2 (w * h)) as (b3 & E3 & P3); auto.
      { intros dy b3 Hdy L3. apply for_paints with (L := w * h) (S := fun dx j => near y x dy dx j); auto.
        intros dx b4 Hdx L4. destruct (in_disk_ok r dx dy) as (q & -> & D); try lia. rewrite bind_Ok.
        unfold decides in D. destruct q.
        - rewrite ck32_ok by (unfold INT_MIN, INT_MAX; lia). rewrite bind_Ok.
          rewrite ck32_ok by (unfold INT_MIN, INT_MAX; lia). rewrite bind_Ok.
          destruct ((0 <=? y + dy) && (y + dy <? h) && (0 <=? x + dx) && (x + dx <? w)) eqn:I.
          + assert (Hin' : inside w h (x + dx) (y + dy)) by (split; lia).
            destruct (ck_idx _ _ Hin') as (-> & C' & B'). rewrite bind_Ok, C', bind_Ok.
            destruct (paints_store (fun _ => 255) b4 ((y + dy) * w + (x + dx)) 255) as (b5 & E5 & P5); auto; [lia|].
            exists b5; split; auto. eapply paints_iff; [|exact P5]. intros j; unfold near.
            split; [intros ->|intros (_ & _ & ->)]; auto. split; [apply D; auto|]. auto.
          + exists b4; split; auto. apply paints_refl. intros j (_ & [I1 I2] & _). lia.
        - exists b4; split; auto. apply paints_refl. intros j (Dk & _). apply D in Dk. discriminate. }
      exists b3; split; auto. eapply paints_iff; [|exact P3]. intros j. tauto.
    + exists b2; split; auto. apply paints_refl. intros j (Wh & _). apply white_val in Wh; auto. congruence.
  - exists b'; split; [exact E|]. destruct P as [Lb P]. 
    assert (V : forall x y, inside w h x y -> (white b' w x y <-> dilated w h r (white b w) x y) /\ (white b' w x y \/ pix b' w 1 x y 0 = Some 0)).
    { intros x y Hin. destruct (ck_idx x y Hin) as (_ & _ & B). unfold white at 1 3, pix.
      replace ((y * w + x) * 1 + 0) with (y * w + x) by ring.
      destruct (P (y * w + x)) as [P1 P2]. rewrite Gz in P2.
      replace ((0 <=? y * w + x) && (y * w + x <? w * h)) with true in P2 by lia.
      set (T := exists _, _) in *.
      assert (TE : T <-> dilated w h r (white b w) x y).
      { unfold T, dilated, near. split.
        - intros (y' & Hy' & x' & Hx' & Wh & dy & Hdy & dx & Hdx & Dk & [I1 I2] & Ej).
          exists x', y'. split; [split; auto|]. split; auto. destruct Hin as [Ix Iy].
          destruct (rm_inj w x y (x' + dx) (y' + dy)) as [-> ->]; auto.
          apply disk_sym'. replace (x' + dx - x') with dx by lia. now replace (y' + dy - y') with dy by lia.
        - intros (x' & y' & [Hx' Hy'] & Dk & Wh). apply disk_sym' in Dk.
          destruct (disk_box r (x - x') (y - y')) as [D1 D2]; auto; try lia.
          exists y'. split; auto. exists x'. split; auto. split; auto. exists (y - y'). split; [lia|].
          exists (x - x'). split; [lia|]. split; auto. replace (x' + (x - x')) with x by lia. replace (y' + (y - y')) with y by lia.
          auto. }
      split; [|destruct P2 as [P2|[_ P2]]; auto]. rewrite <- TE. split; auto.
      intros E1'. destruct P2 as [P2|[Tj _]]; auto. congruence. }
    split; auto. split; [congruence|]. split; [lia|].
    intros j Hj. destruct (rm_decomp w h j H1 Hj) as (A & B & Ej).
    destruct (V (j mod w) (j / w)) as [_ [V2|V2]]; [split; auto| |]; unfold white, pix in V2;
    replace ((j / w * w + j mod w) * 1 + 0) with j in V2 by lia; rewrite V2; eexists; (split; [reflexivity|]); unfold byte; lia.
Qed.

Lemma neighbor_ok rep x y : - r <= x < w + r -> - r <= y < h + r ->
  exists v, neighbor b w h y x rep = Ok v /\
    decides (v =? 255) (if rep then white b w (clampZ w x) (clampZ h y) else inside w h x y /\ white b w x y).
Proof.
  pose proof Hok as (H1 & H2 & H3 & H4 & H5 & H6). intros Hx Hy. unfold neighbor, decides.
  destruct ((y <? 0) || (h <=? y) || (x <? 0) || (w <=? x)) eqn:Out.
  - destruct rep.
    + replace (if y <? 0 then 0 else if h <=? y then h - 1 else y) with (clampZ h y)
        by (unfold clampZ; destruct (Z.ltb_spec y 0), (Z.leb_spec h y); lia).
      replace (if x <? 0 then 0 else if w <=? x then w - 1 else x) with (clampZ w x)
        by (unfold clampZ; destruct (Z.ltb_spec x 0), (Z.leb_spec w x); lia).
      assert (Hin : inside w h (clampZ w x) (clampZ h y)) by (unfold inside, clampZ; lia).
      destruct (ck_idx _ _ Hin) as (E & C & B). rewrite E, bind_Ok, C, bind_Ok. rewrite (image_load (w * h)) by auto.
      eexists; split; [reflexivity|]. now apply white_val.
    + exists 0. split; [reflexivity|]. split; [discriminate|]. unfold inside. lia.
  - assert (Hin : inside w h x y) by (unfold inside; lia).
    destruct (ck_idx _ _ Hin) as (E & C & B). rewrite E, bind_Ok, C, bind_Ok. rewrite (image_load (w * h)) by auto.
    eexists; split; [reflexivity|]. destruct rep.
    + replace (clampZ w x) with x by (unfold clampZ, inside in *; lia).
      replace (clampZ h y) with y by (unfold clampZ, inside in *; lia). now apply white_val.
    + rewrite white_val by auto. tauto.
Qed.

Lemma can_erode_ok rep x y : inside w h x y ->
  exists q, can_erode w h r rep b x y = Ok q /\
    decides q (if rep then eroded_rep w h r (white b w) x y else eroded w h r (white b w) x y).
Proof.
  pose proof Hok as (H1 & H2 & H3 & H4 & H5 & H6). intros [Hx Hy]. unfold can_erode.
  set (good := fun dx dy => disk r dx dy ->
    if rep then white b w (clampZ w (x + dx)) (clampZ h (y + dy)) else inside w h (x + dx) (y + dy) /\ white b w (x + dx) (y + dy)).
  set (inner := fun dy dx => d <- in_disk r dx dy ;;
      if (d : bool) then
        ny <- ck32 (y + dy) ;; nx <- ck32 (x + dx) ;;
        v <- neighbor b w h ny nx rep ;;
        if negb (v =? 255) then Ok (inr tt) else Ok (inl tt)
      else Ok (inl tt) : res (unit + unit)).
  assert (I1 : forall dx dy, - r <= dx < r + 1 -> - r <= dy < r + 1 ->
    exists bad : bool, inner dy dx = Ok (if bad then inr tt else inl tt) /\ (bad = false <-> good dx dy)).
  { intros dx dy Hdx Hdy. unfold inner. destruct (in_disk_ok r dx dy) as (q & -> & D); try lia. rewrite bind_Ok.
    unfold decides in D. destruct q.
    - rewrite ck32_ok by (unfold INT_MIN, INT_MAX; lia). rewrite bind_Ok.
      rewrite ck32_ok by (unfold INT_MIN, INT_MAX; lia). rewrite bind_Ok.
      destruct (neighbor_ok rep (x + dx) (y + dy)) as (v & -> & Dv); try lia. rewrite bind_Ok. unfold decides in Dv.
      destruct (v =? 255); cbn [negb].
      + exists false. split; auto. split; auto. intros _ _. now apply Dv.
      + exists true. split; auto. split; [discriminate|]. intros G. symmetry. apply Dv. apply G. now apply D.
    - exists false. split; auto. split; auto. intros _ Dk. apply D in Dk. discriminate. }
  assert (I2 : forall dy, - r <= dy < r + 1 -> exists bad : bool,
     (rr <- for_brk (- r) (r + 1) (fun dx (_ : unit) => inner dy dx) tt ;;
      match rr with inr _ => Ok (inr tt) | inl _ => Ok (inl tt) end) = Ok ((if bad then inr tt else inl tt) : unit + unit) /\
     (bad = false <-> forall dx, - r <= dx < r + 1 -> good dx dy)).
  { intros dy Hdy.
    destruct (for_brk_all (- r) (r + 1) (fun dx => match inner dy dx with Ok (inl _) => false | _ => true end) (inner dy)) as (rr & E & P).
    { intros dx Hdx. destruct (I1 dx dy Hdx Hdy) as (bad & -> & _). destruct bad; reflexivity. }
    rewrite E, bind_Ok. destruct rr as [u|u].
    - exists false. split; auto. split; auto. intros _ dx Hdx. destruct (I1 dx dy Hdx Hdy) as (bad & E' & G).
      specialize (P dx Hdx). rewrite E' in P. apply G. destruct bad; auto; discriminate.
    - exists true. split; auto. split; [discriminate|]. intros G. destruct P as (dx & Hdx & P).
      destruct (I1 dx dy Hdx Hdy) as (bad & E' & G'). rewrite E' in P. assert (bad = false) by (apply G'; auto). subst; discriminate. }
  match goal with |- context [for_brk _ _ ?f tt] => change f with (fun dy (_ : unit) =>
     (rr <- for_brk (- r) (r + 1) (fun dx (_ : unit) => inner dy dx) tt ;;
      match rr with inr _ => Ok (inr tt) | inl _ => Ok (inl tt) end) : res (unit + unit)) end.
  set (outer := fun dy => (rr <- for_brk (- r) (r + 1) (fun dx (_ : unit) => inner dy dx) tt ;;
      match rr with inr _ => Ok (inr tt) | inl _ => Ok (inl tt) end) : res (unit + unit)) in *.
  destruct (for_brk_all (- r) (r + 1) (fun dy => match outer dy with Ok (inl _) => false | _ => true end) outer) as (rr & E & P).
  { intros dy Hdy. destruct (I2 dy Hdy) as (bad & E' & _). unfold outer. rewrite E'. destruct bad; reflexivity. }
  match goal with |- context [for_brk ?a ?c ?f tt] => change (for_brk a c f tt) with (for_brk a c (fun i (_ : unit) => outer i) tt) end.
  rewrite E, bind_Ok.
  assert (G : (if rep then eroded_rep w h r (white b w) x y else eroded w h r (white b w) x y) <->
     forall dy, - r <= dy < r + 1 -> forall dx, - r <= dx < r + 1 -> good dx dy).
  { unfold good, eroded_rep, eroded. split.
    - intros G dy Hdy dx Hdx Dk. destruct rep; apply G; (replace (x + dx - x) with dx by lia); (replace (y + dy - y) with dy by lia); auto.
    - intros G. assert (G' : forall x' y', disk r (x' - x) (y' - y) -> if rep then white b w (clampZ w x') (clampZ h y') else inside w h x' y' /\ white b w x' y').
      { intros x' y' Dk. destruct (disk_box r (x' - x) (y' - y)); auto; try lia.
        specialize (G (y' - y) ltac:(lia) (x' - x) ltac:(lia) Dk).
        replace (x + (x' - x)) with x' in G by lia. replace (y + (y' - y)) with y' in G by lia. exact G. }
      destruct rep; exact G'. }
  destruct rr as [u|u]; eexists; (split; [reflexivity|]); unfold decides; rewrite G; split; auto; try discriminate.
  - intros _ dy Hdy. destruct (I2 dy Hdy) as (bad & E' & G'). specialize (P dy Hdy). unfold outer in P. rewrite E' in P.
    apply G'. destruct bad; auto; discriminate.
  - intros G'. destruct P as (dy & Hdy & P). destruct (I2 dy Hdy) as (bad & E' & G''). unfold outer in P. rewrite E' in P.
    assert (bad = false) by (apply G''; auto). subst; discriminate.
Qed.

Lemma erode_loop_ok rep : exists b', erode_loop w h r rep (w * h) b (bnew (w * h)) = Ok b' /\
  bw_picture w h b' (if rep then eroded_rep w h r (white b w) else eroded w h r (white b w)).
Proof.
  pose proof Hok as (H1 & H2 & H3 & H4 & H5 & H6). assert (0 < w * h) by nia.
  unfold erode_loop. destruct (bfill_ok (bnew (w * h)) (w * h) 0) as (z & -> & Lz & Gz); [cbn; lia|].
  rewrite bind_Ok. cbn [blen bnew] in Lz.
  set (er := fun x y => if rep then eroded_rep w h r (white b w) x y else eroded w h r (white b w) x y).
  match goal with |- exists b', for_ _ _ ?f _ = _ /\ _ =>
  destruct (for_paints (fun _ => 255) (fun y j => exists x, 0 <= x < w /\ (er x y /\ j = y * w + x)) 0 h f z (w * h))
    as (b' & E & P); auto end.
  - intros y b1 Hy L1. apply for_paints with (L := w * h) (S := fun x j => er x y /\ j = y * w + x); auto.
    intros x b2 Hx L2. assert (Hin : inside w h x y) by (split; auto).
    destruct (ck_idx x y Hin) as (-> & C & B). rewrite bind_Ok, C, bind_Ok.
    destruct (can_erode_ok rep x y Hin) as (q & -> & D). rewrite bind_Ok. unfold decides in D. destruct q.
    + destruct (paints_store (fun _ => 255) b2 (y * w + x) 255) as (b5 & E5 & P5); auto; [lia|].
      exists b5; split; auto. eapply paints_iff; [|exact P5]. intros j. split; [intros ->|intros (_ & ->)]; auto.
      split; auto. apply D; auto.
    + exists b2; split; auto. apply paints_refl. intros j (Er & _). apply D in Er. discriminate.
  - exists b'; split; [exact E|]. destruct P as [Lb P].
    assert (V : forall x y, inside w h x y -> (white b' w x y <-> er x y) /\ (white b' w x y \/ pix b' w 1 x y 0 = Some 0)).
    { intros x y Hin. destruct (ck_idx x y Hin) as (_ & _ & B). unfold white at 1 2, pix.
      replace ((y * w + x) * 1 + 0) with (y * w + x) by ring.
      destruct (P (y * w + x)) as [P1 P2]. rewrite Gz in P2.
      replace ((0 <=? y * w + x) && (y * w + x <? w * h)) with true in P2 by lia.
      set (T := exists _, _) in *.
      assert (TE : T <-> er x y).
      { unfold T. split.
        - intros (y' & Hy' & x' & Hx' & Er & Ej). destruct Hin as [Ix Iy].
          destruct (rm_inj w x y x' y') as [-> ->]; auto.
        - intros Er. destruct Hin as [Ix Iy]. exists y. split; auto. exists x. auto. }
      split; [|destruct P2 as [P2|[_ P2]]; auto]. rewrite <- TE. split; auto.
      intros E1'. destruct P2 as [P2|[Tj _]]; auto. congruence. }
    split.
    2: { intros x y Hin. destruct (V x y Hin) as [V1 V2]. split; auto. unfold er in V1. destruct rep; exact V1. }
    split; [congruence|]. split; [lia|].
    intros j Hj. destruct (rm_decomp w h j H1 Hj) as (A & B & Ej).
    destruct (V (j mod w) (j / w)) as [_ [V2|V2]]; [split; auto| |]; unfold white, pix in V2;
    replace ((j / w * w + j mod w) * 1 + 0) with j in V2 by lia; rewrite V2; eexists; (split; [reflexivity|]); unfold byte; lia.
Qed.
End Loops.

Lemma morph_guards w h r d : morph_ok w h r ->
  is_null (Ptr d) || (w <=? 0) || (h <=? 0) || (r <? 0) = false /\ (SIZE_MAX / h <? w) = false /\ u64 (w * h) = w * h.
Proof.
  intros (H1 & H2 & H3 & H4 & H5 & H6). change (is_null (Ptr d)) with false. split; [cbn [orb]; lia|].
  split; [|apply u64_small; nia]. unfold SIZE_MAX; apply Z.ltb_ge. apply Z.div_le_lower_bound; nia.
Qed.

Lemma dilation_ok : forall w h r s p b, wf s -> morph_ok w h r -> holds s p b -> image (w * h) b ->
  returns_fresh s (binary_dilation_disk p w h r s) (fun b' => bw_picture w h b' (dilated w h r (white b w))).
Proof.
  intros w h r s p b Hwf Hok [d [-> Hd]] Hi. unfold binary_dilation_disk.
  destruct (morph_guards w h r d Hok) as (-> & -> & E). cbv iota zeta. rewrite E.
  destruct (dilate_loop_ok w h r b Hok Hi) as (b' & El & P).
  exact (returns_fresh_1 s d b (w * h) (dilate_loop w h r (w * h)) _ b' Hwf Hd El P).
Qed.

Lemma erosion_internal_ok : forall w h r s p b rep, wf s -> morph_ok w h r -> holds s p b -> image (w * h) b ->
  returns_fresh s (binary_erosion_disk_internal p w h r rep s) (fun b' => bw_picture w h b'
    (if rep then eroded_rep w h r (white b w) else eroded w h r (white b w))).
Proof.
  intros w h r s p b rep Hwf Hok [d [-> Hd]] Hi. unfold binary_erosion_disk_internal.
  destruct (morph_guards w h r d Hok) as (-> & -> & E). cbv iota zeta. rewrite E.
  destruct (erode_loop_ok w h r b Hok Hi rep) as (b' & El & P).
  exact (returns_fresh_1 s d b (w * h) (erode_loop w h r rep (w * h)) _ b' Hwf Hd El P).
Qed.

Lemma erosion_ok : forall w h r s p b, wf s -> morph_ok w h r -> holds s p b -> image (w * h) b ->
  returns_fresh s (binary_erosion_disk p w h r s) (fun b' => bw_picture w h b' (eroded w h r (white b w))).
Proof. intros. apply (erosion_internal_ok w h r s p b false); auto. Qed.

Lemma bw_iff w h b P Q : (forall x y, inside w h x y -> P x y <-> Q x y) -> bw_picture w h b P -> bw_picture w h b Q.
Proof.
  intros H [X V]; split; auto. intros x y Hin. destruct (V x y Hin) as [V1 V2]. split; auto. rewrite <- H; auto.
Qed.
Lemma dilated_iff w h r A B x y : (forall x y, inside w h x y -> A x y <-> B x y) ->
  dilated w h r A x y <-> dilated w h r B x y.
Proof. intros H. unfold dilated. split; intros (x' & y' & I & D & W); exists x', y'; repeat split; auto; try apply I; apply H; auto. Qed.
Lemma clamp_inside w h x y : 0 < w -> 0 < h -> inside w h (clampZ w x) (clampZ h y).
Proof. unfold inside, clampZ; lia. Qed.
Lemma eroded_rep_iff w h r A B x y : 0 < w -> 0 < h -> (forall x y, inside w h x y -> A x y <-> B x y) ->
  eroded_rep w h r A x y <-> eroded_rep w h r B x y.
Proof. intros Hw Hh H. unfold eroded_rep. split; intros E x' y' D; (apply H; [now apply clamp_inside|apply E; auto]). Qed.
Lemma eroded_iff w h r A B x y : (forall x y, inside w h x y -> A x y <-> B x y) ->
  eroded w h r A x y <-> eroded w h r B x y.
Proof. intros H. unfold eroded. split; intros E x' y' D; destruct (E x' y' D); split; auto; apply H; auto. Qed.

Lemma closing_ok : forall w h r s p b, wf s -> morph_ok w h r -> holds s p b -> image (w * h) b ->
  returns_fresh s (binary_closing_disk p w h r s) (fun b' => bw_picture w h b'
    (eroded_rep w h r (dilated w h r (white b w)))).
Proof.
  intros w h r s p b Hwf Hok Hp Hi. pose proof Hok as (H1 & H2 & _). pose proof Hp as [d [-> Hd]]. unfold binary_closing_disk.
  destruct (morph_guards w h r d Hok) as (-> & _ & _). cbv iota.
  apply (returns_fresh_pipe s (binary_dilation_disk (Ptr d) w h r) (fun q => binary_erosion_disk_internal q w h r true)
    (fun b' => bw_picture w h b' (dilated w h r (white b w)))).
  - now apply dilation_ok.
  - intros s1 q b1 L _ _ Hq Pb. 
    assert (R : returns_fresh s1 (binary_erosion_disk_internal (Ptr q) w h r true s1) (fun b' => bw_picture w h b' (eroded_rep w h r (white b1 w)))).
    { apply (erosion_internal_ok w h r s1 (Ptr q) b1 true); auto; [apply L|exists q; auto|apply Pb]. }
    destruct R as (p' & s' & E & L' & Q). exists p', s'. split; auto. split; auto. destruct p'; auto.
    destruct Q as (Q1 & (b' & Q2 & Q3) & Q4). split; auto. split; auto. exists b'; split; auto.
    eapply bw_iff; [|exact Q3]. intros x y Hin. apply eroded_rep_iff; auto. intros x' y' Hin'. apply Pb; auto.
Qed.

Lemma opening_ok : forall w h r s p b, wf s -> morph_ok w h r -> holds s p b -> image (w * h) b ->
  returns_fresh s (binary_opening_disk p w h r s) (fun b' => bw_picture w h b'
    (dilated w h r (eroded w h r (white b w)))).
Proof.
  intros w h r s p b Hwf Hok Hp Hi. pose proof Hok as (H1 & H2 & _). pose proof Hp as [d [-> Hd]]. unfold binary_opening_disk.
  destruct (morph_guards w h r d Hok) as (-> & _ & _). cbv iota.
  apply (returns_fresh_pipe s (binary_erosion_disk (Ptr d) w h r) (fun q => binary_dilation_disk q w h r)
    (fun b' => bw_picture w h b' (eroded w h r (white b w)))).
  - now apply erosion_ok.
  - intros s1 q b1 L _ _ Hq Pb.
    assert (R : returns_fresh s1 (binary_dilation_disk (Ptr q) w h r s1) (fun b' => bw_picture w h b' (dilated w h r (white b1 w)))).
    { apply (dilation_ok w h r s1 (Ptr q) b1); auto; [apply L|exists q; auto|apply Pb]. }
    destruct R as (p' & s' & E & L' & Q). exists p', s'. split; auto. split; auto. destruct p'; auto.
    destruct Q as (Q1 & (b' & Q2 & Q3) & Q4). split; auto. split; auto. exists b'; split; auto.
    eapply bw_iff; [|exact Q3]. intros x y Hin. apply dilated_iff; auto. intros x' y' Hin'. apply Pb; auto.
Qed.

(** ** Lattice laws of the operators on sets *)

Lemma sq_le a b : Z.abs a <= Z.abs b -> a * a <= b * b.
Proof. intros; nia. Qed.

Lemma closing_extensive_set w h r (A : Z -> Z -> Prop) x y : inside w h x y -> A x y -> eroded_rep w h r (dilated w h r A) x y.
Proof.
  intros [Hx Hy] HA x' y' D. exists x, y. split; [split; auto|]. split; auto. unfold disk in *.
  pose proof (sq_le (x - clampZ w x') (x' - x)). pose proof (sq_le (y - clampZ h y') (y' - y)). unfold clampZ in *. lia.
Qed.
Lemma opening_anti_set w h r (A : Z -> Z -> Prop) x y : dilated w h r (eroded w h r A) x y -> A x y.
Proof.
  intros (x' & y' & I & D & E). apply (E x y). now apply disk_sym'.
Qed.
Lemma dilated_mono w h r (A B : Z -> Z -> Prop) x y : (forall x y, inside w h x y -> A x y -> B x y) -> dilated w h r A x y -> dilated w h r B x y.
Proof. intros H (x' & y' & I & D & W). exists x', y'. split; auto. Qed.
Lemma eroded_mono w h r (A B : Z -> Z -> Prop) x y : (forall x y, inside w h x y -> A x y -> B x y) -> eroded w h r A x y -> eroded w h r B x y.
Proof. intros H E x' y' D. destruct (E x' y' D). split; auto. Qed.
Lemma eroded_rep_mono w h r (A B : Z -> Z -> Prop) x y : 0 < w -> 0 < h ->
  (forall x y, inside w h x y -> A x y -> B x y) -> eroded_rep w h r A x y -> eroded_rep w h r B x y.
Proof. intros Hw Hh H E x' y' D. apply H; [now apply clamp_inside|]. auto. Qed.

Lemma opening_idem_set w h r A x y : inside w h x y ->
  dilated w h r (eroded w h r (dilated w h r (eroded w h r A))) x y <-> dilated w h r (eroded w h r A) x y.
Proof.
  intros Hin. split; [apply opening_anti_set|].
  intros (x' & y' & I & D & E). exists x', y'. split; auto. split; auto.
  intros x2 y2 D2. destruct (E x2 y2 D2) as [I2 A2]. split; auto. exists x', y'. split; auto. split; [now apply disk_sym'|exact E].
Qed.
Lemma closing_idem_set w h r A x y : 0 < w -> 0 < h -> inside w h x y ->
  eroded_rep w h r (dilated w h r (eroded_rep w h r (dilated w h r A))) x y <-> eroded_rep w h r (dilated w h r A) x y.
Proof.
  intros Hw Hh Hin. split.
  - intros E. eapply eroded_rep_mono; [auto|auto| |exact E]. intros x1 y1 I1 (x2 & y2 & I2 & D2 & E2).
    specialize (E2 x1 y1). replace (clampZ w x1) with x1 in E2 by (unfold clampZ, inside in *; lia).
    replace (clampZ h y1) with y1 in E2 by (unfold clampZ, inside in *; lia). apply E2. now apply disk_sym'.
  - now apply closing_extensive_set.
Qed.

Lemma disk0 dx dy : disk 0 dx dy <-> dx = 0 /\ dy = 0.
Proof. unfold disk. split; [intros; nia|intros [-> ->]; lia]. Qed.

(** ** Statements about calls *)
Definition dil (r : Z) w h p := binary_dilation_disk p w h r.

Lemma closing_call w h r b b' : morph_ok w h r -> image (w * h) b ->
  calls (fun w h p => binary_closing_disk p w h r) w h b b' ->
  bw_picture w h b' (eroded_rep w h r (dilated w h r (white b w))).
Proof. intros Hok Hi C. exact (calls_inv' _ _ _ _ _ _ (fun s p Hwf Hp => closing_ok w h r s p b Hwf Hok Hp Hi) C). Qed.
Lemma opening_call w h r b b' : morph_ok w h r -> image (w * h) b ->
  calls (fun w h p => binary_opening_disk p w h r) w h b b' ->
  bw_picture w h b' (dilated w h r (eroded w h r (white b w))).
Proof. intros Hok Hi C. exact (calls_inv' _ _ _ _ _ _ (fun s p Hwf Hp => opening_ok w h r s p b Hwf Hok Hp Hi) C). Qed.

Lemma bw_same w h b b' P Q : 0 < w -> bw_picture w h b P -> bw_picture w h b' Q -> (forall x y, inside w h x y -> P x y <-> Q x y) ->
  same_bytes (w * h) b b'.
Proof.
  intros Hw [_ V] [_ V'] H j Hj. destruct (rm_decomp w h j Hw Hj) as (A & B & Ej).
  assert (Hin : inside w h (j mod w) (j / w)) by (split; auto).
  destruct (V _ _ Hin) as [V1 V2]. destruct (V' _ _ Hin) as [V1' V2']. specialize (H _ _ Hin).
  assert (WW : white b w (j mod w) (j / w) <-> white b' w (j mod w) (j / w)) by tauto.
  unfold white, pix in *. replace ((j / w * w + j mod w) * 1 + 0) with j in * by lia.
  destruct V2 as [E|E]; [apply WW in E as E'; congruence|].
  destruct V2' as [E'|E']; [apply WW in E'|]; congruence.
Qed.

Lemma opening_idempotent : forall w h r b b1 b2, morph_ok w h r -> image (w * h) b ->
  calls (fun w h p => binary_opening_disk p w h r) w h b b1 ->
  calls (fun w h p => binary_opening_disk p w h r) w h b1 b2 -> same_bytes (w * h) b1 b2.
Proof.
  intros w h r b b1 b2 Hok Hi C1 C2. pose proof Hok as (H1 & H2 & _).
  apply (opening_call _ _ _ _ _ Hok Hi) in C1. assert (I1 : image (w * h) b1) by apply C1.
  apply (opening_call _ _ _ _ _ Hok I1) in C2. eapply bw_same; eauto. intros x y Hin.
  rewrite <- (opening_idem_set w h r (white b w) x y Hin). apply dilated_iff. intros x1 y1 _. apply eroded_iff.
  intros x2 y2 Hin2. symmetry. now apply C1.
Qed.

Lemma closing_idempotent : forall w h r b b1 b2, morph_ok w h r -> image (w * h) b ->
  calls (fun w h p => binary_closing_disk p w h r) w h b b1 ->
  calls (fun w h p => binary_closing_disk p w h r) w h b1 b2 -> same_bytes (w * h) b1 b2.
Proof.
  intros w h r b b1 b2 Hok Hi C1 C2. pose proof Hok as (H1 & H2 & _).
  apply (closing_call _ _ _ _ _ Hok Hi) in C1. assert (I1 : image (w * h) b1) by apply C1.
  apply (closing_call _ _ _ _ _ Hok I1) in C2. eapply bw_same; eauto. intros x y Hin.
  rewrite <- (closing_idem_set w h r (white b w) x y H1 H2 Hin). apply eroded_rep_iff; auto. intros x1 y1 _. apply dilated_iff.
  intros x2 y2 Hin2. symmetry. now apply C1.
Qed.

Lemma closing_extensive : forall w h r b b', morph_ok w h r -> image (w * h) b ->
  calls (fun w h p => binary_closing_disk p w h r) w h b b' ->
  forall x y, inside w h x y -> white b w x y -> white b' w x y.
Proof.
  intros w h r b b' Hok Hi C x y Hin W. apply (closing_call _ _ _ _ _ Hok Hi) in C.
  apply (proj2 C x y Hin). now apply closing_extensive_set.
Qed.
Lemma opening_anti_extensive : forall w h r b b', morph_ok w h r -> image (w * h) b ->
  calls (fun w h p => binary_opening_disk p w h r) w h b b' ->
  forall x y, inside w h x y -> white b' w x y -> white b w x y.
Proof.
  intros w h r b b' Hok Hi C x y Hin W. apply (opening_call _ _ _ _ _ Hok Hi) in C.
  apply (proj2 C x y Hin) in W. eapply opening_anti_set; eauto.
Qed.
Lemma closing_increasing : forall w h r a a' b b', morph_ok w h r -> image (w * h) a -> image (w * h) b ->
  calls (fun w h p => binary_closing_disk p w h r) w h a a' ->
  calls (fun w h p => binary_closing_disk p w h r) w h b b' ->
  (forall x y, inside w h x y -> white a w x y -> white b w x y) ->
  forall x y, inside w h x y -> white a' w x y -> white b' w x y.
Proof.
  intros w h r a a' b b' Hok Ia Ib Ca Cb H x y Hin W. pose proof Hok as (H1 & H2 & _).
  apply (closing_call _ _ _ _ _ Hok Ia) in Ca. apply (closing_call _ _ _ _ _ Hok Ib) in Cb.
  apply (proj2 Cb x y Hin). apply (proj2 Ca x y Hin) in W. eapply eroded_rep_mono; [auto|auto| |exact W].
  intros x1 y1 _. now apply dilated_mono.
Qed.
Lemma opening_increasing : forall w h r a a' b b', morph_ok w h r -> image (w * h) a -> image (w * h) b ->
  calls (fun w h p => binary_opening_disk p w h r) w h a a' ->
  calls (fun w h p => binary_opening_disk p w h r) w h b b' ->
  (forall x y, inside w h x y -> white a w x y -> white b w x y) ->
  forall x y, inside w h x y -> white a' w x y -> white b' w x y.
Proof.
  intros w h r a a' b b' Hok Ia Ib Ca Cb H x y Hin W. pose proof Hok as (H1 & H2 & _).
  apply (opening_call _ _ _ _ _ Hok Ia) in Ca. apply (opening_call _ _ _ _ _ Hok Ib) in Cb.
  apply (proj2 Cb x y Hin). apply (proj2 Ca x y Hin) in W. eapply dilated_mono; [|exact W].
  intros x1 y1 _. now apply eroded_mono.
Qed.

Lemma morph_rejects : forall w h r s p, wf s -> p = Null \/ w <= 0 \/ h <= 0 \/ r < 0 ->
  returns_null s (binary_dilation_disk p w h r s) /\ returns_null s (binary_erosion_disk p w h r s) /\
  returns_null s (binary_closing_disk p w h r s) /\ returns_null s (binary_opening_disk p w h r s).
Proof.
  intros w h r s p Hwf H. pose proof (returns_null_ret s Hwf) as R.
  unfold binary_dilation_disk, binary_erosion_disk, binary_erosion_disk_internal, binary_closing_disk, binary_opening_disk.
  replace (is_null p || (w <=? 0) || (h <=? 0) || (r <? 0)) with true; [auto|].
  destruct H as [->|[H|[H|H]]]; [reflexivity| | |]; destruct (is_null p); cbn [orb]; lia.
Qed.

(** Radius 0: the whites are kept, everything else becomes black. *)
Lemma radius_zero_set w h (A : Z -> Z -> Prop) x y : inside w h x y ->
  (dilated w h 0 A x y <-> A x y) /\ (eroded w h 0 A x y <-> A x y).
Proof.
  intros Hin. unfold dilated, eroded. split; split.
  - intros (x' & y' & I & D & W). apply disk0 in D as [D1 D2]. replace x with x' by lia. now replace y with y' by lia.
  - intros W. exists x, y. split; auto. split; auto. apply disk0; lia.
  - intros E. apply E. apply disk0; lia.
  - intros W x' y' D. apply disk0 in D as [D1 D2]. replace x' with x by lia. now replace y' with y by lia.
Qed.

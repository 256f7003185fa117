From Coq Require Import Reals Lra.
From Flocq Require Import Core.
From Verif Require Import Base BaseLemmas F FLemmas Heap HeapLemmas Spec M_Haskell Spec_Haskell P_Haskell P_Haskell2 M_Web Spec_Blur Spec_Sobel Spec_Web.
From Verif Require Import M_Color M_Blur M_Sobel M_Otsu.
From Verif Require T_Color T_Blur T_Sobel T_Otsu.
Local Open Scope Z_scope.

Lemma copy_to s (b : buf Z) n : wf s -> 0 <= n -> exact_image n b -> orc s (tick s) = true ->
  exists s' b1, copyToWasmMemory b s = Ok (Ptr (nxt s), s') /\ later s s' /\ mem s' (nxt s) = Some (OBytes b1) /\
    (forall j, j <> nxt s -> mem s' j = mem s j) /\ same_bytes n b b1 /\ image n b1.
Proof.
  intros Hw Hn [Hl [Hl' Hi]] Ho. unfold copyToWasmMemory. rewrite Hl.
  assert (Ha : alloc (OBytes (bnew n)) s = Ok (Ptr (nxt s), mkst (upd (mem s) (nxt s) (Some (OBytes (bnew n)))) (nxt s + 1) (orc s) (S (tick s)))).
  { unfold alloc. now rewrite Ho. }
  erewrite bindM_Ok by exact Ha. erewrite bindM_Ok by (apply get_bytes_ok; cbn; apply upd_same).
  assert (HC : exists b1, bcopy (bnew n) 0 b 0 n = Ok b1 /\ blen b1 = n /\ forall j, 0 <= j < n -> bget b1 j = bget b j).
  { unfold bcopy. destruct (Z.eqb_spec n 0).
    - eexists. split; [reflexivity|]. split; [cbn; auto|]. intros; lia.
    - destruct (_ && _) eqn:E.
      + eexists. split; [reflexivity|]. split; [reflexivity|]. intros j Hj. cbn.
        destruct ((0 <=? j) && (j <? n)) eqn:E2; [f_equal; lia|lia].
      + cbn [blen bnew] in E. lia. }
  destruct HC as (b1 & HC & HL & HE). erewrite bindM_lift by exact HC.
  erewrite bindM_Ok by (eapply put_bytes_ok; cbn; apply upd_same).
  eexists _, b1. split; [reflexivity|]. cbn. split; [|split; [apply upd_same|split; [|split]]].
  - split; [|cbn; repeat split; auto; lia]. intros j Hj. cbn in *. rewrite !upd_other by lia. apply Hw. lia.
  - intros j Hj. now rewrite !upd_other by auto.
  - intros j Hj. now rewrite HE.
  - split; [lia|]. intros j Hj. rewrite HE by lia. auto.
Qed.

(** One case of the switch and the clean-up *)
Lemma case_ok s0 s i b1 call n (P : buf Z -> Prop) : wf s -> mem s i = Some (OBytes b1) -> 0 <= n ->
  wf s0 -> mem s0 i = None -> (forall j, j <> i -> mem s j = mem s0 j) -> later s0 s ->
  returns_fresh s (call s) (fun b' => exact_image n b' /\ P b') ->
  exists d s', (r <-- one_case call n ;; let '(q, d) := r in
      _ <-- free (Ptr i) ;; _ <-- (if is_null q then ret tt else free q) ;; ret d) s = Ok (d, s') /\ later s0 s' /\ same_mem s0 s' /\
    match d with
    | None => alloc_failed s0 s'
    | Some l => exists b', lists l b' /\ exact_image n b' /\ P b'
    end.
Proof.
  intros Hw Hm Hn Hw0 Hf0 Ho0 Hla0 (q & s1 & Hr & Hla & H). unfold one_case.
  destruct q as [|q].
  - destruct H as [Hs (k & Hk1 & Hk2)].
    assert (E : (outputPtr <-- call ;; if is_null outputPtr then ret (outputPtr, None) else d <-- copyFromWasmMemory outputPtr n ;; ret (outputPtr, Some d)) s = Ok (Null, None, s1)).
    { erewrite bindM_Ok by exact Hr. reflexivity. }
    erewrite bindM_Ok by exact E. cbv beta iota. erewrite bindM_Ok by (eapply free_ok; rewrite Hs; exact Hm). cbn [is_null]. unfold bindM, ret.
    eexists None, _. split; [reflexivity|]. destruct Hla0 as (A1 & A2 & A3 & A4), Hla as (B1 & B2 & B3 & B4). split; [|split].
    + split; [|cbn; repeat split; try congruence; lia]. intros j Hj. cbn in *. unfold upd. destruct (j =? i); auto.
    + intros j. cbn. unfold upd. destruct (Z.eqb_spec j i); [congruence|]. rewrite Hs. auto.
    + exists k. cbn. split; [lia|congruence].
  - destruct H as (Hfq & (b' & Hb' & [Hl [Hl' Hi]] & HP) & Ho).
    assert (Hqi : q <> i) by congruence.
    destruct (read_from_ok b' (Z.to_nat n) (Z.to_nat n) ltac:(rewrite Z2Nat.id by lia; split; auto) 0 ltac:(lia) ltac:(lia)) as (l & Hrd & Hll & Hln).
    assert (E : (outputPtr <-- call ;; if is_null outputPtr then ret (outputPtr, None) else d <-- copyFromWasmMemory outputPtr n ;; ret (outputPtr, Some d)) s = Ok (Ptr q, Some l, s1)).
    { erewrite bindM_Ok by exact Hr. cbn [is_null]. unfold copyFromWasmMemory. unfold bindM at 1.
      erewrite bindM_Ok by (apply get_bytes_ok; eauto). unfold lift. rewrite Hrd. reflexivity. }
    erewrite bindM_Ok by exact E. cbv beta iota. erewrite bindM_Ok by (eapply free_ok; rewrite Ho by auto; exact Hm). cbn [is_null].
    erewrite bindM_Ok by (eapply free_ok; cbn [mem]; rewrite upd_other by auto; exact Hb').
    eexists (Some l), _. split; [reflexivity|]. destruct Hla0 as (A1 & A2 & A3 & A4), Hla as (B1 & B2 & B3 & B4). split; [|split].
    + split; [|cbn; repeat split; try congruence; lia]. intros j Hj. cbn in *. unfold upd. destruct (j =? q); auto. destruct (j =? i); auto.
    + intros j. cbn. unfold upd. destruct (Z.eqb_spec j q); [subst; rewrite <- Ho0 by auto; auto|]. destruct (Z.eqb_spec j i); [congruence|]. rewrite Ho by auto. auto.
    + exists b'. split; [|split; [split; [auto|split; auto]|exact HP]]. split; [rewrite Hll; lia|]. intros j Hj. rewrite Hln by lia. f_equal. lia.
Qed.

Lemma ret_map {D E} (m : M (ptr * D)) (A : M unit) (B : ptr -> M unit) (f : D -> E) s d s' :
  (r <-- m ;; let '(q, d) := r in _ <-- A ;; _ <-- B q ;; ret d) s = Ok (d, s') ->
  (r <-- m ;; let '(q, d) := r in _ <-- A ;; _ <-- B q ;; ret (f d)) s = Ok (f d, s').
Proof.
  unfold bindM, ret. destruct (m s) as [[[q d1] s1]| | |]; try discriminate. destruct (A s1) as [[[] s2]| | |]; try discriminate.
  destruct (B q s2) as [[[] s3]| | |]; try discriminate. now intros [= -> ->].
Qed.

Lemma process_gen exp op p s (P : buf Z -> buf Z -> Prop) n : wf s -> picture_ok p -> orc s (tick s) = true -> 0 <= n ->
  (forall s1 i b1, wf s1 -> mem s1 i = Some (OBytes b1) -> image (width p * height p * 4) b1 ->
     exists call, switch exp op (width p) (height p) (Ptr i) = one_case call n /\
       returns_fresh s1 (call s1) (fun b' => exact_image n b' /\ P b1 b')) ->
  exists r s', processImage exp op p s = Ok (r, s') /\ later s s' /\ same_mem s s' /\
    match r with
    | None => alloc_failed s s'
    | Some d => r_width d = width p /\ r_height d = height p /\ channels d = (match op with Sobel => 1 | _ => 4 end) /\
        exists b b', same_bytes (width p * height p * 4) (imageData p) b /\ lists (processedData d) b' /\ exact_image n b' /\ P b b'
    end.
Proof.
  intros Hw (Hw0 & Hh0 & Hs & Hi) Ho Hn H.
  destruct (copy_to s (imageData p) (width p * height p * 4) Hw ltac:(nia) Hi Ho) as (s1 & b1 & E1 & L1 & M1 & F1 & S1 & I1).
  destruct (H s1 (nxt s) b1 (proj1 L1) M1 I1) as (call & Es & Hc).
  destruct (case_ok s s1 (nxt s) b1 call n _ (proj1 L1) M1 Hn Hw (Hw (nxt s) ltac:(lia)) F1 L1 Hc) as (d & s' & E & L & SM & K).
  unfold processImage. erewrite bindM_Ok by exact E1. rewrite Es.
  eexists _, s'. split; [apply (ret_map _ _ _ (fun d => match d with None => None | Some l => Some (mkresult l (width p) (height p) (match op with Sobel => 1 | _ => 4 end)) end) _ _ _ E)|].
  split; [exact L|]. split; [exact SM|]. destruct d as [l|]; [|exact K].
  destruct K as (b' & K1 & K2 & K3). cbn [processedData r_width r_height channels]. repeat (split; [reflexivity|]).
  exists b1, b'. auto.
Qed.

Lemma display4 d n : channels d = 4 -> Z.of_nat (length (processedData d)) = n -> n = r_width d * r_height d * 4 -> 0 <= n ->
  displayProcessedImage d = Some (Drawn (r_width d) (r_height d) (processedData d)).
Proof.
  intros Hc Hl -> Hn. unfold displayProcessedImage. rewrite Hc. cbn [Z.eqb Pos.eqb]. cbv zeta.
  assert (E : (Z.to_nat (r_width d * r_height d) * 4 = length (processedData d))%nat) by lia. rewrite E.
  rewrite Nat.ltb_irrefl, Nat.sub_diag. cbn [repeat]. now rewrite app_nil_r.
Qed.

Lemma quads (f : nat -> Z) n : forall k i, (i < n)%nat ->
  firstn 4 (skipn (i * 4) (flat_map (fun i => [f i; f i; f i; 255]) (seq k n))) = [f (k + i)%nat; f (k + i)%nat; f (k + i)%nat; 255].
Proof.
  induction n; intros k i Hi; [lia|]. cbn [seq flat_map app].
  destruct i; [cbn; now rewrite Nat.add_0_r|]. replace (S i * 4)%nat with (4 + i * 4)%nat by lia.
  cbn [skipn Nat.add]. rewrite IHn by lia. now replace (S k + i)%nat with (k + S i)%nat by lia.
Qed.
Lemma quads_length (f : nat -> Z) n : forall k, length (flat_map (fun i => [f i; f i; f i; 255]) (seq k n)) = (n * 4)%nat.
Proof. induction n; intros k; cbn [seq flat_map app length]; auto. rewrite IHn. lia. Qed.

Lemma five : is_finite (d_of_Z 5) = true /\ B2R (d_of_Z 5) = 5%R.
Proof. exact (d_of_Z_exact 5 ltac:(lia)). Qed.

Lemma process_ok exp op p s : exp_ok exp -> op <> Other -> wf s -> picture_ok p -> orc s (tick s) = true ->
  exists r s', processImage exp op p s = Ok (r, s') /\ later s s' /\ same_mem s s' /\
    match r with
    | None => alloc_failed s s'
    | Some d => exists px, displayProcessedImage d = Some (Drawn (width p) (height p) px) /\ shows op p px
    end.
Proof.
  intros He Hop Hw Hp Ho. pose proof Hp as (P1 & P2 & P3 & P4).
  assert (D : dims_ok (width p) (height p)) by (unfold dims_ok, is_u32, SIZE_MAX; nia).
  assert (FIN : forall (P : buf Z -> buf Z -> Prop), (exists r s', processImage exp op p s = Ok (r, s') /\ later s s' /\ same_mem s s' /\
    match r with
    | None => alloc_failed s s'
    | Some d => r_width d = width p /\ r_height d = height p /\ channels d = (match op with Sobel => 1 | _ => 4 end) /\
        exists b b', same_bytes (width p * height p * 4) (imageData p) b /\ lists (processedData d) b' /\ exact_image (width p * height p * 4) b' /\ P b b'
    end) -> op <> Sobel ->
    (forall px b b', same_bytes (width p * height p * 4) (imageData p) b -> lists px b' -> exact_image (width p * height p * 4) b' -> P b b' ->
       Z.of_nat (length px) = width p * height p * 4 -> shows op p px) ->
    exists r s', processImage exp op p s = Ok (r, s') /\ later s s' /\ same_mem s s' /\
    match r with
    | None => alloc_failed s s'
    | Some d => exists px, displayProcessedImage d = Some (Drawn (width p) (height p) px) /\ shows op p px
    end).
  { intros P (r & s' & E & L & SM & K) Hns HP. exists r, s'. split; [exact E|]. split; [exact L|]. split; [exact SM|].
    destruct r as [d|]; [|exact K]. destruct K as (K1 & K2 & K3 & b & b' & B1 & B2 & B3 & B4).
    assert (K3' : channels d = 4) by (destruct op; congruence).
    assert (Hlen : Z.of_nat (length (processedData d)) = width p * height p * 4).
    { destruct B2 as [-> _]. apply B3. }
    exists (processedData d). split.
    - rewrite <- K1, <- K2. apply display4 with (n := width p * height p * 4); auto; [congruence|nia].
    - eapply HP; eauto. }
  destruct op; [..|congruence].
  - apply (FIN (fun b b' => forall x y, 0 <= x < width p -> 0 <= y < height p -> opaque_gray b' (width p) x y (gray_at b (width p) x y))).
    + apply process_gen; auto; [nia|]. intros s1 i b1 W1 M1 I1. eexists. split; [reflexivity|]. apply T_Color.C11_grayscale; auto; [nia|]. exists i; auto.
    + congruence.
    + intros px b b' B1 B2 B3 B4 B5. split; [exact B5|]. exists b, b'. auto.
  - apply (FIN (fun b b' => blurred (width p) (height p) 5 b b')).
    + apply process_gen; auto; [nia|]. intros s1 i b1 W1 M1 I1. eexists. split; [reflexivity|].
      apply (fresh_weaken _ _ (blurred (width p) (height p) 5 b1)). { intros b' B. split; [apply B|exact B]. }
      destruct five as [F5 R5]. rewrite <- R5. apply T_Blur.C46_blur; auto; [nia|rewrite R5; lra|]. exists i; auto.
    + congruence.
    + intros px b b' B1 B2 B3 B4 B5. split; [exact B5|]. exists b, b'. auto.
  - destruct (process_gen exp Sobel p s (fun b b' => edges_of (width p) (height p) (fun x y => gray_at b (width p) x y) b') (width p * height p) Hw Hp Ho ltac:(nia))
      as (r & s' & E & L & SM & K).
    { intros s1 i b1 W1 M1 I1. eexists. split; [reflexivity|].
      apply (fresh_weaken _ _ (edges_of (width p) (height p) (fun x y => gray_at b1 (width p) x y))). { intros b' B. split; [apply B|exact B]. }
      apply T_Sobel.C45_sobel_rgba with (b := b1); auto; [nia|nia|unfold SIZE_MAX; nia|lia|]. exists i; auto. }
    exists r, s'. split; [exact E|]. split; [exact L|]. split; [exact SM|].
    destruct r as [d|]; [|exact K]. destruct K as (K1 & K2 & K3 & b & b' & B1 & [B2 B2'] & B3 & B4).
    unfold displayProcessedImage. rewrite K1, K2, K3. cbn [Z.eqb Pos.eqb]. cbv zeta. eexists. split; [reflexivity|].
    split; [rewrite quads_length; nia|]. exists b, b'. split; [exact B1|]. split; [exact B4|].
    intros i Hi. destruct B3 as (B3 & _ & B5). destruct (B5 i Hi) as (g & G & _). exists g. split; [exact G|].
    replace (Z.to_nat (i * 4)) with (Z.to_nat i * 4)%nat by lia. rewrite quads by nia. cbn [Nat.add].
    assert (N : nth_error (processedData d) (Z.to_nat i) = Some g) by (rewrite B2' by lia; exact G).
    rewrite (nth_error_nth _ _ 0 N). reflexivity.
  - apply (FIN (fun b b' => calls (fun w h p => otsu_threshold_rgba w h false p) (width p) (height p) b b')).
    + apply process_gen; auto; [nia|]. intros s1 i b1 W1 M1 I1. eexists. split; [reflexivity|].
      assert (H1 : holds s1 (Ptr i) b1) by (exists i; auto).
      apply (fresh_calls (fun w h p => otsu_threshold_rgba w h false p)); auto.
      destruct T_Otsu.C18_otsu as (T & _ & _ & HT). specialize (HT (width p) (height p) s1 (Ptr i) b1 W1 D ltac:(lia) H1 I1). cbv zeta in HT.
      destruct HT as [HT _]. eapply fresh_weaken; [|exact HT]. intros ? [? _]; auto.
    + congruence.
    + intros px b b' B1 B2 B3 B4 B5. split; [exact B5|]. exists b, b'. auto.
Qed.

Lemma process_no_memory exp op p s : orc s (tick s) = false -> processImage exp op p s = UB NullDeref.
Proof. intros H. unfold processImage, copyToWasmMemory, bindM, alloc. rewrite H. reflexivity. Qed.

From Coq Require Import Reals.
From Verif Require Import Base BaseLemmas F Heap Spec HeapLemmas M_Haskell Spec_Haskell P_Haskell.
From Verif Require Import Spec_Draw Spec_Cli Spec_Blur M_Cli P_Blur P_Corners
  Spec_Corners Spec_Detect M_Detect M_Apply Spec_Morph Spec_Apply M_Main Spec_Main ExUtil Spec_Doc P_Doc P_Detect.
From Verif Require Import Spec_Persp Spec_Extract P_Extract Spec_HsDoc P_Apply.
From Verif Require T_Detect P_Cli.
Local Open Scope Z_scope.

Lemma four_loads (a0 a1 a2 a3 : f64 * f64) : load (of_list [a0; a1; a2; a3]) 0 = Ok a0 /\ load (of_list [a0; a1; a2; a3]) 1 = Ok a1 /\
  load (of_list [a0; a1; a2; a3]) 2 = Ok a2 /\ load (of_list [a0; a1; a2; a3]) 3 = Ok a3.
Proof. repeat split; reflexivity. Qed.

Lemma hs_detect_ok ex at2 asin fuel w h s v b : exp_ok ex -> atan2_ok at2 ->
  0 < w -> 0 < h -> w * h <= 1073741824 -> 66565 < Z.of_nat fuel -> wf s -> holds s (v_ptr v) b -> image (w * h * 4) b ->
  (forall n, orc s n = true) ->
  looks at2 asin w h b s (hs_detectCorners ex at2 asin fuel w h v s) (fun c s1 run =>
    (exists s', run = Ok (Some c, s') /\ later s1 s' /\ same_mem s1 s') /\
    Forall (on_picture w h) (four c) /\ ForallOrdPairs (apart_by (IZR w / 22) (IZR h / 22)) (four c)).
Proof.
  intros He Ha Hw Hh Hs Hf Wf Hp Hb A.
  apply (looks_weaken _ _ _ _ _ _ _ _ _ _ _ _ (detect_position ex at2 asin fuel w h s (v_ptr v) b He Ha Hw Hh Hs Hf Wf Hp Hb A)).
  - intros E. unfold hs_detectCorners, detect_corners_ptr, bindM. rewrite E. reflexivity.
  - intros u E. unfold hs_detectCorners, detect_corners_ptr, bindM. rewrite E. reflexivity.
  - intros c s1 C La _ (E & K). split; [|exact K].
    unfold hs_detectCorners, detect_corners_ptr, bindM. rewrite E.
    assert (Ho : orc s1 (tick s1) = true) by (destruct La as (_ & -> & _); apply A).
    unfold alloc. rewrite Ho. cbn [is_null]. unfold get_pts, get_obj, bindM, lift, ret, free. cbn [mem]. rewrite upd_same.
    destruct c as [a0 a1 a2 a3]. cbn [tl tr br bl].
    destruct (four_loads a0 a1 a2 a3) as (-> & -> & -> & ->). cbn [mem]. rewrite ?upd_same. eexists. split; [reflexivity|].
    assert (SM : same_mem s1 (mkst (upd (upd (mem s1) (nxt s1) (Some (OPts (of_list [a0; a1; a2; a3])))) (nxt s1) None) (nxt s1 + 1) (orc s1) (S (tick s1)))).
    { intros i. cbn [mem]. unfold upd. destruct (Z.eqb_spec i (nxt s1)); auto. subst. symmetry. apply (proj1 La). lia. }
    split; [|exact SM]. split; [|cbn; repeat split; auto; lia].
    intros i Hi. rewrite SM. apply (proj1 La). cbn in Hi. lia.
Qed.

Lemma hs_detect_rejects ex at2 asin fuel w h s v : w <= 0 \/ h <= 0 -> hs_detectCorners ex at2 asin fuel w h v s = Abort.
Proof.
  intros H. unfold hs_detectCorners, detect_corners_ptr, bindM. rewrite (T_Detect.C50_rejects ex at2 asin fuel w h s (v_ptr v)); tauto.
Qed.

Lemma hs_detect_black ex at2 asin fuel w h s v b : exp_ok ex -> atan2_ok at2 ->
  0 < w -> 0 < h -> w * h <= 1073741824 -> 66565 < Z.of_nat fuel -> wf s -> holds s (v_ptr v) b -> image (w * h * 4) b ->
  (forall n, orc s n = true) -> all_black w h b ->
  exists u, hs_detectCorners ex at2 asin fuel w h v s = UB u.
Proof.
  intros He Ha Hw Hh Hs Hf Wf Hp Hb A B.
  destruct (T_Detect.C50_black_refuted ex at2 asin fuel w h s (v_ptr v) b He Ha Hw Hh Hs Hf Wf Hp Hb A B) as (u & E).
  exists u. unfold hs_detectCorners, detect_corners_ptr, bindM. now rewrite E.
Qed.

Lemma sampled_vec m w h b ow oh b' s q : 0 < ow -> 0 < oh -> mem s q = Some (OBytes b') -> sampled m w h b ow oh b' ->
  exists l, read_vec (mkvec (Ptr q) (ow * oh * 4)) s = Ok (l, s) /\ lists l b'.
Proof.
  intros Ho1 Ho2 Hm [[Hl Hi] _].
  destruct (read_from_ok b' (Z.to_nat (ow * oh * 4)) (Z.to_nat (ow * oh * 4)) ltac:(rewrite Z2Nat.id by nia; exact Hi) 0 ltac:(lia) ltac:(lia)) as (l & Hr & Hll & Hln).
  exists l. unfold read_vec, get_bytes, get_obj, bindM, lift, ret. cbn [v_ptr v_len]. rewrite Hm, Hr. split; [reflexivity|].
  split; [rewrite Hll, Hl; nia|]. intros j Hj. rewrite Hln by nia. f_equal. lia.
Qed.

Lemma hs_pack {A} (pack : vec -> A) identity c w h b ow oh s (m : M (ptr * Z * Z)) run : fair_size ow oh ->
  extracts identity c w h b ow oh s (m s) ->
  (forall q s', m s = Ok (Ptr q, ow, oh, s') -> run = Ok (Some (pack (mkvec (Ptr q) (ow * oh * 4))), s')) ->
  hs_extracts pack identity c w h b ow oh s run.
Proof.
  intros (F1 & F2 & F3) (pm & mt & CM & K) R. exists pm, mt. split; [exact CM|]. intros T N.
  destruct (K T N) as (q & s' & b' & E & L & Nq & Mq & S & O & X).
  destruct (sampled_vec mt w h b ow oh b' s' q ltac:(lia) ltac:(lia) Mq S) as (l & Hl & Ll).
  exists (mkvec (Ptr q) (ow * oh * 4)), q, s', b', l. split; [apply R; exact E|]. auto 12.
Qed.

Section Docs.
Variables (exp : f64 -> f64) (at2 : f64 -> f64 -> f64) (asin pow2 : f64 -> f64) (fuel : nat) (identity : ptr).
Variables (w h : Z) (s : st) (v : vec) (b : buf Z).
Hypothesis He : exp_ok exp.
Hypothesis Ha : atan2_ok at2.
Hypothesis Hf : 66565 < Z.of_nat fuel.
Hypothesis HU : usual w h.
Hypothesis Hs : w * h <= 536870911.
Hypothesis W : wf s.
Hypothesis Hp : holds s (v_ptr v) b.
Hypothesis Hb : image (w * h * 4) b.
Hypothesis OT : forall n, orc s n = true.
Hypothesis Hi : holds_mat s identity identity_matrix.

Lemma fair_mul3 ow oh : fair_size ow oh -> u32 (mul3 ow oh 4) = ow * oh * 4.
Proof. intros (F1 & F2 & F3). apply mul3_id; nia. Qed.
Lemma fair_mul3' ow oh : fair_size ow oh -> mul3 ow oh 4 = ow * oh * 4.
Proof. intros (F1 & F2 & F3). unfold mul3. rewrite (u32_id (ow * oh)) by nia. apply u32_id. nia. Qed.

Lemma hs_extract_ok ow oh : fair_size ow oh ->
  looks at2 asin w h b s (hs_extractDocument exp at2 asin fuel identity w h ow oh v s)
    (fun c s1 run => hs_extracts (fun v => v) identity c w h b ow oh s1 run).
Proof.
  intros FS. pose proof HU as (U1 & U2 & U3). pose proof FS as (S1 & S2 & S3).
  assert (E0 : is_null (v_ptr v) = false) by (destruct Hp as (i & -> & _); reflexivity).
  unfold hs_extractDocument, withImageData, extract_document. rewrite E0. rewrite !P_Cli.s32_cli by lia.
  eapply looks_weaken; [apply (detect_cases exp at2 asin fuel w h s (v_ptr v) b He Ha ltac:(lia) ltac:(lia) U3 Hf W Hp Hb OT)|..].
  - intros E. unfold bindM at 1. unfold bindM at 1. rewrite E. reflexivity.
  - intros u E. unfold bindM at 1. unfold bindM at 1. rewrite E. reflexivity.
  - intros c s1 C La Le E. unfold bindM at 1. rewrite (bindM_Ok _ _ _ _ _ E).
    pose proof Hp as (i & Ei & _). rewrite Ei in *.
    assert (K := extract_ok identity c w h b ow oh s1 i (proj1 La)
      ltac:(intros n; replace (orc s1) with (orc s) by (symmetry; apply La); apply OT) ltac:(lia) ltac:(lia) Hs FS
      (leaks_holds _ _ _ _ Le Hp) Hb (leaks_mat _ _ _ _ Le Hi)).
    eapply hs_pack; [exact FS|exact K|].
    intros q s' E1. unfold bindM in E1. destruct (extract_with _ _ _ _ _ _ _ s1) as [[p1 s2]| | |]; try discriminate.
    injection E1 as -> ->. cbn [is_null]. unfold makeVector. rewrite (fair_mul3 _ _ FS). reflexivity.
Qed.

Lemma hs_extract_auto_ok : pow2_ok pow2 ->
  looks at2 asin w h b s (hs_extractDocumentAuto exp at2 asin pow2 fuel identity w h v s)
    (fun c s1 run => exists ow oh, document_size c ow oh /\
       (fair_size ow oh -> hs_extracts (fun v => (ow, oh, v)) identity c w h b ow oh s1 run)).
Proof.
  intros Hpow. pose proof HU as (U1 & U2 & U3).
  assert (E0 : is_null (v_ptr v) = false) by (destruct Hp as (i & -> & _); reflexivity).
  unfold hs_extractDocumentAuto, extract_document_auto. rewrite E0. rewrite !P_Cli.s32_cli by lia.
  eapply looks_weaken; [apply (detect_cases exp at2 asin fuel w h s (v_ptr v) b He Ha ltac:(lia) ltac:(lia) U3 Hf W Hp Hb OT)|..].
  - intros E. unfold bindM at 1. unfold bindM at 1. rewrite E. reflexivity.
  - intros u E. unfold bindM at 1. unfold bindM at 1. rewrite E. reflexivity.
  - intros c s1 C La Le E.
    destruct (corners_position at2 asin w h b c ltac:(lia) ltac:(lia) U3 C) as [ON _]. rewrite Forall_forall in ON.
    assert (O1 := ON (tl c) ltac:(cbn; auto)). assert (O2 := ON (tr c) ltac:(cbn; auto)).
    assert (O3 := ON (br c) ltac:(cbn; auto)). assert (O4 := ON (bl c) ltac:(cbn; auto)).
    destruct (side_R pow2 Hpow w h (tr c) (tl c) U1 U2 O2 O1) as (a1 & A1 & B1 & R1).
    destruct (side_R pow2 Hpow w h (br c) (bl c) U1 U2 O3 O4) as (a2 & A2 & B2 & R2).
    destruct (side_R pow2 Hpow w h (bl c) (tl c) U1 U2 O4 O1) as (a3 & A3 & B3 & R3).
    destruct (side_R pow2 Hpow w h (br c) (tr c) U1 U2 O3 O2) as (a4 & A4 & B4 & R4).
    destruct (output_size_R _ _ _ _ _ _ A1 A2 R1 R2 B1 B2) as (ow & Eow & Sow).
    destruct (output_size_R _ _ _ _ _ _ A3 A4 R3 R4 B3 B4) as (oh & Eoh & Soh).
    exists ow, oh. split.
    { split; [rewrite (dist_sym (tl c)), (dist_sym (bl c)); exact Sow|].
      rewrite (dist_sym (tl c)), (dist_sym (tr c)). exact Soh. }
    intros FS.
    pose proof Hp as (i & Ei & _). rewrite Ei in *.
    assert (K := extract_ok identity c w h b ow oh s1 i (proj1 La)
      ltac:(intros n; replace (orc s1) with (orc s) by (symmetry; apply La); apply OT) ltac:(lia) ltac:(lia) Hs FS
      (leaks_holds _ _ _ _ Le Hp) Hb (leaks_mat _ _ _ _ Le Hi)).
    eapply hs_pack; [exact FS|exact K|].
    intros q s' E1. unfold bindM at 1. rewrite (bindM_Ok _ _ _ _ _ E). rewrite (bindM_lift _ _ _ _ Eow), (bindM_lift _ _ _ _ Eoh).
    unfold bindM in *. destruct (extract_with _ _ _ _ _ _ _ s1) as [[p1 s2]| | |]; try discriminate.
    injection E1 as -> ->. cbn [is_null ret]. unfold makeVector. cbn. rewrite (fair_mul3' _ _ FS). reflexivity.
Qed.
End Docs.

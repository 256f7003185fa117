From Verif Require Import Base BaseLemmas F Heap Spec Spec_Morph M_Morph P_Morph P_Color.
Local Open Scope Z_scope.

Lemma disk_mono r r' dx dy : 0 <= r <= r' -> disk r dx dy -> disk r' dx dy.
Proof. unfold disk. intros H D. assert ((2 * r + 1) * (2 * r + 1) <= (2 * r' + 1) * (2 * r' + 1)) by nia. lia. Qed.
Lemma disk_sum r s a b c d : 0 <= r -> 0 <= s -> disk r a b -> disk s c d -> disk (r + s + 1) (a + c) (b + d).
Proof.
  unfold disk. intros Hr Hs H1 H2. set (m := 2 * r + 1) in *. set (n := 2 * s + 1) in *.
  assert (K : 4 * (a * c + b * d) <= m * n).
  { destruct (Z_le_gt_dec (4 * (a * c + b * d)) (m * n)) as [|G]; [auto|]. exfalso.
    assert (Q : (a * c + b * d) * (a * c + b * d) <= (a * a + b * b) * (c * c + d * d)).
    { assert (0 <= (a * d - b * c) * (a * d - b * c)) by apply Z.square_nonneg. nia. }
    assert (P : (4 * (a * a + b * b)) * (4 * (c * c + d * d)) <= (m * m) * (n * n)) by (apply Z.mul_le_mono_nonneg; nia).
    assert (0 <= m * n) by (unfold m, n; nia).
    assert ((m * n) * (m * n) < (4 * (a * c + b * d)) * (4 * (a * c + b * d))) by (apply Z.mul_lt_mono_nonneg; lia).
    nia. }
  assert (E : 4 * ((a + c) * (a + c) + (b + d) * (b + d)) <= (m + n) * (m + n)) by nia.
  replace (2 * (r + s + 1) + 1) with (m + n + 1) by (unfold m, n; lia). assert (0 <= m + n) by (unfold m, n; lia). nia.
Qed.

Section Radius.
Variables (w h : Z) (b : buf Z).
Hypothesis Ib : image (w * h) b.
Notation dil r := (fun w h p => binary_dilation_disk p w h r).
Notation ero r := (fun w h p => binary_erosion_disk p w h r).
Lemma dil_calls r d : morph_ok w h r -> calls (dil r) w h b d -> bw_picture w h d (dilated w h r (white b w)).
Proof. intros M C. exact (calls_inv' _ _ _ _ _ _ (fun s p Hwf Hp => dilation_ok w h r s p b Hwf M Hp Ib) C). Qed.
Lemma ero_calls r d : morph_ok w h r -> calls (ero r) w h b d -> bw_picture w h d (eroded w h r (white b w)).
Proof. intros M C. exact (calls_inv' _ _ _ _ _ _ (fun s p Hwf Hp => erosion_ok w h r s p b Hwf M Hp Ib) C). Qed.
End Radius.

Lemma radius_dilation w h b r r' d d' x y : image (w * h) b -> morph_ok w h r -> morph_ok w h r' -> r <= r' ->
  calls (fun w h p => binary_dilation_disk p w h r) w h b d -> calls (fun w h p => binary_dilation_disk p w h r') w h b d' ->
  inside w h x y -> white d w x y -> white d' w x y.
Proof.
  intros Ib M M' Hr C C' I W. apply (proj1 (proj2 (dil_calls w h b Ib r' d' M' C') x y I)). apply (proj1 (proj2 (dil_calls w h b Ib r d M C) x y I)) in W.
  destruct W as (x' & y' & J & D & A). exists x', y'. split; auto. split; auto. apply (disk_mono r); auto. destruct M as (_ & _ & _ & ? & _). lia.
Qed.
Lemma radius_erosion w h b r r' d d' x y : image (w * h) b -> morph_ok w h r -> morph_ok w h r' -> r <= r' ->
  calls (fun w h p => binary_erosion_disk p w h r) w h b d -> calls (fun w h p => binary_erosion_disk p w h r') w h b d' ->
  inside w h x y -> white d' w x y -> white d w x y.
Proof.
  intros Ib M M' Hr C C' I W. apply (proj1 (proj2 (ero_calls w h b Ib r d M C) x y I)). apply (proj1 (proj2 (ero_calls w h b Ib r' d' M' C') x y I)) in W.
  intros x' y' D. apply W. apply (disk_mono r); auto. destruct M as (_ & _ & _ & ? & _). lia.
Qed.
Lemma twice_dilation w h b r s d d' e x y : image (w * h) b -> morph_ok w h r -> morph_ok w h s -> morph_ok w h (r + s + 1) ->
  calls (fun w h p => binary_dilation_disk p w h r) w h b d -> calls (fun w h p => binary_dilation_disk p w h s) w h d d' ->
  calls (fun w h p => binary_dilation_disk p w h (r + s + 1)) w h b e ->
  inside w h x y -> white d' w x y -> white e w x y.
Proof.
  intros Ib Mr Ms Me C C' Ce I W. pose proof (dil_calls w h b Ib r d Mr C) as [X V]. pose proof (dil_calls w h d (proj2 X) s d' Ms C') as [X' V'].
  apply (proj1 (proj2 (dil_calls w h b Ib (r + s + 1) e Me Ce) x y I)). apply (proj1 (V' x y I)) in W.
  destruct W as (x1 & y1 & J1 & D1 & A1). apply (proj1 (V x1 y1 J1)) in A1. destruct A1 as (x2 & y2 & J2 & D2 & A2).
  exists x2, y2. split; auto. split; auto. destruct Mr as (_ & _ & _ & ? & _). destruct Ms as (_ & _ & _ & ? & _).
  replace (x2 - x) with ((x2 - x1) + (x1 - x)) by lia. replace (y2 - y) with ((y2 - y1) + (y1 - y)) by lia. apply disk_sum; auto; lia.
Qed.
Lemma twice_erosion w h b r s d d' e x y : image (w * h) b -> morph_ok w h r -> morph_ok w h s -> morph_ok w h (r + s + 1) ->
  calls (fun w h p => binary_erosion_disk p w h r) w h b d -> calls (fun w h p => binary_erosion_disk p w h s) w h d d' ->
  calls (fun w h p => binary_erosion_disk p w h (r + s + 1)) w h b e ->
  inside w h x y -> white e w x y -> white d' w x y.
Proof.
  intros Ib Mr Ms Me C C' Ce I W. pose proof (ero_calls w h b Ib r d Mr C) as [X V]. pose proof (ero_calls w h d (proj2 X) s d' Ms C') as [X' V'].
  apply (proj1 (proj2 (ero_calls w h b Ib (r + s + 1) e Me Ce) x y I)) in W. apply (proj1 (V' x y I)).
  assert (0 <= r) by (destruct Mr as (_ & _ & _ & ? & _); lia). assert (0 <= s) by (destruct Ms as (_ & _ & _ & ? & _); lia).
  intros x1 y1 D1. assert (J1 : inside w h x1 y1) by (apply W; apply (disk_mono s); auto; lia). split; auto. apply (proj1 (V x1 y1 J1)).
  intros x2 y2 D2. apply W. replace (x2 - x) with ((x2 - x1) + (x1 - x)) by lia. replace (y2 - y) with ((y2 - y1) + (y1 - y)) by lia. apply disk_sum; auto; lia.
Qed.

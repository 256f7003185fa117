(** * P_Straight: straight edges along an axis or a diagonal give no response *)
From Coq Require Import Reals.
From Verif Require Import Base BaseLemmas F Heap Spec Spec_Foerstner M_Foerstner P_Blur P_Foerstner ExUtil.
Local Open Scope Z_scope.

Lemma straight_one_way b w h k x y : striped b w h -> one_way b w h k x y.
Proof.
  intros H. unfold one_way, tens_xx, tens_xy, tens_yy.
  assert (P : 0 <= window k x y (fun i j => slope_x b w h i j * slope_x b w h i j)) by (apply window_nonneg; intros; nia).
  assert (Z0 : window k x y (fun _ _ => 0) = 0).
  { pose proof (window_lin k x y (fun _ _ => 0) (fun _ _ => 0) (fun _ _ => 0) 0 0 0) as H0. cbn in H0. exact H0. }
  assert (IN : forall i j, off_border w h i j = true -> 1 <= i < w - 1 /\ 1 <= j < h - 1) by (unfold off_border; intros; lia).
  destruct H as [(f & H)|[(f & H)|[(f & H)|(f & H)]]].
  - right; left. rewrite <- Z0. apply window_ext. intros i j. unfold slope_y. destruct (off_border w h i j) eqn:E; [|reflexivity].
    apply IN in E. rewrite !H by lia. lia.
  - left. rewrite <- Z0. apply window_ext. intros i j. unfold slope_x. destruct (off_border w h i j) eqn:E; [|reflexivity].
    apply IN in E. rewrite !H by lia. lia.
  - right; right.
    assert (S : forall i j, slope_y b w h i j = slope_x b w h i j).
    { intros i j. unfold slope_x, slope_y. destruct (off_border w h i j) eqn:E; [|reflexivity]. apply IN in E. rewrite !H by lia.
      replace (i - 1 + (j + 1)) with (i + j) by lia. replace (i + 1 + (j - 1)) with (i + j) by lia.
      replace (i + 1 + j) with (i + (j + 1)) by lia. replace (i - 1 + j) with (i + (j - 1)) by lia. lia. }
    rewrite (window_ext k x y (fun i j => slope_x b w h i j * slope_y b w h i j) (fun i j => slope_x b w h i j * slope_x b w h i j))
      by (intros; rewrite S; lia).
    rewrite (window_ext k x y (fun i j => slope_y b w h i j * slope_y b w h i j) (fun i j => slope_x b w h i j * slope_x b w h i j))
      by (intros; rewrite S; lia). lia.
  - right; right.
    assert (S : forall i j, slope_y b w h i j = - slope_x b w h i j).
    { intros i j. unfold slope_x, slope_y. destruct (off_border w h i j) eqn:E; [|reflexivity]. apply IN in E. rewrite !H by lia.
      replace (i + 1 - (j + 1)) with (i - j) by lia. replace (i - 1 - (j - 1)) with (i - j) by lia.
      replace (i - 1 - j) with (i - (j + 1)) by lia. replace (i + 1 - j) with (i - (j - 1)) by lia. lia. }
    assert (E1 : window k x y (fun i j => slope_x b w h i j * slope_y b w h i j) =
                 - window k x y (fun i j => slope_x b w h i j * slope_x b w h i j)).
    { rewrite (window_ext k x y (fun i j => slope_x b w h i j * slope_y b w h i j) (fun i j => (-1) * (slope_x b w h i j * slope_x b w h i j) + 0 * 0 + 0 * 0))
        by (intros; rewrite S; lia).
      rewrite (window_lin k x y (fun i j => slope_x b w h i j * slope_x b w h i j) (fun _ _ => 0) (fun _ _ => 0)). rewrite Z0. lia. }
    rewrite E1.
    rewrite (window_ext k x y (fun i j => slope_y b w h i j * slope_y b w h i j) (fun i j => slope_x b w h i j * slope_x b w h i j))
      by (intros; rewrite S; lia). lia.
Qed.

Lemma striped_quiet w h sigma s p b :
  0 < w -> 0 < h -> w * h <= INT_MAX -> sigma_ok sigma ->
  half_window sigma <= w -> half_window sigma <= h ->
  wf s -> holds s p b -> image (w * h) b -> striped b w h ->
  returns_fresh s (foerstner_corner w h p sigma s) (fun b' => exact_image (w * h * 2) b' /\
    forall x y, 0 <= x < w -> 0 <= y < h -> pix b' w 2 x y 0 = Some 0 /\ pix b' w 2 x y 1 = Some 0).
Proof.
  intros Hw Hh Hs Sg H1 H2 Wf Hp Hb HS. eapply returns_fresh_weaken; [|apply (foerstner_safe w h sigma s p b); auto].
  intros b' (E & Z & _). split; auto. intros x y Hx Hy. apply Z; auto. right. apply straight_one_way; auto.
Qed.

Definition diagonal : list Z := [9;9;9;200; 9;9;200;90; 9;200;90;7; 200;90;7;7].
Lemma diagonal_ex : sigma_ok (lit 1 2) /\ half_window (lit 1 2) = 1 /\ wf (st1 diagonal) /\
  holds (st1 diagonal) (Ptr 0) (of_list diagonal) /\ image (4 * 4) (of_list diagonal) /\ striped (of_list diagonal) 4 4.
Proof.
  destruct sigma_half as [S1 S2]. split; [exact S1|]. split; [exact S2|]. split; [apply wf_st1|]. split; [apply holds_st1|].
  split; [apply image_of_list; reflexivity|]. right; right; left.
  exists (fun s => nth (Z.to_nat s) [9; 9; 9; 200; 90; 7; 7] 0). intros x y Hx Hy.
  assert (Cx : x = 0 \/ x = 1 \/ x = 2 \/ x = 3) by lia. assert (Cy : y = 0 \/ y = 1 \/ y = 2 \/ y = 3) by lia.
  destruct Cx as [->|[->|[->| ->]]], Cy as [->|[->|[->| ->]]]; reflexivity.
Qed.

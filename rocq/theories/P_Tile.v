From Verif Require Import Base BaseLemmas F Heap Spec Spec_Morph Spec_Tile M_Geom M_Morph P_Geom P_Crop P_Morph P_Color M_Color.
Local Open Scope Z_scope.

Lemma disk_box r dx dy : 0 <= r -> disk r dx dy -> Z.abs dx <= r /\ Z.abs dy <= r.
Proof. unfold disk. intros Hr H. split; nia. Qed.

Section Tile.
Variables (w h x0 y0 cw ch r u v : Z) (A A' : Z -> Z -> Prop).
Hypothesis Hr : 0 <= r.
Hypothesis T : 0 <= x0 /\ 0 <= y0 /\ 0 < cw /\ 0 < ch /\ x0 + cw <= w /\ y0 + ch <= h.
Hypothesis I : inside cw ch u v.
Hypothesis K : knows r w h x0 y0 cw ch u v.
Hypothesis E : forall x y, inside cw ch x y -> Z.abs (x - u) <= r -> Z.abs (y - v) <= r -> (A' x y <-> A (x0 + x) (y0 + y)).
Lemma dilated_tile : dilated cw ch r A' u v <-> dilated w h r A (x0 + u) (y0 + v).
Proof.
  destruct I as [I1 I2]. destruct K as [[K1 K2] [K3 K4]]. split; intros (x & y & [X Y] & D & H).
  - pose proof (disk_box _ _ _ Hr D) as [D1 D2]. exists (x0 + x), (y0 + y). split; [split; lia|]. split; [|apply E; auto; split; auto].
    replace (x0 + x - (x0 + u)) with (x - u) by lia. replace (y0 + y - (y0 + v)) with (y - v) by lia. auto.
  - pose proof (disk_box _ _ _ Hr D) as [D1 D2]. assert (X' : 0 <= x - x0 < cw) by lia. assert (Y' : 0 <= y - y0 < ch) by lia. exists (x - x0), (y - y0).
    split; [split; auto|]. split; [|apply E; [split; auto|lia|lia|replace (x0 + (x - x0)) with x by lia; replace (y0 + (y - y0)) with y by lia; auto]].
    replace (x - x0 - u) with (x - (x0 + u)) by lia. replace (y - y0 - v) with (y - (y0 + v)) by lia. auto.
Qed.
Lemma eroded_tile : eroded cw ch r A' u v <-> eroded w h r A (x0 + u) (y0 + v).
Proof.
  destruct I as [I1 I2]. destruct K as [[K1 K2] [K3 K4]]. split; intros H x y D.
  - pose proof (disk_box _ _ _ Hr D) as [D1 D2]. destruct (H (x - x0) (y - y0)) as [[X Y] HA].
    { replace (x - x0 - u) with (x - (x0 + u)) by lia. replace (y - y0 - v) with (y - (y0 + v)) by lia. auto. }
    split; [split; lia|]. apply E in HA; [|split; auto|lia|lia]. replace (x0 + (x - x0)) with x in HA by lia. replace (y0 + (y - y0)) with y in HA by lia. auto.
  - pose proof (disk_box _ _ _ Hr D) as [D1 D2]. destruct (H (x0 + x) (y0 + y)) as [[X Y] HA].
    { replace (x0 + x - (x0 + u)) with (x - u) by lia. replace (y0 + y - (y0 + v)) with (y - v) by lia. auto. }
    assert (J : inside cw ch x y) by (split; lia). split; [auto|]. apply E; auto.
Qed.
Lemma rep_tile : eroded_rep cw ch r A' u v <-> eroded_rep w h r A (x0 + u) (y0 + v).
Proof.
  destruct I as [I1 I2]. destruct K as [[K1 K2] [K3 K4]]. split; intros H x y D.
  - pose proof (disk_box _ _ _ Hr D) as [D1 D2]. specialize (H (x - x0) (y - y0)).
    replace (x - x0 - u) with (x - (x0 + u)) in H by lia. replace (y - y0 - v) with (y - (y0 + v)) in H by lia. specialize (H D).
    apply E in H; [|split; unfold clampZ; lia|unfold clampZ; lia|unfold clampZ; lia].
    replace (clampZ w x) with (x0 + clampZ cw (x - x0)) by (unfold clampZ; lia). replace (clampZ h y) with (y0 + clampZ ch (y - y0)) by (unfold clampZ; lia). auto.
  - pose proof (disk_box _ _ _ Hr D) as [D1 D2]. specialize (H (x0 + x) (y0 + y)).
    replace (x0 + x - (x0 + u)) with (x - u) in H by lia. replace (y0 + y - (y0 + v)) with (y - v) in H by lia. specialize (H D).
    apply E; [split; unfold clampZ; lia|unfold clampZ; lia|unfold clampZ; lia|].
    replace (x0 + clampZ cw x) with (clampZ w (x0 + x)) by (unfold clampZ; lia). replace (y0 + clampZ ch y) with (clampZ h (y0 + y)) by (unfold clampZ; lia). auto.
Qed.
End Tile.

Lemma knows_less m m' w h x0 y0 cw ch u v : m' <= m -> knows m w h x0 y0 cw ch u v -> knows m' w h x0 y0 cw ch u v.
Proof. unfold knows, covered. lia. Qed.
Lemma knows_near r w h x0 y0 cw ch u v x y : 0 <= r -> inside cw ch x y -> inside cw ch u v -> Z.abs (x - u) <= r -> Z.abs (y - v) <= r ->
  knows (2 * r) w h x0 y0 cw ch u v -> knows r w h x0 y0 cw ch x y.
Proof. unfold knows, covered, inside. lia. Qed.

Lemma same_bw w h b P w' h' b' P' x y x' y' : bw_picture w h b P -> bw_picture w' h' b' P' -> inside w h x y -> inside w' h' x' y' ->
  (P x y <-> P' x' y') -> pix b w 1 x y 0 = pix b' w' 1 x' y' 0.
Proof.
  intros [_ B] [_ B'] J J' H. destruct (B x y J) as [C [W|Z0]], (B' x' y' J') as [C' [W'|Z0']].
  - unfold white in *. congruence.
  - exfalso. assert (white b' w' x' y') by tauto. unfold white in *. congruence.
  - exfalso. assert (white b w x y) by tauto. unfold white in *. congruence.
  - congruence.
Qed.

Section Calls.
Variables (w h x0 y0 cw ch r u v : Z) (b d t t1 : buf Z).
Hypothesis M : morph_ok w h r.
Hypothesis Ib : image (w * h) b.
Hypothesis T : 0 <= x0 /\ 0 <= y0 /\ 0 < cw /\ 0 < ch /\ x0 + cw <= w /\ y0 + ch <= h.
Hypothesis I : inside cw ch u v.
Hypothesis C : calls (fun w h p => crop w h 1 p x0 y0 cw ch) w h b t.
Lemma tile_ok : morph_ok cw ch r.
Proof. unfold morph_ok in *. repeat split; try lia; nia. Qed.
Lemma tile_pix : image (cw * ch) t /\ forall x y, inside cw ch x y -> (white t cw x y <-> white b w (x0 + x) (y0 + y)).
Proof.
  destruct M as (M1 & M2 & M3 & M4 & M5 & M6).
  assert (C' : crop_calls w h 1 x0 y0 cw ch b t) by exact C.
  apply crop_calls_inv in C'; try (unfold is_u32, U32; nia); [|unfold SIZE_MAX; lia|rewrite Z.mul_1_r; auto].
  destruct C' as (_ & _ & _ & _ & _ & X & V). rewrite Z.mul_1_r in X. split; [exact (proj2 X)|]. intros x y [Hx Hy]. unfold white. rewrite V by lia. reflexivity.
Qed.
Lemma tile_dilation : calls (fun w h p => binary_dilation_disk p w h r) w h b d -> calls (fun w h p => binary_dilation_disk p w h r) cw ch t t1 ->
  knows r w h x0 y0 cw ch u v -> pix t1 cw 1 u v 0 = pix d w 1 (x0 + u) (y0 + v) 0.
Proof.
  intros C1 C2 K. destruct tile_pix as [It V]. pose proof I as [I1 I2].
  apply (calls_inv' _ _ _ _ _ _ (fun s p Hwf Hp => dilation_ok w h r s p b Hwf M Hp Ib)) in C1.
  apply (calls_inv' _ _ _ _ _ _ (fun s p Hwf Hp => dilation_ok cw ch r s p t Hwf tile_ok Hp It)) in C2.
  apply (same_bw _ _ _ _ _ _ _ _ _ _ _ _ C2 C1); [auto|split; lia|]. apply dilated_tile; auto. apply M.
Qed.
Lemma tile_erosion : calls (fun w h p => binary_erosion_disk p w h r) w h b d -> calls (fun w h p => binary_erosion_disk p w h r) cw ch t t1 ->
  knows r w h x0 y0 cw ch u v -> pix t1 cw 1 u v 0 = pix d w 1 (x0 + u) (y0 + v) 0.
Proof.
  intros C1 C2 K. destruct tile_pix as [It V]. pose proof I as [I1 I2].
  apply (calls_inv' _ _ _ _ _ _ (fun s p Hwf Hp => erosion_ok w h r s p b Hwf M Hp Ib)) in C1.
  apply (calls_inv' _ _ _ _ _ _ (fun s p Hwf Hp => erosion_ok cw ch r s p t Hwf tile_ok Hp It)) in C2.
  apply (same_bw _ _ _ _ _ _ _ _ _ _ _ _ C2 C1); [auto|split; lia|]. apply eroded_tile; auto. apply M.
Qed.
Lemma tile_closing : calls (fun w h p => binary_closing_disk p w h r) w h b d -> calls (fun w h p => binary_closing_disk p w h r) cw ch t t1 ->
  knows (2 * r) w h x0 y0 cw ch u v -> pix t1 cw 1 u v 0 = pix d w 1 (x0 + u) (y0 + v) 0.
Proof.
  intros C1 C2 K. destruct tile_pix as [It V]. pose proof I as [I1 I2]. assert (R : 0 <= r) by apply M.
  apply (calls_inv' _ _ _ _ _ _ (fun s p Hwf Hp => closing_ok w h r s p b Hwf M Hp Ib)) in C1.
  apply (calls_inv' _ _ _ _ _ _ (fun s p Hwf Hp => closing_ok cw ch r s p t Hwf tile_ok Hp It)) in C2.
  apply (same_bw _ _ _ _ _ _ _ _ _ _ _ _ C2 C1); [auto|split; lia|]. apply rep_tile; auto; [apply (knows_less (2 * r)); auto; lia|].
  intros x y J Jx Jy. apply dilated_tile; auto. apply (knows_near r w h x0 y0 cw ch u v); auto.
Qed.
Lemma tile_opening : calls (fun w h p => binary_opening_disk p w h r) w h b d -> calls (fun w h p => binary_opening_disk p w h r) cw ch t t1 ->
  knows (2 * r) w h x0 y0 cw ch u v -> pix t1 cw 1 u v 0 = pix d w 1 (x0 + u) (y0 + v) 0.
Proof.
  intros C1 C2 K. destruct tile_pix as [It V]. pose proof I as [I1 I2]. assert (R : 0 <= r) by apply M.
  apply (calls_inv' _ _ _ _ _ _ (fun s p Hwf Hp => opening_ok w h r s p b Hwf M Hp Ib)) in C1.
  apply (calls_inv' _ _ _ _ _ _ (fun s p Hwf Hp => opening_ok cw ch r s p t Hwf tile_ok Hp It)) in C2.
  apply (same_bw _ _ _ _ _ _ _ _ _ _ _ _ C2 C1); [auto|split; lia|]. apply dilated_tile; auto; [apply (knows_less (2 * r)); auto; lia|].
  intros x y J Jx Jy. apply eroded_tile; auto. apply (knows_near r w h x0 y0 cw ch u v); auto.
Qed.
End Calls.

Lemma tile_grayscale w h x0 y0 cw ch b d d1 t t1 : dims_ok w h -> w * h <= 1073741824 -> image (w * h * 4) b ->
  0 <= x0 -> 0 <= y0 -> 0 < cw -> 0 < ch -> x0 + cw <= w -> y0 + ch <= h ->
  calls (fun w h p => crop w h 4 p x0 y0 cw ch) w h b t -> calls grayscale cw ch t t1 ->
  calls grayscale w h b d -> calls (fun w h p => crop w h 4 p x0 y0 cw ch) w h d d1 -> same_bytes (cw * ch * 4) t1 d1.
Proof.
  intros D S Ib Hx Hy Hcw Hch Hxw Hyh C1 C2 C3 C4. pose proof D as (Uw & Uh & Pw & Ph & Sz). assert (U4 : is_u32 4) by (unfold is_u32, U32; lia).
  apply (calls_inv' _ _ _ _ _ _ (fun s p Hwf Hp => crop_ok w h 4 p x0 y0 cw ch s b Hwf Uw Uh U4 ltac:(lia) Sz Hp Ib Hx Hy Hcw Hch Hxw Hyh)) in C1.
  destruct C1 as [X1 V1].
  apply (calls_inv' _ _ _ _ _ _ (fun s p Hwf Hp => grayscale_ok w h s p b Hwf D S Hp Ib)) in C3. destruct C3 as [X3 V3].
  apply (calls_inv' _ _ _ _ _ _ (fun s p Hwf Hp => crop_ok w h 4 p x0 y0 cw ch s d Hwf Uw Uh U4 ltac:(lia) Sz Hp (proj2 X3) Hx Hy Hcw Hch Hxw Hyh)) in C4.
  destruct C4 as [X4 V4].
  assert (Dc : dims_ok cw ch). { unfold dims_ok, is_u32, U32, SIZE_MAX in *. repeat split; try lia; nia. }
  apply (calls_inv' _ _ _ _ _ _ (fun s p Hwf Hp => grayscale_ok cw ch s p t Hwf Dc ltac:(nia) Hp (proj2 X1))) in C2. destruct C2 as [X2 V2].
  apply same_bytes_pix; [lia|lia|]. intros u v c Hu Hv Hc. rewrite V4 by auto.
  destruct (V2 u v Hu Hv) as (A0 & A1 & A2 & A3). destruct (V3 (x0 + u) (y0 + v) ltac:(lia) ltac:(lia)) as (B0 & B1 & B2 & B3).
  assert (G : gray_at t cw u v = gray_at b w (x0 + u) (y0 + v)). { unfold gray_at, pixv. rewrite !V1 by lia. reflexivity. }
  rewrite G in *. assert (Hk : c = 0 \/ c = 1 \/ c = 2 \/ c = 3) by lia. destruct Hk as [->|[->|[->| ->]]]; congruence.
Qed.

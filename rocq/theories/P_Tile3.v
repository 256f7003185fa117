(** * P_Tile3: tiles and the conversions between one and four channels *)
From Verif Require Import Base BaseLemmas F Heap Spec Spec_Morph M_Geom M_Color P_Geom P_Crop P_Color P_Color2 P_Color3 P_Rel.
Local Open Scope Z_scope.

Section Tile.
Variables (w h x0 y0 cw ch : Z) (b d d1 t t1 : buf Z).
Hypothesis D : dims_ok w h.
Hypothesis R : 0 <= x0 /\ 0 <= y0 /\ 0 < cw /\ 0 < ch /\ x0 + cw <= w /\ y0 + ch <= h.

Lemma tile_dims : dims_ok cw ch.
Proof. destruct D as (Uw & Uh & Pw & Ph & Sz). unfold dims_ok, is_u32, U32, SIZE_MAX in *. repeat split; try lia; nia. Qed.
Lemma tile_crop n a c : n = 1 \/ n = 4 -> image (w * h * n) a -> calls (fun w h p => crop w h n p x0 y0 cw ch) w h a c ->
  exact_image (cw * ch * n) c /\ forall u v k, 0 <= u < cw -> 0 <= v < ch -> 0 <= k < n -> pix c cw n u v k = pix a w n (x0 + u) (y0 + v) k.
Proof.
  intros Hn I C. pose proof D as (Uw & Uh & Pw & Ph & Sz).
  assert (w * h * n <= SIZE_MAX) by (destruct Hn as [-> | ->]; lia). apply crop_calls_inv in C; auto; try (unfold is_u32, U32 in *; lia).
  destruct C as (_ & _ & _ & _ & _ & X & V). auto.
Qed.
Lemma tile_gray_at u v : 0 <= u < cw -> 0 <= v < ch ->
  (forall u v k, 0 <= u < cw -> 0 <= v < ch -> 0 <= k < 4 -> pix t cw 4 u v k = pix b w 4 (x0 + u) (y0 + v) k) ->
  gray_at t cw u v = gray_at b w (x0 + u) (y0 + v).
Proof. intros Hu Hv V. unfold gray_at, pixv. rewrite !V by lia. reflexivity. Qed.

Lemma tile_to_gray : image (w * h * 4) b ->
  calls (fun w h p => crop w h 4 p x0 y0 cw ch) w h b t -> calls rgba_to_grayscale cw ch t t1 ->
  calls rgba_to_grayscale w h b d -> calls (fun w h p => crop w h 1 p x0 y0 cw ch) w h d d1 -> same_bytes (cw * ch) t1 d1.
Proof.
  intros I C1 C2 C3 C4. apply tile_crop in C1; auto. destruct C1 as [X1 V1].
  apply (calls_inv' _ _ _ _ _ _ (fun s p Hwf Hp => rgba_to_grayscale_ok w h s p b Hwf D Hp I)) in C3. destruct C3 as [X3 V3].
  apply (calls_inv' _ _ _ _ _ _ (fun s p Hwf Hp => rgba_to_grayscale_ok cw ch s p t Hwf tile_dims Hp (proj2 X1))) in C2. destruct C2 as [X2 V2].
  apply tile_crop in C4; auto; [|rewrite Z.mul_1_r; apply X3]. destruct C4 as [X4 V4].
  rewrite <- (Z.mul_1_r (cw * ch)). apply same_bytes_px; try lia. intros u v k Hu Hv Hk. assert (k = 0) as -> by lia.
  rewrite V4, V3, V2 by lia. rewrite tile_gray_at by auto. reflexivity.
Qed.

Lemma tile_multichannel : image (w * h) b ->
  calls (fun w h p => crop w h 1 p x0 y0 cw ch) w h b t -> calls single_to_multichannel cw ch t t1 ->
  calls single_to_multichannel w h b d -> calls (fun w h p => crop w h 4 p x0 y0 cw ch) w h d d1 -> same_bytes (cw * ch * 4) t1 d1.
Proof.
  intros I C1 C2 C3 C4. apply tile_crop in C1; auto; [|rewrite Z.mul_1_r; exact I]. destruct C1 as [X1 V1]. rewrite Z.mul_1_r in X1.
  apply (calls_inv' _ _ _ _ _ _ (fun s p Hwf Hp => single_to_multichannel_ok w h s p b Hwf D Hp I)) in C3. destruct C3 as [X3 V3].
  apply (calls_inv' _ _ _ _ _ _ (fun s p Hwf Hp => single_to_multichannel_ok cw ch s p t Hwf tile_dims Hp (proj2 X1))) in C2. destruct C2 as [X2 V2].
  apply tile_crop in C4; auto; [|apply X3]. destruct C4 as [X4 V4].
  apply same_bytes_pix; try lia. intros u v k Hu Hv Hk. rewrite V4 by auto.
  destruct (V2 u v Hu Hv) as (A0 & A1 & A2 & A3). destruct (V3 (x0 + u) (y0 + v) ltac:(lia) ltac:(lia)) as (B0 & B1 & B2 & B3).
  assert (G : pixv t cw 1 u v 0 = pixv b w 1 (x0 + u) (y0 + v) 0) by (unfold pixv; rewrite V1 by lia; reflexivity).
  rewrite G in *. assert (HK : k = 0 \/ k = 1 \/ k = 2 \/ k = 3) by lia. destruct HK as [->|[->|[->| ->]]]; congruence.
Qed.

Lemma tile_binary fg bg : w <= 2147483647 -> h <= 2147483647 -> image (w * h * 4) b ->
  calls (fun w h p => crop w h 4 p x0 y0 cw ch) w h b t -> calls (fun w h p => convert_to_binary p w h (Some fg) (Some bg)) cw ch t t1 ->
  calls (fun w h p => convert_to_binary p w h (Some fg) (Some bg)) w h b d -> calls (fun w h p => crop w h 1 p x0 y0 cw ch) w h d d1 ->
  same_bytes (cw * ch) t1 d1.
Proof.
  intros Hw Hh I C1 C2 C3 C4. apply tile_crop in C1; auto. destruct C1 as [X1 V1]. pose proof D as (_ & _ & Pw & Ph & _).
  destruct (hex_pure fg) as [[r g] bl] eqn:EH.
  assert (Hx : parse_hex_color fg = Ok (r, g, bl)) by (rewrite parse_hex_pure, EH; reflexivity).
  apply (calls_inv' _ _ _ _ _ _ (fun s p Hwf Hp => convert_to_binary_ok w h s p b fg bg r g bl Hwf ltac:(lia) ltac:(lia) Hp I Hx)) in C3. destruct C3 as [X3 V3].
  apply (calls_inv' _ _ _ _ _ _ (fun s p Hwf Hp => convert_to_binary_ok cw ch s p t fg bg r g bl Hwf ltac:(lia) ltac:(lia) Hp (proj2 X1) Hx)) in C2. destruct C2 as [X2 V2].
  apply tile_crop in C4; auto; [|rewrite Z.mul_1_r; apply X3]. destruct C4 as [X4 V4].
  rewrite <- (Z.mul_1_r (cw * ch)). apply same_bytes_px; try lia. intros u v k Hu Hv Hk. assert (k = 0) as -> by lia.
  rewrite V4 by lia. destruct (V2 u v Hu Hv) as [A A']. destruct (V3 (x0 + u) (y0 + v) ltac:(lia) ltac:(lia)) as [B B'].
  rewrite !V1 in A by lia. destruct A' as [A'|A'], B' as [B'|B']; rewrite A', B' in *; auto; exfalso.
  - assert (K : Some 0 = Some 255) by (apply A, B; reflexivity). discriminate.
  - assert (K : Some 0 = Some 255) by (apply B, A; reflexivity). discriminate.
Qed.
End Tile.

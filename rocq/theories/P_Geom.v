(** * Proofs about [M_Geom.v] *)
From Verif Require Import Base BaseLemmas F Heap HeapLemmas Spec M_Geom.

Lemma copy4_ok dst di src si :
  0 <= si -> si + 4 <= blen src -> 0 <= di -> di + 4 <= blen dst ->
  si + 4 <= 18446744073709551616 -> di + 4 <= 18446744073709551616 ->
  (forall k, 0 <= k < 4 -> exists v, bget src (si + k) = Some v) ->
  exists b, copy4 dst di src si = Ok b /\ blen b = blen dst /\
    forall j, bget b j = if (di <=? j) && (j <? di + 4) then bget src (si + (j - di)) else bget dst j.
Proof.
  intros Hs1 Hs2 Hd1 Hd2 B1 B2 Hv.
  destruct (Hv 0) as [v0 E0]; [lia|]. destruct (Hv 1) as [v1 E1]; [lia|].
  destruct (Hv 2) as [v2 E2]; [lia|]. destruct (Hv 3) as [v3 E3]; [lia|].
  rewrite Z.add_0_r in E0.
  unfold copy4. rewrite !u64_small by lia.
  rewrite (load_ok _ _ v0) by (auto; lia); simpl bind.
  rewrite store_ok by lia; simpl bind.
  rewrite (load_ok _ _ v1) by (auto; lia); simpl bind.
  rewrite store_ok by (rewrite ?blen_bset; lia); simpl bind.
  rewrite (load_ok _ _ v2) by (auto; lia); simpl bind.
  rewrite store_ok by (rewrite ?blen_bset; lia); simpl bind.
  rewrite (load_ok _ _ v3) by (auto; lia); simpl bind.
  rewrite store_ok by (rewrite ?blen_bset; lia).
  eexists; split; [reflexivity|]. split; [reflexivity|].
  intros j. rewrite !bget_bset.
  destruct (j =? di + 3) eqn:J3; [|destruct (j =? di + 2) eqn:J2; [|destruct (j =? di + 1) eqn:J1;
    [|destruct (j =? di) eqn:J0]]].
  - replace ((di <=? j) && (j <? di + 4)) with true by lia.
    replace (si + (j - di)) with (si + 3) by lia. auto.
  - replace ((di <=? j) && (j <? di + 4)) with true by lia.
    replace (si + (j - di)) with (si + 2) by lia. auto.
  - replace ((di <=? j) && (j <? di + 4)) with true by lia.
    replace (si + (j - di)) with (si + 1) by lia. auto.
  - replace ((di <=? j) && (j <? di + 4)) with true by lia.
    replace (si + (j - di)) with si by lia. auto.
  - replace ((di <=? j) && (j <? di + 4)) with false by lia. auto.
Qed.

Lemma idx4_ok y w x N :
  0 <= y * w -> 0 <= x -> (y * w + x) * 4 + 4 <= N -> N <= SIZE_MAX ->
  idx4 y w x = (y * w + x) * 4.
Proof.
  unfold SIZE_MAX; intros. unfold idx4.
  rewrite (u64_small (y * w)) by lia. rewrite (u64_small (y * w + x)) by lia. apply u64_small; lia.
Qed.

(** An in-image pixel permutation, generic over the target geometry. *)
Lemma orient_loop_ok w h ow oh dsti tx ty src dst0 :
  0 < w -> 0 < h -> 0 < ow -> 0 < oh -> ow * oh = w * h -> w * h * 4 <= SIZE_MAX ->
  image (w * h * 4) src -> blen dst0 = w * h * 4 ->
  (forall x y, 0 <= x < w -> 0 <= y < h ->
     dsti x y = (ty x y * ow + tx x y) * 4 /\ 0 <= tx x y < ow /\ 0 <= ty x y < oh) ->
  (forall x y x' y', 0 <= x < w -> 0 <= y < h -> 0 <= x' < w -> 0 <= y' < h ->
     tx x y = tx x' y' -> ty x y = ty x' y' -> x = x' /\ y = y') ->
  exists b, orient_loop w h dsti src dst0 = Ok b /\ blen b = w * h * 4 /\
    forall x y c, 0 <= x < w -> 0 <= y < h -> 0 <= c < 4 ->
      pix b ow 4 (tx x y) (ty x y) c = pix src w 4 x y c.
Proof.
  intros Hw Hh How Hoh Hsz HS [Him1 Him2] HL Hdst Hinj.
  unfold orient_loop, SIZE_MAX in *.
  destruct (loop2d_writes (w * h * 4) 4 w h dsti (fun x y c => pix src w 4 x y c)
     (fun x y b => copy4 b (dsti x y) src (idx4 y w x)) dst0) as [b [E [Hl [Hv _]]]]; try lia.
  - intros x y Hx Hy b Hb. destruct (Hdst x y Hx Hy) as [D [Dx Dy]].
    pose proof (rm_bound w h x y Hx Hy). pose proof (rm_bound ow oh _ _ Dx Dy).
    rewrite (idx4_ok y w x (w * h * 4)) by (unfold SIZE_MAX; nia).
    destruct (copy4_ok b (dsti x y) src ((y * w + x) * 4)) as [b' [E' [L' G']]]; try lia.
    + intros k Hk. destruct (Him2 ((y * w + x) * 4 + k)) as [v [Ev _]]; [lia|]. eauto.
    + exists b'; split; auto. split; [lia|]. intros j; rewrite G'. reflexivity.
  - intros x y x' y' Hx Hy Hx' Hy' Hd.
    destruct (Hdst x y Hx Hy) as [D [Dx Dy]]. destruct (Hdst x' y' Hx' Hy') as [D' [Dx' Dy']].
    destruct (rm_lt ow (tx x y) (ty x y) (tx x' y') (ty x' y')) as [R|R]; auto; try lia.
    destruct (Z.eq_dec (tx x y) (tx x' y')); destruct (Z.eq_dec (ty x y) (ty x' y')); try lia.
    destruct (Hinj x y x' y'); auto; lia.
  - exists b; split; [exact E|]. split; [lia|].
    intros x y c Hx Hy Hc. unfold pix. destruct (Hdst x y Hx Hy) as [D _].
    rewrite <- D. apply Hv; auto.
Qed.

Lemma orient_shell_null w h data loop s :
  wf s -> is_u32 w -> is_u32 h ->
  data = Null \/ w = 0 \/ h = 0 \/ w * h * 4 > SIZE_MAX ->
  returns_null s (orient_shell w h data loop s).
Proof.
  unfold is_u32, SIZE_MAX; intros Hwf Hw Hh Hbad.
  assert (R : returns_null s (ret Null s)).
  { exists s; split; [reflexivity|]. split; [apply later_refl; auto|apply same_mem_refl]. }
  unfold orient_shell.
  destruct (is_null data || (w =? 0) || (h =? 0)) eqn:E; [exact R|].
  destruct (SIZE_MAX / h <? w) eqn:E2; [exact R|].
  assert (data <> Null) by (destruct data; [discriminate|congruence]).
  assert (w * h * 4 > 18446744073709551615) by (destruct Hbad as [|[|[|]]]; try lia; congruence).
  assert (0 <= w * h < 18446744073709551616) by nia.
  rewrite u64_small by lia.
  replace (SIZE_MAX / 4 <? w * h) with true; [exact R|].
  change (SIZE_MAX / 4) with 4611686018427387903. lia.
Qed.

Lemma orient_shell_ok w h d loop s b b' (P : buf Z -> Prop) :
  wf s -> is_u32 w -> is_u32 h -> 0 < w -> 0 < h -> w * h * 4 <= SIZE_MAX ->
  mem s d = Some (OBytes b) ->
  loop b (bnew (w * h * 4)) = Ok b' -> P b' ->
  returns_fresh s (orient_shell w h (Ptr d) loop s) P.
Proof.
  unfold is_u32, SIZE_MAX; intros Hwf Hw Hh Hw0 Hh0 HS Hd Hl HP.
  unfold orient_shell. simpl is_null.
  replace (w =? 0) with false by lia. replace (h =? 0) with false by lia. simpl orb. cbv iota.
  assert (SIZE_MAX / h <? w = false) as ->.
  { unfold SIZE_MAX. apply Z.ltb_ge. apply Z.div_le_lower_bound; nia. }
  assert (u64 (w * h) = w * h) as -> by (apply u64_small; nia).
  replace (SIZE_MAX / 4 <? w * h) with false by (change (SIZE_MAX / 4) with 4611686018427387903; lia).
  rewrite u64_small by lia.
  eapply returns_fresh_1; eauto.
Qed.

(** From pixel equations to the full output contract. *)
Lemma exact_from_pix b src w h ow oh fx fy :
  0 < w -> 0 < h -> 0 < ow -> 0 < oh -> ow * oh = w * h ->
  image (w * h * 4) src -> blen b = w * h * 4 ->
  (forall x y, 0 <= x < ow -> 0 <= y < oh -> 0 <= fx x y < w /\ 0 <= fy x y < h) ->
  (forall x y c, 0 <= x < ow -> 0 <= y < oh -> 0 <= c < 4 ->
     pix b ow 4 x y c = pix src w 4 (fx x y) (fy x y) c) ->
  exact_image (ow * oh * 4) b.
Proof.
  intros Hw Hh How Hoh Hsz [I1 I2] HL Hr Hp.
  split; [lia|]. split; [lia|]. intros i Hi.
  destruct (px_decomp ow oh 4 i) as (x & y & c & Hx & Hy & Hc & ->); auto; try lia.
  specialize (Hp x y c Hx Hy Hc). unfold pix in Hp. rewrite Hp.
  destruct (Hr x y Hx Hy) as [Fx Fy]. apply I2.
  pose proof (rm_bound w h _ _ Fx Fy). lia.
Qed.

(** Master lemma: each orientation function is an instance. *)
Lemma orient_correct w h ow oh dsti tx ty fx fy d s b :
  wf s -> is_u32 w -> is_u32 h -> 0 < w -> 0 < h -> w * h * 4 <= SIZE_MAX ->
  0 < ow -> 0 < oh -> ow * oh = w * h ->
  mem s d = Some (OBytes b) -> image (w * h * 4) b ->
  (forall x y, 0 <= x < w -> 0 <= y < h ->
     dsti x y = (ty x y * ow + tx x y) * 4 /\ 0 <= tx x y < ow /\ 0 <= ty x y < oh /\
     fx (tx x y) (ty x y) = x /\ fy (tx x y) (ty x y) = y) ->
  (forall x y, 0 <= x < ow -> 0 <= y < oh -> 0 <= fx x y < w /\ 0 <= fy x y < h /\
     tx (fx x y) (fy x y) = x /\ ty (fx x y) (fy x y) = y) ->
  returns_fresh s (orient_shell w h (Ptr d) (orient_loop w h dsti) s)
    (fun b' => exact_image (ow * oh * 4) b' /\
       forall x y c, 0 <= x < ow -> 0 <= y < oh -> 0 <= c < 4 ->
         pix b' ow 4 x y c = pix b w 4 (fx x y) (fy x y) c).
Proof.
  intros Hwf Hw Hh Hw0 Hh0 HS How Hoh Hsz Hd Him HF HB.
  destruct (orient_loop_ok w h ow oh dsti tx ty b (bnew (w * h * 4))) as [b' [E [L Hp]]]; auto.
  - intros x y Hx Hy. destruct (HF x y Hx Hy) as (A & B & C & _); auto.
  - intros x y x' y' Hx Hy Hx' Hy' Ex Ey.
    destruct (HF x y Hx Hy) as (_ & _ & _ & A & B). destruct (HF x' y' Hx' Hy') as (_ & _ & _ & A' & B').
    rewrite Ex, Ey in A, B. split; congruence.
  - assert (Hp' : forall x y c, 0 <= x < ow -> 0 <= y < oh -> 0 <= c < 4 ->
         pix b' ow 4 x y c = pix b w 4 (fx x y) (fy x y) c).
    { intros x y c Hx Hy Hc. destruct (HB x y Hx Hy) as (A & B & C & D).
      specialize (Hp (fx x y) (fy x y) c A B Hc). now rewrite C, D in Hp. }
    eapply orient_shell_ok; eauto. split; [|exact Hp'].
    apply (exact_from_pix b' b w h ow oh fx fy); auto.
    intros x y Hx Hy. destruct (HB x y Hx Hy) as (A & B & _); auto.
Qed.

(** Pixel relation of one orientation call, as used in the theorems. *)
Definition oriented (ow oh : Z) (b b' : buf Z) (w : Z) (f : Z -> Z -> Z * Z) : Prop :=
  exact_image (ow * oh * 4) b' /\
  forall x y c, 0 <= x < ow -> 0 <= y < oh -> 0 <= c < 4 ->
    pix b' ow 4 x y c = pix b w 4 (fst (f x y)) (snd (f x y)) c.

Ltac orient_tac w h tx ty fx fy ow oh :=
  intros Hwf Hw Hh Hw0 Hh0 HS [d [-> Hd]] Him;
  assert (HS' := HS); unfold SIZE_MAX in HS';
  pose proof Hw as Hw'; pose proof Hh as Hh'; unfold is_u32 in Hw', Hh';
  apply (orient_correct w h ow oh _ tx ty fx fy d);
  [ exact Hwf | exact Hw | exact Hh | lia | lia | exact HS | lia | lia | ring | exact Hd | exact Him
  | intros x y Hx Hy; cbv beta; rewrite ?u32_small by lia;
    match goal with |- idx4 ?a ?b ?c = _ /\ _ =>
      rewrite (idx4_ok a b c (ow * oh * 4)) by (unfold SIZE_MAX; nia) end;
    repeat split; try lia; try nia
  | intros x y Hx Hy; repeat split; lia ].

Section Orient.
Variables (w h : Z) (s : st) (p : ptr) (b : buf Z).

Lemma flip_x_ok : wf s -> is_u32 w -> is_u32 h -> 0 < w -> 0 < h -> w * h * 4 <= SIZE_MAX ->
  holds s p b -> image (w * h * 4) b ->
  returns_fresh s (flip_x w h p s) (fun b' => exact_image (w * h * 4) b' /\
    forall x y c, 0 <= x < w -> 0 <= y < h -> 0 <= c < 4 ->
      pix b' w 4 x y c = pix b w 4 (w - 1 - x) y c).
Proof.
  orient_tac w h (fun x y : Z => w - 1 - x) (fun x y : Z => y) (fun x y : Z => w - 1 - x) (fun x y : Z => y) w h.
Qed.

Lemma flip_y_ok : wf s -> is_u32 w -> is_u32 h -> 0 < w -> 0 < h -> w * h * 4 <= SIZE_MAX ->
  holds s p b -> image (w * h * 4) b ->
  returns_fresh s (flip_y w h p s) (fun b' => exact_image (w * h * 4) b' /\
    forall x y c, 0 <= x < w -> 0 <= y < h -> 0 <= c < 4 ->
      pix b' w 4 x y c = pix b w 4 x (h - 1 - y) c).
Proof.
  orient_tac w h (fun x y : Z => x) (fun x y : Z => h - 1 - y) (fun x y : Z => x) (fun x y : Z => h - 1 - y) w h.
Qed.

Lemma transpose_ok : wf s -> is_u32 w -> is_u32 h -> 0 < w -> 0 < h -> w * h * 4 <= SIZE_MAX ->
  holds s p b -> image (w * h * 4) b ->
  returns_fresh s (transpose w h p s) (fun b' => exact_image (h * w * 4) b' /\
    forall x y c, 0 <= x < h -> 0 <= y < w -> 0 <= c < 4 ->
      pix b' h 4 x y c = pix b w 4 y x c).
Proof.
  orient_tac w h (fun x y : Z => y) (fun x y : Z => x) (fun x y : Z => y) (fun x y : Z => x) h w.
Qed.

Lemma transverse_ok : wf s -> is_u32 w -> is_u32 h -> 0 < w -> 0 < h -> w * h * 4 <= SIZE_MAX ->
  holds s p b -> image (w * h * 4) b ->
  returns_fresh s (transverse w h p s) (fun b' => exact_image (h * w * 4) b' /\
    forall x y c, 0 <= x < h -> 0 <= y < w -> 0 <= c < 4 ->
      pix b' h 4 x y c = pix b w 4 (w - 1 - y) (h - 1 - x) c).
Proof.
  orient_tac w h (fun x y : Z => h - 1 - y) (fun x y : Z => w - 1 - x)
    (fun x y : Z => w - 1 - y) (fun x y : Z => h - 1 - x) h w.
Qed.

Lemma rotate_90_ok : wf s -> is_u32 w -> is_u32 h -> 0 < w -> 0 < h -> w * h * 4 <= SIZE_MAX ->
  holds s p b -> image (w * h * 4) b ->
  returns_fresh s (rotate_90_cw w h p s) (fun b' => exact_image (h * w * 4) b' /\
    forall x y c, 0 <= x < h -> 0 <= y < w -> 0 <= c < 4 ->
      pix b' h 4 x y c = pix b w 4 y (h - 1 - x) c).
Proof.
  orient_tac w h (fun x y : Z => h - 1 - y) (fun x y : Z => x)
    (fun x y : Z => y) (fun x y : Z => h - 1 - x) h w.
Qed.

Lemma rotate_180_ok : wf s -> is_u32 w -> is_u32 h -> 0 < w -> 0 < h -> w * h * 4 <= SIZE_MAX ->
  holds s p b -> image (w * h * 4) b ->
  returns_fresh s (rotate_180 w h p s) (fun b' => exact_image (w * h * 4) b' /\
    forall x y c, 0 <= x < w -> 0 <= y < h -> 0 <= c < 4 ->
      pix b' w 4 x y c = pix b w 4 (w - 1 - x) (h - 1 - y) c).
Proof.
  orient_tac w h (fun x y : Z => w - 1 - x) (fun x y : Z => h - 1 - y)
    (fun x y : Z => w - 1 - x) (fun x y : Z => h - 1 - y) w h.
Qed.

Lemma rotate_270_ok : wf s -> is_u32 w -> is_u32 h -> 0 < w -> 0 < h -> w * h * 4 <= SIZE_MAX ->
  holds s p b -> image (w * h * 4) b ->
  returns_fresh s (rotate_270_cw w h p s) (fun b' => exact_image (h * w * 4) b' /\
    forall x y c, 0 <= x < h -> 0 <= y < w -> 0 <= c < 4 ->
      pix b' h 4 x y c = pix b w 4 (w - 1 - y) x c).
Proof.
  orient_tac w h (fun x y : Z => y) (fun x y : Z => w - 1 - x)
    (fun x y : Z => w - 1 - y) (fun x y : Z => x) h w.
Qed.
End Orient.

(** ** Composition laws *)

Lemma returns_fresh_inv s run P q s' :
  returns_fresh s run P -> run = Ok (Ptr q, s') ->
  exists b, mem s' q = Some (OBytes b) /\ P b.
Proof.
  intros (p & s1 & E & _ & H) E'. rewrite E in E'. inversion E'; subst.
  destruct H as [_ [[b [Hb HP]] _]]. eauto.
Qed.

Lemma calls_inv f w h b b' (P : buf Z -> Prop) :
  (forall s p, wf s -> holds s p b -> returns_fresh s (f w h p s) P) ->
  calls f w h b b' -> P b'.
Proof.
  intros H (s & p & q & s' & Hwf & Hp & E & (i & Ei & Hq)).
  inversion Ei; subst.
  destruct (returns_fresh_inv _ _ _ _ _ (H s p Hwf Hp) E) as [b1 [Hb1 HP]].
  congruence.
Qed.

Lemma same_bytes_pix w h b b' : 0 < w -> 0 < h ->
  (forall x y c, 0 <= x < w -> 0 <= y < h -> 0 <= c < 4 -> pix b' w 4 x y c = pix b w 4 x y c) ->
  same_bytes (w * h * 4) b b'.
Proof.
  intros Hw Hh H i Hi.
  destruct (px_decomp w h 4 i) as (x & y & c & Hx & Hy & Hc & ->); auto; try lia.
  apply (H x y c Hx Hy Hc).
Qed.

Section Calls.
Variables (w h : Z) (b b' : buf Z).
Hypothesis (D : dims_ok w h) (I : image (w * h * 4) b).

Ltac by_ok lem := destruct D as (D1 & D2 & D3 & D4 & D5);
  intros Hc; pattern b'; refine (calls_inv _ _ _ _ _ _ _ Hc); intros; now apply lem.

Lemma flip_x_calls : calls flip_x w h b b' -> exact_image (w * h * 4) b' /\
    forall x y c, 0 <= x < w -> 0 <= y < h -> 0 <= c < 4 ->
      pix b' w 4 x y c = pix b w 4 (w - 1 - x) y c.
Proof. by_ok flip_x_ok. Qed.
Lemma flip_y_calls : calls flip_y w h b b' -> exact_image (w * h * 4) b' /\
    forall x y c, 0 <= x < w -> 0 <= y < h -> 0 <= c < 4 ->
      pix b' w 4 x y c = pix b w 4 x (h - 1 - y) c.
Proof. by_ok flip_y_ok. Qed.
Lemma transpose_calls : calls transpose w h b b' -> exact_image (h * w * 4) b' /\
    forall x y c, 0 <= x < h -> 0 <= y < w -> 0 <= c < 4 ->
      pix b' h 4 x y c = pix b w 4 y x c.
Proof. by_ok transpose_ok. Qed.
Lemma transverse_calls : calls transverse w h b b' -> exact_image (h * w * 4) b' /\
    forall x y c, 0 <= x < h -> 0 <= y < w -> 0 <= c < 4 ->
      pix b' h 4 x y c = pix b w 4 (w - 1 - y) (h - 1 - x) c.
Proof. by_ok transverse_ok. Qed.
Lemma rotate_90_calls : calls rotate_90_cw w h b b' -> exact_image (h * w * 4) b' /\
    forall x y c, 0 <= x < h -> 0 <= y < w -> 0 <= c < 4 ->
      pix b' h 4 x y c = pix b w 4 y (h - 1 - x) c.
Proof. by_ok rotate_90_ok. Qed.
Lemma rotate_180_calls : calls rotate_180 w h b b' -> exact_image (w * h * 4) b' /\
    forall x y c, 0 <= x < w -> 0 <= y < h -> 0 <= c < 4 ->
      pix b' w 4 x y c = pix b w 4 (w - 1 - x) (h - 1 - y) c.
Proof. by_ok rotate_180_ok. Qed.
Lemma rotate_270_calls : calls rotate_270_cw w h b b' -> exact_image (h * w * 4) b' /\
    forall x y c, 0 <= x < h -> 0 <= y < w -> 0 <= c < 4 ->
      pix b' h 4 x y c = pix b w 4 (w - 1 - y) x c.
Proof. by_ok rotate_270_ok. Qed.
End Calls.

Lemma dims_swap w h : dims_ok w h -> dims_ok h w.
Proof. unfold dims_ok, is_u32; intros (?&?&?&?&?); repeat split; lia. Qed.

Lemma exact_is_image n b : exact_image n b -> image n b.
Proof. now intros [_ ?]. Qed.

Ltac step_call C :=
  let T := type of C in
  lazymatch T with
  | calls flip_x _ _ _ _ => apply flip_x_calls in C
  | calls flip_y _ _ _ _ => apply flip_y_calls in C
  | calls transpose _ _ _ _ => apply transpose_calls in C
  | calls transverse _ _ _ _ => apply transverse_calls in C
  | calls rotate_90_cw _ _ _ _ => apply rotate_90_calls in C
  | calls rotate_180 _ _ _ _ => apply rotate_180_calls in C
  | calls rotate_270_cw _ _ _ _ => apply rotate_270_calls in C
  end; [ destruct C as [? C] | first [assumption | apply dims_swap; assumption]
     | first [assumption | apply exact_is_image; assumption] ].

Ltac law D D3 D4 :=
  pose proof D as (_ & _ & D3 & D4 & _);
  apply same_bytes_pix; [assumption|assumption|];
  intros x y c Hx Hy Hc.

Lemma flip_x_twice w h b b1 b2 : dims_ok w h -> image (w * h * 4) b ->
  calls flip_x w h b b1 -> calls flip_x w h b1 b2 -> same_bytes (w * h * 4) b b2.
Proof.
  intros D I C1 C2. step_call C1. step_call C2. law D D3 D4.
  rewrite C2, C1 by lia. f_equal; lia.
Qed.
Lemma flip_y_twice w h b b1 b2 : dims_ok w h -> image (w * h * 4) b ->
  calls flip_y w h b b1 -> calls flip_y w h b1 b2 -> same_bytes (w * h * 4) b b2.
Proof.
  intros D I C1 C2. step_call C1. step_call C2. law D D3 D4.
  rewrite C2, C1 by lia. f_equal; lia.
Qed.
Lemma rotate_180_twice w h b b1 b2 : dims_ok w h -> image (w * h * 4) b ->
  calls rotate_180 w h b b1 -> calls rotate_180 w h b1 b2 -> same_bytes (w * h * 4) b b2.
Proof.
  intros D I C1 C2. step_call C1. step_call C2. law D D3 D4.
  rewrite C2, C1 by lia. f_equal; lia.
Qed.
Lemma transpose_twice w h b b1 b2 : dims_ok w h -> image (w * h * 4) b ->
  calls transpose w h b b1 -> calls transpose h w b1 b2 -> same_bytes (w * h * 4) b b2.
Proof.
  intros D I C1 C2. step_call C1. step_call C2. law D D3 D4.
  rewrite C2, C1 by lia. f_equal; lia.
Qed.
Lemma transverse_twice w h b b1 b2 : dims_ok w h -> image (w * h * 4) b ->
  calls transverse w h b b1 -> calls transverse h w b1 b2 -> same_bytes (w * h * 4) b b2.
Proof.
  intros D I C1 C2. step_call C1. step_call C2. law D D3 D4.
  rewrite C2, C1 by lia. f_equal; lia.
Qed.
Lemma rotate_90_then_270 w h b b1 b2 : dims_ok w h -> image (w * h * 4) b ->
  calls rotate_90_cw w h b b1 -> calls rotate_270_cw h w b1 b2 -> same_bytes (w * h * 4) b b2.
Proof.
  intros D I C1 C2. step_call C1. step_call C2. law D D3 D4.
  rewrite C2, C1 by lia. f_equal; lia.
Qed.
Lemma rotate_90_four w h b b1 b2 b3 b4 : dims_ok w h -> image (w * h * 4) b ->
  calls rotate_90_cw w h b b1 -> calls rotate_90_cw h w b1 b2 ->
  calls rotate_90_cw w h b2 b3 -> calls rotate_90_cw h w b3 b4 -> same_bytes (w * h * 4) b b4.
Proof.
  intros D I C1 C2 C3 C4. step_call C1. step_call C2. step_call C3. step_call C4. law D D3 D4.
  rewrite C4, C3, C2, C1 by lia. f_equal; lia.
Qed.
Lemma rotate_90_twice w h b b1 b2 b3 : dims_ok w h -> image (w * h * 4) b ->
  calls rotate_90_cw w h b b1 -> calls rotate_90_cw h w b1 b2 ->
  calls rotate_180 w h b b3 -> same_bytes (w * h * 4) b2 b3.
Proof.
  intros D I C1 C2 C3. step_call C1. step_call C2. step_call C3. law D D3 D4.
  rewrite C3, C2, C1 by lia. f_equal; lia.
Qed.
Lemma flip_x_flip_y w h b b1 b2 b3 : dims_ok w h -> image (w * h * 4) b ->
  calls flip_x w h b b1 -> calls flip_y w h b1 b2 ->
  calls rotate_180 w h b b3 -> same_bytes (w * h * 4) b2 b3.
Proof.
  intros D I C1 C2 C3. step_call C1. step_call C2. step_call C3. law D D3 D4.
  rewrite C3, C2, C1 by lia. f_equal; lia.
Qed.
Lemma transpose_flip_x w h b b1 b2 b3 : dims_ok w h -> image (w * h * 4) b ->
  calls transpose w h b b1 -> calls flip_x h w b1 b2 ->
  calls rotate_90_cw w h b b3 -> same_bytes (h * w * 4) b2 b3.
Proof.
  intros D I C1 C2 C3. pose proof (dims_swap _ _ D) as D'.
  step_call C1. step_call C2. step_call C3. law D' D3 D4.
  rewrite C3, C2, C1 by lia. f_equal; lia.
Qed.
Lemma transpose_flip_y w h b b1 b2 b3 : dims_ok w h -> image (w * h * 4) b ->
  calls transpose w h b b1 -> calls flip_y h w b1 b2 ->
  calls rotate_270_cw w h b b3 -> same_bytes (h * w * 4) b2 b3.
Proof.
  intros D I C1 C2 C3. pose proof (dims_swap _ _ D) as D'.
  step_call C1. step_call C2. step_call C3. law D' D3 D4.
  rewrite C3, C2, C1 by lia. f_equal; lia.
Qed.
Lemma transpose_rotate_180 w h b b1 b2 b3 : dims_ok w h -> image (w * h * 4) b ->
  calls transpose w h b b1 -> calls rotate_180 h w b1 b2 ->
  calls transverse w h b b3 -> same_bytes (h * w * 4) b2 b3.
Proof.
  intros D I C1 C2 C3. pose proof (dims_swap _ _ D) as D'.
  step_call C1. step_call C2. step_call C3. law D' D3 D4.
  rewrite C3, C2, C1 by lia. f_equal; lia.
Qed.


Lemma flip_x_main : forall w h s p b,
  wf s -> dims_ok w h -> holds s p b -> image (w * h * 4) b ->
  returns_fresh s (flip_x w h p s) (fun b' =>
    exact_image (w * h * 4) b' /\
    forall x y c, 0 <= x < w -> 0 <= y < h -> 0 <= c < 4 ->
      pix b' w 4 x y c = pix b w 4 (w - 1 - x) y c).
Proof. intros w h s p b Hwf (D1 & D2 & D3 & D4 & D5) Hp Hi. now apply flip_x_ok. Qed.
Lemma flip_x_rejects : forall w h s p,
  wf s -> is_u32 w -> is_u32 h ->
  p = Null \/ w = 0 \/ h = 0 \/ w * h * 4 > SIZE_MAX ->
  returns_null s (flip_x w h p s).
Proof. intros. now apply orient_shell_null. Qed.

Lemma flip_y_main : forall w h s p b,
  wf s -> dims_ok w h -> holds s p b -> image (w * h * 4) b ->
  returns_fresh s (flip_y w h p s) (fun b' =>
    exact_image (w * h * 4) b' /\
    forall x y c, 0 <= x < w -> 0 <= y < h -> 0 <= c < 4 ->
      pix b' w 4 x y c = pix b w 4 x (h - 1 - y) c).
Proof. intros w h s p b Hwf (D1 & D2 & D3 & D4 & D5) Hp Hi. now apply flip_y_ok. Qed.
Lemma flip_y_rejects : forall w h s p,
  wf s -> is_u32 w -> is_u32 h ->
  p = Null \/ w = 0 \/ h = 0 \/ w * h * 4 > SIZE_MAX ->
  returns_null s (flip_y w h p s).
Proof. intros. now apply orient_shell_null. Qed.

Lemma transpose_main : forall w h s p b,
  wf s -> dims_ok w h -> holds s p b -> image (w * h * 4) b ->
  returns_fresh s (transpose w h p s) (fun b' =>
    exact_image (h * w * 4) b' /\
    forall x y c, 0 <= x < h -> 0 <= y < w -> 0 <= c < 4 ->
      pix b' h 4 x y c = pix b w 4 y x c).
Proof. intros w h s p b Hwf (D1 & D2 & D3 & D4 & D5) Hp Hi. now apply transpose_ok. Qed.
Lemma transpose_rejects : forall w h s p,
  wf s -> is_u32 w -> is_u32 h ->
  p = Null \/ w = 0 \/ h = 0 \/ w * h * 4 > SIZE_MAX ->
  returns_null s (transpose w h p s).
Proof. intros. now apply orient_shell_null. Qed.

Lemma transverse_main : forall w h s p b,
  wf s -> dims_ok w h -> holds s p b -> image (w * h * 4) b ->
  returns_fresh s (transverse w h p s) (fun b' =>
    exact_image (h * w * 4) b' /\
    forall x y c, 0 <= x < h -> 0 <= y < w -> 0 <= c < 4 ->
      pix b' h 4 x y c = pix b w 4 (w - 1 - y) (h - 1 - x) c).
Proof. intros w h s p b Hwf (D1 & D2 & D3 & D4 & D5) Hp Hi. now apply transverse_ok. Qed.
Lemma transverse_rejects : forall w h s p,
  wf s -> is_u32 w -> is_u32 h ->
  p = Null \/ w = 0 \/ h = 0 \/ w * h * 4 > SIZE_MAX ->
  returns_null s (transverse w h p s).
Proof. intros. now apply orient_shell_null. Qed.

Lemma rotate_90_main : forall w h s p b,
  wf s -> dims_ok w h -> holds s p b -> image (w * h * 4) b ->
  returns_fresh s (rotate_90_cw w h p s) (fun b' =>
    exact_image (h * w * 4) b' /\
    forall x y c, 0 <= x < h -> 0 <= y < w -> 0 <= c < 4 ->
      pix b' h 4 x y c = pix b w 4 y (h - 1 - x) c).
Proof. intros w h s p b Hwf (D1 & D2 & D3 & D4 & D5) Hp Hi. now apply rotate_90_ok. Qed.
Lemma rotate_90_rejects : forall w h s p,
  wf s -> is_u32 w -> is_u32 h ->
  p = Null \/ w = 0 \/ h = 0 \/ w * h * 4 > SIZE_MAX ->
  returns_null s (rotate_90_cw w h p s).
Proof. intros. now apply orient_shell_null. Qed.

Lemma rotate_180_main : forall w h s p b,
  wf s -> dims_ok w h -> holds s p b -> image (w * h * 4) b ->
  returns_fresh s (rotate_180 w h p s) (fun b' =>
    exact_image (w * h * 4) b' /\
    forall x y c, 0 <= x < w -> 0 <= y < h -> 0 <= c < 4 ->
      pix b' w 4 x y c = pix b w 4 (w - 1 - x) (h - 1 - y) c).
Proof. intros w h s p b Hwf (D1 & D2 & D3 & D4 & D5) Hp Hi. now apply rotate_180_ok. Qed.
Lemma rotate_180_rejects : forall w h s p,
  wf s -> is_u32 w -> is_u32 h ->
  p = Null \/ w = 0 \/ h = 0 \/ w * h * 4 > SIZE_MAX ->
  returns_null s (rotate_180 w h p s).
Proof. intros. now apply orient_shell_null. Qed.

Lemma rotate_270_main : forall w h s p b,
  wf s -> dims_ok w h -> holds s p b -> image (w * h * 4) b ->
  returns_fresh s (rotate_270_cw w h p s) (fun b' =>
    exact_image (h * w * 4) b' /\
    forall x y c, 0 <= x < h -> 0 <= y < w -> 0 <= c < 4 ->
      pix b' h 4 x y c = pix b w 4 (w - 1 - y) x c).
Proof. intros w h s p b Hwf (D1 & D2 & D3 & D4 & D5) Hp Hi. now apply rotate_270_ok. Qed.
Lemma rotate_270_rejects : forall w h s p,
  wf s -> is_u32 w -> is_u32 h ->
  p = Null \/ w = 0 \/ h = 0 \/ w * h * 4 > SIZE_MAX ->
  returns_null s (rotate_270_cw w h p s).
Proof. intros. now apply orient_shell_null. Qed.

(** * P_Watershed: proofs about the watershed model *)
From Verif Require Import Base BaseLemmas CountLemmas F Heap HeapLemmas Spec Spec_Morph Spec_Draw Spec_Watershed M_Watershed P_Cli.

Lemma s32_pos x : 0 <= x <= 2147483647 -> s32 x = x.
Proof. intros; apply s32_small; unfold INT_MIN, INT_MAX; lia. Qed.

(** ** The queue as a list *)
Section Queue.
Variable N : Z.
Hypothesis HN : 0 < N <= 2147483647.

Definition item := (Z * Z * Z)%type.
Definition qrep (q : queue) (l : list item) : Prop :=
  qcap q = N /\ blen (qitems q) = N /\ qsize q = Z.of_nat (length l) /\ Z.of_nat (length l) <= N /\
  0 <= qfront q < N /\ -1 <= qrear q < N /\
  (qrear q + 1) mod N = (qfront q + qsize q) mod N /\
  forall k, 0 <= k < Z.of_nat (length l) -> bget (qitems q) ((qfront q + k) mod N) = nth_error l (Z.to_nat k).

Lemma qrep_new : qrep (new_queue N) [].
Proof.
  unfold qrep, new_queue; cbn [qcap qitems qfront qrear qsize length]. rewrite s32_pos by lia.
  split; [reflexivity|]. split; [reflexivity|]. split; [reflexivity|]. do 3 (split; [lia|]).
  split; [reflexivity|]. intros; simpl in *; lia.
Qed.

Lemma mod_differ a b : 0 <= a < N -> 0 <= b < N -> forall f, (f + a) mod N = (f + b) mod N -> a = b.
Proof.
  intros Ha Hb f E.
  assert (D : (a - b) mod N = 0).
  { replace (a - b) with ((f + a) - (f + b)) by lia. rewrite Zminus_mod, E, Z.sub_diag. reflexivity. }
  apply Z.mod_divide in D; [|lia]. destruct D as [k D].
  assert (k = 0) by nia. lia.
Qed.

Lemma enqueue_ok q l x y v : qrep q l -> Z.of_nat (length l) < N ->
  exists q', enqueue q x y v = Ok q' /\ qrep q' (l ++ [(x, y, v)]).
Proof.
  intros (Ec & Eb & Es & Hl & Hf & Hr & Em & Hg) Hlt.
  unfold enqueue. rewrite Ec, Es. replace (N <=? Z.of_nat (length l)) with false by lia.
  rewrite ck32_ok by (unfold INT_MIN, INT_MAX; lia). cbn [bind].
  replace (N =? 0) with false by lia.
  rewrite Z.rem_mod_nonneg by lia.
  pose proof (Z.mod_pos_bound (qrear q + 1) N ltac:(lia)) as Hm.
  rewrite store_ok by lia. cbn [bind]. rewrite ck32_ok by (unfold INT_MIN, INT_MAX; lia). cbn [bind].
  eexists. split; [reflexivity|]. unfold qrep. cbn [qcap qitems qfront qrear qsize].
  rewrite app_length. cbn [length].
  split; [auto|]. split; [rewrite blen_bset; auto|]. split; [lia|]. split; [lia|]. split; [lia|]. split; [lia|].
  split.
  { rewrite Z.add_mod_idemp_l by lia. rewrite <- (Z.add_mod_idemp_l (qrear q + 1)) by lia. rewrite Em, Es.
    rewrite Z.add_mod_idemp_l by lia. f_equal. lia. }
  intros k Hk. rewrite bget_bset. rewrite Em, Es.
  destruct (Z.eq_dec k (Z.of_nat (length l))) as [->|Hne].
  - replace (_ =? _) with true by (symmetry; apply Z.eqb_refl).
    rewrite nth_error_app2 by lia. replace (Z.to_nat (Z.of_nat (length l)) - length l)%nat with 0%nat by lia. reflexivity.
  - replace (_ =? _) with false.
    + rewrite nth_error_app1 by lia. apply Hg. lia.
    + symmetry. apply Z.eqb_neq. intros C. apply mod_differ in C; lia.
Qed.

Lemma enqueue_full q l x y v : qrep q l -> Z.of_nat (length l) = N -> enqueue q x y v = Ok q.
Proof.
  intros (Ec & Eb & Es & Hl & Hf & Hr & Em & Hg) Hlt. unfold enqueue. rewrite Ec, Es.
  replace (N <=? Z.of_nat (length l)) with true by lia. reflexivity.
Qed.

Lemma dequeue_ok q it l : qrep q (it :: l) ->
  (qsize q =? 0) = false /\ exists q', dequeue q = Ok (it, q') /\ qrep q' l.
Proof.
  intros (Ec & Eb & Es & Hl & Hf & Hr & Em & Hg). cbn [length] in *.
  assert (Hs : (qsize q =? 0) = false) by lia. split; auto.
  unfold dequeue. rewrite Hs.
  assert (G0 : bget (qitems q) (qfront q) = Some it).
  { specialize (Hg 0 ltac:(lia)). rewrite Z.add_0_r, Z.mod_small in Hg by lia. exact Hg. }
  rewrite (load_ok (qitems q) (qfront q) it) by (auto; lia). cbn [bind]. rewrite ck32_ok by (unfold INT_MIN, INT_MAX; lia). cbn [bind].
  rewrite Ec. replace (N =? 0) with false by lia.
  eexists. split; [reflexivity|]. unfold qrep. cbn [qcap qitems qfront qrear qsize].
  rewrite Z.rem_mod_nonneg by lia. pose proof (Z.mod_pos_bound (qfront q + 1) N ltac:(lia)) as Hm.
  split; [auto|]. split; [auto|]. split; [lia|]. split; [lia|]. split; [lia|]. split; [lia|]. split.
  - rewrite Em, Es. rewrite Z.add_mod_idemp_l by lia. replace (qfront q + 1 + (Z.of_nat (S (length l)) - 1)) with (qfront q + Z.of_nat (S (length l))) by lia. reflexivity.
  - intros k Hk. rewrite Z.add_mod_idemp_l by lia. replace (qfront q + 1 + k) with (qfront q + (k + 1)) by lia.
    rewrite Hg by lia. replace (Z.to_nat (k + 1)) with (S (Z.to_nat k)) by lia. reflexivity.
Qed.

Lemma qempty q : qrep q [] -> (qsize q =? 0) = true.
Proof. intros (Ec & Eb & Es & Hl). simpl in Es. lia. Qed.
End Queue.

(** ** Paths *)
Lemma flows_mono w h (P Q : Z -> Z -> Prop) x0 y0 : (forall x y, inside w h x y -> P x y -> Q x y) -> forall x y,
  flows w h P x0 y0 x y -> flows w h Q x0 y0 x y.
Proof.
  intros H x y F. induction F; [constructor|]. econstructor; eauto.
Qed.
Lemma flows_inside w h P x0 y0 : inside w h x0 y0 -> forall x y, flows w h P x0 y0 x y -> inside w h x y.
Proof. intros H x y F. destruct F; auto. Qed.

Lemma adjacent_sym x y u v : adjacent x y u v -> adjacent u v x y.
Proof. unfold adjacent; lia. Qed.

Lemma flows_row w h x0 y0 x1 y : inside w h x1 y -> flows w h (fun _ _ => True) x0 y0 x1 y -> forall x, 0 <= x < w ->
  flows w h (fun _ _ => True) x0 y0 x y.
Proof.
  intros Hi F. unfold inside in Hi.
  assert (R : forall n, 0 <= n -> x1 + n < w -> flows w h (fun _ _ => True) x0 y0 (x1 + n) y).
  { apply (Z_nat_ind (fun n => x1 + n < w -> flows w h (fun _ _ => True) x0 y0 (x1 + n) y)).
    - intros; rewrite Z.add_0_r; auto.
    - intros n Hn IH H. apply flows_step with (x := x1 + n) (y := y); auto.
      + apply IH; lia.
      + unfold adjacent; lia.
      + unfold inside; lia. }
  assert (L : forall n, 0 <= n -> 0 <= x1 - n -> flows w h (fun _ _ => True) x0 y0 (x1 - n) y).
  { apply (Z_nat_ind (fun n => 0 <= x1 - n -> flows w h (fun _ _ => True) x0 y0 (x1 - n) y)).
    - intros; rewrite Z.sub_0_r; auto.
    - intros n Hn IH H. apply flows_step with (x := x1 - n) (y := y); auto.
      + apply IH; lia.
      + unfold adjacent; lia.
      + unfold inside; lia. }
  intros x Hx. destruct (Z_le_dec x1 x).
  - replace x with (x1 + (x - x1)) by lia. apply R; lia.
  - replace x with (x1 - (x1 - x)) by lia. apply L; lia.
Qed.
Lemma flows_col w h x0 y0 x y1 : inside w h x y1 -> flows w h (fun _ _ => True) x0 y0 x y1 -> forall y, 0 <= y < h ->
  flows w h (fun _ _ => True) x0 y0 x y.
Proof.
  intros Hi F. unfold inside in Hi.
  assert (R : forall n, 0 <= n -> y1 + n < h -> flows w h (fun _ _ => True) x0 y0 x (y1 + n)).
  { apply (Z_nat_ind (fun n => y1 + n < h -> flows w h (fun _ _ => True) x0 y0 x (y1 + n))).
    - intros; rewrite Z.add_0_r; auto.
    - intros n Hn IH H. apply flows_step with (x := x) (y := y1 + n); auto.
      + apply IH; lia.
      + unfold adjacent; lia.
      + unfold inside; lia. }
  assert (L : forall n, 0 <= n -> 0 <= y1 - n -> flows w h (fun _ _ => True) x0 y0 x (y1 - n)).
  { apply (Z_nat_ind (fun n => 0 <= y1 - n -> flows w h (fun _ _ => True) x0 y0 x (y1 - n))).
    - intros; rewrite Z.sub_0_r; auto.
    - intros n Hn IH H. apply flows_step with (x := x) (y := y1 - n); auto.
      + apply IH; lia.
      + unfold adjacent; lia.
      + unfold inside; lia. }
  intros y Hy. destruct (Z_le_dec y1 y).
  - replace y with (y1 + (y - y1)) by lia. apply R; lia.
  - replace y with (y1 - (y1 - y)) by lia. apply L; lia.
Qed.
Lemma grid_connected w h x0 y0 x y : inside w h x0 y0 -> inside w h x y -> flows w h (fun _ _ => True) x0 y0 x y.
Proof.
  intros H0 H. apply flows_col with (y1 := y0); try (unfold inside in *; lia).
  apply flows_row with (x1 := x0); try (unfold inside in *; lia). constructor.
Qed.

(** ** Labels *)
Section Flood.
Variables (w h n : Z) (mk : buf (f64 * f64)) (gb : buf Z) (bnd : bool).
Hypothesis Hw : 0 < w. Hypothesis Hh : 0 < h. Hypothesis HN : w * h <= 2147483647.
Hypothesis Hmk : markers_ok w h mk n.
Hypothesis Hgb : image (w * h) gb.

Let N := w * h.
Lemma N_range : 0 < w * h <= 2147483647.
Proof. nia. Qed.
Lemma w_range : w <= 2147483647.
Proof. nia. Qed.
Lemma h_range : h <= 2147483647.
Proof. nia. Qed.
Definition g x y := pixv gb w 1 x y 0.
Definition lab (labels : buf Z) x y : Z := match bget labels (y * w + x) with Some v => v | None => -1 end.

Lemma idx_ok x y : inside w h x y -> s32 (u32 (u32 (y * w) + x)) = y * w + x /\ 0 <= y * w + x < w * h.
Proof.
  intros [Hx Hy]. pose proof (rm_bound w h x y Hx Hy) as B.
  assert (0 <= y * w) by nia.
  rewrite (u32_small (y * w)) by lia. rewrite u32_small by lia. rewrite s32_pos by lia. lia.
Qed.

Lemma gray_load x y : inside w h x y -> load gb (y * w + x) = Ok (g x y) /\ byte (g x y).
Proof.
  intros Hi. destruct (idx_ok x y Hi) as [_ B]. destruct Hgb as [Hl Hg].
  destruct (Hg _ B) as [v [E Hv]]. unfold g, pixv, pix.
  replace ((y * w + x) * 1 + 0) with (y * w + x) by lia. rewrite E. split; auto.
  apply load_ok; auto. lia.
Qed.

Definition full (labels : buf Z) : Prop := blen labels = w * h /\
  forall i, 0 <= i < w * h -> exists v, bget labels i = Some v /\ -1 <= v < n.
Lemma lab_load labels x y : full labels -> inside w h x y -> load labels (y * w + x) = Ok (lab labels x y) /\ -1 <= lab labels x y < n.
Proof.
  intros [Hl Hv] Hi. destruct (idx_ok x y Hi) as [_ B]. destruct (Hv _ B) as [v [E Hr]].
  unfold lab. rewrite E. split; auto. apply load_ok; auto. lia.
Qed.

(** The neighbour in direction [d]. *)
Definition nxd x d := x + nth (Z.to_nat d) dxs 0.
Definition nyd y d := y + nth (Z.to_nat d) dys 0.
Lemma dir_cases d : 0 <= d < 4 ->
  (d = 0 /\ nth (Z.to_nat d) dxs 0 = -1 /\ nth (Z.to_nat d) dys 0 = 0) \/
  (d = 1 /\ nth (Z.to_nat d) dxs 0 = 1 /\ nth (Z.to_nat d) dys 0 = 0) \/
  (d = 2 /\ nth (Z.to_nat d) dxs 0 = 0 /\ nth (Z.to_nat d) dys 0 = -1) \/
  (d = 3 /\ nth (Z.to_nat d) dxs 0 = 0 /\ nth (Z.to_nat d) dys 0 = 1).
Proof.
  intros Hd. assert (d = 0 \/ d = 1 \/ d = 2 \/ d = 3) as [->|[->|[->| ->]]] by lia; vm_compute; auto 10.
Qed.
Lemma dir_adjacent x y d : 0 <= d < 4 -> adjacent x y (nxd x d) (nyd y d).
Proof.
  intros Hd. unfold nxd, nyd, adjacent. pose proof (dir_cases d Hd). lia.
Qed.
Lemma adjacent_dir x y u v : adjacent x y u v -> exists d, 0 <= d < 4 /\ u = nxd x d /\ v = nyd y d.
Proof.
  unfold adjacent. intros H.
  assert ((v = y /\ u = x - 1) \/ (v = y /\ u = x + 1) \/ (u = x /\ v = y - 1) \/ (u = x /\ v = y + 1))
    as [[-> ->]|[[-> ->]|[[-> ->]|[-> ->]]]] by lia.
  - exists 0. unfold nxd, nyd. pose proof (dir_cases 0 ltac:(lia)). lia.
  - exists 1. unfold nxd, nyd. pose proof (dir_cases 1 ltac:(lia)). lia.
  - exists 2. unfold nxd, nyd. pose proof (dir_cases 2 ltac:(lia)). lia.
  - exists 3. unfold nxd, nyd. pose proof (dir_cases 3 ltac:(lia)). lia.
Qed.

Definition nb_spec (L : Z -> Z -> Z) x y (nl : Z) (mult : bool) : Prop :=
  (nl = -1 -> forall u v, inside w h u v -> adjacent x y u v -> L u v = -1) /\
  (nl <> -1 -> exists u v, inside w h u v /\ adjacent x y u v /\ L u v = nl) /\
  (mult = false -> forall u v, inside w h u v -> adjacent x y u v -> L u v <> -1 -> L u v = nl) /\
  (mult = true -> nl <> -1 /\ exists u v, inside w h u v /\ adjacent x y u v /\ L u v <> -1 /\ L u v <> nl).

Lemma nxd_s32 x y d : inside w h x y -> 0 <= d < 4 ->
  s32 (u32 (x + nth (Z.to_nat d) dxs 0)) = nxd x d /\ s32 (u32 (y + nth (Z.to_nat d) dys 0)) = nyd y d.
Proof.
  intros [Hx Hy] Hd. pose proof w_range. pose proof h_range. unfold nxd, nyd. pose proof (dir_cases d Hd).
  assert (M : s32 (u32 (-1)) = -1) by reflexivity.
  assert (forall z k, 0 <= z < 2147483647 -> -1 <= k <= 1 -> s32 (u32 (z + k)) = z + k) as S.
  { intros z k Hz Hk. destruct (Z.eq_dec (z + k) (-1)) as [->|]; [exact M|].
    rewrite u32_small by lia. apply s32_pos; lia. }
  split; apply S; lia.
Qed.

Lemma find_neighbor_ok labels x y : full labels -> inside w h x y ->
  exists nl mult, find_neighbor w h labels x y = Ok (nl, mult) /\ nb_spec (lab labels) x y nl mult.
Proof.
  intros Hf Hi. unfold find_neighbor. pose proof w_range. pose proof h_range.
  set (L := lab labels).
  match goal with |- context[for_brk 0 4 ?f ?s] => set (body := f) end.
  destruct (for_brk_inv
    (fun d nl => (nl = -1 -> forall k, 0 <= k < d -> inside w h (nxd x k) (nyd y k) -> L (nxd x k) (nyd y k) = -1) /\
                 (nl <> -1 -> exists k, 0 <= k < d /\ inside w h (nxd x k) (nyd y k) /\ L (nxd x k) (nyd y k) = nl) /\
                 (forall k, 0 <= k < d -> inside w h (nxd x k) (nyd y k) -> L (nxd x k) (nyd y k) <> -1 -> L (nxd x k) (nyd y k) = nl))
    (fun nl => nl <> -1 /\ (exists k, 0 <= k < 4 /\ inside w h (nxd x k) (nyd y k) /\ L (nxd x k) (nyd y k) = nl) /\
               exists k, 0 <= k < 4 /\ inside w h (nxd x k) (nyd y k) /\ L (nxd x k) (nyd y k) <> -1 /\ L (nxd x k) (nyd y k) <> nl)
    0 4 body (-1)) as [(nl & E & P1 & P2 & P3)|(nl & E & P1 & P2 & P3)].
  - lia.
  - split; [intros; lia|]. split; [intros C; exfalso; lia|]. intros; lia.
  - intros d nl Hd (P1 & P2 & P3). unfold body.
    destruct (nxd_s32 x y d Hi Hd) as [E1 E2]. rewrite E1, E2. clear E1 E2.
    rewrite !s32_pos by lia.
    destruct ((0 <=? nxd x d) && (nxd x d <? w) && (0 <=? nyd y d) && (nyd y d <? h)) eqn:EI.
    + assert (Hi' : inside w h (nxd x d) (nyd y d)) by (unfold inside; lia).
      destruct (idx_ok _ _ Hi') as [-> _]. destruct (lab_load labels _ _ Hf Hi') as [-> _]. cbn [bind].
      fold L. destruct (L (nxd x d) (nyd y d) =? -1) eqn:E1.
      * left. exists nl. split; [reflexivity|]. split; [|split].
        -- intros C k Hk Hk'. destruct (Z.eq_dec k d) as [->|]; [lia|]. apply P1; auto; lia.
        -- intros C. destruct (P2 C) as (k & K1 & K2). exists k; split; auto; lia.
        -- intros k Hk Hk' Hl. destruct (Z.eq_dec k d) as [->|]; [lia|]. apply P3; auto; lia.
      * destruct (nl =? -1) eqn:E2.
        -- left. exists (L (nxd x d) (nyd y d)). split; [reflexivity|]. split; [intros; lia|]. split.
           ++ intros _. exists d. split; [lia|]. auto.
           ++ intros k Hk Hk' Hl. destruct (Z.eq_dec k d) as [->|]; [auto|]. exfalso. apply Hl. apply P1; auto; lia.
        -- destruct (nl =? L (nxd x d) (nyd y d)) eqn:E3.
           ++ left. exists nl. split; [reflexivity|]. split; [intros; lia|]. split.
              ** intros C. destruct (P2 C) as (k & K1 & K2). exists k; split; auto; lia.
              ** intros k Hk Hk' Hl. destruct (Z.eq_dec k d) as [->|]; [lia|]. apply P3; auto; lia.
           ++ right. exists nl. split; [reflexivity|]. split; [lia|]. split.
              ** destruct (P2 ltac:(lia)) as (k & K1 & K2). exists k; split; auto; lia.
              ** exists d. split; [lia|]. split; [auto|]. split; lia.
    + assert (Hi' : ~ inside w h (nxd x d) (nyd y d)) by (unfold inside; lia).
      left. exists nl. split; [reflexivity|]. split; [|split].
      * intros C k Hk Hk'. destruct (Z.eq_dec k d) as [->|]; [tauto|]. apply P1; auto; lia.
      * intros C. destruct (P2 C) as (k & K1 & K2). exists k; split; auto; lia.
      * intros k Hk Hk' Hl. destruct (Z.eq_dec k d) as [->|]; [tauto|]. apply P3; auto; lia.
  - rewrite E. cbn [bind]. exists nl, false. split; [reflexivity|]. split; [|split; [|split]].
    + intros C u v Hu Ha. destruct (adjacent_dir _ _ _ _ Ha) as (d & Hd & -> & ->). apply P1; auto.
    + intros C. destruct (P2 C) as (k & K1 & K2 & K3). exists (nxd x k), (nyd y k). split; auto. split; auto. apply dir_adjacent; auto.
    + intros _ u v Hu Ha Hl. destruct (adjacent_dir _ _ _ _ Ha) as (d & Hd & -> & ->). apply P3; auto.
    + discriminate.
  - rewrite E. cbn [bind]. exists nl, true. split; [reflexivity|].
    destruct P2 as (k & K1 & K2 & K3). destruct P3 as (k' & K1' & K2' & K3' & K4').
    split; [intros; lia|]. split; [|split].
    + intros _. exists (nxd x k), (nyd y k). split; auto. split; auto. apply dir_adjacent; auto.
    + discriminate.
    + intros _. split; auto. exists (nxd x k'), (nyd y k'). split; auto. split; [apply dir_adjacent; auto|]. auto.
Qed.

(** ** One search *)
Definition cand (level : Z) (labels : buf Z) (it : item) : Prop :=
  let '(x, y, l) := it in
  inside w h x y /\ lab labels x y = -1 /\ g x y <= level /\ l <> -1 /\
  exists mult, find_neighbor w h labels x y = Ok (l, mult) /\ (mult = false \/ bnd = false).

Lemma cand_det level labels x y l l' : cand level labels (x, y, l) -> cand level labels (x, y, l') -> l = l'.
Proof. intros (_ & _ & _ & _ & m & E & _) (_ & _ & _ & _ & m' & E' & _). congruence. Qed.

Definition scanned (level : Z) (labels : buf Z) (l0 : list item) (done : Z -> Z -> Prop) (s : queue * bool) : Prop :=
  exists E, qrep N (fst s) (l0 ++ E) /\ Forall (cand level labels) E /\
    (snd s = false -> E = [] /\ forall x y l, done x y -> ~ cand level labels (x, y, l)) /\
    (snd s = true -> Z.of_nat (length l0) < N -> E <> []).

Lemma scanned_ext level labels l0 (D D' : Z -> Z -> Prop) s : (forall x y, inside w h x y -> D' x y -> D x y) ->
  scanned level labels l0 D s -> scanned level labels l0 D' s.
Proof.
  intros HD (E & Q & F & C1 & C2). exists E. split; auto. split; auto. split; auto.
  intros C. destruct (C1 C) as [-> C3]. split; auto. intros x y l H HC. apply (C3 x y l); auto.
  apply HD; auto. apply HC.
Qed.

Lemma scan_pixel_ok level labels l0 (D : Z -> Z -> Prop) x y s : full labels -> inside w h x y ->
  scanned level labels l0 D s ->
  exists s', scan_pixel w h gb bnd level labels x y s = Ok s' /\
    scanned level labels l0 (fun u v => D u v \/ (u = x /\ v = y)) s'.
Proof.
  intros Hf Hi (E & Q & F & C1 & C2). destruct s as [q ch]. cbn [fst snd] in *.
  unfold scan_pixel. destruct (idx_ok x y Hi) as [-> B].
  destruct (lab_load labels x y Hf Hi) as [-> Hlab]. cbn [bind].
  assert (SKIP : (forall l, ~ cand level labels (x, y, l)) -> scanned level labels l0 (fun u v => D u v \/ (u = x /\ v = y)) (q, ch)).
  { intros HN'. exists E. cbn [fst snd]. split; auto. split; auto. split; auto.
    intros C. destruct (C1 C) as [-> C3]. split; auto. intros u v l [HD|[-> ->]]; auto. }
  destruct (lab labels x y =? -1) eqn:E1; cbn [negb]; cbv iota.
  2:{ eexists; split; [reflexivity|]. apply SKIP. intros l (_ & C & _). lia. }
  destruct (gray_load x y Hi) as [-> _]. cbn [bind].
  destruct (level <? g x y) eqn:E2.
  { eexists; split; [reflexivity|]. apply SKIP. intros l (_ & _ & C & _). lia. }
  destruct (find_neighbor_ok labels x y Hf Hi) as (nl & mult & EN & _). rewrite EN. cbn [bind].
  destruct (negb (nl =? -1) && (negb mult || negb bnd)) eqn:E3.
  2:{ eexists; split; [reflexivity|]. apply SKIP. intros l (_ & _ & _ & C & m & Em & Hm). rewrite EN in Em. inversion Em; subst.
      destruct Hm as [Hm|Hm]; rewrite Hm in E3; destruct (l =? -1) eqn:?; cbn in E3; try lia; destruct m; discriminate. }
  destruct Hi as [Hx Hy]. pose proof w_range. pose proof h_range.
  rewrite !s32_pos by lia.
  assert (CA : cand level labels (x, y, nl)).
  { split; [split; auto|]. split; [lia|]. split; [lia|]. split; [lia|]. exists mult. split; auto. destruct mult, bnd; auto.
    all: try (cbn in E3; rewrite andb_false_r in E3; discriminate). }
  pose proof Q as (_ & _ & _ & Hlen & _).
  destruct (Z.eq_dec (Z.of_nat (length (l0 ++ E))) N) as [Hfull|Hnf].
  - rewrite (enqueue_full N q _ _ _ _ Q Hfull). cbn [bind]. eexists; split; [reflexivity|].
    exists E. cbn [fst snd]. split; auto. split; auto. split; [discriminate|].
    intros _ Hlt C. subst E. rewrite app_nil_r in Hfull. lia.
  - destruct (enqueue_ok N N_range q _ x y nl Q ltac:(lia)) as (q' & -> & Q'). cbn [bind].
    eexists; split; [reflexivity|]. exists (E ++ [(x, y, nl)]). cbn [fst snd]. rewrite app_assoc.
    split; auto. split; [apply Forall_app; split; auto|]. split; [discriminate|].
    intros _ _ C. destruct E; discriminate.
Qed.

Lemma scan_ok level labels q l0 : full labels -> qrep N q l0 ->
  exists s', scan w h gb bnd level labels q = Ok s' /\ scanned level labels l0 (fun _ _ => True) s'.
Proof.
  intros Hf Q. unfold scan.
  destruct (for_inv (fun y s => scanned level labels l0 (fun u v => v < y) s) 0 h
    (fun y st => for_ 0 w (fun x st => scan_pixel w h gb bnd level labels x y st) st) (q, false)) as (s' & E & H).
  - lia.
  - exists []. cbn [fst snd]. rewrite app_nil_r. split; auto. split; auto. split; [|discriminate].
    intros _. split; auto. intros x y l Hy ([_ Hy'] & _). lia.
  - intros y s Hy Hs.
    destruct (for_inv (fun x s => scanned level labels l0 (fun u v => v < y \/ (v = y /\ u < x)) s) 0 w
      (fun x st => scan_pixel w h gb bnd level labels x y st) s) as (s' & E & H).
    + lia.
    + eapply scanned_ext; [|exact Hs]. unfold inside; intros; cbn in *; lia.
    + intros x s1 Hx Hs1.
      destruct (scan_pixel_ok level labels l0 _ x y s1 Hf ltac:(unfold inside; lia) Hs1) as (s2 & E2 & H2).
      exists s2. split; auto. eapply scanned_ext; [|exact H2]. unfold inside; intros; cbn in *; lia.
    + exists s'. split; auto. eapply scanned_ext; [|exact H]. unfold inside; intros; cbn in *; lia.
  - exists s'. split; auto. eapply scanned_ext; [|exact H]. unfold inside; intros; cbn in *; lia.
Qed.

(** ** Applying the queue *)
Definition paint1 (labels : buf Z) (it : item) : buf Z := let '(x, y, l) := it in bset labels (y * w + x) l.
Definition paint (l : list item) (labels : buf Z) : buf Z := fold_left paint1 l labels.
Definition item_ok (it : item) : Prop := let '(x, y, l) := it in inside w h x y /\ 0 <= l < n.

Lemma full_paint1 labels it : full labels -> item_ok it -> full (paint1 labels it).
Proof.
  destruct it as [[x y] l]. intros [Hl Hv] [Hi Hr]. cbn [paint1]. split; [rewrite blen_bset; auto|].
  intros i B. rewrite bget_bset. destruct (i =? y * w + x); [exists l; split; auto; lia|auto].
Qed.
Lemma full_paint l : forall labels, full labels -> Forall item_ok l -> full (paint l labels).
Proof.
  induction l as [|it l IH]; intros labels Hf Ha; [exact Hf|]. cbn [paint fold_left]. inversion Ha; subst.
  apply IH; auto. apply full_paint1; auto.
Qed.

Lemma drain_ok fuel l : forall q labels, qrep N q l -> full labels -> Forall item_ok l -> (length l < fuel)%nat ->
  exists q', drain fuel w q labels = Ok (q', paint l labels) /\ qrep N q' [].
Proof.
  revert fuel. induction l as [|it l IH]; intros fuel q labels Q Hf Ha Hlen; destruct fuel; try (cbn in Hlen; lia);
    unfold drain; cbn [while_].
  - rewrite (qempty N q Q). cbn [bind]. exists q. auto.
  - destruct (dequeue_ok N N_range q it l Q) as [-> (q' & -> & Q')]. cbn [bind]. inversion Ha; subst.
    destruct it as [[x y] v]. destruct H1 as [Hi Hr]. destruct (idx_ok x y Hi) as [-> B].
    rewrite store_ok by (destruct Hf as [-> _]; lia). cbn [bind].
    destruct (IH fuel q' (bset labels (y * w + x) v)) as (q2 & E & Q2); auto.
    + apply (full_paint1 labels (x, y, v)); auto. split; auto.
    + cbn in Hlen; lia.
    + exists q2. split; auto.
Qed.

Lemma lab_paint1 labels x y l u v : inside w h x y -> inside w h u v ->
  lab (paint1 labels (x, y, l)) u v = if (u =? x) && (v =? y) then l else lab labels u v.
Proof.
  intros Hi Hj. unfold lab. cbn [paint1]. rewrite bget_bset.
  destruct ((u =? x) && (v =? y)) eqn:E.
  - replace u with x by lia. replace v with y by lia. rewrite Z.eqb_refl. reflexivity.
  - replace (v * w + u =? y * w + x) with false; auto. symmetry. apply Z.eqb_neq. intros C.
    destruct Hi, Hj. destruct (rm_inj w u v x y); auto; lia.
Qed.

(** What a painted label comes from. *)
Lemma lab_paint l : forall labels u v, Forall item_ok l -> inside w h u v ->
  (lab (paint l labels) u v = lab labels u v /\ forall k, ~ In (u, v, k) l) \/
  In (u, v, lab (paint l labels) u v) l.
Proof.
  induction l as [|it l IH]; intros labels u v Ha Hi; [left; split; auto|].
  inversion Ha; subst. cbn [paint fold_left]. destruct it as [[x y] k].
  destruct (IH (paint1 labels (x, y, k)) u v H2 Hi) as [[E Hn]|HI]; [|right; right; exact HI].
  unfold paint in *. rewrite E. destruct H1 as [Hi' _].
  rewrite lab_paint1 by auto. destruct ((u =? x) && (v =? y)) eqn:E'.
  - right; left. replace u with x by lia. replace v with y by lia. reflexivity.
  - left. split; auto. intros k' [C|C]; [|exact (Hn _ C)]. inversion C; subst. lia.
Qed.

Lemma paint_ext l : forall a b, Forall item_ok l -> (forall u v, inside w h u v -> lab a u v = lab b u v) ->
  forall u v, inside w h u v -> lab (paint l a) u v = lab (paint l b) u v.
Proof.
  induction l as [|it l IH]; intros a b Ha E u v Hi; [auto|]. inversion Ha; subst. cbn [paint fold_left].
  apply IH; auto. intros. destruct it as [[x y] k]. destruct H1. rewrite !lab_paint1 by auto.
  destruct (_ && _); auto.
Qed.
Lemma paint_app l1 l2 labels : paint (l1 ++ l2) labels = paint l2 (paint l1 labels).
Proof. apply fold_left_app. Qed.

Lemma cand_item_ok level labels it : full labels -> cand level labels it -> item_ok it.
Proof.
  destruct it as [[x y] l]. intros Hf (Hi & _ & _ & Hl & m & E & _). split; auto.
  destruct (find_neighbor_ok labels x y Hf Hi) as (nl & m' & E' & _ & H2 & _). rewrite E in E'. inversion E'; subst.
  destruct (H2 Hl) as (u & v & Hu & _ & <-). pose proof (proj2 (lab_load labels u v Hf Hu)). lia.
Qed.

(** ** Invariant of the flooding *)
Definition rgn labels (x y j : Z) : Prop :=
  flows w h (fun u v => lab labels u v = lab labels x y /\ g u v <= j) (mx mk (lab labels x y)) (my mk (lab labels x y)) x y.
Notation reach := (reached w h g mk n).

Definition good (level : Z) (labels : buf Z) : Prop :=
  full labels /\ seeded n mk (lab labels) /\
  (forall x y, inside w h x y -> lab labels x y <> -1 ->
     lab labels (mx mk (lab labels x y)) (my mk (lab labels x y)) = lab labels x y /\ rgn labels x y level) /\
  (bnd = false ->
     (forall x y, inside w h x y -> lab labels x y <> -1 -> forall j, reach j x y -> rgn labels x y j) /\
     (forall x y, inside w h x y -> lab labels x y = -1 -> ~ reach (level - 1) x y)).

Lemma marker_inside m : 0 <= m < n -> inside w h (mx mk m) (my mk m).
Proof. intros H. apply (proj2 (proj2 Hmk)); auto. Qed.

Lemma good_ext level a b : full b -> (forall u v, inside w h u v -> lab a u v = lab b u v) -> good level a -> good level b.
Proof.
  intros Fb E (Fa & S & C & O).
  assert (R : forall x y j, inside w h x y -> rgn a x y j -> rgn b x y j).
  { intros x y j Hi H. unfold rgn in *. rewrite <- E by auto. eapply flows_mono; [|exact H].
    intros u v Hu [H1 H2]. rewrite <- !E by auto. auto. }
  assert (MI : forall x y, inside w h x y -> lab a x y <> -1 -> inside w h (mx mk (lab a x y)) (my mk (lab a x y))).
  { intros x y Hi Hl. apply marker_inside. pose proof (proj2 (lab_load a x y Fa Hi)). lia. }
  split; auto. split; [|split].
  - intros m Hm. destruct (S m Hm) as (m' & H1 & H2 & H3 & H4). exists m'. split; auto. split; auto. split; auto.
    rewrite <- E by (apply marker_inside; auto). auto.
  - intros x y Hi Hl. rewrite <- E in Hl by auto. destruct (C x y Hi Hl) as [C1 C2]. split; auto.
    rewrite <- (E x y Hi). rewrite <- E by (apply MI; auto). auto.
  - intros HB. destruct (O HB) as [O1 O2]. split.
    + intros x y Hi Hl j Hj. rewrite <- E in Hl by auto. apply R; auto.
    + intros x y Hi Hl. rewrite <- E in Hl by auto. apply O2; auto.
Qed.

Lemma reach_step j x y u v : reach j x y -> adjacent x y u v -> inside w h u v -> g u v <= j -> reach j u v.
Proof. intros (m & Hm & F) A I G. exists m. split; auto. econstructor; eauto. Qed.

Lemma reach_last j x y : reach j x y -> (exists m, 0 <= m < n /\ x = mx mk m /\ y = my mk m) \/
  (g x y <= j /\ exists u v, inside w h u v /\ reach j u v /\ adjacent x y u v).
Proof.
  intros (m & Hm & F). inversion F; subst.
  - left. exists m. auto.
  - right. split; auto. exists x0, y0. split.
    + eapply flows_inside; [|exact H]. apply marker_inside; auto.
    + split; [exists m; auto|]. apply adjacent_sym; auto.
Qed.

Lemma good_extend level labels E : good level labels -> Forall (cand level labels) E -> good level (paint E labels).
Proof.
  intros (F & S & C & O) HE.
  assert (HI : Forall item_ok E) by (eapply Forall_impl; [|exact HE]; intros; eapply cand_item_ok; eauto).
  pose proof (full_paint E labels F HI) as F'.
  set (L := lab labels) in *. set (L' := lab (paint E labels)).
  assert (X : forall u v, inside w h u v -> L' u v = L u v \/ (L u v = -1 /\ cand level labels (u, v, L' u v))).
  { intros u v Hi. destruct (lab_paint E labels u v HI Hi) as [[H _]|H]; [left; auto|right].
    rewrite Forall_forall in HE. specialize (HE _ H). split; auto. apply HE. }
  assert (K : forall u v, inside w h u v -> L u v <> -1 -> L' u v = L u v).
  { intros u v Hi Hl. destruct (X u v Hi) as [|[]]; auto. lia. }
  assert (MI : forall x y, inside w h x y -> L x y <> -1 -> inside w h (mx mk (L x y)) (my mk (L x y))).
  { intros x y Hi Hl. apply marker_inside. pose proof (proj2 (lab_load labels x y F Hi)). fold L in H. lia. }
  assert (R : forall x y j, inside w h x y -> L x y <> -1 -> rgn labels x y j -> rgn (paint E labels) x y j).
  { intros x y j Hi Hl H. unfold rgn in *. fold L in H. fold L'. rewrite (K x y) by auto. eapply flows_mono; [|exact H].
    intros u v Hu [H1 H2]. split; auto. rewrite K by (auto; congruence). auto. }
  (* a new pixel and the neighbour its label comes from *)
  assert (NW : forall x y, inside w h x y -> L x y = -1 -> L' x y <> -1 -> exists u v, inside w h u v /\ adjacent u v x y /\
      L u v <> -1 /\ L' x y = L u v /\ g x y <= level).
  { intros x y Hi Hl Hl'. destruct (X x y Hi) as [|(_ & _ & _ & G & N1 & m & EF & _)]; [lia|].
    destruct (find_neighbor_ok labels x y F Hi) as (nl & m' & EF' & _ & P2 & _). rewrite EF in EF'. inversion EF'; subst nl m'.
    destruct (P2 Hl') as (u & v & Hu & Ha & Hv). exists u, v. split; auto. split; [apply adjacent_sym; auto|].
    fold L in Hv. split; [lia|]. split; [lia|auto]. }
  assert (NR : forall x y j, inside w h x y -> L x y = -1 -> L' x y <> -1 -> level <= j -> rgn (paint E labels) x y j).
  { intros x y j Hi Hl Hl' Hj. destruct (NW x y Hi Hl Hl') as (u & v & Hu & Ha & Hv & EL & G).
    destruct (C u v Hu Hv) as [_ CR]. apply (R u v level Hu Hv) in CR. unfold rgn in *. fold L' in CR |- *.
    rewrite EL. rewrite (K u v) in CR by auto. apply flows_step with (x := u) (y := v); auto.
    - eapply flows_mono; [|exact CR]. intros a b Hab [H1 H2]. split; auto. lia.
    - split; [congruence|lia]. }
  split; auto. split; [|split].
  - intros m Hm. destruct (S m Hm) as (m' & H1 & H2 & H3 & H4). exists m'. split; auto. split; auto. split; auto.
    fold L'. rewrite K; auto. { apply marker_inside; auto. } fold L in H4. lia.
  - intros x y Hi Hl'. fold L' in Hl' |- *. destruct (Z.eq_dec (L x y) (-1)) as [Hl|Hl].
    + destruct (NW x y Hi Hl Hl') as (u & v & Hu & Ha & Hv & EL & G). split; [|apply NR; auto; lia].
      destruct (C u v Hu Hv) as [C1 _]. fold L in C1. change (lab (paint E labels)) with L'. rewrite EL. rewrite K; [exact C1|apply MI; auto|rewrite C1; exact Hv].
    + destruct (C x y Hi Hl) as [C1 C2]. split; [|apply R; auto]. fold L in C1. change (lab (paint E labels)) with L'. rewrite (K x y) by auto. rewrite K; [exact C1|apply MI; auto|rewrite C1; exact Hl].
  - intros HB. destruct (O HB) as [O1 O2]. split.
    + intros x y Hi Hl' j Hj. fold L' in Hl'. destruct (Z.eq_dec (L x y) (-1)) as [Hl|Hl].
      * apply NR; auto. destruct (Z_le_dec level j); auto. exfalso. apply (O2 x y Hi Hl).
        destruct Hj as (m & Hm & FF). exists m. split; auto. eapply flows_mono; [|exact FF]. cbn; intros; lia.
      * apply R; auto.
    + intros x y Hi Hl'. apply O2; auto. destruct (X x y Hi) as [|[]]; auto. fold L' in Hl'. fold L. lia.
Qed.

(** No pixel is left to flood at this level. *)
Definition closed (level : Z) (labels : buf Z) : Prop := forall x y l, ~ cand level labels (x, y, l).

Lemma closed_unreached level labels : bnd = false -> full labels -> seeded n mk (lab labels) -> closed level labels ->
  forall x y, inside w h x y -> lab labels x y = -1 -> ~ reach level x y.
Proof.
  intros HB F S C x y Hi Hl (m & Hm & FF). revert Hi Hl. induction FF; intros Hi Hl.
  - destruct (S m Hm) as (m' & H1 & _ & _ & H4). lia.
  - assert (Hxy : inside w h x y) by (eapply flows_inside; [|exact FF]; apply marker_inside; auto).
    destruct (Z.eq_dec (lab labels x y) (-1)) as [E|E]; [exact (IHFF Hxy E)|].
    destruct (find_neighbor_ok labels x' y' F Hi) as (nl & mult & EN & P1 & P2 & P3 & P4).
    assert (nl <> -1). { intros C1. apply E. apply (P1 C1); auto. apply adjacent_sym; auto. }
    apply (C x' y' nl). split; auto. split; auto. split; auto. split; auto. exists mult. auto.
Qed.

Definition unl (labels : buf Z) : Z := count (fun i => lab labels (i mod w) (i / w) =? -1) (w * h).

Lemma unl_range labels : 0 <= unl labels <= w * h.
Proof. apply count_range. nia. Qed.

Lemma count_lt P Q m : 0 <= m -> (forall i, 0 <= i < m -> P i = true -> Q i = true) ->
  (exists i, 0 <= i < m /\ P i = false /\ Q i = true) -> count P m < count Q m.
Proof.
  intros Hm HPQ (i & Hi & E1 & E2).
  assert (count Q m = count P m + count (fun k => Q k && negb (P k)) m).
  { apply (count_split). auto. intros k Hk. specialize (HPQ k Hk). destruct (P k), (Q k); cbn; auto; specialize (HPQ eq_refl); discriminate. }
  assert (0 < count (fun k => Q k && negb (P k)) m). { apply count_pos; auto. exists i. split; auto. rewrite E1, E2. reflexivity. }
  lia.
Qed.

Lemma idx_inside i : 0 <= i < w * h -> inside w h (i mod w) (i / w).
Proof.
  intros Hi. split; [apply Z.mod_pos_bound; lia|]. split; [apply Z.div_pos; lia|apply Z.div_lt_upper_bound; lia].
Qed.
Lemma idx_mod x y : inside w h x y -> (y * w + x) mod w = x /\ (y * w + x) / w = y.
Proof.
  intros [Hx Hy]. replace (y * w + x) with (x + y * w) by lia. rewrite Z.mod_add, Z.div_add by lia.
  rewrite Z.mod_small, Z.div_small by lia. lia.
Qed.

Lemma unl_lt labels E level : full labels -> Forall (cand level labels) E -> E <> [] -> unl (paint E labels) < unl labels.
Proof.
  intros F HE Hne.
  assert (HI : Forall item_ok E) by (eapply Forall_impl; [|exact HE]; intros; eapply cand_item_ok; eauto).
  pose proof N_range.
  assert (K : forall x y, inside w h x y -> lab (paint E labels) x y = lab labels x y \/
    (lab labels x y = -1 /\ lab (paint E labels) x y <> -1)).
  { intros x y Hi. destruct (lab_paint E labels x y HI Hi) as [[H1 _]|H1]; auto.
    rewrite Forall_forall in HE. destruct (HE _ H1) as (_ & H2 & _ & H3 & _). auto. }
  apply count_lt; [lia| |].
  - intros i Hi. destruct (K _ _ (idx_inside i Hi)); lia.
  - destruct E as [|[[x y] l] E]; [congruence|]. inversion HE; subst. destruct H2 as (Hi & Hl & _).
    exists (y * w + x). destruct (idx_ok x y Hi) as [_ B]. destruct (idx_mod x y Hi) as [-> ->]. split; auto.
    split; [|lia].
    destruct (lab_paint ((x, y, l) :: E) labels x y HI Hi) as [[_ H1]|H1].
    + exfalso. apply (H1 l). left; reflexivity.
    + rewrite Forall_forall in HE. destruct (HE _ H1) as (_ & H2 & _ & H4 & _). apply Z.eqb_neq; exact H4.
Qed.

(** ** One level, starting from an empty queue *)
Lemma level_ok fuel level q labels : w * h + 1 < Z.of_nat fuel -> forall f, (Z.to_nat (unl labels) < f)%nat ->
  qrep N q [] -> good level labels ->
  exists q' labels', while_ f (fun st =>
    let '(q, labels) := st in
    r <- scan w h gb bnd level labels q ;;
    let '(q, changed) := r in
    r <- drain fuel w q labels ;;
    if (changed : bool) then Ok (inl r) else Ok (inr r)) (q, labels) = Ok (q', labels') /\
    qrep N q' [] /\ good level labels' /\ closed level labels'.
Proof.
  intros Hfuel f Hf Q G.
  match goal with |- context[while_ f ?b _] => set (body := b) end.
  destruct (while_inv (fun s => qrep N (fst s) [] /\ good level (snd s))
    (fun s => qrep N (fst s) [] /\ good level (snd s) /\ closed level (snd s))
    (fun s => Z.to_nat (unl (snd s))) body f (q, labels)) as ([q' labels'] & E & H); auto.
  - intros [q1 l1]. cbn [fst snd]. intros [Q1 G1]. unfold body.
    pose proof G1 as (F1 & _).
    destruct (scan_ok level l1 q1 [] F1 Q1) as ([q2 ch] & -> & E & Q2 & HE & C1 & C2). cbn [bind fst snd app] in *.
    assert (HI : Forall item_ok E) by (eapply Forall_impl; [|exact HE]; intros; eapply cand_item_ok; eauto).
    pose proof Q2 as (_ & _ & _ & Hlen & _).
    destruct (drain_ok fuel E q2 l1 Q2 F1 HI) as (q3 & -> & Q3). { unfold N in Hlen. lia. }
    cbn [bind]. destruct ch.
    + left. eexists; split; [reflexivity|]. cbn [fst snd]. split; [split; auto; apply good_extend; auto|].
      pose proof N_range. assert (E <> []) by (apply C2; auto; unfold N; cbn; lia).
      pose proof (unl_lt l1 E level F1 HE H0). pose proof (unl_range (paint E l1)). lia.
    + right. eexists; split; [reflexivity|]. cbn [fst snd]. destruct (C1 eq_refl) as [-> C3].
      split; auto. split; auto. intros x y l. apply C3; auto.
  - exists q', labels'. split; auto.
Qed.

(** ** The markers *)
Definition mitem (m : Z) : item := (mx mk m, my mk m, m).
Definition mitems (k : Z) : list item := map mitem (map Z.of_nat (seq 0 (Z.to_nat k))).

Lemma mitems_succ k : 0 <= k -> mitems (k + 1) = mitems k ++ [mitem k].
Proof.
  intros Hk. unfold mitems. replace (Z.to_nat (k + 1)) with (S (Z.to_nat k)) by lia. rewrite seq_S.
  rewrite !map_app. cbn. replace (Z.of_nat (Z.to_nat k)) with k by lia. reflexivity.
Qed.
Lemma mitems_length k : 0 <= k -> Z.of_nat (length (mitems k)) = k.
Proof. intros. unfold mitems. rewrite !map_length, seq_length. lia. Qed.
Lemma mitems_In k it : In it (mitems k) <-> exists m, 0 <= m < k /\ it = mitem m.
Proof.
  unfold mitems. rewrite in_map_iff. split.
  - intros (m & <- & H). apply in_map_iff in H. destruct H as (j & <- & Hj). apply in_seq in Hj. exists (Z.of_nat j). split; auto. lia.
  - intros (m & Hm & ->). exists m. split; auto. apply in_map_iff. exists (Z.to_nat m). split; [lia|]. apply in_seq. lia.
Qed.
Lemma mitems_ok k : k <= n -> Forall item_ok (mitems k).
Proof.
  intros Hk. apply Forall_forall. intros it H. apply mitems_In in H. destruct H as (m & Hm & ->).
  split; [apply marker_inside; lia|lia].
Qed.

Definition blank : buf Z := bconst (w * h) (-1).

Lemma marker_cast m : 0 <= m < n -> exists p, load mk m = Ok p /\ to_i32 (fst p) = Ok (mx mk m) /\ to_i32 (snd p) = Ok (my mk m) /\
  dfinite (fst p) = true /\ dfinite (snd p) = true.
Proof.
  intros Hm. destruct Hmk as (Hn & Hl & H). destruct (H m Hm) as [(x & y & E & Fx & Fy) Hi].
  exists (x, y). rewrite (load_ok mk m (x, y)) by (auto; lia). unfold mx, my in *. rewrite E in *. unfold inside in Hi.
  pose proof w_range. pose proof h_range. cbn [fst snd].
  rewrite !to_i32_ok by (auto; unfold is_i32; lia). auto.
Qed.

Lemma init_full b0 : full blank /\ (blen b0 = w * h -> exists b, init_labels (w * h) b0 = Ok b /\ full b /\ forall x y, inside w h x y -> lab b x y = -1).
Proof.
  pose proof N_range. destruct Hmk as [Hn _]. split.
  - split; [reflexivity|]. intros i Hi. exists (-1). split; [|lia]. reflexivity.
  - intros HL. unfold init_labels. rewrite for_u32_small by lia.
    destruct (for_inv (fun k b => blen b = w * h /\ forall i, 0 <= i < k -> bget b i = Some (-1)) 0 (w * h)
      (fun i labels => store labels i (-1)) b0) as (b & E & Hb & Hv).
    + lia.
    + split; auto. intros; lia.
    + intros i s Hi [H1 H2]. rewrite store_ok by lia. eexists; split; [reflexivity|]. split; [auto|].
      intros j Hj. rewrite bget_bset. destruct (j =? i) eqn:E; auto. apply H2. lia.
    + exists b. split; auto. split.
      * split; auto. intros i Hi. exists (-1). split; auto. lia.
      * intros x y Hi. unfold lab. destruct (idx_ok x y Hi) as [_ B]. rewrite Hv; auto.
Qed.

Lemma place_ok b0 : full b0 -> exists q, place_markers w mk n (new_queue N) b0 = Ok (q, paint (mitems n) b0) /\
  qrep N q (mitems (Z.min n N)).
Proof.
  intros F0. unfold place_markers. pose proof N_range. destruct Hmk as [Hn _].
  match goal with |- context[for_ 0 n ?f ?s] => set (body := f) end.
  destruct (for_inv (fun k s => snd s = paint (mitems k) b0 /\ qrep N (fst s) (mitems (Z.min k N))) 0 n body (new_queue N, b0))
    as ([q l] & E & El & Q).
  - lia.
  - cbn [fst snd]. split; [reflexivity|]. unfold N at 3. replace (Z.min 0 (w * h)) with 0 by lia. apply qrep_new; auto.
  - intros m [q l] Hm. cbn [fst snd]. intros [-> Q]. unfold body.
    destruct (marker_cast m Hm) as (p & -> & E1 & E2 & _). cbn [bind]. rewrite E1, E2. cbn [bind].
    pose proof (marker_inside m Hm) as Hi. destruct (idx_ok _ _ Hi) as [-> B].
    rewrite s32_pos by lia.
    rewrite store_ok by (rewrite (proj1 (full_paint (mitems m) b0 F0 (mitems_ok m ltac:(lia)))); lia). cbn [bind].
    assert (EP : bset (paint (mitems m) b0) (my mk m * w + mx mk m) m = paint (mitems (m + 1)) b0).
    { rewrite mitems_succ by lia. rewrite paint_app. reflexivity. }
    rewrite EP. destruct (Z_lt_dec m N).
    + replace (Z.min m N) with m in Q by lia.
      destruct (enqueue_ok N N_range q _ (mx mk m) (my mk m) m Q) as (q' & -> & Q'). { rewrite mitems_length; lia. }
      cbn [bind]. eexists; split; [reflexivity|]. cbn [fst snd]. split; auto. replace (Z.min (m + 1) N) with (m + 1) by lia.
      rewrite mitems_succ by lia. exact Q'.
    + replace (Z.min m N) with N in Q by lia.
      rewrite (enqueue_full N q _ _ _ _ Q). 2:{ rewrite mitems_length; unfold N; lia. }
      cbn [bind]. eexists; split; [reflexivity|]. cbn [fst snd]. split; auto. replace (Z.min (m + 1) N) with N by lia. auto.
  - exists q. rewrite E. cbn [fst snd] in *. subst l. auto.
Qed.

(** Only marker pixels are labelled, each by a marker on it. *)
Definition sown (labels : buf Z) : Prop := full labels /\
  (forall x y, inside w h x y -> lab labels x y <> -1 -> mx mk (lab labels x y) = x /\ my mk (lab labels x y) = y) /\
  (forall m, 0 <= m < n -> lab labels (mx mk m) (my mk m) <> -1).

Lemma sown_good labels : sown labels -> good 0 labels.
Proof.
  intros (F & S1 & S2). split; auto.
  assert (C : forall x y, inside w h x y -> lab labels x y <> -1 -> forall j, rgn labels x y j).
  { intros x y Hi Hl j. unfold rgn. destruct (S1 x y Hi Hl) as [E1 E2].
    rewrite E1, E2. constructor. }
  split; [|split].
  - intros m Hm. pose proof (marker_inside m Hm) as Hi. pose proof (S2 m Hm) as Hl.
    destruct (S1 _ _ Hi Hl) as [E1 E2]. exists (lab labels (mx mk m) (my mk m)).
    pose proof (proj2 (lab_load labels _ _ F Hi)). split; [lia|auto].
  - intros x y Hi Hl. split; [|apply C; auto]. destruct (S1 x y Hi Hl) as [E1 E2]. rewrite E1, E2. reflexivity.
  - intros _. split; [intros; apply C; auto|]. intros x y Hi Hl HR.
    destruct (reach_last _ _ _ HR) as [(m & Hm & -> & ->)|(G & _)]; [exact (S2 m Hm Hl)|].
    pose proof (proj2 (gray_load x y Hi)). unfold byte in H. lia.
Qed.

Lemma sown_paint k labels : k <= n -> sown labels -> sown (paint (mitems k) labels).
Proof.
  intros Hk (F & S1 & S2). pose proof (mitems_ok k Hk) as HI. split; [apply full_paint; auto|].
  assert (X : forall x y, inside w h x y -> lab (paint (mitems k) labels) x y = lab labels x y \/
    (lab (paint (mitems k) labels) x y <> -1 /\ mx mk (lab (paint (mitems k) labels) x y) = x /\ my mk (lab (paint (mitems k) labels) x y) = y)).
  { intros x y Hi. destruct (lab_paint (mitems k) labels x y HI Hi) as [[H _]|H]; auto. right.
    apply mitems_In in H. destruct H as (m & Hm & E). unfold mitem in E. injection E as E1 E2 E3. rewrite E3. split; [lia|auto]. }
  split.
  - intros x y Hi Hl. destruct (X x y Hi) as [E|(_ & E1 & E2)]; auto. rewrite E in *. apply S1; auto.
  - intros m Hm. destruct (X _ _ (marker_inside m Hm)) as [E|(E & _)]; auto. rewrite E. apply S2; auto.
Qed.

Lemma sown_start b0 : full b0 -> (forall x y, inside w h x y -> lab b0 x y = -1) -> sown (paint (mitems n) b0).
Proof.
  intros F H0. pose proof (mitems_ok n ltac:(lia)) as HI. split; [apply full_paint; auto|]. split.
  - intros x y Hi Hl. destruct (lab_paint (mitems n) b0 x y HI Hi) as [[H _]|H].
    + rewrite H0 in H; auto; lia.
    + apply mitems_In in H. destruct H as (m & Hm & E). unfold mitem in E. injection E as E1 E2 E3. rewrite E3. auto.
  - intros m Hm Hl. pose proof (marker_inside m Hm) as Hi. destruct (lab_paint (mitems n) b0 _ _ HI Hi) as [[_ H]|H].
    + apply (H m). apply mitems_In. exists m. auto.
    + apply mitems_In in H. destruct H as (m' & Hm' & E). unfold mitem in E. injection E as E1 E2 E3. lia.
Qed.

(** Painting the markers twice changes nothing. *)
Lemma paint_twice l : Forall item_ok l -> forall a b u v, inside w h u v -> (exists k, In (u, v, k) l) ->
  lab (paint l a) u v = lab (paint l b) u v.
Proof.
  induction l as [|it l IH] using rev_ind; intros Ha a b u v Hi (k & HI); [contradiction|].
  rewrite !paint_app. apply Forall_app in Ha. destruct Ha as [Ha1 Ha2]. inversion Ha2; subst.
  destruct it as [[x y] kk]. destruct H1 as [Hxy _].
  change (paint [(x, y, kk)] (paint l a)) with (paint1 (paint l a) (x, y, kk)).
  change (paint [(x, y, kk)] (paint l b)) with (paint1 (paint l b) (x, y, kk)).
  rewrite !lab_paint1 by auto. destruct ((u =? x) && (v =? y)) eqn:E; auto.
  apply IH; auto. apply in_app_iff in HI. destruct HI as [HI|[HI|[]]]; [exists k; auto|]. inversion HI; subst. lia.
Qed.
Lemma repaint l a u v : Forall item_ok l -> inside w h u v -> lab (paint l (paint l a)) u v = lab (paint l a) u v.
Proof.
  intros Ha Hi. destruct (lab_paint l (paint l a) u v Ha Hi) as [[E _]|H]; auto.
  apply paint_twice; auto. eauto.
Qed.

(** ** Level 0, whose first search still finds the markers in the queue *)
Lemma level0_ok fuel q b0 : w * h + 1 < Z.of_nat fuel -> full b0 -> (forall x y, inside w h x y -> lab b0 x y = -1) ->
  qrep N q (mitems (Z.min n N)) ->
  exists q' labels', flood_level fuel w h gb bnd 0 (q, paint (mitems n) b0) = Ok (q', labels') /\
    qrep N q' [] /\ good 1 labels'.
Proof.
  intros Hfuel F0 H0 Q. pose proof N_range as HNr. destruct Hmk as [Hn _]. 
  pose proof (sown_start b0 F0 H0) as S1. set (L1 := paint (mitems n) b0) in *.
  pose proof (sown_good _ S1) as G1. pose proof G1 as (F1 & SD & _).
  unfold flood_level. destruct fuel as [|fuel']; [lia|]. cbn [while_]. set (fuel := S fuel') in *.
  destruct (scan_ok 0 L1 q _ F1 Q) as ([q2 ch] & -> & E & Q2 & HE & C1 & C2). cbn [bind fst snd] in *.
  assert (HI : Forall item_ok E) by (eapply Forall_impl; [|exact HE]; intros; eapply cand_item_ok; eauto).
  pose proof (mitems_ok (Z.min n N) ltac:(lia)) as HM.
  pose proof Q2 as (_ & _ & _ & Hlen & _).
  destruct (drain_ok fuel _ q2 L1 Q2 F1 ltac:(apply Forall_app; auto)) as (q3 & -> & Q3). { assert (NE : N = w * h) by reflexivity. lia. }
  cbn [bind]. rewrite paint_app.
  set (L2 := paint E (paint (mitems (Z.min n N)) L1)).
  (* the labels after the first step, and the level is closed if nothing changed *)
  assert (FP : full (paint (mitems (Z.min n N)) L1)) by (apply full_paint; auto).
  assert (G2 : good 0 L2 /\ (E = [] -> sown L2)).
  { destruct (Z_le_dec n N) as [Hle|Hgt].
    - unfold L2. replace (Z.min n N) with n in * by lia.
      assert (EX : forall u v, inside w h u v -> lab L1 u v = lab (paint (mitems n) L1) u v).
      { intros u v Hi. symmetry. unfold L1. apply repaint; auto. }
      split; [|intros ->; apply sown_paint; auto; lia].
      apply good_ext with (a := paint E L1).
      + apply full_paint; auto.
      + intros u v Hi. apply paint_ext; auto.
      + apply good_extend; auto.
    - assert (E = []). { rewrite app_length in Hlen. rewrite Nat2Z.inj_add, mitems_length in Hlen by (unfold N; lia). destruct E; auto. cbn [length] in Hlen. lia. }
      subst E. assert (sown L2) by (apply sown_paint; auto; lia). split; auto. apply sown_good; auto. }
  destruct G2 as [G2 S2].
  assert (UP : forall labels, good 0 labels -> (bnd = false -> forall x y, inside w h x y -> lab labels x y = -1 -> ~ reach 0 x y) -> good 1 labels).
  { intros labels (F & S & C & O) HR. split; auto. split; auto. split.
    - intros x y Hi Hl. destruct (C x y Hi Hl) as [C1' C2']. split; auto. unfold rgn in *. eapply flows_mono; [|exact C2'].
      cbn; intros; lia.
    - intros HB. split; [apply O; auto|]. intros x y Hi Hl. replace (1 - 1) with 0 by lia. apply HR; auto. }
  destruct ch.
  - destruct (level_ok fuel 0 q3 L2 Hfuel fuel') as (q' & labels' & EW & Q' & G' & CL'); auto.
    { pose proof (unl_range L2). lia. }
    exists q', labels'. split; [exact EW|]. split; auto. apply UP; auto.
    intros HB. apply closed_unreached; auto; apply G'.
  - exists q3, L2. split; auto. split; auto. apply UP; auto. destruct (C1 eq_refl) as [EE C3].
    specialize (S2 EE). intros HB x y Hi Hl.
    apply (closed_unreached 0 L1 HB F1 SD); auto. { intros u v l. apply C3; auto. }
    (* L1 and L2 label the same pixels *)
    destruct (Z.eq_dec (lab L1 x y) (-1)) as [|Hl1]; auto. exfalso.
    destruct S1 as (_ & S1 & _). destruct (S1 x y Hi Hl1) as [X1 X2].
    destruct S2 as (_ & _ & S2). apply (S2 (lab L1 x y)).
    + pose proof (proj2 (lab_load L1 x y F1 Hi)). lia.
    + rewrite X1, X2. auto.
Qed.

Lemma flood_ok fuel q b0 : w * h + 1 < Z.of_nat fuel -> full b0 -> (forall x y, inside w h x y -> lab b0 x y = -1) ->
  qrep N q (mitems (Z.min n N)) ->
  exists q' labels', flood fuel w h gb bnd (q, paint (mitems n) b0) = Ok (q', labels') /\
    good 256 labels' /\ closed 255 labels'.
Proof.
  intros Hfuel F0 H0 Q. unfold flood. rewrite for_step by lia.
  destruct (level0_ok fuel q b0 Hfuel F0 H0 Q) as (q1 & l1 & -> & Q1 & G1). cbn [bind].
  match goal with |- context[for_ _ 256 ?f ?s] => set (body := f) end.
  destruct (for_inv (fun k s => qrep N (fst s) [] /\ good k (snd s) /\ (1 < k -> closed (k - 1) (snd s))) 1 256 body (q1, l1))
    as ([q' l'] & E & Q' & G' & CL).
  - lia.
  - cbn [fst snd]. split; auto. split; auto. intros; lia.
  - intros k [q2 l2] Hk. cbn [fst snd]. intros (Q2 & G2 & _). unfold body, flood_level.
    destruct (level_ok fuel k q2 l2 Hfuel fuel) as (q' & l' & EW & Q' & G' & CL'); auto.
    { pose proof (unl_range l2). lia. }
    exists (q', l'). split; auto. cbn [fst snd]. split; auto. split; [|intros _; replace (k + 1 - 1) with k by lia; auto].
    destruct G' as (F & S & C & O). split; auto. split; auto. split.
    + intros x y Hi Hl. destruct (C x y Hi Hl) as [C1' C2']. split; auto. unfold rgn in *. eapply flows_mono; [|exact C2'].
      cbn; intros; lia.
    + intros HB. split; [apply O; auto|]. intros x y Hi Hl. replace (k + 1 - 1) with k by lia.
      apply (closed_unreached k l' HB F S CL'); auto.
  - exists q', l'. cbn [fst snd] in *. split; auto. split; auto. apply CL. lia.
Qed.
End Flood.

(** ** Checking the markers *)
Lemma get_pts_ok s i b : mem s i = Some (OPts b) -> get_pts (Ptr i) s = Ok (b, s).
Proof. unfold get_pts, bindM, get_obj; intros ->; reflexivity. Qed.
Lemma get_ints_ok s i b : mem s i = Some (OInts b) -> get_ints (Ptr i) s = Ok (b, s).
Proof. unfold get_ints, bindM, get_obj; intros ->; reflexivity. Qed.

Lemma check_ok w h mk n : 0 < w -> 0 < h -> w * h <= 2147483647 -> markers_ok w h mk n ->
  check_markers w h mk n = Ok true.
Proof.
  intros Hw Hh HN Hmk. unfold check_markers.
  match goal with |- context[for_brk 0 n ?f ?s] => set (body := f) end.
  pose proof (w_range w h Hw Hh HN). pose proof (h_range w h Hw Hh HN).
  destruct (for_brk_inv (fun _ (_ : unit) => True) (fun _ => False) 0 n body tt) as [([] & -> & _)|([] & _ & [])]; auto.
  - destruct Hmk; lia.
  - intros m [] Hm _. left. exists tt. split; auto. unfold body.
    destruct (marker_cast w h n mk Hw Hh HN Hmk m Hm) as (p & -> & E1 & E2 & F1 & F2). cbn [bind].
    rewrite F1, F2. cbn [negb orb]. rewrite E1, E2. cbn [bind].
    destruct (marker_inside w h n mk Hmk m Hm) as [Hx Hy]. rewrite !s32_pos by lia.
    replace (_ || _) with false by lia. reflexivity.
Qed.

(** A marker outside the picture or without finite coordinates. *)
Definition bad_marker (w h : Z) (mk : buf (f64 * f64)) (m : Z) : Prop := ~ (finite_marker mk m /\ inside w h (mx mk m) (my mk m)).
(** Every marker exists, and its finite coordinates are in the range of int. *)
Definition small_markers (mk : buf (f64 * f64)) (n : Z) : Prop := n <= blen mk /\
  forall m, 0 <= m < n -> exists x y, bget mk m = Some (x, y) /\ is_i32 (int_part x) /\ is_i32 (int_part y).

Lemma check_bad w h mk n m : 0 < w <= 2147483647 -> 0 < h <= 2147483647 -> small_markers mk n -> 0 <= m < n ->
  bad_marker w h mk m -> check_markers w h mk n = Ok false.
Proof.
  intros Hw Hh [Hl Hs] Hm Hb. unfold check_markers.
  match goal with |- context[for_brk 0 n ?f ?s] => set (body := f) end.
  destruct (for_brk_inv (fun k (_ : unit) => k <= m) (fun _ => True) 0 n body tt) as [([] & _ & H)|([] & -> & _)]; auto; try lia.
  intros k [] Hk Hkm. destruct (Hs k Hk) as (x & y & E & Ix & Iy).
  assert (EV : body k tt = Ok (inr tt) \/ (body k tt = Ok (inl tt) /\ k <> m)).
  { unfold body. rewrite (load_ok mk k (x, y)) by (auto; lia). cbn [bind fst snd].
    destruct (dfinite x) eqn:Fx; [|auto]. destruct (dfinite y) eqn:Fy; [|auto]. cbn [negb orb].
    rewrite !to_i32_ok by auto. cbn [bind]. rewrite !s32_pos by lia.
    destruct ((int_part x <? 0) || (w <=? int_part x) || (int_part y <? 0) || (h <=? int_part y)) eqn:EI; auto.
    right. split; auto. intros ->. apply Hb. split.
    - exists x, y. auto.
    - unfold mx, my. rewrite E. unfold inside. lia. }
  destruct EV as [EV|[EV Hne]].
  - right. exists tt. auto.
  - left. exists tt. split; auto. lia.
Qed.

(** ** Painting *)
Lemma colors_agree l : -1 <= l -> color_of l = region_colour l.
Proof.
  intros Hl. unfold color_of, region_colour. destruct (l =? -1) eqn:E; auto.
  destruct ((0 <=? l) && (l <? 10)) eqn:E2.
  - assert (l = 0 \/ l = 1 \/ l = 2 \/ l = 3 \/ l = 4 \/ l = 5 \/ l = 6 \/ l = 7 \/ l = 8 \/ l = 9) as D by lia.
    decompose [or] D; subst; reflexivity.
  - rewrite nth_overflow; auto. cbn [length]. lia.
Qed.
Lemma colour_bytes l : let '(r, g, b) := region_colour l in byte r /\ byte g /\ byte b.
Proof.
  assert (H : forall c, In c [(0,0,0); (255,0,0); (0,255,0); (0,0,255); (255,255,0); (255,0,255); (0,255,255); (255,128,0); (128,0,255); (255,192,203); (128,128,128)] ->
    let '(r, g, b) := c in byte r /\ byte g /\ byte b).
  { intros c Hc. repeat (destruct Hc as [<-|Hc]; [unfold byte; lia|]). destruct Hc. }
  apply (H (region_colour l)). unfold region_colour. destruct (l =? -1); [left; reflexivity|right].
  match goal with |- In (nth ?k ?t ?d) _ => destruct (nth_in_or_default k t d) as [C|C]; [|rewrite C; cbn [In]; tauto]; revert C; generalize (nth k t d) end.
  intros z C. cbn [In] in C |- *. tauto.
Qed.

Lemma paint_labels_ok w h n labels : 0 < w -> 0 < h -> w * h <= 1073741824 -> full w h n labels ->
  exists b, paint_labels (w * h) labels (bnew (w * h * 4)) = Ok b /\ coloured w h (lab w labels) b.
Proof.
  intros Hw Hh HN F. unfold paint_labels. rewrite for_u32_small by lia.
  set (LB := w * h * 4).
  set (val := fun i c => let '(r, g, b) := region_colour (match bget labels i with Some v => v | None => -1 end) in
     if c =? 0 then Some r else if c =? 1 then Some g else if c =? 2 then Some b else Some 255).
  destruct (loop1d_writes LB 4 (w * h) (fun i => i * 4) val
    (fun i output =>
      let rgba_idx := u32 (i * 4) in
      label <- load labels i ;;
      let '(r, g, b) := color_of label in
      output <- store output rgba_idx r ;;
      output <- store output (u32 (rgba_idx + 1)) g ;;
      output <- store output (u32 (rgba_idx + 2)) b ;;
      store output (u32 (rgba_idx + 3)) 255) (bnew LB)) as (b & E & Hb & Hv).
  - nia.
  - reflexivity.
  - intros i Hi b Eb. destruct (proj2 F i Hi) as (v & Ev & Hr). rewrite (load_ok labels i v) by (auto; destruct F as [-> _]; lia).
    cbn [bind]. rewrite colors_agree by lia. unfold val. rewrite Ev.
    destruct (region_colour v) as [[r g] bl]. unfold LB in *.
    rewrite (u32_small (i * 4)) by lia. rewrite !u32_small by lia.
    rewrite store_ok by lia. cbn [bind]. rewrite store_ok by (rewrite ?blen_bset; lia). cbn [bind].
    rewrite store_ok by (rewrite ?blen_bset; lia). cbn [bind]. rewrite store_ok by (rewrite ?blen_bset; lia).
    eexists; split; [reflexivity|]. split; [rewrite !blen_bset; auto|].
    intros j. rewrite !bget_bset.
    destruct ((i * 4 <=? j) && (j <? i * 4 + 4)) eqn:EJ.
    + assert (j - i * 4 = 0 \/ j - i * 4 = 1 \/ j - i * 4 = 2 \/ j - i * 4 = 3) as [C|[C|[C|C]]] by lia; rewrite C.
      * replace (j =? i * 4 + 3) with false by lia. replace (j =? i * 4 + 2) with false by lia.
        replace (j =? i * 4 + 1) with false by lia. replace (j =? i * 4) with true by lia. reflexivity.
      * replace (j =? i * 4 + 3) with false by lia. replace (j =? i * 4 + 2) with false by lia.
        replace (j =? i * 4 + 1) with true by lia. reflexivity.
      * replace (j =? i * 4 + 3) with false by lia. replace (j =? i * 4 + 2) with true by lia. reflexivity.
      * replace (j =? i * 4 + 3) with true by lia. reflexivity.
    + replace (j =? i * 4 + 3) with false by lia. replace (j =? i * 4 + 2) with false by lia.
      replace (j =? i * 4 + 1) with false by lia. replace (j =? i * 4) with false by lia. reflexivity.
  - intros; lia.
  - exists b. split; [exact E|]. split.
    + split; [exact Hb|]. split; [unfold LB in *; lia|]. intros i Hi.
      destruct (px_decomp w h 4 i) as (x & y & c & Hx & Hy & Hc & ->); [lia|lia|unfold LB in *; lia|].
      pose proof (rm_bound w h x y Hx Hy) as B.
      rewrite Hv by lia. unfold val.
      set (lb := match bget labels (y * w + x) with Some v => v | None => -1 end).
      pose proof (colour_bytes lb) as CB. destruct (region_colour lb) as [[r g] bl]. destruct CB as (B1 & B2 & B3).
      destruct (c =? 0); [eauto|]. destruct (c =? 1); [eauto|]. destruct (c =? 2); [eauto|]. exists 255. split; auto. unfold byte; lia.
    + intros x y [Hx Hy]. pose proof (rm_bound w h x y Hx Hy) as B. unfold pixv, pix.
      rewrite !Hv by lia. unfold val, lab.
      destruct (region_colour _) as [[r g] bl]. cbn [Z.eqb]. auto.
Qed.

(** ** The whole function *)
Definition result_ok w h b mk n (bnd : bool) (b' : buf Z) : Prop :=
  exists L, coloured w h L b' /\ labelling w h n L /\ seeded n mk L /\ connected w h mk L /\
    (bnd = false -> (forall x y, inside w h x y -> L x y <> -1) /\ watershed_of w h (fun x y => pixv b w 1 x y 0) mk n L) /\
    only_boundaries_black w h L.

Lemma good_result w h n mk b bnd labels b' : 0 < w -> 0 < h -> w * h <= 2147483647 -> markers_ok w h mk n -> image (w * h) b ->
  good w h n mk b bnd 256 labels -> closed w h b bnd 255 labels -> coloured w h (lab w labels) b' ->
  result_ok w h b mk n bnd b'.
Proof.
  intros Hw Hh HN Hmk Hb (F & S & C & O) CL HC. exists (lab w labels). split; auto.
  assert (GB : forall x y, inside w h x y -> g w b x y <= 255).
  { intros x y Hi. pose proof (proj2 (gray_load w h b Hw Hh HN Hb x y Hi)) as HG. unfold byte in HG. lia. }
  split. { intros x y Hi. exact (proj2 (lab_load w h n Hw Hh HN labels x y F Hi)). }
  split; auto. split.
  { intros x y Hi Hl. destruct (C x y Hi Hl) as [C1 C2]. split; auto. eapply flows_mono; [|exact C2]. cbn; intros; tauto. }
  split.
  - intros HB. destruct (O HB) as [O1 O2]. split.
    + intros x y Hi Hl. apply (O2 x y Hi Hl). exists 0. destruct Hmk as (Hn & _ & Hmk). split; [lia|].
      eapply flows_mono; [|apply grid_connected; [apply Hmk; lia|exact Hi]]. cbn. intros u v Hu _. specialize (GB u v Hu). lia.
    + intros x y Hi Hl j Hj. exact (O1 x y Hi Hl j Hj).
  - intros x y u v Hi Hl Hu Ha Hlu.
    destruct (find_neighbor_ok w h n Hw Hh HN labels x y F Hi) as (nl & mult & EN & P1 & P2 & P3 & P4).
    assert (Hnl : nl <> -1) by (intros C1; apply Hlu; apply (P1 C1); auto).
    destruct mult.
    + destruct (P4 eq_refl) as (_ & u' & v' & Hu' & Ha' & Hl' & Hd).
      destruct (Z.eq_dec (lab w labels u v) nl) as [Ee|Ee].
      * exists u', v'. split; auto. split; auto. split; auto. congruence.
      * destruct (P2 Hnl) as (u2 & v2 & Hu2 & Ha2 & El2). exists u2, v2. split; auto. split; auto. split; congruence.
    + exfalso. apply (CL x y nl). split; auto. split; auto. split; [apply GB; auto|]. split; auto. exists false. auto.
Qed.

Lemma create_queue_cases s N : wf s -> 0 < N <= 2147483647 ->
  (create_queue N s = Ok (None, mkst (mem s) (nxt s) (orc s) (S (tick s))) /\ orc s (tick s) = false) \/
  (exists o, create_queue N s = Ok (None, mkst (upd (upd (mem s) (nxt s) (Some o)) (nxt s) None) (nxt s + 1) (orc s) (S (S (tick s)))) /\
     orc s (S (tick s)) = false) \/
  (exists o1 o2, create_queue N s = Ok (Some (Ptr (nxt s), Ptr (nxt s + 1), new_queue N),
     mkst (upd (upd (mem s) (nxt s) (Some o1)) (nxt s + 1) (Some o2)) (nxt s + 1 + 1) (orc s) (S (S (tick s))))).
Proof.
  intros Hwf HN. unfold create_queue. change (SIZE_MAX / 12) with 1537228672809129301. unfold INT_MAX.
  replace ((N =? 0) || (1537228672809129301 <? N) || (2147483647 <? N)) with false by lia. cbv iota.
  halloc EA O1; [exact Hwf|left; auto|right].
  halloc EA O2; [wf_tac Hwf| |].
  - left. hfree. eexists. split; [reflexivity|auto].
  - right. eexists _, _. reflexivity.
Qed.

Lemma watershed_core fuel w h s p q b mk n bnd (P : buf Z -> Prop) :
  wf s -> 0 < w -> 0 < h -> w * h <= 2147483647 ->
  holds s p b -> holds_pts s q mk -> markers_ok w h mk n ->
  (forall q0 b0, full w h n b0 -> (forall x y, inside w h x y -> lab w b0 x y = -1) ->
     qrep (w * h) q0 (mitems mk (Z.min n (w * h))) ->
     exists q1 lb b', flood fuel w h b bnd (q0, paint w (mitems mk n) b0) = Ok (q1, lb) /\
       paint_labels (w * h) lb (bnew (w * h * 4)) = Ok b' /\ P b') ->
  returns_fresh s (watershed fuel w h p q n bnd s) P.
Proof.
  intros Hwf Hw Hh HN (ip & -> & Mp) (iq & -> & Mq) Hmk HFL.
  pose proof (N_range w h Hw Hh HN) as HNr.
  unfold watershed. change (is_null (Ptr ip)) with false. change (is_null (Ptr iq)) with false. cbn [orb].
  replace (n =? 0) with false by (destruct Hmk; lia). cbv iota.
  replace ((w =? 0) || (h =? 0)) with false by lia. cbv iota.
  rewrite (bindM_Ok _ _ _ _ _ (get_pts_ok s iq mk Mq)).
  rewrite (bindM_lift _ _ _ _ (check_ok w h mk n Hw Hh HN Hmk)). cbn [negb]. cbv iota.
  replace (SIZE_MAX / h <? w) with false.
  2:{ symmetry. apply Z.ltb_ge. apply Z.div_le_lower_bound; unfold SIZE_MAX; lia. }
  rewrite (u64_small (w * h)) by lia.
  change (SIZE_MAX / 4) with 4611686018427387903.
  replace (4611686018427387903 <? w * h) with false by lia. cbv iota.
  pose proof (holds_lt s ip _ Hwf Mp) as Lp. pose proof (holds_lt s iq _ Hwf Mq) as Lq.
  unfold malloc_bytes. halloc EA O1; [exact Hwf| |].
  { exists Null. eexists. split; [reflexivity|]. split; [later_tac Hwf|]. split; [mem_same Hwf|]. exists (tick s). cbn [tick]. split; auto; lia. }
  halloc EA O2; [wf_tac Hwf| |].
  { hfree. exists Null. eexists. split; [reflexivity|]. split; [later_tac Hwf|]. split; [mem_same Hwf|]. exists (S (tick s)). cbn [tick]. split; auto; lia. }
  erewrite bindM_Ok; [|eapply get_ints_ok; mem_lookup]. cbv beta.
  destruct (proj2 (init_full w h n mk Hw Hh HN Hmk (bnew (w * h))) eq_refl) as (b0 & EI & F0 & B0).
  hlift EI.
  destruct (place_ok w h n mk Hw Hh HN Hmk b0 F0) as (q0 & EP & Q0).
  destruct (HFL q0 b0 F0 B0 Q0) as (q1 & lb & b' & EF & EB & HR).
  clear Q0 F0 B0 EI.
  match goal with |- context [bindM (create_queue _) _ ?s0] => set (s2 := s0) end.
  assert (W2 : wf s2) by (unfold s2; wf_tac Hwf).
  destruct (create_queue_cases s2 (w * h) W2 HNr) as [(E & O3)|[(o & E & O3)|(o1 & o2 & E)]];
    rewrite (bindM_Ok _ _ _ _ _ E); clear E; cbv beta iota; unfold s2 in *; clear s2; cbn [mem nxt orc tick] in *.
  - hfree. hfree. exists Null. eexists. split; [reflexivity|]. split; [later_tac Hwf|]. split; [mem_same Hwf|]. eexists. cbn [tick].
    split; [|exact O3]. lia.
  - hfree. hfree. exists Null. eexists. split; [reflexivity|]. split; [later_tac Hwf|]. split; [mem_same Hwf|]. eexists. cbn [tick].
    split; [|exact O3]. lia.
  - hlift EP. hget. hlift EF. unfold destroy_queue.
    erewrite bindM_Ok; [|erewrite bindM_Ok; [|eapply free_ok; mem_lookup]; cbv beta; cbn [mem nxt orc tick]; eapply free_ok; mem_lookup].
    cbv beta. cbn [mem nxt orc tick]. hget. cbn [snd]. hlift EB. hput. hfree.
    unfold ret. eexists _, _. split; [reflexivity|]. split; [later_tac Hwf|]. split; [apply Hwf; lia|]. split.
    + exists b'. split; [mem_lookup|exact HR].
    + intros j Hj. revert j Hj. intros j Hj. cbn [mem]. unfold upd.
      repeat match goal with |- context [?a =? ?b] => destruct (Z.eqb_spec a b) end; subst; try lia; try (symmetry; apply Hwf; lia); reflexivity.
Qed.

Lemma watershed_gen fuel w h s p q b mk n bnd (P : buf Z -> Prop) :
  wf s -> 0 < w -> 0 < h -> w * h <= 2147483647 -> w * h + 1 < Z.of_nat fuel ->
  holds s p b -> image (w * h) b -> holds_pts s q mk -> markers_ok w h mk n ->
  (forall lb, good w h n mk b bnd 256 lb -> closed w h b bnd 255 lb ->
     exists b', paint_labels (w * h) lb (bnew (w * h * 4)) = Ok b' /\ P b') ->
  returns_fresh s (watershed fuel w h p q n bnd s) P.
Proof.
  intros Hwf Hw Hh HN Hfuel Hp Hb Hq Hmk HPT. eapply watershed_core; eauto. intros q0 b0 F0 B0 Q0.
  destruct (flood_ok w h n mk b bnd Hw Hh HN Hmk Hb fuel q0 b0 Hfuel F0 B0 Q0) as (q1 & lb & EF & G & CL).
  destruct (HPT lb G CL) as (b' & EB & HR). exists q1, lb, b'. auto.
Qed.

Lemma watershed_ok fuel w h s p q b mk n bnd : wf s -> 0 < w -> 0 < h -> w * h <= 1073741824 -> w * h + 1 < Z.of_nat fuel ->
  holds s p b -> image (w * h) b -> holds_pts s q mk -> markers_ok w h mk n ->
  returns_fresh s (watershed fuel w h p q n bnd s) (result_ok w h b mk n bnd).
Proof.
  intros Hwf Hw Hh HN Hfuel Hp Hb Hq Hmk. eapply watershed_gen; eauto; [lia|]. intros lb G CL.
  destruct (paint_labels_ok w h n lb Hw Hh HN (proj1 G)) as (b' & EB & HC). exists b'. split; auto.
  apply (good_result w h n mk b bnd lb b'); auto. lia.
Qed.

(** ** Too many pixels *)
Lemma paint_labels_wraps w h n labels : 0 < w -> 0 < h -> 1073741824 < w * h <= 2147483647 -> full w h n labels ->
  exists b, paint_labels (w * h) labels (bnew (w * h * 4)) = Ok b /\ blen b = w * h * 4 /\
    forall i, 4294967296 <= i -> bget b i = None.
Proof.
  intros Hw Hh HN F. unfold paint_labels. rewrite for_u32_small by lia.
  match goal with |- context[for_ 0 _ ?f _] => set (body := f) end.
  destruct (for_inv (fun _ b => blen b = w * h * 4 /\ forall i, 4294967296 <= i -> bget b i = None) 0 (w * h) body (bnew (w * h * 4)))
    as (b & E & Hb).
  - lia.
  - split; [reflexivity|]. intros; reflexivity.
  - intros i b Hi [Eb Hn]. unfold body. destruct (proj2 F i Hi) as (v & Ev & Hr).
    rewrite (load_ok labels i v) by (auto; destruct F as [-> _]; lia). cbn [bind].
    destruct (color_of v) as [[r g] bl].
    pose proof (u32_range (i * 4)) as R0. set (j := u32 (i * 4)) in *.
    pose proof (u32_range (j + 1)) as R1. pose proof (u32_range (j + 2)) as R2. pose proof (u32_range (j + 3)) as R3. unfold U32 in *.
    rewrite store_ok by lia. cbn [bind]. rewrite store_ok by (rewrite ?blen_bset; lia). cbn [bind].
    rewrite store_ok by (rewrite ?blen_bset; lia). cbn [bind]. rewrite store_ok by (rewrite ?blen_bset; lia).
    eexists; split; [reflexivity|]. split; [rewrite !blen_bset; auto|].
    intros k Hk. rewrite !bget_bset.
    replace (k =? u32 (j + 3)) with false by lia. replace (k =? u32 (j + 2)) with false by lia.
    replace (k =? u32 (j + 1)) with false by lia. replace (k =? j) with false by lia. auto.
  - exists b. auto.
Qed.

Lemma watershed_wraps fuel w h s p q b mk n bnd : wf s -> 0 < w -> 0 < h -> 1073741824 < w * h <= 2147483647 ->
  w * h + 1 < Z.of_nat fuel -> holds s p b -> image (w * h) b -> holds_pts s q mk -> markers_ok w h mk n ->
  returns_fresh s (watershed fuel w h p q n bnd s)
    (fun b' => forall x y c, inside w h x y -> 1073741824 <= y * w + x -> 0 <= c < 4 -> pix b' w 4 x y c = None).
Proof.
  intros Hwf Hw Hh HN Hfuel Hp Hb Hq Hmk. eapply watershed_gen; eauto; [lia|]. intros lb G CL.
  destruct (paint_labels_wraps w h n lb Hw Hh HN (proj1 G)) as (b' & EB & HC & HV). exists b'. split; auto.
  intros x y c Hi Hl Hc. unfold pix. apply HV. lia.
Qed.

Lemma watershed_hangs fuel w h s p q mk n bnd : wf s -> is_i32 w -> is_i32 h -> 0 < w -> 0 < h -> 4294967296 <= w * h ->
  p <> Null -> holds_pts s q mk -> 0 < n <= blen mk ->
  (forall m, 0 <= m < n -> finite_marker mk m /\ inside w h (mx mk m) (my mk m)) ->
  orc s (tick s) = true -> orc s (S (tick s)) = true ->
  watershed fuel w h p q n bnd s = Hang.
Proof.
  intros Hwf Iw Ih Hw Hh HN Hp (iq & -> & Mq) Hn Hm O1 O2. unfold is_i32 in *.
  assert (HM : w * h <= 2147483647 * 2147483647) by (apply Z.mul_le_mono_nonneg; lia).
  destruct p as [|ip]; [congruence|].
  unfold watershed. change (is_null (Ptr ip)) with false. change (is_null (Ptr iq)) with false. cbn [orb].
  replace (n =? 0) with false by lia. cbv iota.
  replace ((w =? 0) || (h =? 0)) with false by lia. cbv iota.
  rewrite (bindM_Ok _ _ _ _ _ (get_pts_ok s iq mk Mq)).
  assert (C : check_markers w h mk n = Ok true).
  { unfold check_markers. match goal with |- context[for_brk 0 n ?f ?s] => set (body := f) end.
    destruct (for_brk_inv (fun _ (_ : unit) => True) (fun _ => False) 0 n body tt) as [([] & -> & _)|([] & _ & [])]; auto; [lia|].
    intros m [] Hm' _. left. exists tt. split; auto. unfold body. destruct (Hm m Hm') as [(x & y & E & Fx & Fy) [Ix Iy]].
    rewrite (load_ok mk m (x, y)) by (auto; lia). unfold mx, my in *. rewrite E in *. cbn [bind fst snd].
    rewrite Fx, Fy. cbn [negb orb]. rewrite !to_i32_ok by (auto; unfold is_i32; lia). cbn [bind]. rewrite !s32_pos by lia.
    replace (_ || _) with false by lia. reflexivity. }
  rewrite (bindM_lift _ _ _ _ C). cbn [negb]. cbv iota.
  replace (SIZE_MAX / h <? w) with false.
  2:{ symmetry. apply Z.ltb_ge. apply Z.div_le_lower_bound; unfold SIZE_MAX; lia. }
  rewrite (u64_small (w * h)) by lia.
  change (SIZE_MAX / 4) with 4611686018427387903.
  replace (4611686018427387903 <? w * h) with false by lia. cbv iota.
  unfold malloc_bytes. halloc EA O3; [exact Hwf| |]; [exfalso; rewrite O1 in O3; discriminate|].
  halloc EA O4; [wf_tac Hwf| |]; [exfalso; rewrite O2 in O4; discriminate|].
  erewrite bindM_Ok; [|eapply get_ints_ok; mem_lookup]. cbv beta.
  assert (EH : init_labels (w * h) (bnew (w * h)) = Hang).
  { unfold init_labels, for_u32. unfold U32. replace (w * h <? 4294967296) with false by lia.
    destruct (for_inv (fun _ (b : buf Z) => blen b = w * h) 0 4294967296 (fun i labels => store labels i (-1)) (bnew (w * h))) as (b & E & _).
    - lia.
    - reflexivity.
    - intros i b Hi Hb. rewrite store_ok by lia. eexists; split; [reflexivity|]. auto.
    - rewrite E. reflexivity. }
  unfold bindM at 1. unfold lift at 1. rewrite EH. reflexivity.
Qed.

(** ** Rejected calls *)
Lemma watershed_rejects fuel w h s p q mk n bnd : wf s -> is_u32 w -> is_u32 h -> holds_pts s q mk ->
  (p = Null \/ n = 0 \/ w = 0 \/ h = 0 \/
   (is_i32 w /\ is_i32 h /\ small_markers mk n /\ exists m, 0 <= m < n /\ bad_marker w h mk m)) ->
  watershed fuel w h p q n bnd s = Ok (Null, s) /\ watershed fuel w h p Null n bnd s = Ok (Null, s).
Proof.
  intros Hwf Hw Hh (iq & -> & Mq) H. unfold watershed. change (is_null (Ptr iq)) with false.
  change (is_null Null) with true. rewrite !orb_false_r, !orb_true_r. cbn [orb]. cbv iota. split; [|reflexivity].
  unfold is_u32, is_i32 in *.
  destruct (is_null p) eqn:EP; [reflexivity|]. cbn [orb].
  destruct (n =? 0) eqn:En; [reflexivity|]. destruct ((w =? 0) || (h =? 0)) eqn:Ewh; [reflexivity|].
  destruct H as [->|[->|[->|[->|(Iw & Ih & Sm & m & Hm & Bm)]]]]; try discriminate; try lia.
  rewrite (bindM_Ok _ _ _ _ _ (get_pts_ok s iq mk Mq)).
  assert (C : check_markers w h mk n = Ok false) by (apply (check_bad w h mk n m); auto; lia).
  rewrite (bindM_lift _ _ _ _ C). reflexivity.
Qed.

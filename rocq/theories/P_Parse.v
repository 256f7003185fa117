(** * Proofs for the command-line parser *)
From Verif Require Import Base BaseLemmas F M_Color Spec_Parse M_Parse.

(** ** Geometry *)
Lemma isdigit_iff c : isdigit c = true <-> is_digit c.
Proof. unfold isdigit, is_digit. lia. Qed.
Lemma isspace_iff c : isspace c = true <-> is_white c.
Proof. unfold isspace, is_white. lia. Qed.

Lemma read_digits_app ds : Forall is_digit ds -> forall acc r, (forall c t, r = c :: t -> isdigit c = false) ->
  read_digits acc (ds ++ r) = (decimal acc ds, r).
Proof.
  induction 1 as [|c ds Hc _ IH]; intros acc r Hr; cbn [app read_digits decimal].
  - destruct r as [|c t]; [reflexivity|]. cbn [read_digits]. rewrite (Hr c t eq_refl). reflexivity.
  - apply isdigit_iff in Hc. rewrite Hc. apply IH; auto.
Qed.

Lemma read_digits_inv s : forall acc v r, read_digits acc s = (v, r) ->
  exists ds, s = ds ++ r /\ Forall is_digit ds /\ v = decimal acc ds.
Proof.
  induction s as [|c t IH]; intros acc v r E; cbn [read_digits] in E.
  - injection E as <- <-. exists []. auto.
  - destruct (isdigit c) eqn:D.
    + destruct (IH _ _ _ E) as (ds & -> & F & ->). exists (c :: ds). split; [reflexivity|]. split; [|reflexivity].
      constructor; auto. apply isdigit_iff; auto.
    + injection E as <- <-. exists []. auto.
Qed.

Lemma ltrim_app ws s : Forall is_white ws -> ltrim (ws ++ s) = ltrim s.
Proof. induction 1 as [|c ws Hc _ IH]; [reflexivity|]. cbn [app ltrim]. apply isspace_iff in Hc. rewrite Hc. exact IH. Qed.
Lemma ltrim_split s : exists ws, s = ws ++ ltrim s /\ Forall is_white ws.
Proof.
  induction s as [|c t (ws & IH & F)]; [exists []; auto|]. cbn [ltrim]. destruct (isspace c) eqn:E.
  - exists (c :: ws). split; [cbn [app]; f_equal; exact IH|]. constructor; auto. apply isspace_iff; auto.
  - exists []. auto.
Qed.
Lemma ltrim_id c t : isspace c = false -> ltrim (c :: t) = c :: t.
Proof. intros E. cbn [ltrim]. rewrite E. reflexivity. Qed.

Definition no_digit (r : cstr) : Prop := forall c t, r = c :: t -> isdigit c = false.

Lemma read_number_digits ds n r : numeral ds n -> no_digit r -> read_number (ds ++ r) = Some (false, n, r).
Proof.
  intros (Hne & HF & Hv) Hr. destruct ds as [|c ds]; [congruence|]. inversion HF as [|? ? Hc HF']; subst.
  unfold read_number. cbn [app]. rewrite ltrim_id by (unfold is_digit in Hc; unfold isspace; lia).
  unfold is_digit in Hc. replace (c =? 45) with false by lia. replace (c =? 43) with false by lia. cbv iota beta.
  pose proof (proj2 (isdigit_iff c) Hc) as D. rewrite D.
  change (c :: ds ++ r) with ((c :: ds) ++ r). rewrite read_digits_app; auto.
Qed.
Lemma read_number_signed g ds n r : numeral ds n -> no_digit r ->
  read_number (sign_char g :: ds ++ r) = Some (match g with Plus => false | Minus => true end, n, r).
Proof.
  intros (Hne & HF & Hv) Hr. destruct ds as [|c ds]; [congruence|]. inversion HF as [|? ? Hc HF']; subst.
  pose proof (proj2 (isdigit_iff c) Hc) as D. cbn [app].
  assert (RD : read_digits 0 (c :: ds ++ r) = (decimal 0 (c :: ds), r))
    by (change (c :: ds ++ r) with ((c :: ds) ++ r); rewrite read_digits_app; auto).
  unfold read_number. destruct g; cbn [sign_char]; unfold PLUS, MINUS; rewrite ltrim_id by reflexivity;
    cbn [Z.eqb Pos.eqb]; cbv iota beta; rewrite D, RD; reflexivity.
Qed.

Lemma read_number_inv s neg v r : read_number s = Some (neg, v, r) ->
  0 <= v /\ exists p, s = p ++ r /\ loose_number p (if neg then - v else v).
Proof.
  unfold read_number. destruct (ltrim_split s) as (ws & Es & Fw). revert Es. generalize (ltrim s). intros t Es.
  assert (K : forall t', match t' with c :: _ => if isdigit c then let '(v, r) := read_digits 0 t' in Some (neg, v, r) else None | [] => None end = Some (neg, v, r) ->
     exists ds, t' = ds ++ r /\ numeral ds v).
  { intros [|c t'] E; [discriminate|]. destruct (isdigit c) eqn:D; [|discriminate].
    destruct (read_digits 0 (c :: t')) as [v' r'] eqn:RD. injection E as -> ->.
    pose proof RD as RD2. destruct (read_digits_inv _ _ _ _ RD) as (ds & E & F & Ev). exists ds. split; [exact E|].
    split; [|auto]. intros ->. cbn [app] in E. cbn [decimal] in Ev. subst r. cbn [read_digits] in RD2. rewrite D in RD2.
    clear -RD2. assert (L : forall s acc v r, read_digits acc s = (v, r) -> (length r <= length s)%nat).
    { induction s as [|a s IH]; intros acc v0 r E; cbn [read_digits] in E; [injection E as <- <-; auto|].
      destruct (isdigit a); [apply IH in E; cbn; lia|injection E as <- <-; auto]. }
    apply L in RD2. cbn [length] in RD2. lia. }
  assert (N : forall ds n, numeral ds n -> 0 <= n).
  { intros ds n (_ & F & <-). assert (G : forall acc, 0 <= acc -> 0 <= decimal acc ds).
    { clear -F. induction F as [|c ds Hc _ IH]; intros acc Ha; cbn [decimal]; [auto|]. apply IH. unfold is_digit in Hc. lia. }
    apply G; lia. }
  intros E.
  destruct t as [|c t]; [discriminate|].
  destruct (Z.eqb_spec c 45) as [->|N1].
  { cbv iota beta in E.
    assert (neg = true) as ->. { destruct t as [|c t]; [discriminate|]. destruct (isdigit c); [|discriminate]. destruct (read_digits 0 (c :: t)). congruence. }
    destruct (K _ E) as (ds & -> & Hn). split; [eapply N; eauto|].
    exists (ws ++ MINUS :: ds). split; [rewrite Es, <- app_assoc; reflexivity|].
    exists ws, (Some Minus), ds, v. split; [exact Fw|]. split; [exact Hn|]. split; reflexivity. }
  destruct (Z.eqb_spec c 43) as [->|N2].
  { cbv iota beta in E.
    assert (neg = false) as ->. { destruct t as [|c t]; [discriminate|]. destruct (isdigit c); [|discriminate]. destruct (read_digits 0 (c :: t)). congruence. }
    destruct (K _ E) as (ds & -> & Hn). split; [eapply N; eauto|].
    exists (ws ++ PLUS :: ds). split; [rewrite Es, <- app_assoc; reflexivity|].
    exists ws, (Some Plus), ds, v. split; [exact Fw|]. split; [exact Hn|]. split; reflexivity. }
  cbv iota beta in E.
  assert (neg = false) as ->. { destruct (isdigit c); [|discriminate]. destruct (read_digits 0 (c :: t)). congruence. }
  destruct (K (c :: t) E) as (ds & Et & Hn). split; [eapply N; eauto|].
  exists (ws ++ ds). split; [rewrite Es, Et, <- app_assoc; reflexivity|].
  exists ws, None, ds, v. auto.
Qed.

Definition offsets_text (gx : sign) (sx : cstr) (gy : sign) (sy : cstr) : cstr :=
  sign_char gx :: sx ++ sign_char gy :: sy.

Lemma no_digit_nil : no_digit []. Proof. intros c t E; discriminate. Qed.
Lemma no_digit_x t : no_digit (LETTER_X :: t). Proof. intros c t' E; injection E as <- _; reflexivity. Qed.
Lemma no_digit_sign g t : no_digit (sign_char g :: t). Proof. intros c t' E; injection E as <- _; destruct g; reflexivity. Qed.

Lemma strtoul_digits ds n r : numeral ds n -> n <= 4294967295 -> no_digit r -> strtoul (ds ++ r) = (n, r).
Proof.
  intros H Hn Hr. unfold strtoul. rewrite (read_number_digits _ _ _ H Hr). unfold ULONG_MAX.
  replace (18446744073709551615 <? n) with false by lia. reflexivity.
Qed.
Lemma numeral_nonneg ds n : numeral ds n -> 0 <= n.
Proof.
  intros (_ & F & <-). assert (G : forall acc, 0 <= acc -> 0 <= decimal acc ds).
  { clear -F. induction F as [|c ds Hc _ IH]; intros acc Ha; cbn [decimal]; [auto|]. apply IH. unfold is_digit in Hc. lia. }
  apply G; lia.
Qed.
Lemma strtol_signed g ds n r : numeral ds n -> INT_MIN <= signed g n <= INT_MAX -> no_digit r ->
  strtol (sign_char g :: ds ++ r) = (signed g n, r).
Proof.
  intros H Hn Hr. pose proof (numeral_nonneg _ _ H). unfold strtol. rewrite (read_number_signed g _ _ _ H Hr).
  unfold LONG_MAX, LONG_MIN, INT_MIN, INT_MAX in *.
  destruct g; cbn [signed] in *; cbv iota; cbv zeta.
  - replace (9223372036854775807 <? n) with false by lia. replace (n <? -9223372036854775808) with false by lia. reflexivity.
  - replace (9223372036854775807 <? - n) with false by lia. replace (- n <? -9223372036854775808) with false by lia. reflexivity.
Qed.

Lemma parse_size sw sh w h r : numeral sw w -> numeral sh h -> 1 <= w <= 4294967295 -> 1 <= h <= 4294967295 -> no_digit r ->
  parse_geometry (sw ++ LETTER_X :: sh ++ r) =
    match r with
    | [] => Some (w, h, 0, 0)
    | _ =>
        let '(x, end_ptr) := strtol r in
        if (x <? INT_MIN) || (INT_MAX <? x) then None else
        match end_ptr with
        | [] => Some (w, h, x, 0)
        | _ =>
            let '(y, end_ptr) := strtol end_ptr in
            if (y <? INT_MIN) || (INT_MAX <? y) then None else
            match end_ptr with [] => Some (w, h, x, y) | _ => None end
        end
    end.
Proof.
  intros Hw Hh Rw Rh Hr. unfold parse_geometry.
  rewrite (strtoul_digits _ _ _ Hw) by (try lia; apply no_digit_x). change (LETTER_X =? 120) with true. cbn [negb orb].
  replace ((w =? 0) || (4294967295 <? w)) with false by lia.
  rewrite (strtoul_digits _ _ _ Hh) by (try lia; auto).
  replace ((h =? 0) || (4294967295 <? h)) with false by lia. reflexivity.
Qed.

Lemma geometry_full sw sh gx sx gy sy w h x y :
  numeral sw w -> numeral sh h -> numeral sx x -> numeral sy y ->
  1 <= w <= 4294967295 -> 1 <= h <= 4294967295 ->
  INT_MIN <= signed gx x <= INT_MAX -> INT_MIN <= signed gy y <= INT_MAX ->
  parse_geometry (sw ++ LETTER_X :: sh ++ sign_char gx :: sx ++ sign_char gy :: sy) = Some (w, h, signed gx x, signed gy y).
Proof.
  intros Hw Hh Hx Hy Rw Rh Rx Ry. rewrite (parse_size _ _ w h) by (auto; apply no_digit_sign).
  rewrite (strtol_signed gx _ x) by (auto; apply no_digit_sign). cbv iota beta.
  replace ((signed gx x <? INT_MIN) || (INT_MAX <? signed gx x)) with false by lia.
  replace (strtol (sign_char gy :: sy)) with (signed gy y, @nil Z)
    by (rewrite <- (app_nil_r sy), (strtol_signed gy _ y) by (auto; apply no_digit_nil); reflexivity).
  replace ((signed gy y <? INT_MIN) || (INT_MAX <? signed gy y)) with false by lia. reflexivity.
Qed.
Lemma geometry_x sw sh gx sx w h x :
  numeral sw w -> numeral sh h -> numeral sx x ->
  1 <= w <= 4294967295 -> 1 <= h <= 4294967295 -> INT_MIN <= signed gx x <= INT_MAX ->
  parse_geometry (sw ++ LETTER_X :: sh ++ sign_char gx :: sx) = Some (w, h, signed gx x, 0).
Proof.
  intros Hw Hh Hx Rw Rh Rx. rewrite (parse_size _ _ w h) by (auto; apply no_digit_sign).
  replace (strtol (sign_char gx :: sx)) with (signed gx x, @nil Z)
    by (rewrite <- (app_nil_r sx), (strtol_signed gx _ x) by (auto; apply no_digit_nil); reflexivity).
  cbv iota beta. replace ((signed gx x <? INT_MIN) || (INT_MAX <? signed gx x)) with false by lia. reflexivity.
Qed.
Lemma geometry_size sw sh w h :
  numeral sw w -> numeral sh h -> 1 <= w <= 4294967295 -> 1 <= h <= 4294967295 ->
  parse_geometry (sw ++ LETTER_X :: sh) = Some (w, h, 0, 0).
Proof.
  intros Hw Hh Rw Rh. replace sh with (sh ++ @nil Z) by apply app_nil_r.
  rewrite (parse_size _ _ w h) by (auto; apply no_digit_nil). reflexivity.
Qed.

Lemma strtoul_inv s w r : strtoul s = (w, r) -> 0 < w <= 4294967295 -> exists p, s = p ++ r /\ loose_unsigned p w.
Proof.
  unfold strtoul. intros E Hw. destruct (read_number s) as [[[neg v] r']|] eqn:R; [|injection E as <- <-; lia].
  apply read_number_inv in R. destruct R as (Hv & p & -> & Hp). injection E as E <-.
  exists p. split; [reflexivity|]. exists (if neg then - v else v). split; [exact Hp|].
  unfold ULONG_MAX in E. destruct (18446744073709551615 <? v) eqn:C; [lia|].
  destruct neg; [rewrite <- E; reflexivity|]. rewrite Z.mod_small; [auto|unfold U64; lia].
Qed.
Lemma strtol_inv s x r : strtol s = (x, r) -> INT_MIN <= x <= INT_MAX ->
  (exists p, s = p ++ r /\ loose_number p x) \/ (r = s /\ read_number s = None).
Proof.
  unfold strtol, INT_MIN, INT_MAX. intros E Hx. destruct (read_number s) as [[[neg v] r']|] eqn:R; [|injection E as <- <-; auto].
  apply read_number_inv in R. destruct R as (Hv & p & -> & Hp). cbv zeta in E. injection E as E <-. left.
  exists p. split; [reflexivity|]. unfold LONG_MAX, LONG_MIN in E.
  destruct (9223372036854775807 <? (if neg then - v else v)) eqn:C1; [lia|].
  destruct ((if neg then - v else v) <? -9223372036854775808) eqn:C2; [lia|]. rewrite <- E. exact Hp.
Qed.

Lemma strtoul_nonneg s w r : strtoul s = (w, r) -> 0 <= w.
Proof.
  unfold strtoul, ULONG_MAX. intros E. destruct (read_number s) as [[[neg v] r']|] eqn:R; [|injection E as <- _; lia].
  apply read_number_inv in R. destruct R as (Hv & _). injection E as <- _.
  destruct (18446744073709551615 <? v); [lia|]. destruct neg; [pose proof (u64_range (- v)); lia|lia].
Qed.
Lemma geometry_only s w h x y : parse_geometry s = Some (w, h, x, y) ->
  1 <= w <= 4294967295 /\ 1 <= h <= 4294967295 /\ INT_MIN <= x <= INT_MAX /\ INT_MIN <= y <= INT_MAX /\
  exists sw sh rest, s = sw ++ LETTER_X :: sh ++ rest /\ loose_unsigned sw w /\ loose_unsigned sh h /\
    ((rest = [] /\ x = 0 /\ y = 0) \/ (loose_number rest x /\ y = 0) \/
     exists sx sy, rest = sx ++ sy /\ loose_number sx x /\ loose_number sy y).
Proof.
  unfold parse_geometry. intros E.
  destruct (strtoul s) as [w0 e1] eqn:E1. destruct e1 as [|c e1]; [discriminate|].
  destruct (Z.eqb_spec c 120) as [->|]; [|discriminate]. cbn [negb orb] in E.
  destruct ((w0 =? 0) || (4294967295 <? w0)) eqn:Rw; [discriminate|].
  destruct (strtoul e1) as [h0 e2] eqn:E2.
  destruct ((h0 =? 0) || (4294967295 <? h0)) eqn:Rh; [discriminate|].
  pose proof (strtoul_nonneg _ _ _ E1) as W0. pose proof (strtoul_nonneg _ _ _ E2) as H0.
  destruct (strtoul_inv _ _ _ E1) as (sw & -> & Lw); [lia|].
  destruct (strtoul_inv _ _ _ E2) as (sh & -> & Lh); [lia|].
  unfold INT_MIN, INT_MAX in *.
  destruct e2 as [|c e2].
  { injection E as <- <- <- <-. do 4 (split; [lia|]). exists sw, sh, []. split; [reflexivity|]. split; [exact Lw|]. split; [exact Lh|]. left. split; [reflexivity|split; reflexivity]. }
  destruct (strtol (c :: e2)) as [x0 e3] eqn:E3.
  destruct ((x0 <? -2147483648) || (2147483647 <? x0)) eqn:Rx; [discriminate|].
  destruct (strtol_inv _ _ _ E3) as [(sx & Ex & Lx)|(-> & Nx)]; [unfold INT_MIN, INT_MAX; lia| |].
  - destruct e3 as [|d e3].
    { injection E as <- <- <- <-. do 4 (split; [lia|]). exists sw, sh, (c :: e2). split; [reflexivity|]. split; [auto|]. split; [auto|].
      right. left. rewrite app_nil_r in Ex. rewrite Ex. auto. }
    destruct (strtol (d :: e3)) as [y0 e4] eqn:E4.
    destruct ((y0 <? -2147483648) || (2147483647 <? y0)) eqn:Ry; [discriminate|].
    destruct e4 as [|? ?]; [|discriminate]. injection E as <- <- <- <-.
    destruct (strtol_inv _ _ _ E4) as [(sy & Ey & Ly)|(Z1 & _)]; [unfold INT_MIN, INT_MAX; lia| |discriminate].
    do 4 (split; [lia|]). exists sw, sh, (c :: e2). split; [reflexivity|]. split; [auto|]. split; [auto|].
    right. right. exists sx, sy. rewrite app_nil_r in Ey. subst sy. split; [exact Ex|]. split; [exact Lx|exact Ly].
  - exfalso. assert (E4 : strtol (c :: e2) = (0, c :: e2)) by (unfold strtol; rewrite Nx; reflexivity).
    rewrite E4 in E. cbv iota beta in E. discriminate.
Qed.

(** ** Joining the arguments *)
Definition len (s : cstr) : Z := Z.of_nat (length s).
Definition tail_text (args : list cstr) : cstr := concat (map (cons 32) args).
Lemma spaced_tail a rest : spaced (a :: rest) = a ++ tail_text rest.
Proof.
  revert a; induction rest as [|b rest IH]; intros a; [cbn; rewrite app_nil_r; reflexivity|].
  change (spaced (a :: b :: rest)) with (a ++ SPACE :: spaced (b :: rest)). rewrite IH. reflexivity.
Qed.
Lemma args_size_nonneg args : 0 <= args_size args.
Proof. unfold args_size. induction args; cbn [fold_right]; lia. Qed.
Lemma total_len_ok args : forall acc, 0 <= acc -> acc + args_size args < U64 -> total_len args acc = acc + args_size args.
Proof.
  unfold U64. induction args as [|a rest IH]; intros acc Ha H; cbn [total_len args_size fold_right] in *; [lia|].
  fold (args_size rest) in *. pose proof (args_size_nonneg rest).
  rewrite (u64_small (Z.of_nat (length a) + 2)), u64_small by lia. rewrite IH by lia. lia.
Qed.
Lemma strcat_ok cap a b : len a + len b + 1 <= cap -> strcat cap a b = Ok (a ++ b).
Proof. unfold strcat, len. intros. replace (_ <=? cap) with true by lia. reflexivity. Qed.
Lemma len_app a b : len (a ++ b) = len a + len b.
Proof. unfold len. rewrite app_length. lia. Qed.
Lemma join_tail cap args : forall comb, len comb + args_size args + 1 <= cap ->
  join_args cap false args comb = Ok (comb ++ tail_text args).
Proof.
  induction args as [|a rest IH]; intros comb H; cbn [join_args].
  - rewrite app_nil_r. reflexivity.
  - cbn [args_size fold_right] in H. fold (args_size rest) in H. fold (len a) in H. pose proof (args_size_nonneg rest).
    assert (0 <= len a) by (unfold len; lia).
    rewrite strcat_ok by (change (len [32]) with 1; lia). cbn [bind].
    rewrite strcat_ok by (rewrite len_app; change (len [32]) with 1; lia). cbn [bind].
    rewrite IH by (rewrite !len_app; change (len [32]) with 1; lia).
    unfold tail_text. cbn [map concat]. rewrite <- !app_assoc. reflexivity.
Qed.
Lemma join_ok cap args : args_size args + 1 <= cap -> join_args cap true args [] = Ok (spaced args).
Proof.
  intros H. destruct args as [|a rest]; [reflexivity|]. cbn [join_args].
  cbn [args_size fold_right] in H. fold (args_size rest) in H. fold (len a) in H. pose proof (args_size_nonneg rest).
  cbn [bind]. rewrite strcat_ok by (change (len []) with 0; lia). cbn [bind app].
  rewrite join_tail by lia. rewrite spaced_tail. reflexivity.
Qed.

Section pp.
Variables (atof : cstr -> f64) (atoi : cstr -> Z) (show2 : f64 -> f64 -> cstr).
Notation parse := (parse_pipeline atof atoi show2).
Notation parse_s := (parse_string atof atoi show2).
Notation parse_p := (parse_piece atof atoi show2).

Lemma parse_ok args : args_size args + 1 < U64 -> parse true args = Ok (parse_s (spaced args)).
Proof.
  intros H. pose proof (args_size_nonneg args). unfold parse_pipeline. cbn [negb]. cbv iota.
  rewrite total_len_ok by lia. cbv zeta. rewrite u64_small by (unfold U64 in *; lia).
  replace (0 + args_size args + 1 =? 0) with false by lia.
  rewrite join_ok by lia. reflexivity.
Qed.
Lemma args_size_cons a rest : args_size (a :: rest) = len a + 2 + args_size rest.
Proof. reflexivity. Qed.
Lemma size_spaced args : args_size [spaced args] <= args_size args + 2.
Proof.
  destruct args as [|a rest]; [cbn; lia|]. rewrite spaced_tail, !args_size_cons, len_app. change (args_size []) with 0.
  assert (len (tail_text rest) <= args_size rest).
  { clear. induction rest as [|b rest IH]; [cbn; lia|]. rewrite args_size_cons.
    change (tail_text (b :: rest)) with ((32 :: b) ++ tail_text rest). rewrite len_app.
    change (len (32 :: b)) with (Z.of_nat (S (length b))). unfold len in *. lia. }
  lia.
Qed.
Lemma parse_joined args : args_size args + 3 < U64 -> parse true args = parse true [spaced args].
Proof.
  intros H. pose proof (size_spaced args). rewrite !parse_ok by lia. reflexivity.
Qed.
Lemma parse_defined args : args_size args + 1 < U64 -> exists r, parse true args = Ok r.
Proof. intros H. rewrite parse_ok by auto. eauto. Qed.

(** ** Commas *)
Lemma tokens_app a b : forall cur, tokens cur (a ++ 44 :: b) = tokens cur a ++ tokens [] b.
Proof.
  induction a as [|c a IH]; intros cur; cbn [app tokens].
  - destruct cur; reflexivity.
  - destruct (c =? 44); [|apply IH]. destruct cur; cbn [app]; [apply IH|f_equal; apply IH].
Qed.
Lemma parse_tokens_app ts ts' : forall ops,
  parse_tokens atof atoi show2 (ts ++ ts') ops =
    match parse_tokens atof atoi show2 ts ops with Some l => parse_tokens atof atoi show2 ts' l | None => None end.
Proof. induction ts as [|t ts IH]; intros ops; cbn [app parse_tokens]; [reflexivity|]. destruct (parse_p t); [apply IH|reflexivity]. Qed.
Lemma parse_tokens_acc ts : forall ops,
  parse_tokens atof atoi show2 ts ops = match parse_tokens atof atoi show2 ts [] with Some l => Some (ops ++ l) | None => None end.
Proof.
  induction ts as [|t ts IH]; intros ops; cbn [parse_tokens]; [rewrite app_nil_r; reflexivity|].
  destruct (parse_p t) as [l|]; [|reflexivity]. rewrite IH, (IH ([] ++ l)).
  destruct (parse_tokens atof atoi show2 ts []); [rewrite app_assoc; reflexivity|reflexivity].
Qed.
Lemma parse_s_comma a b : parse_s (a ++ COMMA :: b) =
  match parse_s a, parse_s b with Some la, Some lb => Some (la ++ lb) | _, _ => None end.
Proof.
  unfold parse_string, COMMA. rewrite tokens_app, parse_tokens_app.
  destruct (parse_tokens atof atoi show2 (tokens [] a) []) as [la|]; [|reflexivity].
  rewrite parse_tokens_acc. reflexivity.
Qed.
Lemma parse_comma a b : args_size [a ++ COMMA :: b] + 1 < U64 ->
  exists ra rb, parse true [a] = Ok ra /\ parse true [b] = Ok rb /\
  parse true [a ++ COMMA :: b] = Ok (match ra, rb with Some la, Some lb => Some (la ++ lb) | _, _ => None end).
Proof.
  intros H. exists (parse_s a), (parse_s b).
  assert (S : args_size [a ++ COMMA :: b] = len a + len b + 3).
  { unfold args_size, len. cbn [fold_right]. rewrite app_length. cbn [length]. lia. }
  assert (0 <= len a) by (unfold len; lia). assert (0 <= len b) by (unfold len; lia).
  rewrite (parse_ok [a]) by (rewrite args_size_cons; change (args_size []) with 0; lia).
  rewrite (parse_ok [b]) by (rewrite args_size_cons; change (args_size []) with 0; lia).
  rewrite (parse_ok [a ++ COMMA :: b]) by lia.
  split; [reflexivity|]. split; [reflexivity|]. cbn [spaced]. rewrite parse_s_comma. reflexivity.
Qed.

(** ** Words *)
Lemma word_space c : word_char c -> isspace c = false.
Proof. unfold word_char, isspace. lia. Qed.
Lemma trim_id s : s <> [] -> isspace (hd 0 s) = false -> isspace (last s 0) = false -> trim_whitespace s = s.
Proof.
  intros Hne Hh Hl. unfold trim_whitespace. destruct s as [|c t]; [congruence|]. cbn [hd] in Hh. rewrite ltrim_id by auto.
  destruct (exists_last Hne) as (u & d & E). rewrite E in *. rewrite last_last in Hl. rewrite rev_app_distr. cbn [rev app].
  rewrite ltrim_id by auto. cbn [rev]. rewrite rev_involutive. reflexivity.
Qed.
Lemma strchr_none c s : ~ In c s -> strchr c s = None.
Proof. induction s as [|d t IH]; intros H; cbn [strchr]; [reflexivity|]. destruct (Z.eqb_spec d c) as [->|]; [exfalso; apply H; left; auto|].
  rewrite IH by (intros X; apply H; right; auto). reflexivity. Qed.
Lemma strchr_app c a b : ~ In c a -> strchr c (a ++ c :: b) = Some (a, b).
Proof. induction a as [|d t IH]; intros H; cbn [app strchr]; [rewrite Z.eqb_refl; reflexivity|].
  destruct (Z.eqb_spec d c) as [->|]; [exfalso; apply H; left; auto|]. rewrite IH by (intros X; apply H; right; auto). reflexivity. Qed.
Lemma tokens_one s : s <> [] -> ~ In COMMA s -> tokens [] s = [s].
Proof.
  intros Hne Hc. assert (G : forall s cur, ~ In COMMA s -> tokens cur s = match rev cur ++ s with [] => [] | l => [l] end).
  { clear. induction s as [|c s IH]; intros cur H; cbn [tokens].
    - destruct cur as [|x cur]; [reflexivity|]. rewrite app_nil_r. destruct (rev (x :: cur)) eqn:E; [|reflexivity].
      apply (f_equal (@length Z)) in E. rewrite rev_length in E. discriminate.
    - unfold COMMA in H. destruct (Z.eqb_spec c 44) as [->|]; [exfalso; apply H; left; auto|]. rewrite IH by (intros X; apply H; right; auto).
      cbn [rev]. rewrite <- app_assoc. reflexivity. }
  rewrite G by auto. cbn [rev app]. destruct s; [congruence|reflexivity].
Qed.
Lemma word_notin c s : word s -> ~ word_char c -> ~ In c s.
Proof. intros [_ F] N I. rewrite Forall_forall in F. apply N, F, I. Qed.
Lemma word_hd s : word s -> isspace (hd 0 s) = false.
Proof. intros [Hne F]. destruct F; [congruence|]. apply word_space; auto. Qed.
Lemma word_last s d : word s -> word_char (last s d).
Proof. intros [Hne F]. destruct (exists_last Hne) as (u & c & ->). rewrite last_last. apply Forall_app in F. destruct F as [_ F].
  inversion F; auto. Qed.
Lemma nw_space : ~ word_char 32. Proof. unfold word_char; lia. Qed.
Lemma nw_comma : ~ word_char COMMA. Proof. unfold word_char; lia. Qed.
Lemma last_app_cons (a : cstr) c t d : last (a ++ c :: t) d = last (c :: t) d.
Proof. induction a as [|x a IH]; [reflexivity|]. cbn [app]. destruct (a ++ c :: t) eqn:E; [destruct a; discriminate|]. cbn [last] in *. exact IH. Qed.

Lemma streq_eq a : forall b, streq a b = true <-> a = b.
Proof.
  induction a as [|x a IH]; intros [|y b]; cbn [streq]; split; intros H; try discriminate; try reflexivity.
  - apply andb_true_iff in H. destruct H as [H1 H2]. apply Z.eqb_eq in H1. apply IH in H2. congruence.
  - injection H as -> ->. rewrite Z.eqb_refl. apply IH. reflexivity.
Qed.
Lemma streq_ne a b : a <> b -> streq a b = false.
Proof. destruct (streq a b) eqn:E; auto. apply streq_eq in E. congruence. Qed.

(** An operation text: the name and its parameters separated by single spaces. *)
Lemma text_props ws : ws <> [] -> Forall word ws ->
  spaced ws <> [] /\ isspace (hd 0 (spaced ws)) = false /\ word_char (last (spaced ws) 0) /\ ~ In COMMA (spaced ws) /\
  word_char (hd 0 (spaced ws)).
Proof.
  induction ws as [|a rest IH]; intros Hne F; [congruence|]. inversion F as [|? ? Ha Fr]; subst.
  assert (Hh : word_char (hd 0 a)) by (destruct Ha as [Ne Fa]; destruct Fa; [congruence|auto]).
  assert (Na : a <> []) by apply Ha.
  destruct rest as [|b rest].
  - cbn [spaced]. split; [auto|]. split; [apply word_hd; auto|]. split; [apply word_last; auto|]. split; [|auto].
    apply word_notin; auto. apply nw_comma.
  - change (spaced (a :: b :: rest)) with (a ++ SPACE :: spaced (b :: rest)).
    destruct IH as (N & H1 & L & C & _); [discriminate|auto|].
    split; [destruct a; discriminate|].
    split; [destruct a; [congruence|]; cbn [hd app]; apply word_space; auto|].
    split; [rewrite last_app_cons; destruct (spaced (b :: rest)) eqn:E; [congruence|exact L]|].
    split.
    + intros I. apply in_app_or in I. destruct I as [I|[I|I]]; [apply (word_notin COMMA a) in I; auto; apply nw_comma|discriminate I|auto].
    + destruct a; [congruence|]. exact Hh.
Qed.

Lemma piece_text ws : ws <> [] -> Forall word ws -> parse_s (spaced ws) = parse_p (spaced ws) /\
  trim_whitespace (spaced ws) = spaced ws /\ strip_parens (spaced ws) = spaced ws.
Proof.
  intros Hne F. destruct (text_props ws Hne F) as (N & H1 & L & C & Hh).
  split; [|split].
  - unfold parse_string. rewrite tokens_one by auto. cbn [parse_tokens]. destruct (parse_p (spaced ws)); reflexivity.
  - apply trim_id; auto. apply word_space; auto.
  - unfold strip_parens. replace (hd 0 (spaced ws) =? 40) with false; [reflexivity|].
    unfold word_char, LPAREN in Hh. lia.
Qed.

Lemma piece_eq tok t u : trim_whitespace tok = t -> t <> [] -> strip_parens t = u -> u <> [] ->
  parse_p tok = match strchr 32 u with
                | Some (name, rest) =>
                    match parse_with_params atof atoi show2 name (trim_whitespace rest) with Some op => Some [op] | None => None end
                | None => Some [new_op u None None None None None]
                end.
Proof.
  intros Ht Nt Hu Nu. unfold parse_piece. rewrite Ht. destruct t as [|c t]; [congruence|]. rewrite Hu.
  destruct u as [|d u]; [congruence|]. reflexivity.
Qed.

(** Name alone. *)
Lemma parse_name name : word name -> parse_s name = Some [new_op name None None None None None].
Proof.
  intros Hw. destruct (piece_text [name]) as (E & T & S); [discriminate|auto|]. cbn [spaced] in *.
  rewrite E. rewrite (piece_eq name name name T) by (auto; apply Hw).
  rewrite strchr_none by (apply word_notin; auto using nw_space). reflexivity.
Qed.
(** Name and parameters. *)
Lemma parse_params name a rest : word name -> word a -> Forall word rest ->
  parse_s (spaced (name :: a :: rest)) =
    match parse_with_params atof atoi show2 name (spaced (a :: rest)) with Some op => Some [op] | None => None end.
Proof.
  intros Hn Ha Hr. destruct (piece_text (name :: a :: rest)) as (E & T & S); [discriminate|auto|].
  assert (N : spaced (name :: a :: rest) <> []) by (apply text_props; [discriminate|auto]).
  rewrite E. rewrite (piece_eq _ _ _ T N S N).
  change (spaced (name :: a :: rest)) with (name ++ 32 :: spaced (a :: rest)).
  rewrite strchr_app by (apply word_notin; auto using nw_space).
  destruct (piece_text (a :: rest)) as (_ & T2 & _); [discriminate|auto|]. rewrite T2. reflexivity.
Qed.
Lemma plain_dispatch name params : plain_name name ->
  parse_with_params atof atoi show2 name params = Some (numeric_op atof name params).
Proof.
  intros H.
  assert (H' : ~ In name [s_resize; s_circle; s_disk; s_watershed; s_crop; s_extract_document; s_extract_document_to; s_border; s_trim])
    by exact H. clear H. rename H' into H. cbn [In] in H. unfold parse_with_params.
  repeat rewrite streq_ne by (intros ->; tauto). reflexivity.
Qed.
Lemma parse_one name a : word name -> plain_name name -> word a ->
  parse_s (spaced [name; a]) = Some [new_op name (Some (atof a)) None None None None].
Proof.
  intros Hn Hp Ha. rewrite parse_params by auto. rewrite plain_dispatch by auto. unfold numeric_op. cbn [spaced].
  rewrite strchr_none by (apply word_notin; auto using nw_space). reflexivity.
Qed.
Lemma trim_word a : word a -> trim_whitespace a = a.
Proof. intros H. apply trim_id; [apply H|apply word_hd; auto|apply word_space, word_last; auto]. Qed.
Lemma parse_two name a b : word name -> plain_name name -> word a -> word b ->
  parse_s (spaced [name; a; b]) = Some [new_op name (Some (atof a)) (Some (atof b)) None None None].
Proof.
  intros Hn Hp Ha Hb. rewrite parse_params by auto. rewrite plain_dispatch by auto. unfold numeric_op. cbn [spaced].
  unfold SPACE. rewrite strchr_app by (apply word_notin; auto using nw_space). rewrite !trim_word by auto. reflexivity.
Qed.

(** Parentheses and white space around an operation. *)
Lemma trim_white ws s ws' : Forall is_white ws -> Forall is_white ws' -> s <> [] ->
  isspace (hd 0 s) = false -> isspace (last s 0) = false -> trim_whitespace (ws ++ s ++ ws') = s.
Proof.
  intros F F' Hne Hh Hl. unfold trim_whitespace. rewrite ltrim_app by auto.
  destruct s as [|c t]; [congruence|]. cbn [hd] in Hh. cbn [app]. rewrite ltrim_id by auto.
  change (c :: t ++ ws') with ((c :: t) ++ ws'). rewrite rev_app_distr. rewrite ltrim_app by (apply Forall_rev; auto).
  destruct (exists_last Hne) as (u & d & E). rewrite E in *. rewrite last_last in Hl. rewrite rev_app_distr. cbn [rev app].
  rewrite ltrim_id by auto. cbn [rev]. rewrite rev_involutive. reflexivity.
Qed.
Lemma white_not_comma ws : Forall is_white ws -> ~ In COMMA ws.
Proof. intros F I. rewrite Forall_forall in F. apply F in I. unfold is_white, COMMA in I. lia. Qed.

Lemma parse_wrapped ws1 ws2 ws3 ws4 l : l <> [] -> Forall word l ->
  Forall is_white ws1 -> Forall is_white ws2 -> Forall is_white ws3 -> Forall is_white ws4 ->
  parse_s (ws1 ++ spaced l ++ ws4) = parse_s (spaced l) /\
  parse_s (ws1 ++ LPAREN :: (ws2 ++ spaced l ++ ws3) ++ [RPAREN] ++ ws4) = parse_s (spaced l).
Proof.
  intros Hne F F1 F2 F3 F4. destruct (text_props l Hne F) as (N & H1 & L & C & Hh).
  destruct (piece_text l Hne F) as (E & T & S).
  assert (Ls : isspace (last (spaced l) 0) = false) by (apply word_space; auto).
  rewrite E. split.
  - unfold parse_string. rewrite tokens_one.
    + cbn [parse_tokens].
      assert (P : parse_p (ws1 ++ spaced l ++ ws4) = parse_p (spaced l)).
      { unfold parse_piece. rewrite trim_white by auto. rewrite T. reflexivity. }
      rewrite P. destruct (parse_p (spaced l)); reflexivity.
    + intros X. apply app_eq_nil in X. destruct X as [_ X]. apply app_eq_nil in X. tauto.
    + intros I. apply in_app_or in I. destruct I as [I|I]; [apply white_not_comma in I; auto|].
      apply in_app_or in I. destruct I as [I|I]; [auto|apply white_not_comma in I; auto].
  - unfold parse_string. rewrite tokens_one.
    + cbn [parse_tokens]. set (body := ws2 ++ spaced l ++ ws3).
      assert (P : parse_p (ws1 ++ LPAREN :: body ++ [RPAREN] ++ ws4) = parse_p (spaced l)).
      { replace (ws1 ++ LPAREN :: body ++ [RPAREN] ++ ws4) with (ws1 ++ (LPAREN :: body ++ [RPAREN]) ++ ws4)
          by (cbn [app]; rewrite <- app_assoc; reflexivity).
        assert (La : last (LPAREN :: body ++ [RPAREN]) 0 = RPAREN)
          by (change (LPAREN :: body ++ [RPAREN]) with ((LPAREN :: body) ++ [RPAREN]); apply last_last).
        assert (Tw : trim_whitespace (ws1 ++ (LPAREN :: body ++ [RPAREN]) ++ ws4) = LPAREN :: body ++ [RPAREN])
          by (apply trim_white; [auto|auto|discriminate|reflexivity|rewrite La; reflexivity]).
        assert (Sp : strip_parens (LPAREN :: body ++ [RPAREN]) = spaced l).
        { unfold strip_parens, last_chr. rewrite La. cbn [hd]. unfold LPAREN at 1, RPAREN at 1. cbn [Z.eqb Pos.eqb andb].
          change (LPAREN :: body ++ [RPAREN]) with ((LPAREN :: body) ++ [RPAREN]). rewrite removelast_last. cbn [tl].
          apply trim_white; auto. }
        assert (NP : LPAREN :: body ++ [RPAREN] <> []) by discriminate.
        rewrite (piece_eq _ _ _ Tw NP Sp N), (piece_eq _ _ _ T N S N). reflexivity. }
      rewrite P. destruct (parse_p (spaced l)); reflexivity.
    + intros X. apply app_eq_nil in X. destruct X as [_ X]. discriminate.
    + intros I. apply in_app_or in I. destruct I as [I|[I|I]]; [apply white_not_comma in I; auto|discriminate I|].
      apply in_app_or in I. destruct I as [I|I].
      * apply in_app_or in I. destruct I as [I|I]; [apply white_not_comma in I; auto|].
        apply in_app_or in I. destruct I as [I|I]; [auto|apply white_not_comma in I; auto].
      * destruct I as [I|I]; [discriminate I|apply white_not_comma in I; auto].
Qed.

(** ** Statements in terms of [parse_pipeline] *)
Lemma small_1 args : small args -> args_size args + 1 < U64.
Proof. unfold small; lia. Qed.
Lemma main_joined args : small args -> (exists r, parse true args = Ok r) /\ parse true args = parse true [spaced args].
Proof. intros H. split; [apply parse_defined, small_1; auto|apply parse_joined; auto]. Qed.
Lemma main_split args args' : small args -> small args' -> spaced args = spaced args' -> parse true args = parse true args'.
Proof. intros H H' E. rewrite !parse_ok by (apply small_1; auto). rewrite E. reflexivity. Qed.
Lemma firstn_short {A} n (l : list A) : (length l <= n)%nat -> firstn n l = l.
Proof. apply firstn_all2. Qed.
Lemma main_plain name params : word name -> plain_name name -> (length name <= 31)%nat -> Forall word params ->
  small (name :: params) -> (length params <= 2)%nat ->
  parse true (name :: params) =
    Ok (Some [mkop name (option_map atof (nth_error params 0)) (option_map atof (nth_error params 1)) None None None]).
Proof.
  intros Hn Hp Hl Hw Hs Hk. rewrite parse_ok by (apply small_1; auto). f_equal.
  destruct params as [|a [|b [|c ?]]]; cbn [length] in Hk; [| | |lia].
  - cbn [spaced]. rewrite parse_name by auto. unfold new_op. rewrite firstn_short by auto. reflexivity.
  - inversion Hw; subst. rewrite parse_one by auto. unfold new_op. rewrite firstn_short by auto. reflexivity.
  - inversion Hw as [|? ? Ha Hw']; subst. inversion Hw'; subst. rewrite parse_two by auto. unfold new_op. rewrite firstn_short by auto. reflexivity.
Qed.
Lemma main_wrapped ws1 ws2 ws3 ws4 l : l <> [] -> Forall word l ->
  Forall is_white ws1 -> Forall is_white ws2 -> Forall is_white ws3 -> Forall is_white ws4 ->
  small [ws1 ++ LPAREN :: (ws2 ++ spaced l ++ ws3) ++ [RPAREN] ++ ws4] ->
  parse true [ws1 ++ spaced l ++ ws4] = parse true [spaced l] /\
  parse true [ws1 ++ LPAREN :: (ws2 ++ spaced l ++ ws3) ++ [RPAREN] ++ ws4] = parse true [spaced l].
Proof.
  intros Hne F F1 F2 F3 F4 HS. destruct (parse_wrapped ws1 ws2 ws3 ws4 l Hne F F1 F2 F3 F4) as [A B].
  unfold small in HS. rewrite args_size_cons in HS. change (args_size []) with 0 in HS.
  rewrite len_app in HS. change (LPAREN :: (ws2 ++ spaced l ++ ws3) ++ [RPAREN] ++ ws4) with ([LPAREN] ++ (ws2 ++ spaced l ++ ws3) ++ [RPAREN] ++ ws4) in HS.
  rewrite !len_app in HS. change (len [LPAREN]) with 1 in HS. change (len [RPAREN]) with 1 in HS.
  assert (P : forall s, 0 <= len s) by (intros; unfold len; lia).
  pose proof (P ws1). pose proof (P ws2). pose proof (P ws3). pose proof (P ws4). pose proof (P (spaced l)).
  rewrite (parse_ok [spaced l]) by (rewrite args_size_cons; change (args_size []) with 0; lia).
  rewrite (parse_ok [ws1 ++ spaced l ++ ws4]) by (rewrite args_size_cons, !len_app; change (args_size []) with 0; lia).
  rewrite parse_ok.
  2:{ rewrite args_size_cons. change (LPAREN :: (ws2 ++ spaced l ++ ws3) ++ [RPAREN] ++ ws4) with ([LPAREN] ++ (ws2 ++ spaced l ++ ws3) ++ [RPAREN] ++ ws4).
      rewrite !len_app. change (len [LPAREN]) with 1. change (len [RPAREN]) with 1. change (args_size []) with 0. lia. }
  cbn [spaced]. rewrite A, B. auto.
Qed.

(** String parameters. *)
Lemma main_watershed a rest : word a -> Forall word rest -> small (s_watershed :: a :: rest) ->
  parse true (s_watershed :: a :: rest) =
    Ok (Some [mkop s_watershed None None None None (Some (firstn 63 (spaced (a :: rest))))]).
Proof.
  intros Ha Hr HS. rewrite parse_ok by (apply small_1; auto). rewrite parse_params; auto.
  split; [discriminate|]. unfold s_watershed. repeat (apply Forall_cons; [unfold word_char, COMMA, LPAREN, RPAREN; lia|]). constructor.
Qed.
Lemma has_chr_in c s : In c s -> has_chr c s = true.
Proof.
  unfold has_chr. induction s as [|d t IH]; intros H; [destruct H|]. cbn [strchr]. destruct (Z.eqb_spec d c); [reflexivity|].
  destruct H as [->|H]; [congruence|]. specialize (IH H). destruct (strchr c t) as [[? ?]|]; [reflexivity|discriminate].
Qed.
Lemma main_percent name a : name = s_resize \/ name = s_trim -> word a -> In PERCENT a -> small [name; a] ->
  parse true [name; a] = Ok (Some [mkop name None None None None (Some (firstn 63 a))]).
Proof.
  intros Hn Ha Hp HS. rewrite parse_ok by (apply small_1; auto). rewrite parse_params; auto.
  2:{ destruct Hn as [->| ->]; (split; [discriminate|]); unfold s_resize, s_trim;
      repeat (apply Forall_cons; [unfold word_char, COMMA, LPAREN, RPAREN; lia|]); constructor. }
  cbn [spaced]. unfold parse_with_params. rewrite (has_chr_in 37 a Hp). destruct Hn as [->| ->]; reflexivity.
Qed.
Lemma main_border color width : word color -> word width -> dlt d0 (atof width) = true -> small [s_border; color; width] ->
  parse true [s_border; color; width] =
    Ok (Some [mkop s_border (Some (atof width)) None None None (Some (firstn 63 color))]).
Proof.
  intros Hc Hw Hp HS. rewrite parse_ok by (apply small_1; auto). rewrite parse_params; auto.
  2:{ split; [discriminate|]. unfold s_border. repeat (apply Forall_cons; [unfold word_char, COMMA, LPAREN, RPAREN; lia|]); constructor. }
  cbn [spaced]. unfold parse_with_params.
  replace (streq s_border s_border) with true by reflexivity.
  cbn [streq s_border s_resize s_circle s_disk s_watershed s_crop s_extract_document_to s_extract_document app].
  change (98 =? 114) with false. change (98 =? 99) with false. change (98 =? 100) with false. change (98 =? 119) with false. change (98 =? 101) with false.
  cbn [andb]. cbv iota. unfold SPACE.
  rewrite strchr_app by (apply word_notin; auto using nw_space). rewrite !trim_word by auto. rewrite Hp. reflexivity.
Qed.
Lemma short_watershed params : params <> [] -> Forall word params ->
  small (s_watershed :: params) -> (length (spaced params) <= 63)%nat ->
  parse true (s_watershed :: params) = Ok (Some [mkop s_watershed None None None None (Some (spaced params))]).
Proof.
  destruct params as [|a rest]; intros H F S L; [congruence|]. inversion F; subst.
  rewrite <- (firstn_short 63 (spaced (a :: rest))) by auto. apply main_watershed; auto.
Qed.
Lemma short_percent name a : name = s_resize \/ name = s_trim -> word a -> In PERCENT a -> small [name; a] -> (length a <= 63)%nat ->
  parse true [name; a] = Ok (Some [mkop name None None None None (Some a)]).
Proof. intros. rewrite <- (firstn_short 63 a) at 2 by auto. apply main_percent; auto. Qed.
Lemma short_border color width : word color -> word width -> dlt d0 (atof width) = true -> small [s_border; color; width] ->
  (length color <= 63)%nat ->
  parse true [s_border; color; width] = Ok (Some [mkop s_border (Some (atof width)) None None None (Some color)]).
Proof. intros. rewrite <- (firstn_short 63 color) at 2 by auto. apply main_border; auto. Qed.
(** crop: the geometry reaches the operation. *)
Lemma main_crop g w h x y : word g -> parse_geometry g = Some (w, h, x, y) -> small [s_crop; g] ->
  parse true [s_crop; g] = Ok (Some [mkop s_crop (Some (d_of_Z x)) (Some (d_of_Z y)) (Some (d_of_Z w)) (Some (d_of_Z h)) None]).
Proof.
  intros Hg E HS. rewrite parse_ok by (apply small_1; auto). rewrite parse_params; auto.
  2:{ split; [discriminate|]. unfold s_crop. repeat (apply Forall_cons; [unfold word_char, COMMA, LPAREN, RPAREN; lia|]); constructor. }
  cbn [spaced]. unfold parse_with_params.
  replace (streq s_crop s_resize) with false by reflexivity. replace (streq s_crop s_circle) with false by reflexivity.
  replace (streq s_crop s_disk) with false by reflexivity. replace (streq s_crop s_watershed) with false by reflexivity.
  replace (streq s_crop s_crop) with true by reflexivity. cbv iota. rewrite E. reflexivity.
Qed.
End pp.

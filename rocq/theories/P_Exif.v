(** * Proofs about the EXIF reader *)
From Verif Require Import Base BaseLemmas F Heap Spec Spec_Exif M_Exif.

(** ** Reading at a position *)
Definition at_ (f : list Z) (pos : Z) (rest : list Z) : Prop := 0 <= pos /\ skipn (Z.to_nat pos) f = rest.

Lemma at_app f pos x rest : at_ f pos (x ++ rest) -> at_ f (pos + len x) rest.
Proof.
  intros [P E]. unfold len. split; [lia|]. rewrite Z2Nat.inj_add, Nat2Z.id by lia.
  rewrite Nat.add_comm. replace (skipn (length x + Z.to_nat pos) f) with (skipn (length x) (skipn (Z.to_nat pos) f)).
  - rewrite E. rewrite skipn_app, skipn_all, Nat.sub_diag. reflexivity.
  - clear E P. revert f; induction (Z.to_nat pos) as [|k IH]; intros f.
    + rewrite Nat.add_0_r. reflexivity.
    + destruct f; [rewrite !skipn_nil; reflexivity|]. rewrite Nat.add_succ_r. simpl. apply IH.
Qed.

Lemma fread_at f pos x rest n : at_ f pos (x ++ rest) -> n = len x -> 0 < n ->
  fread f pos n = (Some x, pos + n) /\ at_ f (pos + n) rest.
Proof.
  intros A -> Hn. split; [|apply at_app; exact A]. destruct A as [P E]. unfold fread, flen, len in *.
  assert (L : length (skipn (Z.to_nat pos) f) = length (x ++ rest)) by (rewrite E; reflexivity).
  rewrite skipn_length, app_length in L.
  replace (pos + Z.of_nat (length x) <=? Z.of_nat (length f)) with true by lia.
  rewrite E, Nat2Z.id. rewrite firstn_app, Nat.sub_diag, firstn_all, app_nil_r. reflexivity.
Qed.

Lemma num16_read le n f pos rest : 0 <= n < 65536 -> at_ f pos (num16 le n ++ rest) ->
  read_u16 f pos le = (n, pos + 2) /\ at_ f (pos + 2) rest.
Proof.
  intros Hn A. destruct (fread_at f pos (num16 le n) rest 2 A) as [E A']; [destruct le; reflexivity|lia|].
  split; [|exact A']. unfold read_u16. rewrite E. pose proof (Z.div_mod n 256 ltac:(lia)).
  destruct le; cbn [num16]; f_equal; lia.
Qed.

Lemma num32_read le n f pos rest : 0 <= n < 2147483648 -> at_ f pos (num32 le n ++ rest) ->
  read_u32 f pos le = Ok (n, pos + 4) /\ at_ f (pos + 4) rest.
Proof.
  intros Hn A. destruct (fread_at f pos (num32 le n) rest 4 A) as [E A']; [destruct le; reflexivity|lia|].
  split; [|exact A']. unfold read_u32. rewrite E.
  assert (n = n mod 256 + n / 256 mod 256 * 256 + n / 65536 mod 256 * 65536 + n / 16777216 * 16777216).
  { pose proof (Z.div_mod n 256 ltac:(lia)). pose proof (Z.div_mod (n / 256) 256 ltac:(lia)).
    pose proof (Z.div_mod (n / 65536) 256 ltac:(lia)).
    replace (n / 65536) with (n / 256 / 256) in * by (rewrite Z.div_div by lia; reflexivity).
    replace (n / 16777216) with (n / 256 / 256 / 256) in * by (rewrite !Z.div_div by lia; reflexivity). lia. }
  assert (n / 16777216 < 128) by (apply Z.div_lt_upper_bound; lia).
  destruct le; cbn [num32]; unfold shl24; replace (128 <=? n / 16777216) with false by lia; rewrite bind_Ok; do 2 f_equal; lia.
Qed.

(** ** The directory *)
Lemma entry_step f le pos e rest i : entry_ok e -> e_tag e <> ORIENTATION -> at_ f pos (entry_bytes le e ++ rest) ->
  at_ f (pos + 12) rest /\
  (fun (_ : Z) pos =>
    let '(tag, pos) := read_u16 f pos le in
    let '(_, pos) := read_u16 f pos le in
    c <- read_u32 f pos le ;;
    let '(_, pos) := c in
    if tag =? 274 then
      let '(orientation, _) := read_u16 f pos le in
      Ok (inr orientation)
    else Ok (inl (fseek_cur pos 4))) i pos = Ok (@inl Z Z (pos + 12)).
Proof.
  intros (T & Y & C & V & VL) NT A. unfold entry_bytes in A. rewrite <- !app_assoc in A.
  destruct (num16_read _ _ _ _ _ T A) as [-> A1]. destruct (num16_read _ _ _ _ _ Y A1) as [E2 A2].
  cbv beta iota. rewrite E2. destruct (num32_read _ _ _ _ _ C A2) as [E3 A3]. rewrite E3, bind_Ok.
  apply at_app in A3. rewrite VL in A3. unfold ORIENTATION in NT.
  replace (pos + 2 + 2 + 4 + 4) with (pos + 12) in A3 by lia. split; [exact A3|].
  replace (e_tag e =? 274) with false by lia. unfold fseek_cur. destruct A as [P _].
  replace (pos + 2 + 2 + 4 + 4 <? 0) with false by lia. do 2 f_equal. lia.
Qed.

Lemma len_nil : len [] = 0. Proof. reflexivity. Qed.
Lemma len_cons a l : len (a :: l) = 1 + len l. Proof. unfold len; simpl length; lia. Qed.
Lemma len_nonneg l : 0 <= len l. Proof. unfold len; lia. Qed.
Lemma len_app l l' : len (l ++ l') = len l + len l'. Proof. unfold len; rewrite app_length; lia. Qed.

(** Skipping the entries [es] that are not the orientation. *)
Lemma skip_entries f le es : forall lo n pos rest,
  Forall entry_ok es -> Forall (fun e => e_tag e <> ORIENTATION) es -> lo + len (map e_tag es) <= n ->
  at_ f pos (concat (map (entry_bytes le) es) ++ rest) ->
  exists pos', at_ f pos' rest /\ forall (body : Z -> Z -> res (Z + Z)),
  (forall i pos, body i pos = (fun (_ : Z) pos =>
    let '(tag, pos) := read_u16 f pos le in
    let '(_, pos) := read_u16 f pos le in
    c <- read_u32 f pos le ;;
    let '(_, pos) := c in
    if tag =? 274 then
      let '(orientation, _) := read_u16 f pos le in
      Ok (inr orientation)
    else Ok (inl (fseek_cur pos 4))) i pos) ->
  for_brk lo n body pos = for_brk (lo + len (map e_tag es)) n body pos'.
Proof.
  induction es as [|e es IH]; intros lo n pos rest O NT L A.
  - simpl in A. exists pos. split; [exact A|]. intros. rewrite Z.add_0_r. reflexivity.
  - inversion O; subst. inversion NT; subst. simpl map in *. simpl concat in A. rewrite <- app_assoc in A.
    rewrite len_cons in *. pose proof (len_nonneg (map e_tag es)).
    destruct (entry_step f le pos e _ 0 ltac:(assumption) ltac:(assumption) A) as [A1 _].
    destruct (IH (lo + 1) n (pos + 12) rest) as (pos' & A' & E); auto; [lia|].
    exists pos'. split; [exact A'|]. intros body B.
    rewrite for_brk_step by lia. rewrite B.
    rewrite (proj2 (entry_step f le pos e _ lo ltac:(assumption) ltac:(assumption) A)). cbn [bind].
    rewrite E by exact B. f_equal. lia.
Qed.

Lemma ifd_found f le n es e v pad rest pos : Forall entry_ok es -> Forall (fun e => e_tag e <> ORIENTATION) es ->
  entry_ok e -> e_tag e = ORIENTATION -> e_value e = num16 le v ++ pad -> 0 <= v < 65536 ->
  len (map e_tag es) + 1 <= n ->
  at_ f pos (concat (map (entry_bytes le) es) ++ entry_bytes le e ++ rest) ->
  ifd_loop f le n pos = Ok (inr v).
Proof.
  intros O NT (T & Y & C & _) ET EV HV L A. pose proof (len_nonneg (map e_tag es)).
  destruct (skip_entries f le es 0 n pos _ O NT ltac:(lia) A) as (pos' & A' & E).
  unfold ifd_loop. rewrite E by reflexivity. rewrite for_brk_step by lia.
  unfold entry_bytes in A'. rewrite <- !app_assoc in A'.
  destruct (num16_read _ _ _ _ _ T A') as [-> A1]. destruct (num16_read _ _ _ _ _ Y A1) as [-> A2].
  destruct (num32_read _ _ _ _ _ C A2) as [-> A3]. cbn [bind]. rewrite ET. change (ORIENTATION =? 274) with true. cbv iota.
  rewrite EV, <- app_assoc in A3. destruct (num16_read _ _ _ _ _ HV A3) as [-> _]. reflexivity.
Qed.

Lemma ifd_absent f le es rest pos : Forall entry_ok es -> Forall (fun e => e_tag e <> ORIENTATION) es ->
  at_ f pos (concat (map (entry_bytes le) es) ++ rest) ->
  exists p, ifd_loop f le (len (map e_tag es)) pos = Ok (inl p).
Proof.
  intros O NT A. destruct (skip_entries f le es 0 (len (map e_tag es)) pos _ O NT ltac:(lia) A) as (pos' & A' & E).
  unfold ifd_loop. rewrite E by reflexivity. rewrite for_brk_empty by lia. eauto.
Qed.

(** From the TIFF header to the directory. *)
Lemma tiff_step f le off n es tiff start r : tiff_with le off n es tiff -> at_ f start tiff ->
  (forall pos rest, at_ f pos (concat (map (entry_bytes le) es) ++ rest) -> ifd_loop f le n pos = Ok (inr r) \/ (r = 1 /\ exists p, ifd_loop f le n pos = Ok (inl p))) ->
  read_tiff f start = Ok r.
Proof.
  intros (HO & HN & _ & _ & (rest & E) & (rest' & E')) A H.
  assert (A0 : at_ f (start + off) (num16 le n ++ concat (map (entry_bytes le) es) ++ rest')).
  { rewrite <- E'. destruct A as [P <-]. split; [lia|]. rewrite Z2Nat.inj_add by lia.
    rewrite Nat.add_comm. clear. revert f; induction (Z.to_nat start) as [|k IH]; intros f.
    + rewrite Nat.add_0_r. reflexivity.
    + destruct f; [rewrite !skipn_nil; reflexivity|]. rewrite Nat.add_succ_r. simpl. apply IH. }
  assert (P : 0 <= start) by (destruct A; lia).
  rewrite E in A. unfold read_tiff.
  destruct (fread_at f start _ _ 2 A) as [F1 A1]; [destruct le; reflexivity|lia|]. rewrite F1.
  destruct (num16_read le 42 _ _ _ ltac:(lia) A1) as [F2 A2]. destruct (num32_read _ _ _ _ _ HO A2) as [F3 A3].
  destruct (num16_read _ _ _ _ _ HN A0) as [F4 A4]. specialize (H _ _ A4).
  assert (G : fseek_set (start + 2 + 2 + 4) (start + off) = start + off).
  { unfold fseek_set. replace (start + off <? 0) with false by lia. reflexivity. }
  destruct le; cbv beta iota delta [Z.eqb Pos.eqb andb negb]; rewrite F2; cbv beta iota delta [Z.eqb Pos.eqb andb negb]; rewrite F3; cbn [bind]; rewrite G, F4;
    (destruct H as [->|[-> [p ->]]]; reflexivity).
Qed.

(** ** The marker loop *)
Lemma is_exif_header_spec h : length h = 6%nat -> is_exif_header h = true <-> h = exif_id.
Proof.
  intros L. do 7 (destruct h as [|? h]; simpl in L; try lia). unfold exif_id. simpl.
  rewrite !andb_true_iff, !Z.eqb_eq. split; [intros (((((-> & ->) & ->) & ->) & ->) & ->); reflexivity|].
  intros X; injection X; auto 10.
Qed.

Lemma segment_step f pos g rest : segment_ok g -> at_ f pos (segment_bytes g ++ rest) ->
  exists pos', marker_body f pos = Ok (inl pos') /\ at_ f pos' rest /\ pos < pos'.
Proof.
  destruct g as [m p]. intros (B & N1 & N2 & Bp & Lp & NE) A. unfold segment_bytes in A. rewrite <- !app_assoc in A.
  assert (P : 0 <= pos) by (destruct A; lia). pose proof (len_nonneg p) as Lp0.
  unfold marker_body. destruct (fread_at f pos [255; m] _ 2 A) as [F1 A1]; [reflexivity|lia|]. rewrite F1.
  change (255 =? 255) with true. cbn [negb]. replace (m =? 217) with false by lia. replace (m =? 218) with false by lia. cbn [orb]. cbv iota.
  destruct (num16_read false (len p + 2) _ _ _ ltac:(lia) A1) as [-> A2]. cbv iota.
  exists (pos + 2 + 2 + len p). split; [|split; [apply at_app; exact A2|lia]].
  destruct (Z.eqb_spec m 225) as [M|M].
  - destruct (NE M) as [L6 NX].
    assert (A3 : at_ f (pos + 2 + 2) (firstn 6 p ++ skipn 6 p ++ rest)) by (rewrite app_assoc, firstn_skipn; exact A2).
    assert (L6' : length (firstn 6 p) = 6%nat) by (rewrite firstn_length; unfold len in *; lia).
    destruct (fread_at f (pos + 2 + 2) _ _ 6 A3) as [F2 A4]; [unfold len; lia|lia|]. rewrite F2.
    destruct (is_exif_header (firstn 6 p)) eqn:X; [apply is_exif_header_spec in X; tauto|]. cbn [negb].
    unfold fseek_cur. replace (pos + 2 + 2 + 6 + (len p + 2 - 2 - 6) <? 0) with false by lia. do 2 f_equal. lia.
  - unfold fseek_cur. replace (pos + 2 + 2 + (len p + 2 - 2) <? 0) with false by lia. do 2 f_equal. lia.
Qed.

Lemma skip_segments f segs : forall fuel pos rest, Forall segment_ok segs -> at_ f pos (segments_bytes segs ++ rest) ->
  exists pos', at_ f pos' rest /\ pos <= pos' /\
    while_ (length segs + fuel) (marker_body f) pos = while_ fuel (marker_body f) pos'.
Proof.
  induction segs as [|g segs IH]; intros fuel pos rest O A.
  - exists pos. split; [exact A|]. split; [lia|reflexivity].
  - inversion O; subst. unfold segments_bytes in A. simpl in A. rewrite <- app_assoc in A.
    destruct (segment_step f pos g _ ltac:(assumption) A) as (p1 & S & A1 & L).
    destruct (IH fuel p1 rest) as (p2 & A2 & L2 & E); auto.
    exists p2. split; [exact A2|]. split; [lia|]. cbn [length Nat.add while_]. rewrite S. cbn [bind]. exact E.
Qed.

Lemma seg_count segs : (length segs <= length (segments_bytes segs))%nat.
Proof.
  induction segs as [|[m p] segs IH]; [simpl; lia|]. unfold segments_bytes in *. simpl. rewrite !app_length in *. simpl. lia.
Qed.

(** The loop reaches what follows the segments. *)
Lemma reach segs rest fuel : Forall segment_ok segs ->
  len ([255; 216] ++ segments_bytes segs ++ rest) < Z.of_nat fuel ->
  exists k pos, (0 < k)%nat /\ at_ ([255; 216] ++ segments_bytes segs ++ rest) pos rest /\
    get_exif_orientation fuel (Some ([255; 216] ++ segments_bytes segs ++ rest)) =
    while_ k (marker_body ([255; 216] ++ segments_bytes segs ++ rest)) pos.
Proof.
  intros O L. set (f := [255; 216] ++ segments_bytes segs ++ rest) in *.
  assert (A : at_ f 0 f) by (split; [lia|reflexivity]).
  destruct (fread_at f 0 [255; 216] (segments_bytes segs ++ rest) 2 A) as [F1 A1]; [reflexivity|lia|].
  unfold get_exif_orientation. rewrite F1. cbv beta iota delta [Z.eqb Pos.eqb orb negb].
  pose proof (seg_count segs).
  unfold len in L. fold f in L.
  assert (LF : (length f = 2 + (length (segments_bytes segs) + length rest))%nat).
  { unfold f. rewrite !app_length. reflexivity. }
  destruct (skip_segments f segs (fuel - length segs) (0 + 2) rest O A1) as (p & A2 & _ & E).
  exists (fuel - length segs)%nat, p. split; [lia|]. split; [exact A2|].
  replace (length segs + (fuel - length segs))%nat with fuel in E by lia. exact E.
Qed.

Lemma exif_run segs size tiff fuel r : Forall segment_ok segs -> 0 <= size < 65536 ->
  (forall f pos, at_ f pos tiff -> read_tiff f pos = Ok r) ->
  len (exif_file segs size tiff) < Z.of_nat fuel ->
  get_exif_orientation fuel (Some (exif_file segs size tiff)) = Ok r.
Proof.
  intros O HS H L. unfold exif_file in *. destruct (reach segs _ fuel O L) as (k & pos & K & A & ->).
  set (f := _ ++ _ ++ _) in *. clearbody f. destruct k; [lia|]. cbn [while_].
  assert (P : 0 <= pos) by (destruct A; lia).
  unfold marker_body. destruct (fread_at f pos [255; 225] _ 2 A) as [F1 A1]; [reflexivity|lia|]. rewrite F1.
  cbv beta iota delta [Z.eqb Pos.eqb orb negb].
  destruct (num16_read _ _ _ _ _ HS A1) as [-> A2].
  destruct (fread_at f (pos + 2 + 2) exif_id _ 6 A2) as [F2 A3]; [reflexivity|lia|]. rewrite F2.
  change (is_exif_header exif_id) with true. cbn [negb]. rewrite (H _ _ A3). reflexivity.
Qed.

Lemma exif_found segs size le off n es e es' v pad tiff fuel :
  Forall segment_ok segs -> 0 <= size < 65536 -> tiff_with le off n (es ++ e :: es') tiff ->
  Forall (fun e => e_tag e <> ORIENTATION) es -> e_tag e = ORIENTATION -> e_value e = num16 le v ++ pad -> 0 <= v < 65536 ->
  len (exif_file segs size tiff) < Z.of_nat fuel ->
  get_exif_orientation fuel (Some (exif_file segs size tiff)) = Ok v.
Proof.
  intros O HS T NT ET EV HV L. apply exif_run; auto. intros f pos A. eapply tiff_step; [exact T|exact A|].
  intros p rest A'. left. destruct T as (_ & _ & OK & LN & _). apply Forall_app in OK as [OK1 OK2]. inversion OK2; subst.
  rewrite map_app, len_app in LN. simpl map in LN. rewrite len_cons in LN. pose proof (len_nonneg (map e_tag es')) as LE.
  rewrite map_app, concat_app in A'. simpl in A'. rewrite <- !app_assoc in A'.
  eapply (ifd_found f le n es e v pad); eauto. clear - LN LE. lia.
Qed.

Lemma exif_absent segs size le off es tiff fuel :
  Forall segment_ok segs -> 0 <= size < 65536 -> tiff_with le off (len (map e_tag es)) es tiff ->
  Forall (fun e => e_tag e <> ORIENTATION) es ->
  len (exif_file segs size tiff) < Z.of_nat fuel ->
  get_exif_orientation fuel (Some (exif_file segs size tiff)) = Ok 1.
Proof.
  intros O HS T NT L. apply exif_run; auto. intros f pos A. eapply tiff_step; [exact T|exact A|].
  intros p rest A'. right. split; [reflexivity|]. destruct T as (_ & _ & OK & LN & _). eapply ifd_absent; eauto.
Qed.

(** Files with no Exif segment. *)
Lemma no_exif segs rest fuel : Forall segment_ok segs ->
  rest = [] \/ (exists a, rest = [a]) \/ (exists a b rest', rest = a :: b :: rest' /\ (a <> 255 \/ b = 217 \/ b = 218)) ->
  len ([255; 216] ++ segments_bytes segs ++ rest) < Z.of_nat fuel ->
  get_exif_orientation fuel (Some ([255; 216] ++ segments_bytes segs ++ rest)) = Ok 1.
Proof.
  intros O H L. destruct (reach segs _ fuel O L) as (k & pos & K & A & ->).
  set (f := _ ++ _ ++ _) in *. clearbody f. destruct k; [lia|]. cbn [while_]. unfold marker_body.
  assert (P : 0 <= pos) by (destruct A; lia).
  assert (LR : (length f <= Z.to_nat pos + length rest)%nat).
  { destruct A as [_ <-]. rewrite skipn_length. lia. }
  destruct H as [->|[(a & ->)|(a & b & rest' & -> & H)]].
  - unfold fread, flen. simpl in LR. replace (pos + 2 <=? Z.of_nat (length f)) with false by lia. reflexivity.
  - unfold fread, flen. simpl in LR. replace (pos + 2 <=? Z.of_nat (length f)) with false by lia. reflexivity.
  - destruct (fread_at f pos [a; b] rest' 2 A) as [F1 A1]; [reflexivity|lia|]. rewrite F1.
    destruct (Z.eqb_spec a 255); cbn [negb]; [|reflexivity].
    replace ((b =? 217) || (b =? 218)) with true by (destruct H as [?|[->| ->]]; [lia|reflexivity|reflexivity]). reflexivity.
Qed.

Lemma not_jpeg fuel : get_exif_orientation fuel None = Ok 1 /\
  forall f, (forall rest, f <> [255; 216] ++ rest) -> get_exif_orientation fuel (Some f) = Ok 1.
Proof.
  split; [reflexivity|]. intros f H. unfold get_exif_orientation, fread, flen.
  destruct (0 + 2 <=? Z.of_nat (length f)) eqn:C; [|reflexivity].
  destruct f as [|a [|b rest]]; simpl in C; try discriminate.
  change (firstn (Z.to_nat 2) (skipn (Z.to_nat 0) (a :: b :: rest))) with [a; b]. cbv iota.
  destruct (Z.eqb_spec a 255) as [->|]; [|reflexivity]. destruct (Z.eqb_spec b 216) as [->|]; [|reflexivity].
  destruct (H rest eq_refl).
Qed.

(** ** Non-termination: a file that ends in a marker *)
Lemma dangling segs m fuel : Forall segment_ok segs -> byte m -> m <> 217 -> m <> 218 -> m <> 225 ->
  get_exif_orientation fuel (Some ([255; 216] ++ segments_bytes segs ++ [255; m])) = Hang.
Proof.
  intros O B N1 N2 N3. set (rest := [255; m]).
  assert (G : forall fuel', len ([255; 216] ++ segments_bytes segs ++ rest) < Z.of_nat fuel' ->
    get_exif_orientation fuel' (Some ([255; 216] ++ segments_bytes segs ++ rest)) = Hang).
  { intros fuel' L. destruct (reach segs _ fuel' O L) as (k & pos & K & A & ->).
    set (f := _ ++ _ ++ _) in *. clearbody f. apply (while_hang (fun p => p = pos)); [|reflexivity].
    intros ? ->. exists pos. split; [|reflexivity].
    assert (P : 0 <= pos) by (destruct A; lia).
    assert (LR : Z.of_nat (length f) = pos + 2).
    { destruct A as [_ E]. assert (X : length (skipn (Z.to_nat pos) f) = 2%nat) by (rewrite E; reflexivity).
      rewrite skipn_length in X. lia. }
    unfold marker_body. destruct (fread_at f pos [255; m] [] 2 A) as [F1 A1]; [reflexivity|lia|]. rewrite F1.
    change (255 =? 255) with true. cbn [negb]. replace (m =? 217) with false by lia. replace (m =? 218) with false by lia.
    cbn [orb]. cbv iota. unfold read_u16, fread, flen. replace (pos + 2 + 2 <=? Z.of_nat (length f)) with false by lia.
    rewrite LR, Z.max_id. replace (m =? 225) with false by lia. unfold fseek_cur.
    replace (pos + 2 + (0 - 2) <? 0) with false by lia. do 2 f_equal. lia. }
  (* less fuel cannot help *)
  unfold get_exif_orientation in *. set (f := [255; 216] ++ segments_bytes segs ++ rest) in *.
  destruct (fread f 0 2) as [[[|h0 [|h1 [|]]]|] pos] eqn:E.
  all: try (specialize (G (S (length f)) ltac:(unfold len; lia)); discriminate).
  destruct (negb (h0 =? 255) || negb (h1 =? 216)); [specialize (G (S (length f)) ltac:(unfold len; lia)); discriminate|].
  specialize (G (fuel + S (length f))%nat ltac:(unfold len; lia)).
  assert (X : forall a b s, while_ (a + b) (marker_body f) s = Hang -> while_ a (marker_body f) s = Hang).
  { clear. induction a; intros b s H; [reflexivity|]. cbn [Nat.add while_] in *.
    destruct (marker_body f s) as [[s'|x]| | |]; cbn [bind] in *; try discriminate; eauto. }
  eapply X, G.
Qed.

(** ** Termination otherwise *)
Lemma while_term {S R} (m : S -> nat) (P : S -> Prop) (Q : R -> Prop) (body : S -> res (S + R)) :
  (forall s, P s -> match body s with
     | Ok (inl s') => P s' /\ (m s' < m s)%nat
     | Ok (inr r) => Q r
     | Hang => False | _ => True end) ->
  forall fuel s, P s -> (m s < fuel)%nat ->
    while_ fuel body s <> Hang /\ forall r, while_ fuel body s = Ok r -> Q r.
Proof.
  intros H. induction fuel; intros s Ps L; [lia|]. cbn [while_]. specialize (H s Ps).
  destruct (body s) as [[s'|x]| | |]; cbn [bind]; try (split; [discriminate|intros; discriminate]); [|split; [discriminate|congruence]|tauto].
  destruct H. apply IHfuel; auto. lia.
Qed.

Lemma fread_cases f pos n : 0 <= pos -> 0 <= n -> bytes f ->
  (exists x, fread f pos n = (Some x, pos + n) /\ length x = Z.to_nat n /\ bytes x /\ pos + n <= flen f) \/
  (fread f pos n = (None, Z.max pos (flen f)) /\ flen f < pos + n).
Proof.
  intros P N B. unfold fread. destruct (Z.leb_spec (pos + n) (flen f)) as [C|C]; [left|right; auto].
  eexists; split; [reflexivity|]. unfold flen in C. split; [rewrite firstn_length, skipn_length; lia|]. split; [|exact C].
  unfold bytes in *. rewrite Forall_forall in *. intros v Hv. apply B.
  rewrite <- (firstn_skipn (Z.to_nat pos) f). apply in_or_app; right.
  rewrite <- (firstn_skipn (Z.to_nat n) (skipn (Z.to_nat pos) f)). apply in_or_app; left. exact Hv.
Qed.

Lemma read_u16_range f pos le : 0 <= pos -> bytes f ->
  0 <= fst (read_u16 f pos le) < 65536 /\ 0 <= snd (read_u16 f pos le) /\ pos <= snd (read_u16 f pos le) /\
  (pos + 2 <= flen f -> snd (read_u16 f pos le) = pos + 2) /\
  (flen f < pos + 2 -> read_u16 f pos le = (0, Z.max pos (flen f))).
Proof.
  intros P B. unfold read_u16. destruct (fread_cases f pos 2 P ltac:(lia) B) as [(x & -> & L & Bx & C)|[-> C]].
  - do 3 (destruct x as [|? x]; simpl in L; try lia). inversion Bx as [|? ? B0 Bx']; subst. inversion Bx' as [|? ? B1 _]; subst.
    unfold byte in *. destruct le; cbn [fst snd]; (split; [lia|]); (split; [lia|]); (split; [lia|]); (split; [lia|intros; lia]).
  - cbn [fst snd]. do 3 (split; [lia|]). split; [lia|auto].
Qed.

Lemma read_u32_cases f pos le : 0 <= pos -> bytes f ->
  match read_u32 f pos le with Ok (v, p) => 0 <= p /\ 0 <= v | Hang => False | _ => True end.
Proof.
  intros P B. unfold read_u32. destruct (fread_cases f pos 4 P ltac:(lia) B) as [(x & -> & L & Bx & C)|[-> C]]; [|lia].
  do 5 (destruct x as [|? x]; simpl in L; try lia).
  repeat match goal with H : bytes (_ :: _) |- _ => inversion H; clear H; subst | H : Forall byte (_ :: _) |- _ => inversion H; clear H; subst end.
  unfold byte in *. destruct le; unfold shl24; match goal with |- context [128 <=? ?z] => destruct (128 <=? z) end; cbn [bind]; auto; lia.
Qed.

Lemma ifd_total f le n pos : 0 <= pos -> bytes f -> 0 <= n ->
  match ifd_loop f le n pos with Ok (inr v) => 0 <= v < 65536 | Hang => False | _ => True end.
Proof.
  intros P B N. unfold ifd_loop, for_brk. rewrite Z.sub_0_r. clear N. generalize 0 at 1 as lo.
  revert pos P. induction (Z.to_nat n) as [|k IH]; intros pos P lo; [exact I|]. cbn [iter_brk].
  pose proof (read_u16_range f pos le P B) as (A1 & A2 & _). destruct (read_u16 f pos le) as [tag p1]. cbn [fst snd] in *.
  pose proof (read_u16_range f p1 le A2 B) as (_ & A3 & _). destruct (read_u16 f p1 le) as [ty p2]. cbn [fst snd] in *.
  pose proof (read_u32_cases f p2 le A3 B) as A4. destruct (read_u32 f p2 le) as [[c p3]| | |]; cbn [bind]; auto.
  destruct (tag =? 274).
  - pose proof (read_u16_range f p3 le ltac:(lia) B) as (A5 & _). destruct (read_u16 f p3 le). cbn [bind fst] in *. exact A5.
  - cbn [bind]. apply IH. unfold fseek_cur. destruct (p3 + 4 <? 0); lia.
Qed.

Lemma tiff_total f pos : 0 <= pos -> bytes f ->
  match read_tiff f pos with Ok v => 0 <= v < 65536 | Hang => False | _ => True end.
Proof.
  intros P B. unfold read_tiff. destruct (fread_cases f pos 2 P ltac:(lia) B) as [(x & -> & L & Bx & C)|[-> C]]; [|lia].
  do 3 (destruct x as [|? x]; simpl in L; try lia). cbv zeta.
  match goal with |- context [negb ?a && negb ?b] => generalize a as le; generalize b as be end. intros be le.
  destruct (negb le && negb be); [lia|].
  pose proof (read_u16_range f (pos + 2) le ltac:(lia) B) as (A1 & A2 & _). destruct (read_u16 f (pos + 2) le) as [magic p1]. cbn [fst snd] in *.
  destruct (negb (magic =? 42)); [lia|].
  pose proof (read_u32_cases f p1 le A2 B) as A4. destruct (read_u32 f p1 le) as [[off p2]| | |]; cbn [bind]; auto.
  assert (Q : 0 <= fseek_set p2 (pos + off)) by (unfold fseek_set; destruct (pos + off <? 0) eqn:?; lia).
  pose proof (read_u16_range f _ le Q B) as (A5 & A6 & _). destruct (read_u16 f (fseek_set p2 (pos + off)) le) as [n p3]. cbn [fst snd] in *.
  pose proof (ifd_total f le n p3 A6 B ltac:(lia)) as A7. destruct (ifd_loop f le n p3) as [[?|?]| | |]; cbn [bind]; auto. lia.
Qed.

Lemma two_last f pos x : 0 <= pos -> fread f pos 2 = (Some x, pos + 2) -> flen f = pos + 2 ->
  f = firstn (Z.to_nat pos) f ++ x.
Proof.
  intros P E L. unfold fread in E. destruct (pos + 2 <=? flen f) eqn:C; [|discriminate]. injection E as <-.
  assert (X : firstn (Z.to_nat 2) (skipn (Z.to_nat pos) f) = skipn (Z.to_nat pos) f).
  { apply firstn_all2. rewrite skipn_length. unfold flen in L. lia. }
  etransitivity; [symmetry; apply (firstn_skipn (Z.to_nat pos))|]. f_equal. symmetry. exact X.
Qed.

Lemma marker_progress f pos : bytes f -> 0 <= pos -> ~ ends_in_marker f ->
  match marker_body f pos with
  | Ok (inl p) => 0 <= p /\ pos < p /\ pos < flen f
  | Ok (inr v) => 0 <= v < 65536
  | Hang => False | _ => True end.
Proof.
  intros B P NE. unfold marker_body.
  destruct (fread_cases f pos 2 P ltac:(lia) B) as [(x & F1 & L & Bx & C)|[-> C]]; [|lia]. rewrite F1.
  do 3 (destruct x as [|? x]; simpl in L; try lia).
  destruct (Z.eqb_spec z 255) as [->|]; cbn [negb]; [|lia].
  destruct (Z.eqb_spec z0 217); [cbn; lia|]. destruct (Z.eqb_spec z0 218); [cbn; lia|]. cbn [orb]. cbv iota.
  pose proof (read_u16_range f (pos + 2) false ltac:(lia) B) as (A1 & A2 & A3 & A4 & A5).
  destruct (Z.lt_ge_cases (flen f) (pos + 2 + 2)) as [S|S].
  - (* the size is missing *)
    rewrite (A5 S). destruct (Z.eqb_spec z0 225).
    + destruct (fread_cases f (Z.max (pos + 2) (flen f)) 6 ltac:(lia) ltac:(lia) B) as [(x & _ & _ & _ & C')|[-> C']]; lia.
    + assert (flen f <> pos + 2).
      { intros E. apply NE. exists (firstn (Z.to_nat pos) f), z0. split; [apply two_last; auto|auto]. }
      unfold fseek_cur. replace (Z.max (pos + 2) (flen f) + (0 - 2) <? 0) with false by lia. lia.
  - specialize (A4 ltac:(lia)). destruct (read_u16 f (pos + 2) false) as [size p1]. cbn [fst snd] in *. subst p1.
    destruct (Z.eqb_spec z0 225).
    + destruct (fread_cases f (pos + 2 + 2) 6 ltac:(lia) ltac:(lia) B) as [(h & -> & _ & _ & C')|[-> C']]; [|lia].
      destruct (negb (is_exif_header h)).
      * unfold fseek_cur. replace (pos + 2 + 2 + 6 + (size - 2 - 6) <? 0) with false by lia. lia.
      * pose proof (tiff_total f (pos + 2 + 2 + 6) ltac:(lia) B) as T. destruct (read_tiff f (pos + 2 + 2 + 6)); cbn [bind]; auto.
    + unfold fseek_cur. replace (pos + 2 + 2 + (size - 2) <? 0) with false by lia. lia.
Qed.

Lemma exif_terminates f fuel : bytes f -> ~ ends_in_marker f -> len f < Z.of_nat fuel ->
  get_exif_orientation fuel (Some f) <> Hang.
Proof.
  intros B NE L. unfold get_exif_orientation.
  destruct (fread_cases f 0 2 ltac:(lia) ltac:(lia) B) as [(x & -> & Lx & Bx & C)|[-> C]]; [|discriminate].
  do 3 (destruct x as [|? x]; simpl in Lx; try lia).
  destruct (negb (z =? 255) || negb (z0 =? 216)); [discriminate|].
  apply (while_term (fun p => Z.to_nat (flen f - p)) (fun p => 0 <= p) (fun _ => True)); [|lia|unfold flen, len in *; lia].
  intros p Pp. pose proof (marker_progress f p B Pp NE) as M. destruct (marker_body f p) as [[p'|r]| | |]; auto. lia.
Qed.

(** Whatever the file, a returned value fits in 16 bits. *)
Lemma exif_range f fuel v : bytes f -> get_exif_orientation fuel (Some f) = Ok v -> 0 <= v < 65536.
Proof.
  intros B. unfold get_exif_orientation.
  destruct (fread_cases f 0 2 ltac:(lia) ltac:(lia) B) as [(x & -> & Lx & Bx & C)|[-> C]]; [|intros E; injection E; lia].
  do 3 (destruct x as [|? x]; simpl in Lx; try lia).
  destruct (negb (z =? 255) || negb (z0 =? 216)); [intros E; injection E; lia|].
  assert (G : 0 <= 0 + 2) by lia. revert G. generalize (0 + 2) as p. induction fuel; intros p G; [discriminate|]. cbn [while_].
  unfold marker_body at 1.
  destruct (fread_cases f p 2 G ltac:(lia) B) as [(x & -> & Lx' & _ & C1)|[-> C1]]; [|intros E; injection E; lia].
  do 3 (destruct x as [|? x]; simpl in Lx'; try lia).
  destruct (negb _); [intros E; injection E; lia|]. destruct (_ || _); [intros E; injection E; lia|].
  pose proof (read_u16_range f (p + 2) false ltac:(lia) B) as (A1 & A2 & A3 & _).
  destruct (read_u16 f (p + 2) false) as [size p1]. cbn [fst snd] in *.
  assert (K : forall q off, 0 <= q -> 0 <= fseek_cur q off) by (intros; unfold fseek_cur; destruct (q + off <? 0) eqn:?; lia).
  destruct (_ =? 225).
  - destruct (fread_cases f p1 6 A2 ltac:(lia) B) as [(h & -> & _ & _ & C')|[-> C']]; [|intros E; injection E; lia].
    destruct (negb (is_exif_header h)); cbn [bind]; [apply IHfuel, K; lia|].
    pose proof (tiff_total f (p1 + 6) ltac:(lia) B) as T. destruct (read_tiff f (p1 + 6)); cbn [bind]; try discriminate.
    intros E; injection E as <-. exact T.
  - cbn [bind]. apply IHfuel, K; lia.
Qed.

(** ** Concrete files *)
Definition sample_segs : list segment := [(224, [74; 70; 73; 70; 0]); (225, [104; 116; 116; 112; 58; 47; 47])].
Definition sample_entry (v : Z) : entry := mkentry ORIENTATION 3 1 [v; 0; 0; 0].
Definition sample_es : list entry := [mkentry 271 2 4 [65; 66; 67; 0]; mkentry 282 5 1 [200; 255; 0; 0]].
Definition sample_tiff (v : Z) : list Z :=
  [73; 73] ++ num16 true 42 ++ num32 true 10 ++ [1; 2] ++ num16 true 3 ++
  concat (map (entry_bytes true) (sample_es ++ [sample_entry v])) ++ [0; 0; 0; 0; 255; 217].
Lemma sample_segs_ok : Forall segment_ok sample_segs.
Proof.
  assert (B : forall l, forallb (fun v => (0 <=? v) && (v <? 256)) l = true -> bytes l).
  { intros l H. apply Forall_forall. intros v Hv. rewrite forallb_forall in H. specialize (H v Hv). unfold byte. lia. }
  repeat constructor; try (apply B; reflexivity); try discriminate; try lia.
Qed.
Lemma sample_tiff_ok v : byte v -> tiff_with true 10 3 (sample_es ++ sample_entry v :: []) (sample_tiff v).
Proof.
  intros V. assert (B : forall l, forallb (fun v => (0 <=? v) && (v <? 256)) l = true -> bytes l).
  { intros l H. apply Forall_forall. intros u Hu. rewrite forallb_forall in H. specialize (H u Hu). unfold byte. lia. }
  split; [lia|]. split; [lia|]. split.
  { assert (V0 : byte 0) by (unfold byte; lia).
    apply Forall_cons; [|apply Forall_cons; [|apply Forall_cons; [|apply Forall_nil]]]; unfold entry_ok; cbn [e_tag e_type e_count e_value sample_entry];
      (split; [unfold ORIENTATION; lia|]); (split; [lia|]); (split; [lia|]); (split; [|reflexivity]); try (apply B; reflexivity).
    apply Forall_cons; [exact V|]. apply B. reflexivity. }
  split; [simpl; unfold len; simpl; lia|]. split; eexists; reflexivity.
Qed.
Lemma sample_found v fuel : byte v -> len (exif_file sample_segs 1000 (sample_tiff v)) < Z.of_nat fuel ->
  get_exif_orientation fuel (Some (exif_file sample_segs 1000 (sample_tiff v))) = Ok v.
Proof.
  intros V L. unfold byte in V.
  apply (exif_found sample_segs 1000 true 10 3 sample_es (sample_entry v) [] v [0; 0]); auto; try lia.
  - exact sample_segs_ok.
  - apply sample_tiff_ok. exact V.
  - repeat constructor; discriminate.
  - simpl. rewrite Z.mod_small, Z.div_small by lia. reflexivity.
Qed.
Lemma sample_bytes : bytes (exif_file sample_segs 1000 (sample_tiff 9)).
Proof.
  apply Forall_forall. intros u Hu.
  assert (B : forallb (fun v => (0 <=? v) && (v <? 256)) (exif_file sample_segs 1000 (sample_tiff 9)) = true) by reflexivity.
  rewrite forallb_forall in B. specialize (B u Hu). unfold byte. lia.
Qed.
Lemma range_refuted : exists f, bytes f /\ forall fuel, len f < Z.of_nat fuel ->
  exists v, get_exif_orientation fuel (Some f) = Ok v /\ ~ (1 <= v <= 8).
Proof.
  exists (exif_file sample_segs 1000 (sample_tiff 9)). split; [exact sample_bytes|]. intros fuel L. exists 9.
  split; [apply sample_found; [unfold byte; lia|exact L]|lia].
Qed.
(** An entry whose count is 2^31. *)
Definition ub_file : list Z := exif_file [] 100 ([73; 73; 42; 0; 8; 0; 0; 0] ++ [1; 0] ++ [18; 1; 3; 0; 0; 0; 0; 128; 6; 0; 0; 0]).
Lemma ub_bytes : bytes ub_file.
Proof.
  apply Forall_forall. intros u Hu.
  assert (B : forallb (fun v => (0 <=? v) && (v <? 256)) ub_file = true) by reflexivity.
  rewrite forallb_forall in B. specialize (B u Hu). unfold byte. lia.
Qed.
Lemma exif_ub : exists f, bytes f /\ forall fuel, (0 < fuel)%nat -> get_exif_orientation fuel (Some f) = UB BadShift.
Proof. exists ub_file. split; [exact ub_bytes|]. intros [|fuel] H; [lia|]. reflexivity. Qed.

(** * Theorems C37-C39: the command-line syntax *)
From Coq Require Import String.
From Verif Require Import Base BaseLemmas F M_Color Spec_Parse M_Parse P_Parse.
Local Open Scope string_scope.
Local Open Scope list_scope.
Local Open Scope Z_scope.

(** ** C37: WxH+X+Y, WxH+X, WxH *)
Theorem C37_geometry : forall sw sh gx sx gy sy w h x y,
  numeral sw w -> numeral sh h -> numeral sx x -> numeral sy y ->
  1 <= w <= 4294967295 -> 1 <= h <= 4294967295 ->
  INT_MIN <= signed gx x <= INT_MAX -> INT_MIN <= signed gy y <= INT_MAX ->
  parse_geometry (sw ++ LETTER_X :: sh ++ sign_char gx :: sx ++ sign_char gy :: sy)
    = Some (w, h, signed gx x, signed gy y).
Proof. exact geometry_full. Qed.
Print Assumptions C37_geometry.

Theorem C37_geometry_x : forall sw sh gx sx w h x,
  numeral sw w -> numeral sh h -> numeral sx x ->
  1 <= w <= 4294967295 -> 1 <= h <= 4294967295 -> INT_MIN <= signed gx x <= INT_MAX ->
  parse_geometry (sw ++ LETTER_X :: sh ++ sign_char gx :: sx) = Some (w, h, signed gx x, 0).
Proof. exact geometry_x. Qed.
Print Assumptions C37_geometry_x.

Theorem C37_geometry_size : forall sw sh w h,
  numeral sw w -> numeral sh h -> 1 <= w <= 4294967295 -> 1 <= h <= 4294967295 ->
  parse_geometry (sw ++ LETTER_X :: sh) = Some (w, h, 0, 0).
Proof. exact geometry_size. Qed.
Print Assumptions C37_geometry_size.

(** Whatever is accepted is of the form "number x number [number [number]]",
    numbers being as strtoul and strtol read them. *)
Theorem C37_accepts_only : forall s w h x y, parse_geometry s = Some (w, h, x, y) ->
  1 <= w <= 4294967295 /\ 1 <= h <= 4294967295 /\ INT_MIN <= x <= INT_MAX /\ INT_MIN <= y <= INT_MAX /\
  exists sw sh rest, s = sw ++ LETTER_X :: sh ++ rest /\ loose_unsigned sw w /\ loose_unsigned sh h /\
    ((rest = [] /\ x = 0 /\ y = 0) \/ (loose_number rest x /\ y = 0) \/
     exists sx sy, rest = sx ++ sy /\ loose_number sx x /\ loose_number sy y).
Proof. exact geometry_only. Qed.
Print Assumptions C37_accepts_only.

Example C37_ex :
  numeral (txt "4294967295") 4294967295 /\ numeral (txt "050") 50 /\ numeral (txt "2147483648") 2147483648 /\
  INT_MIN <= signed Minus 2147483648 <= INT_MAX /\
  parse_geometry (txt "4294967295x050-2147483648+7") = Some (4294967295, 50, -2147483648, 7) /\
  parse_geometry (txt "50x50+2147483648") = None /\ parse_geometry (txt "50x0") = None /\
  parse_geometry (txt "50") = None /\ parse_geometry (txt "50x50+1+2z") = None.
Proof.
  assert (D : forall s, forallb isdigit s = true -> Forall is_digit s).
  { intros s H. rewrite forallb_forall in H. apply Forall_forall. intros c Hc. apply isdigit_iff, H, Hc. }
  split; [split; [discriminate|split; [apply D; reflexivity|reflexivity]]|].
  split; [split; [discriminate|split; [apply D; reflexivity|reflexivity]]|].
  split; [split; [discriminate|split; [apply D; reflexivity|reflexivity]]|].
  split; [unfold INT_MIN, INT_MAX; cbn [signed]; lia|]. repeat split; vm_compute; reflexivity.
Qed.

(** Strings with a negative size are accepted when the size wraps around to
    1..2^32-1, and white space and repeated signs between the parts are accepted. *)
Theorem C37_malformed_refuted :
  parse_geometry (txt "-18446744073709551566x-18446744073709551615") = Some (50, 1, 0, 0) /\
  parse_geometry (txt " 5x +6 7  -8") = Some (5, 6, 7, -8).
Proof. split; vm_compute; reflexivity. Qed.
Print Assumptions C37_malformed_refuted.

(** ** C38: how arguments are split does not matter, for every meaning of the
    numeric parameters *)
Theorem C38_joined : forall atof atoi show2 args, small args ->
  (exists r, parse_pipeline atof atoi show2 true args = Ok r) /\
  parse_pipeline atof atoi show2 true args = parse_pipeline atof atoi show2 true [spaced args].
Proof. exact main_joined. Qed.
Print Assumptions C38_joined.

Theorem C38_split : forall atof atoi show2 args args', small args -> small args' -> spaced args = spaced args' ->
  parse_pipeline atof atoi show2 true args = parse_pipeline atof atoi show2 true args'.
Proof. exact main_split. Qed.
Print Assumptions C38_split.

(** Commas: the operations on the left, then those on the right. *)
Theorem C38_sequence : forall atof atoi show2 a b, args_size [a ++ COMMA :: b] + 1 < U64 ->
  exists ra rb, parse_pipeline atof atoi show2 true [a] = Ok ra /\ parse_pipeline atof atoi show2 true [b] = Ok rb /\
  parse_pipeline atof atoi show2 true [a ++ COMMA :: b] =
    Ok (match ra, rb with Some la, Some lb => Some (la ++ lb) | _, _ => None end).
Proof. exact parse_comma. Qed.
Print Assumptions C38_sequence.

(** White space and parentheses around an operation do not matter. *)
Theorem C38_parentheses : forall atof atoi show2 ws1 ws2 ws3 ws4 l, l <> [] -> Forall word l ->
  Forall is_white ws1 -> Forall is_white ws2 -> Forall is_white ws3 -> Forall is_white ws4 ->
  small [ws1 ++ LPAREN :: (ws2 ++ spaced l ++ ws3) ++ [RPAREN] ++ ws4] ->
  parse_pipeline atof atoi show2 true [ws1 ++ spaced l ++ ws4] = parse_pipeline atof atoi show2 true [spaced l] /\
  parse_pipeline atof atoi show2 true [ws1 ++ LPAREN :: (ws2 ++ spaced l ++ ws3) ++ [RPAREN] ++ ws4] =
    parse_pipeline atof atoi show2 true [spaced l].
Proof. exact main_wrapped. Qed.
Print Assumptions C38_parentheses.

(** An operation with up to two numeric parameters. *)
Theorem C38_plain : forall atof atoi show2 name params,
  word name -> plain_name name -> (length name <= 31)%nat -> Forall word params ->
  small (name :: params) -> (length params <= 2)%nat ->
  parse_pipeline atof atoi show2 true (name :: params) =
    Ok (Some [mkop name (option_map atof (nth_error params 0)) (option_map atof (nth_error params 1)) None None None]).
Proof. exact main_plain. Qed.
Print Assumptions C38_plain.

(** crop hands the geometry over. *)
Theorem C38_crop : forall atof atoi show2 g w h x y, word g -> parse_geometry g = Some (w, h, x, y) -> small [txt "crop"; g] ->
  parse_pipeline atof atoi show2 true [txt "crop"; g] =
    Ok (Some [mkop (txt "crop") (Some (d_of_Z x)) (Some (d_of_Z y)) (Some (d_of_Z w)) (Some (d_of_Z h)) None]).
Proof. exact main_crop. Qed.
Print Assumptions C38_crop.

Definition ex_atof (s : cstr) : f64 := d_of_Z (decimal 0 s).
Definition ex_args : list cstr := [txt "grayscale,"; txt "(blur"; txt "9),rotate"; txt "180"].
Lemma word_txt s : forallb (fun c => (33 <=? c) && (c <=? 255) && negb (c =? 44) && negb (c =? 40) && negb (c =? 41)) s = true -> s <> [] -> word s.
Proof.
  intros H N. split; [exact N|]. rewrite forallb_forall in H. apply Forall_forall. intros c Hc. apply H in Hc.
  unfold word_char, COMMA, LPAREN, RPAREN. lia.
Qed.
Example C38_ex :
  small ex_args /\ spaced ex_args = txt "grayscale, (blur 9),rotate 180" /\
  word (txt "rotate") /\ plain_name (txt "rotate") /\ Forall word [txt "180"] /\ small [txt "rotate"; txt "180"] /\
  parse_pipeline ex_atof (fun _ => 0) (fun _ _ => []) true ex_args =
    Ok (Some [mkop (txt "grayscale") None None None None None;
              mkop (txt "blur") (Some (d_of_Z 9)) None None None None;
              mkop (txt "rotate") (Some (d_of_Z 180)) None None None None]).
Proof.
  split; [vm_compute; reflexivity|]. split; [vm_compute; reflexivity|].
  split; [apply word_txt; [reflexivity|discriminate]|].
  split; [intros H; vm_compute in H; repeat (destruct H as [H|H]; [discriminate H|]); destruct H|].
  split; [constructor; [apply word_txt; [reflexivity|discriminate]|constructor]|].
  split; [vm_compute; reflexivity|]. reflexivity.
Qed.

(** ** C39: string parameters are cut after 63 bytes, operation names after 31 *)
Definition markers8 : list cstr := repeat (txt "1000x1000") 8.
Theorem C39_unmodified_refuted : exists args params,
  args = txt "watershed" :: params /\ Forall word params /\ small args /\
  forall atof atoi show2, exists s,
    parse_pipeline atof atoi show2 true args = Ok (Some [mkop (txt "watershed") None None None None (Some s)]) /\
    s <> spaced params.
Proof.
  exists (txt "watershed" :: markers8), markers8. split; [reflexivity|].
  assert (W : word (txt "1000x1000")) by (apply word_txt; [reflexivity|discriminate]).
  assert (F : Forall word markers8) by (unfold markers8; cbn [repeat]; repeat (apply Forall_cons; [exact W|]); constructor).
  split; [exact F|]. assert (S : small (txt "watershed" :: markers8)) by (vm_compute; reflexivity). split; [exact S|].
  intros atof atoi show2. exists (firstn 63 (spaced markers8)). split.
  - apply (main_watershed atof atoi show2 (txt "1000x1000") (repeat (txt "1000x1000") 7)); auto.
    unfold markers8 in F. cbn [repeat] in F. inversion F; auto.
  - vm_compute. discriminate.
Qed.
Print Assumptions C39_unmodified_refuted.

(** Parameters of at most 63 bytes arrive as typed: markers of watershed,
    percentages of resize and trim, the colour of border. *)
Theorem C39_watershed_partial : forall atof atoi show2 params, params <> [] -> Forall word params ->
  small (txt "watershed" :: params) -> (length (spaced params) <= 63)%nat ->
  parse_pipeline atof atoi show2 true (txt "watershed" :: params) =
    Ok (Some [mkop (txt "watershed") None None None None (Some (spaced params))]).
Proof. exact short_watershed. Qed.
Print Assumptions C39_watershed_partial.

Theorem C39_percent_partial : forall atof atoi show2 name a,
  name = txt "resize" \/ name = txt "trim" -> word a -> In PERCENT a -> small [name; a] -> (length a <= 63)%nat ->
  parse_pipeline atof atoi show2 true [name; a] = Ok (Some [mkop name None None None None (Some a)]).
Proof. exact short_percent. Qed.
Print Assumptions C39_percent_partial.

Theorem C39_border_partial : forall atof atoi show2 color width,
  word color -> word width -> dlt d0 (atof width) = true -> small [txt "border"; color; width] -> (length color <= 63)%nat ->
  parse_pipeline atof atoi show2 true [txt "border"; color; width] =
    Ok (Some [mkop (txt "border") (Some (atof width)) None None None (Some color)]).
Proof. exact short_border. Qed.
Print Assumptions C39_border_partial.

Example C39_partial_ex :
  Forall word [txt "10x20"; txt "30x40"] /\ (length (spaced [txt "10x20"; txt "30x40"]) <= 63)%nat /\
  word (txt "50%x80%") /\ In PERCENT (txt "50%x80%") /\ word (txt "FF0000") /\ dlt d0 (ex_atof (txt "10")) = true.
Proof.
  split; [apply Forall_cons; [apply word_txt; [reflexivity|discriminate]|apply Forall_cons; [apply word_txt; [reflexivity|discriminate]|constructor]]|].
  split; [vm_compute; lia|]. split; [apply word_txt; [reflexivity|discriminate]|].
  split; [vm_compute; auto|]. split; [apply word_txt; [reflexivity|discriminate]|reflexivity].
Qed.

(** * Spec_Parse: vocabulary for the command-line syntax *)
From Coq Require Import String Ascii.
From Verif Require Import Base F M_Color.
Local Open Scope string_scope.
Local Open Scope list_scope.
Local Open Scope Z_scope.

(** The bytes of a string constant. *)
Definition txt (s : string) : cstr := List.map (fun a => Z.of_N (N_of_ascii a)) (list_ascii_of_string s).

Definition SPACE : Z := 32.
Definition COMMA : Z := 44.
Definition PLUS : Z := 43.
Definition MINUS : Z := 45.
Definition LETTER_X : Z := 120.
Definition PERCENT : Z := 37.
Definition LPAREN : Z := 40.
Definition RPAREN : Z := 41.

(** ** Numbers *)
(** [s] is a non-empty string of decimal digits, of value [n]. *)
Definition is_digit (c : Z) : Prop := 48 <= c <= 57.
Fixpoint decimal (acc : Z) (s : cstr) : Z :=
  match s with [] => acc | c :: t => decimal (10 * acc + (c - 48)) t end.
Definition numeral (s : cstr) (n : Z) : Prop := s <> [] /\ Forall is_digit s /\ decimal 0 s = n.
(** A sign, and a number with it. *)
Inductive sign := Plus | Minus.
Definition sign_char (g : sign) : Z := match g with Plus => PLUS | Minus => MINUS end.
Definition signed (g : sign) (n : Z) : Z := match g with Plus => n | Minus => - n end.
(** White space of the C locale: space, \t \n \v \f \r. *)
Definition is_white (c : Z) : Prop := c = 32 \/ 9 <= c <= 13.
(** A number as strtol reads it: white space, an optional sign, digits. *)
Definition loose_number (s : cstr) (n : Z) : Prop :=
  exists ws g ds v, Forall is_white ws /\ numeral ds v /\
    match g with
    | None => s = ws ++ ds /\ n = v
    | Some g => s = ws ++ sign_char g :: ds /\ n = signed g v
    end.
(** A number as strtoul reads it, as an unsigned 64-bit value. *)
Definition loose_unsigned (s : cstr) (n : Z) : Prop := exists v, loose_number s v /\ n = v mod U64.

(** ** Pipelines *)
(** The arguments separated by single spaces. *)
Fixpoint spaced (args : list cstr) : cstr :=
  match args with [] => [] | [a] => a | a :: rest => a ++ SPACE :: spaced rest end.
(** Room needed to join the arguments. *)
Definition args_size (args : list cstr) : Z :=
  fold_right (fun a n => Z.of_nat (length a) + 2 + n) 0 args.
(** The arguments fit in memory together. *)
Definition small (args : list cstr) : Prop := args_size args + 3 < U64.
(** A word: a non-empty string without white space, commas, parentheses. *)
Definition word_char (c : Z) : Prop := 33 <= c <= 255 /\ c <> COMMA /\ c <> LPAREN /\ c <> RPAREN.
Definition word (s : cstr) : Prop := s <> [] /\ Forall word_char s.
(** Operations whose parameters are not plain numbers. *)
Definition plain_name (s : cstr) : Prop :=
  ~ In s (List.map txt ["resize"; "circle"; "disk"; "watershed"; "crop"; "extract_document"; "extract_document_to"; "border"; "trim"]).

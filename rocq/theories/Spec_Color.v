(** * Spec_Color: vocabulary for the colour properties *)
From Verif Require Import Base F Heap Spec.

(** The per-level contrast map: identity if the two percentiles coincide,
    otherwise saturate outside [lo..hi] and scale linearly inside. *)
Definition stretch_map (lo hi g : Z) : Z :=
  if lo =? hi then g else if g <? lo then 0 else if hi <? g then 255 else (g - lo) * 255 / (hi - lo).

(** Output level of a double threshold: black below [lower], white above
    [upper], linear between. *)
Definition dbl_map (lower upper v : Z) : Z :=
  if v <? lower then 0 else if upper <? v then 255 else (v - lower) * 255 / (upper - lower).

(** Value of a hexadecimal digit given by its ASCII code. *)
Definition hex_digit (c : Z) : option Z :=
  if (48 <=? c) && (c <=? 57) then Some (c - 48)
  else if (65 <=? c) && (c <=? 70) then Some (c - 55)
  else if (97 <=? c) && (c <=? 102) then Some (c - 87)
  else None.

(** A string of exactly six hex digits. *)
Definition six_hex (s : list Z) : Prop := length s = 6%nat /\ Forall (fun c => hex_digit c <> None) s.

(** * Spec_Blur: vocabulary of the blur theorems (C46, C47, C69, C70).

    This file does not mention the model of any FlatCV function. *)
From Verif Require Import Base F Heap Spec.
From Coq Require Import Reals.
From Flocq Require Import Core.
Local Open Scope Z_scope.

(** What is assumed of the C library's exp: it is exact at 0, it passes NaN on
    and, between -5 and 0, it is accurate to one part in 2^40. *)
Definition exp_ok (e : f64 -> f64) : Prop :=
  (forall s, e (B754_zero s) = F.d1) /\ e B754_nan = B754_nan /\
  forall x : f64, is_finite x = true -> (-5 <= B2R x <= 0)%R ->
    is_finite (e x) = true /\
    (exp (B2R x) * (1 - 1 / 1099511627776) <= B2R (e x) <= exp (B2R x) * (1 + 1 / 1099511627776))%R.

(** [f lo + ... + f hi] *)
Fixpoint rsum (n : nat) (lo : Z) (f : Z -> R) : R :=
  match n with O => 0 | S n' => f lo + rsum n' (lo + 1) f end.
Definition total (lo hi : Z) (f : Z -> R) : R := rsum (Z.to_nat (hi - lo + 1)) lo f.

(** Bell curve of standard deviation r / 3 at distance [t] *)
Definition bell (r t : R) : R := exp (- (9 * (t * t) / (2 * (r * r)))).
(** Distance at which the neighbour [k] columns (or rows) away is weighted: [k]
    itself if [r] is an integer *)
Definition distance (r : R) (k : Z) : Z := Ztrunc (IZR (k + Zfloor r) - r).
Definition weight (r : R) (k : Z) : R := bell r (IZR (distance r k)).

(** Weighted mean around position [x] of the values [d 0 .. d (n - 1)]: only
    positions within the picture count. *)
Definition inside (n x : Z) (f : Z -> R) (k : Z) : R :=
  if (0 <=? x + k) && (x + k <? n) then f k else 0%R.
Definition mean (r : R) (n x : Z) (d : Z -> R) : R :=
  (total (- Zfloor r) (Zfloor r) (inside n x (fun k => weight r k * d (x + k)%Z)) /
   total (- Zfloor r) (Zfloor r) (inside n x (weight r)))%R.
(** ... of the values around ([x], [y]) of a picture *)
Definition mean2 (r : R) (w h x y : Z) (d : Z -> Z -> R) : R :=
  mean r h y (fun y' => mean r w x (fun x' => d x' y')).

(** [b'] is the picture [b] blurred with radius [r]: opaque, and every channel is
    the weighted mean of the neighbourhood, up to rounding down twice. *)
Definition blurred (w h : Z) (r : R) (b b' : buf Z) : Prop :=
  exact_image (w * h * 4) b' /\
  forall x y, 0 <= x < w -> 0 <= y < h ->
    pix b' w 4 x y 3 = Some 255 /\
    forall c, 0 <= c < 3 -> exists v, pix b' w 4 x y c = Some v /\
      (mean2 r w h x y (fun x' y' => IZR (pixv b w 4 x' y' c)) - 9 / 4 <= IZR v
       <= mean2 r w h x y (fun x' y' => IZR (pixv b w 4 x' y' c)) + 1 / 4)%R.

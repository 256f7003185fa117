(** * Spec_Hist: vocabulary for the histogram property *)
From Verif Require Import Base F Heap Spec Spec_Morph.

(** How many of the [n] pixels of [b] have level [v] in channel [c]. *)
Definition level_count (b : buf Z) (n ch c v : Z) : Z :=
  count (fun i => match bget b (i * ch + c) with Some u => u =? v | None => false end) n.

(** One channel, or four with R = G = B everywhere. *)
Definition gray_picture (b : buf Z) (n ch : Z) : Prop :=
  ch = 1 \/ (ch = 4 /\ forall i, 0 <= i < n ->
    bget b (i * 4 + 1) = bget b (i * 4) /\ bget b (i * 4 + 2) = bget b (i * 4)).

(** Number of channels that are counted in a picture that is not gray. *)
Definition counted (ch : Z) : Z := if 3 <=? ch then 3 else 1.

(** [m] is the largest value of [f c v] for channels c < k and levels v. *)
Definition largest (k m : Z) (f : Z -> Z -> Z) : Prop :=
  (forall c v, 0 <= c < k -> 0 <= v < 256 -> f c v <= m) /\
  (exists c v, 0 <= c < k /\ 0 <= v < 256 /\ f c v = m).

(** The 256x200 RGBA picture with, in channel c, a bar of height [bars c x] in
    every column x, on black. *)
Definition bar_chart (bars : Z -> Z -> Z) (b' : buf Z) : Prop :=
  exact_image (256 * 200 * 4) b' /\
  forall x y, inside 256 200 x y ->
    pix b' 256 4 x y 3 = Some 255 /\
    forall c, 0 <= c < 3 -> pix b' 256 4 x y c = Some (if 200 - bars c x <=? y then 255 else 0).

(** Bars proportional to the counts, the highest count giving 200: white bars
    for gray pictures, otherwise one colour per channel.  [scale] multiplies a
    count by 200. *)
Definition hist_bars_by (scale : Z -> Z) (f : Z -> Z -> Z) (gray : Prop) (ch : Z) (bars : Z -> Z -> Z) : Prop :=
  (gray -> exists m, largest 1 m f /\
     forall c x, 0 <= c < 3 -> 0 <= x < 256 -> bars c x = if m =? 0 then 0 else scale (f 0 x) / m) /\
  (~ gray -> exists m, largest (counted ch) m f /\
     forall c x, 0 <= c < 3 -> 0 <= x < 256 -> bars c x = if (m =? 0) || (counted ch <=? c) then 0 else scale (f c x) / m).
Definition hist_bars (b : buf Z) (n ch : Z) (bars : Z -> Z -> Z) : Prop :=
  hist_bars_by (fun k => k * 200) (level_count b n ch) (gray_picture b n ch) ch bars.

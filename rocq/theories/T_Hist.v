(** * Theorems C27-C28: histogram *)
From Verif Require Import Base F Heap Spec Spec_Trim Spec_Morph Spec_Hist M_Hist P_Hist ExUtil.

(** ** C27: bars proportional to the counts *)
Theorem C27_histogram : forall w h ch s p b ow oh,
  wf s -> 0 < w -> 0 < h -> 0 < ch -> w * h * ch <= SIZE_MAX -> holds s p b -> image (w * h * ch) b ->
  (forall c v, 0 <= c < counted ch -> 0 <= v < 256 -> level_count b (w * h) ch c v <= 21474836) ->
  returns_sized s (generate_histogram w h ch p ow oh s) (fun w' h' b' => w' = 256 /\ h' = 200 /\
    exists bars, bar_chart bars b' /\ hist_bars b (w * h) ch bars).
Proof. exact histogram_ok. Qed.
Print Assumptions C27_histogram.

Theorem C27_rejects : forall w h ch s p ow oh, p = Null \/ w = 0 \/ h = 0 \/ ch = 0 ->
  generate_histogram w h ch p ow oh s = Ok (Null, ow, oh, s).
Proof. exact histogram_rejects. Qed.
Print Assumptions C27_rejects.

(** A 3x1 RGB picture: red 5, 5, 9; green 0, 0, 0; blue 1, 2, 3. *)
Definition hist_pic : list Z := [5;0;1; 5;0;2; 9;0;3].
Definition hist_px (r : res (ptr * Z * Z * st)) (ks : list (Z * Z)) : option (list (list (option Z))) :=
  match r with
  | Ok (Ptr i, w, h, s) => match mem s i with
      | Some (OBytes b) => Some (map (fun '(x, y) => map (fun c => pix b w 4 x y c) [0;1;2;3]) ks)
      | _ => None end
  | _ => None
  end.
Lemma hist_pic_count : forall c v, 0 <= c < counted 3 -> 0 <= v < 256 ->
  level_count (of_list hist_pic) (3 * 1) 3 c v <= 21474836.
Proof.
  intros c v _ _. unfold level_count.
  apply Z.le_trans with (3 * 1); [apply CountLemmas.count_range|]; lia.
Qed.
(** Green bin 0 is the fullest (3): it fills its column; red bin 5 (2 of 3) is
    133 high, so it ends at row 67. *)
Example C27_ex :
  (wf (st1 hist_pic) /\ holds (st1 hist_pic) (Ptr 0) (of_list hist_pic) /\ image (3 * 1 * 3) (of_list hist_pic) /\
   forall c v, 0 <= c < counted 3 -> 0 <= v < 256 -> level_count (of_list hist_pic) (3 * 1) 3 c v <= 21474836) /\
  hist_px (generate_histogram 3 1 3 (Ptr 0) 0 0 (st1 hist_pic)) [(0, 0); (5, 66); (5, 67); (2, 133); (2, 134); (4, 199)] =
    Some [[Some 0; Some 255; Some 0; Some 255]; [Some 0; Some 0; Some 0; Some 255]; [Some 255; Some 0; Some 0; Some 255];
          [Some 0; Some 0; Some 0; Some 255]; [Some 0; Some 0; Some 255; Some 255]; [Some 0; Some 0; Some 0; Some 255]].
Proof.
  split; [split; [apply wf_st1|split; [apply holds_st1|split; [apply image_of_list; reflexivity|exact hist_pic_count]]]|].
  vm_compute; reflexivity.
Qed.

(** ** C28: without the bound on the counts the bars are wrong: a uniform
    picture of 21474837 pixels gives a black picture instead of one full bar *)
Theorem C28_large_refuted : exists n b, image (n * 1 * 1) b /\ 0 < n /\ n * 1 * 1 <= SIZE_MAX /\
  (forall bars, hist_bars b (n * 1) 1 bars -> forall c, 0 <= c < 3 -> bars c 7 = 200) /\
  forall s p ow oh, wf s -> holds s p b ->
  returns_sized s (generate_histogram n 1 1 p ow oh s) (fun w' h' b' => w' = 256 /\ h' = 200 /\
    forall x y c, inside 256 200 x y -> 0 <= c < 3 -> pix b' 256 4 x y c = Some 0).
Proof. exact histogram_overflow. Qed.
Print Assumptions C28_large_refuted.

(** What does hold for every size: the call is safe and the bars follow the
    counts, taken modulo 2^32, times 200, taken modulo 2^32. *)
Theorem C28_large_partial : forall w h ch s p b ow oh,
  wf s -> 0 < w -> 0 < h -> 0 < ch -> w * h * ch <= SIZE_MAX -> holds s p b -> image (w * h * ch) b ->
  returns_sized s (generate_histogram w h ch p ow oh s) (fun w' h' b' => w' = 256 /\ h' = 200 /\
    exists bars, bar_chart bars b' /\
      hist_bars_by (fun k => (k * 200) mod 4294967296) (fun c v => level_count b (w * h) ch c v mod 4294967296)
        (gray_picture b (w * h) ch) ch bars).
Proof. exact histogram_general. Qed.
Print Assumptions C28_large_partial.

Example C28_ex : wf (st1 hist_pic) /\ holds (st1 hist_pic) (Ptr 0) (of_list hist_pic) /\ image (3 * 1 * 3) (of_list hist_pic).
Proof. split; [apply wf_st1|split; [apply holds_st1|apply image_of_list; reflexivity]]. Qed.

(** * Specification of sequences of turnings *)
From Verif Require Import Base F Heap Spec Spec_Rel Spec_Ops.
Local Open Scope Z_scope.

(** [sequence w h b os w1 h1 b1]: successful calls of the functions [os], one after the
    other, each on the result of the one before, lead from the [w] x [h] picture [b] to
    the [w1] x [h1] picture [b1]. *)
Inductive sequence (w h : Z) (b : buf Z) : list turning -> Z -> Z -> buf Z -> Prop :=
| none : sequence w h b [] w h b
| one_more os w0 h0 b0 o b1 : sequence w h b os w0 h0 b0 -> calls (turn o) w0 h0 b0 b1 ->
    sequence w h b (os ++ [o]) (tw o w0 h0) (th o w0 h0) b1.

(** A sheet of paper with a letter in each corner: the letters at the top left, top
    right, bottom right and bottom left *)
Inductive letter := A | B | C | D.
Record sheet := mksheet { tl : letter; tr : letter; br : letter; bl : letter }.
Definition unturned : sheet := mksheet A B C D.
Definition turn_sheet (s : sheet) (o : turning) : sheet :=
  match o with
  | Mirror_x => mksheet (tr s) (tl s) (bl s) (br s)
  | Mirror_y => mksheet (bl s) (br s) (tr s) (tl s)
  | Half_turn => mksheet (br s) (bl s) (tl s) (tr s)
  | Transposed => mksheet (tl s) (bl s) (br s) (tr s)
  | Transversed => mksheet (br s) (tr s) (tl s) (bl s)
  | Right_turn => mksheet (bl s) (tl s) (tr s) (br s)
  | Left_turn => mksheet (tr s) (br s) (bl s) (tl s)
  end.
Definition sheet_after (os : list turning) : sheet := fold_left turn_sheet os unturned.

(** ** Turning and changing tones, mixed *)
Inductive change := Turn (o : turning) | Tone (T : Z -> Z -> ptr -> M ptr).
Inductive changes (w h : Z) (b : buf Z) : list change -> Z -> Z -> buf Z -> Prop :=
| no_change : changes w h b [] w h b
| turn_more es w0 h0 b0 o b1 : changes w h b es w0 h0 b0 -> calls (turn o) w0 h0 b0 b1 ->
    changes w h b (es ++ [Turn o]) (tw o w0 h0) (th o w0 h0) b1
| tone_more es w0 h0 b0 T b1 : changes w h b es w0 h0 b0 -> In T tones -> calls T w0 h0 b0 b1 ->
    changes w h b (es ++ [Tone T]) w0 h0 b1.
(** The turnings and the tone functions among the changes, in their order *)
Definition turns_of (es : list change) : list turning := flat_map (fun e => match e with Turn o => [o] | Tone _ => [] end) es.
Definition tones_of (es : list change) : list (Z -> Z -> ptr -> M ptr) := flat_map (fun e => match e with Turn _ => [] | Tone T => [T] end) es.

(** ** Where the pixels are on a turned sheet *)
Definition column (l : letter) : Z := match l with A | D => 0 | B | C => 1 end.
Definition row (l : letter) : Z := match l with A | B => 0 | C | D => 1 end.
(** [b1] shows the [w] x [h] picture [b] on a sheet turned to [s]: its top left pixel
    is the pixel of [b] at the corner of the letter [tl s], and going right (down) one
    goes towards the letter [tr s] ([bl s]). *)
Definition laid (s : sheet) (w h : Z) (b : buf Z) (w1 h1 : Z) (b1 : buf Z) : Prop :=
  (if row (tl s) =? row (tr s) then w1 = w /\ h1 = h else w1 = h /\ h1 = w) /\
  forall x y c, 0 <= x < w1 -> 0 <= y < h1 -> 0 <= c < 4 ->
    pix b1 w1 4 x y c = pix b w 4
      (column (tl s) * (w - 1) + x * (column (tr s) - column (tl s)) + y * (column (bl s) - column (tl s)))
      (row (tl s) * (h - 1) + x * (row (tr s) - row (tl s)) + y * (row (bl s) - row (tl s))) c.

(** * Spec_Draw: vocabulary for the drawing properties *)
From Verif Require Import Base F Heap Spec Spec_Morph M_Color.

(** A call that rewrites block [p], which held [b], to some [b'] with [Q b'],
    and changes nothing else. *)
Definition rewrites (s : st) (p : ptr) (run : res (unit * st)) (Q : buf Z -> Prop) : Prop :=
  exists d s' b', p = Ptr d /\ run = Ok (tt, s') /\ mem s' d = Some (OBytes b') /\ Q b' /\
    (forall j, j <> d -> mem s' j = mem s j) /\ nxt s' = nxt s /\ orc s' = orc s /\ tick s' = tick s.

(** A call without effect. *)
Definition no_effect (s : st) (run : res (unit * st)) : Prop := run = Ok (tt, s).

(** [b'] is [b] with exactly the pixels (x,y) in [P] overwritten by the colour
    [col]; bytes past the picture are as before. *)
Definition painted (w h ch : Z) (col : Z -> Z) (P : Z -> Z -> Prop) (b b' : buf Z) : Prop :=
  blen b' = blen b /\
  (forall x y c, inside w h x y -> 0 <= c < ch ->
     (P x y -> pix b' w ch x y c = Some (col c)) /\ (~ P x y -> pix b' w ch x y c = pix b w ch x y c)) /\
  (forall j, j < 0 \/ w * h * ch <= j -> bget b' j = bget b j).

(** Luminance 0.299 r + 0.587 g + 0.114 b, rounded down; one less is possible
    when the exact value is an integer (the sum is computed in doubles). *)
Definition drawn_gray (r g b v : Z) : Prop :=
  let n := 299 * r + 587 * g + 114 * b in
  byte v /\ (v = n / 1000 \/ (n mod 1000 = 0 /\ v = n / 1000 - 1)).

(** The colour [col] written for r, g, b: the luminance if there is one channel,
    otherwise r, g, b, and 255 as fourth channel. *)
Definition drawn_colour (ch r g b : Z) (col : Z -> Z) : Prop :=
  if ch =? 1 then drawn_gray r g b (col 0)
  else col 0 = r /\ col 1 = g /\ col 2 = b /\ col 3 = 255.

(** Integer part of a double. *)
Definition int_part (x : f64) : Z := Btrunc x.

(** Sizes, centre and radius for which the int arithmetic of the code is defined. *)
Definition draw_ok (w h ch : Z) (radius cx cy : f64) : Prop :=
  0 < w <= 2147483647 /\ 0 < h <= 2147483647 /\ (ch = 1 \/ ch = 3 \/ ch = 4) /\
  dfinite radius = true /\ dfinite cx = true /\ dfinite cy = true /\ dlt radius d0 = false /\
  int_part radius <= 536870911 /\
  Z.abs (int_part cx) + int_part radius + 2 <= 2147483647 /\
  Z.abs (int_part cy) + int_part radius + 2 <= 2147483647.

(** [b'] is the [w]x[h] picture [b] with a border of [bw] pixels of colour [col]
    on all four sides. *)
Definition bordered (w h ch bw : Z) (col : Z -> Z) (b : buf Z) (w' h' : Z) (b' : buf Z) : Prop :=
  w' = w + 2 * bw /\ h' = h + 2 * bw /\ exact_image (w' * h' * ch) b' /\
  forall x y c, inside w' h' x y -> 0 <= c < ch ->
    pix b' w' ch x y c =
      if (bw <=? x) && (x <? bw + w) && (bw <=? y) && (y <? bw + h)
      then pix b w ch (x - bw) (y - bw) c else Some (col c).

(** [f] draws [shape]: on every picture it paints, in the colour that the hex
    string denotes (see C14 for [parse_hex_color]), exactly the pixels whose
    offset from the centre is in [shape r], where r is the integer part of the
    radius; nothing else in memory changes. *)
Definition draws (f : Z -> Z -> Z -> option cstr -> f64 -> f64 -> f64 -> ptr -> M unit)
    (shape : Z -> Z -> Z -> Prop) : Prop :=
  forall w h ch hex radius cx cy s p b cr cg cb,
    draw_ok w h ch radius cx cy -> holds s p b -> w * h * ch <= blen b ->
    parse_hex_color hex = Ok (cr, cg, cb) ->
    exists col, drawn_colour ch cr cg cb col /\
      rewrites s p (f w h ch (Some hex) radius cx cy p s)
        (painted w h ch col (fun x y => shape (int_part radius) (x - int_part cx) (y - int_part cy)) b).

(** A thin closed ring: about at distance r from the origin, symmetric under
    the eight reflections, meeting every row and column up to distance r. *)
Definition ring_like (r : Z) (P : Z -> Z -> Prop) : Prop :=
  (forall dx dy, P dx dy -> r*r - 3*r <= dx*dx + dy*dy <= r*r + r + 3) /\
  (forall dx dy, P dx dy -> P dy dx /\ P (- dx) dy /\ P dx (- dy)) /\
  (forall d, Z.abs d <= r -> exists e, P e d /\ P d e).

(** A full disk: everything up to nearly distance r and nothing much beyond,
    symmetric in both axes. *)
Definition disk_like (r : Z) (P : Z -> Z -> Prop) : Prop :=
  (forall dx dy, P dx dy -> dx*dx + dy*dy <= r*r + r + 3) /\
  (forall dx dy, dx*dx + dy*dy <= r*r - 3*r -> P dx dy) /\
  (forall dx dy, P dx dy -> P (- dx) dy /\ P dx (- dy)).

(** * Spec_Tile: pictures processed in tiles (C126)

    This file does not mention the model of any FlatCV function. *)
From Verif Require Import Base.
Local Open Scope Z_scope.

(** Along one side of the picture: the tile covers [x0 .. x0 + n - 1] of [0 .. N - 1], and its
    pixel [u] is at least [m] pixels away from both ends of the tile, where ends of the
    picture do not count *)
Definition covered (m N x0 n u : Z) : Prop := (x0 = 0 \/ m <= u) /\ (x0 + n = N \/ u + m < n).

(** The [cw] x [ch] tile at ([x0], [y0]) of a [w] x [h] picture knows all the picture up to [m]
    pixels around its pixel ([u], [v]) *)
Definition knows (m w h x0 y0 cw ch u v : Z) : Prop := covered m w x0 cw u /\ covered m h y0 ch v.

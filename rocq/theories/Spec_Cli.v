(** * Spec_Cli: vocabulary for the command-line properties *)
From Verif Require Import Base F Heap Spec.

(** A CLI operation on a [w] by [h] picture ends normally: with NULL, memory and
    size as before, because an allocation failed, or with a fresh block [b'] and
    a new size satisfying [P], every other block being as before. *)
Definition returns_pic (s : st) (w h : Z) (run : res (ptr * Z * Z * st)) (P : Z -> Z -> buf Z -> Prop) : Prop :=
  exists p w' h' s', run = Ok (p, w', h', s') /\ later s s' /\
    match p with
    | Null => same_mem s s' /\ alloc_failed s s' /\ w' = w /\ h' = h
    | Ptr i => mem s i = None /\
               (exists b, mem s' i = Some (OBytes b) /\ P w' h' b) /\
               (forall j, j <> i -> mem s' j = mem s j)
    end.

(** Sizes of pictures the command line works on. *)
Definition cli_dims (w h : Z) : Prop := 0 < w <= 2147483647 /\ 0 < h <= 2147483647 /\ w * h * 4 <= SIZE_MAX.

Definition cli_picture (w h : Z) (b : buf Z) : Prop := cli_dims w h /\ image (w * h * 4) b.

(** [b'] is [b] turned clockwise by [k] quarter turns: turning once moves the
    pixel in column x, row y of a picture of height h to column h-1-y, row x. *)
Definition turned_once (w h : Z) (b : buf Z) (w' h' : Z) (b' : buf Z) : Prop :=
  w' = h /\ h' = w /\
  forall x y c, 0 <= x < w -> 0 <= y < h -> 0 <= c < 4 -> pix b' w' 4 (h - 1 - y) x c = pix b w 4 x y c.
Definition turned (k : Z) (w h : Z) (b : buf Z) (w' h' : Z) (b' : buf Z) : Prop :=
  exact_image (w' * h' * 4) b' /\
  (k mod 4 = 0 -> w' = w /\ h' = h /\ forall x y c, 0 <= x < w -> 0 <= y < h -> 0 <= c < 4 -> pix b' w' 4 x y c = pix b w 4 x y c) /\
  (k mod 4 = 1 -> turned_once w h b w' h' b') /\
  (k mod 4 = 2 -> w' = w /\ h' = h /\
     forall x y c, 0 <= x < w -> 0 <= y < h -> 0 <= c < 4 -> pix b' w' 4 (w - 1 - x) (h - 1 - y) c = pix b w 4 x y c) /\
  (k mod 4 = 3 -> turned_once w' h' b' w h b).

(** ** EXIF orientation (TIFF/EP, Exif 2.3, tag 0x0112): on which side of the
    picture, seen upright, the 0th row and the 0th column of the stored image lie *)
Inductive side := Top | Bottom | Left | Right.
Definition row0_col0 (o : Z) : option (side * side) :=
  if o =? 1 then Some (Top, Left) else if o =? 2 then Some (Top, Right)
  else if o =? 3 then Some (Bottom, Right) else if o =? 4 then Some (Bottom, Left)
  else if o =? 5 then Some (Left, Top) else if o =? 6 then Some (Right, Top)
  else if o =? 7 then Some (Right, Bottom) else if o =? 8 then Some (Left, Bottom) else None.
(** Upright coordinate along the axis of [sd] of the [k]-th of [n] rows or columns. *)
Definition along (sd : side) (n k : Z) : Z :=
  match sd with Top | Left => k | Bottom | Right => n - 1 - k end.
(** Upright position of the stored pixel (x, y) of a [w] by [h] image, and the
    upright size. *)
Definition upright_pos (r c : side) (w h x y : Z) : Z * Z :=
  match c with
  | Left | Right => (along c w x, along r h y)   (* columns run along the x axis *)
  | Top | Bottom => (along r h y, along c w x)
  end.
Definition upright_size (c : side) (w h : Z) : Z * Z :=
  match c with Left | Right => (w, h) | Top | Bottom => (h, w) end.
Definition upright (o w h : Z) (b : buf Z) (w' h' : Z) (b' : buf Z) : Prop :=
  exists r c, row0_col0 o = Some (r, c) /\ (w', h') = upright_size c w h /\ exact_image (w' * h' * 4) b' /\
  forall x y k, 0 <= x < w -> 0 <= y < h -> 0 <= k < 4 ->
    pix b' w' 4 (fst (upright_pos r c w h x y)) (snd (upright_pos r c w h x y)) k = pix b w 4 x y k.

(** The picture in block [i] was replaced by a new one in block [j]; [i] was
    released and nothing else changed. *)
Definition replaced (s s' : st) (i j : Z) (b' : buf Z) : Prop :=
  mem s j = None /\ mem s' j = Some (OBytes b') /\ mem s' i = None /\
  forall k, k <> i -> k <> j -> mem s' k = mem s k.

(** ** Pipelines *)
(** What each operation has to guarantee: for pictures satisfying [Inv] it ends
    normally, either with NULL and memory as before or with a new picture
    satisfying [Inv] in a fresh block and nothing else changed; [R] relates the
    old picture to the new one. *)
Definition op_safe (Inv : Z -> Z -> buf Z -> Prop) (f : Z -> Z -> ptr -> M (ptr * Z * Z))
    (R : Z -> Z -> buf Z -> Z -> Z -> buf Z -> Prop) : Prop :=
  forall w h s p b, wf s -> holds s p b -> Inv w h b ->
  exists q w' h' s', f w h p s = Ok (q, w', h', s') /\ later s s' /\
    match q with
    | Null => same_mem s s'
    | Ptr i => mem s i = None /\
               (exists b', mem s' i = Some (OBytes b') /\ Inv w' h' b' /\ R w h b w' h' b') /\
               (forall j, j <> i -> mem s' j = mem s j)
    end.
(** Applying the operations [ops] one after the other. *)
Fixpoint composed {op : Type} (R : op -> Z -> Z -> buf Z -> Z -> Z -> buf Z -> Prop) (ops : list op)
    (w h : Z) (b : buf Z) (w' h' : Z) (b' : buf Z) : Prop :=
  match ops with
  | [] => w' = w /\ h' = h /\ b' = b
  | o :: t => exists w1 h1 b1, R o w h b w1 h1 b1 /\ composed R t w1 h1 b1 w' h' b'
  end.
(** The rectangle at (x, y), negative offsets meaning 0, of at most [cw] by [ch]
    pixels, cut at the right and lower edge. *)
Definition cropped (x y cw ch w h : Z) (b : buf Z) (w' h' : Z) (b' : buf Z) : Prop :=
  let x0 := Z.max 0 x in let y0 := Z.max 0 y in
  w' = Z.min cw (w - x0) /\ h' = Z.min ch (h - y0) /\ exact_image (w' * h' * 4) b' /\
  forall px py c, 0 <= px < w' -> 0 <= py < h' -> 0 <= c < 4 -> pix b' w' 4 px py c = pix b w 4 (x0 + px) (y0 + py) c.

(** * Spec_Apply: what the operations of the command line do to a picture (C80)

    A parsed operation has a name, up to four numbers and possibly a text (see
    C37-C39 for how they are read).  [atof] is the C library's reading of a
    decimal number. *)
From Coq Require Import Reals String.
From Verif Require Import Base F Heap Spec Spec_Draw Spec_Cli Spec_Trim Spec_Resize Spec_Sobel Spec_Hist
  Spec_Blur Spec_Smart Spec_Otsu Spec_Watershed Spec_Parse M_Color M_Parse Spec_Morph.
Local Open Scope string_scope.
Local Open Scope list_scope.
Local Open Scope Z_scope.

Definition named (o : pipeline_op) (n : string) : Prop := op_name o = txt n.

(** Pictures of a usual size: at most 2^30 pixels, fewer than 2^29 in a row or
    column. *)
Definition usual (w h : Z) : Prop := 0 < w <= 536870911 /\ 0 < h <= 536870911 /\ w * h <= 1073741824.

(** A text without white space. *)
Definition solid (t : cstr) : Prop := Forall (fun c => ~ is_white c) t.
(** [hex] is the first word of [t]. *)
Definition first_word (t hex : cstr) : Prop :=
  hex <> [] /\ ~ In SPACE hex /\ (t = hex \/ exists r, t = hex ++ SPACE :: r).

(** Every pixel is opaque, with gray level [g x y]. *)
Definition gray_levels (w h : Z) (b' : buf Z) (g : Z -> Z -> Z) : Prop :=
  exact_image (w * h * 4) b' /\ forall x y, inside w h x y -> opaque_gray b' w x y (g x y).
(** Every pixel is opaque, white if in [P] and otherwise black. *)
Definition black_white (w h : Z) (b' : buf Z) (P : Z -> Z -> Prop) : Prop :=
  exact_image (w * h * 4) b' /\ forall x y, inside w h x y ->
    (P x y -> opaque_gray b' w x y 255) /\ (~ P x y -> opaque_gray b' w x y 0).

Section Effects.
Variable atof : cstr -> f64.

(** ** Parameters *)
(** The scale factors that "resize" asks for: "0.5", "0.5 0.25", "50%",
    "50%x25%", "640x480". *)
Inductive asks_scale (o : pipeline_op) (w h : Z) : f64 -> f64 -> Prop :=
| scale_one r : op_str o = None -> op_p1 o = Some r -> op_p2 o = None -> asks_scale o w h r r
| scale_two rx ry : op_str o = None -> op_p1 o = Some rx -> op_p2 o = Some ry -> asks_scale o w h rx ry
| scale_percent t : op_str o = Some t -> ~ In LETTER_X t -> In PERCENT t ->
    asks_scale o w h (ddiv (atof t) (d_of_Z 100)) (ddiv (atof t) (d_of_Z 100))
| scale_percents t u : op_str o = Some (t ++ LETTER_X :: u) -> solid t -> solid u -> ~ In LETTER_X t -> In PERCENT t ->
    asks_scale o w h (ddiv (atof t) (d_of_Z 100)) (ddiv (atof u) (d_of_Z 100))
| scale_absolute t u : op_str o = Some (t ++ LETTER_X :: u) -> solid t -> solid u -> ~ In LETTER_X t -> ~ In PERCENT t ->
    asks_scale o w h (ddiv (atof t) (d_of_Z w)) (ddiv (atof u) (d_of_Z h)).

(** "10x20 30x40 ...": the texts of the coordinates. *)
Definition marker_text (t : cstr) (l : list (cstr * cstr)) : Prop :=
  l <> [] /\ t = spaced (List.map (fun m => fst m ++ LETTER_X :: snd m) l) /\
  Forall (fun m => solid (fst m) /\ solid (snd m) /\ ~ In LETTER_X (fst m)) l.
(** The markers [mk] are the points with these coordinates. *)
Definition markers_read (l : list (cstr * cstr)) (mk : buf (f64 * f64)) : Prop :=
  Z.of_nat (List.length l) <= blen mk /\
  forall i m, nth_error l i = Some m -> bget mk (Z.of_nat i) = Some (atof (fst m), atof (snd m)).

(** The tolerance of "trim P" or "trim P%", [pct] being the number P. *)
Definition percent_tolerance (pct : f64) (tol : Z) : Prop :=
  0 <= tol <= 255 /\ forall n, 0 <= n <= 100 -> pct = d_of_Z n -> tol = n * 255 / 100.
(** The percentage that "trim" asks for; none: 0. *)
Inductive asks_percent (o : pipeline_op) : f64 -> Prop :=
| percent_text t : op_str o = Some t -> In PERCENT t -> asks_percent o (atof t)
| percent_number x : op_str o = None -> op_p1 o = Some x -> asks_percent o x
| percent_none : op_str o = None -> op_p1 o = None -> asks_percent o d0.

(** ** Operations and pictures that go together *)
Inductive fits (o : pipeline_op) (w h : Z) (b : buf Z) : Prop :=
| fit_plain n : named o n -> In n ["grayscale"; "threshold"; "sobel"; "flip_x"; "flip_y"] -> fits o w h b
| fit_blur r : named o "blur" -> op_p1 o = Some r -> dfinite r = true ->
    (B2R r = 0 \/ 1 / 1000000000000 <= B2R r <= 1000)%R -> fits o w h b
| fit_resize rx ry : named o "resize" -> asks_scale o w h rx ry -> factor_ok w rx -> factor_ok h ry ->
    usual (out_size w rx) (out_size h ry) -> fits o w h b
| fit_smart n : named o n -> In n ["bw_smart"; "bw_smooth"] -> w * h <= 100000000 -> fits o w h b
| fit_shape n t hex r cx cy : named o n -> In n ["circle"; "disk"] -> op_str o = Some t -> first_word t hex ->
    op_p1 o = Some r -> op_p2 o = Some cx -> op_p3 o = Some cy ->
    draw_ok w h 4 r cx cy -> w * h <= 536870911 -> fits o w h b
| fit_watershed t l : named o "watershed" -> op_str o = Some t -> marker_text t l -> Z.of_nat (List.length l) <= 2147483647 ->
    Forall (fun m => dfinite (atof (fst m)) = true /\ dfinite (atof (snd m)) = true /\
                     inside w h (int_part (atof (fst m))) (int_part (atof (snd m)))) l -> fits o w h b
| fit_crop x y cw ch : named o "crop" -> op_p1 o = Some x -> op_p2 o = Some y -> op_p3 o = Some cw -> op_p4 o = Some ch ->
    dfinite x = true -> dfinite y = true -> dfinite cw = true -> dfinite ch = true ->
    is_i32 (int_part x) -> is_i32 (int_part y) -> is_u32 (int_part cw) -> is_u32 (int_part ch) ->
    int_part x < w -> int_part y < h -> 0 < int_part cw -> 0 < int_part ch -> fits o w h b
| fit_rotate a k : named o "rotate" -> op_p1 o = Some a -> dfinite a = true -> is_i32 (int_part a) -> int_part a = 90 * k ->
    fits o w h b
| fit_trim pct : named o "trim" -> asks_percent o pct -> dfinite pct = true -> fits o w h b
| fit_histogram : named o "histogram" ->
    (forall c v, 0 <= c < 3 -> 0 <= v < 256 -> level_count b (w * h) 4 c v <= 21474836) -> fits o w h b
| fit_border hex x : named o "border" -> op_str o = Some hex -> op_p1 o = Some x -> dfinite x = true -> 0 < int_part x ->
    usual (w + 2 * int_part x) (h + 2 * int_part x) -> fits o w h b
| fit_morph n r : named o n -> In n ["erode"; "dilate"; "close"; "open"] -> op_p1 o = Some r -> dfinite r = true ->
    0 <= int_part r <= 32767 -> fits o w h b.

(** ** What the operation makes of the picture *)
Inductive effect (o : pipeline_op) (w h : Z) (b : buf Z) : Z -> Z -> buf Z -> Prop :=
| does_grayscale b' : named o "grayscale" -> gray_levels w h b' (gray_at b w) -> effect o w h b w h b'
| does_blur r b' : named o "blur" -> op_p1 o = Some r ->
    (B2R r = 0%R -> exact_image (w * h * 4) b' /\ same_bytes (w * h * 4) b b') ->
    (B2R r <> 0%R -> blurred w h (B2R r) b b') -> effect o w h b w h b'
| does_resize rx ry b' : named o "resize" -> asks_scale o w h rx ry -> resized w h rx ry b b' ->
    effect o w h b (out_size w rx) (out_size h ry) b'
| does_threshold t b' : named o "threshold" -> best_split w h (gray_at b w) t ->
    gray_levels w h b' (fun x y => single_map t (gray_at b w x y)) -> effect o w h b w h b'
| does_smart r d t b' : named o "bw_smart" -> (Rabs (r - sqrt (IZR (w * h)) / 10) <= 1 / 100000000)%R ->
    detail w h r (gray_at b w) d -> best_split w h d t ->
    gray_levels w h b' (fun x y => single_map t (d x y)) -> effect o w h b w h b'
| does_smooth r d t b' : named o "bw_smooth" -> (Rabs (r - sqrt (IZR (w * h)) / 10) <= 1 / 100000000)%R ->
    detail w h r (gray_at b w) d -> best_split w h d t ->
    gray_levels w h b' (fun x y => double_map t (d x y)) -> effect o w h b w h b'
| does_sobel e b' : named o "sobel" -> edges_of w h (gray_at b w) e ->
    gray_levels w h b' (fun x y => pixv e w 1 x y 0) -> effect o w h b w h b'
| does_circle t hex r cx cy cr cg cb col ring b' : named o "circle" -> op_str o = Some t -> first_word t hex ->
    op_p1 o = Some r -> op_p2 o = Some cx -> op_p3 o = Some cy ->
    parse_hex_color hex = Ok (cr, cg, cb) -> drawn_colour 4 cr cg cb col -> ring_like (int_part r) ring ->
    exact_image (w * h * 4) b' ->
    (forall x y c, inside w h x y -> 0 <= c < 4 ->
       (ring (x - int_part cx) (y - int_part cy) -> pix b' w 4 x y c = Some (col c)) /\
       (~ ring (x - int_part cx) (y - int_part cy) -> pix b' w 4 x y c = pix b w 4 x y c)) -> effect o w h b w h b'
| does_disk t hex r cx cy cr cg cb col disk b' : named o "disk" -> op_str o = Some t -> first_word t hex ->
    op_p1 o = Some r -> op_p2 o = Some cx -> op_p3 o = Some cy ->
    parse_hex_color hex = Ok (cr, cg, cb) -> drawn_colour 4 cr cg cb col -> disk_like (int_part r) disk ->
    exact_image (w * h * 4) b' ->
    (forall x y c, inside w h x y -> 0 <= c < 4 ->
       (disk (x - int_part cx) (y - int_part cy) -> pix b' w 4 x y c = Some (col c)) /\
       (~ disk (x - int_part cx) (y - int_part cy) -> pix b' w 4 x y c = pix b w 4 x y c)) -> effect o w h b w h b'
| does_watershed t l mk L b' : named o "watershed" -> op_str o = Some t -> marker_text t l -> markers_read l mk ->
    (let n := Z.of_nat (List.length l) in
     coloured w h L b' /\ (forall x y, inside w h x y -> 0 <= L x y < n) /\ seeded n mk L /\ connected w h mk L /\
     watershed_of w h (gray_at b w) mk n L) -> effect o w h b w h b'
| does_crop x y cw ch w' h' b' : named o "crop" -> op_p1 o = Some x -> op_p2 o = Some y -> op_p3 o = Some cw -> op_p4 o = Some ch ->
    cropped (int_part x) (int_part y) (int_part cw) (int_part ch) w h b w' h' b' -> effect o w h b w' h' b'
| does_flip_x b' : named o "flip_x" -> exact_image (w * h * 4) b' ->
    (forall x y c, inside w h x y -> 0 <= c < 4 -> pix b' w 4 x y c = pix b w 4 (w - 1 - x) y c) -> effect o w h b w h b'
| does_flip_y b' : named o "flip_y" -> exact_image (w * h * 4) b' ->
    (forall x y c, inside w h x y -> 0 <= c < 4 -> pix b' w 4 x y c = pix b w 4 x (h - 1 - y) c) -> effect o w h b w h b'
| does_rotate a k w' h' b' : named o "rotate" -> op_p1 o = Some a -> int_part a = 90 * k -> turned k w h b w' h' b' ->
    effect o w h b w' h' b'
| does_trim pct tol l r t bt w' h' b' : named o "trim" -> asks_percent o pct -> percent_tolerance pct tol ->
    trim_box tol b w h 4 l r t bt -> is_box b w 4 l r t bt w' h' b' -> effect o w h b w' h' b'
| does_histogram bars b' : named o "histogram" -> hist_bars b (w * h) 4 bars -> bar_chart bars b' -> effect o w h b 256 200 b'
| does_border hex x cr cg cb col w' h' b' : named o "border" -> op_str o = Some hex -> op_p1 o = Some x ->
    parse_hex_color hex = Ok (cr, cg, cb) -> drawn_colour 4 cr cg cb col -> bordered w h 4 (int_part x) col b w' h' b' ->
    effect o w h b w' h' b'
| does_erode r b' : named o "erode" -> op_p1 o = Some r ->
    black_white w h b' (eroded w h (int_part r) (fun x y => gray_at b w x y = 255)) -> effect o w h b w h b'
| does_dilate r b' : named o "dilate" -> op_p1 o = Some r ->
    black_white w h b' (dilated w h (int_part r) (fun x y => gray_at b w x y = 255)) -> effect o w h b w h b'
| does_close r b' : named o "close" -> op_p1 o = Some r ->
    black_white w h b' (eroded_rep w h (int_part r) (dilated w h (int_part r) (fun x y => gray_at b w x y = 255))) ->
    effect o w h b w h b'
| does_open r b' : named o "open" -> op_p1 o = Some r ->
    black_white w h b' (dilated w h (int_part r) (eroded w h (int_part r) (fun x y => gray_at b w x y = 255))) ->
    effect o w h b w h b'.

(** Each of the operations [ops] suits the picture it is applied to, whatever
    the operations before it made of it within their specification. *)
Fixpoint ready (ops : list pipeline_op) (w h : Z) (b : buf Z) : Prop :=
  match ops with
  | [] => True
  | o :: t => fits o w h b /\ forall w1 h1 b1, effect o w h b w1 h1 b1 -> ready t w1 h1 b1
  end.
End Effects.

(** Operations that copy their text. *)
Definition copies_text (o : pipeline_op) : Prop :=
  op_str o <> None /\ (named o "resize" \/ named o "circle" \/ named o "disk" \/ named o "watershed").
(** There is memory for these copies. *)
Definition text_memory (ops : list pipeline_op) (orc : nat -> bool) : Prop :=
  forall o, In o ops -> copies_text o -> forall n, orc n = true.

(** The operations of the command line. *)
Definition operations : list string :=
  ["grayscale"; "blur"; "resize"; "threshold"; "bw_smart"; "bw_smooth"; "detect_corners"; "draw_corners"; "sobel";
   "circle"; "disk"; "watershed"; "crop"; "extract_document"; "extract_document_to"; "flip_x"; "flip_y"; "rotate";
   "trim"; "histogram"; "border"; "erode"; "dilate"; "close"; "open"].
(** Not an operation, or one without the parameters it needs. *)
Inductive incomplete (o : pipeline_op) : Prop :=
| not_known : (forall n, In n operations -> ~ named o n) -> incomplete o
| needs_number n : named o n -> In n ["blur"; "rotate"; "erode"; "dilate"; "close"; "open"] -> op_p1 o = None -> incomplete o
| needs_scale : named o "resize" -> op_str o = None -> op_p1 o = None -> incomplete o
| needs_rectangle : named o "crop" -> op_p1 o = None \/ op_p2 o = None \/ op_p3 o = None \/ op_p4 o = None -> incomplete o
| needs_shape n : named o n -> In n ["circle"; "disk"] ->
    op_str o = None \/ op_p1 o = None \/ op_p2 o = None \/ op_p3 o = None -> incomplete o
| needs_markers : named o "watershed" -> op_str o = None -> incomplete o
| needs_size : named o "extract_document_to" -> op_p1 o = None \/ op_p2 o = None -> incomplete o
| needs_border : named o "border" -> op_str o = None \/ op_p1 o = None -> incomplete o.
(** Texts from which no scale, or no marker, can be read. *)
Definition unreadable (o : pipeline_op) : Prop :=
  exists t, op_str o = Some t /\ ~ In LETTER_X t /\ ((named o "resize" /\ ~ In PERCENT t) \/ named o "watershed").

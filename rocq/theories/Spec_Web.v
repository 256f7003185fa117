(** * Specification of the browser playground *)
From Coq Require Import Reals.
From Verif Require Import Base F Heap Spec M_Web Spec_Blur Spec_Sobel M_Otsu Spec_Haskell.
Local Open Scope Z_scope.

(** A picture as a canvas yields it; at most 16384 x 16384 pixels *)
Definition picture_ok (p : picture) : Prop :=
  0 < width p /\ 0 < height p /\ width p * height p <= 268435456 /\ exact_image (width p * height p * 4) (imageData p).

(** [px] are the pixels, four bytes each, that the button [op] should show for the
    picture [p]; [b] holds the picture's bytes, [b'] those of the result: for the edges
    one byte per pixel. *)
Definition shows (op : operation) (p : picture) (px : list Z) : Prop :=
  let w := width p in let h := height p in
  Z.of_nat (length px) = w * h * 4 /\
  exists b b', same_bytes (w * h * 4) (imageData p) b /\ match op with
  | Grayscale => lists px b' /\ exact_image (w * h * 4) b' /\ forall x y, 0 <= x < w -> 0 <= y < h -> opaque_gray b' w x y (gray_at b w x y)
  | Blur => lists px b' /\ blurred w h 5 b b'
  | Sobel => edges_of w h (fun x y => gray_at b w x y) b' /\
      forall i, 0 <= i < w * h -> exists g, bget b' i = Some g /\
        firstn 4 (skipn (Z.to_nat (i * 4)) px) = [g; g; g; 255]
  | Binary => lists px b' /\ exact_image (w * h * 4) b' /\ calls (fun w h p => otsu_threshold_rgba w h false p) w h b b'
  | Other => False
  end.

(** A click of the user: the button, the picture at that time, and whether the module
    was there at that time *)
Definition request : Type := operation * picture * bool.

(** What a click leads to: the picture, or a message if the module was not there. *)
Definition answered (r : request) (o : outcome) : Prop :=
  let '(op, p, ready) := r in
  (exists px, o = Drawn (width p) (height p) px /\ shows op p px) \/ (ready = false /\ o = Failed op).

(** The same if memory may run out ([F]): then any click may lead to a message. *)
Definition answered_or (F : Prop) (r : request) (o : outcome) : Prop :=
  answered r o \/ (F /\ o = Failed (fst (fst r))).

Section Web.
Variables (exp : f64 -> f64) (ids : nat -> Z).
Definition is_loaded (m : module) : bool := match m with Loaded => true | _ => false end.
(** The clicks in a sequence of events *)
Fixpoint requests (es : list event) (x : world) : list request :=
  match es with
  | [] => []
  | e :: es =>
      (match e, enabled x, originalImageData x with
       | Click op, true, Some p => [(op, p, is_loaded (flatcvModule x))]
       | _, _, _ => []
       end) ++ match step exp ids e x with Ok x' => requests es x' | _ => [] end
  end.
End Web.

(** Events of a browser: good pictures, existing buttons *)
Definition event_ok (e : event) : Prop :=
  match e with
  | LoadImage p | DefaultLoads p => picture_ok p
  | Click op => op <> Other
  | _ => True
  end.

(** Nothing is under way. *)
Definition quiet (x : world) : Prop := to_worker x = [] /\ to_page x = [].

(** The picture the user loaded last, or [p] *)
Fixpoint last_loaded (es : list event) (p : picture) : picture :=
  match es with
  | [] => p
  | LoadImage q :: es => last_loaded es q
  | _ :: es => last_loaded es p
  end.

Section Polite.
Variables (exp : f64 -> f64) (ids : nat -> Z).
(** The user clicks a button again only after its last request has been answered. *)
Fixpoint polite (es : list event) (x : world) : Prop :=
  match es with
  | [] => True
  | e :: es =>
      (match e with Click op => ~ In op (map snd (processingQueue x)) | _ => True end) /\
      match step exp ids e x with Ok x' => polite es x' | _ => True end
  end.
End Polite.

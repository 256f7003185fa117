(** * Theorems: documents and histories in the Haskell binding *)
From Coq Require Import Reals String List.
From Flocq Require Import Core BinarySingleNaN.
From Verif Require Import Base F Heap Spec ExUtil M_Haskell Spec_Haskell Spec_HsHistory P_HsHistory.
From Verif Require Import Spec_Blur P_Blur P_Corners Spec_Corners Spec_Detect Spec_Cli Spec_Apply Spec_Doc Spec_Persp Spec_Extract Spec_HsDoc P_HsDoc.
From Verif Require Import M_Color M_Geom Spec_Morph.
From Verif Require T_Doc T_Detect P_Extract.
Import ListNotations.
Open Scope Z_scope.

(** ** C112: detectCorners returns four corners on the picture and releases the C
    structure they come in.  But as in C50, pictures without background end the
    program, fewer than four peaks are undefined behaviour, and two blocks leak. *)
Theorem C112_detect_partial : forall ex at2 asin fuel w h s v b, exp_ok ex -> atan2_ok at2 ->
  0 < w -> 0 < h -> w * h <= 1073741824 -> 66565 < Z.of_nat fuel -> wf s -> holds s (v_ptr v) b -> image (w * h * 4) b ->
  (forall n, orc s n = true) ->
  looks at2 asin w h b s (hs_detectCorners ex at2 asin fuel w h v s) (fun c s1 run =>
    (exists s', run = Ok (Some c, s') /\ later s1 s' /\ same_mem s1 s') /\
    Forall (on_picture w h) (four c) /\ ForallOrdPairs (apart_by (IZR w / 22) (IZR h / 22)) (four c)).
Proof. exact hs_detect_ok. Qed.
Print Assumptions C112_detect_partial.

(** An empty picture is not an exception: it ends the Haskell program. *)
Theorem C112_empty_refuted : forall ex at2 asin fuel w h s v, w <= 0 \/ h <= 0 ->
  hs_detectCorners ex at2 asin fuel w h v s = Abort.
Proof. exact hs_detect_rejects. Qed.
Print Assumptions C112_empty_refuted.

Theorem C112_black_refuted : forall ex at2 asin fuel w h s v b, exp_ok ex -> atan2_ok at2 ->
  0 < w -> 0 < h -> w * h <= 1073741824 -> 66565 < Z.of_nat fuel -> wf s -> holds s (v_ptr v) b -> image (w * h * 4) b ->
  (forall n, orc s n = true) -> all_black w h b ->
  exists u, hs_detectCorners ex at2 asin fuel w h v s = UB u.
Proof. exact hs_detect_black. Qed.
Print Assumptions C112_black_refuted.

Example C112_ex : exp_ok exp_round /\ atan2_ok toy_atan2 /\ 0 < 3 /\ 0 < 2 /\ wf (st1 pic32) /\
  holds (st1 pic32) (v_ptr (mkvec (Ptr 0) 24)) (of_list pic32) /\ image (3 * 2 * 4) (of_list pic32) /\ (forall n, orc (st1 pic32) n = true) /\
  all_black 2 1 (of_list [0; 0; 0; 255; 0; 0; 0; 0]).
Proof.
  split; [exact exp_round_ok|]. split; [exact toy_ok|]. split; [lia|]. split; [lia|]. split; [apply wf_st1|]. split; [apply holds_st1|].
  split; [apply pic32_hyps|]. split; [reflexivity|]. apply T_Detect.C50_black.
Qed.

(** ** C113: extractDocument and extractDocumentAuto return vectors of the documents'
    size that show the document.  Missing: as for C94 and C95. *)
Theorem C113_extract_partial : forall exp at2 asin fuel identity w h s v b, exp_ok exp -> atan2_ok at2 -> 66565 < Z.of_nat fuel ->
  usual w h -> w * h <= 536870911 -> wf s -> holds s (v_ptr v) b -> image (w * h * 4) b -> (forall n, orc s n = true) ->
  holds_mat s identity identity_matrix -> forall ow oh, fair_size ow oh ->
  looks at2 asin w h b s (hs_extractDocument exp at2 asin fuel identity w h ow oh v s)
    (fun c s1 run => hs_extracts (fun v => v) identity c w h b ow oh s1 run).
Proof. exact hs_extract_ok. Qed.
Print Assumptions C113_extract_partial.

Theorem C113_auto_partial : forall exp at2 asin pow2 fuel identity w h s v b, exp_ok exp -> atan2_ok at2 -> 66565 < Z.of_nat fuel ->
  usual w h -> w * h <= 536870911 -> wf s -> holds s (v_ptr v) b -> image (w * h * 4) b -> (forall n, orc s n = true) ->
  holds_mat s identity identity_matrix -> pow2_ok pow2 ->
  looks at2 asin w h b s (hs_extractDocumentAuto exp at2 asin pow2 fuel identity w h v s)
    (fun c s1 run => exists ow oh, document_size c ow oh /\
       (fair_size ow oh -> hs_extracts (fun v => (ow, oh, v)) identity c w h b ow oh s1 run)).
Proof. exact hs_extract_auto_ok. Qed.
Print Assumptions C113_auto_partial.

Example C113_ex : usual 3 2 /\ wf T_Doc.st_doc /\ holds T_Doc.st_doc (v_ptr (mkvec (Ptr 0) 24)) (of_list pic32) /\ image (3 * 2 * 4) (of_list pic32) /\
  (forall n, orc T_Doc.st_doc n = true) /\ holds_mat T_Doc.st_doc (Ptr 1) identity_matrix /\ pow2_ok (fun x => dmul x x) /\ fair_size 40 30.
Proof.
  destruct T_Doc.C94_ex as (H1 & H2 & H3 & H4 & H5 & H6 & H7 & _).
  split; [exact H1|]. split; [exact H2|]. split; [exact H3|]. split; [exact H4|]. split; [exact H5|]. split; [exact H6|]. split; [exact H7|].
  unfold fair_size. lia.
Qed.

(** ** C114: any history of calls and of releases by the garbage collector.  It runs
    without undefined behaviour; the vectors in use always have the contents that the
    calls gave them; all other memory is as before, and dropped vectors are gone. *)
Theorem C114_history : forall es s vs bs, Forall known es -> wf s -> Forall2 (vec_of s) vs bs -> NoDup (map v_ptr vs) ->
  exists s' vs' bs', run es vs s = Ok (vs', s') /\ later s s' /\ Forall2 (vec_of s') vs' bs' /\ NoDup (map v_ptr vs') /\
    amounts (exists n, orc s n = false) es bs bs' /\
    (forall i, ~ In (Ptr i) (map v_ptr vs) -> ~ In (Ptr i) (map v_ptr vs') -> mem s' i = mem s i) /\
    (forall i, In (Ptr i) (map v_ptr vs) -> ~ In (Ptr i) (map v_ptr vs') -> mem s' i = None).
Proof. exact history_ok. Qed.
Print Assumptions C114_history.

(** Once all vectors are dropped, nothing is left of them or of the calls. *)
Theorem C114_released : forall es s vs bs n, Forall known es -> wf s -> Forall2 (vec_of s) vs bs -> NoDup (map v_ptr vs) ->
  (length vs + length es <= n)%nat ->
  exists s', run (es ++ repeat (Drop 0) n) vs s = Ok ([], s') /\
    forall i, (In (Ptr i) (map v_ptr vs) -> mem s' i = None) /\ (~ In (Ptr i) (map v_ptr vs) -> mem s' i = mem s i).
Proof. exact released_ok. Qed.
Print Assumptions C114_released.

(** Two pixels are mirrored, the original is dropped, the mirrored ones are turned
    (with a wrong size: nothing happens), turned and made gray. *)
Definition px2 : list Z := [1; 2; 3; 4; 50; 60; 70; 80].
Definition events : list event :=
  [Call hs_flipX flip_x 2 1 0; Drop 0; Call hs_rotate90CW rotate_90_cw 3 1 0; Call hs_rotate90CW rotate_90_cw 2 1 0;
   Call hs_grayscale grayscale 1 2 1; Drop 0].
Definition contents (r : res (list vec * st)) : option (list (res (list Z))) :=
  match r with
  | Ok (vs, s) => Some (map (fun v => match read_vec v s with Ok (l, _) => Ok l | UB u => UB u | Hang => Hang | Abort => Abort end) vs)
  | _ => None
  end.
Example C114_ex : Forall known events /\ wf (st1 px2) /\ Forall2 (vec_of (st1 px2)) [mkvec (Ptr 0) 8] [of_list px2] /\
  NoDup (map v_ptr [mkvec (Ptr 0) 8]) /\
  contents (run events [mkvec (Ptr 0) 8] (st1 px2)) = Some [Ok [50; 60; 70; 80; 1; 2; 3; 4]; Ok [58; 58; 58; 255; 1; 1; 1; 255]].
Proof.
  split.
  { constructor; [left; reflexivity|]. constructor; [exact I|]. constructor; [do 4 right; left; reflexivity|].
    constructor; [do 4 right; left; reflexivity|]. constructor; [do 7 right; left; reflexivity|]. constructor; [exact I|constructor]. }
  split; [apply wf_st1|]. split.
  { constructor; [|constructor]. split; [apply holds_st1|]. split; [reflexivity|]. apply image_of_list; reflexivity. }
  split; [repeat constructor; intros []|]. vm_compute. reflexivity.
Qed.

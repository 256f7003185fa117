(** * Theorems: the browser playground *)
From Coq Require Import Reals List.
From Flocq Require Import Core BinarySingleNaN.
From Verif Require Import Base F Heap Spec ExUtil M_Web Spec_Blur P_Blur Spec_Web P_Web P_Web2 P_Web3.
Import ListNotations.
Open Scope Z_scope.

(** ** C115: one request to the worker.  If the copy of the picture finds room, the
    picture for the button is shown (or, without memory, an error) and the memory is as
    before. *)
Theorem C115_worker_partial : forall exp op p s, exp_ok exp -> op <> Other -> wf s -> picture_ok p -> orc s (tick s) = true ->
  exists r s', processImage exp op p s = Ok (r, s') /\ later s s' /\ same_mem s s' /\
    match r with
    | None => alloc_failed s s'
    | Some d => exists px, displayProcessedImage d = Some (Drawn (width p) (height p) px) /\ shows op p px
    end.
Proof. exact process_ok. Qed.
Print Assumptions C115_worker_partial.

(** Otherwise the picture is written to address 0. *)
Theorem C115_no_memory_refuted : forall exp op p s, orc s (tick s) = false -> processImage exp op p s = UB NullDeref.
Proof. exact process_no_memory. Qed.
Print Assumptions C115_no_memory_refuted.

Definition pic_a : picture := mkpic 2 1 (of_list [255; 0; 0; 255; 9; 9; 9; 0]).
Definition pic_b : picture := mkpic 1 1 (of_list [0; 0; 255; 255]).
Lemma pic_a_ok : picture_ok pic_a.
Proof. unfold picture_ok. cbn [width height imageData pic_a]. split; [lia|]. split; [lia|]. split; [lia|]. split; [reflexivity|]. apply image_of_list; reflexivity. Qed.
Lemma pic_b_ok : picture_ok pic_b.
Proof. unfold picture_ok. cbn [width height imageData pic_b]. split; [lia|]. split; [lia|]. split; [lia|]. split; [reflexivity|]. apply image_of_list; reflexivity. Qed.

(** ** C116: whatever the order in which the page, the worker, the user and the loading
    of the module take their turns, the clicks are answered one by one, in their order,
    each with the picture that was there at the click ([answered]; for clicks before the
    module was loaded this may be a message); the worker's memory stays as it was; and
    once no message is under way, all clicks are answered and no spinner turns. *)
Theorem C116_schedule : forall exp ids, exp_ok exp -> (forall i j, ids i = ids j -> i = j) ->
  forall m, (forall n, orc m n = true) -> forall es, wf m -> Forall event_ok es ->
  exists x, run exp ids es (opened m) = Ok x /\ same_mem m (memory x) /\
  exists done waiting, requests exp ids es (opened m) = done ++ waiting /\ Forall2 answered done (screen x) /\
    length waiting = length (processingQueue x) /\ (quiet x -> waiting = [] /\ forall op, spinner x op = false).
Proof. exact schedule_ok. Qed.
Print Assumptions C116_schedule.

(** If memory runs out: either the picture is written to address 0 (C115), or all is as
    above except that some clicks are answered with a message. *)
Theorem C116_no_memory : forall exp ids, exp_ok exp -> (forall i j, ids i = ids j -> i = j) ->
  forall m es, wf m -> Forall event_ok es -> (run exp ids es (opened m) = UB NullDeref /\ exists n, orc m n = false) \/
  exists x, run exp ids es (opened m) = Ok x /\ same_mem m (memory x) /\
  exists done waiting, requests exp ids es (opened m) = done ++ waiting /\ Forall2 (answered_or (exists n, orc m n = false)) done (screen x) /\
    length waiting = length (processingQueue x) /\ (quiet x -> waiting = [] /\ forall op, spinner x op = false).
Proof. exact schedule_mem. Qed.
Print Assumptions C116_no_memory.

(** It never gets stuck: when worker and page take their messages, all becomes quiet. *)
Theorem C116_settles : forall exp ids, exp_ok exp -> (forall i j, ids i = ids j -> i = j) ->
  forall m, (forall n, orc m n = true) -> forall es, wf m -> Forall event_ok es ->
  exists n k x, run exp ids (es ++ repeat WorkerTakes n ++ repeat PageTakes k) (opened m) = Ok x /\ quiet x.
Proof. exact settles. Qed.
Print Assumptions C116_settles.

(** If the module cannot be loaded, no picture ever appears (only messages), the default
    picture is not fetched and the memory is not touched. *)
Theorem C116_no_module : forall exp ids m es, ~ In (ModuleLoads true) es ->
  exists x, run exp ids es (opened m) = Ok x /\ memory x = m /\ flatcvModule x <> Loaded /\ defaultLoading x = false /\
    forall o, In o (screen x) -> exists op, o = Failed op.
Proof. exact no_module. Qed.
Print Assumptions C116_no_module.

Example C116_no_module_ex : let es := [LoadImage pic_a; WorkerTakes; ModuleLoads false; PageTakes; Click Sobel; WorkerTakes; PageTakes] in
  ~ In (ModuleLoads true) es /\
  match run exp_round Z.of_nat es (opened (st1 pic32)) with Ok x => screen x = [Failed Sobel] | _ => False end.
Proof. split; [intros [H|[H|[H|[H|[H|[H|[H|[]]]]]]]]; discriminate H|vm_compute; reflexivity]. Qed.

Definition day : list event :=
  [LoadImage pic_a; Click Grayscale; WorkerTakes; ModuleLoads true; Click Binary; PageTakes; DefaultLoads pic_b; Click Grayscale;
   WorkerTakes; PageTakes; WorkerTakes; WorkerTakes; PageTakes; PageTakes].
Example C116_ex : exp_ok exp_round /\ (forall i j, Z.of_nat i = Z.of_nat j -> i = j) /\ (forall n, orc (st1 pic32) n = true) /\ wf (st1 pic32) /\ Forall event_ok day /\
  requests exp_round Z.of_nat day (opened (st1 pic32)) = [(Grayscale, pic_a, false); (Binary, pic_a, true); (Grayscale, pic_b, true)] /\
  match run exp_round Z.of_nat day (opened (st1 pic32)) with
  | Ok x => screen x = [Drawn 2 1 [75; 75; 75; 255; 9; 9; 9; 255]; Drawn 2 1 [255; 255; 255; 255; 0; 0; 0; 255]; Drawn 1 1 [29; 29; 29; 255]]
  | _ => False
  end.
Proof.
  split; [exact exp_round_ok|]. split; [lia|]. split; [reflexivity|]. split; [apply wf_st1|].
  split; [repeat (constructor; cbn; try exact pic_a_ok; try exact pic_b_ok; try exact I; try discriminate)|].
  split; vm_compute; reflexivity.
Qed.

(** ** C117: the spinner of a button turns only while a request of this button is
    waiting for its result. *)
Theorem C117_spinner_partial : forall exp ids es m, exp_ok exp -> (forall i j, ids i = ids j -> i = j) ->
  wf m -> Forall event_ok es -> forall x op, run exp ids es (opened m) = Ok x -> spinner x op = true -> exists id, In (id, op) (processingQueue x).
Proof. exact spinner_pending. Qed.
Print Assumptions C117_spinner_partial.

(** It turns exactly then if nobody clicks a button that is still waiting. *)
Theorem C117_polite_partial : forall exp ids, exp_ok exp -> (forall i j, ids i = ids j -> i = j) ->
  forall m es, wf m -> Forall event_ok es -> polite exp ids es (opened m) ->
  forall x op, run exp ids es (opened m) = Ok x -> (spinner x op = true <-> In op (map snd (processingQueue x))).
Proof. exact spinner_exact. Qed.
Print Assumptions C117_polite_partial.

(** Otherwise it does not turn all that time: after two clicks, the first result stops it. *)
Theorem C117_spinner_refuted : forall exp ids m p, picture_ok p -> ids 0%nat <> ids 1%nat -> exists es x, Forall event_ok es /\
  run exp ids es (opened m) = Ok x /\ In (ids 1%nat, Grayscale) (processingQueue x) /\ spinner x Grayscale = false.
Proof. exact spinner_hides. Qed.
Print Assumptions C117_spinner_refuted.

Example C117_ex : match run exp_round Z.of_nat [LoadImage pic_a; Click Blur; WorkerTakes] (opened (st1 pic32)) with
  | Ok x => spinner x Blur = true /\ spinner x Sobel = false /\ processingQueue x = [(0, Blur)]
  | _ => False
  end /\ polite exp_round Z.of_nat [LoadImage pic_a; Click Blur; Click Sobel; WorkerTakes] (opened (st1 pic32)).
Proof. split; [vm_compute; auto|]. cbn. repeat split; try tauto. intros [H|[]]; discriminate. Qed.

(** ** C118: once the default picture is there, the buttons work on the picture that the
    user loaded last. *)
Theorem C118_picture_partial : forall exp ids m es d es' x x', run exp ids es (opened m) = Ok x -> defaultLoading x = true ->
  run exp ids (DefaultLoads d :: es') x = Ok x' -> originalImageData x' = Some (last_loaded es' d).
Proof. exact users_picture. Qed.
Print Assumptions C118_picture_partial.

(** But the default picture replaces one that the user loaded before it came. *)
Theorem C118_picture_refuted : forall exp ids m p q, picture_ok p -> picture_ok q -> exists es x, Forall event_ok es /\
  run exp ids (LoadImage p :: es) (opened m) = Ok x /\ last_loaded es p = p /\ originalImageData x = Some q /\
  to_worker x = [MProcess (ids 0%nat) Grayscale q].
Proof. exact picture_replaced. Qed.
Print Assumptions C118_picture_refuted.

Example C118_ex : match run exp_round Z.of_nat [WorkerTakes; ModuleLoads true; PageTakes] (opened (st1 pic32)) with
  | Ok x => defaultLoading x = true /\
      match run exp_round Z.of_nat [DefaultLoads pic_b; LoadImage pic_a; Click Grayscale; WorkerTakes] x with
      | Ok x' => originalImageData x' = Some pic_a
      | _ => False
      end
  | _ => False
  end.
Proof. vm_compute. auto. Qed.

(** ** C119: every click on an enabled button leads to the picture. *)

(** The buttons are enabled before the module is loaded, and such clicks may fail. *)
Theorem C119_early_refuted : forall exp ids m p, picture_ok p -> exists es x, Forall event_ok es /\ run exp ids es (opened m) = Ok x /\ quiet x /\
  flatcvModule x = Loaded /\ requests exp ids es (opened m) = [(Grayscale, p, false)] /\ screen x = [Failed Grayscale].
Proof. exact too_early. Qed.
Print Assumptions C119_early_refuted.

(** Ids are times plus random numbers; if two agree, one click is never answered. *)
Theorem C119_same_id_refuted : forall exp ids m p, picture_ok p -> ids 0%nat = ids 1%nat -> exists es x, Forall event_ok es /\
  run exp ids es (opened m) = Ok x /\ quiet x /\ length (requests exp ids es (opened m)) = 2%nat /\ length (screen x) = 1%nat.
Proof. exact same_id. Qed.
Print Assumptions C119_same_id_refuted.

Example C119_ex : picture_ok pic_a /\ picture_ok pic_b.
Proof. split; [exact pic_a_ok|exact pic_b_ok]. Qed.

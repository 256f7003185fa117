(** * Helpers for the concrete examples that accompany the theorems. *)
From Verif Require Import Base BaseLemmas F Heap HeapLemmas Spec.

(** Heap with one live block (id 0) holding the bytes [l]; every allocation
    succeeds. *)
Definition st1 (l : list Z) : st :=
  mkst (upd (fun _ => None) 0 (Some (OBytes (of_list l)))) 1 (fun _ => true) 0.
(** Same, but every allocation fails. *)
Definition st1_oom (l : list Z) : st :=
  mkst (upd (fun _ => None) 0 (Some (OBytes (of_list l)))) 1 (fun _ => false) 0.

Lemma wf_st1 l : wf (st1 l).
Proof. intros i Hi; simpl in *. rewrite upd_other by lia. reflexivity. Qed.
Lemma wf_st1_oom l : wf (st1_oom l).
Proof. intros i Hi; simpl in *. rewrite upd_other by lia. reflexivity. Qed.
Lemma holds_st1 l : holds (st1 l) (Ptr 0) (of_list l).
Proof. exists 0; split; reflexivity. Qed.
Lemma holds_st1_oom l : holds (st1_oom l) (Ptr 0) (of_list l).
Proof. exists 0; split; reflexivity. Qed.

Definition bytesb (l : list Z) : bool := forallb (fun v => (0 <=? v) && (v <? 256)) l.

Lemma image_of_list l n : bytesb l = true -> n = Z.of_nat (length l) -> image n (of_list l).
Proof.
  intros H ->. split; [simpl; lia|]. intros i Hi. simpl.
  replace (i <? 0) with false by lia.
  destruct (nth_error l (Z.to_nat i)) eqn:E.
  - eexists; split; eauto. unfold bytesb in H. rewrite forallb_forall in H.
    apply nth_error_In in E. apply H in E. unfold byte. lia.
  - apply nth_error_None in E. lia.
Qed.

(** Bytes of the block returned by a call; [None] if it returned NULL or went
    wrong. *)
Definition out_bytes (r : res (ptr * st)) : option (list (option Z)) :=
  match r with
  | Ok (Ptr i, s) => match mem s i with Some (OBytes b) => Some (to_list b) | _ => None end
  | _ => None
  end.

(** A successful call exists as soon as a state where all allocations succeed
    meets the contract. *)
Lemma calls_exists f w h s p b P :
  wf s -> holds s p b -> (forall n, orc s n = true) ->
  returns_fresh s (f w h p s) P -> exists b', calls f w h b b' /\ P b'.
Proof.
  intros Hwf Hp Ho (q & s' & E & _ & H). destruct q as [|q].
  - destruct H as [_ [n [_ Hn]]]. rewrite Ho in Hn. discriminate.
  - destruct H as [_ [[b' [Hb HP]] _]]. exists b'; split; auto.
    exists s, p, q, s'. repeat split; auto. exists q; auto.
Qed.

(** A 3x2 RGBA picture. *)
Definition pic32 : list Z :=
  [ 1;2;3;255;   10;20;30;255;  100;110;120;128;
    7;8;9;0;     40;50;60;255;  200;210;220;1 ].
Lemma pic32_hyps : wf (st1 pic32) /\ dims_ok 3 2 /\ holds (st1 pic32) (Ptr 0) (of_list pic32) /\
   image (3 * 2 * 4) (of_list pic32).
Proof.
  split; [apply wf_st1|]. split; [unfold dims_ok, is_u32, SIZE_MAX; lia|].
  split; [apply holds_st1|]. apply image_of_list; reflexivity.
Qed.

(** Heap with one live block holding the buffer [b]. *)
Definition stb (b : buf Z) : st :=
  mkst (upd (fun _ => None) 0 (Some (OBytes b))) 1 (fun _ => true) 0.
(** The buffer returned by a call on a heap holding just [b]. *)
Definition out_buf (r : res (ptr * st)) : buf Z :=
  match r with
  | Ok (Ptr i, s) => match mem s i with Some (OBytes b) => b | _ => bnew 0 end
  | _ => bnew 0
  end.
Definition call1 (f : Z -> Z -> ptr -> M ptr) (w h : Z) (b : buf Z) : buf Z :=
  out_buf (f w h (Ptr 0) (stb b)).
Definition succeeds (f : Z -> Z -> ptr -> M ptr) (w h : Z) (b : buf Z) : bool :=
  match f w h (Ptr 0) (stb b) with
  | Ok (Ptr i, s) => match mem s i with Some (OBytes _) => true | _ => false end
  | _ => false
  end.
Lemma call1_calls f w h b : succeeds f w h b = true -> calls f w h b (call1 f w h b).
Proof.
  unfold succeeds, call1, out_buf. intros H.
  destruct (f w h (Ptr 0) (stb b)) as [[[|i] s]| | |] eqn:E; try discriminate.
  destruct (mem s i) as [[]|] eqn:Em; try discriminate.
  exists (stb b), (Ptr 0), i, s. repeat split; auto.
  - intros j Hj; simpl in *. rewrite upd_other by lia; auto.
  - exists 0; split; reflexivity.
  - exists i; auto.
Qed.

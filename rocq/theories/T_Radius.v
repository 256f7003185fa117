(** * Theorems: radii of morphology *)
From Verif Require Import Base F Heap Spec Spec_Morph M_Morph P_Radius ExUtil.
Local Open Scope list_scope.
Local Open Scope Z_scope.

(** ** C127: a larger radius changes more, and two steps reach little farther than one. *)
Theorem C127_dilation : forall w h b r r' d d' x y, image (w * h) b -> morph_ok w h r -> morph_ok w h r' -> r <= r' ->
  calls (fun w h p => binary_dilation_disk p w h r) w h b d -> calls (fun w h p => binary_dilation_disk p w h r') w h b d' ->
  inside w h x y -> white d w x y -> white d' w x y.
Proof. exact radius_dilation. Qed.
Print Assumptions C127_dilation.

Theorem C127_erosion : forall w h b r r' d d' x y, image (w * h) b -> morph_ok w h r -> morph_ok w h r' -> r <= r' ->
  calls (fun w h p => binary_erosion_disk p w h r) w h b d -> calls (fun w h p => binary_erosion_disk p w h r') w h b d' ->
  inside w h x y -> white d' w x y -> white d w x y.
Proof. exact radius_erosion. Qed.
Print Assumptions C127_erosion.

Theorem C127_twice_dilation : forall w h b r s d d' e x y, image (w * h) b -> morph_ok w h r -> morph_ok w h s -> morph_ok w h (r + s + 1) ->
  calls (fun w h p => binary_dilation_disk p w h r) w h b d -> calls (fun w h p => binary_dilation_disk p w h s) w h d d' ->
  calls (fun w h p => binary_dilation_disk p w h (r + s + 1)) w h b e ->
  inside w h x y -> white d' w x y -> white e w x y.
Proof. exact twice_dilation. Qed.
Print Assumptions C127_twice_dilation.

Theorem C127_twice_erosion : forall w h b r s d d' e x y, image (w * h) b -> morph_ok w h r -> morph_ok w h s -> morph_ok w h (r + s + 1) ->
  calls (fun w h p => binary_erosion_disk p w h r) w h b d -> calls (fun w h p => binary_erosion_disk p w h s) w h d d' ->
  calls (fun w h p => binary_erosion_disk p w h (r + s + 1)) w h b e ->
  inside w h x y -> white e w x y -> white d' w x y.
Proof. exact twice_erosion. Qed.
Print Assumptions C127_twice_erosion.

(** One white pixel in the middle of 5x5; two dilations by 1 reach the corner, one by 2 does
    not: the 1 in r + s + 1 is needed.  A white 7x7 picture for the erosions. *)
Definition dot : list Z := [0;0;0;0;0; 0;0;0;0;0; 0;0;255;0;0; 0;0;0;0;0; 0;0;0;0;0].
Notation dil r := (fun w h p => binary_dilation_disk p w h r).
Notation ero r := (fun w h p => binary_erosion_disk p w h r).
Example C127_ex : let b := of_list dot in let d := call1 (dil 1) 5 5 b in let d' := call1 (dil 1) 5 5 d in
  image (5 * 5) b /\ morph_ok 5 5 1 /\ morph_ok 5 5 2 /\ morph_ok 5 5 (1 + 1 + 1) /\
  calls (dil 1) 5 5 b d /\ calls (dil 1) 5 5 d d' /\ calls (dil 2) 5 5 b (call1 (dil 2) 5 5 b) /\ calls (dil 3) 5 5 b (call1 (dil 3) 5 5 b) /\
  white d' 5 4 4 /\ ~ white (call1 (dil 2) 5 5 b) 5 4 4 /\ white (call1 (dil 3) 5 5 b) 5 4 4.
Proof.
  split; [apply image_of_list; reflexivity|]. split; [unfold morph_ok; lia|]. split; [unfold morph_ok; lia|]. split; [unfold morph_ok; lia|].
  do 4 (split; [apply call1_calls; vm_compute; reflexivity|]). split; [vm_compute; reflexivity|]. split; [vm_compute; discriminate|vm_compute; reflexivity].
Qed.
Example C127_erosion_ex : let b := of_list (repeat 255 49) in let d := call1 (ero 1) 7 7 b in let d' := call1 (ero 1) 7 7 d in
  image (7 * 7) b /\ morph_ok 7 7 1 /\ morph_ok 7 7 (1 + 1 + 1) /\
  calls (ero 1) 7 7 b d /\ calls (ero 1) 7 7 d d' /\ calls (ero 3) 7 7 b (call1 (ero 3) 7 7 b) /\ white (call1 (ero 3) 7 7 b) 7 3 3 /\ white d' 7 2 3 /\ ~ white d' 7 1 3.
Proof.
  split; [apply image_of_list; reflexivity|]. split; [unfold morph_ok; lia|]. split; [unfold morph_ok; lia|].
  do 3 (split; [apply call1_calls; vm_compute; reflexivity|]). split; [vm_compute; reflexivity|]. split; [vm_compute; reflexivity|vm_compute; discriminate].
Qed.

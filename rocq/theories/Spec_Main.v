(** * Spec_Main: vocabulary of the theorems about the program as a whole (C84-C87) *)
From Coq Require Import String.
From Verif Require Import Base F Heap Spec Spec_Draw Spec_Cli Spec_Parse M_Color M_Parse Spec_Apply.
Local Open Scope string_scope.
Local Open Scope list_scope.
Local Open Scope Z_scope.

(** A file name with the given extension. *)
Definition ends_in (path : cstr) (ext : string) : Prop := exists stem, path = stem ++ txt ext.
Definition jpeg_in (path : cstr) : Prop := ends_in path ".jpg" \/ ends_in path ".jpeg" \/ ends_in path ".JPG" \/ ends_in path ".JPEG".
Definition jpeg_out (path : cstr) : Prop := ends_in path ".jpg" \/ ends_in path ".jpeg".

(** Some operation makes the picture black and white. *)
Definition binarizes (ops : list pipeline_op) : Prop :=
  exists o, In o ops /\ (named o "threshold" \/ named o "bw_smart" \/ named o "bw_smooth").

(** The stored picture [b] as it is seen when its orientation tag is [o]; tags
    other than 2 to 8 mean that it is stored upright. *)
Definition seen (o w h : Z) (b : buf Z) (w' h' : Z) (b' : buf Z) : Prop :=
  (2 <= o <= 8 /\ upright o w h b w' h' b') \/ ((o < 2 \/ 8 < o) /\ w' = w /\ h' = h /\ b' = b).

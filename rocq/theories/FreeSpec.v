(** What a faithful free function does. *)
From Coq Require Import String ZArith NArith Ascii Bool List Lia.
From Verif Require Import Base Str CloneHeap CloneSpec.
Import ListNotations.

(** exactly the blocks [fp] have been released between [h] and [h'] *)
Definition freed (fp : list addr) (h h' : heap) : Prop := (forall x, In x fp -> h' x = None) /\ (forall x, ~ In x fp -> h' x = h x).
(** [free] called on [w], a structure with fields [fs] and value [us] that is stored in the blocks [fp] and shares none of them between
    two of its parts: it never touches or releases a block twice (that would be [UB]), and releases exactly its blocks *)
Definition destroyed (free : heap -> word -> res heap) (fs : list shape) (us : list tree) : Prop :=
  forall h a fp, holds h (KRec fs) (Ptr a) (Rec us) fp -> NoDup fp -> exists h', free h (Ptr a) = Ok h' /\ freed fp h h'.

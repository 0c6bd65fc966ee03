(** What a clone function may do when memory may run out. *)
From Coq Require Import String ZArith NArith Ascii Bool List Lia.
From Verif Require Import Base Str CloneHeap CloneSpec FailClone.
Import ListNotations.
Local Open Scope nat_scope.

(** malloc answers blocks that are not in use *)
Definition sane (malloc : nat -> heap -> option addr) : Prop := forall n (h : heap) a, malloc n h = Some a -> h a = None.
(** an allocation failed between [m] and [m'] *)
Definition ran_out (malloc : nat -> heap -> option addr) (m m' : memory) : Prop := exists n (h : heap), tries m <= n < tries m' /\ malloc n h = None.
(** the memory [m'] comes after [m]; failures that nobody noticed are failures *)
Definition later (malloc : nat -> heap -> option addr) (m m' : memory) : Prop :=
  tries m <= tries m' /\ unseen m <= unseen m' /\ (unseen m < unseen m' -> ran_out malloc m m').

(** [clone] called on the structure [w] with fields [fs] and value [Rec us].  [complete]: its mandatory fields are there; [plain]: it has nothing in the fields that
    the clone function does not copy.
    On success there is a copy in blocks that were free, each counted once; on an error there is none.  No other block changed, except [lost] ones, which were free
    before.  If every failed allocation was noticed, nothing is lost, and the copy has the value of the original.  An error means that memory ran out, or that the
    structure is not complete. *)
Definition tried (malloc : nat -> heap -> option addr) (clone : memory -> word -> out word) (fs : list shape) (complete plain : list tree -> Prop) (m : memory) (w : word) (us : list tree) : Prop :=
  match clone m w with
  | Done m' w' => exists us' fp' lost, holds (hp m') (KRec fs) w' (Rec us') fp' /\ NoDup fp' /\ (forall x, In x fp' \/ In x lost -> hp m x = None) /\
      (forall x, ~ In x fp' -> ~ In x lost -> hp m' x = hp m x) /\ later malloc m m' /\ (unseen m' = unseen m -> lost = [] /\ (plain us -> us' = us))
  | Fail m' c => exists lost, (forall x, In x lost -> hp m x = None) /\ (forall x, ~ In x lost -> hp m' x = hp m x) /\ later malloc m m' /\ (unseen m' = unseen m -> lost = []) /\
      (c = OSIP_NOMEM /\ ran_out malloc m m' \/ c = OSIP_BADPARAMETER /\ ~ complete us)
  | Bad => False
  end.

(** Specification of the list container: plain mathematical sequences. *)
From Coq Require Import ZArith List Bool.
From Verif Require Import Base ListModel.
Import ListNotations.

(** Insert before position [pos]; any position outside 0..size-1 means "at the end". *)
Definition seq_insert {E} (s : list E) (el : E) (pos : Z) : list E :=
  if (0 <=? pos)%Z && (pos <? Z.of_nat (length s))%Z
  then firstn (Z.to_nat pos) s ++ el :: skipn (Z.to_nat pos) s
  else s ++ [el].

Definition seq_nth {E} (s : list E) (pos : Z) : option E :=
  if (pos <? 0)%Z then None else nth_error s (Z.to_nat pos).

Definition seq_delete {E} (s : list E) (pos : Z) : list E :=
  firstn (Z.to_nat pos) s ++ skipn (S (Z.to_nat pos)) s.

(** One call on a sequence; a failed allocation leaves the sequence as it is. *)
Definition seq_step {E} (s : list E) (o : lop E) : list E * lret E :=
  match o with
  | LAdd None _ _ => (s, RInt OSIP_NOMEM)
  | LAdd (Some _) el pos =>
    let s' := seq_insert s el pos in (s', RInt (Z.of_nat (length s')))
  | LGet pos => (s, RElt (seq_nth s pos))
  | LRemove pos =>
    if (0 <=? pos)%Z && (pos <? Z.of_nat (length s))%Z
    then let s' := seq_delete s pos in (s', RInt (Z.of_nat (length s')))
    else (s, RInt OSIP_UNDEFINED_ERROR)
  | LSize => (s, RInt (Z.of_nat (length s)))
  end.

Fixpoint seq_run {E} (s : list E) (ops : list (lop E)) : list E * list (lret E) :=
  match ops with
  | [] => (s, [])
  | o :: ops' =>
    let (s1, r) := seq_step s o in
    let (s2, rs) := seq_run s1 ops' in (s2, r :: rs)
  end.

(** malloc's contract: an address it returns is not currently allocated. *)
Fixpoint malloc_ok {E} (l : lst E) (ops : list (lop E)) : Prop :=
  match ops with
  | [] => True
  | o :: ops' =>
    match o with LAdd (Some a) _ _ => mem l a = None | _ => True end /\
    (forall l' r, lstep l o = Some (l', r) -> malloc_ok l' ops')
  end.

(** Positions a caller may pass: the documented ones are -1 and non-negative ones. *)
Definition pos_ok {E} (o : lop E) : Prop :=
  match o with LAdd _ _ pos => (-1 <= pos)%Z | _ => True end.

(** The client's decisions unrolled on a sequence: what stays after a visiting loop. *)
Fixpoint seq_kept {E} (dec : list E -> E -> bool) (seen s : list E) : list E :=
  match s with
  | [] => []
  | e :: s' => (if dec seen e then [] else [e]) ++ seq_kept dec (seen ++ [e]) s'
  end.

(** [l] is observably the sequence [s]: every further legal history of calls is defined
    and returns what the sequence would return. *)
Definition behaves {E} (l : lst E) (s : list E) : Prop :=
  forall ops, Forall pos_ok ops -> malloc_ok l ops ->
  exists l', lrun l ops = Some (l', snd (seq_run s ops)).

(** [l] can be obtained from an initialised list by a legal history, and the sequence
    specification says it then holds [s]. *)
Definition reachable {E} (l : lst E) (s : list E) : Prop :=
  exists h ops rs, Forall pos_ok ops /\ malloc_ok (list_init h) ops /\
    lrun (list_init h) ops = Some (l, rs) /\ s = fst (seq_run [] ops).

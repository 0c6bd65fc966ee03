(** Shared conventions of the model. *)
From Coq Require Import ZArith List Ascii String Bool Lia.
Import ListNotations.

(** Error codes: include/osipparser2/osip_port.h 314-331. *)
Definition OSIP_SUCCESS : Z := 0.
Definition OSIP_UNDEFINED_ERROR : Z := (-1).
Definition OSIP_BADPARAMETER : Z := (-2).
Definition OSIP_WRONG_STATE : Z := (-3).
Definition OSIP_NOMEM : Z := (-4).
Definition OSIP_SYNTAXERROR : Z := (-5).
Definition OSIP_NOTFOUND : Z := (-6).

(** A C string: its bytes up to, and without, the terminating NUL. *)
Definition str := list ascii.

(** Literal strings. *)
Notation "$ s" := (list_ascii_of_string s) (at level 1, only parsing).

(** Outcome of a modelled call: success with a value, a C error code, or
    undefined behaviour (out-of-range access, NULL dereference, use after free). *)
Inductive res (A : Type) : Type :=
| Ok (a : A)
| Err (code : Z)
| UB.
Arguments Ok {A} a.
Arguments Err {A} code.
Arguments UB {A}.

Definition res_bind {A B} (r : res A) (f : A -> res B) : res B :=
  match r with Ok a => f a | Err c => Err c | UB => UB end.
Notation "'do' x <- r ; k" := (res_bind r (fun x => k))
  (at level 200, x pattern, r at level 100, k at level 200).

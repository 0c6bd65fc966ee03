(** Time arithmetic: src/osip2/osip_time.c. *)
From Coq Require Import ZArith Bool List.
Import ListNotations.
Open Scope Z_scope.

(** struct timeval *)
Record timeval := TV { tv_sec : Z; tv_usec : Z }.

(** add_gettimeofday: osip_time.c 31-46.  C integer division on non-negative operands. *)
Definition add_gettimeofday (t : timeval) (ms : Z) : timeval :=
  if 1000000 <=? ms then TV (tv_sec t + ms / 1000) 0
  else let u := tv_usec t + ms * 1000 in
       TV (tv_sec t + Z.quot u 1000000) (Z.rem u 1000000).

(** osip_timercmp (a, b, >): osip_time.h 54-57 *)
Definition timer_gt (a b : timeval) : bool :=
  if tv_sec a =? tv_sec b then tv_usec a >? tv_usec b else tv_sec a >? tv_sec b.

(** osip_timercmp (a, b, <) *)
Definition timer_lt (a b : timeval) : bool :=
  if tv_sec a =? tv_sec b then tv_usec a <? tv_usec b else tv_sec a <? tv_sec b.

(** min_timercmp: osip_time.c 48-58 *)
Definition min_timercmp (a b : timeval) : timeval :=
  if tv_sec b =? -1 then a else if timer_gt a b then b else a.

(** A normalised clock value: non-negative, microseconds below one million. *)
Definition tv_ok (t : timeval) : Prop := 0 <= tv_sec t /\ 0 <= tv_usec t < 1000000.

(** Meaning of a timeval, in microseconds. *)
Definition usecs (t : timeval) : Z := tv_sec t * 1000000 + tv_usec t.

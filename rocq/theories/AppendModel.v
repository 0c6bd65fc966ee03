(** Appending to a text, and waiting: src/osipparser2/osip_port.c *)
From Coq Require Import ZArith Ascii Bool List.
From Verif Require Import Base Str MemModel.
Import ListNotations.
Open Scope Z_scope.

(** osip_str_append (dst, src): osip_port.c 1431-1441.  Both point into the memory [m], so that they may
    overlap.  Result: the memory and the pointer returned.  [fuel]: rounds of the loop; out of fuel is UB *)
Fixpoint str_append (fuel : nat) (m : buffer) (dst src : Z) : res (buffer * Z) :=
  match fuel with
  | O => UB
  | S f =>
    do c <- rd m src ;
    if Ascii.eqb c NUL then do m <- wr m dst NUL ; Ok (m, dst)
    else do m <- wr m dst c ; str_append f m (dst + 1) (src + 1)
  end.

(** osip_strn_append (dst, src, len): osip_port.c 1445-1452, in the same memory *)
Definition strn_append (m : buffer) (dst src n : Z) : res (buffer * Z) :=
  do m <- memmove m dst src n ;
  do m <- wr m (dst + n) NUL ;
  Ok (m, dst + n).

(** The same two when the text is in another object than the destination: [src] is what that object holds from the
    place the pointer gives *)
Fixpoint str_append_from (m : buffer) (dst : Z) (src : buffer) : res (buffer * Z) :=
  match src with
  | [] => UB
  | c :: src => if Ascii.eqb c NUL then do m <- wr m dst NUL ; Ok (m, dst) else do m <- wr m dst c ; str_append_from m (dst + 1) src
  end.
Definition strn_append_from (m : buffer) (dst : Z) (src : buffer) (n : Z) : res (buffer * Z) :=
  do l <- rd_range src 0 n ;
  do m <- wr_range m dst l ;
  do m <- wr m (dst + n) NUL ;
  Ok (m, dst + n).

(** osip_usleep (useconds), last branch: osip_port.c 430-443.  Result: tv_sec and tv_usec given to select *)
Definition usleep (useconds : Z) : Z * Z :=
  let sec := Z.quot useconds 1000000 in
  if sec >? 0 then (sec, 0) else (0, useconds).

(** The branch for ARC: osip_port.c 422-428.  Result: tv_sec and tv_nsec given to nanosleep *)
Definition usleep_arc (useconds : Z) : Z * Z :=
  (Z.quot useconds 1000000, Z.rem useconds 1000000 * 1000).

(** osip_snprintf as built for VxWorks and pSOS: src/osipparser2/osip_port.c *)
From Coq Require Import String ZArith Ascii Bool List.
From Verif Require Import Base Str MemModel CString.
Import ListNotations.
Open Scope Z_scope.

(** _cb_snprintf: osip_port.c 1237-1254.  The context: the buffer, [max] and the length so far *)
Definition cb_snprintf (max : Z) (ctx : buffer * Z) (piece : str) : res (buffer * Z) :=
  let (b, n) := ctx in
  let nc := slen piece in
  let nc := if max - n - nc <? 1 then max - n - 1 else nc in
  do p <- (if nc >? 0 then do b <- wr_range b n (firstn (Z.to_nat nc) piece) ; Ok (b, n + nc) else Ok (b, n)) ;
  do b <- wr (fst p) (snd p) NUL ;
  Ok (b, snd p).

(** osip_vsnprintf, osip_snprintf for VxWorks: osip_port.c 1257-1285.  fioFormatV, which belongs to the system,
    formats the text and hands it to the callback in [pieces]; it is taken to succeed *)
Fixpoint hand_over (max : Z) (ctx : buffer * Z) (pieces : list str) : res (buffer * Z) :=
  match pieces with [] => Ok ctx | p :: l => do ctx <- cb_snprintf max ctx p ; hand_over max ctx l end.
Definition snprintf_vxworks (buf : buffer) (max : Z) (pieces : list str) : res (buffer * Z) := hand_over max (buf, 0) pieces.

(** osip_snprintf for pSOS: osip_port.c 1292-1308.  [g]: the static buffer, zero at first (C 6.7.9);
    [t]: what the format and the arguments give.  Result: the static buffer, [buf] and the value returned *)
Definition psos_static : buffer := repeat NUL 1024.
Definition snprintf_psos (g buf : buffer) (max : Z) (t : str) : res (buffer * buffer * Z) :=
  do g <- wr g 0 "010"%char ;
  do n <- strlen g ;
  do g <- wr_range g n (t ++ [NUL]) ;
  do r <- strlen g ;
  do x <- rd_range g 0 max ;
  do buf <- wr_range buf 0 x ;
  Ok (g, buf, if r >? max then -1 else r).

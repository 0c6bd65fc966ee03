(** String utilities: src/osipparser2/osip_port.c. *)
From Coq Require Import String ZArith NArith Ascii Bool List.
From Verif Require Import Base Str.
Import ListNotations.

(** isspace in the "C" locale *)
Definition isspace (c : ascii) : bool := Ascii.eqb c sp || ((9 <=? code c)%N && (code c <=? 13)%N).

Fixpoint skip_space (s : str) : str :=
  match s with [] => [] | c :: s' => if isspace c then skip_space s' else s end.

Definition digit_val (c : ascii) : Z := Z.of_N (code c) - 48.

Fixpoint digits_val (acc : Z) (s : str) : Z :=
  match s with
  | c :: s' => if is_digit c then digits_val (acc * 10 + digit_val c) s' else acc
  | [] => acc
  end.

Definition LONG_MAX : Z := 9223372036854775807.
Definition LONG_MIN : Z := (-9223372036854775808).

(** strtol (s, NULL, 10) on an LP64 machine: saturating. *)
Definition strtol (s : str) : Z :=
  let s1 := skip_space s in
  let v := match s1 with
           | c :: s2 => if Ascii.eqb c "-"%char then Z.opp (digits_val 0 s2)
                        else if Ascii.eqb c "+"%char then digits_val 0 s2 else digits_val 0 s1
           | [] => 0%Z
           end in
  Z.max LONG_MIN (Z.min LONG_MAX v).

(** conversion of a long to a 32-bit int *)
Definition int32 (z : Z) : Z :=
  let m := Z.modulo z 4294967296 in if (m <? 2147483648)%Z then m else (m - 4294967296)%Z.

(** osip_atoi: osip_port.c 362-377 (strtol branch).  The comparison of the truncated [int]
    with LONG_MIN and LONG_MAX (line 372) is kept although it can never succeed. *)
Definition osip_atoi (s : str) : Z :=
  let i := int32 (strtol s) in
  if (i =? LONG_MIN)%Z || (i =? LONG_MAX)%Z then OSIP_UNDEFINED_ERROR else i.

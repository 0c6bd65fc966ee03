(** Byte buffers with checked accesses.  A buffer is the list of all bytes of one allocated (or
    otherwise valid) C object; reading or writing outside of it is [UB].  A C string in a buffer
    is [s ++ NUL :: rest] with no NUL in [s].  Computing a pointer one before the start is not
    counted as undefined, using it is. *)
From Coq Require Import ZArith NArith Ascii Bool List.
From Verif Require Import Base Str.
Import ListNotations.
Open Scope Z_scope.

Definition buffer := list ascii.

(** b[i] *)
Definition rd (b : buffer) (i : Z) : res ascii :=
  if i <? 0 then UB else match nth_error b (Z.to_nat i) with Some c => Ok c | None => UB end.

(** b[i] = c *)
Definition wr (b : buffer) (i : Z) (c : ascii) : res buffer :=
  if (i <? 0) || (Z.of_nat (length b) <=? i) then UB
  else Ok (firstn (Z.to_nat i) b ++ c :: skipn (S (Z.to_nat i)) b).

(** The [n] bytes from index [i]; [n] a size_t, hence not negative *)
Definition rd_range (b : buffer) (i n : Z) : res (list ascii) :=
  if (i <? 0) || (n <? 0) || (Z.of_nat (length b) <? i + n) then UB
  else Ok (firstn (Z.to_nat n) (skipn (Z.to_nat i) b)).

(** Overwrite from index [i] *)
Definition wr_range (b : buffer) (i : Z) (l : list ascii) : res buffer :=
  if (i <? 0) || (Z.of_nat (length b) <? i + Z.of_nat (length l)) then UB
  else Ok (firstn (Z.to_nat i) b ++ l ++ skipn (Z.to_nat i + length l) b).

(** memmove (b + d, b + i, n) *)
Definition memmove (b : buffer) (d i n : Z) : res buffer :=
  do l <- rd_range b i n ; wr_range b d l.

(** The C string at index [i]: its bytes up to the first NUL *)
Fixpoint c_string (b : buffer) : res str :=
  match b with
  | [] => UB
  | c :: b' => if Ascii.eqb c NUL then Ok [] else do s <- c_string b' ; Ok (c :: s)
  end.
Definition strlen (b : buffer) : res Z := do s <- c_string b ; Ok (Z.of_nat (length s)).

(** C string primitives used by the parsers and printers, with the accesses checked.
    A [const char *] into a C string [s] is an offset from its start; the terminating NUL is at
    offset [length s].  Reading elsewhere is [UB].  Copies name the number of bytes that were
    allocated for them; writing more is [UB].  malloc never fails (simplification). *)
From Coq Require Import String ZArith NArith Ascii Bool List.
From Verif Require Import Base Str MemModel.
Import ListNotations.
Open Scope Z_scope.

Definition slen {A} (s : list A) : Z := Z.of_nat (length s).
Definition in_range (s : str) (i : Z) : bool := (0 <=? i) && (i <=? slen s).

(** s[i] *)
Definition ch (s : str) (i : Z) : res ascii :=
  if in_range s i then Ok (nth (Z.to_nat i) s NUL) else UB.

(** strchr (s + i, c), c not NUL, as an offset in s *)
Definition strchr_at (s : str) (i : Z) (c : ascii) : res (option Z) :=
  if in_range s i then
    Ok (match strchr (skipn (Z.to_nat i) s) c with Some k => Some (i + Z.of_nat k) | None => None end)
  else UB.

(** the string at s + i *)
Definition tail_at (s : str) (i : Z) : res str :=
  if in_range s i then Ok (skipn (Z.to_nat i) s) else UB.

(** d = malloc (m); osip_strncpy (d, s + i, n): osip_port.c 335-343; the string then in d.
    A negative n is converted to a huge size_t. *)
Definition copy_at (s : str) (i n m : Z) : res str :=
  if in_range s i && (0 <=? n) && (n + 1 <=? m) then Ok (firstn (Z.to_nat n) (skipn (Z.to_nat i) s)) else UB.

(** d = malloc (m); osip_clrncpy (d, s + i, n): osip_port.c 1460-1515, see C29_clrncpy for the
    in-memory version *)
Definition clrncpy_at (s : str) (i n m : Z) : res str :=
  if in_range s i && (0 <=? n) && (n + 1 <=? m) && (i + n <=? slen s)
  then Ok (trim (firstn (Z.to_nat n) (skipn (Z.to_nat i) s))) else UB.

(** "while (p > lo && *p != c1 && *p != c2) p--;" and the like; runs on fuel *)
Fixpoint scan_back (fuel : nat) (s : str) (lo p : Z) (stop : ascii -> bool) : res Z :=
  match fuel with
  | O => UB
  | S f => if p >? lo then do c <- ch s p ; if stop c then Ok p else scan_back f s lo (p - 1) stop
           else Ok p
  end.
(** "while (p < hi && *p != c) p++;" *)
Fixpoint scan_fwd (fuel : nat) (s : str) (p hi : Z) (stop : ascii -> bool) : res Z :=
  match fuel with
  | O => UB
  | S f => if p <? hi then do c <- ch s p ; if stop c then Ok p else scan_fwd f s (p + 1) hi stop
           else Ok p
  end.

(** next_separator: osip_uri.c 73-94; [before] is not 0 in any call that is modelled *)
Definition next_separator (s : str) (i : Z) (sep before : ascii) : res (option Z) :=
  do ind <- strchr_at s i sep ;
  match ind with
  | None => Ok None
  | Some ind =>
    do tmp <- strchr_at s i before ;
    match tmp with
    | Some tmp => if ind <? tmp then Ok (Some ind) else Ok None
    | None => Ok (Some ind)
    end
  end.

(** A text being printed into an allocated buffer: the string written so far and the size of
    the buffer. *)
Record out := mkOut { o_text : str; o_cap : Z }.
(** buf = malloc (n); *buf = 0 *)
Definition out_new (n : Z) : res out := if n <? 1 then UB else Ok (mkOut [] n).
(** buf = realloc (buf, n) *)
Definition out_grow (o : out) (n : Z) : res out :=
  if n <? slen (o_text o) + 1 then UB else Ok (mkOut (o_text o) n).
(** sprintf (buf + strlen (buf), "%s", t), strcat, osip_str_append ... : the bytes of t and a NUL *)
Definition emit (o : out) (t : str) : res out :=
  if o_cap o <? slen (o_text o) + slen t + 1 then UB else Ok (mkOut (o_text o ++ t) (o_cap o)).

(** C string library functions used by the code (trusted meaning of libc), on [list ascii]. *)
From Coq Require Import String ZArith NArith Ascii Bool List.
From Verif Require Import Base.
Import ListNotations.

Definition NUL : ascii := Ascii.zero.
Definition code (c : ascii) : N := N_of_ascii c.
Definition chr (n : N) : ascii := ascii_of_N n.

Definition sp : ascii := " "%char.
Definition cr : ascii := chr 13.
Definition lf : ascii := chr 10.
Definition tab : ascii := chr 9.
Definition dquote : ascii := chr 34.
Definition bslash : ascii := chr 92.

Fixpoint str_eqb (a b : str) : bool :=
  match a, b with
  | [], [] => true
  | x :: a', y :: b' => Ascii.eqb x y && str_eqb a' b'
  | _, _ => false
  end.

(** strcmp (a, b) == 0 *)
Definition streq (a b : str) : bool := str_eqb a b.

(** tolower in the "C" locale. *)
Definition tolower (c : ascii) : ascii :=
  if (65 <=? code c)%N && (code c <=? 90)%N then chr (code c + 32) else c.

Definition toupper (c : ascii) : ascii :=
  if (97 <=? code c)%N && (code c <=? 122)%N then chr (code c - 32) else c.

(** osip_strcasecmp (a, b) == 0 (osip_port.c 485-501: strcasecmp) *)
Definition strcaseeq (a b : str) : bool := str_eqb (map tolower a) (map tolower b).

(** strncmp (a, b, n) == 0 on NUL-terminated strings *)
Fixpoint strneq (n : nat) (a b : str) : bool :=
  match n with
  | O => true
  | S n' => match a, b with
            | [], [] => true
            | x :: a', y :: b' => Ascii.eqb x y && strneq n' a' b'
            | _, _ => false
            end
  end.

(** osip_strncasecmp (a, b, n) == 0 (osip_port.c 503-524: strncasecmp) *)
Definition strncaseeq (n : nat) (a b : str) : bool := strneq n (map tolower a) (map tolower b).

(** strchr (s, c), as the index of the first occurrence; c is not NUL *)
Fixpoint strchr (s : str) (c : ascii) : option nat :=
  match s with
  | [] => None
  | x :: s' => if Ascii.eqb x c then Some O else option_map S (strchr s' c)
  end.

(** The byte at index [i] of a C string: NUL at the terminator.  Callers only use it for
    indices up to the length. *)
Definition at_ (s : str) (i : nat) : ascii := nth i s NUL.

(** substring [i, j) *)
Definition sub (s : str) (i j : nat) : str := firstn (j - i) (skipn i s).

(** The four blanks of osip_clrspace / osip_clrncpy (osip_port.c 563, 1475). *)
Definition is_blank (c : ascii) : bool :=
  Ascii.eqb c sp || Ascii.eqb c cr || Ascii.eqb c lf || Ascii.eqb c tab.

Fixpoint ltrim (s : str) : str :=
  match s with
  | [] => []
  | c :: s' => if is_blank c then ltrim s' else s
  end.

Definition rtrim (s : str) : str := rev (ltrim (rev s)).

(** White space removed at both ends.  PortBuf.clrspace / clrncpy transcribe the C loops
    and C29 proves them equal to this; the parsers use [trim] for osip_clrspace and
    osip_clrncpy. *)
Definition trim (s : str) : str := rtrim (ltrim s).

Definition is_digit (c : ascii) : bool := (48 <=? code c)%N && (code c <=? 57)%N.
Definition is_alpha (c : ascii) : bool :=
  ((65 <=? code c)%N && (code c <=? 90)%N) || ((97 <=? code c)%N && (code c <=? 122)%N).
Definition is_alnum (c : ascii) : bool := is_digit c || is_alpha c.

(** Well formed C string: no NUL inside. *)
Definition cstr (s : str) : Prop := ~ In NUL s.

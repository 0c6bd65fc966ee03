(** String utilities that work in place or on raw memory: src/osipparser2/osip_port.c.
    Loops run on fuel; running out of it is [UB], and the theorems show it does not happen. *)
From Coq Require Import String ZArith NArith Ascii Bool List.
From Verif Require Import Base Str MemModel.
Import ListNotations.
Open Scope Z_scope.

(** "while (' ' == *pbeg || ...) pbeg++;": osip_port.c 562-564, 1474-1476 *)
Fixpoint skip_fwd (fuel : nat) (b : buffer) (i : Z) : res Z :=
  match fuel with
  | O => UB
  | S f => do c <- rd b i ; if is_blank c then skip_fwd f b (i + 1) else Ok i
  end.

(** "while (' ' == *pend || ...) { pend--; if (pend < pbeg) ... return; }": osip_port.c 566-573,
    1480-1487; [None] is the early return *)
Fixpoint skip_back (fuel : nat) (b : buffer) (pbeg pend : Z) : res (option Z) :=
  match fuel with
  | O => UB
  | S f => do c <- rd b pend ;
           if is_blank c then (if pend - 1 <? pbeg then Ok None else skip_back f b pbeg (pend - 1))
           else Ok (Some pend)
  end.

Definition fuel_of (b : buffer) : nat := S (length b).

(** osip_clrspace: osip_port.c 549-583 *)
Definition clrspace (b : buffer) : res buffer :=
  do c0 <- rd b 0 ;
  if Ascii.eqb c0 NUL then Ok b
  else
    do len <- strlen b ;
    do pbeg <- skip_fwd (fuel_of b) b 0 ;
    do pe <- skip_back (fuel_of b) b pbeg (len - 1) ;
    match pe with
    | None => wr b 0 NUL
    | Some pend =>
      do b1 <- (if pend + 1 <=? len - 1 then wr b (pend + 1) NUL else Ok b) ;
      if negb (pbeg =? 0) then memmove b1 0 pbeg (pend - pbeg + 2) else Ok b1
    end.

(** The padding loop "do *++p = 0; while (++spaceless_length < len);": osip_port.c 1497-1501 *)
Fixpoint pad (fuel : nat) (dst : buffer) (p sl len : Z) : res buffer :=
  match fuel with
  | O => UB
  | S f => do d <- wr dst (p + 1) NUL ; if sl + 1 <? len then pad f d (p + 1) (sl + 1) len else Ok d
  end.

(** osip_clrncpy (dst, src, len): osip_port.c 1460-1515 (__GNUC__ branch); result: dst's bytes *)
Definition clrncpy (dst src : buffer) (len : Z) : res buffer :=
  if len =? 0 then wr dst 0 NUL
  else
    do pbeg <- skip_fwd (fuel_of src) src 0 ;
    do pe <- skip_back (fuel_of src) src pbeg (len - 1) ;
    match pe with
    | None => wr dst 0 NUL
    | Some pend =>
      let sl := pend - pbeg + 1 in
      do l <- rd_range src pbeg sl ;
      do d1 <- wr_range dst 0 l ;
      do d2 <- wr d1 sl NUL ;
      if sl + 1 <? len then pad (Z.to_nat len) d2 sl (sl + 1) len else Ok d2
    end.

(** strchr (b + i, c), c not NUL *)
Fixpoint strchr_from (fuel : nat) (b : buffer) (i : Z) (c : ascii) : res (option Z) :=
  match fuel with
  | O => UB
  | S f => do x <- rd b i ;
           if Ascii.eqb x c then Ok (Some i)
           else if Ascii.eqb x NUL then Ok None else strchr_from f b (i + 1) c
  end.

(** The for loop of __osip_quote_find: osip_port.c 684-716.  [qs], [quote] are indices. *)
Fixpoint quote_loop (fuel : nat) (b : buffer) (qs quote i : Z) : res (option Z) :=
  match fuel with
  | O => UB
  | S f =>
    (* the part after the first if: lines 699-714 *)
    let tail (quote i : Z) :=
      if quote - i =? qs - 1 then
        do c <- rd b qs ;
        let i := if Ascii.eqb c bslash then i + 1 else i in
        if i mod 2 =? 0 then Ok (Some quote)
        else do q <- strchr_from (fuel_of b) b (quote + 1) dquote ;
             match q with
             | None => Ok None
             | Some q => quote_loop f b (quote + 1) q 1
             end
      else quote_loop f b qs quote i in
    do c <- rd b (quote - i) ;
    if Ascii.eqb c bslash then tail quote (i + 1)
    else if i mod 2 =? 1 then Ok (Some quote)
    else do q <- strchr_from (fuel_of b) b (quote + 1) dquote ;
         match q with
         | None => Ok None
         | Some q => tail q 1
         end
  end.

(** __osip_quote_find: osip_port.c 661-719; the result is the offset from the start *)
Definition quote_find (b : buffer) : res (option Z) :=
  do q <- strchr_from (fuel_of b) b 0 dquote ;
  match q with
  | None => Ok None
  | Some q => if q =? 0 then Ok (Some 0) else quote_loop (fuel_of b * fuel_of b) b 0 q 1
  end.

(** osip_enquote: osip_port.c 721-751.  [buf]: the malloc'ed bytes; [t]: the write index *)
Definition put (r : res (buffer * Z)) (c : ascii) : res (buffer * Z) :=
  do x <- r ; do b <- wr (fst x) (snd x) c ; Ok (b, snd x + 1).
Definition del : ascii := chr 127.
Fixpoint enquote_loop (s : str) (r : res (buffer * Z)) : res (buffer * Z) :=
  match s with
  | [] => r
  | c :: s' =>
    enquote_loop s'
      (if Ascii.eqb c dquote || Ascii.eqb c bslash || Ascii.eqb c del then put (put r bslash) c
       else if Ascii.eqb c lf || Ascii.eqb c cr then put r sp
       else put r c)
  end.
Definition enquote (s : str) (buf : buffer) : res buffer :=
  do x <- put (put (enquote_loop s (put (Ok (buf, 0)) dquote)) dquote) NUL ; Ok (fst x).
(** the size passed to osip_malloc (line 727) *)
Definition enquote_size (s : str) : nat := length s * 2 + 3.

(** osip_dequote: osip_port.c 753-770; size_t arithmetic wraps, so [len] may go below zero here
    only when it is not used any more *)
Fixpoint dequote_loop (fuel : nat) (b : buffer) (p len : Z) : res buffer :=
  match fuel with
  | O => UB
  | S f => do c <- rd b p ;
           if Ascii.eqb c NUL then Ok b
           else if Ascii.eqb c bslash then
             do b1 <- memmove b p (p + 1) len ; dequote_loop f b1 (p + 1) (len - 2)
           else dequote_loop f b (p + 1) (len - 1)
  end.
Definition dequote (b : buffer) : res buffer :=
  do c <- rd b 0 ;
  if Ascii.eqb c NUL then Ok b
  else if negb (Ascii.eqb c dquote) then Ok b
  else
    do len <- strlen b ;
    do b1 <- memmove b 0 1 len ;
    let len := len - 1 in
    do e <- (if len >? 0 then do l <- rd b1 (len - 1) ; Ok (Ascii.eqb l dquote) else Ok false) ;
    if (e : bool) then do b2 <- wr b1 (len - 1) NUL ; dequote_loop (fuel_of b) b2 0 (len - 1)
    else dequote_loop (fuel_of b) b1 0 len.

(** osip_strdup_without_quote: osip_port.c 447-463.  [buf]: strlen (ch) + 1 malloc'ed bytes *)
Definition strdup_without_quote (s : str) (buf : buffer) : res buffer :=
  match s with
  | c :: s' =>
    if Ascii.eqb c dquote then
      do b1 <- wr_range buf 0 (s' ++ [NUL]) ;
      do n <- strlen b1 ;
      (* osip_strncpy (copy + strlen (copy) - 1, "\0", 1): two NUL bytes *)
      wr_range b1 (n - 1) [NUL; NUL]
    else wr_range buf 0 (s ++ [NUL])
  | [] => wr_range buf 0 [NUL]
  end.

(** osip_error_table: osip_port.c 142-204 *)
Definition error_table : list str :=
  [$"success"; $"undefined error"; $"bad parameter"; $"wrong state"; $"allocation failure";
   $"syntax error"; $"not found"; $"api not initialized"; $"undefined"; $"undefined"; $"no network";
   $"busy port"; $"unknown host"]
  ++ repeat ($"undefined") 17 ++ [$"disk full"; $"no rights"; $"file not found"]
  ++ repeat ($"undefined") 17 ++ [$"time out"; $"too much call"; $"wrong format"; $"no common codec"]
  ++ repeat ($"undefined") 7.

(** osip_strerror: osip_port.c 206-214 *)
Definition strerror (err : Z) : res str :=
  let entry i := if i <? 0 then UB else match nth_error error_table (Z.to_nat i) with Some s => Ok s | None => UB end in
  if err >? 0 then entry 0
  else if err >? -60 then entry (- err)
  else entry 59.

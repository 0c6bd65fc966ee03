(** The headers with parameters and the small headers: generic parameters, From/To/Contact/
    Route/Record-Route, Via, CSeq, Call-ID, Content-Length, Content-Type/Accept,
    Accept-Encoding, Call-Info. *)
From Coq Require Import String ZArith NArith Ascii Bool List.
From Verif Require Import Base Str MemModel Types PortModel PortBuf CString UriModel.
Import ListNotations.
Open Scope Z_scope.

Definition is_ch (c d : ascii) : bool := Ascii.eqb c d.

(** __osip_quote_find (s + i), as an offset in s; [quote_find]: osip_port.c 661-719 *)
Definition quote_at (s : str) (i : Z) : res (option Z) :=
  if in_range s i then
    do r <- quote_find (skipn (Z.to_nat i) s ++ [NUL]) ;
    Ok (option_map (fun k => i + k) r)
  else UB.

(** osip_clrncpy (d, s + i, n), n not 0, where the last of the n bytes is the terminator of s: that
    byte is not white space, so only the white space in front is dropped. *)
Definition clrncpy_nul (s : str) (i n m : Z) : res str :=
  if in_range s i && (n + 1 <=? m) && (i + n =? slen s + 1)
  then Ok (ltrim (skipn (Z.to_nat i) s)) else UB.

(** * Generic parameters: __osip_generic_param_parseall, osip_from.c 506-650 *)

(** The '=' and the ';' that end the name and the parameter that starts at [params]:
    osip_from.c 522-540 and 583-601 *)
Definition param_ends (s : str) (params : Z) : res (option Z * option Z) :=
  do equal <- next_separator s (params + 1) "="%char ";"%char ;
  do comma <- strchr_at s (params + 1) ";"%char ;
  match equal with
  | None => Ok (None, comma)
  | Some e =>
    do t <- scan_fwd (S (length s)) s (e + 1) (slen s) (fun c => negb (is_ch c " "%char)) ;
    do c <- ch s t ;
    (* comma > startquote is false when comma is NULL *)
    match is_ch c dquote, comma with
    | true, Some k =>
      if k >? t then
        do endquote <- quote_at s (t + 1) ;
        match endquote with
        | None => Ok (equal, None)
        | Some q => do comma <- strchr_at s q ";"%char ; Ok (equal, comma)
        end
      else Ok (equal, comma)
    | _, _ => Ok (equal, comma)
    end
  end.

(** The value between '=' at [equal] and the end [e]: osip_from.c 548-563 and 614-628 *)
Definition param_value (s : str) (equal e : Z) : res (option str) :=
  do t <- scan_fwd (S (length s)) s (equal + 1) (slen s) (fun c => negb (is_ch c (chr 9) || is_ch c " "%char)) ;
  do c <- ch s t ;
  if is_ch c ","%char || is_ch c NUL then Ok None
  else if e - equal <? 2 then Err OSIP_SYNTAXERROR
  else do v <- copy_at s (equal + 1) (e - equal - 1) (e - equal) ; Ok (Some v).

(** osip_from.c 506-650: [params] is the offset of the ';' *)
Fixpoint gparams_loop (fuel : nat) (s : str) (params : Z) (acc : list param) : res (list param) :=
  match fuel with
  | O => UB
  | S f =>
    do ends <- param_ends s params ;
    let (equal, comma) := (ends : option Z * option Z) in
    let e := match comma with Some c => c | None => slen s end in
    let add (equal : Z) (v : option str) : res (list param) :=
      if equal - params <? 2 then Err OSIP_SYNTAXERROR
      else
        do n <- copy_at s (params + 1) (equal - params - 1) (equal - params) ;
        let acc := acc ++ [param_set n v] in
        match comma with
        | Some c => gparams_loop f s c acc
        | None => Ok acc
        end in
    match equal with
    | Some q => do v <- param_value s q e ; add q v
    | None => match comma with
              | Some _ => add e None
              | None => if e - params <? 2 then Ok acc else add e None
              end
    end
  end.
Definition gparams_parse (s : str) : res (list param) := gparams_loop (S (length s)) s 0 [].

(** ";name" or ";name=value", written with sprintf ([em] = emit) or snprintf ([em] = emit_n) in a
    buffer enlarged for each: osip_from.c 330-350, osip_via.c 316-333, osip_record_route.c
    136-156, osip_accept_encoding.c 124-144, osip_call_info.c 131-151.  [len]: size *)
Fixpoint print_gparams (em : out -> Z -> str -> res out) (ps : list param) (o : out) (len : Z) : res (out * Z) :=
  match ps with
  | [] => Ok (o, len)
  | p :: ps' =>
    match snd p with
    | None =>
      let len := len + (slen (fst p) + 2) in
      do o <- out_grow o len ; do o <- em o len (";"%char :: fst p) ; print_gparams em ps' o len
    | Some v =>
      let len := len + (slen (fst p) + slen v + 3) in
      do o <- out_grow o len ; do o <- em o len (";"%char :: fst p ++ "="%char :: v) ; print_gparams em ps' o len
    end
  end.
Definition em_s (o : out) (len : Z) (t : str) : res out := emit o t.

(** * From, To, Contact, Route, Record-Route *)

(** osip_from.c 177-196: what is stepped over when the URI is searched *)
Definition name_char (c : ascii) : bool :=
  is_ch c " "%char || is_alnum c || existsb (Ascii.eqb c) ($"-.!%*_+`'~").

(** Display name and start of the URI, from the first byte that is not a space, which is at
    [p]: osip_from.c 145-219 *)
Definition from_head (s : str) (p : Z) : res (option str * Z) :=
  do c <- ch s p ;
  if is_ch c dquote then
    do second <- quote_at s (p + 1) ;
    match second with
    | None => Err OSIP_SYNTAXERROR
    | Some second =>
      do d <- (if second - p + 2 >=? 2 then
                 do d <- copy_at s p (second - p + 1) (second - p + 2) ; Ok (Some d)
               else Ok None) ;
      do u <- scan_fwd (S (length s)) s (second + 1) (slen s) (fun c => negb (is_ch c " "%char)) ;
      do c <- ch s u ;
      if negb (is_ch c "<"%char) then Err OSIP_SYNTAXERROR
      else
        do c1 <- ch s (u + 1) ;
        if is_ch c1 NUL then Err OSIP_SYNTAXERROR else Ok (d, u)
    end
  else
    do u <- scan_fwd (S (length s)) s p (slen s) (fun c => negb (name_char c)) ;
    do c <- ch s u ;
    if is_ch c NUL then Err OSIP_SYNTAXERROR
    else if is_ch c "<"%char then
      do c1 <- ch s (u + 1) ;
      if is_ch c1 NUL then Err OSIP_SYNTAXERROR
      else if u - p >? 0 then
        (* the copy starts at hvalue, not at the first byte that is not a space *)
        do d <- clrncpy_at s 0 (u - p) (u - p + 1) ; Ok (Some d, u)
      else Ok (None, u)
    else Ok (None, p).

(** Parameters and URI; [url]: where the URI, or its '<', starts: osip_from.c 221-288 *)
Definition from_tail (s : str) (d : option str) (url : Z) : res nameaddr :=
  do c <- ch s url ;
  do x <- (if is_ch c "<"%char then
             do gt <- strchr_at s (url + 1) ">"%char ;
             match gt with
             | None => Err OSIP_SYNTAXERROR
             | Some gt => do g <- strchr_at s (gt - 1) ";"%char ; Ok (url + 1, gt - 1, g)
             end
           else
             do g <- strchr_at s url ";"%char ;
             match g with
             | Some g => Ok (url, g - 1, Some g)
             | None => Ok (url, slen s, None)
             end) ;
  let '(url, url_end, gen_params) := (x : Z * Z * option Z) in
  do ps <- match gen_params with
           | None => Ok []
           | Some g => do t <- tail_at s g ; gparams_parse t
           end ;
  if url_end - url + 2 <? 7 then Err OSIP_SYNTAXERROR
  else
    do t <- copy_at s url (url_end - url + 1) (url_end - url + 2) ;
    do u <- uri_parse t ;
    Ok (mkNA d (Some u) ps).

(** osip_from_parse: osip_from.c 102-288 (also osip_to_parse, osip_route_parse,
    osip_record_route_parse), into a structure fresh from osip_from_init.  Simplification: on an
    error the fields already filled are not represented. *)
Definition from_parse (s : str) : res nameaddr :=
  do p <- scan_fwd (S (length s)) s 0 (slen s) (fun c => negb (is_ch c " "%char)) ;
  do c <- ch s p ;
  if is_ch c NUL then Ok (mkNA None None [])
  else
    do h <- from_head s p ;
    from_tail s (fst h) (snd h).

(** osip_from_to_str: osip_from.c 295-353; osip_record_route_to_str (osip_record_route.c 96-160)
    has the same text *)
Definition from_to_str (f : nameaddr) : res str :=
  match na_url f with
  | None => Err OSIP_BADPARAMETER
  | Some u =>
    do url <- uri_to_str u ;
    let len := match na_display f with None => slen url + 5 | Some d => slen url + slen d + 5 end in
    do o <- out_new len ;
    do o <- match na_display f with
            | Some d => emit o (d ++ $" <" ++ url ++ $">")
            | None => emit o ($"<" ++ url ++ $">")
            end ;
    do r <- print_gparams emit_n (na_params f) o len ;
    Ok (o_text (fst r))
  end.

(** osip_contact_parse: osip_contact.c 56-69 *)
Definition contact_parse (s : str) : res nameaddr :=
  match s with
  | c :: _ => if is_ch c "*"%char then Ok (mkNA (Some s) None []) else from_parse s
  | [] => from_parse s
  end.
(** osip_contact_to_str: osip_contact.c 99-113 *)
Definition contact_to_str (f : nameaddr) : res str :=
  match na_display f with
  | Some (c :: _) => if is_ch c "*"%char then Ok ($"*") else from_to_str f
  | _ => from_to_str f
  end.

(** osip_from_compare: osip_from.c 433-503 *)
Definition tag_prefix (ps : list param) : option str :=
  match find (fun p => strneq 3 (fst p) ($"tag")) ps with Some p => snd p | None => None end.
Definition both_differ (a b : option str) : bool :=
  match a, b with Some x, Some y => negb (streq x y) | _, _ => false end.
Definition from_compare (f1 f2 : nameaddr) : Z :=
  match na_url f1, na_url f2 with
  | Some u1, Some u2 =>
    match u_host u1, u_host u2 with
    | None, None =>
      match u_string u1, u_string u2 with
      | Some s1, Some s2 => if streq s1 s2 then OSIP_SUCCESS else OSIP_UNDEFINED_ERROR
      | _, _ => OSIP_UNDEFINED_ERROR
      end
    | Some h1, Some h2 =>
      if negb (streq h1 h2) then OSIP_UNDEFINED_ERROR
      else if both_differ (u_username u1) (u_username u2) then OSIP_UNDEFINED_ERROR
      else if both_differ (tag_prefix (na_params f1)) (tag_prefix (na_params f2)) then OSIP_UNDEFINED_ERROR
      else OSIP_SUCCESS
    | _, _ => OSIP_UNDEFINED_ERROR
    end
  | _, _ => OSIP_BADPARAMETER
  end.

(** * Via: osip_via.c *)

(** Extra spaces after the second '/': osip_via.c 161-172.  [host]: the space after it *)
Fixpoint via_spaces (fuel : nat) (s : str) (host : Z) : res Z :=
  match fuel with
  | O => UB
  | S f =>
    do c <- ch s host ;
    if is_ch c " "%char then
      if slen s - (host + 1) =? 1 then Err OSIP_SYNTAXERROR else via_spaces f s (host + 1)
    else Ok host
  end.

(** The comment: osip_via.c 182-201; result: the comment, and the offset where parameters end *)
Definition via_comment (s : str) (host : Z) : res (option str * Z) :=
  do c <- strchr_at s host "("%char ;
  match c with
  | None => Ok (None, slen s)
  | Some c =>
    do e <- strchr_at s host ")"%char ;
    match e with
    | None => Err OSIP_SYNTAXERROR
    | Some e => if e - c <? 2 then Err OSIP_SYNTAXERROR
                else do t <- copy_at s (c + 1) (e - c - 1) (e - c) ; Ok (Some t, c - 1)
    end
  end.
(** The parameters: osip_via.c 203-226; result: them, and the offset where the sent-by ends *)
Definition via_params_part (s : str) (host comment : Z) : res (list param * Z) :=
  do v <- strchr_at s host ";"%char ;
  match v with
  | None => Ok ([], comment)
  | Some v =>
    if v <? comment then
      if comment - v + 1 <? 2 then Err OSIP_SYNTAXERROR
      else do t <- copy_at s v (comment - v) (comment - v + 1) ; do ps <- gparams_parse t ; Ok (ps, v)
    else Ok ([], v)
  end.
(** Host and port between [host] and [e]: osip_via.c 228-269 *)
Definition via_sentby (s : str) (host e : Z) : res (str * option str) :=
  do b <- strchr_at s host "["%char ;
  let v6 := match b with Some b => if b <? e then Some b else None | None => None end in
  do x <- match v6 with
          | Some b =>
            do p <- strchr_at s b "]"%char ;
            match p with
            | None => Err OSIP_SYNTAXERROR
            | Some p => if p >? e then Err OSIP_SYNTAXERROR
                        else if p - b <? 2 then Err OSIP_SYNTAXERROR
                        else do h <- clrncpy_at s (b + 1) (p - b - 1) (p - b) ;
                             do port <- strchr_at s p ":"%char ; Ok (Some h, port)
            end
          | None => do port <- strchr_at s host ":"%char ; Ok (None, port)
          end ;
  let (h6, port) := (x : option str * option Z) in
  do y <- match (match port with Some p => if p <? e then Some p else None | None => None end) with
          | Some p => if e - p <? 2 then Err OSIP_SYNTAXERROR
                      else do t <- clrncpy_at s (p + 1) (e - p - 1) (e - p) ;
                           if osip_atoi t <? 0 then Err OSIP_SYNTAXERROR else Ok (Some t, p)
          | None => Ok (None, e)
          end ;
  let (ptext, p) := (y : option str * Z) in
  match h6 with
  | Some h => Ok (h, ptext)
  | None => if p - host <? 2 then Err OSIP_SYNTAXERROR
            else do h <- clrncpy_at s (host + 1) (p - host - 1) (p - host) ; Ok (h, ptext)
  end.

(** osip_via_parse: osip_via.c 126-272; errors as for [from_parse] *)
Definition via_parse (s : str) : res via :=
  do version <- strchr_at s 0 "/"%char ;
  match version with
  | None => Err OSIP_SYNTAXERROR
  | Some version =>
    do protocol <- strchr_at s (version + 1) "/"%char ;
    match protocol with
    | None => Err OSIP_SYNTAXERROR
    | Some protocol =>
      if protocol - version <? 2 then Err OSIP_SYNTAXERROR
      else
        do ver <- clrncpy_at s (version + 1) (protocol - version - 1) (protocol - version) ;
        do host <- strchr_at s (protocol + 1) " "%char ;
        do host <- match host with
                   | None => Ok None
                   | Some h => if h =? protocol + 1 then
                                 do h <- via_spaces (S (length s)) s h ; strchr_at s (h + 1) " "%char
                               else Ok (Some h)
                   end ;
        match host with
        | None => Err OSIP_SYNTAXERROR
        | Some host =>
          if host - protocol <? 2 then Err OSIP_SYNTAXERROR
          else
            do pr <- clrncpy_at s (protocol + 1) (host - protocol - 1) (host - protocol) ;
            do c <- via_comment s host ;
            do ps <- via_params_part s host (snd c) ;
            do hp <- via_sentby s host (snd ps) ;
            Ok (mkVia (Some ver) (Some pr) (Some (fst hp)) (snd hp) (fst c) (fst ps))
        end
    end
  end.

(** osip_via_to_str with its buffer: osip_via.c 279-344.  [ViaModel.via_to_str] is its text. *)
Definition via_print (v : via) : res str :=
  match v_host v, v_version v, v_protocol v with
  | Some h, Some ver, Some pr =>
    let len := slen ver + 1 + slen pr + 1 + 3 + 2 + slen h + 3 + 1
               + match v_port v with None => 0 | Some p => slen p + 2 end in
    do o <- out_new len ;
    let hd := $"SIP/" ++ ver ++ $"/" ++ pr ++ $" " in
    do o <- match strchr h ":"%char, v_port v with
            | Some _, None => emit o (hd ++ $"[" ++ h ++ $"]")
            | Some _, Some p => emit o (hd ++ $"[" ++ h ++ $"]:" ++ p)
            | None, None => emit o (hd ++ h)
            | None, Some p => emit o (hd ++ h ++ $":" ++ p)
            end ;
    do r <- print_gparams em_s (v_params v) o len ;
    match v_comment v with
    | None => Ok (o_text (fst r))
    | Some c =>
      let len := snd r + (slen c + 4) in
      do o <- out_grow (fst r) len ;
      do o <- emit_n o len ($" (" ++ c ++ $")") ;
      Ok (o_text o)
    end
  | _, _, _ => Err OSIP_BADPARAMETER
  end.

(** * CSeq: osip_cseq.c *)

(** osip_cseq_parse: osip_cseq.c 69-101 *)
Definition cseq_parse (s : str) : res cseq :=
  do m <- strchr_at s 0 " "%char ;
  match m with
  | None => Err OSIP_SYNTAXERROR
  | Some m =>
    if m - 0 + 1 <? 2 then Err OSIP_SYNTAXERROR
    else
      do n <- clrncpy_at s 0 m (m + 1) ;
      if slen s - m + 1 <? 2 then Err OSIP_SYNTAXERROR
      else do t <- clrncpy_nul s (m + 1) (slen s - m) (slen s - m + 1) ; Ok (mkCSeq (Some t) (Some n))
  end.
(** osip_cseq_to_str: osip_cseq.c 139-153 *)
Definition cseq_to_str (c : cseq) : res str :=
  match cs_number c, cs_method c with
  | Some n, Some m =>
    let len := slen m + slen n + 2 in
    do o <- out_new len ; do o <- emit_n o len (n ++ $" " ++ m) ; Ok (o_text o)
  | _, _ => Err OSIP_BADPARAMETER
  end.

(** * Call-ID: osip_call_id.c *)

(** osip_call_id_parse: osip_call_id.c 96-125 *)
Definition call_id_parse (s : str) : res call_id :=
  do a <- strchr_at s 0 "@"%char ;
  do h <- match a with
          | None => Ok (None, slen s)
          | Some h => if slen s - h + 1 <? 2 then Err OSIP_SYNTAXERROR
                      else do t <- clrncpy_at s (h + 1) (slen s - h - 1) (slen s - h) ; Ok (Some t, h)
          end ;
  let (host, e) := (h : option str * Z) in
  if e - 0 + 1 <? 2 then Err OSIP_SYNTAXERROR
  else do n <- clrncpy_at s 0 e (e + 1) ; Ok (mkCid (Some n) host).
(** osip_call_id_to_str: osip_call_id.c 131-150 *)
Definition call_id_to_str (c : call_id) : res str :=
  match ci_number c with
  | None => Err OSIP_BADPARAMETER
  | Some n =>
    match ci_host c with
    | None => do o <- out_new (slen n + 1) ; do o <- emit o n ; Ok (o_text o)
    | Some h => do o <- out_new (slen n + slen h + 2) ; do o <- emit o (n ++ $"@" ++ h) ; Ok (o_text o)
    end
  end.

(** * Content-Length, MIME-Version, Allow, Content-Encoding: a copied text *)

(** osip_content_length_parse: osip_content_length.c 63-79 *)
Definition clen_parse (s : str) : res str :=
  if slen s + 1 <? 2 then Err OSIP_SYNTAXERROR else copy_at s 0 (slen s) (slen s + 1).
(** osip_content_length_to_str: osip_content_length.c 96-105; osip_strdup of NULL is NULL *)
Definition clen_to_str (v : option str) : res str := match v with None => Err OSIP_NOMEM | Some v => Ok v end.

(** * Content-Type and Accept *)

(** osip_content_type_parse: osip_content_type.c 87-136 (osip_accept_parse is the same) *)
Definition ctype_parse (s : str) : res content_type :=
  match s with
  | [] => Ok (mkCT None None [])
  | _ =>
    do st <- strchr_at s 0 "/"%char ;
    do p <- strchr_at s 0 ";"%char ;
    match st with
    | None => Err OSIP_SYNTAXERROR
    | Some st =>
      do ps <- match p with None => Ok [] | Some p => do t <- tail_at s p ; gparams_parse t end ;
      let p := match p with None => slen s | Some p => p end in
      if st - 0 + 1 <? 2 then Err OSIP_SYNTAXERROR
      else
        do t <- clrncpy_at s 0 st (st + 1) ;
        if p - st <? 2 then Err OSIP_SYNTAXERROR
        else do u <- clrncpy_at s (st + 1) (p - st - 1) (p - st) ; Ok (mkCT (Some t) (Some u) ps)
    end
  end.

(** "; name=value" in a buffer enlarged when needed: osip_content_type.c 165-185,
    osip_accept.c 107-128 *)
Fixpoint print_ctparams (ps : list param) (o : out) (len : Z) : res out :=
  match ps with
  | [] => Ok o
  | p :: ps' =>
    match snd p with
    | None => Err OSIP_SYNTAXERROR
    | Some v =>
      let tmp_len := slen (o_text o) + 4 + slen (fst p) + slen v + 1 in
      do ol <- (if len <? tmp_len then do o <- out_grow o tmp_len ; Ok (o, tmp_len) else Ok (o, len)) ;
      let (o, len) := (ol : out * Z) in
      do o <- emit_n o len ($"; " ++ fst p ++ $"=" ++ v) ;
      print_ctparams ps' o len
    end
  end.
(** osip_content_type_to_str: osip_content_type.c 143-189 *)
Definition ctype_to_str (c : content_type) : res str :=
  match ct_type c, ct_subtype c with
  | Some t, Some u =>
    let len := slen t + slen u + 4 + 10 * slen (ct_params c) in
    do o <- out_new len ; do o <- emit o (t ++ $"/" ++ u) ;
    do o <- print_ctparams (ct_params c) o len ; Ok (o_text o)
  | _, _ => Err OSIP_BADPARAMETER
  end.
(** osip_accept_to_str: osip_accept.c 69-132 *)
Definition accept_to_str (c : content_type) : res str :=
  let n := opt_len (ct_type c) (fun x => x) + opt_len (ct_subtype c) (fun x => x) in
  if n =? 0 then do o <- out_new 2 ; do o <- emit o ($" ") ; Ok (o_text o)
  else
    match ct_type c, ct_subtype c with
    | Some t, Some u =>
      let len := n + 4 + 10 * slen (ct_params c) in
      do o <- out_new len ; do o <- emit o (t ++ $"/" ++ u) ;
      do o <- print_ctparams (ct_params c) o len ; Ok (o_text o)
    | _, _ => UB (* sprintf ("%s", NULL) *)
    end.

(** * Accept-Encoding, Accept-Language; Call-Info, Alert-Info, Error-Info, Content-Disposition *)

(** osip_accept_encoding_parse: osip_accept_encoding.c 80-104 *)
Definition aenc_parse (s : str) : res elem :=
  do p <- strchr_at s 0 ";"%char ;
  do ps <- match p with None => Ok [] | Some p => do t <- tail_at s p ; gparams_parse t end ;
  let p := match p with None => slen s | Some p => p end in
  if p - 0 + 1 <? 2 then Err OSIP_SYNTAXERROR
  else do e <- clrncpy_at s 0 p (p + 1) ; Ok (mkElem (Some e) ps).
(** osip_call_info_parse: osip_call_info.c 77-107 *)
Definition cinfo_parse (s : str) : res elem :=
  do a <- strchr_at s 0 "<"%char ;
  match a with
  | None => Err OSIP_SYNTAXERROR
  | Some a =>
    do b <- strchr_at s (a + 1) ">"%char ;
    match b with
    | None => Err OSIP_SYNTAXERROR
    | Some b =>
      do p <- strchr_at s (b + 1) ";"%char ;
      do ps <- match p with None => Ok [] | Some p => do t <- tail_at s p ; gparams_parse t end ;
      let p := match p with None => slen s | Some p => p end in
      if p - 0 + 1 <? 2 then Err OSIP_SYNTAXERROR
      else do e <- clrncpy_at s 0 p (p + 1) ; Ok (mkElem (Some e) ps)
    end
  end.
(** osip_accept_encoding_to_str (osip_accept_encoding.c 109-148) with [em] = emit_n,
    osip_call_info_to_str (osip_call_info.c 113-154) with [em] = em_s *)
Definition elem_to_str (em : out -> Z -> str -> res out) (e : elem) : res str :=
  match el_element e with
  | None => Err OSIP_BADPARAMETER
  | Some t =>
    let len := slen t + 2 in
    do o <- out_new len ; do o <- emit o t ;
    do r <- print_gparams em (el_params e) o len ;
    Ok (o_text (fst r))
  end.

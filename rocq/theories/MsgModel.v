(** The message parser: header names (osip_parser_cfg.c), header setters, unknown headers
    (osip_header.c), start line, line folding, header fields and bodies (osip_message_parse.c,
    osip_body.c). *)
From Coq Require Import String ZArith NArith Ascii Bool List.
From Verif Require Import Base Str Types MemModel CString PortModel UriModel HdrModel AuthModel MsgFields.
Import ListNotations.
Open Scope Z_scope.

(** *** Header names *)
(** osip_hash: osip_port.c 1407-1416.  [unsigned int] arithmetic, the characters being signed *)
Definition signed_code (c : ascii) : Z :=
  let n := Z.of_N (code c) in if n <? 128 then n else n - 256.
Definition osip_hash (s : str) : Z :=
  fold_left (fun h c => (h * 33 + signed_code c) mod 4294967296) s 5381.
(** HASH_TABLE_SIZE: osip_parser_cfg.c 34-40 *)
Definition HASH_TABLE_SIZE : Z := 150.

(** A header setter: osip_message_set_xxx (sip, hvalue), hvalue possibly NULL *)
Definition setter := message -> option str -> res message.
(** "if (hvalue == NULL || hvalue[0] == 0) return OSIP_SUCCESS;" at the start of the setters *)
Definition if_value (m : message) (hv : option str) (f : str -> res message) : res message :=
  match hv with None => Ok m | Some [] => Ok m | Some v => f v end.

(** osip_message_set_accept: osip_accept.c 29-53; osip_content_type_parse answers OSIP_SUCCESS
    for a missing or empty value (osip_content_type.c 92-98) and leaves the element empty *)
Definition set_accept : setter := fun m hv =>
  match hv with
  | None | Some [] => Ok (with_accepts (m_accepts m ++ [mkCT None None []]) m)
  | Some v => do a <- ctype_parse v ; Ok (with_accepts (m_accepts m ++ [a]) m)
  end.
(** osip_accept_encoding.c 29-52, osip_accept_language.c 29-52 *)
Definition set_accept_encoding : setter := fun m hv => if_value m hv (fun v =>
  do a <- aenc_parse v ; Ok (with_accept_encodings (m_accept_encodings m ++ [a]) m)).
Definition set_accept_language : setter := fun m hv => if_value m hv (fun v =>
  do a <- aenc_parse v ; Ok (with_accept_languages (m_accept_languages m ++ [a]) m)).
(** osip_alert_info.c 29-52, osip_call_info.c 29-52, osip_error_info.c 29-52 *)
Definition set_alert_info : setter := fun m hv => if_value m hv (fun v =>
  do a <- cinfo_parse v ; Ok (with_alert_infos (m_alert_infos m ++ [a]) m)).
Definition set_call_info : setter := fun m hv => if_value m hv (fun v =>
  do a <- cinfo_parse v ; Ok (with_call_infos (m_call_infos m ++ [a]) m)).
Definition set_error_info : setter := fun m hv => if_value m hv (fun v =>
  do a <- cinfo_parse v ; Ok (with_error_infos (m_error_infos m ++ [a]) m)).
(** osip_allow.c 29-52, osip_content_encoding.c 31-55 *)
Definition set_allow : setter := fun m hv => if_value m hv (fun v =>
  do a <- clen_parse v ; Ok (with_allows (m_allows m ++ [Some a]) m)).
Definition set_content_encoding : setter := fun m hv => if_value m hv (fun v =>
  do a <- clen_parse v ; Ok (with_content_encodings (m_content_encodings m ++ [Some a]) m)).
(** osip_authentication_info.c, osip_authorization.c, osip_www_authenticate.c and the proxy
    variants: the osip_message_set_xxx function of each *)
Definition set_authentication_info : setter := fun m hv => if_value m hv (fun v =>
  do a <- ainfo_parse v ; Ok (with_auth_infos (m_auth_infos m ++ [a]) m)).
Definition set_proxy_authentication_info : setter := fun m hv => if_value m hv (fun v =>
  do a <- ainfo_parse v ; Ok (with_proxy_auth_infos (m_proxy_auth_infos m ++ [a]) m)).
Definition set_authorization : setter := fun m hv => if_value m hv (fun v =>
  do a <- authz_parse v ; Ok (with_authorizations (m_authorizations m ++ [a]) m)).
Definition set_proxy_authorization : setter := fun m hv => if_value m hv (fun v =>
  do a <- authz_parse v ; Ok (with_proxy_authorizations (m_proxy_authorizations m ++ [a]) m)).
Definition set_www_authenticate : setter := fun m hv => if_value m hv (fun v =>
  do a <- www_parse v ; Ok (with_www_authenticates (m_www_authenticates m ++ [a]) m)).
Definition set_proxy_authenticate : setter := fun m hv => if_value m hv (fun v =>
  do a <- www_parse v ; Ok (with_proxy_authenticates (m_proxy_authenticates m ++ [a]) m)).
(** osip_contact.c 31-50, osip_via.c 32-51, osip_route.c 39-58, osip_record_route.c 39-58 *)
Definition set_contact : setter := fun m hv => if_value m hv (fun v =>
  do a <- contact_parse v ; Ok (with_contacts (m_contacts m ++ [a]) m)).
Definition set_via : setter := fun m hv => if_value m hv (fun v =>
  do a <- via_parse v ; Ok (with_vias (m_vias m ++ [a]) m)).
Definition set_route : setter := fun m hv => if_value m hv (fun v =>
  do a <- from_parse v ; Ok (with_routes (m_routes m ++ [a]) m)).
Definition set_record_route : setter := fun m hv => if_value m hv (fun v =>
  do a <- from_parse v ; Ok (with_record_routes (m_record_routes m ++ [a]) m)).

(** "if (sip->x != NULL) return code;" *)
Definition if_unset {A} (x : option A) (code : Z) (r : res message) : res message :=
  match x with Some _ => Err code | None => r end.
(** osip_call_id.c 31-51 *)
Definition set_call_id : setter := fun m hv => if_value m hv (fun v =>
  if_unset (m_call_id m) OSIP_SYNTAXERROR (do a <- call_id_parse v ; Ok (with_call_id (Some a) m))).
(** osip_content_length.c 41-62 *)
Definition set_content_length : setter := fun m hv => if_value m hv (fun v =>
  if_unset (m_content_length m) OSIP_SYNTAXERROR (do a <- clen_parse v ; Ok (with_content_length (Some (Some a)) m))).
(** osip_mime_version.c 35-58 *)
Definition set_mime_version : setter := fun m hv => if_value m hv (fun v =>
  if_unset (m_mime_version m) OSIP_SYNTAXERROR (do a <- clen_parse v ; Ok (with_mime_version (Some (Some a)) m))).
(** osip_content_type.c 48-69 *)
Definition set_content_type : setter := fun m hv =>
  if_unset (m_content_type m) OSIP_BADPARAMETER (if_value m hv (fun v =>
    do a <- ctype_parse v ; Ok (with_content_type (Some a) m))).
(** osip_cseq.c 42-62 *)
Definition set_cseq : setter := fun m hv => if_value m hv (fun v =>
  if_unset (m_cseq m) OSIP_BADPARAMETER (do a <- cseq_parse v ; Ok (with_cseq (Some a) m))).
(** osip_from.c 32-52, osip_to.c 38-58 *)
Definition set_from : setter := fun m hv => if_value m hv (fun v =>
  if_unset (m_from m) OSIP_SYNTAXERROR (do a <- from_parse v ; Ok (with_from (Some a) m))).
Definition set_to : setter := fun m hv => if_value m hv (fun v =>
  if_unset (m_to m) OSIP_SYNTAXERROR (do a <- from_parse v ; Ok (with_to (Some a) m))).

(** pconfig: osip_parser_cfg.c 63-171 (name, ignored_when_invalid, setheader); MINISIZE is not
    defined.  The name literals are those of parser.h 51-113. *)
Definition pconfig : list (str * bool * setter) :=
  [ ($"accept", true, set_accept); ($"accept-encoding", true, set_accept_encoding);
    ($"accept-language", true, set_accept_language); ($"alert-info", true, set_alert_info);
    ($"allow", true, set_allow); ($"authentication-info", true, set_authentication_info);
    ($"authorization", true, set_authorization); ($"c", false, set_content_type);
    ($"call-id", false, set_call_id); ($"call-info", true, set_call_info);
    ($"contact", false, set_contact); ($"content-encoding", true, set_content_encoding);
    ($"content-length", false, set_content_length); ($"content-type", false, set_content_type);
    ($"cseq", false, set_cseq); ($"e", true, set_content_encoding);
    ($"error-info", true, set_error_info); ($"f", false, set_from); ($"from", false, set_from);
    ($"i", false, set_call_id); ($"l", false, set_content_length); ($"m", false, set_contact);
    ($"mime-version", true, set_mime_version); ($"proxy-authenticate", true, set_proxy_authenticate);
    ($"proxy-authentication-info", true, set_proxy_authentication_info);
    ($"proxy-authorization", true, set_proxy_authorization); ($"record-route", true, set_record_route);
    ($"route", true, set_route); ($"t", false, set_to); ($"to", false, set_to);
    ($"v", false, set_via); ($"via", false, set_via); ($"www-authenticate", true, set_www_authenticate) ].
Definition pnames : list str := map (fun e => fst (fst e)) pconfig.

(** The loop of parser_init filling hdr_ref_table: osip_parser_cfg.c 176-198.  The table maps a
    hash value to an index of pconfig. *)
Definition ref_table := Z -> option nat.
Fixpoint fill_table (names : list str) (i : nat) (t : ref_table) : res ref_table :=
  match names with
  | [] => Ok t
  | n :: names' =>
    let h := osip_hash n mod HASH_TABLE_SIZE in
    match t h with
    | Some _ => Err OSIP_UNDEFINED_ERROR
    | None => fill_table names' (S i) (fun k => if k =? h then Some i else t k)
    end
  end.
(** parser_init: osip_parser_cfg.c 58-201 *)
Definition parser_init : res ref_table := fill_table pnames 0 (fun _ => None).

(** __osip_message_is_known_header: osip_parser_cfg.c 205-222 *)
Definition is_known_header (t : ref_table) (hname : str) : option nat :=
  match t (osip_hash hname mod HASH_TABLE_SIZE) with
  | None => None
  | Some i => if streq (nth i pnames []) hname then Some i else None
  end.
(** The table after parser_init succeeded; parsing without a successful parser_init is not modelled. *)
Definition hdr_ref_table : ref_table := match parser_init with Ok t => t | _ => fun _ => None end.

(** __osip_message_call_method: osip_parser_cfg.c 227-239.  A failing setter leaves the message
    unchanged. *)
Definition call_method (i : nat) (m : message) (hv : option str) : res message :=
  match nth_error pconfig i with
  | None => UB
  | Some (_, ignored, f) =>
    match f m hv with
    | Ok m' => Ok m'
    | Err c => if ignored : bool then Ok m else Err c
    | UB => UB
    end
  end.

(** *** Unknown headers: osip_header.c *)
(** osip_message_set_header: osip_header.c 33-66 (osip_clrspace on name and value) *)
Definition mk_header (name : str) (hv : option str) : header := mkHeader (Some (trim name)) (option_map trim hv).
Definition set_header (m : message) (name : str) (hv : option str) : message :=
  with_headers (m_headers m ++ [mk_header name hv]) m.
(** osip_message_set_topheader: osip_header.c 122-155 *)
Definition set_topheader (m : message) (name : str) (hv : option str) : message :=
  with_headers (mk_header name hv :: m_headers m) m.
(** osip_message_get_header: osip_header.c 158-170 *)
Definition get_header (m : message) (pos : Z) : option header :=
  if pos <? 0 then None else nth_error (m_headers m) (Z.to_nat pos).
(** osip_message_header_get_byname: osip_header.c 181-199: the position and the header, or -1.
    strcasecmp on the NULL name of a header that osip_header_init made, or with a NULL hname, is
    not reached through the setters; a header without a name is [UB]. *)
Fixpoint byname_from (l : list header) (name : str) (pos : Z) : res (option (Z * header)) :=
  match l with
  | [] => Ok None
  | h :: l' => match h_name h with
               | None => UB
               | Some n => if strcaseeq n name then Ok (Some (pos, h)) else byname_from l' name (pos + 1)
               end
  end.
Definition get_byname (m : message) (name : str) (pos : Z) : res (option (Z * header)) :=
  if slen (m_headers m) <=? pos then Ok None
  else if pos <? 0 then UB      (* osip_list_get answers NULL, which is dereferenced *)
  else byname_from (skipn (Z.to_nat pos) (m_headers m)) name pos.
(** osip_message_replace_header: osip_header.c 74-115 *)
Definition replace_header (m : message) (name : str) (hv : option str) : res message :=
  do old <- get_byname m name 0 ;
  let l := match old with
           | None => m_headers m
           | Some (i, _) => firstn (Z.to_nat i) (m_headers m) ++ skipn (S (Z.to_nat i)) (m_headers m)
           end in
  Ok (with_headers (l ++ [mk_header name hv]) m).

(** *** Header fields *)
(** osip_message_set__header: osip_message_parse.c 398-423 *)
Definition set_known_header (m : message) (name : str) (hv : option str) : res message :=
  match is_known_header hdr_ref_table name with
  | Some i => call_method i m hv
  | None => Ok (set_header m name hv)
  end.

(** The header fields whose value is never split: osip_message_parse.c 448-478 *)
Definition unsplit_names : list str :=
  [ $"date"; $"t"; $"to"; $"f"; $"from"; $"i"; $"call-id"; $"cseq"; $"s"; $"subject"; $"expires";
    $"server"; $"user-agent"; $"www-authenticate"; $"authentication-info"; $"proxy-authenticate";
    $"proxy-authorization"; $"proxy-authentication-info"; $"organization"; $"authorization";
    $"r"; $"refer-to"; $"b"; $"referred-by" ].

(** The schemes that open a URI between angle brackets: osip_message_parse.c 515-519 *)
Definition uri_schemes : list str := [ $"<sip:"; $"<sips:"; $"<http:"; $"<https:"; $"<tel:" ].
Definition starts_uri (s : str) : bool := existsb (fun p => strncaseeq (length p) s p) uri_schemes.

(** The pieces of a comma separated value: the loop of osip_message_set_multiple_header,
    osip_message_parse.c 487-566.  [beg] is the piece being collected, reversed.  The search for
    backslashes before a double quote (494) starts at the quote itself, so it finds none and
    every double quote toggles. *)
Fixpoint split_loop (s : str) (inquotes inuri : bool) (beg : str) : list str :=
  match s with
  | [] => [rev beg]
  | c :: s' =>
    if is_ch c dquote then split_loop s' (negb inquotes) inuri (c :: beg)
    else if is_ch c "<" then
      split_loop s' inquotes
        (inuri || (negb inquotes && starts_uri s && existsb (Ascii.eqb ">") s)) (c :: beg)
    else if is_ch c ">" then split_loop s' inquotes (inquotes && inuri) (c :: beg)
    else if is_ch c "," then
      if inquotes || inuri then split_loop s' inquotes inuri (c :: beg)
      else rev beg :: split_loop s' false false []
    else split_loop s' inquotes inuri (c :: beg)
  end.

(** osip_clrncpy of a non-empty piece, then osip_message_set__header: 541-559 *)
Fixpoint set_pieces (m : message) (name : str) (l : list str) : res message :=
  match l with
  | [] => Ok m
  | [] :: l' => set_pieces m name l'
  | p :: l' => do m' <- set_known_header m name (Some (trim p)) ; set_pieces m' name l'
  end.
(** osip_message_set_multiple_header: osip_message_parse.c 425-570 *)
Definition set_multiple_header (m : message) (hname : str) (hv : option str) : res message :=
  let name := map tolower hname in
  match hv with
  | None => set_known_header m name None
  | Some v =>
    if negb (existsb (Ascii.eqb ",") v) || existsb (streq name) unsplit_names
    then set_known_header m name (Some v)
    else set_pieces m name (split_loop v false false [])
  end.

(** __osip_find_next_crlf: osip_message_parse.c 324-360.  [Folded]: the code -2, a continuation
    line follows and no end is stored *)
Inductive crlf := Found (e : Z) | Folded | Missing.
Definition is_eol (c : ascii) : bool := is_ch c cr || is_ch c lf.
Definition next_crlf (s : str) (p : Z) : res crlf :=
  do p <- scan_fwd (S (length s)) s p (slen s) is_eol ;
  if p =? slen s then Ok Missing else
  do c <- ch s p ;
  do d <- ch s (p + 1) ;
  let p := if is_ch c cr && is_ch d lf then p + 1 else p in
  do d <- ch s (p + 1) ;
  if is_ch d sp || is_ch d tab then Ok Folded else Ok (Found (p + 1)).

(** msg_headers_parse: osip_message_parse.c 573-664.  [body] is the position *body points to
    before the call, answered when the end of the text is met.  *)
Fixpoint headers_loop (fuel : nat) (s : str) (p body : Z) (m : message) : res (message * Z) :=
  match fuel with
  | O => UB
  | S f =>
    do c <- ch s p ;
    if is_ch c NUL then Ok (m, body) else
    do e <- next_crlf s p ;
    match e with
    | Missing => Err OSIP_SYNTAXERROR
    | _ =>
      if is_eol c then Ok (m, p) else
      do colon <- strchr_at s p ":" ;
      match colon with
      | None => Err OSIP_SYNTAXERROR
      | Some colon =>
        if colon - p + 1 <? 2 then Err OSIP_SYNTAXERROR else
        match e with
        | Found e =>
          if e <=? colon then Err OSIP_SYNTAXERROR else
          do hname <- clrncpy_at s p (colon - p) (colon - p + 1) ;
          do d <- ch s (e - 2) ;
          let e1 := if is_eol d then e - 2 else e - 1 in
          do hvalue <- (if e1 - colon <? 2 then Ok None
                        else do v <- clrncpy_at s (colon + 1) (e1 - colon - 1) (e1 - colon + 1) ; Ok (Some v)) ;
          match set_multiple_header m hname hvalue with
          | Ok m' => headers_loop f s e body m'
          | Err _ => Err OSIP_SYNTAXERROR
          | UB => UB
          end
        | _ => Err OSIP_SYNTAXERROR     (* end_of_header is NULL, hence <= colon_index *)
        end
      end
    end
  end.
Definition headers_parse (s : str) (p : Z) (m : message) : res (message * Z) :=
  headers_loop (S (length s)) s p p m.

(** *** Start line *)
(** the end of the start line at p (CR or LF): osip_message_parse.c 166-175, 226-238 *)
Definition after_eol (s : str) (p : Z) : res Z :=
  do c <- ch s p ;
  do d <- ch s (p + 1) ;
  Ok (if is_ch c cr && is_ch d lf then p + 2 else p + 1).
(** none of s[p], ..., s[p+n-1] is the terminator; the tests stop at the first that is *)
Fixpoint no_nul (s : str) (p : Z) (n : nat) : res bool :=
  match n with
  | O => Ok true
  | S n' => do c <- ch s p ; if is_ch c NUL then Ok false else no_nul s (p + 1) n'
  end.
(** __osip_message_startline_parsereq: osip_message_parse.c 31-177.  Answers the message and the
    position of the headers. *)
Definition parsereq (s : str) (m : message) : res (message * Z) :=
  do p2 <- strchr_at s 0 " " ;
  match p2 with
  | None => Err OSIP_SYNTAXERROR
  | Some p2 =>
    do ok <- no_nul s (p2 + 1) 2 ;
    if negb ok then Err OSIP_SYNTAXERROR else
    if p2 =? 0 then Err OSIP_SYNTAXERROR else
    do meth <- copy_at s 0 p2 (p2 + 1) ;
    do p1 <- strchr_at s (p2 + 2) " " ;
    match p1 with
    | None => Err OSIP_SYNTAXERROR
    | Some p1 =>
      if p1 - p2 <? 2 then Err OSIP_SYNTAXERROR else
      do utext <- clrncpy_at s (p2 + 1) (p1 - p2 - 1) (p1 - p2) ;
      match uri_parse utext with
      | UB => UB
      | Err _ => Err OSIP_SYNTAXERROR
      | Ok u =>
        do ok <- no_nul s (p1 + 1) 7 ;
        if negb ok then Err OSIP_SYNTAXERROR else
        do v <- tail_at s (p1 + 1) ;
        if negb (strncaseeq 4 v ($"SIP/")) then Err OSIP_SYNTAXERROR else
        do hp <- scan_fwd (S (length s)) s (p1 + 5) (slen s) (fun c => negb (is_digit c || is_ch c ".")) ;
        do c <- ch s hp ;
        if negb (is_eol c) then Err OSIP_SYNTAXERROR else
        do vers <- copy_at s (p1 + 1) (hp - p1 - 1) (hp - p1) ;
        do h <- after_eol s hp ;
        Ok (with_reason None (with_status 0 (with_version (Some vers)
              (with_uri (Some u) (with_method (Some meth) m)))), h)
      end
    end
  end.
(** __osip_message_startline_parseresp: osip_message_parse.c 179-240.  sscanf ("%d") is strtol
    converted to int (glibc on LP64); no number there or the number 0 is refused.  *)
Definition parseresp (s : str) (m : message) : res (message * Z) :=
  do sc <- strchr_at s 0 " " ;
  match sc with
  | None => Err OSIP_SYNTAXERROR
  | Some sc =>
    do vers <- copy_at s 0 sc (sc + 1) ;
    do rp <- strchr_at s (sc + 1) " " ;
    match rp with
    | None => Err OSIP_SYNTAXERROR
    | Some rp =>
      do t <- tail_at s (sc + 1) ;
      let status := int32 (strtol t) in
      if status =? 0 then Err OSIP_SYNTAXERROR else
      do hp <- scan_fwd (S (length s)) s rp (slen s) is_eol ;
      if hp =? slen s then Err OSIP_SYNTAXERROR else
      do reason <- copy_at s (rp + 1) (hp - rp - 1) (hp - rp) ;
      do h <- after_eol s hp ;
      Ok (with_reason (Some reason) (with_status status (with_version (Some vers) m)), h)
    end
  end.
(** __osip_message_startline_parse: osip_message_parse.c 243-266 *)
Definition startline_parse (s : str) (m : message) : res (message * Z) :=
  if strneq 4 s ($"SIP/") then parseresp s m else parsereq s m.

(** *** Line folding: __osip_message_replace_all_lws, osip_message_parse.c 283-322 *)
(** "for (; ('\t' == tmp[0] || ' ' == tmp[0]); tmp++) tmp[0] = ' ';" *)
Fixpoint blank_out (fuel : nat) (b : buffer) (p : Z) : res (buffer * Z) :=
  match fuel with
  | O => UB
  | S f => do c <- rd b p ;
           if is_ch c tab || is_ch c sp then do b' <- wr b p sp ; blank_out f b' (p + 1) else Ok (b, p)
  end.
Definition is_wsp (c : ascii) : bool := is_ch c sp || is_ch c tab.
Fixpoint lws_loop (fuel : nat) (b : buffer) (p : Z) : res buffer :=
  match fuel with
  | O => UB
  | S f =>
    do c0 <- rd b p ;
    if is_ch c0 NUL then Ok b else
    do c1 <- rd b (p + 1) ;
    if is_ch c1 NUL then Ok b else
    do c2 <- rd b (p + 2) ;
    if is_ch c2 NUL then Ok b else
    do c3 <- rd b (p + 3) ;
    if is_ch c3 NUL then Ok b else
    if is_ch c0 cr && is_ch c1 lf && is_ch c2 cr && is_ch c3 lf
       || is_ch c0 cr && is_ch c1 cr || is_ch c0 lf && is_ch c1 lf then Ok b else
    if is_ch c0 cr && is_ch c1 lf && is_wsp c2 || is_ch c0 cr && is_wsp c1 || is_ch c0 lf && is_wsp c1 then
      do b1 <- wr b p sp ;
      do b2 <- wr b1 (p + 1) sp ;
      do r <- blank_out (S (length b)) b2 (p + 2) ;
      let (b3, q) := r in
      lws_loop f b3 (q + 1)
    else lws_loop f b (p + 1)
  end.
Definition replace_all_lws (b : buffer) (p : Z) : res buffer := lws_loop (S (length b)) b p.

(** *** Bodies *)
(** the C string at b + p *)
Definition cstr_from (b : buffer) (p : Z) : res str :=
  if (p <? 0) || (slen b <=? p) then UB else c_string (skipn (Z.to_nat p) b).
(** strstr (t, pat) *)
Fixpoint strstr (t pat : str) : option Z :=
  if strneq (length pat) t pat then Some 0
  else match t with
       | [] => None
       | _ :: t' => match strstr t' pat with Some k => Some (k + 1) | None => None end
       end.
(** __osip_find_next_occurence: osip_message_parse.c 252-278; [Ok None]: OSIP_SYNTAXERROR *)
Fixpoint find_occ (tries : nat) (pat : str) (b : buffer) (p e : Z) : res (option Z) :=
  match tries with
  | O => Ok None
  | S k =>
    do t <- cstr_from b p ;
    match strstr t pat with
    | Some i => Ok (Some (p + i))
    | None => let q := p + slen t in
              if e - q >? 0 then find_occ k pat b (q + 1) e else Ok None
    end
  end.
Definition find_next_occurence (pat : str) (b : buffer) (p e : Z) : res (option Z) :=
  find_occ 1000 pat b p e.

(** osip_body_parse_header: osip_body.c 190-271, on the C string at the start of the part.  After
    a folded line end_of_line stays NULL; "(end_of_line - 2) - colon_index" is then taken to be
    negative, as on a flat address space. *)
Fixpoint body_headers (fuel : nat) (t : str) (p : Z) (bd : body) : res (body * Z) :=
  match fuel with
  | O => UB
  | S f =>
    do e <- next_crlf t p ;
    match e with
    | Missing => Err OSIP_SYNTAXERROR
    | _ =>
      do colon <- strchr_at t p ":" ;
      match colon with
      | None => Err OSIP_SYNTAXERROR
      | Some colon =>
        if colon - p + 1 <? 2 then Err OSIP_SYNTAXERROR else
        do hname <- clrncpy_at t p (colon - p) (colon - p + 1) ;
        match e with
        | Found e =>
          if e - 2 - colon <? 2 then Err OSIP_SYNTAXERROR else
          do hvalue <- clrncpy_at t (colon + 1) (e - 2 - colon - 1) (e - 2 - colon) ;
          do bd' <- (if strncaseeq 12 hname ($"content-type")
                     then do c <- ctype_parse hvalue ; Ok (mkBody (b_body bd) (b_headers bd) (Some c))
                     else Ok (mkBody (b_body bd) (b_headers bd ++ [mkHeader (Some hname) (Some hvalue)]) (b_ctype bd))) ;
          do c <- ch t e ;
          if is_eol c then Ok (bd', e) else body_headers f t e bd'
        | _ => Err OSIP_SYNTAXERROR
        end
      end
    end
  end.
(** osip_message_set_body_mime with osip_body_parse_mime: osip_body.c 197-220, 300-341.  [part]
    is the copied part, a NUL follows it *)
Definition body_parse_mime (part : list ascii) : res body :=
  let t := until_nul part in
  do r <- body_headers (S (length t)) t 0 (mkBody [] [] None) ;
  let (bd, p) := r in
  do q <- after_eol t p ;
  if slen part - q <=? 0 then Err OSIP_SYNTAXERROR
  else do l <- rd_range part q (slen part - q) ; Ok (mkBody l (b_headers bd) (b_ctype bd)).
Definition set_body_mime (m : message) (part : list ascii) : res message :=
  do bd <- body_parse_mime part ; Ok (with_bodies (m_bodies m ++ [bd]) m).
(** osip_message_set_body with osip_body_parse: osip_body.c 56-73, 275-294 *)
Definition set_body (m : message) (l : list ascii) : message :=
  with_bodies (m_bodies m ++ [mkBody l [] None]) m.

(** sprintf ("%i"): decimal digits *)
Fixpoint dec_digits (fuel : nat) (n : N) (acc : str) : str :=
  match fuel with
  | O => acc
  | S f => let acc := chr (48 + n mod 10) :: acc in
           if (n <? 10)%N then acc else dec_digits f (n / 10)%N acc
  end.
Definition sprintf_i (z : Z) : str :=
  let n := Z.to_N (Z.abs z) in
  let d := dec_digits (S (N.size_nat n)) n [] in
  if z <? 0 then "-"%char :: d else d.

(** the loop over the parts of a multipart body: osip_message_parse.c 767-818; [e] is the end of
    the buffer.  A negative body_len is a huge size_t: the memcpy is then out of range, [UB]. *)
Fixpoint parts_loop (fuel : nat) (sep : str) (b : buffer) (p e : Z) (m : message) : res message :=
  match fuel with
  | O => UB
  | S f =>
    do s0 <- find_next_occurence sep b p e ;
    match s0 with
    | None => Err OSIP_SYNTAXERROR
    | Some s0 =>
      do e0 <- find_next_occurence sep b (s0 + slen sep) e ;
      match e0 with
      | None => Err OSIP_SYNTAXERROR
      | Some e0 =>
        let st := s0 + slen sep + 1 in
        do c <- rd b st ;
        let st := if is_eol c then st + 1 else st in
        do d <- rd b (e0 - 1) ;
        let len := if is_ch d cr then e0 - st - 1 else e0 - st in
        do part <- rd_range b st len ;
        do m' <- set_body_mime m part ;
        do t <- cstr_from b (e0 + slen sep) ;
        if strneq 2 t ($"--") then Ok m' else parts_loop f sep b e0 e m'
      end
    end
  end.

(** msg_osip_body_parse: osip_message_parse.c 666-820; [b] the buffer with its terminator, [p]
    the position of start_of_buf, [length] the number of bytes from there to the terminator *)
Definition body_parse (m : message) (b : buffer) (p length : Z) : res message :=
  match m_content_type m with
  | Some (mkCT (Some ty) (Some _) params) =>
    if negb (strcaseeq ty ($"multipart")) then
      do c <- rd b p ;
      if is_ch c NUL then Err OSIP_SYNTAXERROR else
      do st <- (if is_ch c cr then do d <- rd b (p + 1) ; Ok (if is_ch d lf then p + 2 else p + 1)
                else if is_ch c lf then Ok (p + 1) else Err OSIP_SYNTAXERROR) ;
      let length := length - (st - p) in
      if length =? 0 then Err OSIP_SYNTAXERROR else
      do r <- match m_content_length m with
              | Some (Some v) => Ok (m, (osip_atoi v) mod 18446744073709551616)
              | Some None => UB         (* osip_atoi (NULL) *)
              | None => do m' <- set_content_length m (Some (sprintf_i (int32 length))) ; Ok (m', length)
              end ;
      let (m', len) := r : message * Z in
      if length <? len then Err OSIP_SYNTAXERROR
      else do l <- rd_range b st len ; Ok (set_body m' l)
    else
      match param_get params ($"boundary") with
      | None => Err OSIP_UNDEFINED_ERROR
      | Some (_, None) => Err OSIP_SYNTAXERROR
      | Some (_, Some g) =>
        let quoted := is_ch (nth 0 g NUL) dquote && is_ch (last g NUL) dquote in
        let sep := lf :: $"--" ++ (if quoted then firstn (List.length g - 2) (skipn 1 g) else g) in
        parts_loop (S (List.length b)) sep b p (p + length) m
      end
  | _ => Ok m
  end.

(** "while (tmp[0] == CR || tmp[0] == LF) tmp++;": osip_message_parse.c 842-843 *)
Fixpoint skip_eols (fuel : nat) (b : buffer) (p : Z) : res Z :=
  match fuel with
  | O => UB
  | S f => do c <- rd b p ; if is_eol c then skip_eols f b (p + 1) else Ok p
  end.
Definition zero_length (m : message) : res message :=
  match m_content_length m with Some _ => Ok m | None => set_content_length m (Some ($"0")) end.
(** osip_message_parse: osip_message_parse.c 823-899 (sipfrag = 0), [msg] the received bytes.  The
    memory is [msg] with a NUL; the byte after it is allocated too but holds no value, reading it
    is [UB] here. *)
Definition message_parse (msg : list ascii) : res message :=
  let b := msg ++ [NUL] in
  do p <- skip_eols (S (length b)) b 0 ;
  do b <- replace_all_lws b p ;
  do s <- cstr_from b p ;
  do r <- startline_parse s msg_init ;
  let (m, h) := r : message * Z in
  do r <- headers_parse s h m ;
  let (m, k) := r : message * Z in
  let m := match m_content_length m with Some None => with_content_length None m | _ => m end in
  let t := p + k in
  do c <- rd b t ;
  do d <- (if is_ch c cr then rd b (t + 1) else Ok NUL) ;
  let has_body :=
    match m_content_length m with
    | Some (Some v) => int32 (strtol v) >? 0
    | Some None => false
    | None => is_ch c cr && is_ch d lf && negb (slen msg - t - 2 =? 0)
              || is_ch c lf && negb (slen msg - t - 1 =? 0)
    end in
  if has_body then do m <- body_parse m b t (slen msg - t) ; zero_length m
  else zero_length m.

(** Model of the message printers: osip_message_to_str.c, osip_header_to_str, osip_body_to_str. *)
From Coq Require Import String ZArith NArith Ascii Bool List.
From Verif Require Import Base Str Types MemModel CString PortModel UriModel HdrModel AuthModel MsgFields MsgModel.
Import ListNotations.
Open Scope Z_scope.

Definition CRLF : str := [cr; lf].
(** osip_protocol_version: osip_message.c 26 *)
Definition osip_protocol_version : str := $"SIP/2.0".

(** __osip_message_startline_to_strreq: osip_message_to_str.c 34-72 *)
Definition startline_to_strreq (m : message) : res str :=
  match m_uri m, m_method m with
  | Some u, Some meth =>
    do rquri <- uri_to_str u ;
    let version := match m_version m with None => osip_protocol_version | Some v => v end in
    do o <- out_new (slen meth + slen rquri + slen version + 3) ;
    do o <- emit o meth ; do o <- emit o ($" ") ; do o <- emit o rquri ; do o <- emit o ($" ") ;
    do o <- emit o version ; Ok (o_text o)
  | _, _ => Err OSIP_BADPARAMETER
  end.
(** __osip_message_startline_to_strresp: osip_message_to_str.c 74-109.  status_code[5] holds three
    digits; sprintf ("%u") of a number in 100..699 *)
Definition startline_to_strresp (m : message) : res str :=
  match m_reason m with
  | None => Err OSIP_BADPARAMETER
  | Some reason =>
    if (m_status m <? 100) || (m_status m >? 699) then Err OSIP_BADPARAMETER else
    let version := match m_version m with None => osip_protocol_version | Some v => v end in
    let code := sprintf_i (m_status m) in
    do o <- out_new (slen version + 3 + slen reason + 4) ;
    do o <- emit o version ; do o <- emit o ($" ") ; do o <- emit o (firstn 3 code) ;
    do o <- emit o ($" ") ; do o <- emit o reason ; Ok (o_text o)
  end.
(** __osip_message_startline_to_str: osip_message_to_str.c 111-122 *)
Definition startline_to_str (m : message) : res str :=
  match m_method m with
  | Some _ => startline_to_strreq m
  | None => if negb (m_status m =? 0) then startline_to_strresp m else Err OSIP_BADPARAMETER
  end.

(** osip_header_to_str: osip_header.c 229-254 *)
Definition upcase_first (s : str) : str :=
  match s with
  | c :: s' => (if (97 <=? code c)%N && (code c <=? 122)%N then chr (code c - 32) else c) :: s'
  | [] => []
  end.
Definition header_to_str (h : header) : res str :=
  match h_name h with
  | None => Err OSIP_BADPARAMETER
  | Some n =>
    let v := match h_value h with None => [] | Some v => v end in
    do o <- out_new (slen n + slen v + 3) ;
    do o <- emit o (n ++ $": " ++ v) ;
    Ok (upcase_first (o_text o))
  end.

(** memcpy without a terminator: osip_body.c 436-437 *)
Definition emit_raw (o : out) (t : str) : res out :=
  if o_cap o <? slen (o_text o) + slen t then UB else Ok (mkOut (o_text o ++ t) (o_cap o)).
(** "if (length < tmp_body - ptr + need) { length = length + more; realloc }": osip_body.c 377-384,
    401-408, 418-425, 428-435 *)
Definition body_grow (o : out) (need more : Z) : res out :=
  if o_cap o <? slen (o_text o) + need then out_grow o (o_cap o + more) else Ok o.
(** the headers of a body: osip_body.c 391-414 *)
Fixpoint body_hdrs (l : list header) (o : out) : res out :=
  match l with
  | [] => Ok o
  | h :: l' =>
    do t <- header_to_str h ;
    do o <- body_grow o (slen t + 4) (slen t + 4) ;
    do o <- emit o t ; do o <- emit o CRLF ; body_hdrs l' o
  end.
(** osip_body_to_str: osip_body.c 343-446.  body and headers are not NULL for a body made by the
    parser or the setters; the answer is the [str_length] bytes *)
Definition body_to_str (bd : body) : res (list ascii) :=
  if slen (b_body bd) <=? 0 then Err OSIP_BADPARAMETER else
  do o <- out_new (15 + slen (b_body bd) + slen (b_headers bd) * 40) ;
  do o <- match b_ctype bd with
          | None => Ok o
          | Some c =>
            do o <- emit o ($"content-type: ") ;
            do t <- ctype_to_str c ;
            do o <- body_grow o (slen t + 4) (slen t + 4) ;
            do o <- emit o t ; emit o CRLF
          end ;
  do o <- body_hdrs (b_headers bd) o ;
  do o <- (if (slen (b_headers bd) >? 0) || match b_ctype bd with None => false | Some _ => true end
           then do o <- body_grow o 3 (3 + slen (b_body bd)) ; emit o CRLF else Ok o) ;
  do o <- body_grow o (slen (b_body bd) + 4) (slen (b_body bd) + 4) ;
  do o <- emit_raw o (b_body bd) ;
  Ok (o_text o).

(** _osip_message_realloc: osip_message_to_str.c 306-319, and the same growth written out in
    strcat_simple_header 166-180, 190-203, strcat_headers_one_per_line 228-242, 252-265 and for
    the bodies 627-651 *)
Definition grow (o : out) (needed : Z) : res out :=
  if o_cap o <? slen (o_text o) + needed + 100 then out_grow o (slen (o_text o) + needed + 100) else Ok o.

(** strcat_simple_header: osip_message_to_str.c 154-214.  The caller overwrites its error code
    (467-473), so a value that cannot be printed leaves the header name alone. *)
Definition simple_header {A} (name : str) (f : A -> res str) (x : option A) (o : out) : res out :=
  match x with
  | None => Ok o
  | Some x =>
    do o <- grow o (slen name) ;
    do o <- emit o name ;
    match f x with
    | UB => UB
    | Err _ => Ok o
    | Ok t => do o <- grow o (slen t) ; do o <- emit o t ; emit o CRLF
    end
  end.
(** strcat_headers_one_per_line: osip_message_to_str.c 216-276 *)
Fixpoint headers_one_per_line {A} (name : str) (f : A -> res str) (l : list A) (o : out) : res out :=
  match l with
  | [] => Ok o
  | x :: l' =>
    do o <- grow o (slen name) ;
    do o <- emit o name ;
    do t <- f x ;
    do o <- grow o (slen t) ;
    do o <- emit o t ; do o <- emit o CRLF ;
    headers_one_per_line name f l' o
  end.
(** the table: osip_message_to_str.c 388-481, MINISIZE not defined *)
Definition known_headers_to_str (m : message) (o : out) : res out :=
  do o <- headers_one_per_line ($"Via: ") via_print (m_vias m) o ;
  do o <- headers_one_per_line ($"Record-Route: ") from_to_str (m_record_routes m) o ;
  do o <- headers_one_per_line ($"Route: ") from_to_str (m_routes m) o ;
  do o <- simple_header ($"From: ") from_to_str (m_from m) o ;
  do o <- simple_header ($"To: ") from_to_str (m_to m) o ;
  do o <- simple_header ($"Call-ID: ") call_id_to_str (m_call_id m) o ;
  do o <- simple_header ($"CSeq: ") cseq_to_str (m_cseq m) o ;
  do o <- headers_one_per_line ($"Contact: ") contact_to_str (m_contacts m) o ;
  do o <- headers_one_per_line ($"Authorization: ") authz_to_str (m_authorizations m) o ;
  do o <- headers_one_per_line ($"WWW-Authenticate: ") www_to_str (m_www_authenticates m) o ;
  do o <- headers_one_per_line ($"Proxy-Authenticate: ") www_to_str (m_proxy_authenticates m) o ;
  do o <- headers_one_per_line ($"Proxy-Authorization: ") authz_to_str (m_proxy_authorizations m) o ;
  do o <- headers_one_per_line ($"Call-Info: ") (elem_to_str em_s) (m_call_infos m) o ;
  do o <- simple_header ($"Content-Type: ") ctype_to_str (m_content_type m) o ;
  do o <- simple_header ($"Mime-Version: ") clen_to_str (m_mime_version m) o ;
  do o <- headers_one_per_line ($"Allow: ") clen_to_str (m_allows m) o ;
  do o <- headers_one_per_line ($"Content-Encoding: ") clen_to_str (m_content_encodings m) o ;
  do o <- headers_one_per_line ($"Alert-Info: ") (elem_to_str em_s) (m_alert_infos m) o ;
  do o <- headers_one_per_line ($"Error-Info: ") (elem_to_str em_s) (m_error_infos m) o ;
  do o <- headers_one_per_line ($"Accept: ") accept_to_str (m_accepts m) o ;
  do o <- headers_one_per_line ($"Accept-Encoding: ") (elem_to_str emit_n) (m_accept_encodings m) o ;
  do o <- headers_one_per_line ($"Accept-Language: ") (elem_to_str emit_n) (m_accept_languages m) o ;
  do o <- headers_one_per_line ($"Authentication-Info: ") ainfo_to_str (m_auth_infos m) o ;
  headers_one_per_line ($"Proxy-Authentication-Info: ") ainfo_to_str (m_proxy_auth_infos m) o.
(** the other headers: osip_message_to_str.c 484-514 *)
Fixpoint other_headers_to_str (l : list header) (o : out) : res out :=
  match l with
  | [] => Ok o
  | h :: l' =>
    do t <- header_to_str h ;
    do o <- grow o (slen t + 3) ;
    do o <- emit o t ; do o <- emit o CRLF ;
    other_headers_to_str l' o
  end.

(** MIME_MAX_BOUNDARY_LEN: osip_message_to_str.c 25 *)
Definition MIME_MAX_BOUNDARY_LEN : Z := 70.
(** the boundary line: osip_message_to_str.c 583-614.  For the value of one double quote
    "len - 2" is SIZE_MAX and strncpy pads up to it. *)
Definition boundary_of (m : message) : res (option str) :=
  match m_mime_version m, m_content_type m with
  | Some _, Some (mkCT (Some ty) _ params) =>
    if strcaseeq ty ($"multipart") then
      match param_get params ($"boundary") with
      | Some (_, Some g) =>
        if slen g >? MIME_MAX_BOUNDARY_LEN then Err OSIP_SYNTAXERROR else
        if is_ch (nth 0 g NUL) dquote && is_ch (last g NUL) dquote
        then if slen g <? 2 then UB
             else Ok (Some (CRLF ++ $"--" ++ firstn (length g - 2) (skipn 1 g)))
        else Ok (Some (CRLF ++ $"--" ++ g))
      | _ => Ok None
      end
    else Ok None
  | _, _ => Ok None
  end.
(** the bodies: osip_message_to_str.c 616-661 *)
Fixpoint bodies_to_str (boundary : option str) (l : list body) (o : out) : res out :=
  match l with
  | [] => Ok o
  | bd :: l' =>
    do o <- match boundary with None => Ok o | Some b => do o <- emit o b ; emit o CRLF end ;
    do t <- body_to_str bd ;
    do o <- grow o (slen t) ;
    do o <- emit o t ;
    bodies_to_str boundary l' o
  end.
(** SIP_MESSAGE_MAX_LENGTH: osip_message.h 112-117 *)
Definition SIP_MESSAGE_MAX_LENGTH : Z := 8000.
(** _osip_message_to_str: osip_message_to_str.c 321-697, when the cached text is out of date
    (message_property is not 1; the new cache is not modelled).  [frag] is the argument sipfrag.
    Answers the message_length bytes of *dest. *)
Definition message_to_str (frag : bool) (m : message) : res (list ascii) :=
  do o <- out_new SIP_MESSAGE_MAX_LENGTH ;
  do o <- match startline_to_str m with
          | UB => UB
          | Err c => if frag then Ok o else Err c
          | Ok t => do o <- grow o (slen t + 3) ; do o <- emit o t ; emit o CRLF
          end ;
  do o <- known_headers_to_str m o ;
  do o <- other_headers_to_str (m_headers m) o ;
  do o <- grow o 16 ;
  match m_bodies m with
  | [] =>
    if frag then do o <- emit o CRLF ; Ok (o_text o)
    else
      do o <- emit o ($"Content-Length: ") ; do o <- emit o ($"0") ; do o <- emit o CRLF ;
      do o <- emit o CRLF ; Ok (o_text o)
  | bodies =>
    do o <- emit o ($"Content-Length: ") ;
    let slot := slen (o_text o) in
    do o <- emit o ($"     ") ; do o <- emit o CRLF ; do o <- emit o CRLF ;
    let start := slen (o_text o) in
    do bo <- boundary_of m ;
    do o <- bodies_to_str bo bodies o ;
    do o <- match bo with
            | None => Ok o
            | Some b => do o <- emit o b ; do o <- emit o ($"--") ; emit o CRLF
            end ;
    let digits := sprintf_i (int32 (slen (o_text o) - start)) in
    wr_range (o_text o) (slot + 5 - slen digits) digits
  end.

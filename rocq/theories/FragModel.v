(** Model of osip_message_parse_sipfrag: osip_message_parse.c 900-904, message fragments (RFC 3420). *)
From Coq Require Import String ZArith NArith Ascii Bool List.
From Verif Require Import Base Str Types MemModel CString PortModel UriModel HdrModel AuthModel MsgFields MsgModel.
Import ListNotations.
Open Scope Z_scope.

(** What a refused start line leaves in the structure: osip_message_parse.c 31-240.  Every refusal of
    the request line takes the method and the Request-URI back (45-165).  The status line keeps
    the version and the number when the number or the end of the line is wrong (206-222), takes the
    version back when there is no second space (199-203). *)
Definition startline_left (s : str) (m : message) : res message :=
  if negb (strneq 4 s ($"SIP/")) then Ok m else
  do sc <- strchr_at s 0 " " ;
  match sc with
  | None => Ok m
  | Some sc =>
    do vers <- copy_at s 0 sc (sc + 1) ;
    do rp <- strchr_at s (sc + 1) " " ;
    match rp with
    | None => Ok m
    | Some _ => do t <- tail_at s (sc + 1) ; Ok (with_status (int32 (strtol t)) (with_version (Some vers) m))
    end
  end.
(** lines 844-850 with sipfrag = 1: after a refusal next_header_index is the beginning of the text
    ("*headers = buf", lines 43 and 189) *)
Definition startline_frag (s : str) (m : message) : res (message * Z) :=
  match startline_parse s m with
  | Err _ => do m <- startline_left s m ; Ok (m, 0)
  | r => r
  end.
(** _osip_message_parse: osip_message_parse.c 823-892 with sipfrag = 1 *)
Definition message_parse_frag (msg : list ascii) : res message :=
  let b := msg ++ [NUL] in
  do p <- skip_eols (S (length b)) b 0 ;
  do b <- replace_all_lws b p ;
  do s <- cstr_from b p ;
  do r <- startline_frag s msg_init ;
  let (m, h) := r : message * Z in
  do r <- headers_parse s h m ;
  let (m, k) := r : message * Z in
  let m := match m_content_length m with Some None => with_content_length None m | _ => m end in
  let t := p + k in
  do c <- rd b t ;
  do d <- (if is_ch c cr then rd b (t + 1) else Ok NUL) ;
  let has_body :=
    match m_content_length m with
    | Some (Some v) => int32 (strtol v) >? 0
    | Some None => false
    | None => is_ch c cr && is_ch d lf && negb (slen msg - t - 2 =? 0)
              || is_ch c lf && negb (slen msg - t - 1 =? 0)
    end in
  if has_body then do m <- body_parse m b t (slen msg - t) ; zero_length m
  else zero_length m.

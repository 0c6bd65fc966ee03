(** Model of the cached text of a message: the fields message, message_length and message_property of
    osip_message_t (osip_message.h 102-107) and the functions that use them. *)
From Coq Require Import String ZArith NArith Ascii Bool List.
From Verif Require Import Base Str Types MemModel CString UriModel HdrModel MsgFields MsgModel MsgPrint CloneModel.
Import ListNotations.
Open Scope Z_scope.

(** A message with its cache.  [c_text] holds the bytes of the block sip->message without the terminator. *)
Record cmsg := mkC { c_msg : message; c_prop : Z; c_text : option (list ascii); c_len : Z }.
(** the answer of a call: a return code, or OSIP_SUCCESS with the text in *dest *)
Inductive answer := Code (c : Z) | Text (t : list ascii).

(** the functions osip_message_set_xxx (sip, hvalue) *)
Inductive kind := Accept | AcceptEncoding | AcceptLanguage | AlertInfo | Allow | AuthenticationInfo | Authorization | CallId | CallInfo
  | Contact | ContentEncoding | ContentLength | ContentType | CSeq | ErrorInfo | From | MimeVersion | ProxyAuthenticate | ProxyAuthenticationInfo
  | ProxyAuthorization | RecordRoute | Route | To | Via | WwwAuthenticate.
Definition setter_of (k : kind) : setter :=
  match k with
  | Accept => set_accept | AcceptEncoding => set_accept_encoding | AcceptLanguage => set_accept_language | AlertInfo => set_alert_info
  | Allow => set_allow | AuthenticationInfo => set_authentication_info | Authorization => set_authorization | CallId => set_call_id
  | CallInfo => set_call_info | Contact => set_contact | ContentEncoding => set_content_encoding | ContentLength => set_content_length
  | ContentType => set_content_type | CSeq => set_cseq | ErrorInfo => set_error_info | From => set_from | MimeVersion => set_mime_version
  | ProxyAuthenticate => set_proxy_authenticate | ProxyAuthenticationInfo => set_proxy_authentication_info
  | ProxyAuthorization => set_proxy_authorization | RecordRoute => set_record_route | Route => set_route | To => set_to | Via => set_via
  | WwwAuthenticate => set_www_authenticate
  end.
(** "hvalue == NULL || hvalue[0] == 0" *)
Definition no_value (v : option str) : bool := match v with None | Some [] => true | _ => false end.
(** Is "sip->message_property = 2;" reached?  In the setters of the headers that occur once it comes
    before the value is parsed (osip_call_id.c 43, osip_content_length.c 53, osip_content_type.c 61,
    osip_cseq.c 54, osip_from.c 44, osip_mime_version.c 44, osip_to.c 50), in the others after it was
    parsed; osip_message_set_accept (osip_accept.c 33-50) has no test for a missing value. *)
Definition unset {A} (x : option A) : bool := match x with None => true | Some _ => false end.
Definition touches (k : kind) (m : message) (v : option str) (parsed : bool) : bool :=
  match k with
  | Accept => parsed
  | CallId => negb (no_value v) && unset (m_call_id m)
  | ContentLength => negb (no_value v) && unset (m_content_length m)
  | ContentType => negb (no_value v) && unset (m_content_type m)
  | CSeq => negb (no_value v) && unset (m_cseq m)
  | From => negb (no_value v) && unset (m_from m)
  | MimeVersion => negb (no_value v) && unset (m_mime_version m)
  | To => negb (no_value v) && unset (m_to m)
  | _ => negb (no_value v) && parsed
  end.

(** the calls on a message *)
Inductive op :=
| Set_ (k : kind) (v : option str)
| AppendVia (v : str)
| SetHeader (name : str) (v : option str) | SetTopheader (name : str) (v : option str) | ReplaceHeader (name : str) (v : option str)
| SetBody (b : list ascii) | SetBodyMime (part : list ascii)
| SetMethod (x : option str) | SetVersion (x : option str) | SetUri (x : option Types.uri) | SetStatus (x : Z) | SetReason (x : option str)
| ForceUpdate
| Print (frag : bool) (room : bool)       (* [room]: memory is left for the cached copy *)
| Clone.                                  (* work goes on with the copy *)

(** "sip->message_property = 2;" with a new content *)
Definition dirty (s : cmsg) (m : message) : cmsg := mkC m 2 (c_text s) (c_len s).
(** a new content, message_property as before *)
Definition quiet (s : cmsg) (m : message) : cmsg := mkC m (c_prop s) (c_text s) (c_len s).
(** a function that answers an error, or changes the message and sets message_property *)
Definition updating (s : cmsg) (r : res message) : res (cmsg * answer) :=
  match r with UB => UB | Err c => Ok (s, Code c) | Ok m => Ok (dirty s m, Code OSIP_SUCCESS) end.

(** "memcpy (*dest, sip->message, sip->message_length);": osip_message_to_str.c 346-353.  The block has
    one byte more than the text; sip->message is not tested for NULL *)
Definition fetch (s : cmsg) : res (list ascii) :=
  match c_text s with None => UB | Some t => rd_range (t ++ [NUL]) 0 (c_len s) end.
(** _osip_message_to_str: osip_message_to_str.c 321-709 with the cache.  The strings of the structure
    are C strings: the text of a message without bodies has no NUL and osip_strdup (524, 578) copies all
    of it.  When there is no room for the copy, message_property is 1 all the same, and message_length is
    set only if there is no body (525, 579, 700-707). *)
Definition print (frag room : bool) (s : cmsg) : res (cmsg * answer) :=
  if c_prop s =? 1 then do t <- fetch s ; Ok (s, Text t)
  else
    match message_to_str frag (c_msg s) with
    | UB => UB
    | Err c => Ok (mkC (c_msg s) (c_prop s) None (c_len s), Code c)
    | Ok t => Ok (mkC (c_msg s) 1 (if room then Some t else None)
                   (match m_bodies (c_msg s) with [] => slen t | _ => if room then slen t else c_len s end), Text t)
    end.
(** osip_message_clone: osip_message.c 173-373, the cache 361-368: osip_strdup (sip->message) stops at a NUL *)
Definition clone (s : cmsg) : res (cmsg * answer) :=
  match msg_clone (c_msg s) with
  | UB => UB
  | Err c => Ok (s, Code c)
  | Ok m => Ok (mkC m (c_prop s) (option_map until_nul (c_text s)) (c_len s), Code OSIP_SUCCESS)
  end.

(** one call; the functions are those named by the operation: osip_header.c 33-156 for the three header
    functions, osip_via.c 58-74, osip_body.c 57-73 and 195-214, osip_message.c 87-115 for the five
    functions of the start line (which do not touch message_property), osip_message_to_str.c 295-302 *)
Definition step (o : op) (s : cmsg) : res (cmsg * answer) :=
  let m := c_msg s in
  match o with
  | Set_ k v =>
    match setter_of k m v with
    | UB => UB
    | Err c => Ok (if touches k m v false then dirty s m else s, Code c)
    | Ok m' => Ok (if touches k m v true then dirty s m' else quiet s m', Code OSIP_SUCCESS)
    end
  | AppendVia v => updating s (do a <- via_parse v ; Ok (with_vias (a :: m_vias m) m))
  | SetHeader n v => updating s (Ok (set_header m n v))
  | SetTopheader n v => updating s (Ok (set_topheader m n v))
  | ReplaceHeader n v => updating s (replace_header m n v)
  | SetBody b => updating s (Ok (set_body m b))
  | SetBodyMime p => updating s (set_body_mime m p)
  | SetMethod x => Ok (quiet s (with_method x m), Code OSIP_SUCCESS)
  | SetVersion x => Ok (quiet s (with_version x m), Code OSIP_SUCCESS)
  | SetUri x => Ok (quiet s (with_uri x m), Code OSIP_SUCCESS)
  | SetStatus x => Ok (quiet s (with_status x m), Code OSIP_SUCCESS)
  | SetReason x => Ok (quiet s (with_reason x m), Code OSIP_SUCCESS)
  | ForceUpdate => Ok (dirty s m, Code OSIP_SUCCESS)
  | Print f room => print f room s
  | Clone => clone s
  end.
(** osip_message_init: osip_message.c 76-80; the content is filled by osip_message_parse, which goes
    through the same setters and leaves the property at 2 or 3 *)
Definition new (m : message) (prop : Z) : cmsg := mkC m prop None 0.

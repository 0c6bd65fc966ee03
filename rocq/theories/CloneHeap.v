(** The clone functions as programs on a heap of blocks: which block each pointer leads to is
    part of the state, so that "the copy owns its own storage" can be stated.

    Every clone function of the library has the same form: refuse when mandatory fields are NULL,
    allocate a structure with its init function, copy the fields one by one, return it.  It is
    transcribed below as the list of its steps ([op]) in the order of the C text, and [step] gives the
    meaning of a step.  Simplifications: allocation always succeeds; the structure is allocated before
    the mandatory fields are looked at; a partial copy that is given up is not freed. *)
From Coq Require Import String ZArith NArith Ascii Bool List Lia.
From Verif Require Import Base Str.
Import ListNotations.
Local Open Scope Z_scope.

Definition addr := nat.
(** what a field of a structure holds: NULL, a pointer, an integer, an embedded osip_list_t
    (nb_elt and node; include/osipparser2/osip_list.h 82-87), or the pair body/length of osip_body_t
    (include/osipparser2/osip_body.h 48-50) *)
Inductive word := Null | Ptr (a : addr) | Int (z : Z) | Lst (n : nat) (first : option addr) | Buf (a : addr) (n : nat).
(** a malloc'ed block: characters (a terminating NUL follows them), a structure, a node of a list
    (include/osipparser2/osip_list.h 53-56: element and next) *)
Inductive block := BText (s : str) | BRec (fields : list word) | BNode (element : word) (next : option addr).
(** the heap: finitely many blocks; the first entry for an address counts; [h a] is the block at [a] *)
Record heap := mkHeap { cells : list (addr * block) }.
Definition look (h : heap) (a : addr) : option block := option_map snd (find (fun c => Nat.eqb a (fst c)) (cells h)).
Coercion look : heap >-> Funclass.
Definition put (h : heap) (a : addr) (b : block) : heap := mkHeap ((a, b) :: cells h).

(** The fields of a structure: a string, a number (or a pointer the library does not look through),
    a body, a pointer to a structure, a list of structures, a list of strings *)
Inductive shape := KStr | KInt | KBuf | KRec (fs : list shape) | KList (fs : list shape) | KStrs.
(** the value the init functions (memset to 0, osip_list_init) give a field *)
Definition init_word (k : shape) : word := match k with KStr | KBuf | KRec _ => Null | KInt => Int 0 | KList _ | KStrs => Lst 0 None end.

(** Steps of a clone function; numbers are field positions *)
Inductive op :=
| Need (i : nat)                                     (* if (x->i == NULL) return OSIP_BADPARAMETER; *)
| NeedOne (i j : nat)                                (* if (x->i == NULL && x->j == NULL) return OSIP_BADPARAMETER; *)
| NeedLen (i : nat)                                  (* if (x->length <= 0) return OSIP_BADPARAMETER; *)
| Deref (i : nat)                                    (* x->i is used as if not NULL *)
| Dup (i : nat)                                      (* copy->i = osip_strdup (x->i); *)
| Copy (i : nat)                                     (* copy->i = x->i; *)
| Mem (i : nat)                                      (* malloc (length + 2), memcpy (..., length) *)
| Sub (i : nat) (fs : list shape) (p : list op)      (* if (x->i != NULL) clone (x->i, &copy->i); *)
| Each (i : nat) (fs : list shape) (p : list op).    (* osip_list_clone (&x->i, &copy->i, clone); *)

(** characters before the first NUL: what strlen and strncpy see *)
Fixpoint cut (s : str) : str := match s with [] => [] | c :: r => if Ascii.eqb c Ascii.zero then [] else c :: cut r end.

Section Heap.
Variable malloc : heap -> addr.

Definition alloc (h : heap) (b : block) : heap * addr := (put h (malloc h) b, malloc h).
Definition field (h : heap) (a : addr) (i : nat) : res word :=
  match h a with Some (BRec ws) => match nth_error ws i with Some w => Ok w | None => UB end | _ => UB end.
Fixpoint upd {A} (i : nat) (w : A) (ws : list A) : list A :=
  match ws, i with [], _ => [] | _ :: r, O => w :: r | x :: r, S i => x :: upd i w r end.
Definition set_field (h : heap) (a : addr) (i : nat) (w : word) : res heap :=
  match h a with Some (BRec ws) => if Nat.ltb i (length ws) then Ok (put h a (BRec (upd i w ws))) else UB | _ => UB end.
Definition text (h : heap) (a : addr) : res str := match h a with Some (BText s) => Ok s | _ => UB end.
Definition node (h : heap) (a : addr) : res (word * option addr) := match h a with Some (BNode e n) => Ok (e, n) | _ => UB end.

(** osip_strdup: src/osipparser2/osip_port.c 345-359 *)
Definition strdup (h : heap) (w : word) : res (heap * word) :=
  match w with
  | Null => Ok (h, Null)
  | Ptr a => do s <- text h a ; let (h, d) := alloc h (BText (cut s)) in Ok (h, Ptr d)
  | _ => UB
  end.

(** osip_list_add (li, el, -1), the loop to the last node: src/osipparser2/osip_list.c 140-154 *)
Fixpoint walk (k : nat) (h : heap) (a : addr) : res addr :=
  match k with
  | O => Ok a
  | S k => do n <- node h a ; match snd n with Some b => walk k h b | None => UB end
  end.
(** osip_list_add (li, el, -1) on the list that is field [i] of [dst]: src/osipparser2/osip_list.c 100-163 *)
Definition list_add (h : heap) (dst : addr) (i : nat) (el : word) : res heap :=
  do w <- field h dst i ;
  match w with
  | Lst O _ => let (h, nd) := alloc h (BNode el None) in set_field h dst i (Lst 1 (Some nd))
  | Lst (S n) (Some first) =>
    do last <- walk n h first ;
    do e <- node h last ;
    let (h, nd) := alloc h (BNode el None) in
    set_field (put h last (BNode (fst e) (Some nd))) dst i (Lst (S (S n)) (Some first))
  | _ => UB
  end.

(** osip_list_clone: src/osipparser2/osip_list.c 35-49, with the iterator of 201-237 and osip_list.h 154:
    at most nb_elt nodes are visited; [clone] is the function given for the elements *)
Fixpoint each (clone : heap -> word -> res (heap * word)) (dst : addr) (i : nat) (k : nat) (cur : option addr) (h : heap) : res heap :=
  match k, cur with
  | S k, Some a =>
    do e <- node h a ;
    do r <- clone h (fst e) ;
    do h <- list_add (fst r) dst i (snd r) ;
    do e <- node h a ;
    each clone dst i k (snd e) h
  | _, _ => Ok h
  end.

(** a clone function: NULL is refused, a structure of the given fields is allocated and filled *)
Definition clone_with (run : addr -> addr -> heap -> res heap) (fs : list shape) (h : heap) (w : word) : res (heap * word) :=
  match w with
  | Null => Err OSIP_BADPARAMETER
  | Ptr a => let (h, d) := alloc h (BRec (map init_word fs)) in do h <- run a d h ; Ok (h, Ptr d)
  | _ => UB
  end.

Definition is_null (w : word) : bool := match w with Null => true | _ => false end.
Fixpoint step (o : op) (src dst : addr) (h : heap) {struct o} : res heap :=
  let runs := fix runs (p : list op) (src dst : addr) (h : heap) {struct p} : res heap :=
    match p with [] => Ok h | o :: p => do h <- step o src dst h ; runs p src dst h end in
  match o with
  | Need i => do w <- field h src i ; if is_null w then Err OSIP_BADPARAMETER else Ok h
  | NeedOne i j => do w <- field h src i ; do v <- field h src j ; if is_null w && is_null v then Err OSIP_BADPARAMETER else Ok h
  | NeedLen i => do w <- field h src i ; match w with Null | Buf _ O => Err OSIP_BADPARAMETER | Buf _ _ => Ok h | _ => UB end
  | Deref i => do w <- field h src i ; if is_null w then UB else Ok h
  | Dup i => do w <- field h src i ; do r <- strdup h w ; set_field (fst r) dst i (snd r)
  | Copy i => do w <- field h src i ; set_field h dst i w
  | Mem i => do w <- field h src i ;
             match w with
             | Buf a n => do s <- text h a ; if Nat.ltb (length s) n then UB else let (h, d) := alloc h (BText (firstn n s)) in set_field h dst i (Buf d n)
             | _ => UB
             end
  | Sub i fs p => do w <- field h src i ; if is_null w then Ok h else do r <- clone_with (runs p) fs h w ; set_field (fst r) dst i (snd r)
  | Each i fs p => do w <- field h src i ; match w with Lst n first => each (clone_with (runs p) fs) dst i n first h | _ => UB end
  end.
Definition runs := fix runs (p : list op) (src dst : addr) (h : heap) {struct p} : res heap :=
  match p with [] => Ok h | o :: p => do h <- step o src dst h ; runs p src dst h end.
Definition clone (fs : list shape) (p : list op) (h : heap) (w : word) : res (heap * word) := clone_with (runs p) fs h w.
End Heap.

(** osip_uri_param_t: include/osipparser2/osip_uri.h 55-59; osip_uri_param_clone, also osip_generic_param_clone:
    src/osipparser2/osip_uri.c 871-893 *)
Definition param_fields := [KStr; KStr].
Definition param_clone := [Need 0; Dup 0; Dup 1].

(** osip_uri_t: include/osipparser2/osip_uri.h 167-179: scheme, username, password, host, port, url_params,
    url_headers, string; osip_uri_clone: src/osipparser2/osip_uri.c 740-780 *)
Definition uri_fields := [KStr; KStr; KStr; KStr; KStr; KList param_fields; KList param_fields; KStr].
Definition uri_clone := [NeedOne 3 7; Dup 0; Dup 1; Dup 2; Dup 3; Dup 4; Dup 7; Each 5 param_fields param_clone; Each 6 param_fields param_clone].

(** osip_from_t: include/osipparser2/headers/osip_from.h 48-53: displayname, url, gen_params; osip_from_clone,
    also osip_to_clone, osip_contact_clone, osip_route_clone, osip_record_route_clone: src/osipparser2/osip_from.c 395-431 *)
Definition from_fields := [KStr; KRec uri_fields; KList param_fields].
Definition from_clone := [Dup 0; Sub 1 uri_fields uri_clone; Each 2 param_fields param_clone].

(** osip_via_t: include/osipparser2/headers/osip_via.h 47-55: version, protocol, host, port, comment, via_params;
    osip_via_clone: src/osipparser2/osip_via.c 416-472 *)
Definition via_fields := [KStr; KStr; KStr; KStr; KStr; KList param_fields].
Definition via_clone := [Need 0; Need 1; Need 2; Dup 0; Dup 1; Dup 2; Dup 3; Dup 4; Each 5 param_fields param_clone].

(** osip_cseq_t: include/osipparser2/headers/osip_cseq.h 45-49: method, number; osip_cseq_clone: src/osipparser2/osip_cseq.c 169-193 *)
Definition cseq_fields := [KStr; KStr].
Definition cseq_clone := [Need 0; Need 1; Dup 0; Dup 1].

(** osip_call_id_t: include/osipparser2/headers/osip_call_id.h 45-49: number, host; osip_call_id_clone: src/osipparser2/osip_call_id.c 180-201 *)
Definition call_id_fields := [KStr; KStr].
Definition call_id_clone := [Need 0; Dup 0; Dup 1].

(** osip_content_length_t: include/osipparser2/headers/osip_content_length.h 46-49: value; osip_content_length_clone, also
    osip_allow_clone, osip_content_encoding_clone, osip_mime_version_clone: src/osipparser2/osip_content_length.c 117-143 *)
Definition content_length_fields := [KStr].
Definition content_length_clone := [Dup 0].

(** osip_content_type_t: include/osipparser2/headers/osip_content_type.h 47-52: type, subtype, gen_params; osip_content_type_clone,
    also osip_accept_clone: src/osipparser2/osip_content_type.c 210-244 (its own loop over the parameters is that of
    osip_list_clone except for a NULL element, which no list holds) *)
Definition content_type_fields := [KStr; KStr; KList param_fields].
Definition content_type_clone := [Dup 0; Dup 1; Each 2 param_fields param_clone].

(** osip_accept_encoding_t and osip_call_info_t: include/osipparser2/headers/osip_accept_encoding.h 47-51, osip_call_info.h 47-51:
    element, gen_params; osip_accept_encoding_clone, also osip_accept_language_clone: src/osipparser2/osip_accept_encoding.c 165-200;
    osip_call_info_clone, also osip_alert_info_clone, osip_error_info_clone: src/osipparser2/osip_call_info.c 173-201 *)
Definition elem_fields := [KStr; KList param_fields].
Definition elem_clone := [Need 0; Dup 0; Each 1 param_fields param_clone].

(** osip_header_t: include/osipparser2/headers/osip_header.h 52-56: hname, hvalue; osip_header_clone: src/osipparser2/osip_header.c 284-315 *)
Definition header_fields := [KStr; KStr].
Definition header_clone := [Need 0; Dup 0; Dup 1].

(** osip_www_authenticate_t: include/osipparser2/headers/osip_www_authenticate.h 46-60: auth_type, realm, domain, nonce, opaque, stale,
    algorithm, qop_options, version, targetname, gssapi_data, auth_param; osip_www_authenticate_clone, also osip_proxy_authenticate_clone:
    src/osipparser2/osip_www_authenticate.c 644-730.  It does not touch auth_param. *)
Definition www_fields := repeat KStr 12.
Definition www_clone := [Need 0; Dup 0; Dup 1; Dup 2; Dup 3; Dup 4; Dup 5; Dup 6; Dup 7; Dup 8; Dup 9; Dup 10].

(** osip_authorization_t: include/osipparser2/headers/osip_authorization.h 46-66: auth_type, username, realm, nonce, uri, response, digest,
    algorithm, cnonce, opaque, message_qop, nonce_count, version, targetname, gssapi_data, crand, cnum, auth_param;
    osip_authorization_clone, also osip_proxy_authorization_clone: src/osipparser2/osip_authorization.c 719-866.  It does not touch auth_param. *)
Definition authz_fields := repeat KStr 18.
Definition authz_clone := [Dup 0; Dup 1; Dup 2; Dup 3; Dup 4; Dup 5; Dup 6; Dup 7; Dup 8; Dup 9; Dup 10; Dup 11; Dup 12; Dup 13; Dup 14; Dup 15; Dup 16].

(** osip_authentication_info_t: include/osipparser2/headers/osip_authentication_info.h 46-59: auth_type, nextnonce, qop_options, rspauth, cnonce,
    nonce_count, snum, srand, realm, targetname, opaque; osip_authentication_info_clone, also osip_proxy_authentication_info_clone:
    src/osipparser2/osip_authentication_info.c 529-568 *)
Definition authinfo_fields := repeat KStr 11.
Definition authinfo_clone := [Dup 0; Dup 1; Dup 4; Dup 3; Dup 5; Dup 2; Dup 6; Dup 7; Dup 9; Dup 8; Dup 10].

(** osip_body_t: include/osipparser2/osip_body.h 48-54: body and length, headers (a pointer to a list), content_type;
    osip_body_clone: src/osipparser2/osip_body.c 75-113.  The list that headers points to is allocated by osip_body_init
    in the C text; here when the field is copied. *)
Definition body_fields := [KBuf; KRec [KList header_fields]; KRec content_type_fields].
Definition body_clone := [NeedLen 0; Mem 0; Sub 2 content_type_fields content_type_clone; Deref 1; Sub 1 [KList header_fields] [Each 0 header_fields header_clone]].

(** osip_message_t: include/osipparser2/osip_message.h 55-110: 0 sip_version, 1 req_uri, 2 sip_method, 3 status_code, 4 reason_phrase, 5 accepts,
    6 accept_encodings, 7 accept_languages, 8 alert_infos, 9 allows, 10 authentication_infos, 11 authorizations, 12 call_id, 13 call_infos,
    14 contacts, 15 content_encodings, 16 content_length, 17 content_type, 18 cseq, 19 error_infos, 20 from, 21 mime_version,
    22 proxy_authenticates, 23 proxy_authentication_infos, 24 proxy_authorizations, 25 record_routes, 26 routes, 27 to, 28 vias,
    29 www_authenticates, 30 headers, 31 bodies, 32 message_property, 33 message, 34 message_length, 35 application_data *)
Definition message_fields := [KStr; KRec uri_fields; KStr; KInt; KStr; KList content_type_fields; KList elem_fields; KList elem_fields; KList elem_fields;
  KList content_length_fields; KList authinfo_fields; KList authz_fields; KRec call_id_fields; KList elem_fields; KList from_fields;
  KList content_length_fields; KRec content_length_fields; KRec content_type_fields; KRec cseq_fields; KList elem_fields; KRec from_fields;
  KRec content_length_fields; KList www_fields; KList authinfo_fields; KList authz_fields; KList from_fields; KList from_fields; KRec from_fields;
  KList via_fields; KList www_fields; KList header_fields; KList body_fields; KInt; KStr; KInt; KInt].
(** osip_message_clone: src/osipparser2/osip_message.c 172-373 *)
Definition message_clone := [Dup 2; Dup 0; Copy 3; Dup 4; Sub 1 uri_fields uri_clone;
  Each 5 content_type_fields content_type_clone; Each 6 elem_fields elem_clone; Each 7 elem_fields elem_clone; Each 8 elem_fields elem_clone;
  Each 9 content_length_fields content_length_clone; Each 10 authinfo_fields authinfo_clone; Each 15 content_length_fields content_length_clone;
  Each 19 elem_fields elem_clone; Each 23 authinfo_fields authinfo_clone; Each 13 elem_fields elem_clone; Each 11 authz_fields authz_clone;
  Sub 12 call_id_fields call_id_clone; Each 14 from_fields from_clone; Sub 16 content_length_fields content_length_clone;
  Sub 17 content_type_fields content_type_clone; Sub 18 cseq_fields cseq_clone; Sub 20 from_fields from_clone;
  Sub 21 content_length_fields content_length_clone; Each 22 www_fields www_clone; Each 24 authz_fields authz_clone; Each 25 from_fields from_clone;
  Each 26 from_fields from_clone; Sub 27 from_fields from_clone; Each 28 via_fields via_clone; Each 29 www_fields www_clone;
  Each 30 header_fields header_clone; Each 31 body_fields body_clone; Copy 34; Dup 33; Copy 32; Copy 35].

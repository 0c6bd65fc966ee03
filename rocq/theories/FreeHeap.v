(** The free functions of the library, as programs on the heap of blocks of [CloneHeap].

    A free function releases the fields of a structure one by one and then the structure.  Each is
    transcribed as the list of its steps in the order of the C text, and [fstep] gives the meaning of a
    step.  Releasing a block that is not allocated, and looking into one, is undefined behaviour.
    Simplifications: mutexes and semaphores are handles (numbers) whose own storage is not followed. *)
From Coq Require Import String ZArith NArith Ascii Bool List Lia.
From Verif Require Import Base Str CloneHeap.
Import ListNotations.
Local Open Scope nat_scope.

(** osip_free on a block: include/osipparser2/osip_port.h 105 *)
Definition drop (h : heap) (a : addr) : heap := mkHeap (filter (fun c => negb (Nat.eqb a (fst c))) (cells h)).
Definition release (h : heap) (a : addr) : res heap := match h a with Some _ => Ok (drop h a) | None => UB end.
(** osip_free on a field: NULL is allowed, include/osipparser2/osip_port.h 105 *)
Definition release_word (h : heap) (w : word) : res heap :=
  match w with Null => Ok h | Ptr a | Buf a _ => release h a | Int _ | Lst _ _ => UB end.

(** Steps of a free function of a structure x; numbers are field positions *)
Inductive fop :=
| Guard                                                       (* if (x == NULL) return; *)
| Free (i : nat)                                              (* osip_free (x->i); *)
| Forget (i : nat)                                            (* x->i = NULL; *)
| FreeSub (i : nat) (p : list fop)                            (* f_free (x->i); *)
| FreeIf (c : nat) (test : Z -> bool) (i : nat) (p : list fop)  (* if (test (x->c)) f_free (x->i); *)
| FreeEach (i : nat) (p : list fop)                           (* osip_list_special_free (&x->i, f_free); *)
| FreeStrs (i : nat)                                          (* osip_list_ofchar_free (&x->i); *)
| FreeSelf.                                                   (* osip_free (x); *)

(** osip_list_special_free and osip_list_ofchar_free: src/osipparser2/osip_list.c 51-79, with osip_list_eol (90-97 of the same file),
    osip_list_get (li, 0) and osip_list_remove (li, 0) (177-198, 258-281) unfolded; [fr] is the function for the elements, [k] the number of
    rounds, which is nb_elt at the start because each round takes one away *)
Fixpoint sweep (fr : heap -> word -> res heap) (a : addr) (i : nat) (k : nat) (h : heap) : res heap :=
  do w <- field h a i ;
  match w with
  | Lst O _ => Ok h
  | Lst (S n) (Some nd) =>
    match k with
    | O => UB
    | S k =>
      do e <- node h nd ;
      do h <- set_field h a i (Lst n (snd e)) ;
      do h <- release h nd ;
      do h <- fr h (fst e) ;
      sweep fr a i k h
    end
  | _ => UB
  end.
Definition sweep_all (fr : heap -> word -> res heap) (a : addr) (i : nat) (h : heap) : res heap :=
  do w <- field h a i ; match w with Lst n _ => sweep fr a i n h | _ => UB end.

Definition guarded (p : list fop) : bool := match p with Guard :: _ => true | _ => false end.
(** a free function called on the pointer [w] *)
Definition destroy_with (run : addr -> heap -> res heap) (g : bool) (h : heap) (w : word) : res heap :=
  match w with Null => if g then Ok h else UB | Ptr a => run a h | _ => UB end.

Fixpoint fstep (o : fop) (a : addr) (h : heap) {struct o} : res heap :=
  let fruns := fix fruns (p : list fop) (a : addr) (h : heap) {struct p} : res heap :=
    match p with [] => Ok h | o :: p => do h <- fstep o a h ; fruns p a h end in
  match o with
  | Guard => Ok h
  | Free i => do w <- field h a i ; release_word h w
  | Forget i => set_field h a i Null
  | FreeSub i p => do w <- field h a i ; destroy_with (fruns p) (guarded p) h w
  | FreeIf c test i p => do z <- field h a c ; match z with
                         | Int z => if test z then do w <- field h a i ; destroy_with (fruns p) (guarded p) h w else Ok h
                         | _ => UB
                         end
  | FreeEach i p => sweep_all (destroy_with (fruns p) (guarded p)) a i h
  | FreeStrs i => sweep_all release_word a i h
  | FreeSelf => release h a
  end.
Definition fruns := fix fruns (p : list fop) (a : addr) (h : heap) {struct p} : res heap :=
  match p with [] => Ok h | o :: p => do h <- fstep o a h ; fruns p a h end.
Definition destroy (p : list fop) (h : heap) (w : word) : res heap := destroy_with (fruns p) (guarded p) h w.

(** osip_uri_param_free, also osip_generic_param_free and osip_uri_header_free: src/osipparser2/osip_uri.c 793-799 *)
Definition param_free := [Free 0; Free 1; FreeSelf].
(** osip_uri_free: src/osipparser2/osip_uri.c 712-738, with osip_uri_param_freelist 834-843 *)
Definition uri_free := [Guard; Free 0; Free 1; Free 2; Free 3; Free 4; FreeEach 5 param_free; FreeEach 6 param_free; Free 7; FreeSelf].
(** osip_from_free, also osip_to_free, osip_contact_free, osip_route_free, osip_record_route_free: src/osipparser2/osip_from.c 82-95
    (the NULL test before osip_uri_free is that of osip_uri_free itself) *)
Definition from_free := [Guard; FreeSub 1 uri_free; Free 0; FreeEach 2 param_free; FreeSelf].
(** osip_via_free: src/osipparser2/osip_via.c 110-123 *)
Definition via_free := [Guard; Free 0; Free 1; Free 2; Free 3; Free 4; FreeEach 5 param_free; FreeSelf].
(** osip_cseq_free: src/osipparser2/osip_cseq.c 159-167 *)
Definition cseq_free := [Guard; Free 0; Free 1; FreeSelf].
(** osip_call_id_free: src/osipparser2/osip_call_id.c 77-89 *)
Definition call_id_free := [Guard; Free 0; Free 1; Forget 0; Forget 1; FreeSelf].
(** osip_content_length_free, also osip_allow_free, osip_content_encoding_free, osip_mime_version_free: src/osipparser2/osip_content_length.c 108-115 *)
Definition content_length_free := [Guard; Free 0; FreeSelf].
(** osip_content_type_free, also osip_accept_free: src/osipparser2/osip_content_type.c 194-208 *)
Definition content_type_free := [Guard; Free 0; Free 1; FreeEach 2 param_free; Forget 0; Forget 1; FreeSelf].
(** osip_accept_encoding_free, also osip_accept_language_free: src/osipparser2/osip_accept_encoding.c 152-163; osip_call_info_free, also
    osip_alert_info_free, osip_error_info_free: src/osipparser2/osip_call_info.c 159-171 *)
Definition elem_free := [Guard; Free 0; FreeEach 1 param_free; Forget 0; FreeSelf].
(** osip_header_free: src/osipparser2/osip_header.c 212-223 *)
Definition header_free := [Guard; Free 0; Free 1; Forget 0; Forget 1; FreeSelf].
(** osip_www_authenticate_free, also osip_proxy_authenticate_free: src/osipparser2/osip_www_authenticate.c 623-642.  It does not touch auth_param. *)
Definition www_free := [Guard; Free 0; Free 1; Free 2; Free 3; Free 4; Free 5; Free 6; Free 7; Free 8; Free 9; Free 10; FreeSelf].
(** osip_authorization_free, also osip_proxy_authorization_free: src/osipparser2/osip_authorization.c 694-717.  It does not touch auth_param. *)
Definition authz_free := [Guard; Free 0; Free 1; Free 2; Free 3; Free 4; Free 5; Free 6; Free 7; Free 8; Free 9; Free 10; Free 11; Free 12; Free 13; Free 14; Free 15; Free 16; FreeSelf].
(** osip_authentication_info_free, also osip_proxy_authentication_info_free: src/osipparser2/osip_authentication_info.c 509-527 *)
Definition authinfo_free := [Guard; Free 0; Free 1; Free 3; Free 4; Free 5; Free 2; Free 6; Free 7; Free 9; Free 8; Free 10; FreeSelf].
(** osip_body_free: src/osipparser2/osip_body.c 450-463; osip_list_special_free and osip_free of the list that headers points to
    (461-462) are written as the free function of that list *)
Definition headers_free := [Guard; FreeEach 0 header_free; FreeSelf].
Definition body_free := [Guard; Free 0; FreeSub 2 content_type_free; FreeSub 1 headers_free; FreeSelf].
(** osip_message_free: src/osipparser2/osip_message.c 117-170 *)
Definition message_free := [Guard; Free 2; Free 0; FreeSub 1 uri_free; Free 4; FreeEach 5 content_type_free; FreeEach 11 authz_free; FreeSub 12 call_id_free;
  FreeEach 6 elem_free; FreeEach 7 elem_free; FreeEach 8 elem_free; FreeEach 9 content_length_free; FreeEach 10 authinfo_free; FreeEach 15 content_length_free;
  FreeEach 19 elem_free; FreeEach 23 authinfo_free; FreeEach 13 elem_free; FreeEach 14 from_free; FreeSub 16 content_length_free; FreeSub 17 content_type_free;
  FreeSub 18 cseq_free; FreeSub 20 from_free; FreeSub 21 content_length_free; FreeEach 22 www_free; FreeEach 24 authz_free; FreeEach 25 from_free; FreeEach 26 from_free;
  FreeSub 27 from_free; FreeEach 28 via_free; FreeEach 29 www_free; FreeEach 30 header_free; FreeEach 31 body_free; Free 33; FreeSelf].

(** sdp_bandwidth_t, sdp_key_t, sdp_attribute_t: include/osipparser2/sdp_message.h 58-61, 111-114, 137-140 (two strings each);
    sdp_bandwidth_free, sdp_key_free, sdp_attribute_free: src/osipparser2/sdp_message.c 67-75, 111-119, 132-140 *)
Definition pair_fields := [KStr; KStr].
Definition pair_free := [Guard; Free 0; Free 1; FreeSelf].
(** sdp_time_descr_t: include/osipparser2/sdp_message.h 84-88: t_start_time, t_stop_time, r_repeats; sdp_time_descr_free: src/osipparser2/sdp_message.c 89-98 *)
Definition time_descr_fields := [KStr; KStr; KStrs].
Definition time_descr_free := [Guard; Free 0; Free 1; FreeStrs 2; FreeSelf].
(** sdp_connection_t: include/osipparser2/sdp_message.h 164-172: c_nettype, c_addrtype, c_addr, c_addr_multicast_ttl, c_addr_multicast_int;
    sdp_connection_free: src/osipparser2/sdp_message.c 156-167 *)
Definition connection_fields := [KStr; KStr; KStr; KStr; KStr].
Definition connection_free := [Guard; Free 0; Free 1; Free 2; Free 3; Free 4; FreeSelf].
(** sdp_media_t: include/osipparser2/sdp_message.h 195-210: m_media, m_port, m_number_of_port, m_proto, m_payloads, i_info, c_connections,
    b_bandwidths, a_attributes, k_key; sdp_media_free: src/osipparser2/sdp_message.c 216-232 *)
Definition media_fields := [KStr; KStr; KStr; KStr; KStrs; KStr; KList connection_fields; KList pair_fields; KList pair_fields; KRec pair_fields].
Definition media_free := [Guard; Free 0; Free 1; Free 2; Free 3; FreeStrs 4; Free 5; FreeEach 6 connection_free; FreeEach 7 pair_free; FreeEach 8 pair_free;
  FreeSub 9 pair_free; FreeSelf].
(** sdp_message_t: include/osipparser2/sdp_message.h 233-256: 0 v_version, 1-6 o_username, o_sess_id, o_sess_version, o_nettype, o_addrtype, o_addr, 7 s_name,
    8 i_info, 9 u_uri, 10 e_emails, 11 p_phones, 12 c_connection, 13 b_bandwidths, 14 t_descrs, 15 z_adjustments, 16 k_key, 17 a_attributes, 18 m_medias;
    sdp_message_free: src/osipparser2/sdp_message.c 2012-2047 *)
Definition sdp_fields := [KStr; KStr; KStr; KStr; KStr; KStr; KStr; KStr; KStr; KStr; KStrs; KStrs; KRec connection_fields; KList pair_fields; KList time_descr_fields;
  KStr; KRec pair_fields; KList pair_fields; KList media_fields].
Definition sdp_free := [Guard; Free 0; Free 1; Free 2; Free 3; Free 4; Free 5; Free 6; Free 7; Free 8; Free 9; FreeStrs 10; FreeStrs 11; FreeSub 12 connection_free;
  FreeEach 13 pair_free; FreeEach 14 time_descr_free; Free 15; FreeSub 16 pair_free; FreeEach 17 pair_free; FreeEach 18 media_free; FreeSelf].

(** osip_dialog_t: include/osip2/osip_dialog.h 60-77: call_id, local_tag, remote_tag, line_param, route_set, local_cseq, remote_cseq, remote_uri, local_uri,
    remote_contact_uri, secure, type, state, your_instance; osip_dialog_free: src/osip2/osip_dialog.c 486-500 *)
Definition dialog_fields := [KStr; KStr; KStr; KStr; KList from_fields; KInt; KInt; KRec from_fields; KRec from_fields; KRec from_fields; KInt; KInt; KInt; KInt].
Definition dialog_free := [Guard; FreeSub 9 from_free; FreeSub 8 from_free; FreeSub 7 from_free; FreeEach 4 from_free; Free 3; Free 2; Free 1; Free 0; FreeSelf].
(** osip_event_t: include/osip2/osip.h 629-633: type, transactionid, sip; osip_event_free: src/osip2/osip_event.c 153-160 *)
Definition event_fields := [KInt; KInt; KRec message_fields].
Definition event_free := [Guard; FreeSub 2 message_free; FreeSelf].
(** osip_fifo_t: include/osip2/osip_fifo.h 63-71: qislocked, qisempty, queue, nb_elt, state.  The loop of osip_transaction_free2 that empties it with
    osip_fifo_tryget (src/osip2/osip_transaction.c 296-305; tryget takes the first element off the list or returns NULL when there is none,
    src/osip2/port_fifo.c 138-169), then osip_fifo_free (172-182) *)
Definition fifo_fields := [KInt; KInt; KList event_fields; KInt; KInt].
Definition fifo_free := [Guard; FreeEach 2 [FreeSub 2 message_free; FreeSelf]; FreeSelf].
(** osip_ict_t and osip_nict_t: include/osip2/osip.h 209-218, 230-240: three timers (length, start), destination, port;
    __osip_ict_free, __osip_nict_free: src/osip2/ict.c 151-161, nict.c 142-152 *)
Definition client_fields := [KInt; KInt; KInt; KInt; KInt; KInt; KStr; KInt].
Definition client_free := [Guard; Free 6; FreeSelf].
(** osip_ist_t and osip_nist_t: include/osip2/osip.h 252-259, 271-274: timers only; __osip_ist_free, __osip_nist_free: src/osip2/ist.c 75-83, nist.c 68-77 *)
Definition ist_fields := [KInt; KInt; KInt; KInt; KInt; KInt].
Definition nist_fields := [KInt; KInt].
Definition server_free := [Guard; FreeSelf].
(** osip_transaction_t: include/osip2/osip.h 362-402: 0 your_instance, 1 transactionid, 2 transactionff, 3 topvia, 4 from, 5 to, 6 callid, 7 cseq, 8 orig_request,
    9 last_response, 10 ack, 11 state, 12 birth_time, 13 completed_time, 14 in_socket, 15 out_socket, 16 config, 17 ctx_type, 18 ict_context, 19 ist_context,
    20 nict_context, 21 nist_context, 22 record (no pointers in it), 23 naptr_record (belongs to the application), 24 reserved1 to reserved6.
    osip_fsm_type_t (osip.h 158-163): ICT 0, IST 1, NICT 2, NIST 3.  osip_transaction_free2: src/osip2/osip_transaction.c 273-318 *)
Definition transaction_fields := [KInt; KInt; KRec fifo_fields; KRec via_fields; KRec from_fields; KRec from_fields; KRec call_id_fields; KRec cseq_fields;
  KRec message_fields; KRec message_fields; KRec message_fields; KInt; KInt; KInt; KInt; KInt; KInt; KInt; KRec client_fields; KRec ist_fields; KRec client_fields;
  KRec nist_fields; KInt; KInt; KInt].
Definition transaction_free2 := [Guard; FreeIf 17 (fun z => Z.eqb z 0) 18 client_free; FreeIf 17 (fun z => Z.eqb z 1) 19 server_free;
  FreeIf 17 (fun z => Z.eqb z 2) 20 client_free; FreeIf 17 (fun z => negb (Z.eqb z 0 || Z.eqb z 1 || Z.eqb z 2)) 21 server_free;
  FreeSub 2 fifo_free; FreeSub 8 message_free; FreeSub 9 message_free; FreeSub 10 message_free; FreeSub 3 via_free; FreeSub 4 from_free; FreeSub 5 from_free;
  FreeSub 6 call_id_free; FreeSub 7 cseq_free; FreeSelf].
(** ixt_t, a pending retransmission: include/osip2/osip.h 531-542: dialog (not owned), msg2xx, ack, start, interval, dest, port, sock, counter;
    ixt_free: src/osip2/osip.c 153-160 *)
Definition ixt_fields := [KInt; KRec message_fields; KRec message_fields; KInt; KInt; KStr; KInt; KInt; KInt].
Definition ixt_free := [FreeSub 2 message_free; FreeSub 1 message_free; Free 5; FreeSelf].

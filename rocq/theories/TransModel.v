(** One SIP transaction: events, the four state machines, their handlers and timers.
    Sources: include/osip2/osip.h, src/osip2/{fsm_misc,osip_event,osip_transaction,
    ict,ict_fsm,ist,ist_fsm,nict,nict_fsm,nist,nist_fsm}.c
    Configuration: USE_BLOCKINGSOCKET not defined (the default).
    Simplifications: one clock value per executed event; callbacks do not modify the
    transaction; allocation succeeds. *)
From Coq Require Import String ZArith Ascii Bool List.
From Verif Require Import Base Str Types TimeModel PortModel CloneModel.
Import ListNotations.
Open Scope Z_scope.

(** A message in memory: its address and its contents. *)
Record msg := Msg { mid : nat; mc : message }.

(** osip_fsm_type_t: osip.h 158-163 *)
Inductive fsm := ICT | IST | NICT | NIST.

(** state_t: osip.h 58-92 *)
Inductive state :=
| ICT_PRE_CALLING | ICT_CALLING | ICT_PROCEEDING | ICT_COMPLETED | ICT_TERMINATED
| IST_PRE_PROCEEDING | IST_PROCEEDING | IST_COMPLETED | IST_CONFIRMED | IST_TERMINATED
| NICT_PRE_TRYING | NICT_TRYING | NICT_PROCEEDING | NICT_COMPLETED | NICT_TERMINATED
| NIST_PRE_TRYING | NIST_TRYING | NIST_PROCEEDING | NIST_COMPLETED | NIST_TERMINATED.

(** type_t: osip.h 111-148 *)
Inductive etype :=
| TIMEOUT_A | TIMEOUT_B | TIMEOUT_D | TIMEOUT_E | TIMEOUT_F | TIMEOUT_K
| TIMEOUT_G | TIMEOUT_H | TIMEOUT_I | TIMEOUT_J
| RCV_REQINVITE | RCV_REQACK | RCV_REQUEST | RCV_STATUS_1XX | RCV_STATUS_2XX | RCV_STATUS_3456XX
| SND_REQINVITE | SND_REQACK | SND_REQUEST | SND_STATUS_1XX | SND_STATUS_2XX | SND_STATUS_3456XX
| KILL_TRANSACTION | UNKNOWN_EVT.

(** osip_message_callback_type_t: osip.h 408-476 *)
Inductive cb :=
| ICT_INVITE_SENT | ICT_INVITE_SENT_AGAIN | ICT_ACK_SENT | ICT_ACK_SENT_AGAIN
| ICT_STATUS_1XX_RECEIVED | ICT_STATUS_2XX_RECEIVED | ICT_STATUS_2XX_RECEIVED_AGAIN
| ICT_STATUS_3XX_RECEIVED | ICT_STATUS_4XX_RECEIVED | ICT_STATUS_5XX_RECEIVED
| ICT_STATUS_6XX_RECEIVED | ICT_STATUS_3456XX_RECEIVED_AGAIN
| IST_INVITE_RECEIVED | IST_INVITE_RECEIVED_AGAIN | IST_ACK_RECEIVED | IST_ACK_RECEIVED_AGAIN
| IST_STATUS_1XX_SENT | IST_STATUS_2XX_SENT | IST_STATUS_2XX_SENT_AGAIN
| IST_STATUS_3XX_SENT | IST_STATUS_4XX_SENT | IST_STATUS_5XX_SENT | IST_STATUS_6XX_SENT
| IST_STATUS_3456XX_SENT_AGAIN
| NICT_REGISTER_SENT | NICT_BYE_SENT | NICT_OPTIONS_SENT | NICT_INFO_SENT | NICT_CANCEL_SENT
| NICT_NOTIFY_SENT | NICT_SUBSCRIBE_SENT | NICT_UNKNOWN_REQUEST_SENT | NICT_REQUEST_SENT_AGAIN
| NICT_STATUS_1XX_RECEIVED | NICT_STATUS_2XX_RECEIVED | NICT_STATUS_2XX_RECEIVED_AGAIN
| NICT_STATUS_3XX_RECEIVED | NICT_STATUS_4XX_RECEIVED | NICT_STATUS_5XX_RECEIVED
| NICT_STATUS_6XX_RECEIVED | NICT_STATUS_3456XX_RECEIVED_AGAIN
| NIST_REGISTER_RECEIVED | NIST_BYE_RECEIVED | NIST_OPTIONS_RECEIVED | NIST_INFO_RECEIVED
| NIST_CANCEL_RECEIVED | NIST_NOTIFY_RECEIVED | NIST_SUBSCRIBE_RECEIVED
| NIST_UNKNOWN_REQUEST_RECEIVED | NIST_REQUEST_RECEIVED_AGAIN
| NIST_STATUS_1XX_SENT | NIST_STATUS_2XX_SENT | NIST_STATUS_2XX_SENT_AGAIN
| NIST_STATUS_3XX_SENT | NIST_STATUS_4XX_SENT | NIST_STATUS_5XX_SENT | NIST_STATUS_6XX_SENT
| NIST_STATUS_3456XX_SENT_AGAIN
| ICT_STATUS_TIMEOUT | NICT_STATUS_TIMEOUT.

(** The timers of osip_ict_t, osip_nict_t, osip_ist_t, osip_nist_t: osip.h 196-280 *)
Inductive timer := TA | TB | TD | TE | TF | TK | TG | TH | TI | TJ.

Definition timer_eqb (a b : timer) : bool :=
  match a, b with
  | TA, TA | TB, TB | TD, TD | TE, TE | TF, TF | TK, TK | TG, TG | TH, TH | TI, TI | TJ, TJ => true
  | _, _ => false
  end.

(** osip_event_t: osip.h 380-388 *)
Record event := Ev { ev_type : etype; ev_sip : option msg }.

(** What the code does to the outside world.  [OSend] is one call of cb_send_message with its
    result; [OCb] a message callback; [OTpErr] the transport error callback; [OKill] the kill
    callback; [OFree] an osip_message_free. *)
Inductive out :=
| OSend (m : msg) (host : option str) (port : Z) (result : Z)
| OCb (c : cb) (m : option msg)
| OTpErr (k : fsm) (err : Z)
| OKill (k : fsm)
| OFree (m : msg).

(** osip_transaction_t: osip.h 330-375, with the context of its type (osip_ict_t ...) inlined. *)
Record trans := mkT {
  t_id : Z; t_type : fsm; t_state : state;
  t_orig : option msg; t_last : option msg; t_ack : option msg;
  t_dest : option str; t_port : Z;
  t_len : timer -> Z; t_start : timer -> timeval;
  t_topvia : via; t_from : nameaddr; t_to : nameaddr; t_cid : call_id; t_cseq : cseq }.

Definition set_state (t : trans) (s : state) : trans :=
  mkT (t_id t) (t_type t) s (t_orig t) (t_last t) (t_ack t) (t_dest t) (t_port t) (t_len t)
      (t_start t) (t_topvia t) (t_from t) (t_to t) (t_cid t) (t_cseq t).
Definition set_orig (t : trans) (m : option msg) : trans :=
  mkT (t_id t) (t_type t) (t_state t) m (t_last t) (t_ack t) (t_dest t) (t_port t) (t_len t)
      (t_start t) (t_topvia t) (t_from t) (t_to t) (t_cid t) (t_cseq t).
Definition set_last (t : trans) (m : option msg) : trans :=
  mkT (t_id t) (t_type t) (t_state t) (t_orig t) m (t_ack t) (t_dest t) (t_port t) (t_len t)
      (t_start t) (t_topvia t) (t_from t) (t_to t) (t_cid t) (t_cseq t).
Definition set_ack (t : trans) (m : option msg) : trans :=
  mkT (t_id t) (t_type t) (t_state t) (t_orig t) (t_last t) m (t_dest t) (t_port t) (t_len t)
      (t_start t) (t_topvia t) (t_from t) (t_to t) (t_cid t) (t_cseq t).
Definition set_dest (t : trans) (d : option str) (p : Z) : trans :=
  mkT (t_id t) (t_type t) (t_state t) (t_orig t) (t_last t) (t_ack t) d p (t_len t)
      (t_start t) (t_topvia t) (t_from t) (t_to t) (t_cid t) (t_cseq t).
Definition upd {A} (f : timer -> A) (x : timer) (a : A) : timer -> A :=
  fun y => if timer_eqb y x then a else f y.
Definition set_len (t : trans) (x : timer) (l : Z) : trans :=
  mkT (t_id t) (t_type t) (t_state t) (t_orig t) (t_last t) (t_ack t) (t_dest t) (t_port t)
      (upd (t_len t) x l) (t_start t) (t_topvia t) (t_from t) (t_to t) (t_cid t) (t_cseq t).
Definition set_start (t : trans) (x : timer) (s : timeval) : trans :=
  mkT (t_id t) (t_type t) (t_state t) (t_orig t) (t_last t) (t_ack t) (t_dest t) (t_port t)
      (t_len t) (upd (t_start t) x s) (t_topvia t) (t_from t) (t_to t) (t_cid t) (t_cseq t).

(** "timer_x_length = -1; timer_x_start.tv_sec = -1;" *)
Definition stop_timer (t : trans) (x : timer) : trans :=
  set_start (set_len t x (-1)) x (TV (-1) (tv_usec (t_start t x))).

(** "osip_gettimeofday (&timer_x_start); add_gettimeofday (&timer_x_start, timer_x_length);" *)
Definition start_timer (t : trans) (x : timer) (now : timeval) : trans :=
  set_start t x (add_gettimeofday now (t_len t x)).

(** DEFAULT_T1 ...: osip.h 165-200 *)
Definition T1 : Z := 500.
Definition T1_TCP_PROGRESS : Z := 50.
Definition T2 : Z := 4000.
Definition T4 : Z := 5000.

(** The outside world during one event: the clock, the value cb_send_message returns, the
    address of a message allocated by the handler. *)
Record env := mkEnv { e_now : timeval; e_send : Z; e_fresh : nat }.

(** Is the protocol of a Via reliable: the test repeated at ict.c 83, ist.c 55, nict.c 70,
    nist.c 55, ict_fsm.c 131, nict_fsm.c 159 *)
Definition reliable (proto : str) : bool :=
  strcaseeq proto ($"TCP") || strcaseeq proto ($"TLS") || strcaseeq proto ($"SCTP").

(** osip_message_get_via (m, 0) then via_get_protocol: the protocol of the top Via *)
Inductive topproto := NoVia | NoProto | Proto (p : str).
Definition top_proto (m : message) : topproto :=
  match m_vias m with
  | [] => NoVia
  | v :: _ => match v_protocol v with None => NoProto | Some p => Proto p end
  end.

(** ict_handle_transport_error (ict_fsm.c 88-95) and its three siblings (ist_fsm.c 95-102,
    nict_fsm.c 101-108, nist_fsm.c 89-96); [s] is the TERMINATED state of the machine *)
Definition tp_error (t : trans) (s : state) (err : Z) (o : list out) : res (trans * list out) :=
  Ok (set_state t s, o ++ [OTpErr (t_type t) err; OKill (t_type t)]).

(** "if (x->last_response != NULL) osip_message_free (x->last_response);" *)
Definition free_opt (m : option msg) : list out :=
  match m with Some m => [OFree m] | None => [] end.

(** * INVITE client transaction: ict_fsm.c *)

(** osip_list_get with position 0 / osip_message_get_route (m, 0) *)
Definition top {A} (l : list A) : option A := match l with [] => None | x :: _ => Some x end.

Definition port_or_5060 (p : option str) : Z :=
  match p with Some p => osip_atoi p | None => 5060 end.

(** Destination of a request: ict.c 94-137, nict.c 87-131, ict_fsm.c 386-428.
    Route with the "lr" parameter, else maddr of the Request-URI, else x-obr/x-obp, else its host. *)
Definition request_dest (routes : list nameaddr) (ruri : uri) : option str * Z :=
  let route_url := match top routes with
                   | Some r => match na_url r with
                               | Some u => match param_get (u_params u) ($"lr") with
                                           | Some _ => Some u | None => None end
                               | None => None
                               end
                   | None => None
                   end in
  match route_url with
  | Some u => (u_host u, port_or_5060 (u_port u))
  | None =>
    let port := port_or_5060 (u_port ruri) in
    let value n := match param_get (u_params ruri) n with Some (_, v) => v | None => None end in
    match value ($"maddr") with
    | Some v => (Some v, port)
    | None => match value ($"x-obr"), value ($"x-obp") with
              | Some r, Some p => (Some r, osip_atoi p)
              | _, _ => (u_host ruri, port)
              end
    end
  end.

(** ict_create_ack: ict_fsm.c 233-356.  [None]: the function returned NULL. *)
Definition create_ack (orig resp : message) : option message :=
  match from_clone (m_from resp), from_clone (m_to resp), call_id_clone (m_call_id resp),
        cseq_clone (m_cseq resp), m_version orig, uri_clone (m_uri orig) with
  | Ok f, Ok t, Ok ci, Ok cs, Some ver, Ok u =>
    match via_clone (top (m_vias orig)) with
    | Ok v =>
      match list_clone (fun r => from_clone (Some r)) [] (m_routes orig) with
      | Ok rs =>
        let creds := negb (Z.eqb (m_status resp) 401) && negb (Z.eqb (m_status resp) 407) in
        match (if creds then list_clone authz_clone [] (m_authorizations orig) else Ok []),
              (if creds then list_clone authz_clone [] (m_proxy_authorizations orig) else Ok []) with
        | Ok az, Ok paz =>
          Some (mkMsg (Some ver) (Some u) (Some ($"ACK")) 0 None [] [] [] [] [] [] az (Some ci) [] [] []
                      None None (Some (mkCSeq (Some ($"ACK")) (cs_number cs))) [] (Some f) None
                      [] [] paz [] rs (Some t) [v] [] [] [])
        | _, _ => None
        end
      | _ => None
      end
    | _ => None
    end
  | _, _, _, _, _, _ => None
  end.

(** ict_snd_invite: ict_fsm.c 97-142 *)
Definition ict_snd_invite (e : env) (t : trans) (ev : event) : res (trans * list out) :=
  match ev_sip ev with
  | None => UB
  | Some m =>
    let t := set_orig t (Some m) in
    let i := e_send e in
    let o := [OSend m (t_dest t) (t_port t) i] in
    if i <? 0 then tp_error t ICT_TERMINATED i o
    else
      let finish t := Ok (set_state t ICT_CALLING, o ++ [OCb ICT_INVITE_SENT (Some m)]) in
      if i =? 0 then
        match top_proto (mc m) with
        | NoVia => tp_error t ICT_TERMINATED OSIP_UNDEFINED_ERROR o
        | NoProto => tp_error t ICT_TERMINATED 0 o
        | Proto p => finish (if reliable p then stop_timer t TA else t)
        end
      else finish t
  end.

(** osip_ict_timeout_a_event: ict_fsm.c 144-191 *)
Definition ict_timeout_a (e : env) (t : trans) (ev : event) : res (trans * list out) :=
  let t := set_len t TA (t_len t TA * 2) in
  let t := start_timer t TA (e_now e) in
  match t_orig t with
  | None => UB
  | Some m =>
    let i := e_send e in
    let o := [OSend m (t_dest t) (t_port t) i] in
    if i <? 0 then tp_error t ICT_TERMINATED i o
    else if i =? 0 then
      match top_proto (mc m) with
      | NoVia => tp_error t ICT_TERMINATED OSIP_UNDEFINED_ERROR o
      | NoProto => tp_error t ICT_TERMINATED 0 o
      | Proto p => Ok (if reliable p then stop_timer t TA else t,
                       o ++ [OCb ICT_INVITE_SENT_AGAIN (Some m)])
      end
    else Ok (t, o)
  end.

(** osip_ict_timeout_b_event: ict_fsm.c 193-202 *)
Definition ict_timeout_b (e : env) (t : trans) (ev : event) : res (trans * list out) :=
  let t := stop_timer t TB in
  Ok (set_state t ICT_TERMINATED, [OCb ICT_STATUS_TIMEOUT (ev_sip ev); OKill (t_type t)]).

(** ict_rcv_1xx: ict_fsm.c 204-215 *)
Definition ict_rcv_1xx (e : env) (t : trans) (ev : event) : res (trans * list out) :=
  match ev_sip ev with
  | None => UB
  | Some m =>
    let o := free_opt (t_last t) in
    let t := set_last t (Some m) in
    Ok (set_state t ICT_PROCEEDING, o ++ [OCb ICT_STATUS_1XX_RECEIVED (Some m)])
  end.

(** ict_rcv_2xx: ict_fsm.c 217-231 *)
Definition ict_rcv_2xx (e : env) (t : trans) (ev : event) : res (trans * list out) :=
  match ev_sip ev with
  | None => UB
  | Some m =>
    let o := free_opt (t_last t) in
    let t := set_last t (Some m) in
    Ok (set_state t ICT_TERMINATED, o ++ [OCb ICT_STATUS_2XX_RECEIVED (Some m); OKill (t_type t)])
  end.

Definition final_cb (c3 c4 c5 c6 : cb) (m : message) : cb :=
  if is_3xx m then c3 else if is_4xx m then c4 else if is_5xx m then c5 else c6.

Definition is_ict_completed (s : state) : bool := match s with ICT_COMPLETED => true | _ => false end.

(** ict_rcv_3456xx: ict_fsm.c 358-451 *)
Definition ict_rcv_3456xx (e : env) (t : trans) (ev : event) : res (trans * list out) :=
  match ev_sip ev with
  | None => UB
  | Some m =>
    let o := free_opt (t_last t) in
    let t := set_last t (Some m) in
    let finish (t : trans) (o : list out) :=
      Ok (set_state (start_timer t TD (e_now e)) ICT_COMPLETED, o) in
    if is_ict_completed (t_state t) then finish t o
    else
      match t_orig t with
      | None => UB
      | Some orig =>
        match create_ack (mc orig) (mc m) with
        | None => Ok (set_state (set_ack t None) ICT_TERMINATED, o ++ [OKill (t_type t)])
        | Some a =>
          let ack := Msg (e_fresh e) a in
          let t := set_ack t (Some ack) in
          let t := match t_dest t with
                   | Some _ => t
                   | None => match m_uri a with
                             | Some u => let d := request_dest (m_routes a) u in set_dest t (fst d) (snd d)
                             | None => t
                             end
                   end in
          let i := e_send e in
          let o := o ++ [OSend ack (t_dest t) (t_port t) i] in
          if negb (i =? 0) then tp_error t ICT_TERMINATED i o
          else finish t (o ++ [OCb (final_cb ICT_STATUS_3XX_RECEIVED ICT_STATUS_4XX_RECEIVED
                                             ICT_STATUS_5XX_RECEIVED ICT_STATUS_6XX_RECEIVED (mc m)) (Some m);
                               OCb ICT_ACK_SENT (Some ack)])
        end
      end
  end.

(** osip_ict_timeout_d_event: ict_fsm.c 453-461 *)
Definition ict_timeout_d (e : env) (t : trans) (ev : event) : res (trans * list out) :=
  let t := stop_timer t TD in
  Ok (set_state t ICT_TERMINATED, [OKill (t_type t)]).

(** ict_retransmit_ack: ict_fsm.c 463-486 *)
Definition ict_retransmit_ack (e : env) (t : trans) (ev : event) : res (trans * list out) :=
  match ev_sip ev, t_ack t with
  | Some m, Some ack =>
    let i := e_send e in
    let o := [OCb ICT_STATUS_3456XX_RECEIVED_AGAIN (Some m); OFree m; OSend ack (t_dest t) (t_port t) i] in
    if i =? 0 then Ok (set_state t ICT_COMPLETED, o ++ [OCb ICT_ACK_SENT_AGAIN (Some ack)])
    else tp_error t ICT_TERMINATED i o
  | _, _ => UB
  end.

(** * Server transactions *)

(** __osip_transaction_snd_xxx: osip_transaction.c 798-841.  Returns the outputs and the
    function's result. *)
Definition response_dest (v : via) : option str * Z :=
  let g n := param_get (v_params v) n in
  let host := match g ($"maddr") with
              | Some (_, x) => x
              | None => match g ($"received") with Some (_, x) => x | None => v_host v end
              end in
  let port := match g ($"rport") with
              | Some (_, Some p) => osip_atoi p
              | _ => port_or_5060 (v_port v)
              end in
  (host, port).

Definition snd_xxx (e : env) (m : msg) : list out * Z :=
  match m_vias (mc m) with
  | [] => ([], OSIP_SYNTAXERROR)
  | v :: _ => let d := response_dest v in ([OSend m (fst d) (snd d) (e_send e)], e_send e)
  end.

Definition is_ist_preproceeding (s : state) : bool := match s with IST_PRE_PROCEEDING => true | _ => false end.

Definition again_cb (c1 c2 c3 : cb) (m : message) : cb :=
  if is_1xx m then c1 else if is_2xx m then c2 else c3.

(** ist_rcv_invite: ist_fsm.c 104-142 *)
Definition ist_rcv_invite (e : env) (t : trans) (ev : event) : res (trans * list out) :=
  match ev_sip ev with
  | None => UB
  | Some m =>
    if is_ist_preproceeding (t_state t) then
      Ok (set_state (set_orig t (Some m)) IST_PROCEEDING, [OCb IST_INVITE_RECEIVED (Some m)])
    else
      let o := [OFree m; OCb IST_INVITE_RECEIVED_AGAIN (t_orig t)] in
      match t_last t with
      | None => Ok (t, o)
      | Some r =>
        let '(so, i) := snd_xxx e r in
        if negb (i =? 0) then tp_error t IST_TERMINATED i (o ++ so)
        else Ok (t, o ++ so ++ [OCb (again_cb IST_STATUS_1XX_SENT IST_STATUS_2XX_SENT_AGAIN
                                              IST_STATUS_3456XX_SENT_AGAIN (mc r)) (Some r)])
      end
  end.

(** osip_ist_timeout_g_event: ist_fsm.c 144-161 *)
Definition ist_timeout_g (e : env) (t : trans) (ev : event) : res (trans * list out) :=
  let l := t_len t TG * 2 in
  let t := set_len t TG (if l >? T2 then T2 else l) in
  let t := start_timer t TG (e_now e) in
  match t_last t with
  | None => UB
  | Some r =>
    let '(so, i) := snd_xxx e r in
    if negb (i =? 0) then tp_error t IST_TERMINATED i so
    else Ok (t, so ++ [OCb IST_STATUS_3456XX_SENT_AGAIN (Some r)])
  end.

(** osip_ist_timeout_h_event: ist_fsm.c 163-171 *)
Definition ist_timeout_h (e : env) (t : trans) (ev : event) : res (trans * list out) :=
  Ok (set_state (stop_timer t TH) IST_TERMINATED, [OKill (t_type t)]).

(** osip_ist_timeout_i_event: ist_fsm.c 173-181 *)
Definition ist_timeout_i (e : env) (t : trans) (ev : event) : res (trans * list out) :=
  Ok (set_state (stop_timer t TI) IST_TERMINATED, [OKill (t_type t)]).

(** ist_snd_1xx: ist_fsm.c 183-203 *)
Definition ist_snd_1xx (e : env) (t : trans) (ev : event) : res (trans * list out) :=
  match ev_sip ev with
  | None => UB
  | Some m =>
    let o := free_opt (t_last t) in
    let t := set_last t (Some m) in
    let '(so, i) := snd_xxx e m in
    if negb (i =? 0) then tp_error t IST_TERMINATED i (o ++ so)
    else Ok (t, o ++ so ++ [OCb IST_STATUS_1XX_SENT (Some m)])
  end.

(** ist_snd_2xx: ist_fsm.c 205-226 *)
Definition ist_snd_2xx (e : env) (t : trans) (ev : event) : res (trans * list out) :=
  match ev_sip ev with
  | None => UB
  | Some m =>
    let o := free_opt (t_last t) in
    let t := set_last t (Some m) in
    let '(so, i) := snd_xxx e m in
    if negb (i =? 0) then tp_error t IST_TERMINATED i (o ++ so)
    else Ok (set_state t IST_TERMINATED, o ++ so ++ [OCb IST_STATUS_2XX_SENT (Some m); OKill (t_type t)])
  end.

(** ist_snd_3456xx: ist_fsm.c 228-262 *)
Definition ist_snd_3456xx (e : env) (t : trans) (ev : event) : res (trans * list out) :=
  match ev_sip ev with
  | None => UB
  | Some m =>
    let o := free_opt (t_last t) in
    let t := set_last t (Some m) in
    let '(so, i) := snd_xxx e m in
    if negb (i =? 0) then tp_error t IST_TERMINATED i (o ++ so)
    else
      let t := if negb (t_len t TG =? -1) then start_timer t TG (e_now e) else t in
      let t := start_timer t TH (e_now e) in
      Ok (set_state t IST_COMPLETED,
          o ++ so ++ [OCb (final_cb IST_STATUS_3XX_SENT IST_STATUS_4XX_SENT IST_STATUS_5XX_SENT
                                    IST_STATUS_6XX_SENT (mc m)) (Some m)])
  end.

Definition is_ist_completed (s : state) : bool := match s with IST_COMPLETED => true | _ => false end.

(** ist_rcv_ack: ist_fsm.c 264-280 *)
Definition ist_rcv_ack (e : env) (t : trans) (ev : event) : res (trans * list out) :=
  match ev_sip ev with
  | None => UB
  | Some m =>
    let o := free_opt (t_ack t) in
    let t := set_ack t (Some m) in
    let c := if is_ist_completed (t_state t) then IST_ACK_RECEIVED else IST_ACK_RECEIVED_AGAIN in
    Ok (set_state (start_timer t TI (e_now e)) IST_CONFIRMED, o ++ [OCb c (Some m)])
  end.

(** * Non-INVITE client transaction: nict_fsm.c *)

(** The method to callback choice of nict_fsm.c 122-137 and nist_fsm.c 106-121 *)
Definition method_cb (cREG cBYE cOPT cINF cCAN cNOT cSUB cUNK : cb) (m : message) : cb :=
  if is_method ($"REGISTER") m then cREG
  else if is_method ($"BYE") m then cBYE
  else if is_method ($"OPTIONS") m then cOPT
  else if is_method ($"INFO") m then cINF
  else if is_method ($"CANCEL") m then cCAN
  else if is_method ($"NOTIFY") m then cNOT
  else if is_method ($"SUBSCRIBE") m then cSUB
  else cUNK.

Definition nict_sent_cb := method_cb NICT_REGISTER_SENT NICT_BYE_SENT NICT_OPTIONS_SENT NICT_INFO_SENT
                                     NICT_CANCEL_SENT NICT_NOTIFY_SENT NICT_SUBSCRIBE_SENT
                                     NICT_UNKNOWN_REQUEST_SENT.

(** nict_snd_request: nict_fsm.c 110-186 *)
Definition nict_snd_request (e : env) (t : trans) (ev : event) : res (trans * list out) :=
  match ev_sip ev with
  | None => UB
  | Some m =>
    let t := set_orig t (Some m) in
    let i := e_send e in
    let o := [OSend m (t_dest t) (t_port t) i] in
    if i >=? 0 then
      let o := o ++ [OCb (nict_sent_cb (mc m)) (Some m)] in
      match top_proto (mc m) with
      | NoVia => tp_error t NICT_TERMINATED (-1) o
      | NoProto => tp_error t NICT_TERMINATED (-1) o
      | Proto p =>
        let t := if i =? 0 then (if reliable p then stop_timer t TE else t)
                 else (if reliable p then set_len t TE T1_TCP_PROGRESS else t) in
        let t := if t_len t TE >? 0 then start_timer t TE (e_now e) else t in
        Ok (set_state t NICT_TRYING, o)
      end
    else tp_error t NICT_TERMINATED i o
  end.

Definition is_nict_trying (s : state) : bool := match s with NICT_TRYING => true | _ => false end.

(** osip_nict_timeout_e_event: nict_fsm.c 188-243 *)
Definition nict_timeout_e (e : env) (t : trans) (ev : event) : res (trans * list out) :=
  let l := if is_nict_trying (t_state t) then
             let l := if t_len t TE <? T1 then t_len t TE + T1_TCP_PROGRESS else t_len t TE * 2 in
             if l >? T2 then T2 else l
           else T2 in
  let t := start_timer (set_len t TE l) TE (e_now e) in
  match t_orig t with
  | None => UB
  | Some m =>
    let i := e_send e in
    let o := [OSend m (t_dest t) (t_port t) i] in
    if i <? 0 then tp_error t NICT_TERMINATED i o
    else if i =? 0 then
      match top_proto (mc m) with
      | NoVia => tp_error t NICT_TERMINATED (-1) o
      | NoProto => tp_error t NICT_TERMINATED (-1) o
      | Proto p => Ok (if reliable p then stop_timer t TE else t,
                       o ++ [OCb NICT_REQUEST_SENT_AGAIN (Some m)])
      end
    else Ok (t, o)
  end.

(** osip_nict_timeout_f_event: nict_fsm.c 245-254 *)
Definition nict_timeout_f (e : env) (t : trans) (ev : event) : res (trans * list out) :=
  Ok (set_state (stop_timer t TF) NICT_TERMINATED,
      [OCb NICT_STATUS_TIMEOUT (ev_sip ev); OKill (t_type t)]).

(** osip_nict_timeout_k_event: nict_fsm.c 256-264 *)
Definition nict_timeout_k (e : env) (t : trans) (ev : event) : res (trans * list out) :=
  Ok (set_state (stop_timer t TK) NICT_TERMINATED, [OKill (t_type t)]).

(** nict_rcv_1xx: nict_fsm.c 266-285 *)
Definition nict_rcv_1xx (e : env) (t : trans) (ev : event) : res (trans * list out) :=
  match ev_sip ev with
  | None => UB
  | Some m =>
    let o := free_opt (t_last t) in
    let t := set_last t (Some m) in
    let t := if t_len t TE >? 0 then start_timer (set_len t TE T2) TE (e_now e) else t in
    Ok (set_state t NICT_PROCEEDING, o ++ [OCb NICT_STATUS_1XX_RECEIVED (Some m)])
  end.

(** nict_rcv_23456xx: nict_fsm.c 287-311.  The test [nict->state != NICT_COMPLETED] of line
    306 is always true: the table calls the handler in TRYING and PROCEEDING only. *)
Definition is_nict_completed (s : state) : bool := match s with NICT_COMPLETED => true | _ => false end.

Definition nict_rcv_23456xx (e : env) (t : trans) (ev : event) : res (trans * list out) :=
  match ev_sip ev with
  | None => UB
  | Some m =>
    let o := free_opt (t_last t) in
    let t := set_last t (Some m) in
    let c := match ev_type ev with
             | RCV_STATUS_2XX => NICT_STATUS_2XX_RECEIVED
             | _ => final_cb NICT_STATUS_3XX_RECEIVED NICT_STATUS_4XX_RECEIVED NICT_STATUS_5XX_RECEIVED
                             NICT_STATUS_6XX_RECEIVED (mc m)
             end in
    let t := if is_nict_completed (t_state t) then t else start_timer t TK (e_now e) in
    Ok (set_state t NICT_COMPLETED, o ++ [OCb c (Some m)])
  end.

(** * Non-INVITE server transaction: nist_fsm.c *)
Definition is_nist_pretrying (s : state) : bool := match s with NIST_PRE_TRYING => true | _ => false end.
Definition is_nist_completed (s : state) : bool := match s with NIST_COMPLETED => true | _ => false end.

Definition nist_rcv_cb := method_cb NIST_REGISTER_RECEIVED NIST_BYE_RECEIVED NIST_OPTIONS_RECEIVED
                                    NIST_INFO_RECEIVED NIST_CANCEL_RECEIVED NIST_NOTIFY_RECEIVED
                                    NIST_SUBSCRIBE_RECEIVED NIST_UNKNOWN_REQUEST_RECEIVED.

(** nist_rcv_request: nist_fsm.c 98-155 *)
Definition nist_rcv_request (e : env) (t : trans) (ev : event) : res (trans * list out) :=
  match ev_sip ev with
  | None => UB
  | Some m =>
    if is_nist_pretrying (t_state t) then
      Ok (set_state (set_orig t (Some m)) NIST_TRYING, [OCb (nist_rcv_cb (mc m)) (Some m)])
    else
      let o := [OFree m; OCb NIST_REQUEST_RECEIVED_AGAIN (t_orig t)] in
      match t_last t with
      | None => Ok (t, o)
      | Some r =>
        let '(so, i) := snd_xxx e r in
        if negb (i =? 0) then tp_error t NIST_TERMINATED i (o ++ so)
        else Ok (t, o ++ so ++ [OCb (again_cb NIST_STATUS_1XX_SENT NIST_STATUS_2XX_SENT_AGAIN
                                              NIST_STATUS_3456XX_SENT_AGAIN (mc r)) (Some r)])
      end
  end.

(** nist_snd_1xx: nist_fsm.c 157-176 *)
Definition nist_snd_1xx (e : env) (t : trans) (ev : event) : res (trans * list out) :=
  match ev_sip ev with
  | None => UB
  | Some m =>
    let o := free_opt (t_last t) in
    let t := set_last t (Some m) in
    let '(so, i) := snd_xxx e m in
    if negb (i =? 0) then tp_error t NIST_TERMINATED i (o ++ so)
    else Ok (set_state t NIST_PROCEEDING, o ++ so ++ [OCb NIST_STATUS_1XX_SENT (Some m)])
  end.

(** nist_snd_23456xx: nist_fsm.c 178-209 *)
Definition nist_snd_23456xx (e : env) (t : trans) (ev : event) : res (trans * list out) :=
  match ev_sip ev with
  | None => UB
  | Some m =>
    let o := free_opt (t_last t) in
    let t := set_last t (Some m) in
    let '(so, i) := snd_xxx e m in
    if negb (i =? 0) then tp_error t NIST_TERMINATED i (o ++ so)
    else
      let c := match ev_type ev with
               | SND_STATUS_2XX => NIST_STATUS_2XX_SENT
               | _ => final_cb NIST_STATUS_3XX_SENT NIST_STATUS_4XX_SENT NIST_STATUS_5XX_SENT
                               NIST_STATUS_6XX_SENT (mc m)
               end in
      let t := if is_nist_completed (t_state t) then t else start_timer t TJ (e_now e) in
      Ok (set_state t NIST_COMPLETED, o ++ so ++ [OCb c (Some m)])
  end.

(** osip_nist_timeout_j_event: nist_fsm.c 212-220 *)
Definition nist_timeout_j (e : env) (t : trans) (ev : event) : res (trans * list out) :=
  Ok (set_state (stop_timer t TJ) NIST_TERMINATED, [OKill (t_type t)]).

(** * Transition tables *)

Definition handler := env -> trans -> event -> res (trans * list out).

(** ict_transition: ict_fsm.c 26-84 *)
Definition ict_table : list (state * etype * handler) :=
  [ (ICT_PRE_CALLING, SND_REQINVITE, ict_snd_invite);
    (ICT_CALLING, TIMEOUT_A, ict_timeout_a);
    (ICT_CALLING, TIMEOUT_B, ict_timeout_b);
    (ICT_CALLING, RCV_STATUS_1XX, ict_rcv_1xx);
    (ICT_CALLING, RCV_STATUS_2XX, ict_rcv_2xx);
    (ICT_CALLING, RCV_STATUS_3456XX, ict_rcv_3456xx);
    (ICT_PROCEEDING, RCV_STATUS_1XX, ict_rcv_1xx);
    (ICT_PROCEEDING, RCV_STATUS_2XX, ict_rcv_2xx);
    (ICT_PROCEEDING, RCV_STATUS_3456XX, ict_rcv_3456xx);
    (ICT_COMPLETED, RCV_STATUS_3456XX, ict_retransmit_ack);
    (ICT_COMPLETED, TIMEOUT_D, ict_timeout_d) ].

(** ist_transition: ist_fsm.c 25-91 *)
Definition ist_table : list (state * etype * handler) :=
  [ (IST_PRE_PROCEEDING, RCV_REQINVITE, ist_rcv_invite);
    (IST_PROCEEDING, RCV_REQINVITE, ist_rcv_invite);
    (IST_COMPLETED, RCV_REQINVITE, ist_rcv_invite);
    (IST_COMPLETED, TIMEOUT_G, ist_timeout_g);
    (IST_COMPLETED, TIMEOUT_H, ist_timeout_h);
    (IST_PROCEEDING, SND_STATUS_1XX, ist_snd_1xx);
    (IST_PROCEEDING, SND_STATUS_2XX, ist_snd_2xx);
    (IST_PROCEEDING, SND_STATUS_3456XX, ist_snd_3456xx);
    (IST_COMPLETED, RCV_REQACK, ist_rcv_ack);
    (IST_CONFIRMED, RCV_REQACK, ist_rcv_ack);
    (IST_CONFIRMED, TIMEOUT_I, ist_timeout_i) ].

(** nict_transition: nict_fsm.c 25-97 *)
Definition nict_table : list (state * etype * handler) :=
  [ (NICT_PRE_TRYING, SND_REQUEST, nict_snd_request);
    (NICT_TRYING, TIMEOUT_F, nict_timeout_f);
    (NICT_TRYING, TIMEOUT_E, nict_timeout_e);
    (NICT_TRYING, RCV_STATUS_1XX, nict_rcv_1xx);
    (NICT_TRYING, RCV_STATUS_2XX, nict_rcv_23456xx);
    (NICT_TRYING, RCV_STATUS_3456XX, nict_rcv_23456xx);
    (NICT_PROCEEDING, TIMEOUT_F, nict_timeout_f);
    (NICT_PROCEEDING, TIMEOUT_E, nict_timeout_e);
    (NICT_PROCEEDING, RCV_STATUS_1XX, nict_rcv_1xx);
    (NICT_PROCEEDING, RCV_STATUS_2XX, nict_rcv_23456xx);
    (NICT_PROCEEDING, RCV_STATUS_3456XX, nict_rcv_23456xx);
    (NICT_COMPLETED, TIMEOUT_K, nict_timeout_k) ].

(** nist_transition: nist_fsm.c 25-85 *)
Definition nist_table : list (state * etype * handler) :=
  [ (NIST_PRE_TRYING, RCV_REQUEST, nist_rcv_request);
    (NIST_TRYING, SND_STATUS_1XX, nist_snd_1xx);
    (NIST_TRYING, SND_STATUS_2XX, nist_snd_23456xx);
    (NIST_TRYING, SND_STATUS_3456XX, nist_snd_23456xx);
    (NIST_PROCEEDING, SND_STATUS_1XX, nist_snd_1xx);
    (NIST_PROCEEDING, SND_STATUS_2XX, nist_snd_23456xx);
    (NIST_PROCEEDING, SND_STATUS_3456XX, nist_snd_23456xx);
    (NIST_PROCEEDING, RCV_REQUEST, nist_rcv_request);
    (NIST_COMPLETED, TIMEOUT_J, nist_timeout_j);
    (NIST_COMPLETED, RCV_REQUEST, nist_rcv_request) ].

Definition state_num (s : state) : nat :=
  match s with
  | ICT_PRE_CALLING => 0 | ICT_CALLING => 1 | ICT_PROCEEDING => 2 | ICT_COMPLETED => 3 | ICT_TERMINATED => 4
  | IST_PRE_PROCEEDING => 5 | IST_PROCEEDING => 6 | IST_COMPLETED => 7 | IST_CONFIRMED => 8 | IST_TERMINATED => 9
  | NICT_PRE_TRYING => 10 | NICT_TRYING => 11 | NICT_PROCEEDING => 12 | NICT_COMPLETED => 13 | NICT_TERMINATED => 14
  | NIST_PRE_TRYING => 15 | NIST_TRYING => 16 | NIST_PROCEEDING => 17 | NIST_COMPLETED => 18 | NIST_TERMINATED => 19
  end.
Definition state_eqb (a b : state) : bool := Nat.eqb (state_num a) (state_num b).

Definition etype_num (e : etype) : nat :=
  match e with
  | TIMEOUT_A => 0 | TIMEOUT_B => 1 | TIMEOUT_D => 2 | TIMEOUT_E => 3 | TIMEOUT_F => 4 | TIMEOUT_K => 5
  | TIMEOUT_G => 6 | TIMEOUT_H => 7 | TIMEOUT_I => 8 | TIMEOUT_J => 9
  | RCV_REQINVITE => 10 | RCV_REQACK => 11 | RCV_REQUEST => 12
  | RCV_STATUS_1XX => 13 | RCV_STATUS_2XX => 14 | RCV_STATUS_3456XX => 15
  | SND_REQINVITE => 16 | SND_REQACK => 17 | SND_REQUEST => 18
  | SND_STATUS_1XX => 19 | SND_STATUS_2XX => 20 | SND_STATUS_3456XX => 21
  | KILL_TRANSACTION => 22 | UNKNOWN_EVT => 23
  end%nat.
Definition etype_eqb (a b : etype) : bool := Nat.eqb (etype_num a) (etype_num b).

(** fsm_callmethod / fsm_findmethod (fsm_misc.c 30-55): first entry with this state and event *)
Definition lookup (tbl : list (state * etype * handler)) (s : state) (e : etype) : option handler :=
  match find (fun x => state_eqb (fst (fst x)) s && etype_eqb (snd (fst x)) e) tbl with
  | Some (_, h) => Some h
  | None => None
  end.

Definition table (k : fsm) : list (state * etype * handler) :=
  match k with ICT => ict_table | IST => ist_table | NICT => nict_table | NIST => nist_table end.

(** EVT_IS_MSG: osip.h 1157-1162 *)
Definition evt_is_msg (e : etype) : bool := Nat.leb 10 (etype_num e) && Nat.leb (etype_num e) 21.

(** osip_transaction_execute: osip_transaction.c 334-377 *)
Definition execute (e : env) (t : trans) (ev : event) : res (Z * trans * list out) :=
  match ev_type ev with
  | KILL_TRANSACTION => Ok (OSIP_SUCCESS, t, [])
  | ty =>
    match lookup (table (t_type t)) (t_state t) ty with
    | Some h => do r <- h e t ev ; Ok (1, fst r, snd r)
    | None => Ok (1, t, if evt_is_msg ty then free_opt (ev_sip ev) else [])
    end
  end.

(** * Event construction: osip_event.c *)

(** evt_set_type_incoming_sipmessage: osip_event.c 115-132 *)
Definition incoming_type (m : message) : etype :=
  if is_request m then
    if is_method ($"INVITE") m then RCV_REQINVITE
    else if is_method ($"ACK") m then RCV_REQACK
    else RCV_REQUEST
  else if is_1xx m then RCV_STATUS_1XX
  else if is_2xx m then RCV_STATUS_2XX
  else RCV_STATUS_3456XX.

(** evt_set_type_outgoing_sipmessage: osip_event.c 134-152 *)
Definition outgoing_type (m : message) : etype :=
  if is_request m then
    if is_method ($"INVITE") m then SND_REQINVITE
    else if is_method ($"ACK") m then SND_REQACK
    else SND_REQUEST
  else if is_1xx m then SND_STATUS_1XX
  else if is_2xx m then SND_STATUS_2XX
  else SND_STATUS_3456XX.

(** osip_new_outgoing_sipmessage: osip_event.c 92-113 (None: NULL) *)
Definition new_outgoing (m : option msg) : option event :=
  match m with
  | None => None
  | Some m =>
    if is_request (mc m) then
      match m_method (mc m), m_uri (mc m) with
      | Some _, Some _ => Some (Ev (outgoing_type (mc m)) (Some m))
      | _, _ => None
      end
    else Some (Ev (outgoing_type (mc m)) (Some m))
  end.

(** The part of osip_parse (osip_event.c 28-67) after a successful osip_message_parse *)
Definition parsed_event (m : msg) : option event :=
  if is_request (mc m) then
    match m_method (mc m), m_uri (mc m) with
    | Some _, Some _ => Some (Ev (incoming_type (mc m)) (Some m))
    | _, _ => None
    end
  else Some (Ev (incoming_type (mc m)) (Some m)).

(** * Creation *)

Definition off : timeval := TV (-1) 0.

(** The timers set by __osip_ict_init (ict.c 36-140), __osip_ist_init (ist.c 26-73),
    __osip_nict_init (nict.c 27-140), __osip_nist_init (nist.c 27-66).  Timers of the other
    machines do not exist in C; they are given length 0 and the stopped mark here. *)
Definition init_len (k : fsm) (rel : bool) : timer -> Z := fun x =>
  match k, x with
  | ICT, TA => T1
  | ICT, TB => 64 * T1
  | ICT, TD => if rel then 0 else (if 64 * T1 <? 32000 then 32000 else 64 * T1)
  | IST, TG => if rel then -1 else T1
  | IST, TI => if rel then 0 else T4
  | IST, TH => 64 * T1
  | NICT, TE => T1
  | NICT, TK => if rel then 0 else T4
  | NICT, TF => 64 * T1
  | NIST, TJ => if rel then 0 else 64 * T1
  | _, _ => 0
  end.

Definition init_start (k : fsm) (now : timeval) : timer -> timeval := fun x =>
  match k, x with
  | ICT, TA => add_gettimeofday now T1
  | ICT, TB => add_gettimeofday now (64 * T1)
  | NICT, TF => add_gettimeofday now (64 * T1)
  | _, _ => off
  end.

Definition init_state (k : fsm) : state :=
  match k with
  | ICT => ICT_PRE_CALLING | IST => IST_PRE_PROCEEDING
  | NICT => NICT_PRE_TRYING | NIST => NIST_PRE_TRYING
  end.

(** osip_transaction_init: osip_transaction.c 111-239, for a request [m]; [id] is the value of
    osip->transactionid.  The C code dereferences a NULL Request-URI for a client transaction
    without usable route: that is [UB].  For an INVITE client transaction a top Via without
    protocol frees the context twice (ict.c 48-53 then osip_transaction_free): also [UB] - but it
    cannot happen here because via_clone already refused such a Via (osip_via.c 427). *)
Definition trans_init (k : fsm) (now : timeval) (id : Z) (m : option message) : res trans :=
  match m with
  | None => Err OSIP_BADPARAMETER
  | Some m =>
    match m_call_id m with
    | None => Err OSIP_BADPARAMETER
    | Some ci =>
      match ci_number ci with
      | None => Err OSIP_BADPARAMETER
      | Some _ =>
        match m_vias m with
        | [] => Err OSIP_SYNTAXERROR
        | v :: _ =>
          do tv <- via_clone (Some v) ;
          do fr <- from_clone (m_from m) ;
          do to <- from_clone (m_to m) ;
          do ci' <- call_id_clone (Some ci) ;
          do cs <- cseq_clone (m_cseq m) ;
          match v_protocol v with
          | None => match k with ICT => UB | _ => Err OSIP_UNDEFINED_ERROR end
          | Some p =>
            let rel := reliable p in
            let mk d := mkT id k (init_state k) None None None (fst d) (snd d)
                            (init_len k rel) (init_start k now) tv fr to ci' cs in
            match k with
            | ICT | NICT =>
              match m_uri m with
              | Some u => Ok (mk (request_dest (m_routes m) u))
              | None => match top (m_routes m) with
                        | Some r => match na_url r with
                                    | Some u => match param_get (u_params u) ($"lr") with
                                                | Some _ => Ok (mk (u_host u, port_or_5060 (u_port u)))
                                                | None => UB
                                                end
                                    | None => UB
                                    end
                        | None => UB
                        end
              end
            | IST | NIST => Ok (mk (None, 0))
            end
          end
        end
      end
    end
  end.

(** * Timers: __osip_transaction_need_timer_x_event, osip_transaction.c 779-795 *)
Definition timer_due (t : trans) (x : timer) (now : timeval) : bool :=
  negb (tv_sec (t_start t x) =? -1) && timer_gt now (t_start t x).

(** Events executed one after the other on a transaction (the loops of osip_ict_execute,
    osip.c 1071-1089, and its three siblings), each in its own environment; the second
    component lists what each event made the code do. *)
Fixpoint run (t : trans) (l : list (env * event)) : res (trans * list (list out)) :=
  match l with
  | [] => Ok (t, [])
  | (e, ev) :: l' =>
    do r <- execute e t ev ;
    let '(_, t1, o) := r in
    do r2 <- run t1 l' ;
    Ok (fst r2, o :: snd r2)
  end.

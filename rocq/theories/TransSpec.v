(** Specification side of the transaction properties: RFC 3261 state diagrams, what counts as
    a report to the application, and what an API user can feed to a transaction. *)
From Coq Require Import String ZArith Ascii Bool List.
From Verif Require Import Base Str Types TimeModel PortModel TransModel.
Import ListNotations.
Open Scope Z_scope.

(** Freeing memory is not observable; everything else is. *)
Definition visible (o : out) : bool := match o with OFree _ => false | _ => true end.
Definition is_kill (o : out) : bool := match o with OKill _ => true | _ => false end.
Definition is_tperr (o : out) : bool := match o with OTpErr _ _ => true | _ => false end.
Definition is_send (o : out) : bool := match o with OSend _ _ _ _ => true | _ => false end.
Definition count {A} (f : A -> bool) (l : list A) : nat := length (filter f l).

Definition terminated (s : state) : Prop :=
  s = ICT_TERMINATED \/ s = IST_TERMINATED \/ s = NICT_TERMINATED \/ s = NIST_TERMINATED.

(** A transaction as osip_transaction_init leaves it. *)
Definition fresh (t : trans) : Prop :=
  exists k now id m, trans_init k now id (Some m) = Ok t.

(** * RFC 3261 section 17 figures 5 to 8 *)

(** What drives a diagram: a request or response, from the user above or from the network,
    a timer, or the transport failing. *)
Inductive label :=
| L_request | L_ack | L_1xx | L_2xx | L_3456xx | L_timer (x : timer) | L_transport_error.

(** Figure 5, INVITE client transaction.  [None] is the point before the transaction exists. *)
Inductive fig5 : option state -> label -> state -> Prop :=
| f5_start : fig5 None L_request ICT_CALLING
| f5_A : fig5 (Some ICT_CALLING) (L_timer TA) ICT_CALLING
| f5_B : fig5 (Some ICT_CALLING) (L_timer TB) ICT_TERMINATED
| f5_err1 : fig5 (Some ICT_CALLING) L_transport_error ICT_TERMINATED
| f5_c1 : fig5 (Some ICT_CALLING) L_1xx ICT_PROCEEDING
| f5_c2 : fig5 (Some ICT_CALLING) L_2xx ICT_TERMINATED
| f5_c3 : fig5 (Some ICT_CALLING) L_3456xx ICT_COMPLETED
| f5_p1 : fig5 (Some ICT_PROCEEDING) L_1xx ICT_PROCEEDING
| f5_p2 : fig5 (Some ICT_PROCEEDING) L_2xx ICT_TERMINATED
| f5_p3 : fig5 (Some ICT_PROCEEDING) L_3456xx ICT_COMPLETED
| f5_k3 : fig5 (Some ICT_COMPLETED) L_3456xx ICT_COMPLETED
| f5_err2 : fig5 (Some ICT_COMPLETED) L_transport_error ICT_TERMINATED
| f5_D : fig5 (Some ICT_COMPLETED) (L_timer TD) ICT_TERMINATED.

(** Figure 6, non-INVITE client transaction *)
Inductive fig6 : option state -> label -> state -> Prop :=
| f6_start : fig6 None L_request NICT_TRYING
| f6_E : fig6 (Some NICT_TRYING) (L_timer TE) NICT_TRYING
| f6_F : fig6 (Some NICT_TRYING) (L_timer TF) NICT_TERMINATED
| f6_err1 : fig6 (Some NICT_TRYING) L_transport_error NICT_TERMINATED
| f6_t1 : fig6 (Some NICT_TRYING) L_1xx NICT_PROCEEDING
| f6_t2 : fig6 (Some NICT_TRYING) L_2xx NICT_COMPLETED
| f6_t3 : fig6 (Some NICT_TRYING) L_3456xx NICT_COMPLETED
| f6_pE : fig6 (Some NICT_PROCEEDING) (L_timer TE) NICT_PROCEEDING
| f6_pF : fig6 (Some NICT_PROCEEDING) (L_timer TF) NICT_TERMINATED
| f6_err2 : fig6 (Some NICT_PROCEEDING) L_transport_error NICT_TERMINATED
| f6_p1 : fig6 (Some NICT_PROCEEDING) L_1xx NICT_PROCEEDING
| f6_p2 : fig6 (Some NICT_PROCEEDING) L_2xx NICT_COMPLETED
| f6_p3 : fig6 (Some NICT_PROCEEDING) L_3456xx NICT_COMPLETED
| f6_K : fig6 (Some NICT_COMPLETED) (L_timer TK) NICT_TERMINATED.

(** Figure 7, INVITE server transaction ("absorb any additional ACK" in Confirmed, 17.2.1) *)
Inductive fig7 : option state -> label -> state -> Prop :=
| f7_start : fig7 None L_request IST_PROCEEDING
| f7_pi : fig7 (Some IST_PROCEEDING) L_request IST_PROCEEDING
| f7_p1 : fig7 (Some IST_PROCEEDING) L_1xx IST_PROCEEDING
| f7_p2 : fig7 (Some IST_PROCEEDING) L_2xx IST_TERMINATED
| f7_p3 : fig7 (Some IST_PROCEEDING) L_3456xx IST_COMPLETED
| f7_err1 : fig7 (Some IST_PROCEEDING) L_transport_error IST_TERMINATED
| f7_ci : fig7 (Some IST_COMPLETED) L_request IST_COMPLETED
| f7_G : fig7 (Some IST_COMPLETED) (L_timer TG) IST_COMPLETED
| f7_H : fig7 (Some IST_COMPLETED) (L_timer TH) IST_TERMINATED
| f7_err2 : fig7 (Some IST_COMPLETED) L_transport_error IST_TERMINATED
| f7_ack : fig7 (Some IST_COMPLETED) L_ack IST_CONFIRMED
| f7_ack2 : fig7 (Some IST_CONFIRMED) L_ack IST_CONFIRMED
| f7_I : fig7 (Some IST_CONFIRMED) (L_timer TI) IST_TERMINATED.

(** Figure 8, non-INVITE server transaction *)
Inductive fig8 : option state -> label -> state -> Prop :=
| f8_start : fig8 None L_request NIST_TRYING
| f8_t1 : fig8 (Some NIST_TRYING) L_1xx NIST_PROCEEDING
| f8_t2 : fig8 (Some NIST_TRYING) L_2xx NIST_COMPLETED
| f8_t3 : fig8 (Some NIST_TRYING) L_3456xx NIST_COMPLETED
| f8_pr : fig8 (Some NIST_PROCEEDING) L_request NIST_PROCEEDING
| f8_p1 : fig8 (Some NIST_PROCEEDING) L_1xx NIST_PROCEEDING
| f8_p2 : fig8 (Some NIST_PROCEEDING) L_2xx NIST_COMPLETED
| f8_p3 : fig8 (Some NIST_PROCEEDING) L_3456xx NIST_COMPLETED
| f8_err1 : fig8 (Some NIST_PROCEEDING) L_transport_error NIST_TERMINATED
| f8_cr : fig8 (Some NIST_COMPLETED) L_request NIST_COMPLETED
| f8_err2 : fig8 (Some NIST_COMPLETED) L_transport_error NIST_TERMINATED
| f8_J : fig8 (Some NIST_COMPLETED) (L_timer TJ) NIST_TERMINATED.

Definition figure (k : fsm) : option state -> label -> state -> Prop :=
  match k with ICT => fig5 | NICT => fig6 | IST => fig7 | NIST => fig8 end.

(** How an event of the library reads as a label, for each kind of transaction: responses come
    from the network for a client, from the user for a server, and conversely for requests. *)
Definition label_of (k : fsm) (ty : etype) : option label :=
  match k, ty with
  | ICT, SND_REQINVITE => Some L_request
  | NICT, SND_REQUEST => Some L_request
  | IST, RCV_REQINVITE => Some L_request
  | NIST, RCV_REQUEST => Some L_request
  | IST, RCV_REQACK => Some L_ack
  | (ICT | NICT), RCV_STATUS_1XX => Some L_1xx
  | (ICT | NICT), RCV_STATUS_2XX => Some L_2xx
  | (ICT | NICT), RCV_STATUS_3456XX => Some L_3456xx
  | (IST | NIST), SND_STATUS_1XX => Some L_1xx
  | (IST | NIST), SND_STATUS_2XX => Some L_2xx
  | (IST | NIST), SND_STATUS_3456XX => Some L_3456xx
  | ICT, TIMEOUT_A => Some (L_timer TA)
  | ICT, TIMEOUT_B => Some (L_timer TB)
  | ICT, TIMEOUT_D => Some (L_timer TD)
  | NICT, TIMEOUT_E => Some (L_timer TE)
  | NICT, TIMEOUT_F => Some (L_timer TF)
  | NICT, TIMEOUT_K => Some (L_timer TK)
  | IST, TIMEOUT_G => Some (L_timer TG)
  | IST, TIMEOUT_H => Some (L_timer TH)
  | IST, TIMEOUT_I => Some (L_timer TI)
  | NIST, TIMEOUT_J => Some (L_timer TJ)
  | _, _ => None
  end.

(** The code has an extra state before the first request. *)
Definition rfc_state (s : state) : option state :=
  match s with
  | ICT_PRE_CALLING | IST_PRE_PROCEEDING | NICT_PRE_TRYING | NIST_PRE_TRYING => None
  | s => Some s
  end.

(** One executed event is what the diagram says: the event labels no edge and nothing
    observable happens, or the edge it labels is taken, or the transport fails - in the current
    state or in the state the edge leads to - and the failure edge is taken. *)
Inductive rfc_step (k : fsm) (s : state) (ty : etype) (o : list out) (s' : state) : Prop :=
| rfc_stray : (forall l s1, label_of k ty = Some l -> ~ figure k (rfc_state s) l s1) ->
    s' = s -> filter visible o = [] -> rfc_step k s ty o s'
| rfc_edge : forall l, label_of k ty = Some l -> figure k (rfc_state s) l s' ->
    count is_tperr o = 0%nat -> rfc_step k s ty o s'
| rfc_error : forall l s1, label_of k ty = Some l -> figure k (rfc_state s) l s1 ->
    (figure k (rfc_state s) L_transport_error s' \/ figure k (Some s1) L_transport_error s') ->
    count is_tperr o = 1%nat -> rfc_step k s ty o s'.

(** Progress of a state in its diagram: initial, then strictly later phases. *)
Definition rank (s : state) : nat :=
  match s with
  | ICT_PRE_CALLING | IST_PRE_PROCEEDING | NICT_PRE_TRYING | NIST_PRE_TRYING => 0
  | ICT_CALLING | NICT_TRYING | NIST_TRYING | IST_PROCEEDING => 1
  | ICT_PROCEEDING | NICT_PROCEEDING | NIST_PROCEEDING => 2
  | ICT_COMPLETED | NICT_COMPLETED | NIST_COMPLETED | IST_COMPLETED => 3
  | IST_CONFIRMED => 4
  | ICT_TERMINATED | IST_TERMINATED | NICT_TERMINATED | NIST_TERMINATED => 5
  end%nat.

(** * What an application or the network can hand to a transaction *)

(** Events made by the library's own constructors: osip_parse, osip_new_outgoing_sipmessage,
    and the timeouts of the polling functions. *)
Definition is_timeout (ty : etype) : bool := Nat.leb (etype_num ty) 9.

Definition api_event (ev : event) : Prop :=
  (exists m, parsed_event m = Some ev) \/ (exists m, new_outgoing (Some m) = Some ev) \/
  (is_timeout (ev_type ev) = true /\ ev_sip ev = None).

(** A message with a usable top Via. *)
Definition has_top_via (m : message) : Prop := exists p, top_proto m = Proto p.

(** Messages complete enough for an ACK to be built from them (RFC 3261 8.1.1: From, To,
    Call-ID, CSeq and Via are mandatory). *)
Definition uri_has_target (u : uri) : Prop := u_host u <> None \/ u_string u <> None.
Definition na_ok (f : nameaddr) : Prop := forall u, na_url f = Some u -> uri_has_target u.
Definition via_complete (v : via) : Prop := v_version v <> None /\ v_protocol v <> None /\ v_host v <> None.

Definition complete_response (m : message) : Prop :=
  (exists f, m_from m = Some f /\ na_ok f) /\ (exists t, m_to m = Some t /\ na_ok t) /\
  (exists c, m_call_id m = Some c /\ ci_number c <> None) /\
  (exists c, m_cseq m = Some c /\ cs_method c <> None /\ cs_number c <> None).

Definition complete_request (m : message) : Prop :=
  m_version m <> None /\ (exists u, m_uri m = Some u /\ uri_has_target u) /\
  (exists v vs, m_vias m = v :: vs /\ via_complete v) /\ Forall na_ok (m_routes m).

(** Events whose messages are complete: requests given to a client transaction and final
    answers received by it. *)
Definition complete_event (ev : event) : Prop :=
  forall m, ev_sip ev = Some m ->
  match ev_type ev with
  | SND_REQINVITE | SND_REQUEST => complete_request (mc m)
  | RCV_STATUS_3456XX => complete_response (mc m)
  | _ => True
  end.

(** * Destinations *)

(** The first parameter called [n] (names compare without case) has value [x]. *)
Definition first_param (ps : list param) (n : str) (x : option str) : Prop :=
  exists ps1 p ps2, ps = ps1 ++ p :: ps2 /\ strcaseeq (fst p) n = true /\ snd p = x /\
                    forall q, In q ps1 -> strcaseeq (fst q) n = false.
Definition no_param (ps : list param) (n : str) : Prop := forall q, In q ps -> strcaseeq (fst q) n = false.

Definition port_is (text : option str) (p : Z) : Prop :=
  match text with Some s => p = osip_atoi s | None => p = 5060 end.

(** Where a response with top Via [v] goes: RFC 3261 18.2.2, RFC 3581 4 *)
Inductive response_host (v : via) : option str -> Prop :=
| rh_maddr : forall x, first_param (v_params v) ($"maddr") (Some x) -> response_host v (Some x)
| rh_received : forall x, no_param (v_params v) ($"maddr") ->
    first_param (v_params v) ($"received") (Some x) -> response_host v (Some x)
| rh_host : no_param (v_params v) ($"maddr") -> no_param (v_params v) ($"received") ->
    response_host v (v_host v).

Inductive response_port (v : via) : Z -> Prop :=
| rp_rport : forall x, first_param (v_params v) ($"rport") (Some x) -> response_port v (osip_atoi x)
| rp_via : forall p, (no_param (v_params v) ($"rport") \/ first_param (v_params v) ($"rport") None) ->
    port_is (v_port v) p -> response_port v p.

(** The topmost Route names a loose router with URI [u] *)
Definition loose_route (routes : list nameaddr) (u : uri) : Prop :=
  exists r rs x, routes = r :: rs /\ na_url r = Some u /\ first_param (u_params u) ($"lr") x.

Definition no_value (ps : list param) (n : str) : Prop := no_param ps n \/ first_param ps n None.

Inductive request_target (m : message) : option str -> Z -> Prop :=
| rt_route : forall u p, loose_route (m_routes m) u -> port_is (u_port u) p ->
    request_target m (u_host u) p
| rt_maddr : forall u x p, (forall w, ~ loose_route (m_routes m) w) -> m_uri m = Some u ->
    first_param (u_params u) ($"maddr") (Some x) -> port_is (u_port u) p ->
    request_target m (Some x) p
| rt_outbound : forall u x y, (forall w, ~ loose_route (m_routes m) w) -> m_uri m = Some u ->
    no_value (u_params u) ($"maddr") ->
    first_param (u_params u) ($"x-obr") (Some x) -> first_param (u_params u) ($"x-obp") (Some y) ->
    request_target m (Some x) (osip_atoi y)
| rt_host : forall u p, (forall w, ~ loose_route (m_routes m) w) -> m_uri m = Some u ->
    no_value (u_params u) ($"maddr") ->
    (no_value (u_params u) ($"x-obr") \/ no_value (u_params u) ($"x-obp")) ->
    port_is (u_port u) p -> request_target m (u_host u) p.

(** * Ownership of messages *)

(** Scanning what happened in order, no message is used or freed after it was freed. *)
Fixpoint uses_ok (freed : list nat) (o : list out) : Prop :=
  match o with
  | [] => True
  | OSend m _ _ _ :: o' => ~ In (mid m) freed /\ uses_ok freed o'
  | OCb _ (Some m) :: o' => ~ In (mid m) freed /\ uses_ok freed o'
  | OFree m :: o' => ~ In (mid m) freed /\ uses_ok (mid m :: freed) o'
  | _ :: o' => uses_ok freed o'
  end.

Definition opt_mid (m : option msg) : list nat := match m with Some m => [mid m] | None => [] end.

(** The messages a transaction holds (and osip_transaction_free will free) *)
Definition held (t : trans) : list nat := opt_mid (t_orig t) ++ opt_mid (t_last t) ++ opt_mid (t_ack t).

Definition frees (o : list out) : list nat :=
  flat_map (fun x => match x with OFree m => [mid m] | _ => [] end) o.

(** * What the application is told *)

(** Client INVITE transaction: a provisional answer, a first-time outcome, a repeated answer. *)
Definition is_provisional (o : out) : bool :=
  match o with OCb ICT_STATUS_1XX_RECEIVED _ => true | _ => false end.
Definition is_3456 (o : out) : bool :=
  match o with
  | OCb (ICT_STATUS_3XX_RECEIVED | ICT_STATUS_4XX_RECEIVED | ICT_STATUS_5XX_RECEIVED | ICT_STATUS_6XX_RECEIVED) _ => true
  | _ => false
  end.
Definition is_outcome (o : out) : bool :=
  is_3456 o ||
  match o with OCb (ICT_STATUS_2XX_RECEIVED | ICT_STATUS_TIMEOUT) _ | OTpErr _ _ => true | _ => false end.
Definition is_again (o : out) : bool :=
  match o with OCb (ICT_STATUS_2XX_RECEIVED_AGAIN | ICT_STATUS_3456XX_RECEIVED_AGAIN) _ => true | _ => false end.
Definition is_ict_report (o : out) : bool := is_provisional o || is_outcome o || is_again o.

(** An ACK being sent *)
Definition is_ack_send (o : out) : bool :=
  match o with OSend m _ _ _ => is_method ($"ACK") (mc m) | _ => false end.

(** The message of the most recent send *)
Fixpoint last_sent (acc : option msg) (o : list out) : option msg :=
  match o with
  | [] => acc
  | OSend m _ _ _ :: o' => last_sent (Some m) o'
  | _ :: o' => last_sent acc o'
  end.

(** A request announced as new to the application *)
Definition is_invite_announced (o : out) : bool := match o with OCb IST_INVITE_RECEIVED _ => true | _ => false end.
Definition is_request_announced (o : out) : bool :=
  match o with
  | OCb (NIST_REGISTER_RECEIVED | NIST_BYE_RECEIVED | NIST_OPTIONS_RECEIVED | NIST_INFO_RECEIVED
         | NIST_CANCEL_RECEIVED | NIST_NOTIFY_RECEIVED | NIST_SUBSCRIBE_RECEIVED
         | NIST_UNKNOWN_REQUEST_RECEIVED) _ => true
  | _ => false
  end.

(** The first event of type [ty] and its message *)
Fixpoint first_of (ty : etype) (l : list (env * event)) : option msg :=
  match l with
  | [] => None
  | (_, ev) :: l' => if etype_eqb (ev_type ev) ty then ev_sip ev else first_of ty l'
  end.

(** Under which name a new non-INVITE request is announced, by method *)
Definition announce_names : list (str * cb) :=
  [ ($"REGISTER", NIST_REGISTER_RECEIVED); ($"BYE", NIST_BYE_RECEIVED); ($"OPTIONS", NIST_OPTIONS_RECEIVED);
    ($"INFO", NIST_INFO_RECEIVED); ($"CANCEL", NIST_CANCEL_RECEIVED); ($"NOTIFY", NIST_NOTIFY_RECEIVED);
    ($"SUBSCRIBE", NIST_SUBSCRIBE_RECEIVED) ].
Definition announced_as (m : message) (c : cb) : Prop :=
  (exists n, m_method m = Some n /\ In (n, c) announce_names) \/
  ((forall n, m_method m = Some n -> ~ In n (map fst announce_names)) /\ c = NIST_UNKNOWN_REQUEST_RECEIVED).

(** An answer of the application *)
Definition is_answer (ty : etype) : bool :=
  match ty with SND_STATUS_1XX | SND_STATUS_2XX | SND_STATUS_3456XX => true | _ => false end.

(** A final answer being sent *)
Definition is_final_send (o : out) : bool :=
  match o with OSend m _ _ _ => negb (is_1xx (mc m)) | _ => false end.

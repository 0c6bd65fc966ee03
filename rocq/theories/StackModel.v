(** The stack object: tables of transactions with their event queues, creation, lookup,
    removal, workers and timer polling.  Source: src/osip2/osip.c (HAVE_DICT_DICT_H not
    defined), osip_transaction.c.
    Simplifications: the four tables are Coq lists (C01, C02); the queue of a transaction is the
    list of its events (C06); every function holds the mutex of the table it works on, so its
    effect on that table is atomic; callbacks do not call back into the stack; the int counter
    of transaction ids does not overflow; one clock reading per transaction and poll. *)
From Coq Require Import String ZArith Ascii Bool List.
From Verif Require Import Base Str Types TimeModel PortModel CloneModel TransModel MatchModel DialogModel.
Import ListNotations.
Open Scope Z_scope.

(** A registered transaction and its queue (transactionff) *)
Record entry := En { en_t : trans; en_q : list event }.

(** ixt_t: osip.h 525-545.  [ix_dialog] is the address of the dialog, which is never followed here. *)
Record ixt := mkIxt {
  ix_dialog : nat; ix_2xx : option message; ix_ack : option message;
  ix_start : timeval; ix_interval : Z; ix_counter : Z; ix_dest : option str; ix_port : Z }.

(** osip_t: osip.h 558-600 *)
Record osip := mkOsip { o_tab : fsm -> list entry; o_ixt : list ixt; o_next : Z }.

Definition fsm_num (k : fsm) : nat := match k with ICT => 0 | IST => 1 | NICT => 2 | NIST => 3 end.
Definition fsm_eqb (a b : fsm) : bool := Nat.eqb (fsm_num a) (fsm_num b).

Definition set_tab (s : osip) (k : fsm) (l : list entry) : osip :=
  mkOsip (fun j => if fsm_eqb j k then l else o_tab s j) (o_ixt s) (o_next s).

(** osip_init: osip.c 967-1011 *)
Definition osip_init : osip := mkOsip (fun _ => []) [] 1.

(** * Timer polling *)

(** __osip_ict_need_timer_a_event ... (ict.c 175-191, ist.c 85-101, nict.c 166-182, nist.c 81-85)
    over __osip_transaction_need_timer_x_event (osip_transaction.c 779-795) *)
Definition need_timer (t : trans) (now : timeval) (cond : bool) (x : timer) (ty : etype) : option event :=
  if cond && timer_due t x now then Some (Ev ty None) else None.

Definition is_state (t : trans) (s : state) : bool := state_eqb (t_state t) s.
Definition nict_waiting (t : trans) : bool := is_state t NICT_PROCEEDING || is_state t NICT_TRYING.

(** The event a poll queues for a transaction: osip_timers_ict_execute 1433-1469,
    osip_timers_ist_execute 1472-1503, osip_timers_nict_execute 1506-1537,
    osip_timers_nist_execute 1541-1562 *)
Definition poll_event (k : fsm) (now : timeval) (t : trans) : option event :=
  let orelse a b := match a with Some e => Some e | None => b end in
  match k with
  | ICT => orelse (need_timer t now (is_state t ICT_CALLING) TB TIMEOUT_B)
          (orelse (need_timer t now (is_state t ICT_CALLING) TA TIMEOUT_A)
                  (need_timer t now (is_state t ICT_COMPLETED) TD TIMEOUT_D))
  | IST => orelse (need_timer t now (is_state t IST_CONFIRMED) TI TIMEOUT_I)
          (orelse (need_timer t now (is_state t IST_COMPLETED) TH TIMEOUT_H)
                  (need_timer t now (is_state t IST_COMPLETED) TG TIMEOUT_G))
  | NICT => orelse (need_timer t now (is_state t NICT_COMPLETED) TK TIMEOUT_K)
           (orelse (need_timer t now (nict_waiting t) TF TIMEOUT_F)
                   (need_timer t now (nict_waiting t) TE TIMEOUT_E))
  | NIST => need_timer t now (is_state t NIST_COMPLETED) TJ TIMEOUT_J
  end.

(** One iteration of the polling loops; the INVITE client one skips transactions with a
    pending event (osip.c 1447-1449). *)
Definition poll_entry (k : fsm) (now : timeval) (en : entry) : entry :=
  match k, en_q en with
  | ICT, _ :: _ => en
  | _, _ => match poll_event k now (en_t en) with
            | Some e => En (en_t en) (en_q en ++ [e])
            | None => en
            end
  end.

Definition poll (k : fsm) (now : timeval) (s : osip) : osip :=
  set_tab s k (map (poll_entry k now) (o_tab s k)).

(** * osip_timers_gettimeout: osip.c 1266-1430 *)

Definition tv0 : timeval := TV 0 0.

(** The timers looked at for a transaction of each kind, in order *)
Definition watched (k : fsm) (t : trans) : list timer :=
  match k with
  | ICT => (if is_state t ICT_CALLING then [TB] else []) ++ (if is_state t ICT_CALLING then [TA] else [])
           ++ (if is_state t ICT_COMPLETED then [TD] else [])
  | IST => (if is_state t IST_CONFIRMED then [TI] else []) ++ (if is_state t IST_COMPLETED then [TH] else [])
           ++ (if is_state t IST_COMPLETED then [TG] else [])
  | NICT => (if is_state t NICT_COMPLETED then [TK] else []) ++ (if nict_waiting t then [TF] else [])
            ++ (if nict_waiting t then [TE] else [])
  | NIST => if is_state t NIST_COMPLETED then [TJ] else []
  end.

Definition pending (k : fsm) (en : entry) : bool :=
  match k, en_q en with ICT, _ :: _ => true | _, _ => false end.

(** One of the four loops; [None]: the function returned with a zero delay. *)
Fixpoint scan (k : fsm) (now lower : timeval) (l : list entry) : option timeval :=
  match l with
  | [] => Some lower
  | en :: l' =>
    if pending k en then None
    else
      let lower := fold_left (fun a x => min_timercmp a (t_start (en_t en) x)) (watched k (en_t en)) lower in
      if timer_gt now lower then None else scan k now lower l'
  end.

Fixpoint scan_ixt (now lower : timeval) (l : list ixt) : option timeval :=
  match l with
  | [] => Some lower
  | x :: l' => let lower := min_timercmp lower (ix_start x) in
               if timer_gt now lower then None else scan_ixt now lower l'
  end.

(** osip.c 1413-1428 *)
Definition normalise (a : timeval) : timeval :=
  let a := if tv_usec a <? 0 then TV (tv_sec a - 1) (tv_usec a + 1000000) else a in
  let a := if tv_sec a <? 0 then tv0 else a in
  if tv_usec a >? 1000000 then TV (tv_sec a + 1) (tv_usec a - 1000000) else a.

Definition gettimeout (s : osip) (now : timeval) : timeval :=
  let lower := TV (tv_sec now + 3600 * 24 * 365) (tv_usec now) in
  match scan ICT now lower (o_tab s ICT) with
  | None => tv0
  | Some lower => match scan IST now lower (o_tab s IST) with
  | None => tv0
  | Some lower => match scan NICT now lower (o_tab s NICT) with
  | None => tv0
  | Some lower => match scan NIST now lower (o_tab s NIST) with
  | None => tv0
  | Some lower => match scan_ixt now lower (o_ixt s) with
  | None => tv0
  | Some lower => normalise (TV (tv_sec lower - tv_sec now) (tv_usec lower - tv_usec now))
  end end end end end.

(** * Workers: osip_ict_execute (osip.c 1042-1095), osip_ist_execute (1097-1151),
      osip_nict_execute (1153-1206), osip_nist_execute (1208-1263) *)

(** The do-while loop: execute and drop events until the queue is empty (the result of
    osip_transaction_execute is ignored).  [E n] is the outside world during the [n]-th event. *)
Fixpoint drain (E : nat -> env) (n : nat) (t : trans) (q : list event) : res (trans * list out) :=
  match q with
  | [] => Ok (t, [])
  | ev :: q' =>
    do r <- execute (E n) t ev ;
    let '(_, t1, o) := r in
    do r2 <- drain E (S n) t1 q' ;
    Ok (fst r2, o ++ snd r2)
  end.

(** The loop over the copied array of transactions; [E i n] is the world during the [n]-th event
    of transaction id [i]. *)
Fixpoint work_list (E : Z -> nat -> env) (l : list entry) : res (list entry * list out) :=
  match l with
  | [] => Ok ([], [])
  | en :: l' =>
    do r <- drain (E (t_id (en_t en))) 0 (en_t en) (en_q en) ;
    do r2 <- work_list E l' ;
    Ok (En (fst r) [] :: fst r2, snd r ++ snd r2)
  end.

Definition work (k : fsm) (E : Z -> nat -> env) (s : osip) : res (osip * list out) :=
  do r <- work_list E (o_tab s k) ; Ok (set_tab s k (fst r), snd r).

(** * Creation and removal *)

(** osip_transaction_init (osip_transaction.c 110-239) with its effect on the stack: the id
    counter advances once the Call-ID is known to exist (140-142); __osip_add_ict ... append. *)
Definition has_call_id (m : message) : bool :=
  match m_call_id m with Some c => match ci_number c with Some _ => true | None => false end | None => false end.

Definition register (k : fsm) (now : timeval) (m : message) (s : osip) : res (option trans * osip) :=
  if negb (has_call_id m) then Ok (None, s)
  else
    let s1 := mkOsip (o_tab s) (o_ixt s) (o_next s + 1) in
    match trans_init k now (o_next s) (Some m) with
    | Ok t => Ok (Some t, set_tab s1 k (o_tab s1 k ++ [En t []]))
    | Err _ => Ok (None, s1)
    | UB => UB
    end.

(** EVT_IS_INCOMINGREQ, EVT_IS_INCOMINGRESP, EVT_IS_OUTGOINGREQ: osip.h 1120-1155 *)
Definition incoming_req (ty : etype) : bool :=
  match ty with RCV_REQINVITE | RCV_REQACK | RCV_REQUEST => true | _ => false end.
Definition incoming_resp (ty : etype) : bool :=
  match ty with RCV_STATUS_1XX | RCV_STATUS_2XX | RCV_STATUS_3456XX => true | _ => false end.
Definition outgoing_req (ty : etype) : bool :=
  match ty with SND_REQINVITE | SND_REQACK | SND_REQUEST => true | _ => false end.
Definition incoming_msg (ty : etype) : bool := incoming_req ty || incoming_resp ty.
Definition outgoing_msg (ty : etype) : bool :=
  outgoing_req ty || match ty with SND_STATUS_1XX | SND_STATUS_2XX | SND_STATUS_3456XX => true | _ => false end.

(** osip_create_transaction: osip.c 817-869.  [None]: NULL. *)
Definition create_transaction (now : timeval) (ev : event) (s : osip) : res (option trans * osip) :=
  match ev_sip ev with
  | None => Ok (None, s)
  | Some m =>
    let m := mc m in
    let cm := match m_cseq m with Some c => cs_method c | None => None end in
    let bad := is_request m &&
               match cm, m_method m with
               | Some a, Some b => negb (streq a b)
               | _, _ => true
               end in
    if bad then Ok (None, s)
    else if is_method ($"ACK") m then Ok (None, s)
    else
      let go (inv other : fsm) :=
        match cm with
        | None => UB  (* strcmp of a NULL method: only for a response event, see below *)
        | Some c => register (if streq c ($"INVITE") then inv else other) now m s
        end in
      if incoming_req (ev_type ev) then go IST NIST
      else if outgoing_req (ev_type ev) then go ICT NICT
      else Ok (None, s)
  end.

(** __osip_remove_ict_transaction and its siblings (osip.c 507-698): drop the first transaction
    with this id *)
Fixpoint remove_id (id : Z) (l : list entry) : option (list entry) :=
  match l with
  | [] => None
  | en :: l' => if t_id (en_t en) =? id then Some l'
                else match remove_id id l' with Some r => Some (en :: r) | None => None end
  end.

(** osip_remove_transaction: osip.c 487-505 *)
Definition remove_transaction (t : trans) (s : osip) : Z * osip :=
  match remove_id (t_id t) (o_tab s (t_type t)) with
  | Some l => (OSIP_SUCCESS, set_tab s (t_type t) l)
  | None => (OSIP_UNDEFINED_ERROR, s)
  end.

(** * Lookup *)

(** Which table an event belongs to: osip.c 734-791.  strcmp of a NULL method is [UB]. *)
Definition find_table (ev : event) (m : message) : res (option fsm) :=
  match m_cseq m with
  | None => Ok None
  | Some c =>
    match cs_method c with
    | None => if incoming_msg (ev_type ev) || outgoing_msg (ev_type ev) then UB else Ok None
    | Some c =>
      let inv := streq c ($"INVITE") in let ack := streq c ($"ACK") in
      if incoming_msg (ev_type ev) then
        if is_request m then Ok (Some (if inv || ack then IST else NIST))
        else Ok (Some (if inv then ICT else NICT))
      else if outgoing_msg (ev_type ev) then
        if negb (is_request m) then Ok (Some (if inv then IST else NIST))
        else Ok (Some (if inv || ack then ICT else NICT))
      else Ok None
    end
  end.

(** The loops of osip_transaction_find (osip.c 872-964): position of the first match *)
Fixpoint find_index (f : trans -> res bool) (l : list entry) : res (option nat) :=
  match l with
  | [] => Ok None
  | en :: l' => do b <- f (en_t en) ;
                if b then Ok (Some O)
                else do r <- find_index f l' ; Ok (option_map S r)
  end.

Definition matches (ev : event) (txid : Z) (m : message) (t : trans) : res bool :=
  if incoming_req (ev_type ev) then do r <- match_request t m ; Ok (r =? 0)
  else if incoming_resp (ev_type ev) then Ok (match_response t m =? 0)
  else Ok (t_id t =? txid).

Fixpoint add_at (n : nat) (ev : event) (l : list entry) : list entry :=
  match l, n with
  | [], _ => []
  | en :: l', O => En (en_t en) (en_q en ++ [ev]) :: l'
  | en :: l', S n' => en :: add_at n' ev l'
  end.

(** osip_find_transaction_and_add_event: osip.c 700-709 over __osip_find_transaction (720-815);
    [txid] is evt->transactionid.  On failure the event stays with the caller. *)
Definition find_and_add (ev : event) (txid : Z) (s : osip) : res (Z * osip) :=
  match ev_sip ev with
  | None => Ok (OSIP_UNDEFINED_ERROR, s)
  | Some m =>
    do ko <- find_table ev (mc m) ;
    match ko with
    | None => Ok (OSIP_UNDEFINED_ERROR, s)
    | Some k =>
      do io <- find_index (matches ev txid (mc m)) (o_tab s k) ;
      match io with
      | Some i => Ok (OSIP_SUCCESS, set_tab s k (add_at i ev (o_tab s k)))
      | None => Ok (OSIP_UNDEFINED_ERROR, s)
      end
    end
  end.

(** osip_transaction_add_event (osip_transaction.c 320-330) on the transaction of kind [k] and
    id [id] *)
Definition add_event (k : fsm) (id : Z) (ev : event) (s : osip) : osip :=
  set_tab s k (map (fun en => if t_id (en_t en) =? id then En (en_t en) (en_q en ++ [ev]) else en) (o_tab s k)).

(** * Retransmissions of 2xx and ACK outside transactions: osip.c 121-280.
      The socket number is not modelled.  Dialogs are known by their address; [dlg] gives their
      contents at the time of the call. *)

(** osip_response_get_destination: osip.c 32-77 *)
Definition response_get_destination (m : message) : option str * Z :=
  match m_vias m with [] => (None, 0) | v :: _ => response_dest v end.

Definition clone_or_null (m : message) : option message :=
  match msg_clone m with Ok c => Some c | _ => None end.

(** ixt_init: osip.c 132-151 *)
Definition ixt_init (now : timeval) (d : nat) (m2 ack : option message) (dest : option str * Z) : ixt :=
  mkIxt d m2 ack (add_gettimeofday now (T1 + 10)) T1 10 (fst dest) (snd dest).

Definition set_ixt (s : osip) (l : list ixt) : osip := mkOsip (o_tab s) l (o_next s).

(** osip_start_200ok_retransmissions: osip.c 163-177; osip_add_ixt (123-130) inserts in front *)
Definition start_200ok (now : timeval) (d : nat) (m : message) (s : osip) : osip :=
  set_ixt s (ixt_init now d (clone_or_null m) None (response_get_destination m) :: o_ixt s).

(** osip_start_ack_retransmissions: osip.c 179-194 *)
Definition start_ack (now : timeval) (d : nat) (m : message) (dest : option str) (port : Z) (s : osip) : osip :=
  set_ixt s (ixt_init now d None (clone_or_null m) (dest, port) :: o_ixt s).

Definition cseq_number (m : message) : option str :=
  match m_cseq m with Some c => cs_number c | None => None end.

(** The loop of osip_stop_200ok_retransmissions (osip.c 207-220): the first entry that matches *)
Fixpoint stop_loop (dlg : nat -> dialog) (ack : message) (n : str) (l : list ixt) : res (option nat * list ixt) :=
  match l with
  | [] => Ok (None, [])
  | x :: l' =>
    let next := do r <- stop_loop dlg ack n l' ; Ok (fst r, x :: snd r) in
    match match ix_2xx x with Some m => cseq_number m | None => None end with
    | None => next
    | Some n2 =>
      do i <- match_as_uas (dlg (ix_dialog x)) ack ;
      if (i =? 0) && streq n2 n then Ok (Some (ix_dialog x), l') else next
    end
  end.

(** osip_stop_200ok_retransmissions: osip.c 197-223 *)
Definition stop_200ok (dlg : nat -> dialog) (ack : message) (s : osip) : res (option nat * osip) :=
  match cseq_number ack with
  | None => Ok (None, s)
  | Some n => do r <- stop_loop dlg ack n (o_ixt s) ; Ok (fst r, set_ixt s (snd r))
  end.

(** osip_stop_retransmissions_from_dialog: osip.c 225-241 *)
Definition stop_from_dialog (d : nat) (s : osip) : osip :=
  set_ixt s (filter (fun x => negb (Nat.eqb (ix_dialog x) d)) (o_ixt s)).

(** A message handed to cb_send_message outside a transaction *)
Record xsend := XSend { xs_msg : message; xs_dest : option str; xs_port : Z }.

(** ixt_retransmit: osip.c 243-257 *)
Definition ixt_retransmit (now : timeval) (x : ixt) : ixt * list xsend :=
  if timer_gt now (ix_start x) then
    let i := ix_interval x * 2 in
    let i := if i >? T2 then T2 else i in
    let m := match ix_ack x with Some a => Some a | None => ix_2xx x end in
    (mkIxt (ix_dialog x) (ix_2xx x) (ix_ack x) (add_gettimeofday (ix_start x) i) i (ix_counter x - 1)
           (ix_dest x) (ix_port x),
     match m with Some m => [XSend m (ix_dest x) (ix_port x)] | None => [] end)
  else (x, []).

(** osip_retransmissions_execute: osip.c 259-280 *)
Fixpoint ixt_loop (now : timeval) (l : list ixt) : list ixt * list xsend :=
  match l with
  | [] => ([], [])
  | x :: l' => let r := ixt_retransmit now x in
               let r2 := ixt_loop now l' in
               (if ix_counter (fst r) =? 0 then fst r2 else fst r :: fst r2, snd r ++ snd r2)
  end.

Definition retransmissions_execute (now : timeval) (s : osip) : osip * list xsend :=
  let r := ixt_loop now (o_ixt s) in (set_ixt s (fst r), snd r).

(** * Histories of API calls *)

Inductive op :=
| OpCreate (now : timeval) (ev : event)
| OpRemove (t : trans)
| OpAdd (k : fsm) (id : Z) (ev : event)
| OpFind (ev : event) (txid : Z)
| OpPoll (k : fsm) (now : timeval)
| OpWork (k : fsm) (E : Z -> nat -> env)
| OpStart2xx (now : timeval) (d : nat) (m : message)
| OpStartAck (now : timeval) (d : nat) (m : message) (dest : option str) (port : Z)
| OpStop2xx (dlg : nat -> dialog) (ack : message)
| OpStopDialog (d : nat)
| OpRetransmit (now : timeval).

Inductive opres := RCreate (t : option trans) | RCode (c : Z) | RUnit | ROut (o : list out) | RDialog (d : option nat)
| RSent (o : list xsend).

Definition step (s : osip) (a : op) : res (opres * osip) :=
  match a with
  | OpCreate now ev => do r <- create_transaction now ev s ; Ok (RCreate (fst r), snd r)
  | OpRemove t => let r := remove_transaction t s in Ok (RCode (fst r), snd r)
  | OpAdd k id ev => Ok (RUnit, add_event k id ev s)
  | OpFind ev txid => do r <- find_and_add ev txid s ; Ok (RCode (fst r), snd r)
  | OpPoll k now => Ok (RUnit, poll k now s)
  | OpWork k E => do r <- work k E s ; Ok (ROut (snd r), fst r)
  | OpStart2xx now d m => Ok (RUnit, start_200ok now d m s)
  | OpStartAck now d m dest port => Ok (RUnit, start_ack now d m dest port s)
  | OpStop2xx dlg ack => do r <- stop_200ok dlg ack s ; Ok (RDialog (fst r), snd r)
  | OpStopDialog d => Ok (RUnit, stop_from_dialog d s)
  | OpRetransmit now => let r := retransmissions_execute now s in Ok (RSent (snd r), fst r)
  end.

Fixpoint steps (s : osip) (l : list op) : res (list opres * osip) :=
  match l with
  | [] => Ok ([], s)
  | a :: l' => do r <- step s a ; do r2 <- steps (snd r) l' ; Ok (fst r :: fst r2, snd r2)
  end.

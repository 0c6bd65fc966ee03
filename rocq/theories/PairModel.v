(** A client transaction and the server transaction at the other end, joined by a network that
    may lose, repeat, delay and reorder what is sent.
    Sources: the transactions are those of TransModel.v (ict_fsm.c, ist_fsm.c, nict_fsm.c,
    nist_fsm.c, osip_transaction.c, osip_event.c).
    Simplifications: the dispatch of a received message to its transaction (C05, C06) is taken for
    granted - the network of the model carries nothing but the messages of these two transactions;
    a message arrives with the contents it was sent with (C57 says when the text of a message reads
    back as the message; the "received" and "rport" marks osip_message_fix_last_via_header may put
    on an arriving request are left out); an event is executed when it is added (the order of a
    queue is C69); each side has its own clock, given move by move. *)
From Coq Require Import String ZArith Ascii Bool List.
From Verif Require Import Base Str Types TimeModel PortModel CloneModel TransModel.
Import ListNotations.
Open Scope Z_scope.

(** One executed event: the environment, the event, what the code did. *)
Record ran := mkRan { r_env : env; r_ev : event; r_out : list out }.

(** The two ends.  [p_server] is the server transaction, if it exists; [p_slog] what it executed
    since it was created, oldest first; [p_past] what the server transactions already removed
    executed, [p_gone] their number. *)
Record pair := mkPair {
  p_client : trans; p_clog : list ran;
  p_server : option trans; p_slog : list ran;
  p_past : list ran; p_gone : nat }.

(** What the send callback accepted during these events, oldest first: a negative result says
    that the message was not sent (osip.h 582, and the tests of the handlers). *)
Definition sends (o : out) : list message :=
  match o with OSend m _ _ i => if 0 <=? i then [mc m] else [] | _ => [] end.
Definition wire (l : list ran) : list message := flat_map (fun r => flat_map sends (r_out r)) l.

(** Which event a timer makes: ict.c 175-191, ist.c 85-101, nict.c 166-182, nist.c 81-85.  Those
    functions also test the state; a timeout found in another state is ignored by the tables. *)
Definition timeout_of (x : timer) : etype :=
  match x with
  | TA => TIMEOUT_A | TB => TIMEOUT_B | TD => TIMEOUT_D | TE => TIMEOUT_E | TF => TIMEOUT_F
  | TK => TIMEOUT_K | TG => TIMEOUT_G | TH => TIMEOUT_H | TI => TIMEOUT_I | TJ => TIMEOUT_J
  end.

(** The server transaction an incoming request makes the application create
    (osip_create_transaction, osip.c 817-867; its test of the CSeq method is left out): its kind and the type of the first event. *)
Definition server_kind (k : fsm) : fsm := match k with ICT | IST => IST | NICT | NIST => NIST end.
Definition opening (k : fsm) : etype := match server_kind k with IST => RCV_REQINVITE | _ => RCV_REQUEST end.

(** What can happen next.  [CApp], [SApp]: the application of the client, of the server, hands a
    message to its transaction (osip_new_outgoing_sipmessage, osip_transaction_add_event).
    [CNet], [SNet]: the [i]-th message ever sent to this side arrives (now, again, or out of order)
    and is parsed at address [id].  [CTimer], [STimer]: a timer is found due.  [Forget]: the server
    removes its terminated transaction (osip_remove_transaction, osip_transaction_free). *)
Inductive move :=
| CApp (e : env) (m : msg) | CNet (e : env) (id i : nat) | CTimer (e : env) (x : timer)
| SApp (e : env) (m : msg) | SNet (e : env) (id i : nat) | STimer (e : env) (x : timer)
| Forget.

(** osip_transaction_execute (osip_transaction.c 334-377) at either end *)
Definition client_does (e : env) (ev : event) (p : pair) : res pair :=
  do r <- execute e (p_client p) ev ;
  let '(_, t, o) := r in
  Ok (mkPair t (p_clog p ++ [mkRan e ev o]) (p_server p) (p_slog p) (p_past p) (p_gone p)).

Definition server_does (e : env) (ev : event) (ts : trans) (p : pair) : res pair :=
  do r <- execute e ts ev ;
  let '(_, t, o) := r in
  Ok (mkPair (p_client p) (p_clog p) (Some t) (p_slog p ++ [mkRan e ev o]) (p_past p) (p_gone p)).

(** What the server ever executed *)
Definition p_sall (p : pair) : list ran := p_past p ++ p_slog p.

(** The states in which a transaction may be removed: the kill callback has been called *)
Definition over (t : trans) : bool :=
  match t_state t with ICT_TERMINATED | IST_TERMINATED | NICT_TERMINATED | NIST_TERMINATED => true | _ => false end.

(** One move; a move that is not possible changes nothing.  A request that finds no server
    transaction creates one (osip_transaction_init, osip_transaction.c 111-239; the transaction
    number plays no part here and is 0); an ACK or a response that finds none is dropped. *)
Definition play (p : pair) (mv : move) : res pair :=
  match mv with
  | CApp e m => match new_outgoing (Some m) with Some ev => client_does e ev p | None => Ok p end
  | CNet e id i =>
    match nth_error (wire (p_sall p)) i with
    | Some c => match parsed_event (Msg id c) with Some ev => client_does e ev p | None => Ok p end
    | None => Ok p
    end
  | CTimer e x => if timer_due (p_client p) x (e_now e) then client_does e (Ev (timeout_of x) None) p else Ok p
  | SApp e m =>
    match p_server p, new_outgoing (Some m) with
    | Some ts, Some ev => server_does e ev ts p
    | _, _ => Ok p
    end
  | SNet e id i =>
    match nth_error (wire (p_clog p)) i with
    | Some c =>
      match parsed_event (Msg id c) with
      | Some ev =>
        match p_server p with
        | Some ts => server_does e ev ts p
        | None =>
          if etype_eqb (ev_type ev) (opening (t_type (p_client p))) then
            match trans_init (server_kind (t_type (p_client p))) (e_now e) 0 (Some c) with
            | Ok ts => server_does e ev ts p
            | Err _ => Ok p
            | UB => UB
            end
          else Ok p
        end
      | None => Ok p
      end
    | None => Ok p
    end
  | STimer e x =>
    match p_server p with
    | Some ts => if timer_due ts x (e_now e) then server_does e (Ev (timeout_of x) None) ts p else Ok p
    | None => Ok p
    end
  | Forget =>
    match p_server p with
    | Some ts => if over ts then Ok (mkPair (p_client p) (p_clog p) None [] (p_past p ++ p_slog p) (S (p_gone p)))
                 else Ok p
    | None => Ok p
    end
  end.

Fixpoint plays (p : pair) (l : list move) : res pair :=
  match l with
  | [] => Ok p
  | mv :: l' => do q <- play p mv ; plays q l'
  end.

(** The client has created its transaction; nothing was sent. *)
Definition begin (t0 : trans) : pair := mkPair t0 [] None [] [] 0.

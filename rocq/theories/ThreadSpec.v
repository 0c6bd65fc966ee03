(** Ways to use the stack from several threads, and what is asked of a history: the vocabulary of
    C69 to C72. *)
From Coq Require Import ZArith Bool List.
From Verif Require Import Base Str Types TransModel FifoModel ThreadModel.
Import ListNotations.

Definition outside (p : place) : bool := match p with Outside => true | _ => false end.
Definition retransmitting (p : place) : bool := match p with InRetransmission => true | _ => false end.

(** The transaction exists, is registered, and the thread is the worker of its kind. *)
Definition mine (w : fsm -> tid) (s : shared) (i : tid) (a : addr) : bool :=
  match heap s a with
  | Some o => match o_stage o with Linked => Nat.eqb i (w (o_kind o)) | _ => false end
  | None => false
  end.

(** One worker per kind of transaction: [w k] is the only thread that calls osip_*_execute for
    kind [k], adds events to transactions of this kind by their pointer, and frees them, outside
    of callbacks, once.  Every thread may deliver messages with
    osip_find_transaction_and_add_event, create transactions, poll timers and ask for the next
    timeout at any time; any may use the retransmission list, but not from inside a callback
    of osip_retransmissions_execute. *)
Definition one_worker (w : fsm -> tid) : usage := fun p s i c =>
  match c with
  | Receive _ | Create _ _ None | Timers _ => true
  | ReceiveNew e => Nat.eqb i (w (ev_kind e))
  | Create k _ (Some _) => Nat.eqb i (w k)
  | AddTo a _ => mine w s i a
  | Work k => Nat.eqb i (w k) && negb (retransmitting p)
  | Free a => outside p && mine w s i a
  | GetTimeout | IxtStart | IxtStop | IxtExecute => negb (retransmitting p)
  end.

(** Events of one transaction in a record of events. *)
Definition of (a : addr) (l : list (addr * ev)) : list ev :=
  map snd (filter (fun p => Nat.eqb (fst p) a) l).

(** Events a worker has taken from the queue of a transaction and is about to execute. *)
Fixpoint in_hand (a : addr) (l : list instr) : list ev :=
  match l with
  | [] => []
  | Exec b e :: r => if Nat.eqb b a then e :: in_hand a r else in_hand a r
  | _ :: r => in_hand a r
  end.

(** A pass of osip_*_execute has still to come to this transaction, or is at it. *)
Definition serves (a : addr) (l : list instr) : Prop :=
  In (Drain a) l \/ In (Take a) l \/ exists e, In (Exec a e) l.

(** A thread that has something left to do can go on. *)
Definition can_go (s : system) (i : tid) : Prop := exists ch s', move s (Step i ch) = Some s'.

(** Thread [i] is about to take a mutex that thread [j] holds. *)
Definition waits (s : system) (i j : tid) : Prop :=
  exists m r, todo s i = Lock m :: r /\ owner (sh s) m = Some j.

(** No transaction of this kind in memory has this key. *)
Definition unused (s : shared) (k : fsm) (key : nat) : bool :=
  forallb (fun a => match heap s a with
                    | Some o => negb (kind_eqb (o_kind o) k && Nat.eqb (o_key o) key)
                    | None => true
                    end) (seq 0 (brk s)).

(** One worker per kind, and it is the only one to create transactions of the kind: for a
    message that osip_find_transaction_and_add_event could not place, or with a new branch. *)
Definition one_source (w : fsm -> tid) : usage := fun p s i c =>
  one_worker w p s i c &&
  match c with Create k key _ => Nat.eqb i (w k) && unused s k key | _ => true end.

(** Weaker rules, each [one_worker] with one condition dropped. *)
(** Any thread frees a registered transaction. *)
Definition free_anywhere (w : fsm -> tid) : usage := fun p s i c =>
  match c with
  | Free a => outside p && match heap s a with Some o => match o_stage o with Linked => true | _ => false end | None => false end
  | _ => one_worker w p s i c
  end.

(** Any thread creates a transaction and gives it its first event. *)
Definition create_anywhere (w : fsm -> tid) : usage := fun p s i c =>
  match c with Create _ _ _ | ReceiveNew _ => true | _ => one_worker w p s i c end.

(** The callback of osip_retransmissions_execute may stop retransmissions. *)
Definition stop_in_callback (w : fsm -> tid) : usage := fun p s i c =>
  match c with IxtStop => true | _ => one_worker w p s i c end.

(** The worker frees a transaction from inside its callbacks. *)
Definition free_in_callback (w : fsm -> tid) : usage := fun p s i c =>
  match c with Free a => negb (retransmitting p) && mine w s i a | _ => one_worker w p s i c end.

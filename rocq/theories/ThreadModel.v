(** The stack shared by several threads: mutexes, tables, event queues and the lifetime of
    transactions, one memory access or mutex operation at a time.
    Source: src/osip2/osip.c, osip_transaction.c, port_fifo.c, port_sema.c (pthread build,
    OSIP_MONOTHREAD and HAVE_DICT_DICT_H not defined).
    Simplifications: what the state machines compute is left out (TransModel): executing an
    event may run any callbacks.  A message is known by the table it belongs to and by what
    identifies its transaction ([ev_key], the branch; MatchModel).  The retransmission list is
    left out, its mutex is not.  Addresses are never used again, so that an access to a freed
    transaction stays visible.  The mutex operations cannot fail. *)
From Coq Require Import ZArith Bool List.
From Verif Require Import Base Str Types TransModel FifoModel.
Import ListNotations.

Definition tid := nat.
Definition addr := nat.

Definition kind_num (k : fsm) : nat := match k with ICT => 0 | IST => 1 | NICT => 2 | NIST => 3 end.
Definition kind_eqb (a b : fsm) : bool := Nat.eqb (kind_num a) (kind_num b).

(** An event: the table it is for, what identifies its transaction, and a serial number. *)
Record ev := mkEv { ev_kind : fsm; ev_key : nat; ev_no : nat }.

(** osip_t.ict_fastmutex, ist_, nict_, nist_fastmutex ([MTable]), ixt_fastmutex, id_mutex
    (osip.c 985-993), and the qislocked of a transaction's queue (port_fifo.c 33) *)
Inductive mutex := MTable (k : fsm) | MIxt | MId | MQueue (a : addr).

Definition mutex_eqb (m n : mutex) : bool :=
  match m, n with
  | MTable a, MTable b => kind_eqb a b
  | MIxt, MIxt | MId, MId => true
  | MQueue a, MQueue b => Nat.eqb a b
  | _, _ => false
  end.

(** Not yet in its table (and the thread that makes it), in its table, taken out. *)
Inductive stage := Fresh (i : tid) | Linked | Unlinked.

(** osip_transaction_t: kind, identification, id, queue *)
Record tobj := mkT { o_kind : fsm; o_key : nat; o_id : option Z; o_fifo : fifo ev; o_stage : stage }.

(** The memory the threads share.  [issued], [accepted], [executed] and [released] are a record
    of what happened, no code reads them. *)
Record shared := mkSh {
  owner : mutex -> option tid; table : fsm -> list addr; nextid : Z; heap : addr -> option tobj;
  brk : addr; issued : list Z;
  accepted : list (addr * ev); executed : list (addr * ev); released : list (addr * ev) }.

(** Where a callback of the application is called from. *)
Inductive place := Outside | InTransaction | InRetransmission.

(** What an application calls. *)
Inductive call :=
| Receive (e : ev)                               (* osip_find_transaction_and_add_event *)
| ReceiveNew (e : ev)                            (* the same; when it fails osip_create_transaction
                                                    and osip_transaction_add_event *)
| Create (k : fsm) (key : nat) (first : option ev) (* osip_transaction_init, then
                                                    osip_transaction_add_event of [first] *)
| AddTo (a : addr) (e : ev)                      (* osip_transaction_add_event *)
| Timers (k : fsm)                               (* osip_timers_*_execute *)
| GetTimeout                                     (* osip_timers_gettimeout *)
| Work (k : fsm)                                 (* osip_*_execute *)
| Free (a : addr)                                (* osip_transaction_free *)
| IxtStart                                       (* osip_start_200ok_retransmissions, .._ack_.. *)
| IxtStop                                        (* osip_stop_200ok_retransmissions, .._from_dialog *)
| IxtExecute.                                    (* osip_retransmissions_execute *)

(** The steps of these functions. *)
Inductive instr :=
| Lock (m : mutex) | Unlock (m : mutex)
| Find (e : ev) (create : bool)
| Alloc (k : fsm) (key : nat) (first : option ev)
| LoadId (a : addr) | StoreId (a : addr) (v : Z) | Link (k : fsm) (a : addr)
| Push (a : addr) (e : ev) | Append (a : addr) (e : ev)
| PollTable (k : fsm) | PollOne (a : addr) | Peek (a : addr)
| Timeout (l : list mutex) | Scan (m : mutex) (l : list mutex) | Size (a : addr) | Touch (a : addr)
| Snapshot (k : fsm) | Drain (a : addr) | Take (a : addr) | Exec (a : addr) (e : ev)
| Callback (p : place)
| Unlink (k : fsm) (a : addr) | Dispose (a : addr)
| IxtEdit.

(** What is left to chance: where osip_timers_gettimeout ends its scan early, which timer is due,
    what a callback calls next. *)
Record choice := mkCh { c_stop : option nat; c_timer : option ev; c_call : option call }.

Definition set_owner (s : shared) (m : mutex) (o : option tid) : shared :=
  mkSh (fun n => if mutex_eqb n m then o else owner s n) (table s) (nextid s) (heap s) (brk s)
       (issued s) (accepted s) (executed s) (released s).

Definition set_table (s : shared) (k : fsm) (l : list addr) : shared :=
  mkSh (owner s) (fun j => if kind_eqb j k then l else table s j) (nextid s) (heap s) (brk s)
       (issued s) (accepted s) (executed s) (released s).

Definition set_obj (s : shared) (a : addr) (o : option tobj) : shared :=
  mkSh (owner s) (table s) (nextid s) (fun b => if Nat.eqb b a then o else heap s b) (brk s)
       (issued s) (accepted s) (executed s) (released s).

Definition set_stage (o : tobj) (g : stage) : tobj := mkT (o_kind o) (o_key o) (o_id o) (o_fifo o) g.
Definition set_fifo (o : tobj) (f : fifo ev) : tobj := mkT (o_kind o) (o_key o) (o_id o) f (o_stage o).

Definition has_key (s : shared) (key : nat) (a : addr) : bool :=
  match heap s a with Some o => Nat.eqb (o_key o) key | None => false end.

Definition has_id (s : shared) (v : option Z) (a : addr) : bool :=
  match heap s a with
  | Some o => match o_id o, v with Some x, Some y => Z.eqb x y | _, _ => false end
  | None => false
  end.

Fixpoint remove_first (f : addr -> bool) (l : list addr) : list addr :=
  match l with [] => [] | a :: r => if f a then r else a :: remove_first f r end.

(** osip_fifo_tryget until NULL (osip_transaction.c 299-305) takes what the queue has *)
Definition queue_of (s : shared) (a : addr) : list ev :=
  match heap s a with Some o => f_queue (o_fifo o) | None => [] end.

(** The functions as sequences of steps. *)
Definition program (c : call) : list instr :=
  match c with
  | Receive e => [Lock (MTable (ev_kind e)); Find e false]       (* osip.c 702-815 *)
  | ReceiveNew e => [Lock (MTable (ev_kind e)); Find e true]
  | Create k key first => [Alloc k key first]                    (* osip_transaction.c 111-240 *)
  | AddTo a e => [Push a e]                                      (* osip_transaction.c 322-331 *)
  | Timers k => [Lock (MTable k); PollTable k; Unlock (MTable k)] (* osip.c 1433-1562 *)
  | GetTimeout => [Timeout [MTable ICT; MTable IST; MTable NICT; MTable NIST; MIxt]] (* osip.c 1267-1430 *)
  | Work k => [Lock (MTable k); Snapshot k]                      (* osip.c 1042-1264 *)
  | Free a => []                                                 (* see [begin] *)
  | IxtStart | IxtStop => [Lock MIxt; IxtEdit; Unlock MIxt]      (* osip.c 124-130, 198-241 *)
  | IxtExecute => [Lock MIxt; Callback InRetransmission; Unlock MIxt] (* osip.c 260-280 *)
  end.

(** osip_transaction_free (osip_transaction.c 256-272): which table is read from the transaction *)
Definition begin (s : shared) (c : call) : list instr :=
  match c with
  | Free a => match heap s a with
              | Some o => [Lock (MTable (o_kind o)); Unlink (o_kind o) a; Unlock (MTable (o_kind o)); Dispose a]
              | None => [Dispose a]
              end
  | _ => program c
  end.

(** One step of thread [i].  [None]: it cannot go on (the mutex is taken). *)
Definition exec (ch : choice) (s : shared) (i : tid) (x : instr) : option (shared * list instr) :=
  match x with
  (* osip_mutex_lock, osip_mutex_unlock: port_sema.c 61-79 *)
  | Lock m => match owner s m with None => Some (set_owner s m (Some i), []) | Some _ => None end
  | Unlock m => Some (set_owner s m None, [])
  (* osip_transaction_find and, before the mutex is given back, osip_transaction_add_event:
     osip.c 797-815, 871-964; the application's reaction to a failure: [create] *)
  | Find e create =>
    match find (has_key s (ev_key e)) (table s (ev_kind e)) with
    | Some a => Some (s, [Push a e; Unlock (MTable (ev_kind e))])
    | None => Some (s, Unlock (MTable (ev_kind e))
                         :: (if create then [Alloc (ev_kind e) (ev_key e) (Some e)] else []))
    end
  (* osip_transaction_init: osip_transaction.c 111-240 *)
  | Alloc k key first =>
    let a := brk s in
    let s' := set_obj s a (Some (mkT k key None fifo_init (Fresh i))) in
    Some (mkSh (owner s') (table s') (nextid s') (heap s') (S a) (issued s') (accepted s') (executed s') (released s'),
          [Lock MId; LoadId a; Unlock MId; Lock (MTable k); Link k a; Unlock (MTable k)]
          ++ match first with Some e => [Push a e] | None => [] end)
  (* transactionid = osip->transactionid++ : osip_transaction.c 131 *)
  | LoadId a => Some (s, [StoreId a (nextid s)])
  | StoreId a v =>
    match heap s a with
    | Some o =>
      let s' := set_obj s a (Some (mkT (o_kind o) (o_key o) (Some v) (o_fifo o) (o_stage o))) in
      Some (mkSh (owner s') (table s') (v + 1)%Z (heap s') (brk s') (issued s ++ [v]) (accepted s') (executed s') (released s'), [])
    | None => None
    end
  (* osip_list_add of __osip_add_ict and siblings: osip.c 403 *)
  | Link k a =>
    match heap s a with
    | Some o => Some (set_table (set_obj s a (Some (set_stage o Linked))) k (table s k ++ [a]), [])
    | None => None
    end
  (* osip_fifo_add: port_fifo.c 43-58 *)
  | Push a e => Some (s, [Lock (MQueue a); Append a e; Unlock (MQueue a)])
  | Append a e =>
    match heap s a with
    | Some o =>
      let s' := set_obj s a (Some (set_fifo o (fifo_add e (o_fifo o)))) in
      Some (mkSh (owner s') (table s') (nextid s') (heap s') (brk s') (issued s') (accepted s ++ [(a, e)]) (executed s') (released s'), [])
    | None => None
    end
  (* the loops of the four timer functions: osip.c 1442-1465 (an INVITE client transaction with
     a pending event is passed over), 1480-1499, 1515-1533, 1550-1558 *)
  | PollTable k => Some (s, map PollOne (table s k))
  | PollOne a => match heap s a with
                 | Some o => Some (s, match o_kind o with
                                      | ICT => [Lock (MQueue a); Peek a]
                                      | _ => match c_timer ch with Some e => [Push a e] | None => [] end
                                      end)
                 | None => None
                 end
  | Peek a => match heap s a with
              | Some o => Some (s, Unlock (MQueue a) :: match c_timer ch with
                                                        | Some e => if Nat.eqb (fifo_size (o_fifo o)) 0 then [Push a e] else []
                                                        | None => []
                                                        end)
              | None => None
              end
  (* osip_timers_gettimeout: one table after the other, with early returns: osip.c 1277-1405 *)
  | Timeout [] => Some (s, [])
  | Timeout (m :: l) => Some (s, [Lock m; Scan m l])
  | Scan m l =>
    let visit := match m with
                 | MTable ICT => map Size (table s ICT)
                 | MTable k => map Touch (table s k)
                 | _ => []
                 end in
    Some (s, match c_stop ch with
             | Some n => firstn n visit ++ [Unlock m]
             | None => visit ++ [Unlock m; Timeout l]
             end)
  | Size a => Some (s, [Lock (MQueue a); Unlock (MQueue a)])
  | Touch a => Some (s, [])
  (* osip_ict_execute and siblings: the table is copied (osip.c 1055-1079), then the queues are
     emptied (1081-1092) *)
  | Snapshot k => Some (s, Unlock (MTable k) :: map Drain (table s k))
  | Drain a =>
    match heap s a with
    | Some o => match fifo_claim (o_fifo o) with
                | Some f => Some (set_obj s a (Some (set_fifo o f)), [Lock (MQueue a); Take a])
                | None => Some (s, [])
                end
    | None => None
    end
  | Take a =>
    match heap s a with
    | Some o => let (r, f) := fifo_take (o_fifo o) in
                Some (set_obj s a (Some (set_fifo o f)),
                      Unlock (MQueue a) :: match r with Some e => [Exec a e; Drain a] | None => [] end)
    | None => None
    end
  (* osip_transaction_execute: osip_transaction.c 334-377 *)
  | Exec a e =>
    Some (mkSh (owner s) (table s) (nextid s) (heap s) (brk s) (issued s) (accepted s) (executed s ++ [(a, e)]) (released s),
          [Callback InTransaction])
  | Callback p => match c_call ch with
                  | Some c => Some (s, begin s c ++ [Callback p])
                  | None => Some (s, [])
                  end
  (* __osip_remove_ict_transaction and siblings, by id: osip.c 546-557 *)
  | Unlink k a =>
    match heap s a with
    | Some o => Some (set_obj (set_table s k (remove_first (has_id s (o_id o)) (table s k))) a (Some (set_stage o Unlinked)), [])
    | None => None
    end
  (* osip_transaction_free2: osip_transaction.c 274-320 *)
  | Dispose a =>
    let s' := set_obj s a None in
    Some (mkSh (owner s') (table s') (nextid s') (heap s') (brk s') (issued s') (accepted s') (executed s')
               (released s ++ map (pair a) (queue_of s a)), [])
  (* the retransmission list is read and written: osip.c 127, 207-222, 231-240 *)
  | IxtEdit => Some (s, [])
  end.

Definition dead (s : shared) (a : addr) : bool := match heap s a with Some _ => false | None => true end.

Definition owns (s : shared) (i : tid) (m : mutex) : bool :=
  match owner s m with Some j => Nat.eqb j i | None => false end.

(** Whether a step has undefined behaviour: it uses a transaction (or the mutex in its queue) that
    was freed, reads or writes what a mutex protects without holding it, gives back a mutex
    it does not hold, or takes one it holds (the mutexes are not recursive: port_sema.c 47). *)
Definition bad (s : shared) (i : tid) (x : instr) : bool :=
  match x with
  | Lock m => owns s i m || match m with MQueue a => dead s a | _ => false end
  | Unlock m => negb (owns s i m) || match m with MQueue a => dead s a | _ => false end
  | Find e _ => negb (owns s i (MTable (ev_kind e))) || existsb (dead s) (table s (ev_kind e))
  | Alloc _ _ _ => false
  | LoadId a | StoreId a _ => negb (owns s i MId) || dead s a
  | Link k a => negb (owns s i (MTable k)) || dead s a
  | Push a _ | PollOne a | Size a | Touch a | Drain a | Exec a _ | Dispose a => dead s a
  | Append a _ | Peek a | Take a => negb (owns s i (MQueue a)) || dead s a
  | PollTable k | Snapshot k => negb (owns s i (MTable k))
  | Timeout _ | Callback _ => false
  | Scan m _ => negb (owns s i m)
  | Unlink k a => negb (owns s i (MTable k)) || dead s a || existsb (dead s) (table s k)
  | IxtEdit => negb (owns s i MIxt)
  end.

(** The threads: what each has still to do. *)
Record system := mkSys { sh : shared; todo : tid -> list instr }.

Definition set_todo (s : system) (t : shared) (i : tid) (l : list instr) : system :=
  mkSys t (fun j => if Nat.eqb j i then l else todo s j).

(** osip_init (osip.c 967-1009) *)
Definition start : system :=
  mkSys (mkSh (fun _ => None) (fun _ => []) 1%Z (fun _ => None) 0%nat [] [] [] []) (fun _ => []).

(** An idle thread begins a call, or a thread takes its next step. *)
Inductive act := Begin (i : tid) (c : call) | Step (i : tid) (ch : choice).

Definition move (s : system) (x : act) : option system :=
  match x with
  | Begin i c => match todo s i with [] => Some (set_todo s (sh s) i (begin (sh s) c)) | _ => None end
  | Step i ch =>
    match todo s i with
    | [] => None
    | x :: r => if bad (sh s) i x then None
                else match exec ch (sh s) i x with
                     | Some (t, pre) => Some (set_todo s t i (pre ++ r))
                     | None => None
                     end
    end
  end.

(** The call a move begins, from where. *)
Definition starts (s : system) (x : act) : option (place * tid * call) :=
  match x with
  | Begin i c => Some (Outside, i, c)
  | Step i ch => match todo s i, c_call ch with
                 | Callback p :: _, Some c => Some (p, i, c)
                 | _, _ => None
                 end
  end.

(** A way to use the stack: which calls a thread may begin. *)
Definition usage := place -> shared -> tid -> call -> bool.

Definition fits (u : usage) (s : system) (x : act) : bool :=
  match starts s x with Some (p, i, c) => u p (sh s) i c | None => true end.

(** Every history of every number of threads. *)
Inductive reach (u : usage) : system -> Prop :=
| reach_start : reach u start
| reach_move : forall s x s', reach u s -> fits u s x = true -> move s x = Some s' -> reach u s'.

(** A given history. *)
Fixpoint play (u : usage) (s : system) (l : list act) : option system :=
  match l with
  | [] => Some s
  | x :: r => if fits u s x then match move s x with Some s' => play u s' r | None => None end else None
  end.

(** C69 to C72: the stack used by several threads. *)
From Coq Require Import ZArith Bool List Lia Relations.
From Verif Require Import Base Str Types TransModel FifoModel ThreadModel ThreadSpec ThreadProofs ThreadEvents ThreadUnique.
Import ListNotations.
Open Scope nat_scope.

(** * C69: one worker per kind of transaction *)

(** Whatever the number of threads, the calls they make and the order of their steps: no step uses
    a freed transaction, reads or writes a table, a queue, the retransmission list or the counter
    of ids without its mutex, gives back a mutex it does not hold or takes one it holds. *)
Theorem C69_no_undefined_behaviour : forall w s i x r,
  reach (one_worker w) s -> todo s i = x :: r -> bad (sh s) i x = false.
Proof. intros w s i x r R T. apply (inv_fine w s i x r); auto. apply reach_inv; auto. Qed.

(** The tables hold exactly the registered transactions, each once, and no two transactions in
    memory have the same id. *)
Theorem C69_tables_and_ids : forall w s, reach (one_worker w) s ->
  (forall k a, In a (table (sh s) k) <-> exists o, heap (sh s) a = Some o /\ o_kind o = k /\ o_stage o = Linked)
  /\ (forall k, NoDup (table (sh s) k))
  /\ (forall a b o p v, heap (sh s) a = Some o -> heap (sh s) b = Some p -> o_id o = Some v -> o_id p = Some v -> a = b)
  /\ (forall k a o, In a (table (sh s) k) -> heap (sh s) a = Some o -> o_id o <> None)
  /\ NoDup (issued (sh s)).
Proof.
  intros w s R. destruct (reach_inv _ _ R) as [G _]. split; [apply G|]. split; [apply G|]. split; [apply G|]. split; [|apply G].
  intros k a o A B C. apply (g_table _ G) in A. destruct A as (o' & A & _ & L). rewrite B in A. injection A as <-.
  destruct (g_done _ G a o B C) as [j J]. congruence.
Qed.

(** No event is lost, executed twice or executed out of order: what was given to a transaction is
    what was executed, what its worker has in hand, and what its queue holds; when it was
    freed, what was executed and what was freed with it. *)
Theorem C69_events_once_in_order : forall w s a, reach (one_worker w) s ->
  match heap (sh s) a with
  | Some o => of a (accepted (sh s)) = of a (executed (sh s)) ++ in_hand a (todo s (w (o_kind o))) ++ f_queue (o_fifo o)
              /\ of a (released (sh s)) = []
  | None => of a (accepted (sh s)) = of a (executed (sh s)) ++ of a (released (sh s))
  end.
Proof.
  intros w s a R. destruct (reach_events w s R) as [_ E]. specialize (E a). destruct (heap (sh s) a); tauto.
Qed.

(** When a pass of osip_*_execute goes on to its next transaction, it has executed every event that was
    given to this one. *)
Theorem C69_pass_leaves_nothing : forall w s x s' i a, reach (one_worker w) s -> move s x = Some s' ->
  serves a (todo s i) -> ~ serves a (todo s' i) -> of a (accepted (sh s)) = of a (executed (sh s)).
Proof. apply drained. Qed.

(** * C72: the state of a transaction *)

(** No two threads execute events of one transaction at once.  Missing: osip_timers_gettimeout and the timer
    functions read the state without a mutex (C72_state_race_refuted). *)
Theorem C72_one_executor_partial : forall w s i j a e e', reach (one_worker w) s ->
  In (Exec a e) (todo s i) -> In (Exec a e') (todo s j) -> i = j.
Proof.
  intros w s i j a e e' R A B. destruct (reach_inv _ _ R) as [_ T].
  assert (H : forall l k kept f, refs w (sh s) k kept l -> In (Exec a f) l -> owned w (sh s) k a).
  { induction l as [|x l IH]; intros k kept f RR I; [destruct I|]. destruct RR as [N RR]. destruct I as [->|I]; [exact N|eauto]. }
  destruct (T i) as (h & _ & _ & _ & RI & _). destruct (T j) as (h' & _ & _ & _ & RJ & _).
  destruct (H _ _ _ _ RI A) as (o & HO & W). destruct (H _ _ _ _ RJ B) as (o' & HO' & W'). congruence.
Qed.

(** * C70: no deadlock *)

(** From every thread that has something to do, following who holds the mutex one waits for leads to
    a thread that can take its next step. *)
Theorem C70_no_deadlock : forall w s i, reach (one_worker w) s -> todo s i <> [] ->
  exists j, clos_refl_trans tid (waits s) i j /\ can_go s j.
Proof.
  intros w s i R N. apply (inv_chain w s (reach_inv _ _ R) 3); auto. intros m r _. lia.
Qed.

(** * C71: one transaction per key *)

Theorem C71_one_transaction_per_key : forall w s k a b o p, reach (one_source w) s ->
  In a (table (sh s) k) -> In b (table (sh s) k) -> heap (sh s) a = Some o -> heap (sh s) b = Some p ->
  o_key o = o_key p -> a = b.
Proof.
  intros w s k a b o p R A B HA HB E. destruct (reach_uniq _ _ R) as [[G _] U].
  apply (u_key _ _ U a b o p); auto. apply (g_table _ G) in A. apply (g_table _ G) in B.
  destruct A as (o' & A & KA & _). destruct B as (p' & B & KB & _). congruence.
Qed.

(** * Concrete histories *)

Lemma play_reach : forall u l s s', reach u s -> play u s l = Some s' -> reach u s'.
Proof.
  intros u l. induction l as [|x l IH]; cbn; intros s s' R P; [injection P as <-; auto|].
  destruct (fits u s x) eqn:F; [|discriminate]. destruct (move s x) as [s1|] eqn:M; [|discriminate].
  eapply IH; [|exact P]. econstructor; eauto.
Qed.

Definition idle := mkCh None None None.
Definition doing (i : tid) (n : nat) : list act := repeat (Step i idle) n.
Definition zero : fsm -> tid := fun _ => 0.

(** What is seen at the end of a history. *)
Lemma play_witness : forall u l (A : Type) (f : system -> A) v, match play u start l with Some s => Some (f s) | None => None end = Some v ->
  exists s, reach u s /\ f s = v.
Proof.
  intros u l A f v H. destruct (play u start l) as [s|] eqn:E; [|discriminate]. exists s. split; [|congruence]. eapply play_reach; [constructor|exact E].
Qed.
Definition next_todo (s : system) (i : tid) : option (list instr) :=
  match move s (Step i idle) with Some s' => Some (todo s' i) | None => None end.
Lemma next_todo_move : forall s i l, next_todo s i = Some l -> exists s', move s (Step i idle) = Some s' /\ todo s' i = l.
Proof. intros s i l. unfold next_todo. destruct (move s (Step i idle)) as [s'|]; [|discriminate]. intros H. exists s'. split; congruence. Qed.
Ltac witness u l f := let s := fresh "s" in let R := fresh "R" in let V := fresh "V" in
  edestruct (play_witness u l _ f) as (s & R & V); [vm_compute; reflexivity|]; exists s; injection V; clear V; intros.

(** Two transactions, a thread that delivers a message while the worker is in a pass, a timer pass and
    a search for the next timeout, the transaction freed: reachable and non-trivial. *)
Definition ev1 := mkEv IST 7 1.
Definition ev2 := mkEv IST 7 2.
Definition ev3 := mkEv IST 8 3.

Definition history : list act :=
  Begin 0 (ReceiveNew ev1) :: doing 0 15 ++             (* the worker creates a transaction *)
  Begin 1 (Receive ev2) :: doing 1 3 ++                 (* thread 1 holds the table, is about to add *)
  Begin 0 (Work IST) :: Begin 2 (Timers IST) :: doing 1 4 ++ (* thread 1 ends *)
  doing 0 3 ++                                          (* the worker copied the table *)
  doing 2 1 ++                                          (* the timer pass holds it *)
  doing 0 5.                                            (* the worker executes the first event *)

Example history_reaches : exists s, reach (one_worker zero) s /\
  table (sh s) IST = [0] /\ of 0 (accepted (sh s)) = [ev1; ev2] /\ of 0 (executed (sh s)) = [ev1] /\
  todo s 0 = [Callback InTransaction; Drain 0] /\ todo s 1 = [] /\ todo s 2 = [PollTable IST; Unlock (MTable IST)].
Proof.
  witness (one_worker zero) history (fun s => (table (sh s) IST, of 0 (accepted (sh s)), of 0 (executed (sh s)), todo s 0, todo s 1, todo s 2)).
  auto 10.
Qed.

(** The hypotheses of C69_pass_leaves_nothing are met in a history with two events. *)
Example pass_ends : exists s, reach (one_worker zero) s /\
  serves 0 (todo s 0) /\ (exists s', move s (Step 0 idle) = Some s' /\ ~ serves 0 (todo s' 0)) /\ of 0 (accepted (sh s)) = [ev1; ev2].
Proof.
  witness (one_worker zero) (Begin 0 (ReceiveNew ev1) :: doing 0 15 ++ Begin 1 (Receive ev2) :: doing 1 7 ++ Begin 0 (Work IST) :: doing 0 15)
    (fun s => (todo s 0, next_todo s 0, of 0 (accepted (sh s)))).
  split; auto. split; [rewrite H1; left; cbn; auto|]. split; auto. apply next_todo_move in H0. destruct H0 as (s' & M & Z). exists s'. split; auto.
  rewrite Z. intros [[]|[[]|[? []]]].
Qed.

(** A thread that waits (C70). *)
Example waiting : exists s, reach (one_worker zero) s /\ waits s 0 1 /\ can_go s 1.
Proof.
  witness (one_worker zero) (Begin 1 (Receive ev2) :: doing 1 1 ++ [Begin 0 (Work IST)])
    (fun s => (todo s 0, owner (sh s) (MTable IST), next_todo s 1)).
  split; auto. split.
  - exists (MTable IST), [Snapshot IST]. auto.
  - exists idle. apply next_todo_move in H. destruct H as (s' & H & _). eauto.
Qed.

(** Three transactions made by the only source, two of them with one key, of which the first was freed before
    the second was made (C71). *)
Example two_keys : exists s, reach (one_source zero) s /\ table (sh s) IST = [1; 2] /\ heap (sh s) 0 = None /\
  has_key (sh s) 7 1 = true /\ has_key (sh s) 8 2 = true.
Proof.
  witness (one_source zero) (Begin 0 (ReceiveNew ev1) :: doing 0 15 ++ Begin 0 (Free 0) :: doing 0 4 ++ Begin 0 (ReceiveNew ev2) :: doing 0 15 ++ Begin 0 (ReceiveNew ev3) :: doing 0 15)
    (fun s => (table (sh s) IST, dead (sh s) 0, has_key (sh s) 7 1, has_key (sh s) 8 2)).
  split; auto. split; auto. split; auto. unfold dead in *. destruct (heap (sh s) 0); [discriminate|auto].
Qed.

(** * What the rules of use are for *)

(** A thread that is not the worker frees a registered transaction: the worker, in a pass, uses it. *)
Theorem C69_free_rule_needed : exists s x r, reach (free_anywhere zero) s /\ todo s 0 = x :: r /\ bad (sh s) 0 x = true.
Proof.
  witness (free_anywhere zero)
    (Begin 0 (Create IST 7 None) :: doing 0 8 ++ Begin 0 (Work IST) :: doing 0 3 ++ Begin 1 (Free 0) :: doing 1 4)
    (fun s => (todo s 0, bad (sh s) 0 (Drain 0))).
  exists (Drain 0), []. auto.
Qed.

(** The worker frees the transaction from inside one of its callbacks: osip_*_execute goes on to use it. *)
Theorem C69_callback_rule_needed : exists s x r, reach (free_in_callback zero) s /\ todo s 0 = x :: r /\ bad (sh s) 0 x = true.
Proof.
  witness (free_in_callback zero)
    (Begin 0 (ReceiveNew ev1) :: doing 0 15 ++ Begin 0 (Work IST) :: doing 0 8 ++ Step 0 (mkCh None None (Some (Free 0))) :: doing 0 5)
    (fun s => (todo s 0, bad (sh s) 0 (Drain 0))).
  exists (Drain 0), []. auto.
Qed.

(** A thread that is not the worker creates a transaction and then adds its first event: the
    transaction is already in the table, so that the worker may have executed an event that another
    thread delivered, and freed it. *)
Theorem C69_create_rule_needed : exists s x r, reach (create_anywhere zero) s /\ todo s 1 = x :: r /\ bad (sh s) 1 x = true.
Proof.
  witness (create_anywhere zero)
    (Begin 1 (ReceiveNew ev1) :: doing 1 11 ++ Begin 2 (Receive ev2) :: doing 2 7 ++ Begin 0 (Work IST) :: doing 0 10 ++ Begin 0 (Free 0) :: doing 0 4)
    (fun s => (todo s 1, bad (sh s) 1 (Push 0 ev1), of 0 (executed (sh s)))).
  exists (Push 0 ev1), []. auto.
Qed.

(** The state of a transaction has no mutex: osip_timers_gettimeout reads it while the worker's
    state machine runs, even when the rules are followed. *)
Theorem C72_state_race_refuted : exists s a e r r', reach (one_worker zero) s /\
  todo s 0 = Exec a e :: r /\ todo s 1 = Touch a :: r'.
Proof.
  witness (one_worker zero)
    (Begin 0 (ReceiveNew ev1) :: doing 0 15 ++ Begin 0 (Work IST) :: doing 0 7 ++ Begin 1 GetTimeout :: doing 1 7)
    (fun s => (todo s 0, todo s 1)).
  exists 0, ev1. eexists. eexists. split; [auto|]. split; eauto.
Qed.

(** The callback of osip_retransmissions_execute that sends a message stops a retransmission: the
    thread takes a mutex it holds. *)
Theorem C70_callback_rule_needed : exists s m r, reach (stop_in_callback zero) s /\ todo s 0 = Lock m :: r /\ owner (sh s) m = Some 0.
Proof.
  witness (stop_in_callback zero)
    (Begin 0 IxtExecute :: doing 0 1 ++ [Step 0 (mkCh None None (Some IxtStop))])
    (fun s => (todo s 0, owner (sh s) MIxt)).
  exists MIxt. eexists. split; [auto|]. split; eauto.
Qed.

(** Two threads receive a message and its retransmission at the same time: two transactions for one key. *)
Theorem C71_source_rule_needed : exists s a b o p, reach (create_anywhere zero) s /\
  In a (table (sh s) IST) /\ In b (table (sh s) IST) /\ heap (sh s) a = Some o /\ heap (sh s) b = Some p /\ o_key o = o_key p /\ a <> b.
Proof.
  witness (create_anywhere zero)
    (Begin 0 (ReceiveNew ev1) :: doing 0 3 ++ Begin 1 (ReceiveNew ev2) :: doing 1 15 ++ doing 0 12)
    (fun s => (table (sh s) IST, has_key (sh s) 7 0, has_key (sh s) 7 1)).
  unfold has_key in *. destruct (heap (sh s) 0) as [o|] eqn:HO; [|discriminate]. destruct (heap (sh s) 1) as [p|] eqn:HP; [|discriminate].
  apply Nat.eqb_eq in H. apply Nat.eqb_eq in H0.
  exists 0, 1, o, p. rewrite H1. cbn. repeat split; auto. congruence.
Qed.

Print Assumptions C69_no_undefined_behaviour.
Print Assumptions C69_tables_and_ids.
Print Assumptions C69_events_once_in_order.
Print Assumptions C69_pass_leaves_nothing.
Print Assumptions C72_one_executor_partial.
Print Assumptions C70_no_deadlock.
Print Assumptions C71_one_transaction_per_key.
Print Assumptions C72_state_race_refuted.
Print Assumptions C71_source_rule_needed.

(** C79: events, transactions, dialogs and the stack give back their memory, also when making them fails half way.  The messages they are
    made from and the success of every allocation are arbitrary. *)
From Coq Require Import Bool List Arith Lia Permutation.
From Verif Require Import OwnModel OwnFacts OwnMsg OwnProps OwnStack OwnStackFacts.
Import ListNotations.

(** *** Specification *)
(** made and freed at once *)
Definition as_is {A} (x : A) : prog (bool * A) := ret (true, x).
(** osip_transaction_init, any use of the transaction, osip_transaction_free.  osip_transaction_init looks twice at the same Via *)
Definition transaction (k : kind) (protocol : bool) : prog unit := life (trn_init k protocol protocol) trn_steps trn_free.
(** osip_dialog_init_as_uac (or _as_uas, ...), any updates, osip_dialog_free *)
Definition dialog : prog unit := life dlg_init dlg_steps dlg_free.

Lemma sound_life' A (own : A -> list block) (fresh : A -> Prop) init parse fr : makes own fresh init -> keeps_fresh own fresh parse -> frees own fr -> sound (life init parse fr).
Proof.
  intros I P F m. destruct (sound_life A own fresh init parse fr I P F m) as (m' & E & C & Z & D & N). exists m'. split; [exact E|]. split; [exact C|].
  unfold lost in *. split; intros H H'; apply Z; lia.
Qed.
Lemma as_is_ok A (own : A -> list block) fresh : keeps_fresh own fresh as_is.
Proof. intros y _. apply keeps_intro. intros d F m H. unfold as_is. apply wp_ret. exact H. Qed.

(** *** C79 *)
(** osip_init and osip_release: all the memory comes back, whatever fails *)
Theorem C79_stack : returns_all (life stack_init as_is obj_free).
Proof.
  refine (returns_everything _ own_obj (fun _ => True) _ _ _ stack_init_ok (as_is_ok _ _ _) obj_free_ok _ _ (quiet_obj_free _)).
  - unfold stack_init. apply quiet_bind; [apply quiet_obj_init|]. intros [s|]; cbn [locks]; hush.
  - intro. apply quiet_ret.
Qed.
(** osip_parse and osip_event_free: up to what C77 says of messages *)
Theorem C79_event_partial : sound (life evt_parse as_is evt_free).
Proof.
  apply (sound_life' _ own_evt (fun _ => True)); [|apply as_is_ok|apply evt_free_ok]. intros d f m Q H N K. apply (evt_parse_ok d f m Q H N). intros y m' H'. apply K; [exact I|exact H'].
Qed.
(** a transaction: making it either succeeds or gives everything back, and freeing it gives everything back *)
Theorem C79_transaction_partial : forall k protocol, sound (transaction k protocol).
Proof.
  intros k protocol. apply (sound_life' _ own_trn (fun t => t_fifo t <> None)); [apply trn_init_ok; left; reflexivity|apply trn_steps_ok|apply trn_free_ok].
Qed.
(** for the other three kinds even if the Via changes in between *)
Theorem C79_other_kinds_partial : forall k protocol protocol', k <> Ict -> sound (life (trn_init k protocol protocol') trn_steps trn_free).
Proof.
  intros k protocol protocol' K. apply (sound_life' _ own_trn (fun t => t_fifo t <> None)); [apply trn_init_ok; right; exact K|apply trn_steps_ok|apply trn_free_ok].
Qed.

(** programs that answer something with [R] *)
Definition quietly (t : may) {A} (p : prog A) (R : A -> Prop) : Prop := quiet t p /\ forall m x m', p m = Some (x, m') -> R x.
Lemma quietly_bind t A B (p : prog A) (k : A -> prog B) R S : quietly t p R -> (forall x, R x -> quietly t (k x) S) -> quietly t (bind p k) S.
Proof.
  intros [P PR] K. split.
  - intros m y m' E. unfold bind in E. destruct (p m) as [[x m1]|] eqn:M; [|discriminate]. destruct (P _ _ _ M) as (A1 & A2 & A3). destruct (K x (PR _ _ _ M)) as [Q _]. destruct (Q _ _ _ E) as (B1 & B2 & B3).
    split; [exact (within_trans _ _ _ _ A1 B1)|]. split; [exact (within_trans _ _ _ _ A2 B2)|lia].
  - intros m y m' E. unfold bind in E. destruct (p m) as [[x m1]|] eqn:M; [|discriminate]. exact (proj2 (K x (PR _ _ _ M)) _ _ _ E).
Qed.
Lemma quietly_ret t A (x : A) (R : A -> Prop) : R x -> quietly t (ret x) R.
Proof. intro H. split; [apply quiet_ret|]. intros m y m' E. injection E as <- <-. exact H. Qed.
Lemma quietly_any t A (p : prog A) : quiet t p -> quietly t p (fun _ => True).
Proof. intro H. split; [exact H|]. intros. exact I. Qed.
Section Quiet.
Let t := only_nodes.
Lemma quiet_copy_opt : quiet t copy_opt. Proof. unfold copy_opt. hush. Qed.
Lemma quiet_list_clone A (clone : prog (option A)) l : quiet t clone -> quiet t (list_clone clone l).
Proof. intro C. assert (nodes t = true) by reflexivity. unfold list_clone, clone_round. hush; exact C. Qed.
Lemma quiet_param_clone : quiet t param_clone. Proof. unfold param_clone, refuse. hush. apply quiet_copy_opt. Qed.
Lemma quiet_copies n : quiet t (copies n). Proof. induction n; cbn [copies]; hush; [apply quiet_copy_opt|assumption]. Qed.
Lemma quiet_uri_clone : quiet t uri_clone.
Proof. unfold uri_clone, refuse, uri_init. cbv zeta. hush; try apply quiet_obj_init; try apply quiet_copies; try (apply quiet_list_clone; apply quiet_param_clone); apply quiet_obj_free. Qed.
Lemma quiet_must i v k : (forall v, quiet t (k v)) -> quiet t (must i v k). Proof. intro K. unfold must. hush; [apply K|apply quiet_obj_free]. Qed.
Lemma quiet_maybe i v k : (forall v, quiet t (k v)) -> quiet t (maybe i v k). Proof. intro K. unfold maybe. hush; [apply quiet_must|]; apply K. Qed.
Lemma quiet_via_clone p : quiet t (via_clone p).
Proof.
  unfold via_clone, refuse, via_init. cbv zeta. hush; [apply quiet_obj_init|]. do 3 (apply quiet_must; intro). do 2 (apply quiet_maybe; intro). hush; [apply quiet_list_clone; apply quiet_param_clone|apply quiet_obj_free].
Qed.
Lemma quiet_from_clone : quiet t from_clone.
Proof.
  unfold from_clone, refuse. cbv zeta. hush; try apply quiet_from_init; try apply quiet_from_free; try apply quiet_uri_clone; apply quiet_list_clone; apply quiet_param_clone.
Qed.
Lemma quiet_call_id_clone : quiet t call_id_clone. Proof. unfold call_id_clone, refuse, call_id_init. hush; [apply quiet_obj_init|apply quiet_copy_opt]. Qed.
Lemma quiet_cseq_clone : quiet t cseq_clone. Proof. unfold cseq_clone, refuse, cseq_init, opt_free. hush; try apply quiet_obj_init; apply quiet_obj_free. Qed.
(** a transaction with an empty queue *)
Definition idle (x : trn) : Prop := match t_fifo x with Some q => q_events q = [] | None => True end.
Lemma quiet_trn_free x : idle x -> quiet t (trn_free x).
Proof.
  unfold idle, trn_free, opt_free, ctx_free, fifo_free. intro E. destruct (t_fifo x) as [[g lk sm es]|]; [cbn in E; subst es; cbn [q_sem q_events q_lock q_self list_free]|];
  hush; try apply quiet_obj_free; apply quiet_from_free.
Qed.
Definition idle_or_none (o : option trn) : Prop := match o with Some x => idle x | None => True end.
Lemma quietly_drop x : idle x -> quietly t (drop x) idle_or_none.
Proof. intro E. unfold drop. apply (quietly_bind _ _ _ _ _ (fun _ => True)); [apply quietly_any, quiet_trn_free, E|]. intros _ _. apply quietly_ret. exact I. Qed.
Lemma quietly_trn_init k p p' : quietly t (trn_init k p p') idle_or_none.
Proof.
  unfold trn_init, refuse, test. cbv zeta.
  repeat match goal with
  | |- quietly _ (bind (fifo_init ?b) _) _ => apply (quietly_bind _ _ _ _ _ (fun q => q_events q = [])); [unfold fifo_init; do 2 (apply (quietly_bind _ _ _ _ _ (fun _ => True)); [apply quietly_any, quiet_new|intros]); apply quietly_ret; reflexivity|intros]
  | |- quietly _ (bind _ _) _ => apply (quietly_bind _ _ _ _ _ (fun _ => True)); [|intros]
  | |- quietly _ (ret _) _ => apply quietly_ret
  | |- quietly _ (drop _) _ => apply quietly_drop
  | |- quietly _ (if ?b then _ else _) _ => destruct b
  | |- quietly _ (match ?o with _ => _ end) _ => destruct o
  | |- quietly _ ask _ => apply quietly_any, quiet_ask
  | |- quietly _ new _ => apply quietly_any, quiet_new
  | |- quietly _ (via_clone _) _ => apply quietly_any, quiet_via_clone
  | |- quietly _ from_clone _ => apply quietly_any, quiet_from_clone
  | |- quietly _ call_id_clone _ => apply quietly_any, quiet_call_id_clone
  | |- quietly _ cseq_clone _ => apply quietly_any, quiet_cseq_clone
  | |- quietly _ (ctx_init _ _) _ => apply quietly_any; unfold ctx_init, copy_opt; hush
  end; try exact I; unfold idle_or_none, idle; cbn [t_fifo]; assumption.
Qed.
Lemma quiet_dlg_free l : quiet t (dlg_free l). Proof. unfold dlg_free, opt_free. hush; apply quiet_from_free. Qed.
Lemma quiet_dlg_init : quiet t dlg_init.
Proof.
  unfold dlg_init, refuse, dlg_drop. cbv zeta. hush; try apply quiet_dlg_free; try apply quiet_copy_opt; try apply quiet_from_clone; apply quiet_list_clone; apply quiet_from_clone.
Qed.
Lemma quiet_dlg_steps l : quiet t (dlg_steps l).
Proof.
  unfold dlg_steps, dlg_step, dlg_update_uac, dlg_target, dlg_update_tag, opt_free. cbv zeta.
  hush; try apply quiet_from_free; try apply quiet_copy_opt; try apply quiet_from_clone; apply quiet_list_clone; apply quiet_from_clone.
Qed.
End Quiet.

(** a transaction that is made and freed, or whose making fails: everything comes back unless the node of a list of parameters could not be
    allocated *)
Theorem C79_new_transaction_partial : forall k protocol, returns_memory (life (trn_init k protocol protocol) as_is trn_free).
Proof.
  intros k protocol m. destruct (sound_life _ own_trn (fun x => t_fifo x <> None) _ _ _ (trn_init_ok k protocol protocol (or_introl eq_refl)) (as_is_ok _ _ _) trn_free_ok m) as (m' & E & C & Z & D & N).
  exists m'. split; [exact E|]. split; [exact C|].
  assert (quietly only_nodes (life (trn_init k protocol protocol) as_is trn_free) (fun _ => True)) as [Q _].
  { unfold life. apply (quietly_bind _ _ _ _ _ idle_or_none); [apply quietly_trn_init|]. intros [x|] X; [|apply quietly_ret; exact I]. unfold as_is.
    apply (quietly_bind _ _ _ _ _ (fun r => idle (snd r))); [apply quietly_ret; exact X|]. intros r R. apply quietly_any, quiet_trn_free, R. }
  destruct (Q _ _ _ E) as (X & N' & F'). cbn in X, N'. unfold lost in *. split; intro H; apply Z; lia.
Qed.
(** a dialog *)
Theorem C79_dialog_partial : returns_memory dialog.
Proof.
  exact (returns _ own_dlg (fun _ => True) _ _ _ dlg_init_ok dlg_steps_ok dlg_free_ok quiet_dlg_init quiet_dlg_steps quiet_dlg_free).
Qed.

(** *** The exceptions are real *)
(** the choices for the copies of a Via, an address and the rest: one Via parameter, a URI with a host; [sem]: the semaphore of the queue is
    allocated *)
Definition a_param : list nat := [1; 0; 0; 0; 0].
Definition an_address : list nat := [1; 0; 1; 0; 1; 0; 0; 0; 1; 1; 0; 0; 1; 1; 0; 0; 1] ++ a_param ++ [0].
Definition a_request (sem : bool) : list nat :=
  [1; 0; 1] ++ ([1; 0; 0; 0; 0; 1; 1; 1] ++ a_param ++ [0]) ++ an_address ++ an_address ++ [1; 0; 0; 0; 0] ++ [1; 0; 0; 0] ++ [0; 0; if sem then 0 else 1] ++ [0].
(** destination, node of the stack *)
Definition as_client : list nat := [0; 0; 0].
(** one timer event *)
Definition one_event : list nat := [1; 1; 0; 0].
Definition seen (r : option (unit * mem)) : option (nat * nat * nat) := option_map (fun r => (failed (snd r), nodes_lost (snd r), length (live (snd r)))) r.
(** the semaphore of the queue could not be allocated (osip_fifo_init does not say so): the events that are put in the queue are never
    freed, here an event and its node, although every list grew *)
Theorem C79_transaction_refuted : exists m m', live m = [] /\ transaction Ict true m = Some (tt, m') /\ failed m' = S (failed m) /\ nodes_lost m' = nodes_lost m /\ length (live m') = 2.
Proof.
  exists (start (a_request false ++ as_client ++ one_event)).
  destruct (transaction Ict true (start (a_request false ++ as_client ++ one_event))) as [[[] m']|] eqn:E.
  - exists m'. assert (seen (transaction Ict true (start (a_request false ++ as_client ++ one_event))) = Some (1, 0, 2)) as V by (vm_compute; reflexivity).
    rewrite E in V. cbn in V. injection V as V1 V2 V3. repeat split; assumption.
  - exfalso. assert (seen (transaction Ict true (start (a_request false ++ as_client ++ one_event))) = Some (1, 0, 2)) as V by (vm_compute; reflexivity).
    rewrite E in V. discriminate.
Qed.
(** __osip_ict_init frees its context and leaves the pointer: if the protocol of the Via went away after osip_via_clone has seen it, the context
    is freed twice.  The request must not be changed during osip_transaction_init *)
Theorem C79_ict_rule_needed : exists m, live m = [] /\ life (trn_init Ict true false) trn_steps trn_free m = None.
Proof. exists (start (a_request true)). split; [reflexivity|vm_compute; reflexivity]. Qed.

(** all the kinds of transactions with an event: all of it comes back; without a protocol there is no transaction *)
Definition made (k : kind) (protocol : bool) (m : mem) : option (bool * nat) :=
  match (o <~ trn_init k protocol protocol ;; match o with Some x => r <~ trn_steps x ;; ret (fst r) | None => ret false end) m with
  | Some (b, m') => Some (b, length (live m'))
  | None => None
  end.
Example C79_transaction_example :
  map (fun k => made k true (start (a_request true ++ match k with Ict | Nict => as_client | _ => [0] end ++ one_event))) [Ict; Ist; Nict; Nist] = [Some (true, 39); Some (true, 38); Some (true, 39); Some (true, 38)]
  /\ map (fun k => seen (transaction k true (start (a_request true ++ match k with Ict | Nict => as_client | _ => [0] end ++ one_event)))) [Ict; Ist; Nict; Nist] = repeat (Some (0, 0, 0)) 4
  /\ map (fun k => made k false (start (a_request true))) [Ict; Ist; Nict; Nist] = repeat (Some (false, 0)) 4.
Proof.
  split; [|split]; vm_compute; reflexivity.
Qed.
(** a dialog with one route, updated by an answer with a contact and one route; and the same with an allocation that fails in the update *)
Definition a_dialog : list nat := [1; 0; 1; 0; 1; 0; 0; 0; 0; 1] ++ ([1] ++ an_address ++ [0]) ++ an_address ++ an_address ++ [0] ++ an_address.
Definition an_update (k : nat) : list nat := [1; 1] ++ [1] ++ an_address ++ [0] ++ firstn k ([1] ++ an_address ++ [0]).
Example C79_dialog_example :
  map (fun k => seen (dialog (start (a_dialog ++ an_update k)))) [25; 12; 3] = [Some (0, 0, 0); Some (2, 0, 0); Some (1, 0, 0)]
  /\ option_map (fun r => (fst r, length (live (snd r)))) ((o <~ dlg_init ;; match o with Some l => r <~ dlg_steps l ;; ret (length (l_routes (snd r))) | None => ret 0 end) (start (a_dialog ++ an_update 25))) = Some (1, 37).
Proof. split; vm_compute; reflexivity. Qed.
(** a received message becomes an event *)
Example C79_event_example :
  seen (life evt_parse as_is evt_free (start ([0] ++ request_with_parts 1 ++ [1]))) = Some (0, 0, 0)
  /\ option_map (fun r => fst r) ((o <~ evt_parse ;; ret (match o with Some e => match e_sip e with Some _ => true | None => false end | None => false end)) (start ([0] ++ request_with_parts 1 ++ [1]))) = Some true.
Proof. split; vm_compute; reflexivity. Qed.
Example C79_stack_example : seen (life stack_init as_is obj_free (start [0; 0; 0; 1; 0; 0; 0])) = Some (1, 0, 0).
Proof. vm_compute. reflexivity. Qed.

Print Assumptions C79_stack.
Print Assumptions C79_event_partial.
Print Assumptions C79_transaction_partial.
Print Assumptions C79_other_kinds_partial.
Print Assumptions C79_new_transaction_partial.
Print Assumptions C79_dialog_partial.
Print Assumptions C79_transaction_refuted.
Print Assumptions C79_ict_rule_needed.

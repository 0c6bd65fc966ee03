(** Properties of single transactions: C07, C08, C11, C17, C18, C24, C25, C52, C54. *)
From Coq Require Import String ZArith Ascii Bool List Lia ZifyBool ZifyNat Permutation.
From Verif Require Import Base Str StrLemmas Types TimeModel PortModel CloneModel CloneProofs TransModel TransSpec TransProofs TransSteps.
Import ListNotations.
Open Scope Z_scope.

(** * C07 *)

Lemma run_kill : forall l t t' tr, run t l = Ok (t', tr) ->
  count is_kill (concat tr) = (if termb (t_state t') && negb (termb (t_state t)) then 1 else 0)%nat /\
  (termb (t_state t) = true -> t' = t /\ filter visible (concat tr) = []).
Proof.
  induction l as [|[e ev] l]; intros t t' tr H.
  - injection H as <- <-. rewrite andb_negb_r. auto.
  - apply run_cons in H. destruct H as (r & t1 & o & tr1 & H1 & H2 & ->).
    destruct (IHl _ _ _ H2) as (IH1 & IH2). simpl. rewrite count_app, IH1, (exec_kill _ _ _ _ _ _ H1).
    destruct (termb (t_state t)) eqn:E0.
    + destruct (exec_terminated _ _ _ _ _ _ H1 E0) as (-> & Hv).
      destruct (IH2 E0) as (-> & Hv2). rewrite E0. split; auto.
      intros _. rewrite filter_app, Hv, Hv2. auto.
    + split; [|discriminate]. destruct (termb (t_state t1)) eqn:E1; simpl.
      * destruct (IH2 eq_refl) as (-> & _). rewrite E1. auto.
      * rewrite andb_true_r. destruct (termb (t_state t')); auto.
Qed.

(** Over any history of a new transaction, the kill callback runs once if the transaction is
    terminated and not at all otherwise. *)
Theorem C07_killed_once : forall t0 l t tr, fresh t0 -> run t0 l = Ok (t, tr) ->
  (terminated (t_state t) -> count is_kill (concat tr) = 1%nat) /\
  (~ terminated (t_state t) -> count is_kill (concat tr) = 0%nat).
Proof.
  intros t0 l t tr Hf Hr. apply run_kill in Hr. destruct Hr as (Hc & _).
  assert (Ht : termb (t_state t0) = false) by (rewrite (fresh_state _ Hf); destruct (t_type t0); auto).
  rewrite Hc, Ht, andb_true_r. rewrite <- termb_iff. destruct (termb (t_state t)); intuition congruence.
Qed.

Lemma ends_kill : forall o k, last o (OTpErr k 0) = OKill k -> exists o1, o = o1 ++ [OKill k].
Proof.
  intros o k H. destruct o as [|x o]; [discriminate|].
  exists (removelast (x :: o)). rewrite <- H. apply app_removelast_last. discriminate.
Qed.

Lemma last_app_cons : forall A (a b : list A) x d, last (a ++ x :: b) d = last (x :: b) d.
Proof.
  induction a; simpl; intros; auto. rewrite IHa. destruct (a0 ++ x :: b) eqn:E; auto.
  destruct a0; discriminate.
Qed.

(** The kill callback is the last thing done by the very step that terminates the transaction. *)
Theorem C07_kill_when_entering : forall t0 l t tr e ev r t' o, fresh t0 -> run t0 l = Ok (t, tr) ->
  execute e t ev = Ok (r, t', o) ->
  (In (OKill (t_type t)) o <-> (~ terminated (t_state t) /\ terminated (t_state t'))) /\
  (~ terminated (t_state t) -> terminated (t_state t') -> exists o1, o = o1 ++ [OKill (t_type t)]).
Proof.
  intros t0 l t tr e ev r t' o _ _ H. rewrite <- !termb_iff.
  pose proof (exec_kill _ _ _ _ _ _ H) as Hk.
  assert (Hlast : termb (t_state t) <> true -> termb (t_state t') = true -> exists o1, o = o1 ++ [OKill (t_type t)]).
  { clear Hk. intros H1 H2. apply execute_inv in H. destruct H as [(-> & Ho & _)|(h & Hin & Hh & _)]; [congruence|].
    apply ends_kill.
    table_cases Hin; handler_cases Hh; injection Hh as <- <-; cbn [set_state t_state] in H2;
      try discriminate H2; try (exfalso; revert H2; proj; rewrite Hs; discriminate);
      rewrite ?last_app_cons; proj; rewrite ?Hk; reflexivity. }
  split; [|auto].
  split.
  - intros Hin. destruct (termb (t_state t)) eqn:E1, (termb (t_state t')) eqn:E2; simpl in Hk; auto; exfalso.
    all: unfold count in Hk; apply length_zero_iff_nil in Hk.
    all: assert (Hf : In (OKill (t_type t)) (filter is_kill o)) by (apply filter_In; auto).
    all: rewrite Hk in Hf; auto.
  - intros (H1 & H2). destruct (Hlast H1 H2) as (o1 & ->). apply in_or_app. simpl. auto.
Qed.

(** Once terminated, nothing is observable any more, whatever happens. *)
Theorem C07_silent_after_termination : forall t0 l1 l2 t1 tr1 t2 tr, fresh t0 ->
  run t0 l1 = Ok (t1, tr1) -> terminated (t_state t1) -> run t0 (l1 ++ l2) = Ok (t2, tr) ->
  t2 = t1 /\ exists tr2, tr = tr1 ++ tr2 /\ filter visible (concat tr2) = [].
Proof.
  intros t0 l1 l2 t1 tr1 t2 tr _ H1 Ht H2. apply run_app in H2.
  destruct H2 as (t1' & tr1' & tr2 & Ha & Hb & ->). rewrite H1 in Ha. injection Ha as <- <-.
  apply termb_iff in Ht. apply run_kill in Hb. destruct Hb as (_ & Hb). destruct (Hb Ht) as (-> & Hv).
  split; auto. exists tr2. auto.
Qed.

(** * C08 *)

Lemma run_typed : forall t0 l t tr, fresh t0 -> run t0 l = Ok (t, tr) -> typed t.
Proof.
  intros. refine (run_invariant typed (fun _ => True) _ l t0 t tr _ _ H0); auto using fresh_typed.
  - intros. eapply exec_typed; eauto.
  - apply Forall_forall. auto.
Qed.

Lemma complete_ok : forall ev, api_event ev -> complete_event ev -> ev_ok complete_request ev.
Proof.
  intros ev Ha Hc. split; auto. intros m Hm. specialize (Hc m Hm). destruct (ev_type ev); auto.
Qed.

Lemma run_holds : forall P t0 l t tr, fresh t0 -> Forall (fun x => ev_ok P (snd x)) l ->
  run t0 l = Ok (t, tr) -> holds P t.
Proof.
  intros. refine (run_invariant (holds P) (fun x => ev_ok P (snd x)) _ l t0 t tr _ H0 H1); auto using fresh_holds.
  intros. eapply exec_holds; eauto.
Qed.

(** When the messages carry the headers RFC 3261 requires, every executed event is a step of
    the RFC 3261 diagram, in any history.  (Partial: see C08_refuted.) *)
Theorem C08_follows_rfc_diagram_partial : forall t0 l t tr e ev r t' o, fresh t0 ->
  Forall (fun x => api_event (snd x) /\ complete_event (snd x)) l -> run t0 l = Ok (t, tr) ->
  api_event ev -> complete_event ev -> execute e t ev = Ok (r, t', o) ->
  rfc_step (t_type t0) (t_state t) (ev_type ev) o (t_state t').
Proof.
  intros t0 l t tr e ev r t' o Hf Hl Hr Ha Hc He.
  assert (Hty : t_type t = t_type t0).
  { refine (run_invariant (fun x => t_type x = t_type t0) (fun _ => True) _ l t0 t tr _ _ Hr); auto.
    - intros. apply execute_identity in H1. destruct H1 as (_ & -> & _). auto.
    - apply Forall_forall. auto. }
  rewrite <- Hty.
  destruct (exec_rfc _ _ _ _ _ _ (run_typed _ _ _ _ Hf Hr) He) as [Hx|]; auto. exfalso.
  assert (Hh : holds complete_request t).
  { refine (run_holds _ _ _ _ _ Hf _ Hr). eapply Forall_impl; [|exact Hl]. intros x (H1 & H2). apply complete_ok; auto. }
  destruct Hx as (Hk & Hs & Het & m & x & Hm & Hx & Hn).
  unfold holds in Hh. specialize (Hc x Hx). rewrite Het in Hc.
  assert (exists m, t_orig t = Some m /\ complete_request (mc m)) as (m' & Hm' & HP)
    by (destruct Hs as [Hs|Hs]; rewrite Hs in Hh; auto).
  rewrite Hm' in Hm. injection Hm as <-.
  destruct (create_ack_some _ _ HP Hc) as (a & Hack). congruence.
Qed.

(** States never go backwards (no condition on the messages). *)
Theorem C08_never_backwards : forall t0 l1 l2 t1 tr1 t2 tr2, fresh t0 ->
  run t0 l1 = Ok (t1, tr1) -> run t1 l2 = Ok (t2, tr2) -> (rank (t_state t1) <= rank (t_state t2))%nat.
Proof.
  intros t0 l1 l2 t1 tr1 t2 tr2 _ _ H. revert t1 tr2 H. induction l2 as [|[e ev] l]; intros.
  - injection H as <- <-. auto.
  - apply run_cons in H. destruct H as (r & t3 & o & tr3 & H1 & H2 & ->).
    apply exec_rank in H1. apply IHl in H2. lia.
Qed.

(** ** A concrete call used by the examples *)
Definition ex_uri : uri := mkUri (Some ($"sip")) (Some ($"bob")) None (Some ($"example.org")) None [] [] None.
Definition ex_from : nameaddr := mkNA None (Some ex_uri) [($"tag", Some ($"a1"))].
Definition ex_to : nameaddr := mkNA None (Some ex_uri) [].
Definition ex_via (p : str) : via :=
  mkVia (Some ($"2.0")) (Some p) (Some ($"10.0.0.1")) (Some ($"5070")) None [($"branch", Some ($"z9hG4bK77"))].
Definition ex_cid : call_id := mkCid (Some ($"c1")) (Some ($"h")).
Definition ex_msg (version : option str) (method : option str) (status : Z) (v : via) (to : nameaddr)
    (cs_m : str) : message :=
  mkMsg version (if status =? 0 then Some ex_uri else None) method status None [] [] [] [] [] [] []
        (Some ex_cid) [] [] [] None None (Some (mkCSeq (Some cs_m) (Some ($"1")))) [] (Some ex_from) None
        [] [] [] [] [] (Some to) [v] [] [] [].
Definition ex_invite (p : str) : message :=
  ex_msg (Some ($"SIP/2.0")) (Some ($"INVITE")) 0 (ex_via p) ex_to ($"INVITE").
Definition ex_resp (st : Z) (p : str) : message :=
  ex_msg (Some ($"SIP/2.0")) None st (ex_via p) (mkNA None (Some ex_uri) [($"tag", Some ($"b2"))]) ($"INVITE").
Definition ex_t (k : fsm) : trans :=
  match trans_init k (TV 100 0) 1 (Some (ex_invite ($"UDP"))) with Ok t => t | _ =>
    mkT 0 k ICT_TERMINATED None None None None 0 (fun _ => 0) (fun _ => off) (ex_via ($"UDP")) ex_to ex_to ex_cid
        (mkCSeq None None) end.
Definition ex_env (i : Z) : env := mkEnv (TV 101 0) i 1000.

Lemma ex_t_fresh : forall k, fresh (ex_t k).
Proof. intros. exists k, (TV 100 0), 1, (ex_invite ($"UDP")). destruct k; vm_compute; reflexivity. Qed.

Ltac api_ev :=
  match goal with
  | |- api_event (Ev _ (Some ?m)) =>
      first [ left; exists m; vm_compute; reflexivity | right; left; exists m; vm_compute; reflexivity ]
  | |- api_event (Ev _ None) => right; right; split; reflexivity
  end.

(** INVITE sent, retransmitted, 180, 486 and its copy, timer D. *)
Definition ex_ict_run : list (env * event) :=
  [ (ex_env 0, Ev SND_REQINVITE (Some (Msg 1 (ex_invite ($"UDP")))));
    (ex_env 0, Ev TIMEOUT_A None);
    (ex_env 0, Ev RCV_STATUS_1XX (Some (Msg 2 (ex_resp 180 ($"UDP")))));
    (ex_env 0, Ev RCV_STATUS_3456XX (Some (Msg 3 (ex_resp 486 ($"UDP")))));
    (ex_env 0, Ev RCV_STATUS_3456XX (Some (Msg 4 (ex_resp 486 ($"UDP")))));
    (ex_env 0, Ev TIMEOUT_D None) ].

Lemma ex_ict_api : Forall (fun x => api_event (snd x) /\ complete_event (snd x)) ex_ict_run.
Proof.
  unfold ex_ict_run.
  assert (Hreq : complete_request (ex_invite ($"UDP"))).
  { unfold complete_request. simpl. split; [discriminate|].
    split; [exists ex_uri; split; [reflexivity|left; discriminate]|].
    split; [exists (ex_via ($"UDP")), []; split; [reflexivity|repeat split; discriminate]|constructor]. }
  assert (Hrsp : forall st, complete_response (ex_resp st ($"UDP"))).
  { intros st. unfold complete_response, na_ok. simpl.
    repeat split; eexists; split; try reflexivity; simpl; try (intros u Hu; injection Hu as <-; left; discriminate);
      try split; discriminate. }
  repeat apply Forall_cons; try apply Forall_nil; cbn [snd]; unfold complete_event; cbn [ev_type ev_sip].
  all: split; [api_ev|].
  all: intros m H; try discriminate H; injection H as <-; first [exact Hreq | exact I | apply Hrsp].
Qed.

Example C07_C08_witness : exists t tr, run (ex_t ICT) ex_ict_run = Ok (t, tr) /\ t_state t = ICT_TERMINATED /\
  map (fun o => length (filter visible o)) tr = [2; 2; 1; 3; 3; 1]%nat.
Proof. eexists _, _. split; [vm_compute; reflexivity|]. split; reflexivity. Qed.

(** C08 as stated fails: a 486 without a To header makes the client transaction vanish in
    silence, an edge that no diagram has. *)
Definition no_to (m : message) : message :=
  mkMsg (m_version m) (m_uri m) (m_method m) (m_status m) (m_reason m) [] [] [] [] [] [] [] (m_call_id m) [] [] []
        None None (m_cseq m) [] (m_from m) None [] [] [] [] [] None (m_vias m) [] [] [].

Theorem C08_refuted : exists t0 l t tr e ev r t' o, fresh t0 /\
  Forall (fun x => api_event (snd x)) l /\ run t0 l = Ok (t, tr) /\ api_event ev /\
  execute e t ev = Ok (r, t', o) /\ ~ rfc_step (t_type t0) (t_state t) (ev_type ev) o (t_state t').
Proof.
  exists (ex_t ICT), [(ex_env 0, Ev SND_REQINVITE (Some (Msg 1 (ex_invite ($"UDP")))))].
  eexists _, _, (ex_env 0), (Ev RCV_STATUS_3456XX (Some (Msg 3 (no_to (ex_resp 486 ($"UDP")))))), _, _, _.
  split; [apply ex_t_fresh|]. split.
  - constructor; [cbn [snd]; api_ev | constructor].
  - split; [vm_compute; reflexivity|]. split; [api_ev|].
    split; [vm_compute; reflexivity|].
    intros H. simpl in H. inversion H as [H1 H2 H3|l H1 H2 H3|l s1 H1 H2 H3 H4]; try discriminate.
    injection H1 as <-. inversion H2.
Qed.

(** * C18 *)

(** An event that labels no edge out of the current state changes nothing. *)
Theorem C18_stray_events : forall t0 l t tr e ev r t' o, fresh t0 -> run t0 l = Ok (t, tr) ->
  execute e t ev = Ok (r, t', o) ->
  (forall lb s1, label_of (t_type t) (ev_type ev) = Some lb ->
                 ~ figure (t_type t) (rfc_state (t_state t)) lb s1) ->
  t' = t /\ filter visible o = [].
Proof.
  intros t0 l t tr e ev r t' o Hf Hr He Hn. apply execute_inv in He.
  destruct He as [(-> & Ho & _)|(h & Hin & _)].
  - split; auto. destruct Ho as [->| ->]; auto using invisible_free_opt.
  - exfalso. destruct (table_edge _ _ _ Hin) as (lb & s1 & H1 & H2). eapply Hn; eauto.
Qed.

(** A kill event has no effect and is the only one answered 0, which stops the worker. *)
Theorem C18_kill_event : forall t0 l t tr e ev r t' o, fresh t0 -> run t0 l = Ok (t, tr) ->
  execute e t ev = Ok (r, t', o) ->
  (r = 0 <-> ev_type ev = KILL_TRANSACTION) /\ (ev_type ev = KILL_TRANSACTION -> t' = t /\ o = []).
Proof.
  intros t0 l t tr e ev r t' o _ _ He. split.
  - apply execute_inv in He. destruct He as [(_ & _ & _ & H)|(h & _ & _ & -> & H)]; [tauto|].
    split; intros; [discriminate|contradiction].
  - intros Hk. unfold execute in He. rewrite Hk in He. injection He as <- <- <-. auto.
Qed.

(** A late 1xx after the final answer, with its hypothesis: no edge is labelled 1xx there. *)
Example C18_witness : exists t tr r t' o,
  run (ex_t ICT) (firstn 4 ex_ict_run) = Ok (t, tr) /\ t_state t = ICT_COMPLETED /\
  (forall lb s1, label_of ICT RCV_STATUS_1XX = Some lb -> ~ figure ICT (rfc_state (t_state t)) lb s1) /\
  execute (ex_env 0) t (Ev RCV_STATUS_1XX (Some (Msg 9 (ex_resp 183 ($"UDP"))))) = Ok (r, t', o) /\
  o = [OFree (Msg 9 (ex_resp 183 ($"UDP")))].
Proof.
  eexists _, _, _, _, _. split; [vm_compute; reflexivity|]. split; [reflexivity|].
  split; [intros lb s1 H; injection H as <-; intros Hf; inversion Hf|].
  split; vm_compute; reflexivity.
Qed.

(** * C11 *)

(** The ACK for answer [resp] to request [orig], field by field (RFC 3261 17.1.1.3). *)
Record ack_for (orig resp a : message) : Prop := mkAckFor {
  af_method : m_method a = Some ($"ACK") /\ m_status a = 0;
  af_uri : m_uri a = m_uri orig /\ m_uri a <> None;
  af_version : m_version a = m_version orig;
  af_via : exists v vs, m_vias orig = v :: vs /\ m_vias a = [v];
  af_routes : m_routes a = m_routes orig;
  af_from : m_from a = m_from resp;
  af_to : m_to a = m_to resp;
  af_call_id : m_call_id a = m_call_id resp;
  af_cseq : exists n m, m_cseq resp = Some (mkCSeq m n) /\ m_cseq a = Some (mkCSeq (Some ($"ACK")) n);
  af_credentials : if (m_status resp =? 401) || (m_status resp =? 407)
                   then m_authorizations a = [] /\ m_proxy_authorizations a = []
                   else m_authorizations a = m_authorizations orig /\
                        m_proxy_authorizations a = m_proxy_authorizations orig;
  af_nobody : m_bodies a = [] /\ m_content_length a = None /\ m_content_type a = None /\ m_contacts a = [] }.

Lemma in_free_opt : forall x m, In x (free_opt m) -> exists y, x = OFree y.
Proof. intros x [m|] H; [destruct H as [<-|[]]; eauto | destruct H]. Qed.

Ltac in_cases H :=
  repeat match type of H with
  | In _ (_ ++ _) => apply in_app_or in H; destruct H as [H|H]
  | In _ (_ :: _) => destruct H as [H|H]
  | In _ [] => destruct H
  | In _ (free_opt _) => apply in_free_opt in H; destruct H as [? H]
  end.

(** Every ACK the transaction sends is the ACK for the request it sent and the first
    3xx-6xx answer: the first time it is sent. *)
Theorem C11_ack_fields : forall t0 l t tr e ev r t' o m host port i, fresh t0 -> t_type t0 = ICT ->
  run t0 l = Ok (t, tr) -> execute e t ev = Ok (r, t', o) ->
  In (OSend m host port i) o -> ev_type ev = RCV_STATUS_3456XX -> t_state t <> ICT_COMPLETED ->
  exists orig resp, t_orig t = Some orig /\ ev_sip ev = Some resp /\ ack_for (mc orig) (mc resp) (mc m).
Proof.
  intros t0 l t tr e ev r t' o m host port i Hf Hk Hr He Hin Hty Hns.
  apply execute_inv in He. destruct He as [(_ & Ho & _)|(h & Hti & Hh & _)].
  { destruct Ho as [->| ->]; [destruct Hin|]. apply in_free_opt in Hin. destruct Hin. discriminate. }
  assert (Hty' : t_type t = ICT).
  { refine (run_invariant (fun x => t_type x = ICT) (fun _ => True) _ l t0 t tr _ _ Hr); auto.
    - intros. apply execute_identity in H1. destruct H1 as (_ & -> & _). auto.
    - apply Forall_forall. auto. }
  rewrite Hty' in Hti. simpl in Hti. rewrite Hty in Hti.
  assert (Hcase : h = ict_rcv_3456xx /\ (t_state t = ICT_CALLING \/ t_state t = ICT_PROCEEDING)).
  { repeat (destruct Hti as [Hti|Hti]; [try discriminate Hti; injection Hti as Hst Hh'; auto; congruence|]). destruct Hti. }
  destruct Hcase as (-> & Hst). clear Hti Hns.
  unfold ict_rcv_3456xx in Hh. destruct (ev_sip ev) as [resp|]; try discriminate.
  assert (is_ict_completed (t_state (set_last t (Some resp))) = false) as E
    by (cbn [t_state set_last]; destruct Hst as [-> | ->]; reflexivity).
  rewrite E in Hh. cbn [t_orig set_last] in Hh. destruct (t_orig t) as [orig|]; try discriminate.
  destruct (create_ack (mc orig) (mc resp)) as [a|] eqn:Ha.
  2:{ injection Hh as <- <-. exfalso. apply in_app_or in Hin. destruct Hin as [Hin|[Hin|[]]]; [|discriminate].
      apply in_free_opt in Hin. destruct Hin. discriminate. }
  assert (mc m = a) as ->.
  { unfold tp_error in Hh. destruct (negb (e_send e =? 0)); injection Hh as <- <-;
      repeat (apply in_app_or in Hin; destruct Hin as [Hin|Hin]);
      try (apply in_free_opt in Hin; destruct Hin; discriminate);
      simpl in Hin; repeat (destruct Hin as [Hin|Hin]; [try discriminate; injection Hin as <-; auto|]); destruct Hin. }
  exists orig, resp. split; auto. split; auto.
  destruct (create_ack_inv _ _ _ Ha) as (f & to & ci & cs & u & v & H1 & H2 & H3 & H4 & H5 & H6 & H7 & ->).
  constructor; simpl; auto.
  - rewrite H5. split; congruence.
  - destruct (m_vias (mc orig)); try discriminate. injection H6 as ->. eauto.
  - destruct cs as [cm cn]. eauto.
  - destruct (m_status (mc resp) =? 401), (m_status (mc resp) =? 407); simpl; auto.
Qed.

Example C11_witness : exists t tr r t' o m h p, run (ex_t ICT) (firstn 3 ex_ict_run) = Ok (t, tr) /\
  execute (ex_env 0) t (Ev RCV_STATUS_3456XX (Some (Msg 3 (ex_resp 486 ($"UDP"))))) = Ok (r, t', o) /\
  In (OSend m h p 0) o /\ m_method (mc m) = Some ($"ACK").
Proof.
  eexists _, _, _, _, _, _, _, _. split; [vm_compute; reflexivity|]. split; [vm_compute; reflexivity|].
  split; [right; left; reflexivity|reflexivity].
Qed.

(** * C52 *)

(** The reading of a message from its start line *)
Definition is_invite_request (m : message) := m_status m = 0 /\ m_method m = Some ($"INVITE").
Definition is_ack_request (m : message) := m_status m = 0 /\ m_method m = Some ($"ACK").
Definition is_other_request (m : message) :=
  m_status m = 0 /\ m_method m <> Some ($"INVITE") /\ m_method m <> Some ($"ACK").

Lemma is_method_iff : forall n m, is_method n m = true <-> m_status m = 0 /\ m_method m = Some n.
Proof.
  intros. unfold is_method, is_request. rewrite andb_true_iff, Z.eqb_eq.
  destruct (m_method m); [|intuition discriminate]. unfold streq. rewrite str_eqb_eq.
  split; intros (H1 & H2); split; congruence.
Qed.

Lemma class_exact : forall m ty, ty = incoming_type m ->
  (ty = RCV_REQINVITE <-> is_invite_request m) /\ (ty = RCV_REQACK <-> is_ack_request m) /\
  (ty = RCV_REQUEST <-> is_other_request m) /\
  (ty = RCV_STATUS_1XX <-> 100 <= m_status m <= 199) /\ (ty = RCV_STATUS_2XX <-> 200 <= m_status m <= 299) /\
  (ty = RCV_STATUS_3456XX <-> m_status m <> 0 /\ ~ 100 <= m_status m <= 299).
Proof.
  intros m ty ->. unfold incoming_type, is_invite_request, is_ack_request, is_other_request.
  assert (Hr : is_request m = true <-> m_status m = 0) by (unfold is_request; lia).
  pose proof (is_method_iff ($"INVITE") m) as HI. pose proof (is_method_iff ($"ACK") m) as HA.
  assert (H1 : is_1xx m = true <-> 100 <= m_status m <= 199) by (unfold is_1xx, status_in; lia).
  assert (H2 : is_2xx m = true <-> 200 <= m_status m <= 299) by (unfold is_2xx, status_in; lia).
  destruct (is_request m) eqn:E0.
  - assert (Hz : m_status m = 0) by (apply Hr; auto).
    destruct (is_method ($"INVITE") m) eqn:E1; [|destruct (is_method ($"ACK") m) eqn:E2].
    + assert (m_method m = Some ($"INVITE")) as Hm by (apply HI; auto).
      rewrite Hm. repeat split; intros; try discriminate; auto; try lia; try (destruct H; discriminate);
        destruct H as (_ & H & _); congruence.
    + assert (m_method m = Some ($"ACK")) as Hm by (apply HA; auto).
      rewrite Hm. repeat split; intros; try discriminate; auto; try lia; try (destruct H; discriminate);
        destruct H as (_ & _ & H); congruence.
    + assert (NI : m_method m <> Some ($"INVITE")) by (intros Hm; assert (false = true) by tauto; discriminate).
      assert (NA : m_method m <> Some ($"ACK")) by (intros Hm; assert (false = true) by tauto; discriminate).
      clear HI HA. repeat split; intros; try discriminate; auto; try lia; exfalso; tauto.
  - assert (Hz : m_status m <> 0) by (intros Hz; apply Hr in Hz; discriminate).
    destruct (is_1xx m) eqn:E1; [|destruct (is_2xx m) eqn:E2];
      repeat split; intros; try discriminate; try tauto; try lia; try (destruct H; contradiction).
Qed.

(** osip_parse classifies an incoming message exactly by its method or status code (a status
    outside 100-299 counts as a final non-2xx answer). *)
Theorem C52_incoming_class : forall m ev, parsed_event m = Some ev ->
  ev_sip ev = Some m /\
  (ev_type ev = RCV_REQINVITE <-> is_invite_request (mc m)) /\
  (ev_type ev = RCV_REQACK <-> is_ack_request (mc m)) /\
  (ev_type ev = RCV_REQUEST <-> is_other_request (mc m)) /\
  (ev_type ev = RCV_STATUS_1XX <-> 100 <= m_status (mc m) <= 199) /\
  (ev_type ev = RCV_STATUS_2XX <-> 200 <= m_status (mc m) <= 299) /\
  (ev_type ev = RCV_STATUS_3456XX <-> m_status (mc m) <> 0 /\ ~ 100 <= m_status (mc m) <= 299).
Proof.
  intros m ev H. unfold parsed_event in H.
  assert (ev = Ev (incoming_type (mc m)) (Some m)) as ->.
  { destruct (is_request (mc m)); [|injection H as <-; auto].
    destruct (m_method (mc m)), (m_uri (mc m)); try discriminate. injection H as <-. auto. }
  split; [reflexivity|]. apply class_exact. reflexivity.
Qed.

(** osip_new_outgoing_sipmessage does the same for outgoing messages. *)
Theorem C52_outgoing_class : forall m ev, new_outgoing (Some m) = Some ev ->
  ev_sip ev = Some m /\
  (ev_type ev = SND_REQINVITE <-> is_invite_request (mc m)) /\
  (ev_type ev = SND_REQACK <-> is_ack_request (mc m)) /\
  (ev_type ev = SND_REQUEST <-> is_other_request (mc m)) /\
  (ev_type ev = SND_STATUS_1XX <-> 100 <= m_status (mc m) <= 199) /\
  (ev_type ev = SND_STATUS_2XX <-> 200 <= m_status (mc m) <= 299) /\
  (ev_type ev = SND_STATUS_3456XX <-> m_status (mc m) <> 0 /\ ~ 100 <= m_status (mc m) <= 299).
Proof.
  intros m ev H. unfold new_outgoing in H.
  assert (ev = Ev (outgoing_type (mc m)) (Some m)) as ->.
  { destruct (is_request (mc m)); [|injection H as <-; auto].
    destruct (m_method (mc m)), (m_uri (mc m)); try discriminate. injection H as <-. auto. }
  split; [reflexivity|]. cbn [ev_type].
  pose proof (class_exact (mc m) _ eq_refl) as Hc. unfold incoming_type in Hc. unfold outgoing_type.
  destruct (is_request (mc m)); [destruct (is_method ($"INVITE") (mc m)); [|destruct (is_method ($"ACK") (mc m))]
                               |destruct (is_1xx (mc m)); [|destruct (is_2xx (mc m))]];
    destruct Hc as (h1 & h2 & h3 & h4 & h5 & h6);
    (split; [|split; [|split; [|split; [|split]]]]); 
    match goal with
    | |- _ <-> is_invite_request _ => rewrite <- h1 | |- _ <-> is_ack_request _ => rewrite <- h2
    | |- _ <-> is_other_request _ => rewrite <- h3 | |- _ <-> 100 <= _ <= 199 => rewrite <- h4
    | |- _ <-> 200 <= _ <= 299 => rewrite <- h5 | |- _ => rewrite <- h6
    end; split; intros; try discriminate; reflexivity.
Qed.

(** Requests with a method and a URI, and all responses, are accepted. *)
Theorem C52_accepted : forall m, (m_status (mc m) = 0 -> m_method (mc m) <> None /\ m_uri (mc m) <> None) ->
  parsed_event m <> None /\ new_outgoing (Some m) <> None.
Proof.
  intros m H. unfold parsed_event, new_outgoing, is_request.
  destruct (Z.eqb_spec (m_status (mc m)) 0).
  - destruct (H e) as (H1 & H2). destruct (m_method (mc m)), (m_uri (mc m)); split; congruence.
  - split; discriminate.
Qed.

Example C52_witness :
  parsed_event (Msg 1 (ex_invite ($"UDP"))) = Some (Ev RCV_REQINVITE (Some (Msg 1 (ex_invite ($"UDP"))))) /\
  new_outgoing (Some (Msg 1 (ex_resp 299 ($"UDP")))) = Some (Ev SND_STATUS_2XX (Some (Msg 1 (ex_resp 299 ($"UDP"))))) /\
  parsed_event (Msg 1 (ex_resp 300 ($"UDP"))) = Some (Ev RCV_STATUS_3456XX (Some (Msg 1 (ex_resp 300 ($"UDP"))))).
Proof. vm_compute. auto. Qed.
Print Assumptions C07_killed_once.
Print Assumptions C07_kill_when_entering.
Print Assumptions C07_silent_after_termination.
Print Assumptions C08_follows_rfc_diagram_partial.
Print Assumptions C08_never_backwards.
Print Assumptions C08_refuted.
Print Assumptions C18_stray_events.
Print Assumptions C18_kill_event.
Print Assumptions C11_ack_fields.
Print Assumptions C52_incoming_class.
Print Assumptions C52_outgoing_class.
Print Assumptions C52_accepted.

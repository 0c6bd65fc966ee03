(** Properties C13 and C16 (without the timers). *)
From Coq Require Import String ZArith Ascii Bool List Lia ZifyBool ZifyNat.
From Verif Require Import Base Str StrLemmas Types TimeModel PortModel CloneModel CloneProofs TransModel TransSpec TransProofs TransSteps TransProps TransReports.
Import ListNotations.
Open Scope Z_scope.

Definition server (k : fsm) : bool := match k with IST | NIST => true | _ => false end.

Lemma last_sent_app : forall a b acc, last_sent acc (a ++ b) = last_sent (last_sent acc a) b.
Proof. induction a as [|[m h p r|c m|k r|k|m] a]; simpl; auto. Qed.

Lemma last_sent_free : forall m acc, last_sent acc (free_opt m) = acc.
Proof. destruct m; auto. Qed.

(** Answers sent by api events have the class of their event. *)
Lemma api_answer_class : forall ev m, api_event ev -> ev_sip ev = Some m ->
  (ev_type ev = SND_STATUS_1XX -> is_1xx (mc m) = true) /\
  (ev_type ev = SND_STATUS_2XX \/ ev_type ev = SND_STATUS_3456XX -> is_1xx (mc m) = false).
Proof.
  intros ev m Ha Hm.
  assert (H : evt_is_msg (ev_type ev) = true -> ev_type ev = incoming_type (mc m) \/ ev_type ev = outgoing_type (mc m)).
  { intros H. destruct (api_event_msg ev Ha H) as (x & Hx & Hy). rewrite Hm in Hx. injection Hx as <-. auto. }
  split; intros Ht.
  - rewrite Ht in H. destruct (H eq_refl) as [Hy|Hy]; unfold incoming_type, outgoing_type in Hy;
    repeat match type of Hy with context [if ?b then _ else _] => destruct b eqn:? end; auto; discriminate.
  - assert (Hm' : evt_is_msg (ev_type ev) = true) by (destruct Ht as [->| ->]; reflexivity).
    destruct (H Hm') as [Hy|Hy]; unfold incoming_type, outgoing_type in Hy;
    repeat match type of Hy with context [if ?b then _ else _] => destruct b eqn:? end;
      auto; destruct Ht as [Ht|Ht]; rewrite Ht in Hy; try discriminate.
Qed.

(** One step of a server transaction: what the last answer is, and which answers go out. *)
Definition answer_inv (t : trans) : Prop :=
  match t_state t with
  | IST_PRE_PROCEEDING | NIST_PRE_TRYING | NIST_TRYING => t_last t = None
  | IST_PROCEEDING => forall r, t_last t = Some r -> is_1xx (mc r) = true /\ m_vias (mc r) <> []
  | NIST_PROCEEDING => exists r, t_last t = Some r /\ is_1xx (mc r) = true /\ m_vias (mc r) <> []
  | IST_COMPLETED | IST_CONFIRMED | NIST_COMPLETED =>
      exists r, t_last t = Some r /\ is_1xx (mc r) = false /\ m_vias (mc r) <> []
  | _ => True
  end.

Lemma fresh_answer_inv : forall t, fresh t -> answer_inv t.
Proof.
  intros t H. destruct (fresh_nomsg _ H) as (_ & H2 & _). unfold answer_inv. rewrite (fresh_state _ H).
  destruct (t_type t); simpl; auto.
Qed.

Lemma exec_answer_inv : forall e ev t r t' o, server (t_type t) = true -> answer_inv t -> api_event ev ->
  execute e t ev = Ok (r, t', o) -> answer_inv t'.
Proof.
  intros e ev t r t' o Hk HI Ha H. apply execute_inv in H.
  destruct H as [(-> & Ho & Hn & _)|(h & Hin & Hh & _)]; auto.
  assert (HA := fun m => api_answer_class ev m Ha).
  unfold answer_inv in *.
  destruct (t_type t); try discriminate Hk; table_cases1 Hin; rewrite Hs in HI;
    handler_cases Hh; try discriminate; injection Hh as <- <-; proj; rewrite ?Hs; auto.
  all: try (intros x Hx; congruence).
  all: try (destruct HI as (x & E & F & G); exists x; split; [congruence|auto]; fail).
  all: try (intros x Hx; injection Hx as <-; split; [apply HA; auto|congruence]; fail).
  all: try (intros x Hx; apply HI; congruence).
  all: try (eexists; split; [reflexivity|]; split; [apply HA; auto|congruence]).
Qed.

Lemma exec_last_sent : forall e ev t r t' o, server (t_type t) = true -> api_event ev ->
  execute e t ev = Ok (r, t', o) -> termb (t_state t') = false -> t_last t' = last_sent (t_last t) o.
Proof.
  intros e ev t r t' o Hk Ha H Ht. apply execute_inv in H.
  destruct H as [(-> & Ho & Hn & _)|(h & Hin & Hh & _)].
  { destruct Ho as [->| ->]; rewrite ?last_sent_free; auto. }
  destruct (t_type t); try discriminate Hk; table_cases1 Hin;
    handler_cases Hh; try discriminate; injection Hh as <- <-; proj; try discriminate Ht;
    rewrite ?last_sent_app, ?last_sent_free; auto.
Qed.

Definition server_inv (t : trans) (acc : list out) : Prop :=
  server (t_type t) = true /\ typed t /\ answer_inv t /\
  (termb (t_state t) = false -> t_last t = last_sent None acc).

Lemma run_server_inv : forall t0 l t tr, fresh t0 -> server (t_type t0) = true ->
  Forall (fun x => api_event (snd x)) l -> run t0 l = Ok (t, tr) -> server_inv t (concat tr).
Proof.
  intros t0 l t tr Hf Hk Hl Hr. change (concat tr) with ([] ++ concat tr).
  refine (run_trace_inv server_inv (fun x => api_event (snd x)) _ l t0 t tr [] _ Hl Hr).
  - intros e ev t1 r t2 o acc (H1 & H2 & H3 & H4) Ha He. cbn [snd] in Ha.
    split; [apply execute_identity in He; destruct He as (_ & -> & _); auto|].
    split; [eapply exec_typed; eauto|]. split; [eapply exec_answer_inv; eauto|].
    intros Ht. rewrite last_sent_app, (exec_last_sent _ _ _ _ _ _ H1 Ha He Ht). f_equal. apply H4.
    destruct (termb (t_state t1)) eqn:Hb; auto.
    destruct (exec_terminated _ _ _ _ _ _ He Hb) as (-> & _). congruence.
  - split; auto. split; [apply fresh_typed; auto|]. split; [apply fresh_answer_inv; auto|].
    intros _. apply fresh_nomsg. auto.
Qed.

(** * Announcements *)

Lemma exec_announce_ist : forall e ev t r t' o, t_type t = IST -> execute e t ev = Ok (r, t', o) ->
  filter is_invite_announced o =
    (if state_eqb (t_state t) IST_PRE_PROCEEDING && etype_eqb (ev_type ev) RCV_REQINVITE
     then [OCb IST_INVITE_RECEIVED (ev_sip ev)] else []) /\
  (t_state t' = IST_PRE_PROCEEDING <-> t_state t = IST_PRE_PROCEEDING /\ ev_type ev <> RCV_REQINVITE).
Proof.
  intros e ev t r t' o Hk H. apply execute_inv in H.
  destruct H as [(-> & Ho & Hn & _)|(h & Hin & Hh & _)].
  - assert (E : filter is_invite_announced o = []).
    { destruct Ho as [->| ->]; auto. apply filter_free_opt. auto. }
    rewrite E. rewrite Hk in Hn. split.
    + destruct (t_state t); try reflexivity; destruct (ev_type ev); try reflexivity; discriminate Hn.
    + split; [|tauto]. intros Hs. split; auto. intros He. rewrite Hs, He in Hn. discriminate.
  - rewrite Hk in Hin. table_cases1 Hin; handler_cases Hh; try discriminate; injection Hh as <- <-; proj;
      rewrite ?Hs, ?He; rewrite ?filter_app, ?filter_free_opt by reflexivity; unfold final_cb, again_cb.
    all: repeat match goal with |- context [if ?f (mc ?m) then _ else _] => destruct (f (mc m)) end.
    all: split; [try reflexivity; cbn; congruence|split; intros Hx; try discriminate; try destruct Hx as (Hx & Hy); congruence].
Qed.

(** A server INVITE transaction announces the INVITE to the application exactly once, when the
    first one arrives, with that message; nothing else is ever announced as a new INVITE. *)
Theorem C13_announced_once : forall t0 l t tr, fresh t0 -> t_type t0 = IST -> run t0 l = Ok (t, tr) ->
  filter is_invite_announced (concat tr) =
    match first_of RCV_REQINVITE l with Some m => [OCb IST_INVITE_RECEIVED (Some m)] | None => [] end.
Proof.
  intros t0 l t tr Hf Hk Hr.
  assert (Hno : forall l t t' tr, t_type t = IST -> t_state t <> IST_PRE_PROCEEDING -> run t l = Ok (t', tr) ->
                filter is_invite_announced (concat tr) = []).
  { clear. induction l as [|[e ev] l]; intros t t' tr Hk Hs Hr.
    - simpl in Hr. injection Hr as <- <-. auto.
    - apply run_cons in Hr. destruct Hr as (r & t1 & o & tr1 & H1 & H2 & ->). simpl. rewrite filter_app.
      pose proof (execute_identity _ _ _ _ _ _ H1) as (_ & Hty & _).
      destruct (exec_announce_ist _ _ _ _ _ _ Hk H1) as (-> & Hst).
      assert (E : state_eqb (t_state t) IST_PRE_PROCEEDING = false).
      { apply not_true_is_false. rewrite state_eqb_eq. auto. }
      rewrite E. cbn [andb app]. apply (IHl t1 t' tr1); [congruence|tauto|auto]. }
  assert (Hs : t_state t0 = IST_PRE_PROCEEDING) by (rewrite (fresh_state _ Hf), Hk; auto). clear Hf.
  revert t0 t tr Hk Hs Hr. induction l as [|[e ev] l]; intros t0 t tr Hk Hs Hr.
  - simpl in Hr. injection Hr as <- <-. auto.
  - apply run_cons in Hr. destruct Hr as (r & t1 & o & tr1 & H1 & H2 & ->).
    pose proof (execute_identity _ _ _ _ _ _ H1) as (_ & Hty & _).
    destruct (exec_announce_ist _ _ _ _ _ _ Hk H1) as (E1 & Hst). rewrite Hs in E1. cbn [state_eqb state_num andb] in E1.
    cbn [concat first_of]. rewrite filter_app, E1.
    destruct (etype_eqb (ev_type ev) RCV_REQINVITE) eqn:Het.
    + apply etype_eqb_eq in Het. cbn [andb].
      rewrite (Hno l t1 t tr1); [|congruence| |exact H2].
      * simpl. destruct (ev_sip ev) as [m|] eqn:Em; auto. exfalso.
        unfold execute in H1. rewrite Het, Hk, Hs in H1. cbn in H1. unfold ist_rcv_invite in H1. rewrite Em in H1. discriminate.
      * intros Hc. apply Hst in Hc. tauto.
    + cbn. apply (IHl t1 t tr1); [congruence| |exact H2]. apply Hst. split; auto. intros Hc. rewrite Hc in Het. discriminate.
Qed.

(** * Replay *)

Lemma exec_replay : forall e ev t r t' o, server (t_type t) = true -> typed t -> answer_inv t ->
  execute e t ev = Ok (r, t', o) ->
  (ev_type ev = (match t_type t with IST => RCV_REQINVITE | _ => RCV_REQUEST end)) ->
  rfc_state (t_state t) <> None -> termb (t_state t) = false -> t_state t <> IST_CONFIRMED ->
  match t_last t with
  | Some a => exists h p, filter is_send o = [OSend a h p (e_send e)]
  | None => filter is_send o = []
  end /\ (e_send e = 0 -> t' = t).
Proof.
  intros e ev t r t' o Hk HT HI H Het Hs0 Hs1 Hs2. apply execute_inv in H.
  destruct H as [(-> & Ho & Hn & _)|(h & Hin & Hh & _)].
  - assert (E : filter is_send o = []).
    { destruct Ho as [->| ->]; auto. apply filter_free_opt. auto. }
    rewrite E. split; auto. unfold answer_inv in HI. unfold typed in HT.
    destruct (t_type t); try discriminate Hk; rewrite Het in Hn;
      destruct (t_state t); try discriminate HT; try (exfalso; apply Hs0; reflexivity); try discriminate Hs1; try discriminate Hn;
      try (exfalso; apply Hs2; reflexivity); rewrite HI; auto.
  - unfold answer_inv in HI.
    destruct (t_type t) eqn:Hty; try discriminate Hk; table_cases1 Hin; try congruence; rewrite Hs in *;
      try (exfalso; apply Hs0; reflexivity);
      handler_cases Hh; try discriminate; injection Hh as <- <-; proj.
    all: try (split; [reflexivity|auto]; fail).
    all: try (exfalso; first [ destruct (HI _ eq_refl) as (_ & Hx) | destruct HI as (x & Hx1 & _ & Hx); injection Hx1 as <- ];
              congruence).
    all: split; [eexists _, _; reflexivity | intros E; rewrite ?E in *; try discriminate; auto].
Qed.

(** Each later copy of the INVITE, as long as neither an ACK nor the end of the transaction came,
    is answered by one send of the most recent answer sent so far (none if none was sent), changes
    nothing (unless that send fails), and is not announced as new. *)
Theorem C13_copy_resends_last : forall t0 l t tr e ev r t' o, fresh t0 -> t_type t0 = IST ->
  Forall (fun x => api_event (snd x)) l -> run t0 l = Ok (t, tr) ->
  t_state t <> IST_PRE_PROCEEDING -> t_state t <> IST_CONFIRMED -> t_state t <> IST_TERMINATED ->
  ev_type ev = RCV_REQINVITE -> execute e t ev = Ok (r, t', o) ->
  match last_sent None (concat tr) with
  | Some a => exists h p, filter is_send o = [OSend a h p (e_send e)]
  | None => filter is_send o = []
  end /\ filter is_invite_announced o = [] /\ (e_send e = 0 -> t' = t).
Proof.
  intros t0 l t tr e ev r t' o Hf Hk Hl Hr Hs1 Hs2 Hs3 Het He.
  assert (Hsv : server (t_type t0) = true) by (rewrite Hk; auto).
  destruct (run_server_inv _ _ _ _ Hf Hsv Hl Hr) as (H1 & H2 & H3 & H4).
  pose proof (run_type _ _ _ _ Hr) as Hty. rewrite Hk in Hty.
  assert (Hnt : termb (t_state t) = false).
  { unfold typed in H2. rewrite Hty in H2. destruct (t_state t); try discriminate; auto. congruence. }
  rewrite <- (H4 Hnt).
  destruct (exec_announce_ist _ _ _ _ _ _ Hty He) as (Ha & _).
  assert (E : state_eqb (t_state t) IST_PRE_PROCEEDING = false) by (apply not_true_is_false; rewrite state_eqb_eq; auto).
  rewrite E in Ha. cbn in Ha.
  destruct (exec_replay _ _ _ _ _ _ H1 H2 H3 He) as (G1 & G2); auto.
  - rewrite Hty. auto.
  - unfold typed in H2. rewrite Hty in H2. destruct (t_state t); try discriminate; auto; congruence.
Qed.

(** The ACK of a final answer is announced. *)
Theorem C13_ack_announced : forall t0 l t tr e ev m r t' o, fresh t0 -> t_type t0 = IST ->
  run t0 l = Ok (t, tr) -> ev_type ev = RCV_REQACK -> ev_sip ev = Some m -> execute e t ev = Ok (r, t', o) ->
  (t_state t = IST_COMPLETED -> filter visible o = [OCb IST_ACK_RECEIVED (Some m)] /\ t_state t' = IST_CONFIRMED) /\
  (t_state t = IST_CONFIRMED -> filter visible o = [OCb IST_ACK_RECEIVED_AGAIN (Some m)] /\ t_state t' = IST_CONFIRMED).
Proof.
  intros t0 l t tr e ev m r t' o Hf Hk Hr Het Hm He. pose proof (run_type _ _ _ _ Hr) as Hty. rewrite Hk in Hty.
  split; intros Hs; unfold execute in He; rewrite Het, Hty, Hs in He; cbn in He; unfold ist_rcv_ack in He;
    rewrite Hm in He; cbn in He; injection He as <- <- <-; rewrite Hs, filter_app, invisible_free_opt; auto.
Qed.

Lemma exec_confirmed : forall e ev t r t' o, t_type t = IST -> t_state t = IST_CONFIRMED \/ t_state t = IST_TERMINATED ->
  execute e t ev = Ok (r, t', o) ->
  (t_state t' = IST_CONFIRMED \/ t_state t' = IST_TERMINATED) /\ filter is_send o = [].
Proof.
  intros e ev t r t' o Hk Hst H. apply execute_inv in H.
  destruct H as [(-> & Ho & Hn & _)|(h & Hin & Hh & _)].
  - split; auto. destruct Ho as [->| ->]; auto. apply filter_free_opt. auto.
  - rewrite Hk in Hin. table_cases1 Hin; try (rewrite Hs in Hst; destruct Hst; discriminate);
      handler_cases Hh; injection Hh as <- <-; proj; rewrite ?filter_app, ?filter_free_opt by reflexivity; auto.
Qed.

Lemma run_confirmed : forall l t t' tr, t_type t = IST -> t_state t = IST_CONFIRMED \/ t_state t = IST_TERMINATED ->
  run t l = Ok (t', tr) -> filter is_send (concat tr) = [].
Proof.
  induction l as [|[e ev] l]; intros t t' tr Hk Hs Hr.
  - simpl in Hr. injection Hr as <- <-. auto.
  - apply run_cons in Hr. destruct Hr as (r & t1 & o & tr1 & H1 & H2 & ->). simpl. rewrite filter_app.
    pose proof (execute_identity _ _ _ _ _ _ H1) as (_ & Hty & _).
    destruct (exec_confirmed _ _ _ _ _ _ Hk Hs H1) as (Hs1 & ->). simpl. eapply IHl; [|exact Hs1|exact H2]. congruence.
Qed.

(** Once an ACK was announced nothing is sent any more. *)
Theorem C13_ack_stops : forall t0 l1 l2 t1 t2 tr1 tr2 m, fresh t0 -> t_type t0 = IST ->
  run t0 l1 = Ok (t1, tr1) -> In (OCb IST_ACK_RECEIVED m) (concat tr1) -> run t1 l2 = Ok (t2, tr2) ->
  filter is_send (concat tr2) = [].
Proof.
  intros t0 l1 l2 t1 t2 tr1 tr2 m Hf Hk H1 Hin H2.
  set (P := fun (t : trans) (acc : list out) => t_type t = IST /\
    (forall m, In (OCb IST_ACK_RECEIVED m) acc -> t_state t = IST_CONFIRMED \/ t_state t = IST_TERMINATED)).
  assert (H : P t1 ([] ++ concat tr1)).
  { refine (run_trace_inv P (fun _ => True) _ l1 t0 t1 tr1 [] _ (forall_any _ _) H1).
    - intros e ev t r t' o acc (G1 & G2) _ He. split.
      + apply execute_identity in He. destruct He as (_ & -> & _). auto.
      + intros x Hx. apply in_app_or in Hx. destruct Hx as [Hx|Hx].
        * eapply exec_confirmed; eauto.
        * clear G2. apply execute_inv in He. destruct He as [(-> & Ho & Hn & _)|(h & Hi & Hh & _)].
          { destruct Ho as [->| ->]; in_cases Hx; discriminate. }
          rewrite G1 in Hi. table_cases1 Hi; handler_cases Hh; try discriminate; injection Hh as <- <-; proj; auto;
            in_cases Hx; try discriminate Hx; unfold final_cb, again_cb in Hx;
            repeat match type of Hx with context [if ?b then _ else _] => destruct b end; discriminate.
    - split; auto. intros x []. }
  destruct H as (G1 & G2). eapply run_confirmed; eauto.
Qed.

(** * At most one final answer *)

Lemma exec_finals : forall e ev t r t' o, server (t_type t) = true -> answer_inv t -> api_event ev ->
  execute e t ev = Ok (r, t', o) ->
  (forall m h p i, In (OSend m h p i) o -> is_1xx (mc m) = false -> t_last t' = Some m /\ (3 <= rank (t_state t'))%nat) /\
  ((3 <= rank (t_state t))%nat -> t_last t' = t_last t).
Proof.
  intros e ev t r t' o Hk HI Ha H. apply execute_inv in H.
  destruct H as [(-> & Ho & Hn & _)|(h & Hin & Hh & _)].
  - split; auto. intros m h p i Hi. destruct Ho as [->| ->]; in_cases Hi; discriminate.
  - assert (HA := fun m => api_answer_class ev m Ha). unfold answer_inv in HI.
    destruct (t_type t); try discriminate Hk; table_cases1 Hin; rewrite Hs in HI; handler_cases Hh; try discriminate;
      injection Hh as <- <-; proj; rewrite Hs; cbn [rank].
    all: split; [intros mm hh pp ii Hi Hf; in_cases Hi; try discriminate Hi; try injection Hi as <- <- <- <- | intros Hlt; try lia; try congruence].
    all: try (exfalso; first [ destruct (HI _ eq_refl) as (Hx & _)
                             | destruct HI as (x & Hx1 & Hx & _); injection Hx1 as <-
                             | pose proof (proj1 (HA _ eq_refl) He) as Hx ]; congruence).
    all: split; [congruence|lia].
Qed.

Lemma one_final : forall t0 l t tr m1 h1 p1 i1 m2 h2 p2 i2, fresh t0 -> server (t_type t0) = true ->
  Forall (fun x => api_event (snd x)) l -> run t0 l = Ok (t, tr) ->
  In (OSend m1 h1 p1 i1) (concat tr) -> In (OSend m2 h2 p2 i2) (concat tr) ->
  is_1xx (mc m1) = false -> is_1xx (mc m2) = false -> m1 = m2 /\ (3 <= rank (t_state t))%nat.
Proof.
  intros t0 l t tr m1 h1 p1 i1 m2 h2 p2 i2 Hf Hk Hl Hr.
  set (P := fun (t : trans) (acc : list out) => server (t_type t) = true /\ answer_inv t /\
     forall m h p i, In (OSend m h p i) acc -> is_1xx (mc m) = false ->
       t_last t = Some m /\ (3 <= rank (t_state t))%nat).
  assert (H : P t ([] ++ concat tr)).
  { refine (run_trace_inv P (fun x => api_event (snd x)) _ l t0 t tr [] _ Hl Hr).
    - intros e ev t1 r t2 o acc (H1 & H2 & H3) Ha He. cbn [snd] in Ha.
      split; [apply execute_identity in He; destruct He as (_ & -> & _); auto|].
      split; [eapply exec_answer_inv; eauto|].
      destruct (exec_finals _ _ _ _ _ _ H1 H2 Ha He) as (G1 & G2).
      intros m h p i Hin Hm. apply in_app_or in Hin. destruct Hin as [Hin|Hin]; [|eapply G1; eauto].
      destruct (H3 _ _ _ _ Hin Hm) as (E1 & E2). rewrite (G2 E2). split; auto.
      pose proof (exec_rank _ _ _ _ _ _ He). lia.
    - split; auto. split; [apply fresh_answer_inv; auto|]. intros m h p i []. }
  destruct H as (_ & _ & H). simpl in H. intros E1 E2 F1 F2.
  destruct (H _ _ _ _ E1 F1) as (G1 & G3). destruct (H _ _ _ _ E2 F2) as (G2 & _). split; auto. congruence.
Qed.

(** A server INVITE transaction sends at most one final answer (and resends only that one). *)
Theorem C13_one_final_answer : forall t0 l t tr m1 h1 p1 i1 m2 h2 p2 i2, fresh t0 -> t_type t0 = IST ->
  Forall (fun x => api_event (snd x)) l -> run t0 l = Ok (t, tr) ->
  In (OSend m1 h1 p1 i1) (concat tr) -> In (OSend m2 h2 p2 i2) (concat tr) ->
  is_1xx (mc m1) = false -> is_1xx (mc m2) = false -> m1 = m2.
Proof. intros. eapply (one_final t0); eauto. rewrite H0. auto. Qed.

(** * C16 *)

Lemma nist_rcv_cb_ok : forall m, is_request m = true -> announced_as m (nist_rcv_cb m).
Proof.
  intros m Hm. unfold nist_rcv_cb, method_cb, announced_as.
  assert (K : forall n, is_method n m = true <-> m_method m = Some n).
  { intros n. rewrite is_method_iff. unfold is_request in Hm. apply Z.eqb_eq in Hm. tauto. }
  repeat match goal with |- context [is_method ?n m] =>
    destruct (is_method n m) eqn:?; [left; exists n; split; [apply K; auto|cbn; tauto]|] end.
  right. split; auto. intros n Hn Hin. apply K in Hn. cbn [map fst announce_names In] in Hin.
  repeat match goal with H : _ \/ _ |- _ => destruct H end; subst; try congruence.
Qed.

Lemma nist_cb_announce : forall m x, is_request_announced (OCb (nist_rcv_cb m) x) = true.
Proof.
  intros. unfold nist_rcv_cb, method_cb.
  repeat match goal with |- context [is_method ?n m] => destruct (is_method n m); [reflexivity|] end. reflexivity.
Qed.

Lemma exec_announce_nist : forall e ev t r t' o, t_type t = NIST -> execute e t ev = Ok (r, t', o) ->
  (if state_eqb (t_state t) NIST_PRE_TRYING && etype_eqb (ev_type ev) RCV_REQUEST
   then exists m, ev_sip ev = Some m /\ filter is_request_announced o = [OCb (nist_rcv_cb (mc m)) (Some m)]
   else filter is_request_announced o = []) /\
  (t_state t' = NIST_PRE_TRYING <-> t_state t = NIST_PRE_TRYING /\ ev_type ev <> RCV_REQUEST).
Proof.
  intros e ev t r t' o Hk H. apply execute_inv in H.
  destruct H as [(-> & Ho & Hn & _)|(h & Hin & Hh & _)].
  - assert (E : filter is_request_announced o = []).
    { destruct Ho as [->| ->]; auto. apply filter_free_opt. auto. }
    rewrite E. rewrite Hk in Hn. split.
    + destruct (t_state t); try reflexivity; destruct (ev_type ev); try reflexivity; discriminate Hn.
    + split; [|tauto]. intros Hs. split; auto. intros He. rewrite Hs, He in Hn. discriminate.
  - rewrite Hk in Hin. table_cases1 Hin; handler_cases Hh; try discriminate; injection Hh as <- <-; proj;
      rewrite ?Hs, ?He; rewrite ?filter_app, ?filter_free_opt by reflexivity; unfold final_cb, again_cb.
    all: repeat match goal with |- context [if ?f (mc ?m) then _ else _] => destruct (f (mc m)) end.
    all: split; [|split; intros Hx; try discriminate; try destruct Hx as (Hx & Hy); congruence].
    all: try reflexivity.
    cbn [state_eqb state_num etype_eqb etype_num Nat.eqb andb]. eexists. split; [reflexivity|].
    cbn [filter]. rewrite nist_cb_announce. auto.
Qed.

(** A server non-INVITE transaction announces the request exactly once, when the first one
    arrives, under the name of its method. *)
Theorem C16_announced_once : forall t0 l t tr, fresh t0 -> t_type t0 = NIST ->
  Forall (fun x => api_event (snd x)) l -> run t0 l = Ok (t, tr) ->
  match first_of RCV_REQUEST l with
  | Some m => exists c, announced_as (mc m) c /\ filter is_request_announced (concat tr) = [OCb c (Some m)]
  | None => filter is_request_announced (concat tr) = []
  end.
Proof.
  intros t0 l t tr Hf Hk Hl Hr.
  assert (Hno : forall l t t' tr, t_type t = NIST -> t_state t <> NIST_PRE_TRYING -> run t l = Ok (t', tr) ->
                filter is_request_announced (concat tr) = []).
  { clear. induction l as [|[e ev] l]; intros t t' tr Hk Hs Hr.
    - simpl in Hr. injection Hr as <- <-. auto.
    - apply run_cons in Hr. destruct Hr as (r & t1 & o & tr1 & H1 & H2 & ->). cbn [concat]. rewrite filter_app.
      pose proof (execute_identity _ _ _ _ _ _ H1) as (_ & Hty & _).
      destruct (exec_announce_nist _ _ _ _ _ _ Hk H1) as (E1 & Hst).
      assert (E : state_eqb (t_state t) NIST_PRE_TRYING = false).
      { apply not_true_is_false. rewrite state_eqb_eq. auto. }
      rewrite E in E1. cbn [andb] in E1. rewrite E1. cbn [app]. apply (IHl t1 t' tr1); [congruence|tauto|auto]. }
  assert (Hs : t_state t0 = NIST_PRE_TRYING) by (rewrite (fresh_state _ Hf), Hk; auto). clear Hf.
  revert t0 t tr Hk Hs Hr. induction l as [|[e ev] l]; intros t0 t tr Hk Hs Hr.
  - simpl in Hr. injection Hr as <- <-. reflexivity.
  - apply run_cons in Hr. destruct Hr as (r & t1 & o & tr1 & H1 & H2 & ->). inversion Hl; subst. cbn [snd] in H3.
    pose proof (execute_identity _ _ _ _ _ _ H1) as (_ & Hty & _).
    destruct (exec_announce_nist _ _ _ _ _ _ Hk H1) as (E1 & Hst). rewrite Hs in E1. cbn [state_eqb state_num Nat.eqb andb] in E1.
    cbn [concat first_of].
    destruct (etype_eqb (ev_type ev) RCV_REQUEST) eqn:Het.
    + apply etype_eqb_eq in Het. destruct E1 as (m & Em & E1). rewrite Em. exists (nist_rcv_cb (mc m)). split.
      * apply nist_rcv_cb_ok. destruct (api_event_msg ev H3) as (x & Hx & Hy); [rewrite Het; auto|].
        rewrite Em in Hx. injection Hx as <-. rewrite Het in Hy. unfold incoming_type, outgoing_type in Hy.
        destruct (is_request (mc m)); auto.
        destruct Hy as [Hy|Hy]; repeat match type of Hy with context [if ?b then _ else _] => destruct b end; discriminate.
      * rewrite filter_app, E1, (Hno l t1 t tr1); auto; [congruence|]. intros Hc. apply Hst in Hc. tauto.
    + assert (Hx : filter is_request_announced (o ++ concat tr1) = filter is_request_announced (concat tr1))
        by (rewrite filter_app, E1; auto).
      rewrite Hx. apply (IHl H4 t1 t tr1); [congruence| |exact H2].
      apply Hst. split; auto. intros Hc. rewrite Hc in Het. discriminate.
Qed.

(** Every later copy of the request is answered by one send of the most recent answer sent (none
    if none was sent), changes nothing (unless that send fails), and is not announced as new. *)
Theorem C16_copy_resends_last : forall t0 l t tr e ev r t' o, fresh t0 -> t_type t0 = NIST ->
  Forall (fun x => api_event (snd x)) l -> run t0 l = Ok (t, tr) ->
  t_state t <> NIST_PRE_TRYING -> t_state t <> NIST_TERMINATED ->
  ev_type ev = RCV_REQUEST -> execute e t ev = Ok (r, t', o) ->
  match last_sent None (concat tr) with
  | Some a => exists h p, filter is_send o = [OSend a h p (e_send e)]
  | None => filter is_send o = []
  end /\ filter is_request_announced o = [] /\ (e_send e = 0 -> t' = t).
Proof.
  intros t0 l t tr e ev r t' o Hf Hk Hl Hr Hs1 Hs3 Het He.
  assert (Hsv : server (t_type t0) = true) by (rewrite Hk; auto).
  destruct (run_server_inv _ _ _ _ Hf Hsv Hl Hr) as (H1 & H2 & H3 & H4).
  pose proof (run_type _ _ _ _ Hr) as Hty. rewrite Hk in Hty.
  assert (Hnt : termb (t_state t) = false).
  { unfold typed in H2. rewrite Hty in H2. destruct (t_state t); try discriminate; auto. congruence. }
  rewrite <- (H4 Hnt).
  destruct (exec_announce_nist _ _ _ _ _ _ Hty He) as (Ha & _).
  assert (E : state_eqb (t_state t) NIST_PRE_TRYING = false) by (apply not_true_is_false; rewrite state_eqb_eq; auto).
  rewrite E in Ha. cbn [andb] in Ha.
  destruct (exec_replay _ _ _ _ _ _ H1 H2 H3 He) as (G1 & G2); auto.
  - rewrite Hty. auto.
  - unfold typed in H2. rewrite Hty in H2. destruct (t_state t); try discriminate; auto; congruence.
  - unfold typed in H2. rewrite Hty in H2. intros Hc. rewrite Hc in H2. discriminate.
Qed.

(** It sends at most one final answer (and resends only that one) ... *)
Theorem C16_one_final_answer : forall t0 l t tr m1 h1 p1 i1 m2 h2 p2 i2, fresh t0 -> t_type t0 = NIST ->
  Forall (fun x => api_event (snd x)) l -> run t0 l = Ok (t, tr) ->
  In (OSend m1 h1 p1 i1) (concat tr) -> In (OSend m2 h2 p2 i2) (concat tr) ->
  is_1xx (mc m1) = false -> is_1xx (mc m2) = false -> m1 = m2.
Proof. intros. eapply (one_final t0); eauto. rewrite H0. auto. Qed.

(** ... and ignores whatever else the application wants to answer. *)
Theorem C16_further_answers_ignored : forall t0 l t tr m h p i e ev r t' o, fresh t0 -> t_type t0 = NIST ->
  Forall (fun x => api_event (snd x)) l -> run t0 l = Ok (t, tr) ->
  In (OSend m h p i) (concat tr) -> is_1xx (mc m) = false ->
  is_answer (ev_type ev) = true -> execute e t ev = Ok (r, t', o) -> t' = t /\ filter visible o = [].
Proof.
  intros t0 l t tr m h p i e ev r t' o Hf Hk Hl Hr Hin Hm Ha He.
  destruct (one_final t0 l t tr m h p i m h p i) as (_ & Hrk); auto; [rewrite Hk; auto|].
  pose proof (run_typed _ _ _ _ Hf Hr) as HT. pose proof (run_type _ _ _ _ Hr) as Hty. rewrite Hk in Hty.
  unfold typed in HT. rewrite Hty in HT. apply execute_inv in He.
  destruct He as [(-> & Ho & Hn & _)|(h0 & Hi & Hh & _)].
  - split; auto. destruct Ho as [->| ->]; auto using invisible_free_opt.
  - exfalso. rewrite Hty in Hi. table_cases1 Hi; rewrite Hs in Hrk; rewrite He in Ha; cbn in Hrk, Ha; try lia; discriminate.
Qed.

(** A request, a provisional answer, a copy, a final answer, a copy, another final answer. *)
Definition ex_options : message :=
  ex_msg (Some ($"SIP/2.0")) (Some ($"OPTIONS")) 0 (ex_via ($"UDP")) ex_to ($"OPTIONS").
Definition ex_nist_run : list (env * event) :=
  [ (ex_env 0, Ev RCV_REQUEST (Some (Msg 1 ex_options)));
    (ex_env 0, Ev SND_STATUS_1XX (Some (Msg 2 (ex_resp 180 ($"UDP")))));
    (ex_env 0, Ev RCV_REQUEST (Some (Msg 3 ex_options)));
    (ex_env 0, Ev SND_STATUS_2XX (Some (Msg 4 (ex_resp 200 ($"UDP")))));
    (ex_env 0, Ev RCV_REQUEST (Some (Msg 5 ex_options)));
    (ex_env 0, Ev SND_STATUS_3456XX (Some (Msg 6 (ex_resp 404 ($"UDP"))))) ].
Definition sent_ids (o : list out) : list nat :=
  flat_map (fun x => match x with OSend m _ _ _ => [mid m] | _ => [] end) o.

Example C16_witness : exists t tr, run (ex_t NIST) ex_nist_run = Ok (t, tr) /\
  map sent_ids tr = [[]; [2]; [2]; [4]; [4]; []]%nat /\ t_state t = NIST_COMPLETED /\
  filter is_request_announced (concat tr) = [OCb NIST_OPTIONS_RECEIVED (Some (Msg 1 ex_options))].
Proof. eexists _, _. split; [vm_compute; reflexivity|]. repeat split. Qed.

Lemma ex_nist_api : Forall (fun x => api_event (snd x)) ex_nist_run.
Proof. unfold ex_nist_run. repeat (apply Forall_cons; [cbn [snd]; api_ev|]). apply Forall_nil. Qed.

Definition ex_ist_run : list (env * event) :=
  [ (ex_env 0, Ev RCV_REQINVITE (Some (Msg 1 (ex_invite ($"UDP")))));
    (ex_env 0, Ev SND_STATUS_1XX (Some (Msg 2 (ex_resp 180 ($"UDP")))));
    (ex_env 0, Ev RCV_REQINVITE (Some (Msg 3 (ex_invite ($"UDP")))));
    (ex_env 0, Ev SND_STATUS_3456XX (Some (Msg 4 (ex_resp 486 ($"UDP")))));
    (ex_env 0, Ev RCV_REQINVITE (Some (Msg 5 (ex_invite ($"UDP")))));
    (ex_env 0, Ev TIMEOUT_G None);
    (ex_env 0, Ev RCV_REQACK (Some (Msg 6 (ex_msg (Some ($"SIP/2.0")) (Some ($"ACK")) 0 (ex_via ($"UDP")) ex_to ($"ACK")))));
    (ex_env 0, Ev TIMEOUT_G None) ].

Example C13_witness : exists t tr, run (ex_t IST) ex_ist_run = Ok (t, tr) /\
  map sent_ids tr = [[]; [2]; [2]; [4]; [4]; [4]; []; []]%nat /\ t_state t = IST_CONFIRMED.
Proof. eexists _, _. split; [vm_compute; reflexivity|]. repeat split. Qed.

Lemma ex_ist_api : Forall (fun x => api_event (snd x)) ex_ist_run.
Proof. unfold ex_ist_run. repeat (apply Forall_cons; [cbn [snd]; api_ev|]). apply Forall_nil. Qed.
Print Assumptions C13_announced_once.
Print Assumptions C13_copy_resends_last.
Print Assumptions C13_ack_announced.
Print Assumptions C13_ack_stops.
Print Assumptions C13_one_final_answer.
Print Assumptions C16_announced_once.
Print Assumptions C16_copy_resends_last.
Print Assumptions C16_one_final_answer.
Print Assumptions C16_further_answers_ignored.

(** Lemmas on the two ends (C73). *)
From Coq Require Import String ZArith Ascii Bool List Lia ZifyBool ZifyNat.
From Verif Require Import Base Str StrLemmas Types TimeModel PortModel CloneModel CloneProofs TransModel TransSpec TransProofs TransSteps TransProps TransReports TransServer PairModel PairSpec.
Import ListNotations.
Open Scope Z_scope.

(** * Events *)

Lemma parsed_facts : forall m ev, parsed_event m = Some ev ->
  ev = Ev (incoming_type (mc m)) (Some m) /\
  (is_request (mc m) = true -> m_method (mc m) <> None /\ m_uri (mc m) <> None).
Proof.
  unfold parsed_event. intros m ev H. destruct (is_request (mc m)).
  - destruct (m_method (mc m)), (m_uri (mc m)); try discriminate. injection H as <-. split; auto. split; congruence.
  - injection H as <-. split; auto. discriminate.
Qed.

Lemma outgoing_facts : forall m ev, new_outgoing (Some m) = Some ev ->
  ev = Ev (outgoing_type (mc m)) (Some m) /\
  (is_request (mc m) = true -> m_method (mc m) <> None /\ m_uri (mc m) <> None).
Proof.
  unfold new_outgoing. intros m ev H. destruct (is_request (mc m)).
  - destruct (m_method (mc m)), (m_uri (mc m)); try discriminate. injection H as <-. split; auto. split; congruence.
  - injection H as <-. split; auto. discriminate.
Qed.

(** Type of an event: received, handed over, or a timer *)
Definition rcv (ty : etype) : bool :=
  match ty with
  | RCV_REQINVITE | RCV_REQACK | RCV_REQUEST | RCV_STATUS_1XX | RCV_STATUS_2XX | RCV_STATUS_3456XX => true
  | _ => false
  end.
Definition snd_ty (ty : etype) : bool :=
  match ty with
  | SND_REQINVITE | SND_REQACK | SND_REQUEST | SND_STATUS_1XX | SND_STATUS_2XX | SND_STATUS_3456XX => true
  | _ => false
  end.

Lemma incoming_rcv : forall m, rcv (incoming_type m) = true /\ snd_ty (incoming_type m) = false.
Proof.
  intros m. unfold incoming_type.
  destruct (is_request m); [destruct (is_method ($"INVITE") m); auto; destruct (is_method ($"ACK") m); auto|].
  destruct (is_1xx m); auto. destruct (is_2xx m); auto.
Qed.

Lemma outgoing_snd : forall m, snd_ty (outgoing_type m) = true /\ rcv (outgoing_type m) = false.
Proof.
  intros m. unfold outgoing_type.
  destruct (is_request m); [destruct (is_method ($"INVITE") m); auto; destruct (is_method ($"ACK") m); auto|].
  destruct (is_1xx m); auto. destruct (is_2xx m); auto.
Qed.

Lemma in_out_types : forall m,
  incoming_type m = match outgoing_type m with
                    | SND_REQINVITE => RCV_REQINVITE | SND_REQACK => RCV_REQACK | SND_REQUEST => RCV_REQUEST
                    | SND_STATUS_1XX => RCV_STATUS_1XX | SND_STATUS_2XX => RCV_STATUS_2XX
                    | _ => RCV_STATUS_3456XX
                    end.
Proof.
  intros m. unfold incoming_type, outgoing_type.
  destruct (is_request m); [destruct (is_method ($"INVITE") m); auto; destruct (is_method ($"ACK") m); auto|].
  destruct (is_1xx m); auto. destruct (is_2xx m); auto.
Qed.

Lemma timeout_is : forall x, is_timeout (timeout_of x) = true /\ rcv (timeout_of x) = false /\ snd_ty (timeout_of x) = false.
Proof. destruct x; auto. Qed.

(** Where an event can come from: [w] is what arrived. *)
Definition source (w : list message) (ev : event) : Prop :=
  (exists m, new_outgoing (Some m) = Some ev) \/
  (exists m, parsed_event m = Some ev /\ In (mc m) w) \/
  (exists x, ev = Ev (timeout_of x) None).

Lemma source_api : forall w ev, source w ev -> api_event ev.
Proof.
  intros w ev [H|[(m & H & _)|(x & ->)]]; unfold api_event; eauto.
  right. right. split; auto. apply timeout_is.
Qed.

Lemma source_mono : forall w w' ev, (forall m, In m w -> In m w') -> source w ev -> source w' ev.
Proof. intros w w' ev H [Hs|[(m & H1 & H2)|Hs]]; unfold source; eauto 6. Qed.

Lemma source_rcv : forall w ev, source w ev -> rcv (ev_type ev) = true ->
  exists m, ev_sip ev = Some m /\ parsed_event m = Some ev /\ In (mc m) w /\ ev_type ev = incoming_type (mc m).
Proof.
  intros w ev [(m & H)|[(m & H & Hw)|(x & ->)]] Hr.
  - destruct (outgoing_facts _ _ H) as (-> & _). cbn in Hr. pose proof (outgoing_snd (mc m)). intuition congruence.
  - exists m. pose proof (parsed_facts _ _ H) as (-> & _). auto.
  - cbn in Hr. pose proof (timeout_is x). intuition congruence.
Qed.

Lemma source_snd : forall w ev, source w ev -> snd_ty (ev_type ev) = true ->
  exists m, ev_sip ev = Some m /\ new_outgoing (Some m) = Some ev /\ ev_type ev = outgoing_type (mc m).
Proof.
  intros w ev [(m & H)|[(m & H & Hw)|(x & ->)]] Hr.
  - exists m. pose proof (outgoing_facts _ _ H) as (-> & _). auto.
  - destruct (parsed_facts _ _ H) as (-> & _). cbn in Hr. pose proof (incoming_rcv (mc m)). intuition congruence.
  - cbn in Hr. pose proof (timeout_is x). intuition congruence.
Qed.

(** * Logs *)

Definition events (l : list ran) : list (env * event) := map (fun r => (r_env r, r_ev r)) l.
Definition outs (l : list ran) : list (list out) := map r_out l.

Lemma did_outs : forall l, did l = concat (outs l).
Proof. intros. unfold did, outs. rewrite flat_map_concat_map. auto. Qed.

Lemma did_app : forall a b, did (a ++ b) = did a ++ did b.
Proof. intros. unfold did. apply flat_map_app. Qed.

Lemma wire_app : forall a b, wire (a ++ b) = wire a ++ wire b.
Proof. intros. unfold wire. apply flat_map_app. Qed.

Lemma in_wire : forall l c, In c (wire l) -> exists m h p i, In (OSend m h p i) (did l) /\ mc m = c /\ 0 <= i.
Proof.
  intros l c H. unfold wire in H. apply in_flat_map in H. destruct H as (r & Hr & H).
  apply in_flat_map in H. destruct H as (o & Ho & H). destruct o as [m h p i|?|?|?|?]; try destruct H.
  unfold sends in H. destruct (0 <=? i) eqn:E; [|destruct H]. destruct H as [<-|[]].
  exists m, h, p, i. split; [|split; [auto|lia]]. unfold did. apply in_flat_map. eauto.
Qed.

Lemma run_snoc : forall l t t1 tr e ev r t2 o, run t l = Ok (t1, tr) -> execute e t1 ev = Ok (r, t2, o) ->
  run t (l ++ [(e, ev)]) = Ok (t2, tr ++ [o]).
Proof.
  induction l as [|[e0 ev0] l]; intros t t1 tr e ev r t2 o H He.
  - cbn in H. injection H as <- <-. cbn. rewrite He. reflexivity.
  - apply run_cons in H. destruct H as (r0 & t3 & o0 & tr0 & H1 & H2 & ->). cbn. rewrite H1. cbn.
    rewrite (IHl _ _ _ _ _ _ _ _ H2 He). reflexivity.
Qed.

(** * What is sent and told comes from events *)

(** A response sent by a server transaction was handed to it. *)
Lemma server_says : forall t0 l t tr, fresh t0 -> server (t_type t0) = true -> run t0 l = Ok (t, tr) ->
  (forall m, t_last t = Some m ->
     exists e ev, In (e, ev) l /\ is_answer (ev_type ev) = true /\ ev_sip ev = Some m) /\
  (forall m h p i, In (OSend m h p i) (concat tr) ->
     exists e ev, In (e, ev) l /\ is_answer (ev_type ev) = true /\ ev_sip ev = Some m).
Proof.
  intros t0 l t tr Hf Hk Hr.
  set (Q := fun m => exists e ev, In (e, ev) l /\ is_answer (ev_type ev) = true /\ ev_sip ev = Some m).
  set (P := fun (t : trans) (acc : list out) => server (t_type t) = true /\ (forall r, t_last t = Some r -> Q r) /\
     forall m h p i, In (OSend m h p i) acc -> Q m).
  assert (H : P t ([] ++ concat tr)).
  { refine (run_trace_inv P (fun x => In x l) _ l t0 t tr [] _ _ Hr).
    - intros e ev t1 r t2 o acc (H1 & H2 & H3) Hl He.
      assert (HQ : forall x, is_answer (ev_type ev) = true -> ev_sip ev = Some x -> Q x)
        by (intros x Hx Hy; exists e, ev; auto).
      pose proof (execute_identity _ _ _ _ _ _ He) as (_ & Hty & _).
      assert (G : (forall r, t_last t2 = Some r -> Q r) /\ forall m h p i, In (OSend m h p i) o -> Q m).
      { clear H3 acc. apply execute_inv in He. destruct He as [(-> & Ho & _)|(hh & Hin & Hh & _)].
        - split; auto. intros mm hh pp ii Hx. destruct Ho as [->| ->]; in_cases Hx; discriminate.
        - clear Hty. destruct (t_type t1); try discriminate H1; table_cases1 Hin; rewrite He in HQ;
            handler_cases Hh; try discriminate; injection Hh as <- <-; proj.
          all: split; [intros rr Hrr; first [injection Hrr as <-; auto; fail | apply H2; congruence]|].
          all: intros mm hh pp ii Hx; in_cases Hx; try discriminate Hx; injection Hx as <- <- <- <-; auto. }
      destruct G as (G1 & G2). split; [congruence|]. split; auto.
      intros mm hh pp ii Hx. apply in_app_or in Hx. destruct Hx as [Hx|Hx]; eauto.
    - split; auto. destruct (fresh_nomsg _ Hf) as (_ & -> & _). split; [discriminate|]. intros ? ? ? ? [].
    - apply Forall_forall. auto. }
  destruct H as (_ & H1 & H). simpl in H. split; auto.
Qed.

Lemma server_sends : forall t0 l t tr m h p i, fresh t0 -> server (t_type t0) = true ->
  run t0 l = Ok (t, tr) -> In (OSend m h p i) (concat tr) ->
  exists e ev, In (e, ev) l /\ is_answer (ev_type ev) = true /\ ev_sip ev = Some m.
Proof. intros t0 l t tr m h p i Hf Hk Hr. apply (server_says _ _ _ _ Hf Hk Hr). Qed.

(** What a client transaction sends: the request handed to it, or the ACK for that request and
    an answer it received. *)
Definition client_sent (l : list (env * event)) (k : fsm) (acc : list out) (m : msg) : Prop :=
  (exists e ev, In (e, ev) l /\ (ev_type ev = SND_REQINVITE \/ ev_type ev = SND_REQUEST) /\ ev_sip ev = Some m) \/
  (k = ICT /\ exists e ev e' ev' q r, In (e, ev) l /\ ev_type ev = SND_REQINVITE /\ ev_sip ev = Some q /\
     In (e', ev') l /\ ev_type ev' = RCV_STATUS_3456XX /\ ev_sip ev' = Some r /\
     create_ack (mc q) (mc r) = Some (mc m) /\
     exists x, In x acc /\ (final_told r x \/ is_tperr x = true)).

Ltac told_o :=
  first [ eexists (OTpErr _ _); split; [solve [rewrite ?in_app_iff; simpl; eauto 8]|right; reflexivity]
        | eexists; split; [rewrite ?in_app_iff; simpl; right; first [left; reflexivity | right; left; reflexivity | right; right; left; reflexivity]|];
          left; eexists; split; [reflexivity|]; unfold final_cb, final_names;
          repeat match goal with |- context [if ?b then _ else _] => destruct b end; simpl; tauto ].

Lemma client_sends : forall t0 l t tr m h p i, fresh t0 -> server (t_type t0) = false ->
  run t0 l = Ok (t, tr) -> In (OSend m h p i) (concat tr) -> client_sent l (t_type t0) (concat tr) m.
Proof.
  intros t0 l t tr m h p i Hf Hk Hr Hi.
  set (Q := fun m => exists e ev, In (e, ev) l /\
                     ev_type ev = match t_type t0 with ICT => SND_REQINVITE | _ => SND_REQUEST end /\ ev_sip ev = Some m).
  set (A := fun (acc : list out) m => t_type t0 = ICT /\ exists e' ev' q r, Q q /\
     In (e', ev') l /\ ev_type ev' = RCV_STATUS_3456XX /\ ev_sip ev' = Some r /\
     create_ack (mc q) (mc r) = Some (mc m) /\ exists x, In x acc /\ (final_told r x \/ is_tperr x = true)).
  set (P := fun (t : trans) (acc : list out) => t_type t = t_type t0 /\ (forall r, t_orig t = Some r -> Q r) /\
     (forall r, t_ack t = Some r -> A acc r) /\ forall m h p i, In (OSend m h p i) acc -> Q m \/ A acc m).
  assert (H : P t ([] ++ concat tr)).
  { refine (run_trace_inv P (fun x => In x l) _ l t0 t tr [] _ _ Hr).
    - intros e ev t1 r t2 o acc (H1 & H2 & H2' & H3) Hl He.
      pose proof (execute_identity _ _ _ _ _ _ He) as (_ & Hty & _).
      assert (G : (forall r, t_orig t2 = Some r -> Q r) /\ (forall r, t_ack t2 = Some r -> A (acc ++ o) r) /\
                  forall m h p i, In (OSend m h p i) o -> Q m \/ A (acc ++ o) m).
      { clear H3. assert (Hmono : forall m, A acc m -> A (acc ++ o) m).
        { intros mm (F0 & e' & ev' & q & rr & F1 & F2 & F3 & F4 & F5 & x & F6 & F7). split; auto.
          exists e', ev', q, rr. repeat (split; auto). exists x. split; auto. apply in_or_app. auto. }
        apply execute_inv in He. destruct He as [(-> & Ho & _)|(hh & Hin & Hh & _)].
        - split; auto. split; [intros; apply Hmono; auto|]. intros mm hh pp ii Hx. destruct Ho as [->| ->]; in_cases Hx; discriminate.
        - clear Hty. rewrite H1 in Hin. assert (H2a : forall r, t_ack t1 = Some r -> A (acc ++ o) r) by auto.
          assert (HQ : forall x, ev_type ev = match t_type t0 with ICT => SND_REQINVITE | _ => SND_REQUEST end ->
                         ev_sip ev = Some x -> Q x) by (intros x Hx Hy; exists e, ev; auto).
          assert (HA : forall x q a, t_type t0 = ICT -> ev_type ev = RCV_STATUS_3456XX -> ev_sip ev = Some x -> Q q ->
                         create_ack (mc q) (mc x) = Some (mc a) ->
                         (exists y, In y o /\ (final_told x y \/ is_tperr y = true)) -> A (acc ++ o) a).
          { intros x q a Ek Hx Hy Hq Hc (y & Hy1 & Hy2). split; auto. exists e, ev, q, x. repeat (split; auto).
            exists y. split; auto. apply in_or_app. auto. }
          clear Hmono H2'. set (A' := A (acc ++ o)) in *. clearbody Q A'.
          destruct (t_type t0); try discriminate Hk; table_cases1 Hin; rewrite He in HQ, HA;
            handler_cases Hh; try discriminate; injection Hh as <- <-; proj.
          all: split; [intros rr Hrr; first [injection Hrr as <-; auto; fail | apply H2; congruence]|].
          all: split; [intros rr Hrr; first [apply H2a; congruence | discriminate Hrr
                         | injection Hrr as <-; apply H2a; congruence
                         | injection Hrr as <-; refine (HA _ _ _ eq_refl eq_refl eq_refl (H2 _ eq_refl) _ _); [assumption|told_o] ]|].
          all: intros mm hh pp ii Hx; in_cases Hx; try discriminate Hx; injection Hx as <- <- <- <-;
               first [ left; auto; fail | right; auto; fail
                     | right; refine (HA _ _ _ eq_refl eq_refl eq_refl (H2 _ eq_refl) _ _); [assumption|told_o] ]. }
      destruct G as (G1 & G2 & G3). split; [congruence|]. split; auto. split; auto.
      intros mm hh pp ii Hx. apply in_app_or in Hx. destruct Hx as [Hx|Hx]; eauto.
      destruct (H3 _ _ _ _ Hx) as [Hy|(F0 & e' & ev' & q & rr & F1 & F2 & F3 & F4 & F5 & x & F6 & F7)]; auto.
      right. split; auto. exists e', ev', q, rr. repeat (split; auto). exists x. split; auto. apply in_or_app. auto.
    - split; auto. destruct (fresh_nomsg _ Hf) as (-> & _ & ->). split; [discriminate|]. split; [discriminate|]. intros ? ? ? ? [].
    - apply Forall_forall. auto. }
  destruct H as (_ & _ & _ & H). simpl in H. destruct (H _ _ _ _ Hi) as [(e & ev & F1 & F2 & F3)|(Ek & e' & ev' & q & r & (e & ev & F1 & F2 & F3) & G)].
  - left. exists e, ev. split; auto. split; auto. destruct (t_type t0); auto.
  - right. split; auto. rewrite Ek in F2. exists e, ev, e', ev', q, r. tauto.
Qed.

(** What a client tells about answers: an event that brought that very answer. *)
Lemma exec_told : forall e ev t r t' o m x, server (t_type t) = false -> execute e t ev = Ok (r, t', o) ->
  In x o -> answer_told m x ->
  ev_sip ev = Some m /\ (ev_type ev = RCV_STATUS_1XX \/ ev_type ev = RCV_STATUS_2XX \/ ev_type ev = RCV_STATUS_3456XX) /\
  (final_told m x -> ev_type ev <> RCV_STATUS_1XX) /\ (is_3456 x = true -> ev_type ev = RCV_STATUS_3456XX).
Proof.
  intros e ev t r t' o m x Hk He Hx (c & -> & Hc).
  apply execute_inv in He. destruct He as [(-> & Ho & _)|(hh & Hin & Hh & _)].
  - destruct Ho as [->| ->]; in_cases Hx; discriminate.
  - destruct (t_type t); try discriminate Hk; table_cases1 Hin; handler_cases Hh; try discriminate; injection Hh as <- <-;
      unfold final_cb, nict_sent_cb, method_cb in Hx; in_cases Hx; try discriminate Hx; injection Hx as Ec Em.
    all: repeat match type of Ec with (if ?b then _ else _) = _ => destruct b end.
    all: try (exfalso; subst c; simpl in Hc; intuition discriminate).
    all: try discriminate Em.
    all: split; [congruence|]; split; [auto|]; split;
      [intros (c0 & E0 & Hc0); injection E0 as <-; rewrite ?He; first [discriminate | subst c; simpl in Hc0; intuition discriminate]
      | rewrite ?He; subst c; simpl; try discriminate; auto].
Qed.

(** What a server tells about requests and ACKs *)
Lemma exec_new : forall e ev t r t' o x, server (t_type t) = true -> execute e t ev = Ok (r, t', o) ->
  In x o -> is_new x = true \/ is_ack_told x = true ->
  exists c m, x = OCb c (Some m) /\ ev_sip ev = Some m /\
  (is_new x = true -> ev_type ev = opening (t_type t)) /\
  (is_ack_told x = true -> t_type t = IST /\ ev_type ev = RCV_REQACK).
Proof.
  intros e ev t r t' o x Hk He Hx Hn.
  apply execute_inv in He. destruct He as [(-> & Ho & _)|(hh & Hin & Hh & _)].
  - destruct Ho as [->| ->]; in_cases Hx; subst; destruct Hn; discriminate.
  - destruct (t_type t); try discriminate Hk; table_cases1 Hin; handler_cases Hh; try discriminate; injection Hh as <- <-;
      unfold final_cb, again_cb in Hx; in_cases Hx; subst x;
      repeat match type of Hn with context [if ?b then _ else _] => destruct b end.
    all: try (exfalso; simpl in Hn; destruct Hn; discriminate).
    all: eexists _, _; split; [reflexivity|]; split; [congruence|]; split; intros Hy; try discriminate Hy; auto.
    all: exfalso; clear - Hy; unfold nist_rcv_cb, method_cb in Hy;
      repeat match type of Hy with context [if ?b then _ else _] => destruct b end; discriminate.
Qed.

(** * One server transaction *)

Lemma opening_server : forall k, server k = true -> opening k = match k with IST => RCV_REQINVITE | _ => RCV_REQUEST end.
Proof. destruct k; auto; discriminate. Qed.

Lemma exec_news : forall e ev t r t' o, typed t -> server (t_type t) = true -> execute e t ev = Ok (r, t', o) ->
  (count is_new o = (if Nat.eqb (rank (t_state t)) 0 && negb (Nat.eqb (rank (t_state t')) 0) then 1 else 0)%nat) /\
  (ev_type ev = opening (t_type t) -> rank (t_state t') <> 0%nat) /\
  (forall m h p i, In (OSend m h p i) o -> rank (t_state t) <> 0%nat).
Proof.
  intros e ev t r t' o HT Hk H. rewrite (opening_server _ Hk). unfold typed in HT. apply execute_inv in H.
  destruct H as [(-> & Ho & Hn & _)|(h & Hin & Hh & _)].
  - rewrite andb_negb_r. split; [destruct Ho as [->| ->]; cnt|]. split.
    + intros E. rewrite E in Hn. destruct (t_type t), (t_state t); try discriminate; simpl; lia.
    + intros m h p i Hi. destruct Ho as [->| ->]; in_cases Hi; discriminate.
  - destruct (t_type t); try discriminate Hk; table_cases1 Hin; handler_cases Hh; try discriminate; injection Hh as <- <-; proj;
      rewrite ?Hs; (split; [|split; [intros; simpl; lia|intros mm hh pp ii Hi; in_cases Hi; try discriminate Hi; simpl; lia]]);
      cbn [rank Nat.eqb andb negb]; cnt;
      unfold final_cb, again_cb, nist_rcv_cb, method_cb;
      repeat match goal with |- context [if ?b then _ else _] => destruct b end; reflexivity.
Qed.

Lemma server_news : forall t0 l t tr, fresh t0 -> server (t_type t0) = true -> run t0 l = Ok (t, tr) ->
  count is_new (concat tr) = (if Nat.eqb (rank (t_state t)) 0 then 0 else 1)%nat /\
  (forall m h p i, In (OSend m h p i) (concat tr) -> rank (t_state t) <> 0%nat).
Proof.
  intros t0 l t tr Hf Hk Hr.
  set (P := fun (t : trans) (acc : list out) => server (t_type t) = true /\ typed t /\
     count is_new acc = (if Nat.eqb (rank (t_state t)) 0 then 0 else 1)%nat /\
     (forall m h p i, In (OSend m h p i) acc -> rank (t_state t) <> 0%nat)).
  assert (H : P t ([] ++ concat tr)).
  { refine (run_trace_inv P (fun _ => True) _ l t0 t tr [] _ (forall_any _ _) Hr).
    - intros e ev t1 r t2 o acc (H1 & H2 & H3 & H4) _ He.
      pose proof (execute_identity _ _ _ _ _ _ He) as (_ & Hty & _).
      pose proof (exec_rank _ _ _ _ _ _ He) as Hrk.
      destruct (exec_news _ _ _ _ _ _ H2 H1 He) as (G1 & G2 & G3).
      split; [congruence|]. split; [eapply exec_typed; eauto|]. split.
      + rewrite count_app, H3, G1.
        destruct (Nat.eqb_spec (rank (t_state t1)) 0), (Nat.eqb_spec (rank (t_state t2)) 0); simpl; lia.
      + intros m h p i Hi. apply in_app_or in Hi. destruct Hi as [Hi|Hi]; [apply H4 in Hi|apply G3 in Hi]; lia.
    - split; auto. split; [apply fresh_typed; auto|]. rewrite (fresh_state _ Hf).
      split; [destruct (t_type t0); reflexivity|]. intros ? ? ? ? []. }
  destruct H as (_ & _ & H3 & H4). auto.
Qed.

(** A server that says a final answer was sent did send it. *)
Lemma exec_final_sent : forall e ev t r t' o m x, server (t_type t) = true -> answer_inv t -> api_event ev ->
  execute e t ev = Ok (r, t', o) -> In x o -> final_sent m x ->
  (exists h p i, In (OSend m h p i) o) /\ is_1xx (mc m) = false.
Proof.
  intros e ev t r t' o m x Hk HI Ha He Hx (c & -> & Hc).
  assert (HA := fun m => api_answer_class ev m Ha). unfold answer_inv in HI.
  apply execute_inv in He. destruct He as [(-> & Ho & _)|(hh & Hin & Hh & _)].
  - destruct Ho as [->| ->]; in_cases Hx; discriminate.
  - destruct (t_type t); try discriminate Hk; table_cases1 Hin; rewrite Hs in HI; handler_cases Hh; try discriminate; injection Hh as <- <-;
      unfold final_cb, again_cb, nist_rcv_cb, method_cb in Hx; in_cases Hx; try discriminate Hx; injection Hx as Ec Em; try subst m.
    all: repeat match type of Ec with (if ?b then _ else _) = _ => destruct b eqn:? end.
    all: try (exfalso; subst c; simpl in Hc; intuition discriminate).
    all: split; [eexists _, _, _; rewrite ?in_app_iff; simpl; eauto 8|].
    all: try assumption.
    all: try (apply HA; [reflexivity|auto]; fail).
    all: try reflexivity.
    all: destruct HI as (y & Hy1 & Hy2 & _); congruence.
Qed.

(** * One client transaction *)

Lemma exec_finals_told : forall e ev t r t' o, server (t_type t) = false -> execute e t ev = Ok (r, t', o) ->
  (count is_final_told o <= 1)%nat /\
  (count is_final_told o = 1%nat -> (rank (t_state t) < 3 <= rank (t_state t'))%nat).
Proof.
  intros e ev t r t' o Hk H. apply execute_inv in H.
  destruct H as [(-> & Ho & Hn & _)|(h & Hin & Hh & _)].
  - assert (E : count is_final_told o = 0%nat) by (destruct Ho as [->| ->]; cnt). rewrite E. split; intros; lia.
  - destruct (t_type t); try discriminate Hk; table_cases1 Hin; handler_cases Hh; try discriminate; injection Hh as <- <-; proj;
      rewrite ?Hs; repeat rewrite ?count_app, ?count_free_opt by (intros; reflexivity);
      unfold final_cb, nict_sent_cb, method_cb;
      repeat match goal with |- context [if ?b then _ else _] => destruct b end; unfold count; simpl; lia.
Qed.

Lemma finals_told_once : forall t0 l t tr, fresh t0 -> server (t_type t0) = false -> run t0 l = Ok (t, tr) ->
  (count is_final_told (concat tr) <= 1)%nat.
Proof.
  intros t0 l t tr Hf Hk Hr.
  set (P := fun (t : trans) (acc : list out) => server (t_type t) = false /\ (count is_final_told acc <= 1)%nat /\
     (count is_final_told acc = 1%nat -> (3 <= rank (t_state t))%nat)).
  assert (H : P t ([] ++ concat tr)).
  { refine (run_trace_inv P (fun _ => True) _ l t0 t tr [] _ (forall_any _ _) Hr).
    - intros e ev t1 r t2 o acc (H1 & H2 & H3) _ He.
      pose proof (execute_identity _ _ _ _ _ _ He) as (_ & Hty & _).
      pose proof (exec_rank _ _ _ _ _ _ He) as Hrk.
      destruct (exec_finals_told _ _ _ _ _ _ H1 He) as (G1 & G2).
      split; [congruence|]. rewrite count_app. lia.
    - split; auto. split; unfold count; simpl; lia. }
  apply H.
Qed.

(** The invariant of the two ends (C73). *)
From Coq Require Import String ZArith Ascii Bool List Lia ZifyBool ZifyNat.
From Verif Require Import Base Str StrLemmas Types TimeModel PortModel CloneModel CloneProofs TransModel TransSpec TransProofs TransSteps TransProps TransReports TransServer StackProps2 PairModel PairSpec PairProofs.
Import ListNotations.
Open Scope Z_scope.

(** The life of one server transaction, from the request that created it. *)
Definition life (k : fsm) (l : list ran) (ts : trans) : Prop :=
  exists t1 r l', fresh t1 /\ t_type t1 = server_kind k /\ run t1 (events l) = Ok (ts, outs l) /\
                  l = r :: l' /\ ev_type (r_ev r) = opening k /\
                  exists now m, ev_sip (r_ev r) = Some m /\ trans_init (server_kind k) now 0 (Some (mc m)) = Ok t1.

Record inv (t0 : trans) (p : pair) : Prop := mkInv {
  i_run : run t0 (events (p_clog p)) = Ok (p_client p, outs (p_clog p));
  i_csrc : Forall (fun r => source (wire (p_sall p)) (r_ev r)) (p_clog p);
  i_ssrc : Forall (fun r => source (wire (p_clog p)) (r_ev r)) (p_sall p);
  i_srv : match p_server p with Some ts => life (t_type t0) (p_slog p) ts | None => p_slog p = [] end;
  i_past : exists segs, p_past p = concat segs /\ length segs = p_gone p /\
                        Forall (fun l => exists ts, life (t_type t0) l ts) segs }.

Lemma inv_begin : forall t0, inv t0 (begin t0).
Proof. intros. constructor; cbn; auto. exists []. auto. Qed.

Lemma server_kind_server : forall k, server (server_kind k) = true.
Proof. destruct k; auto. Qed.

Lemma events_snoc : forall l r, events (l ++ [r]) = events l ++ [(r_env r, r_ev r)].
Proof. intros. unfold events. rewrite map_app. auto. Qed.
Lemma outs_snoc : forall l r, outs (l ++ [r]) = outs l ++ [r_out r].
Proof. intros. unfold outs. rewrite map_app. auto. Qed.

Lemma client_step : forall t0 e ev p q, inv t0 p -> source (wire (p_sall p)) ev -> client_does e ev p = Ok q -> inv t0 q.
Proof.
  intros t0 e ev p q [I1 I2 I3 I4 I5] Hs H. unfold client_does, res_bind in H.
  destruct (execute e (p_client p) ev) as [[[r t] o]|c|] eqn:He; try discriminate. injection H as <-.
  constructor; cbn [p_client p_clog p_server p_slog p_past p_gone p_sall]; auto.
  - rewrite events_snoc, outs_snoc. cbn. eapply run_snoc; eauto.
  - apply Forall_app. split; auto.
  - eapply Forall_impl; [|exact I3]. intros a. apply source_mono. intros m Hm. rewrite wire_app. apply in_or_app. auto.
Qed.

Lemma server_step : forall t0 e ev ts p q, inv t0 p -> source (wire (p_clog p)) ev ->
  (p_server p = Some ts \/ (p_server p = None /\ t_type ts = server_kind (t_type t0) /\ ev_type ev = opening (t_type t0) /\
     exists now m, ev_sip ev = Some m /\ trans_init (server_kind (t_type t0)) now 0 (Some (mc m)) = Ok ts)) ->
  server_does e ev ts p = Ok q -> inv t0 q.
Proof.
  intros t0 e ev ts p q [I1 I2 I3 I4 I5] Hs Hts H. unfold server_does, res_bind in H.
  destruct (execute e ts ev) as [[[r t] o]|c|] eqn:He; try discriminate. injection H as <-.
  assert (EA : p_sall (mkPair (p_client p) (p_clog p) (Some t) (p_slog p ++ [mkRan e ev o]) (p_past p) (p_gone p)) = p_sall p ++ [mkRan e ev o])
    by (unfold p_sall; cbn; apply app_assoc).
  constructor; rewrite ?EA; cbn [p_client p_clog p_server p_slog p_past p_gone]; auto.
  - eapply Forall_impl; [|exact I2]. intros a. apply source_mono. intros m Hm. rewrite wire_app. apply in_or_app. auto.
  - apply Forall_app. split; auto.
  - destruct Hts as [Hts|(Hn & Hty & Hev & now & m & Hm & Hf)].
    + rewrite Hts in I4. destruct I4 as (t1 & r0 & l' & F1 & F2 & F3 & F4 & F5 & F6).
      exists t1, r0, (l' ++ [mkRan e ev o]). split; auto. split; auto. split; [|split; [rewrite F4; auto|auto]].
      rewrite events_snoc, outs_snoc. eapply run_snoc; eauto.
    + rewrite Hn in I4. rewrite I4. exists ts, (mkRan e ev o), []. split; [exists (server_kind (t_type t0)), now, 0, (mc m); auto|].
      split; auto. split; [cbn; rewrite He; reflexivity|]. split; auto. split; auto. exists now, m. auto.
Qed.

Lemma inv_type : forall t0 p, inv t0 p -> t_type (p_client p) = t_type t0.
Proof. intros t0 p H. apply (run_type _ _ _ _ (i_run _ _ H)). Qed.

Lemma nth_wire : forall A (l : list A) i x, nth_error l i = Some x -> In x l.
Proof. intros. eapply nth_error_In; eauto. Qed.

Lemma play_inv : forall t0 mv p q, inv t0 p -> play p mv = Ok q -> inv t0 q.
Proof.
  intros t0 mv p q HI H. pose proof (inv_type _ _ HI) as Hty. destruct mv; cbn [play] in H.
  - destruct (new_outgoing (Some m)) as [ev|] eqn:E; [|injection H as <-; auto].
    eapply client_step; eauto. left. eauto.
  - destruct (nth_error (wire (p_sall p)) i) as [c|] eqn:En; [|injection H as <-; auto].
    destruct (parsed_event (Msg id c)) as [ev|] eqn:E; [|injection H as <-; auto].
    eapply client_step; eauto. right. left. exists (Msg id c). split; auto. apply nth_error_In in En. auto.
  - destruct (timer_due (p_client p) x (e_now e)); [|injection H as <-; auto].
    eapply client_step; eauto. right. right. eauto.
  - destruct (p_server p) as [ts|] eqn:Es; [|injection H as <-; auto].
    destruct (new_outgoing (Some m)) as [ev|] eqn:E; [|injection H as <-; auto].
    eapply server_step; eauto. left. eauto.
  - destruct (nth_error (wire (p_clog p)) i) as [c|] eqn:En; [|injection H as <-; auto].
    destruct (parsed_event (Msg id c)) as [ev|] eqn:E; [|injection H as <-; auto].
    assert (HS : source (wire (p_clog p)) ev).
    { right. left. exists (Msg id c). split; auto. apply nth_error_In in En. auto. }
    destruct (p_server p) as [ts|] eqn:Es; [eapply server_step; eauto|].
    destruct (etype_eqb (ev_type ev) (opening (t_type (p_client p)))) eqn:Eo; [|injection H as <-; auto].
    destruct (trans_init _ _ _ _) as [ts|c'|] eqn:Ei; try discriminate; [|injection H as <-; auto].
    apply etype_eqb_eq in Eo. rewrite Hty in *. eapply server_step; eauto.
    right. split; auto. split; [|split; [auto|]].
    2:{ exists (e_now e), (Msg id c). split; auto. destruct (parsed_facts _ _ E) as (-> & _). auto. }
    unfold trans_init, res_bind in Ei. clear - Ei.
    repeat match type of Ei with
    | context [match ?x with _ => _ end] =>
      match x with context [match _ with _ => _ end] => fail 1 | _ => destruct x; try discriminate Ei end
    end; injection Ei as <-; reflexivity.
  - destruct (p_server p) as [ts|] eqn:Es; [|injection H as <-; auto].
    destruct (timer_due ts x (e_now e)); [|injection H as <-; auto].
    eapply server_step; eauto. right. right. eauto.
  - destruct (p_server p) as [ts|] eqn:Es; [|injection H as <-; auto].
    destruct (over ts); [|injection H as <-; auto]. injection H as <-.
    destruct HI as [I1 I2 I3 I4 (segs & S1 & S2 & S3)]. rewrite Es in I4.
    constructor; unfold p_sall in *; cbn; rewrite ?app_nil_r; auto.
    exists (segs ++ [p_slog p]). rewrite concat_app, app_length, S1, S2. cbn. rewrite app_nil_r.
    split; auto. split; [lia|]. apply Forall_app. split; auto. constructor; [exists ts; exact I4|constructor].
Qed.

Lemma plays_inv : forall l t0 p q, inv t0 p -> plays p l = Ok q -> inv t0 q.
Proof.
  induction l as [|mv l]; cbn; intros t0 p q HI H; [injection H as <-; auto|].
  destruct (play p mv) as [p1|c|] eqn:E; try discriminate. cbn in H. eapply IHl; [|exact H]. eapply play_inv; eauto.
Qed.

Lemma reached_inv : forall t0 l p, reached t0 l p -> inv t0 p.
Proof. intros t0 l p (_ & H). eapply plays_inv; [apply inv_begin|exact H]. Qed.

(** * Nothing goes wrong *)

Lemma inv_client_total : forall t0 p e ev, fresh t0 -> inv t0 p -> source (wire (p_sall p)) ev ->
  exists q, client_does e ev p = Ok q.
Proof.
  intros t0 p e ev Hf HI Hs.
  assert (Hh : holds (fun _ => True) (p_client p)).
  { refine (run_holds _ _ _ _ _ Hf _ (i_run _ _ HI)). apply Forall_forall. intros [e0 ev0] Hx.
    unfold events in Hx. apply in_map_iff in Hx. destruct Hx as (r & Hr & Hx). injection Hr as <- <-.
    pose proof (i_csrc _ _ HI) as Hc. rewrite Forall_forall in Hc. specialize (Hc _ Hx).
    split; [eapply source_api; eauto|]. intros m _. cbn. destruct (ev_type (r_ev r)); auto. }
  destruct (exec_total _ e ev _ Hh (source_api _ _ Hs)) as (r & t' & o & E).
  unfold client_does. rewrite E. cbn. eauto.
Qed.

Lemma life_holds : forall t0 p k l ts, life k l ts -> Forall (fun r => source (wire (p_clog p)) (r_ev r)) l ->
  inv t0 p -> holds (fun _ => True) ts.
Proof.
  intros t0 p k l ts (t1 & r & l' & F1 & F2 & F3 & _) Hl HI.
  refine (run_holds _ _ _ _ _ F1 _ F3). apply Forall_forall. intros [e0 ev0] Hx.
  unfold events in Hx. apply in_map_iff in Hx. destruct Hx as (r0 & Hr & Hx). injection Hr as <- <-.
  rewrite Forall_forall in Hl. specialize (Hl _ Hx).
  split; [eapply source_api; eauto|]. intros m _. cbn. destruct (ev_type (r_ev r0)); auto.
Qed.

Lemma inv_server_total : forall t0 p e ev ts, inv t0 p -> source (wire (p_clog p)) ev ->
  (p_server p = Some ts \/ fresh ts) -> exists q, server_does e ev ts p = Ok q.
Proof.
  intros t0 p e ev ts HI Hs Hts.
  assert (Hh : holds (fun _ => True) ts).
  { destruct Hts as [Hts|Hts]; [|apply fresh_holds; auto].
    pose proof (i_srv _ _ HI) as H4. rewrite Hts in H4. eapply life_holds; eauto.
    pose proof (i_ssrc _ _ HI) as Hc. unfold p_sall in Hc. apply Forall_app in Hc. tauto. }
  destruct (exec_total _ e ev _ Hh (source_api _ _ Hs)) as (r & t' & o & E).
  unfold server_does. rewrite E. cbn. eauto.
Qed.

Lemma play_total : forall t0 mv p, fresh t0 -> inv t0 p -> exists q, play p mv = Ok q.
Proof.
  intros t0 mv p Hf HI. destruct mv; cbn [play].
  - destruct (new_outgoing (Some m)) as [ev|] eqn:E; eauto. eapply inv_client_total; eauto. left. eauto.
  - destruct (nth_error (wire (p_sall p)) i) as [c|] eqn:En; eauto.
    destruct (parsed_event (Msg id c)) as [ev|] eqn:E; eauto.
    eapply inv_client_total; eauto. right. left. exists (Msg id c). split; auto. apply nth_error_In in En. auto.
  - destruct (timer_due (p_client p) x (e_now e)); eauto. eapply inv_client_total; eauto. right. right. eauto.
  - destruct (p_server p) as [ts|] eqn:Es; eauto.
    destruct (new_outgoing (Some m)) as [ev|] eqn:E; eauto. eapply inv_server_total; eauto. left. eauto.
  - destruct (nth_error (wire (p_clog p)) i) as [c|] eqn:En; eauto.
    destruct (parsed_event (Msg id c)) as [ev|] eqn:E; eauto.
    assert (HS : source (wire (p_clog p)) ev).
    { right. left. exists (Msg id c). split; auto. apply nth_error_In in En. auto. }
    destruct (p_server p) as [ts|] eqn:Es; [eapply inv_server_total; eauto|].
    destruct (etype_eqb (ev_type ev) (opening (t_type (p_client p)))) eqn:Eo; eauto.
    destruct (trans_init _ _ _ _) as [ts|c'|] eqn:Ei; eauto.
    + eapply inv_server_total; eauto. right. eexists _, _, _, _. exact Ei.
    + exfalso. revert Ei. apply trans_init_safe. destruct (parsed_facts _ _ E) as (Ee & Hu). cbn in Hu.
      apply Hu. apply etype_eqb_eq in Eo. rewrite Ee in Eo. cbn in Eo. unfold incoming_type in Eo.
      destruct (is_request c); auto. exfalso.
      destruct (is_1xx c), (is_2xx c), (t_type (p_client p)); discriminate.
  - destruct (p_server p) as [ts|] eqn:Es; eauto.
    destruct (timer_due ts x (e_now e)); eauto. eapply inv_server_total; eauto. right. right. eauto.
  - destruct (p_server p) as [ts|] eqn:Es; eauto. destruct (over ts); eauto.
Qed.

(** * What the logs say *)

Lemma did_in : forall l x, In x (did l) <-> exists r, In r l /\ In x (r_out r).
Proof. intros. unfold did. apply in_flat_map. Qed.

(** The lives of all server transactions so far *)
Lemma all_lives : forall t0 p, inv t0 p -> exists segs, p_sall p = concat segs /\
  length segs = (p_gone p + match p_server p with Some _ => 1 | None => 0 end)%nat /\
  Forall (fun l => exists ts, life (t_type t0) l ts) segs /\
  (p_gone p = 0%nat -> segs = match p_server p with Some _ => [p_slog p] | None => [] end).
Proof.
  intros t0 p [I1 I2 I3 I4 (segs & S1 & S2 & S3)]. unfold p_sall. destruct (p_server p) as [ts|].
  - exists (segs ++ [p_slog p]). rewrite concat_app, app_length, S1, S2. cbn. rewrite app_nil_r. split; auto.
    split; auto. split; [apply Forall_app; split; auto; constructor; eauto|].
    intros E. rewrite E in S2. destruct segs; [reflexivity|discriminate].
  - exists segs. rewrite I4, S1, app_nil_r. split; auto. split; [lia|]. split; auto.
    intros E. rewrite E in S2. destruct segs; [reflexivity|discriminate].
Qed.

Lemma in_seg : forall segs x, In x (did (concat segs)) -> exists l, In l segs /\ In x (did l).
Proof.
  intros segs x H. apply did_in in H. destruct H as (r & H1 & H2). apply in_concat in H1.
  destruct H1 as (l & H1 & H3). exists l. split; auto. apply did_in. eauto.
Qed.

(** Every event of the server, in whichever life *)
Lemma life_server : forall k l ts, life k l ts -> exists t1, fresh t1 /\ server (t_type t1) = true /\
  t_type t1 = server_kind k /\ run t1 (events l) = Ok (ts, outs l).
Proof.
  intros k l ts (t1 & r & l' & F1 & F2 & F3 & _). exists t1. split; auto. split; [rewrite F2; apply server_kind_server|auto].
Qed.

Lemma in_events : forall l e ev, In (e, ev) (events l) -> exists r, In r l /\ r_ev r = ev.
Proof. intros l e ev H. apply in_map_iff in H. destruct H as (r & H1 & H2). injection H1 as <- <-. eauto. Qed.

(** A response on the wire was handed over by the application of the server. *)
Lemma down_handed : forall t0 p m h q i, inv t0 p -> In (OSend m h q i) (did (p_sall p)) ->
  handed (p_sall p) m /\ is_answer (outgoing_type (mc m)) = true /\ exists x, In x (did (p_sall p)) /\ is_new x = true.
Proof.
  intros t0 p m h q i HI Hi. destruct (all_lives _ _ HI) as (segs & S1 & _ & S3 & _).
  rewrite S1 in Hi |- *. apply in_seg in Hi. destruct Hi as (l & Hl & Hi).
  rewrite Forall_forall in S3. destruct (S3 _ Hl) as (ts & HL). destruct (life_server _ _ _ HL) as (t1 & F1 & F2 & _ & F4).
  pose proof Hi as Hi'. rewrite did_outs in Hi. destruct (server_sends _ _ _ _ _ _ _ _ F1 F2 F4 Hi) as (e & ev & G1 & G2 & G3).
  apply in_events in G1. destruct G1 as (r & G1 & <-).
  assert (Hs : source (wire (p_clog p)) (r_ev r)).
  { pose proof (i_ssrc _ _ HI) as Hc. rewrite S1 in Hc. rewrite Forall_forall in Hc. apply Hc. apply in_concat. eauto. }
  assert (Hsnd : snd_ty (ev_type (r_ev r)) = true) by (destruct (ev_type (r_ev r)); try discriminate; auto).
  destruct (source_snd _ _ Hs Hsnd) as (m' & E1 & E2 & E3). assert (m' = m) by congruence. subst m'.
  split; [exists r; split; auto; apply in_concat; eauto|]. split; [congruence|].
  destruct (server_news _ _ _ _ F1 F2 F4) as (N1 & N2). pose proof (N2 _ _ _ _ Hi) as Hrk.
  destruct (Nat.eqb_spec (rank (t_state ts)) 0); [lia|].
  unfold count in N1. destruct (filter is_new (concat (outs l))) as [|x f] eqn:Ef; [discriminate|].
  exists x. assert (Hx : In x (filter is_new (concat (outs l)))) by (rewrite Ef; left; auto).
  apply filter_In in Hx. destruct Hx as (Hx & Hy). split; auto. rewrite <- did_outs in Hx.
  apply did_in in Hx. destruct Hx as (r0 & Z1 & Z2). apply did_in. exists r0. split; auto. apply in_concat. eauto.
Qed.

(** What the client says about an answer: it arrived. *)
Lemma client_told : forall t0 p m x, client t0 -> inv t0 p -> In x (did (p_clog p)) -> answer_told m x ->
  exists r, In r (p_clog p) /\ ev_sip (r_ev r) = Some m /\ parsed_event m = Some (r_ev r) /\ In (mc m) (wire (p_sall p)) /\
    (final_told m x -> is_1xx (mc m) = false).
Proof.
  intros t0 p m x (Hf & Hk) HI Hx Ht. apply did_in in Hx. destruct Hx as (r & Hr & Hx).
  apply in_split in Hr. destruct Hr as (l1 & l2 & E). pose proof (i_run _ _ HI) as HR. rewrite E in HR.
  unfold events, outs in HR. rewrite !map_app in HR. cbn [map] in HR. apply run_app in HR.
  destruct HR as (t1 & tr1 & tr2 & R1 & R2 & R3). apply run_cons in R2. destruct R2 as (z & t2 & o & tr3 & X1 & X2 & X3).
  assert (Eo : o = r_out r).
  { subst tr2. assert (EL : length tr1 = length (map r_out l1)).
    { clear - R1. revert t0 t1 tr1 R1. induction l1; cbn; intros; [injection R1 as <- <-; auto|].
      destruct (execute _ _ _) as [[[? ?] ?]|?|]; try discriminate. cbn in R1.
      destruct (run _ _) as [[? ?]|?|] eqn:Er; try discriminate. injection R1 as <- <-. cbn. f_equal. eauto. }
    clear - R3 EL. revert tr1 R3 EL. induction (map r_out l1) as [|a l]; intros [|b tr1] R3 EL; try discriminate.
    - cbn in R3. injection R3. auto.
    - cbn in R3. injection R3 as _ R3. eapply IHl; eauto. }
  subst o. assert (Hk1 : server (t_type t1) = false).
  { rewrite (run_type _ _ _ _ R1). destruct Hk as [-> | ->]; auto. }
  destruct (exec_told _ _ _ _ _ _ _ _ Hk1 X1 Hx Ht) as (G1 & G2 & G3 & _).
  assert (Hin : In r (p_clog p)) by (rewrite E; apply in_or_app; right; left; auto).
  exists r. split; auto. split; auto.
  pose proof (i_csrc _ _ HI) as Hc. rewrite Forall_forall in Hc. specialize (Hc _ Hin).
  assert (Hrcv : rcv (ev_type (r_ev r)) = true) by (destruct G2 as [->|[->| ->]]; auto).
  destruct (source_rcv _ _ Hc Hrcv) as (m' & E1 & E2 & E3 & E4). assert (m' = m) by congruence. subst m'.
  split; auto. split; auto. intros Hfin. specialize (G3 Hfin). rewrite E4 in G2, G3. unfold incoming_type in G2, G3.
  destruct (is_request (mc m)) eqn:Erq.
  { exfalso. destruct (is_method ($"INVITE") (mc m)), (is_method ($"ACK") (mc m)); intuition discriminate. }
  destruct (is_1xx (mc m)); auto. congruence.
Qed.

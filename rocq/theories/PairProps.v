(** Property C73: a client transaction and a server transaction over a network that may lose,
    repeat, delay and reorder messages. *)
From Coq Require Import String ZArith Ascii Bool List Lia ZifyBool ZifyNat.
From Verif Require Import Base Str StrLemmas Types TimeModel PortModel CloneModel CloneProofs TransModel TransSpec TransProofs TransSteps TransProps TransReports TransServer PairModel PairSpec PairProofs PairInv.
Import ListNotations.
Open Scope Z_scope.

(** Whatever the applications, the network, the clocks and the transport do, no end ever reads
    what it does not have. *)
Theorem C73_no_undefined_behaviour : forall t0 l, client t0 -> exists p, plays (begin t0) l = Ok p.
Proof.
  intros t0 l (Hf & _).
  assert (H : forall l p, inv t0 p -> exists q, plays p l = Ok q).
  { clear l. induction l as [|mv l]; cbn; intros p HI; eauto.
    destruct (play_total _ mv _ Hf HI) as (q & Hq). rewrite Hq. cbn. apply IHl. eapply play_inv; eauto. }
  apply H. apply inv_begin.
Qed.

(** One executed event of a log, and the transaction that executed it. *)
Lemma log_step : forall l t0 t r, run t0 (events l) = Ok (t, outs l) -> In r l ->
  exists l1 l2 t1 z t2, l = l1 ++ r :: l2 /\ run t0 (events l1) = Ok (t1, outs l1) /\
    execute (r_env r) t1 (r_ev r) = Ok (z, t2, r_out r).
Proof.
  induction l as [|a l]; intros t0 t r H Hi; [destruct Hi|].
  cbn [events outs map] in H. apply run_cons in H. destruct H as (z & t1 & o & tr & H1 & H2 & H3).
  injection H3 as <- <-. destruct Hi as [<-|Hi].
  - exists [], l, t0, z, t1. auto.
  - destruct (IHl _ _ _ H2 Hi) as (l1 & l2 & t2 & z' & t3 & E1 & E2 & E3).
    exists (a :: l1), l2, t2, z', t3. subst l. split; auto. split; auto. cbn. rewrite H1. cbn.
    unfold events in E2. rewrite E2. reflexivity.
Qed.

(** What the server says of a request or an ACK: it arrived. *)
Lemma server_told : forall t0 p x, client t0 -> inv t0 p -> In x (did (p_sall p)) -> is_new x = true \/ is_ack_told x = true ->
  exists c m, x = OCb c (Some m) /\ In (mc m) (wire (p_clog p)) /\
    (is_new x = true -> incoming_type (mc m) = opening (t_type t0)) /\
    (is_ack_told x = true -> incoming_type (mc m) = RCV_REQACK).
Proof.
  intros t0 p x Hc HI Hx Hn. destruct (all_lives _ _ HI) as (segs & S1 & _ & S3 & _).
  pose proof (i_ssrc _ _ HI) as Hsrc. rewrite S1 in Hx, Hsrc. apply in_seg in Hx. destruct Hx as (l & Hl & Hx).
  rewrite Forall_forall in S3. destruct (S3 _ Hl) as (ts & HL). destruct (life_server _ _ _ HL) as (t1 & F1 & F2 & F3 & F4).
  apply did_in in Hx. destruct Hx as (r & Hr & Hx).
  destruct (log_step _ _ _ _ F4 Hr) as (l1 & l2 & t2 & z & t3 & E1 & E2 & E3).
  assert (Hty : t_type t2 = server_kind (t_type t0)) by (rewrite (run_type _ _ _ _ E2); auto).
  assert (Hk : server (t_type t2) = true) by (rewrite Hty; apply server_kind_server).
  destruct (exec_new _ _ _ _ _ _ _ Hk E3 Hx Hn) as (c & m & -> & G1 & G2 & G3).
  assert (Eop : opening (t_type t2) = opening (t_type t0)) by (rewrite Hty; destruct (t_type t0); auto).
  rewrite Forall_forall in Hsrc. assert (Hs : source (wire (p_clog p)) (r_ev r)) by (apply Hsrc; apply in_concat; eauto).
  assert (Hrcv : rcv (ev_type (r_ev r)) = true).
  { destruct Hn as [Hn|Hn]; [rewrite (G2 Hn); destruct (t_type t2); auto|destruct (G3 Hn) as (_ & ->); auto]. }
  destruct (source_rcv _ _ Hs Hrcv) as (m' & X1 & X2 & X3 & X4). assert (m' = m) by congruence. subst m'.
  exists c, m. split; auto. split; auto. rewrite <- X4. split; intros H; [rewrite G2; auto|apply G3; auto].
Qed.

(** The client's side of the wire: the request its application handed over, or the ACK. *)
Lemma up_sent : forall t0 p c, client t0 -> inv t0 p -> In c (wire (p_clog p)) ->
  exists m, mc m = c /\
  (handed (p_clog p) m /\ incoming_type c <> RCV_REQACK \/
   exists q r0 r y, handed (p_clog p) q /\ handed (p_sall p) r0 /\ mc r0 = mc r /\
     create_ack (mc q) (mc r) = Some c /\ In y (did (p_clog p)) /\ (final_told r y \/ is_tperr y = true)).
Proof.
  intros t0 p c Hc HI Hw. pose proof Hc as (Hf & Hk).
  destruct (in_wire _ _ Hw) as (m & h & q & i & H1 & H2 & _). exists m. split; auto.
  rewrite did_outs in H1. assert (Hs : server (t_type t0) = false) by (destruct Hk as [-> | ->]; auto).
  pose proof (i_csrc _ _ HI) as Hsrc. rewrite Forall_forall in Hsrc.
  destruct (client_sends _ _ _ _ _ _ _ _ Hf Hs (i_run _ _ HI) H1) as
    [(e & ev & G1 & G2 & G3)|(_ & e & ev & e' & ev' & q0 & r & G1 & G2 & G3 & G4 & G5 & G6 & G7 & x & G8 & G9)].
  - left. apply in_events in G1. destruct G1 as (r & G1 & <-).
    assert (Hsnd : snd_ty (ev_type (r_ev r)) = true) by (destruct G2 as [-> | ->]; auto).
    destruct (source_snd _ _ (Hsrc _ G1) Hsnd) as (m' & X1 & X2 & X3). assert (m' = m) by congruence. subst m'.
    split; [exists r; auto|]. rewrite <- H2, in_out_types, <- X3. destruct G2 as [-> | ->]; discriminate.
  - right. apply in_events in G1. destruct G1 as (r1 & G1 & <-). apply in_events in G4. destruct G4 as (r2 & G4 & <-).
    assert (Hsnd : snd_ty (ev_type (r_ev r1)) = true) by (rewrite G2; auto).
    destruct (source_snd _ _ (Hsrc _ G1) Hsnd) as (m' & X1 & X2 & X3). assert (m' = q0) by congruence. subst m'.
    assert (Hrcv : rcv (ev_type (r_ev r2)) = true) by (rewrite G5; auto).
    destruct (source_rcv _ _ (Hsrc _ G4) Hrcv) as (m' & Y1 & Y2 & Y3 & Y4). assert (m' = r) by congruence. subst m'.
    destruct (in_wire _ _ Y3) as (r0 & h0 & p0 & i0 & Z1 & Z2 & _). destruct (down_handed _ _ _ _ _ _ HI Z1) as (Z3 & _ & _).
    exists q0, r0, r, x. rewrite <- did_outs in G8. rewrite <- H2.
    split; [exists r1; auto|]. split; auto.
Qed.

(** The request the server's application is told of is a request the client's application handed
    over. *)
Theorem C73_request_is_the_clients : forall t0 l p x, reached t0 l p -> In x (did (p_sall p)) -> is_new x = true ->
  exists c m m0, x = OCb c (Some m) /\ handed (p_clog p) m0 /\ mc m = mc m0.
Proof.
  intros t0 l p x HR Hx Hn. pose proof (reached_inv _ _ _ HR) as HI. destruct HR as (Hc & _).
  destruct (server_told _ _ _ Hc HI Hx (or_introl Hn)) as (c & m & -> & Hw & Ht & _). specialize (Ht Hn).
  destruct (up_sent _ _ _ Hc HI Hw) as (m0 & E & [(H1 & H2)|(q & r0 & r & y & _ & _ & _ & H & _)]).
  - exists c, m, m0. auto.
  - exfalso. apply create_ack_method in H. unfold incoming_type in Ht.
    assert (Hr : is_request (mc m) = true) by (unfold is_method in H; apply andb_true_iff in H; tauto).
    apply is_method_iff in H. destruct H as (_ & H). rewrite Hr in Ht.
    assert (HI' : is_method ($"INVITE") (mc m) = false).
    { apply not_true_is_false. intros E'. apply is_method_iff in E'. destruct E' as (_ & E'). rewrite H in E'. discriminate. }
    assert (HA : is_method ($"ACK") (mc m) = true) by (apply is_method_iff; split; auto; unfold is_request in Hr; lia).
    rewrite HI', HA in Ht. destruct (t_type t0); discriminate.
Qed.

Lemma no_forget_gone : forall l p q, Forall no_forget l -> plays p l = Ok q -> p_gone q = p_gone p.
Proof.
  induction l as [|mv l]; cbn; intros p q Hl H; [injection H as <-; auto|]. inversion Hl as [|? ? Hm Hl']; subst.
  destruct (play p mv) as [p1|c|] eqn:E; try discriminate. cbn in H. rewrite (IHl _ _ Hl' H).
  assert (HC : forall e ev p r, client_does e ev p = Ok r -> p_gone r = p_gone p).
  { clear. unfold client_does. intros. destruct (execute _ _ _) as [[[? ?] ?]|?|]; try discriminate. injection H as <-. auto. }
  assert (HS : forall e ev t p r, server_does e ev t p = Ok r -> p_gone r = p_gone p).
  { clear. unfold server_does. intros. destruct (execute _ _ _) as [[[? ?] ?]|?|]; try discriminate. injection H as <-. auto. }
  destruct mv; cbn [play] in E;
    repeat match type of E with context [match ?x with _ => _ end] =>
      match x with context [match _ with _ => _ end] => fail 1 | _ => destruct x; try discriminate E end end;
    try (injection E as <-; reflexivity); eauto; exfalso; apply Hm; reflexivity.
Qed.

(** However many copies of the request arrive, and whenever, the server's application is told of
    a new request once - once more for each server transaction that was removed in between. *)
Theorem C73_request_told_once : forall t0 l p, reached t0 l p ->
  (count is_new (did (p_sall p)) <= 1 + p_gone p)%nat /\
  (Forall no_forget l -> (count is_new (did (p_sall p)) <= 1)%nat).
Proof.
  intros t0 l p HR. pose proof (reached_inv _ _ _ HR) as HI. destruct HR as (Hc & HP).
  assert (H : (count is_new (did (p_sall p)) <= 1 + p_gone p)%nat).
  { destruct (all_lives _ _ HI) as (segs & S1 & S2 & S3 & _). rewrite S1.
    assert (HL : (length segs <= 1 + p_gone p)%nat) by (rewrite S2; destruct (p_server p); lia).
    enough ((count is_new (did (concat segs)) <= length segs)%nat) by lia.
    clear - S3. induction segs as [|l segs]; cbn [concat length]; [unfold count; cbn; lia|].
    inversion S3 as [|? ? (ts & HL) H3]; subst. rewrite did_app, count_app. specialize (IHsegs H3).
    destruct (life_server _ _ _ HL) as (t1 & F1 & F2 & _ & F4). destruct (server_news _ _ _ _ F1 F2 F4) as (N1 & _).
    rewrite <- did_outs in N1. rewrite N1. destruct (rank (t_state ts) =? 0)%nat; lia. }
  split; auto. intros Hn. rewrite (no_forget_gone _ _ _ Hn HP) in H. cbn in H. lia.
Qed.

(** Every answer the client's application is told of was handed over by the server's application,
    which had been told of the request. *)
Theorem C73_answers_are_the_servers : forall t0 l p m x, reached t0 l p -> In x (did (p_clog p)) -> answer_told m x ->
  exists m0 y, handed (p_sall p) m0 /\ mc m0 = mc m /\ In y (did (p_sall p)) /\ is_new y = true.
Proof.
  intros t0 l p m x HR Hx Ht. pose proof (reached_inv _ _ _ HR) as HI. destruct HR as (Hc & _).
  destruct (client_told _ _ _ _ Hc HI Hx Ht) as (r & _ & _ & _ & Hw & _).
  destruct (in_wire _ _ Hw) as (m0 & h & q & i & H1 & H2 & _).
  destruct (down_handed _ _ _ _ _ _ HI H1) as (H3 & _ & y & H4 & H5). exists m0, y. auto.
Qed.

Lemma final_is_answer : forall m x, final_told m x -> answer_told m x.
Proof. intros m x (c & H1 & H2). exists c. split; auto. apply in_or_app. auto. Qed.

(** The client's application is told of one final answer at most. *)
Theorem C73_one_final_told : forall t0 l p, reached t0 l p -> (count is_final_told (did (p_clog p)) <= 1)%nat.
Proof.
  intros t0 l p HR. pose proof (reached_inv _ _ _ HR) as HI. destruct HR as ((Hf & Hk) & _).
  rewrite did_outs. refine (finals_told_once _ _ _ _ Hf _ (i_run _ _ HI)). destruct Hk as [-> | ->]; auto.
Qed.

Lemma is_final_told_iff : forall x, is_final_told x = true <-> exists c m, x = OCb c m /\ In c final_names.
Proof.
  intros x. split.
  - destruct x as [ | c m | | | ]; try discriminate. intros H. exists c, m. split; auto.
    destruct c; try discriminate H; simpl; tauto.
  - intros (c & m & -> & H). simpl in H. repeat (destruct H as [<-|H]; [reflexivity|]). destruct H.
Qed.

(** Both applications hold the same final answer, as long as the server keeps its transaction. *)
Theorem C73_agreement : forall t0 l p m x m' y, reached t0 l p -> Forall no_forget l ->
  In x (did (p_clog p)) -> final_told m x -> In y (did (p_sall p)) -> final_sent m' y -> mc m = mc m'.
Proof.
  intros t0 l p m x m' y HR Hnf Hx Ht Hy Hs. pose proof (reached_inv _ _ _ HR) as HI. destruct HR as (Hc & HP).
  destruct (client_told _ _ _ _ Hc HI Hx (final_is_answer _ _ Ht)) as (r & _ & _ & _ & Hw & H1x). specialize (H1x Ht).
  destruct (in_wire _ _ Hw) as (m0 & h & q & i & H1 & H2 & _).
  destruct (all_lives _ _ HI) as (segs & S1 & _ & S3 & S4). pose proof (no_forget_gone _ _ _ Hnf HP) as Hg.
  specialize (S4 Hg). destruct (p_server p) as [ts|] eqn:Es; subst segs; cbn in S1; rewrite ?app_nil_r in S1.
  2:{ rewrite S1 in Hy. destruct Hy. }
  inversion S3 as [|? ? (ts' & HL) _]; subst. destruct (life_server _ _ _ HL) as (t1 & F1 & F2 & F3 & F4).
  pose proof (i_ssrc _ _ HI) as Hsrc. rewrite S1 in *.
  assert (Hapi : Forall (fun x => api_event (snd x)) (events (p_slog p))).
  { apply Forall_forall. intros [e0 ev0] Hz. apply in_events in Hz. destruct Hz as (r0 & Hz & <-).
    rewrite Forall_forall in Hsrc. eapply source_api. apply Hsrc. auto. }
  assert (H : exists h' q' i', In (OSend m' h' q' i') (did (p_slog p)) /\ is_1xx (mc m') = false).
  { apply did_in in Hy. destruct Hy as (r0 & Hr & Hy).
    destruct (log_step _ _ _ _ F4 Hr) as (l1 & l2 & t2 & z & t3 & E1 & E2 & E3).
    assert (Hapi1 : Forall (fun x => api_event (snd x)) (events l1)).
    { rewrite E1 in Hapi. unfold events in Hapi. rewrite map_app in Hapi. apply Forall_app in Hapi. tauto. }
    destruct (run_server_inv _ _ _ _ F1 F2 Hapi1 E2) as (G1 & G2 & G3 & _).
    assert (Hev : api_event (r_ev r0)) by (rewrite Forall_forall in Hsrc; eapply source_api; apply Hsrc; auto).
    destruct (exec_final_sent _ _ _ _ _ _ _ _ G1 G3 Hev E3 Hy Hs) as ((h' & q' & i' & X) & Y).
    exists h', q', i'. split; auto. apply did_in. eauto. }
  destruct H as (h' & q' & i' & X & Y). rewrite did_outs in X, H1.
  rewrite <- H2 in H1x. destruct (one_final _ _ _ _ _ _ _ _ _ _ _ _ F1 F2 Hapi F4 H1 X H1x Y) as (-> & _). auto.
Qed.

Lemma create_ack_for : forall q r a, create_ack q r = Some a -> ack_for q r a.
Proof.
  intros q r a H. destruct (create_ack_inv _ _ _ H) as (f & t & ci & cs & u & v & H1 & H2 & H3 & H4 & H5 & H6 & H7 & E).
  cbv zeta in E. subst a. constructor; cbn; auto.
  - split; [auto|discriminate].
  - destruct (m_vias q) as [|v0 vs]; [discriminate|]. injection H6 as ->. eauto.
  - destruct cs as [cm cn]. exists cn, cm. auto.
  - destruct (m_status r =? 401), (m_status r =? 407); cbn; auto.
Qed.

(** When the server's application is told of the ACK, the client holds the answer it
    acknowledges: its application was told of it, or that the transport failed. *)
Theorem C73_ack_means_known : forall t0 l p x, reached t0 l p -> In x (did (p_sall p)) -> is_ack_told x = true ->
  exists c m q r0 r y, x = OCb c (Some m) /\ handed (p_clog p) q /\ handed (p_sall p) r0 /\ mc r = mc r0 /\
    ack_for (mc q) (mc r0) (mc m) /\ In y (did (p_clog p)) /\ (final_told r y \/ is_tperr y = true).
Proof.
  intros t0 l p x HR Hx Hn. pose proof (reached_inv _ _ _ HR) as HI. destruct HR as (Hc & _).
  destruct (server_told _ _ _ Hc HI Hx (or_intror Hn)) as (c & m & -> & Hw & _ & Ht). specialize (Ht Hn).
  destruct (up_sent _ _ _ Hc HI Hw) as (m0 & E & [(H1 & H2)|(q & r0 & r & y & H1 & H2 & H3 & H4 & H5 & H6)]); [congruence|].
  exists c, m, q, r0, r, y. rewrite H3. pose proof (create_ack_for _ _ _ H4). tauto.
Qed.

(** C74: what a lost message costs. *)
From Coq Require Import String ZArith Ascii Bool List Lia ZifyBool ZifyNat.
From Verif Require Import Base Str StrLemmas Types TimeModel PortModel CloneModel CloneProofs TransModel TransSpec TransProofs TransSteps TransProps TransReports TransServer PairModel PairSpec PairProofs PairInv PairProps.
Import ListNotations.
Open Scope Z_scope.

(** * Clocks *)

Lemma add_time_sec : forall now ms, tv_ok now -> 0 <= ms -> 0 <= tv_sec (add_gettimeofday now ms).
Proof.
  intros now ms (H1 & H2) Hm. unfold add_gettimeofday. destruct (1000000 <=? ms) eqn:E; cbn.
  - pose proof (Z.div_pos ms 1000). lia.
  - pose proof (Z.quot_pos (tv_usec now + ms * 1000) 1000000). lia.
Qed.

Local Arguments add_gettimeofday : simpl never.

Lemma due_later : forall t x, 0 <= tv_sec (t_start t x) -> exists now, tv_ok now /\ timer_due t x now = true.
Proof.
  intros t x H. exists (TV (tv_sec (t_start t x) + 1) 0). split; [split; cbn; lia|].
  unfold timer_due, timer_gt. cbn. destruct (Z.eqb_spec (tv_sec (t_start t x)) (-1)); [lia|]. cbn.
  destruct (Z.eqb_spec (tv_sec (t_start t x) + 1) (tv_sec (t_start t x))); lia.
Qed.

Definition timed (r : ran) : Prop := tv_ok (e_now (r_env r)).

Lemma plays_clock : forall l p q, Forall clock_ok l -> plays p l = Ok q ->
  Forall timed (p_clog p) -> Forall timed (p_sall p) -> Forall timed (p_clog q) /\ Forall timed (p_sall q).
Proof.
  induction l as [|mv l]; cbn; intros p q Hl H HC HS; [injection H as <-; auto|]. inversion Hl as [|? ? Hm Hl']; subst.
  destruct (play p mv) as [p1|c|] eqn:E; try discriminate. cbn in H.
  assert (DC : forall e ev p1, tv_ok (e_now e) -> client_does e ev p = Ok p1 -> Forall timed (p_clog p1) /\ Forall timed (p_sall p1)).
  { clear - HC HS. unfold client_does. intros e ev p1 He H. destruct (execute _ _ _) as [[[? ?] ?]|?|]; try discriminate.
    injection H as <-. cbn. split; [apply Forall_app; split; auto|exact HS]. }
  assert (DS : forall e ev ts p1, tv_ok (e_now e) -> server_does e ev ts p = Ok p1 -> Forall timed (p_clog p1) /\ Forall timed (p_sall p1)).
  { clear - HC HS. unfold server_does. intros e ev ts p1 He H. destruct (execute _ _ _) as [[[? ?] ?]|?|]; try discriminate.
    injection H as <-. cbn. split; auto. unfold p_sall in *. cbn. rewrite app_assoc. apply Forall_app. split; auto. }
  assert (H1 : Forall timed (p_clog p1) /\ Forall timed (p_sall p1)).
  { destruct mv; cbn [play clock_ok] in E, Hm;
    repeat match type of E with context [match ?x with _ => _ end] =>
      match x with context [match _ with _ => _ end] => fail 1 | _ => destruct x; try discriminate E end end;
    try (injection E as <-; auto; fail); eauto.
    injection E as <-. cbn. split; auto. unfold p_sall in *. cbn. rewrite app_nil_r. auto. }
  destruct H1. eapply IHl; eauto.
Qed.

Lemma reached_clock : forall t0 l p, reached t0 l p -> Forall clock_ok l -> Forall timed (p_clog p) /\ Forall timed (p_sall p).
Proof. intros t0 l p (_ & H) Hl. eapply plays_clock; eauto; constructor. Qed.

(** * The timers that repeat *)

Definition te_inv (t : trans) : Prop :=
  match t_state t with
  | NICT_PRE_TRYING => t_len t TE = T1
  | NICT_TRYING | NICT_PROCEEDING => exists m, t_orig t = Some m /\ (exists q, top_proto (mc m) = Proto q) /\
      (unreliable (mc m) -> 0 < t_len t TE /\ 0 <= tv_sec (t_start t TE))
  | _ => True
  end.

Lemma unreliable_proto : forall m p, unreliable m -> top_proto m = Proto p -> reliable p = false.
Proof. intros m p (q & H1 & H2) H. rewrite H in H1. injection H1 as ->. auto. Qed.

Lemma fresh_len : forall t x, fresh t -> exists p, v_protocol (t_topvia t) = Some p /\ t_len t x = init_len (t_type t) (reliable p) x.
Proof.
  intros t x (k & now & id & m & H). unfold trans_init, res_bind in H.
  destruct (m_call_id m) as [ci|]; try discriminate. destruct (ci_number ci); try discriminate.
  destruct (m_vias m) as [|v vs]; try discriminate.
  destruct (via_clone (Some v)) as [tv|?|] eqn:Ev; try discriminate. apply via_clone_ok in Ev. injection Ev as <-.
  destruct (from_clone (m_from m)) as [fr|?|]; try discriminate.
  destruct (from_clone (m_to m)) as [to|?|]; try discriminate.
  destruct (call_id_clone (Some ci)) as [ci'|?|]; try discriminate.
  destruct (cseq_clone (m_cseq m)) as [cs|?|]; try discriminate.
  destruct (v_protocol v) as [p|] eqn:Ep; [|destruct k; discriminate]. exists p.
  repeat match type of H with context [match ?x with _ => _ end] =>
      match x with context [match _ with _ => _ end] => fail 1 | _ => destruct x; try discriminate H end end;
    injection H as <-; auto.
Qed.

Lemma exec_te : forall e ev t r t' o, t_type t = NICT -> tv_ok (e_now e) -> te_inv t -> execute e t ev = Ok (r, t', o) -> te_inv t'.
Proof.
  intros e ev t r t' o Hk Hn HI H. apply execute_inv in H.
  destruct H as [(-> & _)|(h & Hin & Hh & _)]; auto. rewrite Hk in Hin. unfold te_inv in *.
  table_cases1 Hin; rewrite Hs in HI; 
    unfold nict_snd_request, nict_timeout_e, nict_timeout_f, nict_timeout_k, nict_rcv_1xx, nict_rcv_23456xx, tp_error in Hh;
    cbv zeta in Hh; rewrite ?Hs in Hh;
    try (injection Hh as <- <-; exact I).
  - destruct (ev_sip ev) as [m|]; try discriminate. destruct (e_send e >=? 0); [|injection Hh as <- <-; exact I].
    destruct (top_proto (mc m)) as [| |p] eqn:Ep; try (injection Hh as <- <-; exact I).
    assert (HU : unreliable (mc m) -> reliable p = false) by (intros Hu; eapply unreliable_proto; eauto).
    destruct (e_send e =? 0), (reliable p); cbn in Hh; rewrite ?HI in Hh; cbn in Hh; injection Hh as <- <-;
      proj; exists m; (split; [reflexivity|]); (split; [eauto|]); intros Hu; specialize (HU Hu); try discriminate HU;
      cbn; rewrite HI; (split; [unfold T1; lia|]); apply add_time_sec; auto; unfold T1; lia.
  - destruct HI as (m & Ho & (q & Eq) & HU). cbn in Hh. rewrite Ho in Hh.
    destruct (e_send e <? 0); [injection Hh as <- <-; exact I|]. destruct (e_send e =? 0).
    + rewrite Eq in Hh. injection Hh as <- <-.
      assert (Es : t_state (if reliable q then stop_timer (start_timer (set_len t TE
         (if (if t_len t TE <? T1 then t_len t TE + T1_TCP_PROGRESS else t_len t TE * 2) >? T2 then T2
          else if t_len t TE <? T1 then t_len t TE + T1_TCP_PROGRESS else t_len t TE * 2)) TE (e_now e)) TE else
         start_timer (set_len t TE (if (if t_len t TE <? T1 then t_len t TE + T1_TCP_PROGRESS else t_len t TE * 2) >? T2 then T2
          else if t_len t TE <? T1 then t_len t TE + T1_TCP_PROGRESS else t_len t TE * 2)) TE (e_now e)) = NICT_TRYING)
        by (destruct (reliable q); proj; auto).
      rewrite Es. exists m. split; [destruct (reliable q); auto|]. split; [eauto|]. intros Hu.
      rewrite (unreliable_proto _ _ Hu Eq). destruct (HU Hu) as (U1 & U2). cbn.
      assert (0 < (if (if t_len t TE <? T1 then t_len t TE + T1_TCP_PROGRESS else t_len t TE * 2) >? T2 then T2
          else if t_len t TE <? T1 then t_len t TE + T1_TCP_PROGRESS else t_len t TE * 2)).
      { unfold T1, T2, T1_TCP_PROGRESS. repeat match goal with |- context [if ?b then _ else _] => destruct b eqn:? end; lia. }
      split; auto. apply add_time_sec; auto. lia.
    + injection Hh as <- <-. proj. rewrite Hs. exists m. split; auto. split; [eauto|]. intros Hu. destruct (HU Hu) as (U1 & U2). cbn.
      assert (0 < (if (if t_len t TE <? T1 then t_len t TE + T1_TCP_PROGRESS else t_len t TE * 2) >? T2 then T2
          else if t_len t TE <? T1 then t_len t TE + T1_TCP_PROGRESS else t_len t TE * 2)).
      { unfold T1, T2, T1_TCP_PROGRESS. repeat match goal with |- context [if ?b then _ else _] => destruct b eqn:? end; lia. }
      split; auto. apply add_time_sec; auto. lia.
  - destruct HI as (m & Ho & (q & Eq) & HU). destruct (ev_sip ev) as [x|]; try discriminate. injection Hh as <- <-. proj.
    exists m. cbn. destruct (t_len t TE >? 0) eqn:El; cbn; (split; [auto|]); (split; [eauto|]); intros Hu; destruct (HU Hu); [|split; auto].
    split; [unfold T2; lia|]. apply add_time_sec; auto. unfold T2; lia.
  - destruct (ev_sip ev); try discriminate. injection Hh as <- <-. exact I.
  - destruct (ev_sip ev); try discriminate. injection Hh as <- <-. exact I.
  - destruct HI as (m & Ho & (q & Eq) & HU). cbn in Hh. rewrite Ho in Hh.
    destruct (e_send e <? 0); [injection Hh as <- <-; exact I|]. destruct (e_send e =? 0).
    + rewrite Eq in Hh. injection Hh as <- <-.
      assert (Es : t_state (if reliable q then stop_timer (start_timer (set_len t TE T2) TE (e_now e)) TE else
         start_timer (set_len t TE T2) TE (e_now e)) = NICT_PROCEEDING)
        by (destruct (reliable q); proj; auto).
      rewrite Es. exists m. split; [destruct (reliable q); auto|]. split; [eauto|]. intros Hu.
      rewrite (unreliable_proto _ _ Hu Eq). cbn. split; [unfold T2; lia|]. apply add_time_sec; auto. unfold T2; lia.
    + injection Hh as <- <-. proj. rewrite Hs. exists m. split; auto. split; [eauto|]. intros Hu. cbn.
      split; [unfold T2; lia|]. apply add_time_sec; auto. unfold T2; lia.
  - destruct HI as (m & Ho & (q & Eq) & HU). destruct (ev_sip ev) as [x|]; try discriminate. injection Hh as <- <-. proj.
    exists m. cbn. destruct (t_len t TE >? 0) eqn:El; cbn; (split; [auto|]); (split; [eauto|]); intros Hu; destruct (HU Hu); [|split; auto].
    split; [unfold T2; lia|]. apply add_time_sec; auto. unfold T2; lia.
  - destruct (ev_sip ev); try discriminate. injection Hh as <- <-. exact I.
  - destruct (ev_sip ev); try discriminate. injection Hh as <- <-. exact I.
Qed.

Lemma timed_events : forall l, Forall timed l -> Forall (fun x => tv_ok (e_now (fst x))) (events l).
Proof. intros l H. unfold events. apply Forall_map. exact H. Qed.

Lemma inv_te : forall t0 p, fresh t0 -> t_type t0 = NICT -> inv t0 p -> Forall timed (p_clog p) -> te_inv (p_client p).
Proof.
  intros t0 p Hf Hk HI Hc.
  assert (H : t_type (p_client p) = NICT /\ te_inv (p_client p)); [|tauto].
  refine (run_invariant (fun t => t_type t = NICT /\ te_inv t) (fun x => tv_ok (e_now (fst x))) _ _ t0 _ _ _ (timed_events _ Hc) (i_run _ _ HI)).
  - intros e ev t r t' o (H1 & H2) Hn He. split; [apply execute_identity in He; destruct He as (_ & -> & _); auto|].
    cbn in Hn. eapply exec_te; eauto.
  - split; auto. unfold te_inv. rewrite (fresh_state _ Hf), Hk. cbn. destruct (fresh_len t0 TE Hf) as (q & _ & ->). rewrite Hk. auto.
Qed.

(** * Non-INVITE *)

Definition env0 (now : timeval) : env := mkEnv now 0 0.

(** Only the network and the timers act. *)
Definition by_itself (mv : move) : Prop :=
  match mv with CNet _ _ _ | SNet _ _ _ | CTimer _ _ | STimer _ _ => True | _ => False end.

Lemma sent_request : forall t0 p m, client t0 -> inv t0 p -> t_orig (p_client p) = Some m ->
  handed (p_clog p) m /\
  outgoing_type (mc m) = match t_type t0 with ICT => SND_REQINVITE | _ => SND_REQUEST end /\
  (is_request (mc m) = true -> m_method (mc m) <> None /\ m_uri (mc m) <> None).
Proof.
  intros t0 p m (Hf & Hk) HI Ho.
  set (Q := fun m => exists e ev, In (e, ev) (events (p_clog p)) /\
        ev_type ev = match t_type t0 with ICT => SND_REQINVITE | _ => SND_REQUEST end /\ ev_sip ev = Some m).
  assert (H : t_type (p_client p) = t_type t0 /\ (forall m, t_orig (p_client p) = Some m -> Q m)).
  { refine (run_invariant (fun t => t_type t = t_type t0 /\ forall m, t_orig t = Some m -> Q m)
              (fun x => In x (events (p_clog p))) _ _ t0 _ _ _ _ (i_run _ _ HI)).
    - intros e ev t r t' o (H1 & H2) Hl He. pose proof (execute_identity _ _ _ _ _ _ He) as (_ & Hty & _).
      split; [congruence|]. apply execute_inv in He. destruct He as [(-> & _)|(hh & Hin & Hh & _)]; auto.
      rewrite H1 in Hin. assert (HQ : forall x, ev_type ev = match t_type t0 with ICT => SND_REQINVITE | _ => SND_REQUEST end ->
                         ev_sip ev = Some x -> Q x) by (intros x Hx Hy; exists e, ev; auto).
      clear Hty. destruct Hk as [Hk|Hk]; rewrite Hk in Hin, HQ; clearbody Q; table_cases1 Hin; rewrite He in HQ;
        handler_cases Hh; try discriminate; injection Hh as <- <-; proj; intros rr Hrr;
        first [injection Hrr as <-; auto; fail | apply H2; congruence].
    - split; auto. destruct (fresh_nomsg _ Hf) as (-> & _). discriminate.
    - apply Forall_forall. auto. }
  destruct H as (_ & H). destruct (H _ Ho) as (e & ev & H1 & H2 & H3). apply in_events in H1. destruct H1 as (r & H1 & <-).
  pose proof (i_csrc _ _ HI) as Hsrc. rewrite Forall_forall in Hsrc.
  assert (Hsnd : snd_ty (ev_type (r_ev r)) = true) by (rewrite H2; destruct (t_type t0); auto).
  destruct (source_snd _ _ (Hsrc _ H1) Hsnd) as (m' & X1 & X2 & X3). assert (m' = m) by congruence. subst m'.
  split; [exists r; auto|]. split; [congruence|]. apply (outgoing_facts _ _ X2).
Qed.

Lemma parsed_of : forall m id, (is_request (mc m) = true -> m_method (mc m) <> None /\ m_uri (mc m) <> None) ->
  parsed_event (Msg id (mc m)) = Some (Ev (incoming_type (mc m)) (Some (Msg id (mc m)))).
Proof.
  intros m id H. unfold parsed_event. cbn. destruct (is_request (mc m)); auto.
  destruct (H eq_refl). destruct (m_method (mc m)), (m_uri (mc m)); congruence.
Qed.

Lemma wire_one : forall l e ev o m, flat_map sends o = [m] -> wire (l ++ [mkRan e ev o]) = wire l ++ [m].
Proof. intros. rewrite wire_app. unfold wire at 2. cbn. rewrite H, app_nil_r. auto. Qed.

Lemma nth_end : forall A (l : list A) x, nth_error (l ++ [x]) (length l) = Some x.
Proof. intros. rewrite nth_error_app2, Nat.sub_diag by lia. auto. Qed.

(** The answer the server keeps *)
Lemma kept_answer : forall t0 p ts r, inv t0 p -> p_server p = Some ts -> t_last ts = Some r ->
  handed (p_sall p) r /\ is_answer (outgoing_type (mc r)) = true.
Proof.
  intros t0 p ts r HI Hs Hl. pose proof (i_srv _ _ HI) as HL. rewrite Hs in HL.
  destruct (life_server _ _ _ HL) as (t1 & F1 & F2 & F3 & F4).
  destruct (proj1 (server_says _ _ _ _ F1 F2 F4) _ Hl) as (e & ev & H1 & H2 & H3).
  apply in_events in H1. destruct H1 as (r0 & H1 & <-).
  assert (Hin : In r0 (p_sall p)) by (unfold p_sall; apply in_or_app; auto).
  pose proof (i_ssrc _ _ HI) as Hsrc. rewrite Forall_forall in Hsrc.
  assert (Hsnd : snd_ty (ev_type (r_ev r0)) = true) by (destruct (ev_type (r_ev r0)); try discriminate; auto).
  destruct (source_snd _ _ (Hsrc _ Hin) Hsnd) as (m' & X1 & X2 & X3). assert (m' = r) by congruence. subst m'.
  split; [exists r0; auto|congruence].
Qed.

Lemma inv_answer : forall t0 p ts, inv t0 p -> p_server p = Some ts -> answer_inv ts /\ t_type ts = server_kind (t_type t0).
Proof.
  intros t0 p ts HI Hs. pose proof (i_srv _ _ HI) as HL. rewrite Hs in HL.
  destruct (life_server _ _ _ HL) as (t1 & F1 & F2 & F3 & F4).
  assert (Hapi : Forall (fun x => api_event (snd x)) (events (p_slog p))).
  { apply Forall_forall. intros [e0 ev0] Hz. apply in_events in Hz. destruct Hz as (r0 & Hz & <-).
    pose proof (i_ssrc _ _ HI) as Hsrc. rewrite Forall_forall in Hsrc. eapply source_api. apply Hsrc. unfold p_sall. apply in_or_app. auto. }
  destruct (run_server_inv _ _ _ _ F1 F2 Hapi F4) as (_ & _ & G & _). split; auto. rewrite (run_type _ _ _ _ F4). auto.
Qed.

(** A non-INVITE client still waiting while the server has answered: if everything sent so far is
    lost, timer E, one copy of the request and one copy of the answer bring the answer to the
    client's application. *)
Theorem C74_lost_answer_recovered : forall t0 l p ts, reached t0 l p -> Forall clock_ok l -> t_type t0 = NICT ->
  (forall m, handed (p_clog p) m -> unreliable (mc m)) ->
  t_state (p_client p) = NICT_TRYING \/ t_state (p_client p) = NICT_PROCEEDING ->
  p_server p = Some ts -> t_state ts = NIST_COMPLETED ->
  exists l' p' m x m0, Forall (from_now p) l' /\ Forall by_itself l' /\ plays p l' = Ok p' /\
    In x (did (p_clog p')) /\ final_told m x /\ handed (p_sall p) m0 /\ mc m = mc m0.
Proof.
  intros t0 l p ts HR Hclk Hk HU Hst Hs Hts. pose proof (reached_inv _ _ _ HR) as HI.
  destruct (reached_clock _ _ _ HR Hclk) as (HC & _). destruct HR as (Hc & _).
  pose proof (inv_te _ _ (proj1 Hc) Hk HI HC) as HT.
  assert (HT' : exists m, t_orig (p_client p) = Some m /\ (exists q, top_proto (mc m) = Proto q) /\
      (unreliable (mc m) -> 0 < t_len (p_client p) TE /\ 0 <= tv_sec (t_start (p_client p) TE)))
    by (unfold te_inv in HT; destruct Hst as [E|E]; rewrite E in HT; auto). clear HT.
  destruct HT' as (m & Ho & (q & Eq) & HT). destruct (sent_request _ _ _ Hc HI Ho) as (Hh & Hot & Hrq). rewrite Hk in Hot.
  specialize (HU _ Hh). destruct (HT HU) as (_ & Hsec). pose proof (unreliable_proto _ _ HU Eq) as Hrel.
  destruct (due_later _ _ Hsec) as (now & Hnow & Hdue).
  destruct (inv_answer _ _ _ HI Hs) as (HA & Htys). rewrite Hk in Htys. cbn in Htys.
  unfold answer_inv in HA. rewrite Hts in HA. destruct HA as (r & Hr & H1xx & Hvias).
  destruct (kept_answer _ _ _ _ HI Hs Hr) as (Hhr & Hans).
  pose proof (inv_type _ _ HI) as Hty. rewrite Hk in Hty.
  (* timer E *)
  assert (S1 : exists t1 o1, execute (env0 now) (p_client p) (Ev TIMEOUT_E None) = Ok (1, t1, o1) /\ t_state t1 = t_state (p_client p) /\
               t_type t1 = NICT /\ flat_map sends o1 = [mc m]).
  { unfold execute. cbn [ev_type]. rewrite Hty. cbn [table].
    assert (EL : lookup nict_table (t_state (p_client p)) TIMEOUT_E = Some nict_timeout_e) by (destruct Hst as [-> | ->]; reflexivity).
    rewrite EL. unfold nict_timeout_e. cbn [t_orig start_timer set_len set_start]. rewrite Ho. cbn [e_send env0 Z.ltb Z.eqb Z.compare].
    rewrite Eq, Hrel. cbn. eexists _, _. split; [reflexivity|]. cbn. split; auto. }
  destruct S1 as (t1 & o1 & X1 & Y1 & Z1 & W1).
  assert (P1 : play p (CTimer (env0 now) TE) = Ok (mkPair t1 (p_clog p ++ [mkRan (env0 now) (Ev TIMEOUT_E None) o1]) (p_server p) (p_slog p) (p_past p) (p_gone p))).
  { cbn [play]. cbn [e_now env0]. rewrite Hdue. cbn [timeout_of]. unfold client_does. rewrite X1. reflexivity. }
  set (p1 := mkPair _ _ _ _ _ _) in P1.
  (* the request arrives again *)
  assert (Hin : incoming_type (mc m) = RCV_REQUEST) by (rewrite in_out_types, Hot; auto).
  set (ev2 := Ev RCV_REQUEST (Some (Msg 0 (mc m)))).
  assert (S2 : exists t2 o2, execute (env0 now) ts ev2 = Ok (1, t2, o2) /\ flat_map sends o2 = [mc r]).
  { unfold execute, ev2. cbn [ev_type]. rewrite Htys, Hts. cbn [table lookup find nist_table state_eqb etype_eqb state_num etype_num Nat.eqb andb fst snd].
    unfold nist_rcv_request. cbn [ev_sip]. rewrite Hts. cbn [is_nist_pretrying]. rewrite Hr. unfold snd_xxx.
    destruct (m_vias (mc r)) as [|v vs]; [congruence|]. cbn. eexists _, _. split; [reflexivity|]. reflexivity. }
  destruct S2 as (t2 & o2 & X2 & W2).
  assert (P2 : play p1 (SNet (env0 now) 0 (length (wire (p_clog p)))) =
     Ok (mkPair t1 (p_clog p1) (Some t2) (p_slog p ++ [mkRan (env0 now) ev2 o2]) (p_past p) (p_gone p))).
  { cbn [play]. unfold p1 at 1. cbn [p_clog]. rewrite (wire_one _ _ _ _ _ W1), nth_end.
    rewrite (parsed_of m 0 Hrq), Hin. unfold p1 at 1. cbn [p_server]. rewrite Hs. unfold server_does. fold ev2. rewrite X2. reflexivity. }
  set (p2 := mkPair _ _ _ _ _ _) in P2.
  (* the answer arrives *)
  assert (Hrq3 : is_request (mc r) = true -> m_method (mc r) <> None /\ m_uri (mc r) <> None).
  { intros E. exfalso. unfold outgoing_type in Hans. rewrite E in Hans.
    destruct (is_method ($"INVITE") (mc r)), (is_method ($"ACK") (mc r)); discriminate. }
  assert (Hin3 : incoming_type (mc r) = RCV_STATUS_2XX \/ incoming_type (mc r) = RCV_STATUS_3456XX).
  { unfold incoming_type. destruct (is_request (mc r)) eqn:E.
    - exfalso. unfold outgoing_type in Hans. rewrite E in Hans.
      destruct (is_method ($"INVITE") (mc r)), (is_method ($"ACK") (mc r)); discriminate.
    - rewrite H1xx. destruct (is_2xx (mc r)); auto. }
  set (ev3 := Ev (incoming_type (mc r)) (Some (Msg 0 (mc r)))).
  assert (S3 : exists t3 o3 x, execute (env0 now) t1 ev3 = Ok (1, t3, o3) /\ In x o3 /\ final_told (Msg 0 (mc r)) x).
  { assert (EL : lookup nict_table (t_state t1) (incoming_type (mc r)) = Some nict_rcv_23456xx)
      by (rewrite Y1; destruct Hst as [-> | ->], Hin3 as [-> | ->]; reflexivity).
    unfold execute, ev3. cbn [ev_type].
    destruct Hin3 as [E|E]; rewrite E in *; rewrite Z1; cbn [table]; rewrite EL; unfold nict_rcv_23456xx; cbn [ev_sip ev_type res_bind fst snd].
    - eexists _, _, _. split; [reflexivity|]. split; [apply in_or_app; right; left; reflexivity|].
      exists NICT_STATUS_2XX_RECEIVED. split; auto. simpl. tauto.
    - eexists _, _, _. split; [reflexivity|]. split; [apply in_or_app; right; left; reflexivity|].
      eexists. split; [reflexivity|]. unfold final_cb. cbn [mc]; destruct (is_3xx (mc r)), (is_4xx (mc r)), (is_5xx (mc r)); simpl; tauto. }
  destruct S3 as (t3 & o3 & x & X3 & Ix & Fx).
  assert (P3 : play p2 (CNet (env0 now) 0 (length (wire (p_sall p)))) =
     Ok (mkPair t3 (p_clog p1 ++ [mkRan (env0 now) ev3 o3]) (Some t2) (p_slog p2) (p_past p) (p_gone p))).
  { cbn [play]. assert (EW : wire (p_sall p2) = wire (p_sall p) ++ [mc r]).
    { unfold p_sall, p2. cbn [p_past p_slog]. rewrite app_assoc. apply wire_one. auto. }
    rewrite EW, nth_end. rewrite (parsed_of r 0 Hrq3). fold ev3. unfold client_does. cbn [p_client p2]. rewrite X3. reflexivity. }
  exists [CTimer (env0 now) TE; SNet (env0 now) 0 (length (wire (p_clog p))); CNet (env0 now) 0 (length (wire (p_sall p)))].
  eexists. exists (Msg 0 (mc r)), x, r. split; [repeat constructor|]. split; [repeat constructor|].
  cbn [plays]. rewrite P1. cbn [res_bind]. rewrite P2. cbn [res_bind]. rewrite P3. cbn [res_bind].
  split; [reflexivity|]. split; [|auto]. cbn [p_clog]. rewrite did_app. apply in_or_app. right. cbn. rewrite app_nil_r. auto.
Qed.

(** * INVITE *)

Definition g_inv (t : trans) : Prop :=
  match t_state t with
  | IST_PRE_PROCEEDING | IST_PROCEEDING => t_len t TG = T1
  | IST_COMPLETED => 0 <= tv_sec (t_start t TG) /\ 0 < t_len t TG /\
      exists r, t_last t = Some r /\ outgoing_type (mc r) = SND_STATUS_3456XX
  | _ => True
  end.

Definition typed_out (ev : event) : Prop :=
  snd_ty (ev_type ev) = true -> exists m, ev_sip ev = Some m /\ outgoing_type (mc m) = ev_type ev.

Lemma exec_g : forall e ev t r t' o, t_type t = IST -> tv_ok (e_now e) -> typed_out ev -> g_inv t -> execute e t ev = Ok (r, t', o) -> g_inv t'.
Proof.
  intros e ev t r t' o Hk Hn Ht HI H. apply execute_inv in H.
  destruct H as [(-> & _)|(h & Hin & Hh & _)]; auto. rewrite Hk in Hin. unfold g_inv, typed_out in *.
  table_cases1 Hin; rewrite Hs in HI; rewrite He in Ht;
    unfold ist_rcv_invite, ist_timeout_g, ist_timeout_h, ist_timeout_i, ist_snd_1xx, ist_snd_2xx, ist_snd_3456xx, ist_rcv_ack, tp_error in Hh;
    cbv zeta in Hh; rewrite ?Hs in Hh; cbn [is_ist_preproceeding] in Hh;
    try (destruct (ev_sip ev) as [m|] eqn:Em; try discriminate);
    try (injection Hh as <- <-; exact I).
  - injection Hh as <- <-. auto.
  - destruct (t_last t) as [r0|]; [|injection Hh as <- <-; rewrite Hs; auto].
    destruct (snd_xxx e r0) as (so & i). destruct (negb (i =? 0)); injection Hh as <- <-; proj; rewrite ?Hs; auto.
  - destruct (t_last t) as [r0|] eqn:El; [|injection Hh as <- <-; rewrite Hs; auto; rewrite El; auto].
    destruct (snd_xxx e r0) as (so & i). destruct (negb (i =? 0)); injection Hh as <- <-; proj; rewrite ?Hs; auto. rewrite El. auto.
  - destruct HI as (H1 & H2 & r0 & H3 & H4). cbn in Hh. rewrite H3 in Hh.
    destruct (snd_xxx e r0) as (so & i). destruct (negb (i =? 0)); injection Hh as <- <-; proj; rewrite ?Hs; auto. cbn.
    assert (0 < (if t_len t TG * 2 >? T2 then T2 else t_len t TG * 2)) by (unfold T2; destruct (_ >? _); lia).
    split; [apply add_time_sec; auto; lia|]. split; auto. eauto.
  - destruct HI as (H1 & H2 & r0 & H3 & H4). cbn in Hh. rewrite H3 in Hh.
    destruct (snd_xxx e r0) as (so & i). destruct (negb (i =? 0)); injection Hh as <- <-; proj; rewrite ?Hs; auto. cbn.
    assert (0 < (if t_len t TG * 2 >? T2 then T2 else t_len t TG * 2)) by (unfold T2; destruct (_ >? _); lia).
    split; [apply add_time_sec; auto; lia|]. split; auto. eauto.
  - destruct (snd_xxx e m) as (so & i). destruct (negb (i =? 0)); injection Hh as <- <-; proj; rewrite ?Hs; auto.
  - destruct (snd_xxx e m) as (so & i). destruct (negb (i =? 0)); injection Hh as <- <-; exact I.
  - destruct (snd_xxx e m) as (so & i). destruct (negb (i =? 0)); [injection Hh as <- <-; exact I|].
    cbn in Hh. rewrite HI in Hh. cbn in Hh. injection Hh as <- <-. proj. cbn. rewrite HI.
    split; [apply add_time_sec; auto; unfold T1; lia|]. split; [unfold T1; lia|]. exists m. split; auto.
    destruct (Ht eq_refl) as (m' & E & E'). congruence.
Qed.

(** The request that made the server transaction was handed over by the client's application. *)
Lemma made_by : forall t0 p l ts, client t0 -> inv t0 p -> life (t_type t0) l ts -> incl l (p_sall p) ->
  exists m now t1, handed (p_clog p) m /\ trans_init (server_kind (t_type t0)) now 0 (Some (mc m)) = Ok t1 /\
    fresh t1 /\ run t1 (events l) = Ok (ts, outs l).
Proof.
  intros t0 p l ts Hc HI (t1 & r & l' & F1 & F2 & F3 & -> & F5 & now & m & F6 & F7) Hin.
  pose proof (i_ssrc _ _ HI) as Hsrc. rewrite Forall_forall in Hsrc. specialize (Hsrc r (Hin _ (or_introl eq_refl))).
  assert (Hrcv : rcv (ev_type (r_ev r)) = true) by (rewrite F5; destruct Hc as (_ & [-> | ->]); auto).
  destruct (source_rcv _ _ Hsrc Hrcv) as (m1 & X1 & X2 & X3 & X4). assert (m1 = m) by congruence. subst m1.
  destruct (up_sent _ _ _ Hc HI X3) as (m0 & E & [(H1 & H2)|(q & r0 & r1 & y & _ & _ & _ & H & _)]).
  - exists m0, now, t1. rewrite E. auto.
  - exfalso. apply create_ack_method in H. rewrite X4 in F5. unfold incoming_type in F5.
    assert (Hr : is_request (mc m) = true) by (unfold is_method in H; apply andb_true_iff in H; tauto).
    apply is_method_iff in H. destruct H as (_ & H). rewrite Hr in F5.
    assert (HI' : is_method ($"INVITE") (mc m) = false).
    { apply not_true_is_false. intros E'. apply is_method_iff in E'. destruct E' as (_ & E'). rewrite H in E'. discriminate. }
    assert (HA : is_method ($"ACK") (mc m) = true) by (apply is_method_iff; split; auto; unfold is_request in Hr; lia).
    rewrite HI', HA in F5. destruct Hc as (_ & [Hk|Hk]); rewrite Hk in F5; discriminate.
Qed.

Lemma init_topvia : forall k now id m t, trans_init k now id (Some m) = Ok t -> exists v vs, m_vias m = v :: vs /\ t_topvia t = v /\ t_type t = k.
Proof.
  intros k now id m t H. unfold trans_init, res_bind in H.
  destruct (m_call_id m) as [ci|]; try discriminate. destruct (ci_number ci); try discriminate.
  destruct (m_vias m) as [|v vs]; try discriminate. exists v, vs. split; auto.
  destruct (via_clone (Some v)) as [tv|?|] eqn:Ev; try discriminate. apply via_clone_ok in Ev. injection Ev as <-.
  destruct (from_clone (m_from m)) as [fr|?|]; try discriminate.
  destruct (from_clone (m_to m)) as [to|?|]; try discriminate.
  destruct (call_id_clone (Some ci)) as [ci'|?|]; try discriminate.
  destruct (cseq_clone (m_cseq m)) as [cs|?|]; try discriminate.
  destruct (v_protocol v) as [p|] eqn:Ep; [|destruct k; discriminate].
  repeat match type of H with context [match ?x with _ => _ end] =>
      match x with context [match _ with _ => _ end] => fail 1 | _ => destruct x; try discriminate H end end;
    injection H as <-; auto.
Qed.

Lemma source_typed : forall w ev, source w ev -> typed_out ev.
Proof. intros w ev H Hs. destruct (source_snd _ _ H Hs) as (m & H1 & H2 & H3). eauto. Qed.

Lemma inv_g : forall t0 p ts, client t0 -> t_type t0 = ICT -> inv t0 p -> Forall timed (p_sall p) ->
  (forall m, handed (p_clog p) m -> unreliable (mc m)) -> p_server p = Some ts -> g_inv ts.
Proof.
  intros t0 p ts Hc Hk HI Ht HU Hs. pose proof (i_srv _ _ HI) as HL. rewrite Hs in HL.
  assert (Hsub : incl (p_slog p) (p_sall p)) by (unfold p_sall; intros z Hz; apply in_or_app; auto).
  destruct (made_by _ _ _ _ Hc HI HL Hsub) as (m & now & t1 & H1 & H2 & H3 & H4).
  rewrite Hk in H2. destruct (init_topvia _ _ _ _ _ H2) as (v & vs & V1 & V2 & V3). cbn in V3.
  assert (H : t_type ts = IST /\ g_inv ts); [|tauto].
  refine (run_invariant (fun t => t_type t = IST /\ g_inv t) (fun x => tv_ok (e_now (fst x)) /\ typed_out (snd x)) _ _ t1 _ _ _ _ H4).
  - intros e ev t r t' o (G1 & G2) (Hn & Hty) He. split; [apply execute_identity in He; destruct He as (_ & -> & _); auto|].
    cbn in Hn, Hty. eapply exec_g; eauto.
  - split; auto. unfold g_inv. rewrite (fresh_state _ H3), V3. cbn. destruct (fresh_len t1 TG H3) as (q & E1 & ->). rewrite V3. cbn.
    destruct (HU _ H1) as (q' & U1 & U2). unfold top_proto in U1. rewrite V1 in U1. rewrite V2 in E1. cbn in U1. rewrite E1 in U1.
    injection U1 as ->. rewrite U2. auto.
  - apply Forall_forall. intros [e ev] Hin. apply in_map_iff in Hin. destruct Hin as (r & Er & Hr). injection Er as <- <-. cbn.
    specialize (Hsub _ Hr). split; [rewrite Forall_forall in Ht; apply Ht; auto|].
    pose proof (i_ssrc _ _ HI) as Hsrc. rewrite Forall_forall in Hsrc. eapply source_typed. eauto.
Qed.

(** A client in COMPLETED has told its application, and keeps the ACK. *)
Lemma completed_told : forall t0 p, fresh t0 -> t_type t0 = ICT -> inv t0 p -> t_state (p_client p) = ICT_COMPLETED ->
  (exists m x, In x (did (p_clog p)) /\ final_told m x) /\
  (exists a q r, t_ack (p_client p) = Some a /\ create_ack q r = Some (mc a)).
Proof.
  intros t0 p Hf Hk HI Hst.
  set (P := fun (t : trans) (acc : list out) => t_type t = ICT /\ (t_state t = ICT_COMPLETED ->
     (exists m x, In x acc /\ final_told m x) /\ (exists a q r, t_ack t = Some a /\ create_ack q r = Some (mc a)))).
  assert (H : P (p_client p) ([] ++ concat (outs (p_clog p)))).
  { refine (run_trace_inv P (fun _ => True) _ _ t0 _ _ [] _ (forall_any _ _) (i_run _ _ HI)).
    - intros e ev t1 r t2 o acc (H1 & H2) _ He.
      pose proof (execute_identity _ _ _ _ _ _ He) as (_ & Hty & _). split; [congruence|]. intros E.
      apply execute_inv in He. destruct He as [(-> & _)|(h & Hin & Hh & _)].
      + destruct (H2 E) as ((m & x & X1 & X2) & X3). split; auto. exists m, x. rewrite in_app_iff. auto.
      + rewrite H1 in Hin. clear Hty.
        table_cases1 Hin; try (unfold ict_rcv_3456xx, tp_error in Hh; cbv zeta in Hh; rewrite ?Hs in Hh);
          handler_cases Hh; try discriminate; injection Hh as <- <-; proj; cbn in E; try discriminate E; try congruence.
        all: try match goal with Hm : ev_sip ?ee = Some ?m |- _ =>
          split; [exists m; eexists; (split; [rewrite !in_app_iff; simpl; right; right; left; reflexivity|]);
            eexists; (split; [reflexivity|]); unfold final_cb; destruct (is_3xx (mc m)), (is_4xx (mc m)), (is_5xx (mc m)); simpl; tauto|] end.
        all: try (eexists _, _, _; split; [reflexivity|eassumption]).
        destruct (H2 Hs) as ((mm & x & X1 & X2) & X3). split; [|rewrite Heqo1; exact X3]. exists mm, x. split; [apply in_or_app; auto|exact X2].
    - split; auto. intros E. rewrite (fresh_state _ Hf), Hk in E. discriminate. }
  destruct H as (_ & H). cbn [app] in H. destruct (H Hst) as ((m & x & H1 & H2) & H3). split; auto. exists m, x. rewrite did_outs. auto.
Qed.

Lemma state_cases : forall s, s = ICT_COMPLETED \/ s <> ICT_COMPLETED.
Proof. destruct s; auto; right; discriminate. Qed.

Lemma ack_type : forall q r a, create_ack q r = Some a ->
  incoming_type a = RCV_REQACK /\ m_method a <> None /\ m_uri a <> None.
Proof.
  intros q r a H. destruct (create_ack_inv _ _ _ H) as (f & t & ci & cs & u & v & H1 & H2 & H3 & H4 & H5 & H6 & H7 & E).
  cbv zeta in E. subst a. cbn. split; [reflexivity|]. split; discriminate.
Qed.

(** The messages both applications hand over carry what an ACK is made of. *)
Definition can_ack (p : pair) : Prop :=
  (forall q, handed (p_clog p) q -> complete_request (mc q)) /\ (forall r, handed (p_sall p) r -> complete_response (mc r)).

(** An INVITE refused over an unreliable transport: if everything sent so far is lost, timer G,
    one copy of the answer and one copy of the ACK bring the answer to the client's application
    and the ACK to the server's. *)
Theorem C74_lost_refusal_or_ack_recovered : forall t0 l p ts, reached t0 l p -> Forall clock_ok l -> t_type t0 = ICT ->
  (forall m, handed (p_clog p) m -> unreliable (mc m)) -> can_ack p ->
  t_state (p_client p) = ICT_CALLING \/ t_state (p_client p) = ICT_PROCEEDING \/ t_state (p_client p) = ICT_COMPLETED ->
  p_server p = Some ts -> t_state ts = IST_COMPLETED ->
  exists l' p', Forall (from_now p) l' /\ Forall by_itself l' /\ plays p l' = Ok p' /\
    (exists m x, In x (did (p_clog p')) /\ final_told m x) /\
    (exists y, In y (did (p_sall p')) /\ is_ack_told y = true).
Proof.
  intros t0 l p ts HR Hclk Hk HU (HQ & HA) Hst Hs Hts. pose proof (reached_inv _ _ _ HR) as HI.
  destruct (reached_clock _ _ _ HR Hclk) as (_ & HC). destruct HR as (Hc & _).
  pose proof (inv_g _ _ _ Hc Hk HI HC HU Hs) as HG. unfold g_inv in HG. rewrite Hts in HG.
  destruct HG as (Hsec & _ & r & Hr & Hout). destruct (kept_answer _ _ _ _ HI Hs Hr) as (Hhr & _).
  destruct (inv_answer _ _ _ HI Hs) as (HV & Htys). rewrite Hk in Htys. cbn in Htys.
  unfold answer_inv in HV. rewrite Hts in HV. destruct HV as (r' & Hr' & _ & Hvias). assert (r' = r) by congruence. subst r'.
  destruct (due_later _ _ Hsec) as (now & Hnow & Hdue).
  pose proof (inv_type _ _ HI) as Hty. rewrite Hk in Hty.
  (* timer G *)
  assert (S1 : exists t1 o1, execute (env0 now) ts (Ev TIMEOUT_G None) = Ok (1, t1, o1) /\ t_state t1 = IST_COMPLETED /\
               t_type t1 = IST /\ flat_map sends o1 = [mc r]).
  { unfold execute. cbn [ev_type]. rewrite Htys, Hts. cbn [table lookup find ist_table state_eqb etype_eqb state_num etype_num Nat.eqb andb fst snd].
    unfold ist_timeout_g. cbn [t_last start_timer set_len set_start]. rewrite Hr. unfold snd_xxx.
    destruct (m_vias (mc r)) as [|v vs]; [congruence|]. cbn. eexists _, _. split; [reflexivity|]. cbn. auto. }
  destruct S1 as (t1 & o1 & X1 & Y1 & Z1 & W1).
  assert (P1 : play p (STimer (env0 now) TG) = Ok (mkPair (p_client p) (p_clog p) (Some t1) (p_slog p ++ [mkRan (env0 now) (Ev TIMEOUT_G None) o1]) (p_past p) (p_gone p))).
  { cbn [play]. rewrite Hs. cbn [e_now env0]. rewrite Hdue. cbn [timeout_of]. unfold server_does. rewrite X1. reflexivity. }
  set (p1 := mkPair _ _ _ _ _ _) in P1.
  (* the answer arrives *)
  assert (Hin : incoming_type (mc r) = RCV_STATUS_3456XX) by (rewrite in_out_types, Hout; auto).
  assert (Hrq : is_request (mc r) = true -> m_method (mc r) <> None /\ m_uri (mc r) <> None).
  { intros E. exfalso. unfold outgoing_type in Hout. rewrite E in Hout.
    destruct (is_method ($"INVITE") (mc r)), (is_method ($"ACK") (mc r)); discriminate. }
  set (ev2 := Ev RCV_STATUS_3456XX (Some (Msg 0 (mc r)))).
  assert (Hapi : Forall (fun x => api_event (snd x)) (events (p_clog p))).
  { apply Forall_forall. intros [e0 ev0] Hz. apply in_events in Hz. destruct Hz as (r0 & Hz & <-).
    pose proof (i_csrc _ _ HI) as Hsrc. rewrite Forall_forall in Hsrc. eapply source_api. apply Hsrc. auto. }
  assert (S2 : exists t2 o2 a, execute (env0 now) (p_client p) ev2 = Ok (1, t2, o2) /\ flat_map sends o2 = [a] /\
     (exists q r0, create_ack q r0 = Some a) /\ ((exists m x, In x (did (p_clog p)) /\ final_told m x) \/ exists m x, In x o2 /\ final_told m x)).
  { assert (Hcc : t_state (p_client p) = ICT_CALLING \/ t_state (p_client p) = ICT_PROCEEDING \/ t_state (p_client p) = ICT_COMPLETED) by auto.
    destruct (state_cases (t_state (p_client p))) as [E|E].
    - destruct (completed_told _ _ (proj1 Hc) Hk HI E) as (T1' & a & q & r0 & A1 & A2).
      exists (set_state (p_client p) ICT_COMPLETED). eexists. exists (mc a).
      unfold execute, ev2. cbn [ev_type]. rewrite Hty, E. cbn [table lookup find ict_table state_eqb etype_eqb state_num etype_num Nat.eqb andb fst snd].
      unfold ict_retransmit_ack. cbn [ev_sip]. rewrite A1. cbn. split; [reflexivity|]. split; [reflexivity|]. split; eauto.
    - assert (Ho : exists q, t_orig (p_client p) = Some q).
      { assert (HH : holds (fun _ => True) (p_client p)).
        { eapply run_holds; [exact (proj1 Hc)| |exact (i_run _ _ HI)]. eapply Forall_impl; [|exact Hapi]. intros x Hx. split; [exact Hx|]. intros m _. destruct (ev_type (snd x)); exact I. }
        unfold holds in HH. destruct Hst as [Es|[Es|Es]]; rewrite Es in HH; [| |congruence]; destruct HH as (q & Hq & _); eauto. }
      destruct Ho as (q & Hq). destruct (sent_request _ _ _ Hc HI Hq) as (Hhq & _).
      destruct (create_ack_some _ _ (HQ _ Hhq) (HA _ Hhr)) as (a & Ha).
      assert (EL : lookup ict_table (t_state (p_client p)) RCV_STATUS_3456XX = Some ict_rcv_3456xx)
        by (destruct Hst as [-> |[-> |Es]]; [reflexivity|reflexivity|congruence]).
      unfold execute, ev2. cbn [ev_type]. rewrite Hty. cbn [table]. rewrite EL. unfold ict_rcv_3456xx. cbn [ev_sip].
      cbv zeta. replace (is_ict_completed _) with false by (cbn; destruct (t_state (p_client p)); auto; congruence).
      cbn [t_orig set_last]. rewrite Hq. cbn [mc]. rewrite Ha. cbn [e_send env0 Z.eqb negb].
      eexists _, _, a. split; [reflexivity|]. split.
      { cbn [snd]. rewrite !flat_map_app. destruct (t_last (p_client p)); reflexivity. }
      split; [eauto|]. right. exists (Msg 0 (mc r)). eexists. split; [cbn [snd]; apply in_or_app; right; left; reflexivity|].
      eexists. split; [reflexivity|]. unfold final_cb. cbn [mc]. destruct (is_3xx (mc r)), (is_4xx (mc r)), (is_5xx (mc r)); simpl; tauto. }
  destruct S2 as (t2 & o2 & a & X2 & W2 & (q & r0 & Ha) & Htold).
  assert (P2 : play p1 (CNet (env0 now) 0 (length (wire (p_sall p)))) =
     Ok (mkPair t2 (p_clog p ++ [mkRan (env0 now) ev2 o2]) (Some t1) (p_slog p1) (p_past p) (p_gone p))).
  { cbn [play]. assert (EW : wire (p_sall p1) = wire (p_sall p) ++ [mc r]).
    { unfold p_sall, p1. cbn [p_past p_slog]. rewrite app_assoc. apply wire_one. auto. }
    rewrite EW, nth_end. rewrite (parsed_of r 0 Hrq), Hin. fold ev2. unfold client_does. cbn [p_client p1]. rewrite X2. reflexivity. }
  set (p2 := mkPair _ _ _ _ _ _) in P2.
  (* the ACK arrives *)
  destruct (ack_type _ _ _ Ha) as (Hat & Hrq3).
  set (ev3 := Ev RCV_REQACK (Some (Msg 0 a))).
  assert (S3 : exists t3 o3 y, execute (env0 now) t1 ev3 = Ok (1, t3, o3) /\ In y o3 /\ is_ack_told y = true).
  { unfold execute, ev3. cbn [ev_type]. rewrite Z1, Y1. cbn [table lookup find ist_table state_eqb etype_eqb state_num etype_num Nat.eqb andb fst snd].
    unfold ist_rcv_ack. cbn [ev_sip]. cbv zeta. replace (is_ist_completed _) with true by (cbn; rewrite Y1; auto).
    eexists _, _, _. split; [reflexivity|]. split; [cbn [snd]; apply in_or_app; right; left; reflexivity|reflexivity]. }
  destruct S3 as (t3 & o3 & y & X3 & Iy & Fy).
  assert (P3 : play p2 (SNet (env0 now) 0 (length (wire (p_clog p)))) =
     Ok (mkPair t2 (p_clog p2) (Some t3) (p_slog p1 ++ [mkRan (env0 now) ev3 o3]) (p_past p) (p_gone p))).
  { cbn [play]. unfold p2 at 1. cbn [p_clog]. rewrite (wire_one _ _ _ _ _ W2), nth_end.
    pose proof (parsed_of (Msg 0 a) 0 (fun _ => Hrq3)) as EP. cbn [mc] in EP. rewrite EP, Hat. fold ev3.
    unfold p2 at 1. cbn [p_server]. unfold server_does. rewrite X3. reflexivity. }
  exists [STimer (env0 now) TG; CNet (env0 now) 0 (length (wire (p_sall p))); SNet (env0 now) 0 (length (wire (p_clog p)))].
  eexists. split; [repeat constructor|]. split; [repeat constructor|].
  cbn [plays]. rewrite P1. cbn [res_bind]. rewrite P2. cbn [res_bind]. rewrite P3. cbn [res_bind].
  split; [reflexivity|]. cbn [p_clog p2]. split.
  - destruct Htold as [(m & x & M1 & M2)|(m & x & M1 & M2)]; exists m, x; (split; [|auto]); rewrite did_app; apply in_or_app; [auto|].
    right. cbn. rewrite app_nil_r. auto.
  - exists y. split; auto. unfold p_sall. cbn [p_past p_slog]. rewrite app_assoc, did_app. apply in_or_app. right. cbn. rewrite app_nil_r. auto.
Qed.

(** * The request *)

(** The client transaction was created by a clock that is in range. *)
Definition timely (t0 : trans) : Prop := exists k now id m, tv_ok now /\ trans_init k now id m = Ok t0.

(** What a server transaction is made of. *)
Definition openable (m : message) : Prop := complete_request m /\ complete_response m.

Definition ta_inv (t : trans) : Prop :=
  match t_state t with
  | ICT_PRE_CALLING => 0 < t_len t TA /\ 0 <= tv_sec (t_start t TA)
  | ICT_CALLING => exists m, t_orig t = Some m /\ (unreliable (mc m) -> 0 < t_len t TA /\ 0 <= tv_sec (t_start t TA))
  | _ => True
  end.

Lemma exec_ta : forall e ev t r t' o, t_type t = ICT -> tv_ok (e_now e) -> ta_inv t -> execute e t ev = Ok (r, t', o) -> ta_inv t'.
Proof.
  intros e ev t r t' o Hk Hn HI H. apply execute_inv in H.
  destruct H as [(-> & _)|(h & Hin & Hh & _)]; auto. rewrite Hk in Hin. unfold ta_inv in *.
  table_cases1 Hin; rewrite Hs in HI.
  - unfold ict_snd_invite, tp_error in Hh. destruct (ev_sip ev) as [m|]; try discriminate. cbv zeta in Hh.
    destruct (e_send e <? 0); [injection Hh as <- <-; exact I|]. destruct (e_send e =? 0).
    + destruct (top_proto (mc m)) as [| |q] eqn:Eq; try (injection Hh as <- <-; exact I). injection Hh as <- <-.
      assert (Es : forall b, t_orig (if reliable b then stop_timer (set_orig t (Some m)) TA else set_orig t (Some m)) = Some m)
        by (intros b; destruct (reliable b); auto).
      proj. exists m. split; [apply Es|]. intros Hu. rewrite (unreliable_proto _ _ Hu Eq). exact HI.
    + injection Hh as <- <-. proj. exists m. auto.
  - destruct HI as (m & Ho & HU). unfold ict_timeout_a, tp_error in Hh. cbv zeta in Hh. cbn in Hh. rewrite Ho in Hh.
    destruct (e_send e <? 0); [injection Hh as <- <-; exact I|].
    assert (HH : unreliable (mc m) -> 0 < t_len t TA * 2 /\ 0 <= tv_sec (add_gettimeofday (e_now e) (t_len t TA * 2))).
    { intros Hu. destruct (HU Hu). split; [lia|]. apply add_time_sec; auto. lia. }
    destruct (e_send e =? 0).
    + destruct (top_proto (mc m)) as [| |q] eqn:Eq; try (injection Hh as <- <-; exact I). injection Hh as <- <-.
      destruct (reliable q) eqn:Er; cbn; rewrite Hs; exists m; (split; [auto|]); intros Hu.
      * rewrite (unreliable_proto _ _ Hu Eq) in Er. discriminate.
      * auto.
    + injection Hh as <- <-. cbn. rewrite Hs. exists m. auto.
  - handler_cases Hh; injection Hh as <- <-; exact I.
  - handler_cases Hh; try discriminate; injection Hh as <- <-; exact I.
  - handler_cases Hh; try discriminate; injection Hh as <- <-; exact I.
  - handler_cases Hh; try discriminate; injection Hh as <- <-; exact I.
  - handler_cases Hh; try discriminate; injection Hh as <- <-; exact I.
  - handler_cases Hh; try discriminate; injection Hh as <- <-; exact I.
  - handler_cases Hh; try discriminate; injection Hh as <- <-; exact I.
  - handler_cases Hh; try discriminate; injection Hh as <- <-; exact I.
  - handler_cases Hh; try discriminate; injection Hh as <- <-; exact I.
Qed.

Lemma timely_start : forall t0, timely t0 -> t_type t0 = ICT -> 0 <= tv_sec (t_start t0 TA).
Proof.
  intros t0 (k & now & id & m & Hn & H) Hk. unfold trans_init, res_bind in H. destruct m as [m|]; [|discriminate].
  destruct (m_call_id m) as [ci|]; try discriminate. destruct (ci_number ci); try discriminate.
  destruct (m_vias m) as [|v vs]; try discriminate.
  destruct (via_clone (Some v)) as [tv|?|] eqn:Ev; try discriminate.
  destruct (from_clone (m_from m)) as [fr|?|]; try discriminate.
  destruct (from_clone (m_to m)) as [to|?|]; try discriminate.
  destruct (call_id_clone (Some ci)) as [ci'|?|]; try discriminate.
  destruct (cseq_clone (m_cseq m)) as [cs|?|]; try discriminate.
  destruct (v_protocol v) as [p|] eqn:Ep; [|destruct k; discriminate].
  assert (E : exists a b c d f g h i j kk, t0 = mkT a k b c d f g h (init_len k i) (init_start k now) j kk to ci' cs).
  { repeat match type of H with context [match ?x with _ => _ end] =>
      match x with context [match _ with _ => _ end] => fail 1 | _ => destruct x; try discriminate H end end;
    injection H as <-; do 10 eexists; reflexivity. }
  destruct E as (a & b & c & d & f & g & h & i & j & kk & ->). cbn in Hk. subst k. cbn.
  apply add_time_sec; auto. unfold T1. lia.
Qed.

Lemma inv_ta : forall t0 p, fresh t0 -> timely t0 -> t_type t0 = ICT -> inv t0 p -> Forall timed (p_clog p) -> ta_inv (p_client p).
Proof.
  intros t0 p Hf Htm Hk HI Hc.
  assert (H : t_type (p_client p) = ICT /\ ta_inv (p_client p)); [|tauto].
  refine (run_invariant (fun t => t_type t = ICT /\ ta_inv t) (fun x => tv_ok (e_now (fst x))) _ _ t0 _ _ _ (timed_events _ Hc) (i_run _ _ HI)).
  - intros e ev t r t' o (H1 & H2) Hn He. split; [apply execute_identity in He; destruct He as (_ & -> & _); auto|].
    cbn in Hn. eapply exec_ta; eauto.
  - split; auto. unfold ta_inv. rewrite (fresh_state _ Hf), Hk. cbn. destruct (fresh_len t0 TA Hf) as (q & _ & ->). rewrite Hk. cbn.
    split; [unfold T1; lia|]. apply timely_start; auto.
Qed.

Lemma init_total : forall k now m, openable m -> exists t, trans_init (server_kind k) now 0 (Some m) = Ok t.
Proof.
  intros k now m (H4 & (f & F1 & F2) & (tt & T1' & T2') & (ci & C1 & C2) & (c & D1 & D2 & D3)).
  destruct H4 as (V1 & (u & U1 & U2) & (v & vs & V2 & V3 & V4 & V5) & V6).
  unfold trans_init. rewrite C1. destruct (ci_number ci) eqn:E; [|congruence]. rewrite V2.
  rewrite (via_clone_total v V3 V4 V5). cbn [res_bind]. rewrite F1, (from_clone_total f F2). cbn [res_bind].
  rewrite T1', (from_clone_total tt T2'). cbn [res_bind].
  unfold call_id_clone. rewrite E. cbn [res_bind].
  rewrite D1. unfold cseq_clone. destruct (cs_method c); [|congruence]. destruct (cs_number c); [|congruence]. cbn [res_bind].
  destruct (v_protocol v); [|congruence]. destruct k; cbn; eexists; reflexivity.
Qed.

(** As long as the client waits and no server transaction exists, timer A or E and one copy of the
    request bring the request to the server's application. *)
Theorem C74_lost_request_recovered : forall t0 l p, reached t0 l p -> Forall clock_ok l -> timely t0 ->
  (forall m, handed (p_clog p) m -> unreliable (mc m) /\ openable (mc m)) ->
  t_state (p_client p) = ICT_CALLING \/ t_state (p_client p) = NICT_TRYING \/ t_state (p_client p) = NICT_PROCEEDING ->
  p_server p = None ->
  exists l' p' x, Forall (from_now p) l' /\ Forall by_itself l' /\ plays p l' = Ok p' /\
    In x (did (p_slog p')) /\ is_new x = true.
Proof.
  intros t0 l p HR Hclk Htm HU Hst Hs. pose proof (reached_inv _ _ _ HR) as HI.
  destruct (reached_clock _ _ _ HR Hclk) as (HC & _). destruct HR as (Hc & _).
  pose proof (inv_type _ _ HI) as Hty.
  assert (Hk : t_state (p_client p) = ICT_CALLING /\ t_type t0 = ICT \/
               (t_state (p_client p) = NICT_TRYING \/ t_state (p_client p) = NICT_PROCEEDING) /\ t_type t0 = NICT).
  { assert (Htyped : typed (p_client p)) by (eapply run_typed; [exact (proj1 Hc)|exact (i_run _ _ HI)]).
    unfold typed in Htyped. rewrite Hty in Htyped. destruct Hc as (_ & [Hk|Hk]); rewrite Hk in *;
    destruct Hst as [E|[E|E]]; rewrite E in *; auto; discriminate. }
  assert (HT : exists m x, t_orig (p_client p) = Some m /\ (x = TA /\ t_type t0 = ICT \/ x = TE /\ t_type t0 = NICT) /\
     (unreliable (mc m) -> 0 <= tv_sec (t_start (p_client p) x))).
  { destruct Hk as [(E & Hk)|(E & Hk)].
    - pose proof (inv_ta _ _ (proj1 Hc) Htm Hk HI HC) as HT. unfold ta_inv in HT. rewrite E in HT.
      destruct HT as (m & Ho & HT). exists m, TA. split; auto. split; auto. intros Hu. apply (HT Hu).
    - pose proof (inv_te _ _ (proj1 Hc) Hk HI HC) as HT. unfold te_inv in HT.
      assert (HT' : exists m, t_orig (p_client p) = Some m /\ (exists q, top_proto (mc m) = Proto q) /\
        (unreliable (mc m) -> 0 < t_len (p_client p) TE /\ 0 <= tv_sec (t_start (p_client p) TE)))
        by (destruct E as [E|E]; rewrite E in HT; auto).
      destruct HT' as (m & Ho & _ & HT'). exists m, TE. split; auto. split; auto. intros Hu. apply (HT' Hu). }
  destruct HT as (m & x & Ho & Hx & HT). destruct (sent_request _ _ _ Hc HI Ho) as (Hh & Hot & Hrq).
  destruct (HU _ Hh) as (Hu & Hop). specialize (HT Hu). destruct Hu as (q & Eq & Hrel).
  destruct (due_later _ _ HT) as (now & Hnow & Hdue).
  assert (S1 : exists t1 o1, execute (env0 now) (p_client p) (Ev (timeout_of x) None) = Ok (1, t1, o1) /\
               t_type t1 = t_type t0 /\ flat_map sends o1 = [mc m]).
  { unfold execute. rewrite Hty. destruct Hx as [(-> & Hx)|(-> & Hx)]; rewrite Hx in *; cbn [timeout_of ev_type table].
    - destruct Hk as [(E & _)|(_ & E)]; [|discriminate]. rewrite E.
      cbn [lookup find ict_table state_eqb etype_eqb state_num etype_num Nat.eqb andb fst snd].
      unfold ict_timeout_a. cbn [t_orig start_timer set_len set_start]. rewrite Ho. cbn [e_send env0 Z.ltb Z.eqb Z.compare].
      rewrite Eq, Hrel. cbn. eexists _, _. split; [reflexivity|]. cbn. auto.
    - destruct Hk as [(_ & E)|(E & _)]; [discriminate|].
      assert (EL : lookup nict_table (t_state (p_client p)) TIMEOUT_E = Some nict_timeout_e) by (destruct E as [-> | ->]; reflexivity).
      rewrite EL. unfold nict_timeout_e. cbn [t_orig start_timer set_len set_start]. rewrite Ho. cbn [e_send env0 Z.ltb Z.eqb Z.compare].
      rewrite Eq, Hrel. cbn. eexists _, _. split; [reflexivity|]. cbn. auto. }
  destruct S1 as (t1 & o1 & X1 & Z1 & W1).
  assert (P1 : play p (CTimer (env0 now) x) = Ok (mkPair t1 (p_clog p ++ [mkRan (env0 now) (Ev (timeout_of x) None) o1]) (p_server p) (p_slog p) (p_past p) (p_gone p))).
  { cbn [play]. cbn [e_now env0]. rewrite Hdue. unfold client_does. rewrite X1. reflexivity. }
  set (p1 := mkPair _ _ _ _ _ _) in P1.
  assert (Hin : incoming_type (mc m) = opening (t_type t0))
    by (rewrite in_out_types, Hot; destruct Hc as (_ & [-> | ->]); auto).
  set (ev2 := Ev (opening (t_type t0)) (Some (Msg 0 (mc m)))).
  destruct (init_total (t_type t0) now _ Hop) as (ts & Hts).
  destruct (init_topvia _ _ _ _ _ Hts) as (_ & _ & _ & _ & Hkts).
  assert (Hfr : fresh ts) by (exists (server_kind (t_type t0)), now, 0, (mc m); auto).
  assert (S2 : exists t2 o2 y, execute (env0 now) ts ev2 = Ok (1, t2, o2) /\ In y o2 /\ is_new y = true).
  { unfold execute, ev2. cbn [ev_type]. rewrite (fresh_state _ Hfr), Hkts.
    destruct Hc as (_ & [Hc|Hc]); rewrite Hc;
      cbn [server_kind opening init_state table lookup find ist_table nist_table state_eqb etype_eqb state_num etype_num Nat.eqb andb fst snd].
    - unfold ist_rcv_invite. cbn [ev_sip]. rewrite (fresh_state _ Hfr), Hkts, Hc. cbn. eexists _, _, _. split; [reflexivity|].
      split; [left; reflexivity|reflexivity].
    - unfold nist_rcv_request. cbn [ev_sip]. rewrite (fresh_state _ Hfr), Hkts, Hc. cbn [server_kind init_state is_nist_pretrying].
      eexists _, _, _. split; [reflexivity|]. split; [left; reflexivity|]. cbn [mc].
      unfold nist_rcv_cb, method_cb. repeat match goal with |- context [if ?b then _ else _] => destruct b end; reflexivity. }
  destruct S2 as (t2 & o2 & y & X2 & Iy & Fy).
  assert (P2 : play p1 (SNet (env0 now) 0 (length (wire (p_clog p)))) =
     Ok (mkPair t1 (p_clog p1) (Some t2) (p_slog p ++ [mkRan (env0 now) ev2 o2]) (p_past p) (p_gone p))).
  { cbn [play]. unfold p1 at 1. cbn [p_clog]. rewrite (wire_one _ _ _ _ _ W1), nth_end.
    rewrite (parsed_of m 0 Hrq), Hin. unfold p1 at 1. cbn [p_server]. rewrite Hs. cbn [p_client p1 ev_type]. rewrite Z1.
    replace (etype_eqb (opening (t_type t0)) (opening (t_type t0))) with true by (destruct (t_type t0); reflexivity).
    cbn [e_now env0]. rewrite Hts. unfold server_does. fold ev2. rewrite X2. reflexivity. }
  exists [CTimer (env0 now) x; SNet (env0 now) 0 (length (wire (p_clog p)))].
  eexists. exists y. split; [repeat constructor|]. split; [repeat constructor|].
  cbn [plays]. rewrite P1. cbn [res_bind]. rewrite P2. cbn [res_bind].
  split; [reflexivity|]. split; [|auto]. cbn [p_slog]. rewrite did_app. apply in_or_app. right. cbn. rewrite app_nil_r. auto.
Qed.

(** * A lost 2xx *)

Definition told (l : list out) : list out := filter (fun o => match o with OCb _ _ => true | _ => false end) l.

Lemma still_proceeding : forall e ev t r t' o w, t_type t = ICT -> t_state t = ICT_PROCEEDING -> source w ev ->
  rcv (ev_type ev) = false -> execute e t ev = Ok (r, t', o) -> t' = t /\ told o = [].
Proof.
  intros e ev t r t' o w Hk Hst Hsrc Hr H. apply execute_inv in H.
  destruct H as [(-> & Ho & _)|(h & Hin & _)].
  - split; auto. destruct Ho as [-> | ->]; auto. destruct (ev_sip ev); auto.
  - exfalso. rewrite Hk in Hin. table_cases1 Hin; try congruence; rewrite He in Hr; discriminate.
Qed.

Lemma over_silent : forall e ev t r t' o, t_type t = IST -> t_state t = IST_TERMINATED -> execute e t ev = Ok (r, t', o) ->
  t' = t /\ flat_map sends o = [].
Proof.
  intros e ev t r t' o Hk Hst H. apply execute_inv in H.
  destruct H as [(-> & Ho & _)|(h & Hin & _)].
  - split; auto. destruct Ho as [-> | ->]; auto. destruct (ev_sip ev); auto.
  - exfalso. rewrite Hk in Hin. table_cases1 Hin; congruence.
Qed.

(** A 2xx ends the server transaction and is never sent again by it: if the 2xx is lost after a
    provisional answer, the client's application waits for ever; no timer runs. *)
Theorem C74_lost_2xx_rule_needed : forall t0 l p ts l' p', reached t0 l p -> t_type t0 = ICT ->
  t_state (p_client p) = ICT_PROCEEDING -> p_server p = Some ts -> t_state ts = IST_TERMINATED ->
  Forall (from_now p) l' -> Forall no_forget l' -> plays p l' = Ok p' ->
  t_state (p_client p') = ICT_PROCEEDING /\ told (did (p_clog p')) = told (did (p_clog p)).
Proof.
  intros t0 l p ts l' p' HR Hk Hst Hs Hts Hl Hn HP. pose proof (reached_inv _ _ _ HR) as HI.
  destruct (inv_answer _ _ _ HI Hs) as (_ & Htys). rewrite Hk in Htys. cbn in Htys.
  pose proof (inv_type _ _ HI) as Hty. rewrite Hk in Hty.
  assert (H : p_client p' = p_client p /\ told (did (p_clog p')) = told (did (p_clog p)) /\ p_server p' = Some ts /\
              wire (p_sall p') = wire (p_sall p)); [|destruct H as (-> & -> & _); auto].
  clear HR HI.
  enough (G : forall p0, p_client p0 = p_client p -> told (did (p_clog p0)) = told (did (p_clog p)) -> p_server p0 = Some ts ->
     wire (p_sall p0) = wire (p_sall p) -> plays p0 l' = Ok p' ->
     p_client p' = p_client p /\ told (did (p_clog p')) = told (did (p_clog p)) /\ p_server p' = Some ts /\
              wire (p_sall p') = wire (p_sall p)) by (apply (G p); auto).
  clear HP. induction l' as [|mv l']; intros p0 A1 A2 A3 A4 HP; [cbn in HP; injection HP as <-; auto|].
  inversion Hl as [|? ? L1 L2]; subst. inversion Hn as [|? ? N1 N2]; subst. cbn [plays] in HP.
  destruct (play p0 mv) as [p1|?|] eqn:E; try discriminate. cbn in HP.
  assert (HC : forall e ev, source [] ev -> rcv (ev_type ev) = false -> client_does e ev p0 = Ok p1 ->
    p_client p1 = p_client p /\ told (did (p_clog p1)) = told (did (p_clog p)) /\ p_server p1 = Some ts /\ wire (p_sall p1) = wire (p_sall p)).
  { intros e ev Hsrc Hr H. unfold client_does in H. rewrite A1 in H.
    destruct (execute _ _ _) as [[[z t'] o]|?|] eqn:Ex; try discriminate. injection H as <-.
    destruct (still_proceeding _ _ _ _ _ _ _ Hty Hst Hsrc Hr Ex) as (-> & Eo). cbn [p_client p_clog p_server].
    split; auto. split; [|auto]. rewrite did_app. unfold told in *. rewrite filter_app, A2. cbn. rewrite app_nil_r, Eo, app_nil_r. auto. }
  assert (HS : forall e ev, server_does e ev ts p0 = Ok p1 ->
    p_client p1 = p_client p /\ told (did (p_clog p1)) = told (did (p_clog p)) /\ p_server p1 = Some ts /\ wire (p_sall p1) = wire (p_sall p)).
  { intros e ev H. unfold server_does in H. destruct (execute _ _ _) as [[[z t'] o]|?|] eqn:Ex; try discriminate. injection H as <-.
    destruct (over_silent _ _ _ _ _ _ Htys Hts Ex) as (-> & Eo). cbn [p_client p_clog p_server].
    split; auto. split; auto. split; auto. unfold p_sall in *. cbn [p_past p_slog]. rewrite app_assoc, wire_app, A4.
    unfold wire at 2. cbn. rewrite Eo. apply app_nil_r. }
  assert (G : p_client p1 = p_client p /\ told (did (p_clog p1)) = told (did (p_clog p)) /\ p_server p1 = Some ts /\ wire (p_sall p1) = wire (p_sall p)).
  { destruct mv as [e m|e id i|e x|e m|e id i|e x|]; cbn [play] in E.
    - destruct (new_outgoing (Some m)) as [ev|] eqn:En; [|injection E as <-; auto].
      apply (HC e ev); auto; [left; eauto|]. destruct (outgoing_facts _ _ En) as (-> & _). cbn. apply outgoing_snd.
    - assert (En : nth_error (wire (p_sall p0)) i = None) by (apply nth_error_None; rewrite A4; exact L1).
      rewrite En in E. injection E as <-. auto.
    - destruct (timer_due _ _ _); [|injection E as <-; auto]. apply (HC _ _) in E; auto; [right; right; eauto|exact (proj1 (proj2 (timeout_is x)))].
    - rewrite A3 in E. destruct (new_outgoing (Some m)) as [ev|]; [eauto|injection E as <-; auto].
    - destruct (nth_error _ _) as [c|]; [|injection E as <-; auto]. rewrite A3 in E.
      destruct (parsed_event _) as [ev|]; [eauto|injection E as <-; auto].
    - rewrite A3 in E. destruct (timer_due _ _ _); [eauto|injection E as <-; auto].
    - exfalso. apply N1. reflexivity. }
  destruct G as (B1 & B2 & B3 & B4). eapply IHl'; eauto.
Qed.

(** C12: timers A, B and D of the INVITE client transaction. *)
From Coq Require Import String ZArith Ascii Bool List Lia ZifyBool ZifyNat.
From Verif Require Import Base Str StrLemmas Types TimeModel TimeProps PortModel CloneModel TransModel TransSpec
  MatchModel DialogModel StackModel TransProofs TransSteps TransProps TimedSpec.
Import ListNotations.
Open Scope Z_scope.

Definition is_invite_send (o : out) : bool := match o with OSend m _ _ _ => is_method ($"INVITE") (mc m) | _ => false end.
Definition double (x : Z) : Z := 2 * x.

(** * Creation and timers *)

Lemma init_timers : forall k c id m t, trans_init k c id (Some m) = Ok t ->
  exists v vs p, m_vias m = v :: vs /\ v_protocol v = Some p /\ t_len t = init_len k (reliable p) /\ t_start t = init_start k c /\
    t_state t = init_state k /\ t_orig t = None /\ t_last t = None /\ t_ack t = None /\ t_type t = k.
Proof.
  intros k c id m t H. unfold trans_init, res_bind in H.
  destruct (m_call_id m) as [ci|]; [|discriminate]. destruct (ci_number ci); [|discriminate].
  destruct (m_vias m) as [|v vs]; [discriminate|]. exists v, vs.
  destruct (via_clone (Some v)); try discriminate. destruct (from_clone (m_from m)); try discriminate.
  destruct (from_clone (m_to m)); try discriminate. destruct (call_id_clone (Some ci)); try discriminate.
  destruct (cseq_clone (m_cseq m)); try discriminate.
  destruct (v_protocol v) as [p|]; [|destruct k; discriminate]. exists p.
  repeat match type of H with
  | context [match ?x with _ => _ end] =>
      match x with context [match _ with _ => _ end] => fail 1 | _ => destruct x; try discriminate H end
  end; injection H as <-; repeat split; reflexivity.
Qed.

Lemma due_iff : forall t x p, tv_ok p -> tv_ok (t_start t x) -> timer_due t x p = (usecs (t_start t x) <? usecs p).
Proof.
  intros t x p Hp Hs. unfold timer_due. rewrite usecs_gt by auto. destruct Hs as (Hs & _).
  replace (tv_sec (t_start t x) =? -1) with false by lia. reflexivity.
Qed.

Lemma poll_ict : forall p t ev, poll_event ICT p t = Some ev ->
  (ev = Ev TIMEOUT_B None /\ t_state t = ICT_CALLING /\ timer_due t TB p = true) \/
  (ev = Ev TIMEOUT_A None /\ t_state t = ICT_CALLING /\ timer_due t TB p = false /\ timer_due t TA p = true) \/
  (ev = Ev TIMEOUT_D None /\ t_state t = ICT_COMPLETED /\ timer_due t TD p = true).
Proof.
  intros p t ev H. unfold poll_event, need_timer, is_state in H.
  destruct (state_eqb (t_state t) ICT_CALLING) eqn:E1.
  - apply state_eqb_eq in E1. rewrite E1 in *. cbn [andb] in H.
    replace (state_eqb ICT_CALLING ICT_COMPLETED) with false in H by reflexivity.
    destruct (timer_due t TB p) eqn:B; [injection H as <-; tauto|].
    destruct (timer_due t TA p) eqn:A; [injection H as <-; tauto|discriminate].
  - cbn [andb] in H. destruct (state_eqb (t_state t) ICT_COMPLETED) eqn:E2; [|discriminate]. apply state_eqb_eq in E2. cbn [andb] in H.
    destruct (timer_due t TD p) eqn:D; [injection H as <-; tauto|discriminate].
Qed.

Lemma snd_invite_event : forall ev m, api_event ev -> ev_type ev = SND_REQINVITE -> ev_sip ev = Some m ->
  is_method ($"INVITE") (mc m) = true.
Proof.
  intros ev m Ha Ht Hm. destruct (api_event_msg ev Ha) as (m' & Hm' & [E|E]); [rewrite Ht; reflexivity|..]; rewrite Hm in Hm'; injection Hm' as <-; rewrite Ht in E.
  - unfold incoming_type in E. repeat match type of E with context[if ?b then _ else _] => destruct b end; discriminate.
  - unfold outgoing_type in E. destruct (is_request (mc m)); [destruct (is_method ($"INVITE") (mc m)); auto; destruct (is_method _ _); discriminate|].
    repeat match type of E with context[if ?b then _ else _] => destruct b end; discriminate.
Qed.

Lemma ack_not_invite : forall orig resp a, create_ack orig resp = Some a -> is_method ($"INVITE") a = false.
Proof.
  intros orig resp a H. unfold create_ack in H.
  repeat match type of H with
  | context [match ?x with _ => _ end] =>
      match x with context [match _ with _ => _ end] => fail 1 | _ => destruct x; try discriminate H end
  end; injection H as <-; reflexivity.
Qed.


Lemma rcv_3456_inv : forall e t ev t' o, ict_rcv_3456xx e t ev = Ok (t', o) -> is_ict_completed (t_state t) = false ->
  filter is_invite_send o = [] /\
  ((t_state t' = ICT_TERMINATED) \/
   (t_state t' = ICT_COMPLETED /\ t_orig t' = t_orig t /\ t_orig t <> None /\ t_len t' TD = t_len t TD /\
    t_start t' TD = add_gettimeofday (e_now e) (t_len t TD) /\
    exists a, t_ack t' = Some a /\ is_method ($"INVITE") (mc a) = false)).
Proof.
  intros e t ev t' o H Hs. unfold ict_rcv_3456xx in H. destruct (ev_sip ev) as [m|]; [|discriminate].
  cbn [t_state set_last] in H. rewrite Hs in H. cbn [t_orig set_last] in H. destruct (t_orig t) as [orig|] eqn:Eo; [|discriminate].
  assert (Fo : filter is_invite_send (free_opt (t_last t)) = []) by (destruct (t_last t); reflexivity).
  destruct (create_ack (mc orig) (mc m)) as [a|] eqn:Ea.
  2:{ injection H as <- <-. rewrite filter_app, Fo. split; auto. }
  pose proof (ack_not_invite _ _ _ Ea) as Na. unfold tp_error in H.
  set (t1 := match t_dest (set_ack (set_last t (Some m)) (Some (Msg (e_fresh e) a))) with Some _ => _ | None => _ end) in H.
  assert (K : t_orig t1 = Some orig /\ t_ack t1 = Some (Msg (e_fresh e) a) /\ t_len t1 TD = t_len t TD).
  { unfold t1. destruct (t_dest _); [cbn; auto|]. destruct (m_uri a); cbn; auto. }
  destruct K as (K1 & K2 & K3).
  destruct (negb (e_send e =? 0)); injection H as <- <-.
  - rewrite !filter_app, Fo. cbn [filter is_invite_send mc app]. rewrite Na. split; auto.
  - rewrite !filter_app, Fo. cbn [filter is_invite_send mc app]. rewrite Na. split; auto. right.
    cbn [t_state t_orig t_len t_start t_ack set_state start_timer set_start]. unfold upd. cbn [timer_eqb]. rewrite K1, K2, K3.
    repeat split; auto; try discriminate. eauto.
Qed.

Lemma final_cb_cases : forall a b c d m, final_cb a b c d m = a \/ final_cb a b c d m = b \/ final_cb a b c d m = c \/ final_cb a b c d m = d.
Proof. intros. unfold final_cb. destruct (is_3xx m), (is_4xx m), (is_5xx m); auto. Qed.

(** * Timer A *)


Definition well_spaced (c : Z) (l : list Z) : Prop :=
  match l with [] => True | _ :: l' => spaced double c (ms T1) l' /\ (length l' <= 6)%nat end.

(** The topmost Via names a reliable transport. *)
Definition reliable_top (m : message) : Prop := exists v vs p, m_vias m = v :: vs /\ v_protocol v = Some p /\ reliable p = true.

Lemma reliable_top_proto : forall m p, top_proto m = Proto p -> reliable p = true -> reliable_top m.
Proof.
  intros m p H Hr. unfold top_proto in H. destruct (m_vias m) as [|v vs] eqn:E; [discriminate|].
  destruct (v_protocol v) as [q|] eqn:Q; [|discriminate]. injection H as ->. exists v, vs, p. auto.
Qed.

Definition ict_inv (c : timeval) (t : trans) (tr : list stamped) : Prop :=
  let I := times is_invite_send tr in
  well_spaced (usecs c) I /\
  match t_state t with
  | ICT_PRE_CALLING => I = [] /\ tv_ok (t_start t TB) /\ usecs (t_start t TB) = usecs c + ms (64 * T1) /\
      tv_ok (t_start t TA) /\ usecs (t_start t TA) = usecs c + ms T1 /\ t_len t TA = T1
  | ICT_CALLING => exists s0 l m, I = s0 :: l /\ t_orig t = Some m /\ is_method ($"INVITE") (mc m) = true /\
      tv_ok (t_start t TB) /\ usecs (t_start t TB) = usecs c + ms (64 * T1) /\
      usecs c + (2 ^ Z.of_nat (length l) - 1) * ms T1 <= last l (usecs c) /\
      ((tv_sec (t_start t TA) = -1 /\ reliable_top (mc m)) \/
       (tv_ok (t_start t TA) /\ usecs (t_start t TA) = last l (usecs c) + 2 ^ Z.of_nat (length l) * ms T1 /\
        t_len t TA = 2 ^ Z.of_nat (length l) * T1))
  | ICT_COMPLETED => exists m a, t_orig t = Some m /\ t_ack t = Some a /\ is_method ($"INVITE") (mc a) = false
  | _ => True
  end.

Lemma iter_double : forall n x, Nat.iter n double x = 2 ^ Z.of_nat n * x.
Proof.
  induction n; intros x; [change (x = 1 * x); lia|]. change (Nat.iter (S n) double x) with (2 * Nat.iter n double x). rewrite IHn, Nat2Z.inj_succ, Z.pow_succ_r by lia. lia.
Qed.

Lemma times_none : forall f z o tr, filter f o = [] -> times f (tr ++ map (pair z) o) = times f tr.
Proof. intros f z o tr H. rewrite times_app, times_stamp, H. cbn. apply app_nil_r. Qed.

Lemma pow_le6 : forall n, 2 ^ Z.of_nat (S n) - 1 < 64 -> (S n <= 6)%nat.
Proof.
  intros n H. destruct (le_lt_dec (S n) 6); auto. exfalso.
  assert (2 ^ 7 <= 2 ^ Z.of_nat (S n)) by (apply Z.pow_le_mono_r; lia). change (2 ^ 7) with 128 in H0. lia.
Qed.

Lemma ict_inv_step : forall c t ev now tr e r t' o, ict_inv c t tr -> t_type t = ICT -> typed t -> api_event ev ->
  tv_ok (e_now e) -> tv_ok now -> usecs now <= usecs (e_now e) -> usecs c <= usecs now ->
  (is_timeout (ev_type ev) = true -> exists p, tv_ok p /\ usecs p <= usecs now /\ poll_event ICT p t = Some ev) ->
  execute e t ev = Ok (r, t', o) -> ict_inv c t' (tr ++ map (pair (usecs (e_now e))) o).
Proof.
  intros c t ev now tr e r t' o (HW & HI) Hk HT Ha He Hn Hle Hc Hdue Hx.
  apply execute_inv in Hx. destruct Hx as [(-> & Ho & _)|(h & Hin & Hh & _)].
  { assert (F : filter is_invite_send o = []) by (destruct Ho as [->| ->]; [reflexivity|destruct (ev_sip ev); reflexivity]).
    unfold ict_inv. rewrite times_none by auto. split; auto. }
  rewrite Hk in Hin. cbn [table] in Hin. unfold ict_table in Hin. cbn [In] in Hin.
  repeat (destruct Hin as [Hin|Hin]; [injection Hin as Hs Ht <-; symmetry in Hs, Ht|]); try contradiction;
    unfold ict_inv; rewrite Hs in HI.
  - (* the first transmission *)
    destruct HI as (HI & B1 & B2 & A1 & A2 & A3). destruct (ev_sip ev) as [m|] eqn:Em; [|unfold ict_snd_invite in Hh; rewrite Em in Hh; discriminate].
    pose proof (snd_invite_event ev m Ha Ht Em) as Hm.
    assert (SF : filter is_invite_send o = [OSend m (t_dest t) (t_port t) (e_send e)]).
    { unfold ict_snd_invite in Hh. rewrite Em in Hh. unfold tp_error in Hh. cbn [t_dest t_port set_orig] in Hh.
      destruct (e_send e <? 0); [injection Hh as <- <-; cbn [filter app is_invite_send]; rewrite Hm; reflexivity|].
      destruct (e_send e =? 0); [destruct (top_proto (mc m)) as [| |p0]|]; injection Hh as <- <-; cbn [filter app is_invite_send]; rewrite Hm; reflexivity. }
    rewrite times_app, times_stamp, SF, HI. cbn [map app]. split; [cbn; split; auto; lia|].
    unfold ict_snd_invite in Hh. rewrite Em in Hh. unfold tp_error in Hh.
    destruct (e_send e <? 0); [injection Hh as <- <-; exact I|].
    assert (Fin : forall t1, t_start t1 TB = t_start t TB -> t_orig t1 = Some m ->
      ((tv_sec (t_start t1 TA) = -1 /\ reliable_top (mc m)) \/ (t_start t1 TA = t_start t TA /\ t_len t1 TA = t_len t TA)) ->
      t_state t1 = ICT_CALLING -> exists s0 l m0, [usecs (e_now e)] = s0 :: l /\ t_orig t1 = Some m0 /\ is_method ($"INVITE") (mc m0) = true /\
      tv_ok (t_start t1 TB) /\ usecs (t_start t1 TB) = usecs c + ms (64 * T1) /\
      usecs c + (2 ^ Z.of_nat (length l) - 1) * ms T1 <= last l (usecs c) /\
      ((tv_sec (t_start t1 TA) = -1 /\ reliable_top (mc m0)) \/
       (tv_ok (t_start t1 TA) /\ usecs (t_start t1 TA) = last l (usecs c) + 2 ^ Z.of_nat (length l) * ms T1 /\
        t_len t1 TA = 2 ^ Z.of_nat (length l) * T1))).
    { intros t1 F1 F2 F3 F4. exists (usecs (e_now e)), [], m. rewrite F1, F2. cbn [length last]. change (2 ^ Z.of_nat 0) with 1.
      repeat (split; [auto; try lia; fail|]). destruct F3 as [F3|(F3 & F5)]; [auto|]. right. rewrite F3, F5. repeat split; auto; try apply A1; lia. }
    destruct (e_send e =? 0).
    + destruct (top_proto (mc m)) as [| |p0] eqn:Ep; [injection Hh as <- <-; exact I|injection Hh as <- <-; exact I|].
      injection Hh as <- <-. cbn [t_state set_state]. apply Fin; destruct (reliable p0) eqn:Er; cbn; auto; left; split; [reflexivity|eapply reliable_top_proto; eauto].
    + injection Hh as <- <-. cbn [t_state set_state]. apply Fin; cbn; auto.
  - (* timer A *)
    destruct HI as (s0 & l & m & HI & Or & Hm & B1 & B2 & Lw & HA).
    destruct (Hdue ltac:(rewrite Ht; reflexivity)) as (p & P1 & P2 & P3). apply poll_ict in P3.
    destruct P3 as [(-> & _)|[(_ & _ & P3 & P4)|(-> & _)]]; try discriminate.
    rewrite due_iff in P3 by auto.
    destruct HA as [(HA & _)|(A1 & A2 & A3)]; [unfold timer_due in P4; rewrite HA in P4; discriminate|].
    rewrite due_iff in P4 by auto. rewrite A2 in P4. rewrite B2 in P3.
    rewrite HI in HW. cbn in HW. destruct HW as (W1 & W2).
    set (n := length l) in *. assert (Pw : 0 < 2 ^ Z.of_nat n) by (apply Z.pow_pos_nonneg; lia).
    assert (N6 : (S n <= 6)%nat).
    { apply pow_le6. rewrite Nat2Z.inj_succ, Z.pow_succ_r by lia. unfold ms, T1 in *. nia. }
    assert (SF : filter is_invite_send o = [OSend m (t_dest t) (t_port t) (e_send e)]).
    { unfold ict_timeout_a in Hh. cbn [t_orig start_timer set_start set_len t_dest t_port] in Hh. rewrite Or in Hh. unfold tp_error in Hh.
      destruct (e_send e <? 0); [injection Hh as <- <-; cbn [filter app is_invite_send]; rewrite Hm; reflexivity|].
      destruct (e_send e =? 0); [destruct (top_proto (mc m)) as [| |p0]|]; injection Hh as <- <-; cbn [filter app is_invite_send]; rewrite Hm; reflexivity. }
    rewrite times_app, times_stamp, SF, HI. cbn [map app].
    assert (Sp : spaced double (usecs c) (ms T1) (l ++ [usecs (e_now e)])).
    { apply spaced_snoc; auto. rewrite iter_double. fold n. lia. }
    assert (Ln : length (l ++ [usecs (e_now e)]) = S n) by (rewrite app_length; cbn; lia).
    split; [cbn [well_spaced]; rewrite Ln; auto|].
    unfold ict_timeout_a in Hh. cbn [t_orig start_timer set_start set_len t_dest t_port] in Hh. rewrite Or in Hh. unfold tp_error in Hh.
    destruct (e_send e <? 0); [injection Hh as <- <-; exact I|].
    set (L2 := 2 ^ Z.of_nat (S n)) in *.
    assert (E2 : L2 = 2 * 2 ^ Z.of_nat n) by (unfold L2; rewrite Nat2Z.inj_succ, Z.pow_succ_r by lia; lia).
    assert (Le : L2 <= 64). { change 64 with (2 ^ 6). unfold L2. apply Z.pow_le_mono_r; lia. }
    destruct (add_exact (e_now e) (t_len t TA * 2) He) as (X1 & X2). { rewrite A3. unfold T1. lia. }
    assert (Fin : forall t1, t_start t1 TB = t_start t TB -> t_orig t1 = Some m ->
      ((tv_sec (t_start t1 TA) = -1 /\ reliable_top (mc m)) \/ (t_start t1 TA = add_gettimeofday (e_now e) (t_len t TA * 2) /\ t_len t1 TA = t_len t TA * 2)) ->
      exists s1 l1 m0, s0 :: l ++ [usecs (e_now e)] = s1 :: l1 /\ t_orig t1 = Some m0 /\ is_method ($"INVITE") (mc m0) = true /\
      tv_ok (t_start t1 TB) /\ usecs (t_start t1 TB) = usecs c + ms (64 * T1) /\
      usecs c + (2 ^ Z.of_nat (length l1) - 1) * ms T1 <= last l1 (usecs c) /\
      ((tv_sec (t_start t1 TA) = -1 /\ reliable_top (mc m0)) \/
       (tv_ok (t_start t1 TA) /\ usecs (t_start t1 TA) = last l1 (usecs c) + 2 ^ Z.of_nat (length l1) * ms T1 /\
        t_len t1 TA = 2 ^ Z.of_nat (length l1) * T1))).
    { intros t1 F1 F2 F3. exists s0, (l ++ [usecs (e_now e)]), m. rewrite F1, F2, Ln, last_snoc. fold L2.
      repeat (split; [auto; fail|]). split; [unfold ms, T1 in *; nia|]. destruct F3 as [F3|(F3 & F5)]; [auto|]. right.
      rewrite F3, F5, X2. repeat split; auto; try apply X1; unfold ms, T1 in *; lia. }
    destruct (e_send e =? 0).
    + destruct (top_proto (mc m)) as [| |p0] eqn:Ep; [injection Hh as <- <-; exact I|injection Hh as <- <-; exact I|].
      injection Hh as <- <-.
      replace (t_state (if reliable p0 then stop_timer _ TA else _)) with ICT_CALLING by (destruct (reliable p0); cbn; auto).
      apply Fin; destruct (reliable p0) eqn:Er; cbn; auto; left; split; [reflexivity|eapply reliable_top_proto; eauto].
    + injection Hh as <- <-. cbn [t_state set_state start_timer set_start set_len]. rewrite Hs. apply Fin; cbn; auto.
  - (* timer B *)
    unfold ict_timeout_b in Hh. injection Hh as <- <-. rewrite times_none by reflexivity. split; [auto|exact I].
  - unfold ict_rcv_1xx in Hh. destruct (ev_sip ev); [|discriminate]. injection Hh as <- <-.
    rewrite times_none by (rewrite filter_app; destruct (t_last t); reflexivity). split; [auto|exact I].
  - unfold ict_rcv_2xx in Hh. destruct (ev_sip ev); [|discriminate]. injection Hh as <- <-.
    rewrite times_none by (rewrite filter_app; destruct (t_last t); reflexivity). split; [auto|exact I].
  - destruct (rcv_3456_inv _ _ _ _ _ Hh) as (F & [E|(E & E1 & E2 & E3 & E4 & a & E5 & E6)]); [rewrite Hs; reflexivity|..];
      rewrite times_none, E by auto; split; auto. rewrite E1, E5. destruct (t_orig t) as [mm|]; [eauto|congruence].
  - unfold ict_rcv_1xx in Hh. destruct (ev_sip ev); [|discriminate]. injection Hh as <- <-.
    rewrite times_none by (rewrite filter_app; destruct (t_last t); reflexivity). split; [auto|exact I].
  - unfold ict_rcv_2xx in Hh. destruct (ev_sip ev); [|discriminate]. injection Hh as <- <-.
    rewrite times_none by (rewrite filter_app; destruct (t_last t); reflexivity). split; [auto|exact I].
  - destruct (rcv_3456_inv _ _ _ _ _ Hh) as (F & [E|(E & E1 & E2 & E3 & E4 & a & E5 & E6)]); [rewrite Hs; reflexivity|..];
      rewrite times_none, E by auto; split; auto. rewrite E1, E5. destruct (t_orig t) as [mm|]; [eauto|congruence].
  - destruct HI as (m & a & Or & Ak & Na). unfold ict_retransmit_ack in Hh. destruct (ev_sip ev) as [mm|]; [|discriminate].
    rewrite Ak in Hh. unfold tp_error in Hh.
    destruct (e_send e =? 0); injection Hh as <- <-; (rewrite times_none by (cbn [filter app is_invite_send]; rewrite Na; reflexivity)).
    + split; auto. cbn. eauto.
    + split; [auto|exact I].
  - unfold ict_timeout_d in Hh. injection Hh as <- <-. rewrite times_none by reflexivity. split; [auto|exact I].
Qed.

Lemma ict_inv_init : forall c id m t, tv_ok c -> trans_init ICT c id (Some m) = Ok t -> ict_inv c t [].
Proof.
  intros c id m t Hc H. apply init_timers in H. destruct H as (v & vs & p & _ & _ & HL & HS & Hst & _).
  unfold ict_inv. rewrite Hst, HL, HS. cbn [init_state init_len init_start]. split; [exact I|].
  destruct (add_exact c (64 * T1) Hc) as (X1 & X2); [unfold T1; lia|].
  destruct (add_exact c T1 Hc) as (X3 & X4); [unfold T1; lia|].
  repeat split; auto; try apply X1; try apply X3; unfold ms; lia.
Qed.

Lemma timed_ict_inv : forall c m en now tr, timed true ICT c m en now tr -> ict_inv c (en_t en) tr.
Proof.
  intros c m en now tr H. revert en now tr H. apply timed_ind_exec.
  - intros. eapply ict_inv_init; eauto.
  - intros. eapply ict_inv_step; eauto.
Qed.

(** Retransmissions of an unanswered INVITE: the first one more than T1 after creation, each
    later one more than twice the previous interval after the one before; six at most. *)
Theorem C12_schedule_partial : forall idle c m en now tr s0 l, timed idle ICT c m en now tr ->
  times is_invite_send tr = s0 :: l -> spaced double (usecs c) (ms T1) l /\ (length l <= 6)%nat.
Proof.
  intros idle c m en now tr s0 l H E. apply timed_ict_idle in H. apply timed_ict_inv in H.
  destruct H as (W & _). rewrite E in W. exact W.
Qed.

(** ... and none is late: while the INVITE is unanswered and its transport unreliable, a poll
    after the next interval makes the worker send the same INVITE to the same place again. *)
Theorem C12_retransmits : forall idle c m t now tr p e, timed idle ICT c m (En t []) now tr -> t_state t = ICT_CALLING ->
  later now p -> exists s0 l m0, times is_invite_send tr = s0 :: l /\ t_orig t = Some m0 /\
  (~ reliable_top (mc m0) -> last l (usecs c) + 2 ^ Z.of_nat (length l) * ms T1 < usecs p <= usecs c + ms (64 * T1) ->
   exists ev r t' o, en_q (poll_entry ICT p (En t [])) = [ev] /\ execute e t ev = Ok (r, t', o) /\
     filter is_send o = [OSend m0 (t_dest t) (t_port t) (e_send e)]).
Proof.
  intros idle c m t now tr p e H Hs (L1 & L2). apply timed_ict_idle in H. pose proof (timed_type _ _ _ _ _ _ _ H) as (Ty & _). cbn [en_t] in Ty.
  apply timed_ict_inv in H. destruct H as (W & H). cbn [en_t] in H. rewrite Hs in H.
  destruct H as (s0 & l & m0 & HI & Or & Hm & B1 & B2 & Lw & HA). exists s0, l, m0. split; auto. split; auto.
  intros Hr (P1 & P2). destruct HA as [(_ & HA)|(A1 & A2 & A3)]; [contradiction|].
  assert (EA : timer_due t TA p = true) by (rewrite due_iff by auto; lia).
  assert (EB : timer_due t TB p = false) by (rewrite due_iff by auto; lia).
  exists (Ev TIMEOUT_A None). unfold poll_entry, poll_event, need_timer, is_state. cbn [en_q en_t]. rewrite Hs, EA, EB. cbn.
  unfold execute. cbn [ev_type]. rewrite Ty, Hs. cbn [table lookup ict_table find fst snd state_eqb etype_eqb state_num etype_num Nat.eqb andb].
  unfold ict_timeout_a. cbn [t_orig start_timer set_start set_len t_dest t_port]. rewrite Or. unfold tp_error.
  destruct (e_send e <? 0); [eexists _, _, _; cbn; auto|].
  destruct (e_send e =? 0); [destruct (top_proto (mc m0))|]; eexists _, _, _; cbn; auto.
Qed.

(** No answer: once 64*T1 have elapsed since creation a poll makes the worker report the timeout
    and terminate ... *)
Theorem C12_times_out : forall idle c m t now tr p e, timed idle ICT c m (En t []) now tr -> t_state t = ICT_CALLING ->
  later now p -> usecs c + ms (64 * T1) < usecs p ->
  exists ev r t', en_q (poll_entry ICT p (En t [])) = [ev] /\
    execute e t ev = Ok (r, t', [OCb ICT_STATUS_TIMEOUT None; OKill ICT]) /\ t_state t' = ICT_TERMINATED.
Proof.
  intros idle c m t now tr p e H Hs (L1 & L2) Hp. apply timed_ict_idle in H. pose proof (timed_type _ _ _ _ _ _ _ H) as (Ty & _). cbn [en_t] in Ty.
  apply timed_ict_inv in H. destruct H as (W & H). cbn [en_t] in H. rewrite Hs in H.
  destruct H as (s0 & l & m0 & HI & Or & Hm & B1 & B2 & Lw & HA).
  assert (EB : timer_due t TB p = true) by (rewrite due_iff by auto; lia).
  exists (Ev TIMEOUT_B None). unfold poll_entry, poll_event, need_timer, is_state. cbn [en_q en_t]. rewrite Hs, EB.
  unfold execute. cbn [ev_type]. rewrite Ty, Hs. cbn. rewrite Ty. eexists _, _. auto.
Qed.

(** ... and never earlier. *)
Definition is_ict_timeout (o : out) : bool := match o with OCb ICT_STATUS_TIMEOUT _ => true | _ => false end.

Theorem C12_timeout_not_before : forall idle c m en now tr x, timed idle ICT c m en now tr ->
  In x (times is_ict_timeout tr) -> usecs c + ms (64 * T1) < x.
Proof.
  intros idle c m en now tr x H. apply timed_ict_idle in H. revert en now tr H x.
  apply (timed_forall ICT c m (ict_inv c)); [apply timed_ict_inv|].
  intros t ev tr e t' o (W & HI) (Ty & HT & Ha & He & Hc & Hd & r & Hx).
  apply execute_inv in Hx. destruct Hx as [(-> & Ho & _)|(h & Hin & Hh & _)].
  { left. destruct Ho as [->| ->]; [reflexivity|destruct (ev_sip ev); reflexivity]. }
  rewrite Ty in Hin. table_cases Hin; try discriminate.
  3:{ right. destruct (Hd ltac:(rewrite He0; reflexivity)) as (p & P1 & P2 & P3). apply poll_ict in P3.
      destruct P3 as [(-> & _ & P4)|[(-> & _)|(-> & _)]]; try discriminate.
      rewrite Hs in HI. destruct HI as (s0 & l & m0 & _ & _ & _ & B1 & B2 & _). rewrite due_iff in P4 by auto. lia. }
  all: left; handler_cases Hh; injection Hh as <- <-; rewrite ?filter_app; cbn; try (destruct (t_last t); reflexivity); try reflexivity.
  all: destruct (t_last t); cbn; match goal with |- context[final_cb ?a ?b ?c ?d ?m] => destruct (final_cb_cases a b c d m) as [->|[->|[->| ->]]] end; reflexivity.
Qed.

(** Once an answer has been reported the INVITE is never sent again. *)
Definition is_ict_answer (o : out) : bool :=
  match o with
  | OCb (ICT_STATUS_1XX_RECEIVED | ICT_STATUS_2XX_RECEIVED | ICT_STATUS_3XX_RECEIVED | ICT_STATUS_4XX_RECEIVED
        | ICT_STATUS_5XX_RECEIVED | ICT_STATUS_6XX_RECEIVED | ICT_STATUS_3456XX_RECEIVED_AGAIN) _ => true
  | _ => false
  end.

Lemma nothing_after : forall (f bad : out -> bool) o, filter bad o = [] ->
  forall o1 x o2, o = o1 ++ x :: o2 -> f x = true -> filter bad o2 = [].
Proof.
  intros f bad o H o1 x o2 -> _. rewrite filter_app in H. cbn in H. apply app_eq_nil in H. destruct H as (_ & H).
  destruct (bad x); [discriminate|auto].
Qed.

Theorem C12_only_before_answer : forall idle c m en now tr tr1 y x tr2, timed idle ICT c m en now tr ->
  tr = tr1 ++ (y, x) :: tr2 -> is_ict_answer x = true -> times is_invite_send tr2 = [].
Proof.
  intros idle c m en now tr tr1 y x tr2 H. apply timed_ict_idle in H. revert tr1 y x tr2.
  refine (proj2 (timed_after ICT c m (ict_inv c) is_ict_answer is_invite_send (fun t => (2 <= rank (t_state t))%nat) (timed_ict_inv c m) _ en now tr H)).
  clear. intros t ev tr e t' o (W & HI) (Ty & HT & Ha & He & Hc & Hd & r & Hx).
  pose proof (exec_rank _ _ _ _ _ _ Hx) as Hrk. apply execute_inv in Hx. destruct Hx as [(-> & Ho & _)|(h & Hin & Hh & _)].
  { assert (N : filter is_invite_send o = [] /\ existsb is_ict_answer o = false) by (destruct Ho as [->| ->]; [auto|destruct (ev_sip ev); auto]).
    destruct N as (N1 & N2). rewrite N2. split; [discriminate|]. split; [auto|]. apply nothing_after; auto. }
  rewrite Ty in Hin. table_cases Hin; try discriminate; rewrite Hs in *.
  - assert (N : existsb is_ict_answer o = false) by (handler_cases Hh; injection Hh as <- <-; reflexivity).
    rewrite N. split; [discriminate|]. split; [cbn; lia|]. intros o1 x o2 -> Hx. rewrite existsb_app in N. cbn in N. rewrite Hx in N.
    rewrite orb_true_r in N. discriminate.
  - assert (N : existsb is_ict_answer o = false) by (handler_cases Hh; injection Hh as <- <-; reflexivity).
    rewrite N. split; [discriminate|]. split; [cbn; lia|]. intros o1 x o2 -> Hx. rewrite existsb_app in N. cbn in N. rewrite Hx in N.
    rewrite orb_true_r in N. discriminate.
  - assert (N : filter is_invite_send o = []) by (handler_cases Hh; injection Hh as <- <-; reflexivity).
    assert (D : (2 <= rank (t_state t'))%nat) by (handler_cases Hh; injection Hh as <- <-; cbn; lia).
    split; [auto|]. split; [auto|]. apply nothing_after; auto.
  - assert (N : filter is_invite_send o = []) by (handler_cases Hh; injection Hh as <- <-; rewrite filter_app; destruct (t_last t); reflexivity).
    assert (D : (2 <= rank (t_state t'))%nat) by (handler_cases Hh; injection Hh as <- <-; cbn; lia).
    split; [auto|]. split; [auto|]. apply nothing_after; auto.
  - assert (N : filter is_invite_send o = []) by (handler_cases Hh; injection Hh as <- <-; rewrite filter_app; destruct (t_last t); reflexivity).
    assert (D : (2 <= rank (t_state t'))%nat) by (handler_cases Hh; injection Hh as <- <-; cbn; lia).
    split; [auto|]. split; [auto|]. apply nothing_after; auto.
  - destruct (rcv_3456_inv _ _ _ _ _ Hh) as (N & D); [rewrite Hs; reflexivity|].
    assert (D2 : (2 <= rank (t_state t'))%nat) by (destruct D as [->|(-> & _)]; cbn; lia).
    split; [auto|]. split; [auto|]. apply nothing_after; auto.
  - assert (N : filter is_invite_send o = []) by (handler_cases Hh; injection Hh as <- <-; rewrite filter_app; destruct (t_last t); reflexivity).
    split; [cbn in Hrk; lia|]. split; [cbn in Hrk; split; [lia|auto]|]. apply nothing_after; auto.
  - assert (N : filter is_invite_send o = []) by (handler_cases Hh; injection Hh as <- <-; rewrite filter_app; destruct (t_last t); reflexivity).
    split; [cbn in Hrk; lia|]. split; [cbn in Hrk; split; [lia|auto]|]. apply nothing_after; auto.
  - destruct (rcv_3456_inv _ _ _ _ _ Hh) as (N & D); [rewrite Hs; reflexivity|].
    split; [cbn in Hrk; lia|]. split; [cbn in Hrk; split; [lia|auto]|]. apply nothing_after; auto.
  - assert (N : filter is_invite_send o = []).
    { destruct HI as (mm & a & _ & Ak & Na). handler_cases Hh; injection Ak as ->; injection Hh as <- <-; cbn [filter app is_invite_send]; rewrite Na; reflexivity. }
    split; [cbn in Hrk; lia|]. split; [cbn in Hrk; split; [lia|auto]|]. apply nothing_after; auto.
  - assert (N : filter is_invite_send o = []) by (handler_cases Hh; injection Hh as <- <-; reflexivity).
    split; [cbn in Hrk; lia|]. split; [cbn in Hrk; split; [lia|auto]|]. apply nothing_after; auto.
Qed.

(** Which events send an INVITE *)
Lemma ict_sends : forall c t ev tr e t' o, ict_inv c t tr -> exec_at ICT c t ev e t' o ->
  (filter is_invite_send o = [] /\ (t_state t' = t_state t /\ t_start t' = t_start t \/ (2 <= rank (t_state t'))%nat)) \/
  exists m0, filter is_invite_send o = [OSend m0 (t_dest t) (t_port t) (e_send e)] /\
    filter is_send o = [OSend m0 (t_dest t) (t_port t) (e_send e)] /\
    ((t_state t = ICT_PRE_CALLING /\ ev_type ev = SND_REQINVITE) \/
     (t_state t = ICT_CALLING /\ ev_type ev = TIMEOUT_A /\ timer_due t TA (e_now e) = true)) /\
    (t_state t' = ICT_TERMINATED \/
     (t_state t' = ICT_CALLING /\ (e_send e = 0 -> reliable_top (mc m0) -> tv_sec (t_start t' TA) = -1))).
Proof.
  intros c t ev tr e t' o (W & HI) (Ty & HT & Ha & He & Hc & Hd & r & Hx).
  apply execute_inv in Hx. destruct Hx as [(-> & Ho & _)|(h & Hin & Hh & _)].
  { left. split; [|auto]. destruct Ho as [->| ->]; [reflexivity|destruct (ev_sip ev); reflexivity]. }
  assert (RT : forall m0 p, top_proto (mc m0) = Proto p -> reliable_top (mc m0) -> reliable p = true).
  { intros m0 p E (v & vs & q & R1 & R2 & R3). unfold top_proto in E. rewrite R1, R2 in E. injection E as <-. auto. }
  rewrite Ty in Hin. table_cases Hin; try discriminate; rewrite Hs in *.
  - right. unfold ict_snd_invite in Hh. destruct (ev_sip ev) as [m0|] eqn:Em; [|discriminate].
    pose proof (snd_invite_event ev m0 Ha He0 Em) as Hm. exists m0. unfold tp_error in Hh. cbn [t_dest t_port set_orig] in Hh.
    destruct (e_send e <? 0) eqn:Es; [injection Hh as <- <-; cbn [filter app is_invite_send is_send]; rewrite Hm; cbn; auto 10|].
    destruct (e_send e =? 0) eqn:Ez; [destruct (top_proto (mc m0)) as [| |p0] eqn:Ep|]; injection Hh as <- <-; cbn [filter app is_invite_send is_send]; rewrite Hm; cbn; auto 10.
    + repeat split; auto. right. split; auto. intros _ Hr. rewrite (RT _ _ Ep Hr). reflexivity.
    + repeat split; auto. right. split; auto. lia.
  - right. destruct HI as (s0 & l & m0 & HI & Or & Hm & B1 & B2 & Lw & HA). exists m0.
    assert (DA : timer_due t TA (e_now e) = true).
    { destruct (Hd ltac:(rewrite He0; reflexivity)) as (p & P1 & P2 & P3). apply poll_ict in P3.
      destruct P3 as [(-> & _)|[(_ & _ & P3 & P4)|(-> & _)]]; try discriminate.
      destruct HA as [(HA & _)|(A1 & A2 & A3)]; [unfold timer_due in P4; rewrite HA in P4; discriminate|].
      rewrite due_iff in * by auto. lia. }
    unfold ict_timeout_a in Hh. cbn [t_orig start_timer set_start set_len t_dest t_port] in Hh. rewrite Or in Hh. unfold tp_error in Hh.
    destruct (e_send e <? 0) eqn:Es; [injection Hh as <- <-; cbn [filter app is_invite_send is_send]; rewrite Hm; cbn; auto 10|].
    destruct (e_send e =? 0) eqn:Ez; [destruct (top_proto (mc m0)) as [| |p0] eqn:Ep|]; injection Hh as <- <-; cbn [filter app is_invite_send is_send]; rewrite Hm; cbn; auto 10.
    + repeat split; auto. right. split; [destruct (reliable p0); auto|]. intros _ Hr. rewrite (RT _ _ Ep Hr). reflexivity.
    + repeat split; auto. right. split; auto. lia.
  - left. handler_cases Hh; injection Hh as <- <-; cbn; split; auto; right; lia.
  - left. handler_cases Hh; injection Hh as <- <-; rewrite filter_app; destruct (t_last t); cbn; split; auto; right; lia.
  - left. handler_cases Hh; injection Hh as <- <-; rewrite filter_app; destruct (t_last t); cbn; split; auto; right; lia.
  - left. destruct (rcv_3456_inv _ _ _ _ _ Hh) as (N & D); [rewrite Hs; reflexivity|]. split; auto. right.
    destruct D as [->|(-> & _)]; cbn; lia.
  - left. handler_cases Hh; injection Hh as <- <-; rewrite filter_app; destruct (t_last t); cbn; split; auto; right; lia.
  - left. handler_cases Hh; injection Hh as <- <-; rewrite filter_app; destruct (t_last t); cbn; split; auto; right; lia.
  - left. destruct (rcv_3456_inv _ _ _ _ _ Hh) as (N & D); [rewrite Hs; reflexivity|]. split; auto. right.
    destruct D as [->|(-> & _)]; cbn; lia.
  - left. destruct HI as (mm & a & _ & Ak & Na). split.
    + handler_cases Hh; injection Ak as ->; injection Hh as <- <-; cbn [filter app is_invite_send]; rewrite Na; reflexivity.
    + right. handler_cases Hh; injection Hh as <- <-; cbn; lia.
  - left. handler_cases Hh; injection Hh as <- <-; cbn; split; auto; right; lia.
Qed.

(** On a reliable transport nothing is sent again once the send succeeded. *)
Theorem C12_reliable : forall idle c m en now tr tr1 x m0 h p tr2, timed idle ICT c m en now tr ->
  tr = tr1 ++ (x, OSend m0 h p 0) :: tr2 -> is_method ($"INVITE") (mc m0) = true -> reliable_top (mc m0) ->
  times is_invite_send tr2 = [].
Proof.
  intros idle c m en now tr tr1 x m0 h p tr2 H E Hm Hr. apply timed_ict_idle in H.
  set (rt := fun m1 => match top_proto m1 with Proto q => reliable q | _ => false end).
  set (trig := fun o => match o with OSend m1 _ _ 0 => is_method ($"INVITE") (mc m1) && rt (mc m1) | _ => false end).
  assert (RT : forall m1, rt m1 = true -> reliable_top m1).
  { intros m1 Hb. unfold rt in Hb. destruct (top_proto m1) eqn:Q; try discriminate. eapply reliable_top_proto; eauto. }
  refine (proj2 (timed_after ICT c m (ict_inv c) trig is_invite_send
    (fun t => t_state t <> ICT_PRE_CALLING /\ (t_state t = ICT_CALLING -> tv_sec (t_start t TA) = -1)) (timed_ict_inv c m) _ en now tr H) _ _ _ _ E _).
  2:{ unfold trig. rewrite Hm. destruct Hr as (v & vs & q & R1 & R2 & R3). unfold rt, top_proto. rewrite R1, R2, R3. reflexivity. }
  clear -RT. intros t ev tr e t' o HI X. pose proof (ict_sends _ _ _ _ _ _ _ HI X) as S.
  destruct X as (Ty & HT & Ha & He & Hc & Hd & r & Hx). pose proof (exec_rank _ _ _ _ _ _ Hx) as Hrk.
  destruct S as [(S1 & S2)|(m1 & S1 & S2 & S3 & S4)].
  - split; [|split].
    + intros Hb. exfalso. apply existsb_exists in Hb. destruct Hb as (z & Z1 & Z2).
      assert (In z (filter is_invite_send o)); [|rewrite S1 in *; auto]. apply filter_In. split; auto.
      destruct z; try discriminate. cbn [is_invite_send trig] in Z2 |- *. unfold trig in Z2. destruct result; try discriminate. apply andb_true_iff in Z2. apply Z2.
    + intros (D1 & D2). split; auto. destruct S2 as [(-> & ->)|S2]; auto.
      destruct (t_state t'); cbn in S2; try lia; split; discriminate.
    + apply nothing_after; auto.
  - split; [|split].
    + intros Hb. destruct S4 as [S4|(S4 & S5)]; rewrite S4; (split; [discriminate|]); [discriminate|]. intros _.
      apply existsb_exists in Hb. destruct Hb as (z & Z1 & Z2).
      assert (Iz : In z (filter is_invite_send o)).
      { apply filter_In. split; auto. destruct z; try discriminate. cbn [is_invite_send trig] in Z2 |- *. unfold trig in Z2. destruct result; try discriminate. apply andb_true_iff in Z2. apply Z2. }
      rewrite S1 in Iz. destruct Iz as [<-|[]]. unfold trig in Z2. apply S5.
      * destruct (e_send e); auto; discriminate.
      * apply RT. destruct (e_send e); try discriminate. apply andb_true_iff in Z2. apply Z2.
    + intros (D1 & D2). exfalso. destruct S3 as [(S3 & _)|(S3 & _ & S5)]; [auto|]. unfold timer_due in S5. rewrite D2 in S5 by auto. discriminate.
    + intros o1 z o2 -> Hz. rewrite filter_app in S1. cbn in S1.
      assert (Q : is_invite_send z = true) by (destruct z; try discriminate; cbn [is_invite_send]; unfold trig in Hz; destruct result; try discriminate; apply andb_true_iff in Hz; apply Hz).
      rewrite Q in S1. destruct (filter is_invite_send o1) as [|y1 l1]; cbn in S1; [injection S1 as _ S1; auto|]. injection S1 as _ S1. destruct l1; discriminate.
Qed.

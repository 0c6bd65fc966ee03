(** C15: timers E and F of the non-INVITE client transaction. *)
From Coq Require Import String ZArith Ascii Bool List Lia ZifyBool ZifyNat.
From Verif Require Import Base Str StrLemmas Types TimeModel TimeProps PortModel CloneModel TransModel TransSpec
  MatchModel DialogModel StackModel TransProofs TransSteps TransProps TimedSpec TimedIct TimedGen TimedEnd TimedIst.
Import ListNotations.
Open Scope Z_scope.

(** The first send: its time, the request, and what followed *)
Fixpoint first_send (tr : list stamped) : option (Z * msg * list stamped) :=
  match tr with
  | [] => None
  | (x, OSend m _ _ _) :: l => Some (x, m, l)
  | _ :: l => first_send l
  end.

(** Each send comes more than [iv] after the send before it; [iv] doubles up to T2; a
    provisional answer restarts the count with T2. *)
Fixpoint resent_on_time (prev iv : Z) (tr : list stamped) : Prop :=
  match tr with
  | [] => True
  | (x, OSend _ _ _ _) :: l => prev + iv < x /\ resent_on_time x (double_T2 iv) l
  | (x, OCb NICT_STATUS_1XX_RECEIVED _) :: l => resent_on_time x (ms T2) l
  | _ :: l => resent_on_time prev iv l
  end.
(** The time and interval the next send is counted from *)
Fixpoint next_from (prev iv : Z) (tr : list stamped) : Z * Z :=
  match tr with
  | [] => (prev, iv)
  | (x, OSend _ _ _ _) :: l => next_from x (double_T2 iv) l
  | (x, OCb NICT_STATUS_1XX_RECEIVED _) :: l => next_from x (ms T2) l
  | _ :: l => next_from prev iv l
  end.

Lemma first_send_some : forall tr l s m b, first_send tr = Some (s, m, b) -> first_send (tr ++ l) = Some (s, m, b ++ l).
Proof. induction tr as [|[x o] tr IH]; intros l s m b H; [discriminate|]. cbn in *. destruct o; auto. injection H as <- <- <-. auto. Qed.
Lemma first_send_none : forall tr l, first_send tr = None -> first_send (tr ++ l) = first_send l.
Proof. induction tr as [|[x o] tr IH]; intros l H; [auto|]. cbn in *. destruct o; auto. discriminate. Qed.

Lemma resent_app : forall a b pv iv, resent_on_time pv iv (a ++ b) <->
  resent_on_time pv iv a /\ resent_on_time (fst (next_from pv iv a)) (snd (next_from pv iv a)) b.
Proof.
  induction a as [|[x o] a IH]; intros b pv iv; [cbn; tauto|]. cbn. destruct o as [|c ?| | |]; try apply IH.
  - rewrite IH. tauto.
  - destruct c; apply IH.
Qed.
Lemma next_from_app : forall a b pv iv, next_from pv iv (a ++ b) = next_from (fst (next_from pv iv a)) (snd (next_from pv iv a)) b.
Proof.
  induction a as [|[x o] a IH]; intros b pv iv; [reflexivity|]. cbn. destruct o as [|c ?| | |]; try apply IH. destruct c; apply IH.
Qed.

(** The topmost Via names an unreliable transport. *)
Definition unreliable_top (m : message) : Prop := exists v vs p, m_vias m = v :: vs /\ v_protocol v = Some p /\ reliable p = false.

Definition e_inv (c : timeval) (t : trans) (tr : list stamped) : Prop :=
  (state_in [NICT_PRE_TRYING; NICT_TRYING; NICT_PROCEEDING] (t_state t) = true ->
     tv_ok (t_start t TF) /\ usecs (t_start t TF) = usecs c + ms (64 * T1)) /\
  match t_state t with
  | NICT_PRE_TRYING => first_send tr = None /\ t_len t TE = T1
  | NICT_TRYING | NICT_PROCEEDING => exists s0 m0 b, first_send tr = Some (s0, m0, b) /\ t_orig t = Some m0 /\
      (unreliable_top (mc m0) -> resent_on_time s0 (ms T1) b /\ exists pv iv, next_from s0 (ms T1) b = (pv, iv) /\
         tv_ok (t_start t TE) /\ usecs (t_start t TE) = pv + iv /\ ms (t_len t TE) = iv /\ T1 <= t_len t TE <= T2 /\
         (t_state t = NICT_PROCEEDING -> t_len t TE = T2))
  | _ => forall s0 m0 b, first_send tr = Some (s0, m0, b) -> unreliable_top (mc m0) -> resent_on_time s0 (ms T1) b
  end.

(** Outputs that are neither sends nor provisional answers *)
Definition quiet (o : out) : bool := match o with OSend _ _ _ _ | OCb NICT_STATUS_1XX_RECEIVED _ => false | _ => true end.

Lemma quiet_resent : forall z o pv iv, forallb quiet o = true -> resent_on_time pv iv (map (pair z) o) /\ next_from pv iv (map (pair z) o) = (pv, iv)
  /\ first_send (map (pair z) o) = None.
Proof.
  intros z. induction o as [|x o IH]; intros pv iv H; [cbn; auto|]. cbn in H. apply andb_true_iff in H. destruct H as (H1 & H2).
  destruct x as [|c ?| | |]; cbn; auto; try discriminate. destruct c; auto; discriminate.
Qed.

Definition settled (s : state) : bool := negb (state_in [NICT_PRE_TRYING; NICT_TRYING; NICT_PROCEEDING] s).
Definition e_done (tr : list stamped) : Prop :=
  forall s0 m0 b, first_send tr = Some (s0, m0, b) -> unreliable_top (mc m0) -> resent_on_time s0 (ms T1) b.

Lemma e_inv_done : forall c t tr, e_inv c t tr -> e_done tr.
Proof.
  intros c t tr (_ & H) s0 m0 b E U. destruct (t_state t); eauto.
  - destruct H as (H & _). congruence.
  - destruct H as (s1 & m1 & b1 & E1 & _ & H). rewrite E in E1. injection E1 as <- <- <-. apply H; auto.
  - destruct H as (s1 & m1 & b1 & E1 & _ & H). rewrite E in E1. injection E1 as <- <- <-. apply H; auto.
Qed.

Lemma done_quiet : forall tr z o, e_done tr -> forallb quiet o = true -> e_done (tr ++ map (pair z) o).
Proof.
  intros tr z o D Q s0 m0 b E U. destruct (first_send tr) as [[[s1 m1] b1]|] eqn:E1.
  - rewrite (first_send_some _ _ _ _ _ E1) in E. injection E as <- <- <-. apply resent_app. split; [eapply D; eauto|].
    apply quiet_resent; auto.
  - rewrite (first_send_none _ _ E1) in E. destruct (quiet_resent z o 0 0 Q) as (_ & _ & N). rewrite N in E. discriminate.
Qed.

Lemma e_inv_settled : forall c t tr, settled (t_state t) = true -> e_done tr -> e_inv c t tr.
Proof.
  intros c t tr S D. unfold e_inv, settled in *. destruct (t_state t); try discriminate S; (split; [discriminate|]); exact D.
Qed.

Lemma top_unreliable : forall m p, unreliable_top m -> top_proto m = Proto p -> reliable p = false.
Proof. intros m p (v & vs & q & E1 & E2 & E3) H. unfold top_proto in H. rewrite E1, E2 in H. injection H as <-. auto. Qed.

Lemma e_timeout_step : forall c t ev tr e t' o nw, tv_ok (e_now e) -> nw = usecs (e_now e) ->
  (t_state t = NICT_TRYING \/ t_state t = NICT_PROCEEDING) -> e_inv c t tr ->
  (exists p, tv_ok p /\ usecs p <= nw /\ timer_due t TE p = true) -> nict_timeout_e e t ev = Ok (t', o) ->
  e_inv c t' (tr ++ map (pair nw) o).
Proof.
  intros c t ev tr e t' o nw He -> Hs (HF & HI) (p & P1 & P2 & P3) Hh. set (nw := usecs (e_now e)) in *.
  assert (HF' : tv_ok (t_start t TF) /\ usecs (t_start t TF) = usecs c + ms (64 * T1)).
  { apply HF. destruct Hs as [-> | ->]; reflexivity. } clear HF.
  assert (HI' : exists s0 m0 b, first_send tr = Some (s0, m0, b) /\ t_orig t = Some m0 /\
      (unreliable_top (mc m0) -> resent_on_time s0 (ms T1) b /\ exists pv iv, next_from s0 (ms T1) b = (pv, iv) /\
         tv_ok (t_start t TE) /\ usecs (t_start t TE) = pv + iv /\ ms (t_len t TE) = iv /\ T1 <= t_len t TE <= T2 /\
         (t_state t = NICT_PROCEEDING -> t_len t TE = T2))).
  { destruct Hs as [Hs|Hs]; rewrite Hs in *; exact HI. } clear HI. rename HI' into HI.
  destruct HI as (s0 & m0 & b & I1 & I2 & I3). unfold nict_timeout_e in Hh.
  set (l := if is_nict_trying (t_state t) then _ else _) in Hh.
  cbn [t_orig start_timer set_start set_len t_dest t_port] in Hh. rewrite I2 in Hh. unfold tp_error in Hh.
  assert (U1 : unreliable_top (mc m0) -> forall rest, forallb quiet rest = true ->
     resent_on_time s0 (ms T1) (b ++ map (pair nw) (OSend m0 (t_dest t) (t_port t) (e_send e) :: rest)) /\
     next_from s0 (ms T1) (b ++ map (pair nw) (OSend m0 (t_dest t) (t_port t) (e_send e) :: rest)) = (nw, ms l) /\
     T1 <= l <= T2 /\ (t_state t = NICT_PROCEEDING -> l = T2)).
  { intros U rest Q. destruct (I3 U) as (J1 & pv & iv & J2 & J3 & J4 & J5 & J6 & J7). rewrite resent_app, next_from_app, J2. cbn [fst snd map].
    rewrite due_iff in P3 by auto. assert (Hl : ms l = double_T2 iv /\ T1 <= l <= T2 /\ (t_state t = NICT_PROCEEDING -> l = T2)).
    { unfold l. destruct Hs as [Hs|Hs]; rewrite Hs; cbn [is_nict_trying].
      - replace (t_len t TE <? T1) with false by lia. clear - J5 J6. unfold double_T2, ms, T1, T2 in *. destruct (t_len t TE * 2 >? 4000) eqn:G; repeat split; try discriminate; lia.
      - rewrite (J7 Hs) in *. clear - J5 J6. unfold double_T2, ms, T1, T2 in *. repeat split; lia. }
    destruct Hl as (L1 & L2 & L3). cbn [resent_on_time next_from]. rewrite <- L1.
    destruct (quiet_resent nw rest nw (ms l) Q) as (Q1 & Q2 & _).
    split; [split; [auto|]; split; [lia|exact Q1]|]. split; [exact Q2|]. auto. }
  assert (D : forall rest, forallb quiet rest = true -> e_done (tr ++ map (pair nw) (OSend m0 (t_dest t) (t_port t) (e_send e) :: rest))).
  { intros rest Q s1 m1 b1 E U. rewrite (first_send_some _ _ _ _ _ I1) in E. injection E as <- <- <-. apply U1; auto. }
  destruct (e_send e <? 0); [injection Hh as <- <-; apply e_inv_settled; [reflexivity|apply D; reflexivity]|].
  assert (Go : forall tx rest, t_state tx = t_state t -> t_start tx TF = t_start t TF -> t_orig tx = Some m0 -> forallb quiet rest = true ->
    (unreliable_top (mc m0) -> t_len tx TE = l /\ t_start tx TE = add_gettimeofday (e_now e) l) ->
    e_inv c tx (tr ++ map (pair nw) (OSend m0 (t_dest t) (t_port t) (e_send e) :: rest))).
  { intros tx rest E1 E2 E3 Q E4. split; [rewrite E2; auto|].
    set (b0 := b ++ map (pair nw) (OSend m0 (t_dest t) (t_port t) (e_send e) :: rest)).
    assert (G : unreliable_top (mc m0) -> resent_on_time s0 (ms T1) b0 /\ exists pv iv, next_from s0 (ms T1) b0 = (pv, iv) /\
         tv_ok (t_start tx TE) /\ usecs (t_start tx TE) = pv + iv /\ ms (t_len tx TE) = iv /\ T1 <= t_len tx TE <= T2 /\
         (t_state tx = NICT_PROCEEDING -> t_len tx TE = T2)).
    { intros U. destruct (E4 U) as (X1 & X2). rewrite X1, X2, E1.
      destruct (U1 U rest Q) as (V1 & V2 & V3 & V4). destruct (add_exact (e_now e) l He) as (A1 & A2); [unfold T1, T2 in *; lia|].
      split; [exact V1|]. exists nw, (ms l). split; [exact V2|]. split; [auto|]. split; [unfold ms; lia|]. split; [reflexivity|]. split; auto. }
    assert (G2 : exists s0 m0 b0, first_send (tr ++ map (pair nw) (OSend (match t_orig t with Some x => x | None => m0 end) (t_dest t) (t_port t) (e_send e) :: rest)) = Some (s0, m0, b0) /\ t_orig tx = Some m0 /\
      (unreliable_top (mc m0) -> resent_on_time s0 (ms T1) b0 /\ exists pv iv, next_from s0 (ms T1) b0 = (pv, iv) /\
         tv_ok (t_start tx TE) /\ usecs (t_start tx TE) = pv + iv /\ ms (t_len tx TE) = iv /\ T1 <= t_len tx TE <= T2 /\
         (t_state tx = NICT_PROCEEDING -> t_len tx TE = T2))).
    { exists s0, m0, b0. rewrite (first_send_some _ _ _ _ _ I1), I2. split; [reflexivity|]. split; auto. }
    rewrite I2 in G2. clear G. destruct Hs as [Hs|Hs]; rewrite E1, Hs in *; exact G2. }
  destruct (e_send e =? 0); [destruct (top_proto (mc m0)) as [| |p0] eqn:Ep|]; injection Hh as <- <-.
  - apply e_inv_settled; [reflexivity|apply D; reflexivity].
  - apply e_inv_settled; [reflexivity|apply D; reflexivity].
  - cbn [app]. apply Go; try reflexivity; try (destruct (reliable p0); reflexivity).
    + destruct (reliable p0); cbn; auto.
    + intros U. rewrite (top_unreliable _ _ U Ep). cbn. auto.
  - apply Go; try reflexivity; cbn; auto.
Qed.

Lemma e_1xx_step : forall c t ev tr e t' o nw, tv_ok (e_now e) -> nw = usecs (e_now e) ->
  (t_state t = NICT_TRYING \/ t_state t = NICT_PROCEEDING) -> e_inv c t tr -> nict_rcv_1xx e t ev = Ok (t', o) ->
  e_inv c t' (tr ++ map (pair nw) o).
Proof.
  intros c t ev tr e t' o nw He -> Hs (HF & HI) Hh. set (nw := usecs (e_now e)) in *.
  assert (HF' : tv_ok (t_start t TF) /\ usecs (t_start t TF) = usecs c + ms (64 * T1)).
  { apply HF. destruct Hs as [-> | ->]; reflexivity. } clear HF.
  assert (HI' : exists s0 m0 b, first_send tr = Some (s0, m0, b) /\ t_orig t = Some m0 /\
      (unreliable_top (mc m0) -> resent_on_time s0 (ms T1) b /\ T1 <= t_len t TE <= T2)).
  { destruct Hs as [Hs|Hs]; rewrite Hs in *; destruct HI as (s0 & m0 & b & I1 & I2 & I3); exists s0, m0, b; (split; [auto|]); (split; [auto|]);
      intros U; destruct (I3 U) as (J1 & pv & iv & J2 & J3 & J4 & J5 & J6 & J7); auto. }
  destruct HI' as (s0 & m0 & b & I1 & I2 & I3). unfold nict_rcv_1xx in Hh. destruct (ev_sip ev) as [m|]; [|discriminate].
  cbn [t_len set_last] in Hh. injection Hh as <- <-. split.
  - intros _. cbn [t_start set_state]. destruct (_ >? 0); cbn; exact HF'.
  - cbn [t_state set_state t_orig t_start t_len]. exists s0, m0, (b ++ map (pair nw) (free_opt (t_last t) ++ [OCb NICT_STATUS_1XX_RECEIVED (Some m)])).
    rewrite (first_send_some _ _ _ _ _ I1). split; [reflexivity|]. split; [destruct (_ >? 0); exact I2|]. intros U. destruct (I3 U) as (J1 & J2).
    replace (t_len t TE >? 0) with true by (unfold T1 in *; lia). destruct (add_exact (e_now e) T2 He) as (A1 & A2); [unfold T2; lia|].
    assert (X : forall pv iv, resent_on_time pv iv (map (pair nw) (free_opt (t_last t) ++ [OCb NICT_STATUS_1XX_RECEIVED (Some m)])) /\
      next_from pv iv (map (pair nw) (free_opt (t_last t) ++ [OCb NICT_STATUS_1XX_RECEIVED (Some m)])) = (nw, ms T2)).
    { intros. destruct (t_last t); cbn; auto. }
    split; [apply resent_app; split; [auto|apply X]|]. exists nw, (ms T2). rewrite next_from_app. split; [apply X|].
    cbn -[T2 ms]. split; [auto|]. split; [unfold ms; lia|]. split; [reflexivity|]. split; [unfold T1, T2; lia|auto].
Qed.

Lemma e_inv_step : forall c t ev tr e t' o, e_inv c t tr -> exec_at NICT c t ev e t' o ->
  e_inv c t' (tr ++ map (pair (usecs (e_now e))) o).
Proof.
  intros c t ev tr e t' o HEI (Ty & HT & Ha & He & Hc & Hd & r & Hx). set (nw := usecs (e_now e)) in *.
  pose proof (e_inv_done _ _ _ HEI) as HD. pose proof HEI as (HF & HI).
  assert (FS := first_send_some tr (map (pair nw) o)). assert (FN := first_send_none tr (map (pair nw) o)).
  assert (QD := done_quiet tr nw o HD).
  apply execute_inv in Hx. destruct Hx as [(-> & Ho & _)|(h & Hin & Hh & _)].
  { assert (Q : forallb quiet o = true) by (destruct Ho as [->| ->]; [|destruct (ev_sip ev)]; reflexivity).
    destruct (settled (t_state t)) eqn:Hs; [apply e_inv_settled; auto|]. split; [exact HF|].
    destruct (t_state t) eqn:Hs'; try discriminate Hs.
    - destruct HI as (I1 & I2). rewrite (FN I1). split; [apply (quiet_resent nw o 0 0 Q)|auto].
    - destruct HI as (s0 & m0 & b & I1 & I2 & I3). exists s0, m0, (b ++ map (pair nw) o). rewrite (FS _ _ _ I1). split; auto. split; auto.
      intros U. destruct (I3 U) as (J1 & pv & iv & J2 & J3). split; [apply resent_app; split; auto; apply quiet_resent; auto|].
      exists pv, iv. rewrite next_from_app, J2. split; [apply quiet_resent; auto|auto].
    - destruct HI as (s0 & m0 & b & I1 & I2 & I3). exists s0, m0, (b ++ map (pair nw) o). rewrite (FS _ _ _ I1). split; auto. split; auto.
      intros U. destruct (I3 U) as (J1 & pv & iv & J2 & J3). split; [apply resent_app; split; auto; apply quiet_resent; auto|].
      exists pv, iv. rewrite next_from_app, J2. split; [apply quiet_resent; auto|auto]. }
  rewrite Ty in Hin. table_cases Hin; try discriminate; rewrite Hs in HI, HF.
  (* the events that end the exchange *)
  2,5,6,7,10,11,12: apply e_inv_settled; [handler_cases Hh; injection Hh as <- <-; reflexivity|];
    apply QD; handler_cases Hh; injection Hh as <- <-; destruct (t_last t); cbn; cb_cases; reflexivity.
  - (* send *)
    destruct HI as (I1 & I2). specialize (FN I1). unfold nict_snd_request in Hh. destruct (ev_sip ev) as [m|]; [|discriminate].
    assert (D1 : forall k i, e_done (tr ++ map (pair nw) (OSend m (t_dest t) (t_port t) (e_send e) :: OCb (nict_sent_cb (mc m)) (Some m) :: k :: i :: nil)) -> True) by auto.
    cbn [t_orig set_orig t_dest t_port] in Hh. unfold tp_error in Hh.
    assert (QS : forall m', quiet (OCb (nict_sent_cb m') (Some m)) = true).
    { intros m'. unfold nict_sent_cb, method_cb. repeat (destruct (is_method _ _); [reflexivity|]). reflexivity. }
    destruct (e_send e >=? 0).
    2:{ injection Hh as <- <-. apply e_inv_settled; [reflexivity|]. intros s0 m0 b E U. rewrite FN in E. cbn in E. injection E as <- <- <-. cbn. auto. }
    destruct (top_proto (mc m)) as [| |p] eqn:Ep.
    1,2: injection Hh as <- <-; apply e_inv_settled; [reflexivity|]; intros s0 m0 b E U; rewrite FN in E; cbn in E; injection E as <- <- <-;
      apply (quiet_resent nw [OCb (nict_sent_cb (mc m)) (Some m); OTpErr (t_type t) (-1); OKill (t_type t)]); cbn; specialize (QS (mc m)); cbn in QS; rewrite QS; reflexivity.
    match type of Hh with Ok (set_state ?x _, _) = _ => set (t1 := x) in Hh end.
    assert (K : t_orig t1 = Some m /\ t_start t1 TF = t_start t TF).
    { unfold t1. destruct (e_send e =? 0), (reliable p); cbn; destruct (_ >? 0); cbn; auto. }
    destruct K as (K1 & K2). injection Hh as <- <-. split.
    + intros _. cbn [t_start set_state]. rewrite K2. auto.
    + cbn [t_state set_state t_orig t_start t_len]. exists nw, m, [(nw, OCb (nict_sent_cb (mc m)) (Some m))]. rewrite FN, K1. split; [reflexivity|]. split; [reflexivity|].
      intros U. pose proof (top_unreliable _ _ U Ep) as Hr. destruct (add_exact (e_now e) T1 He) as (A1 & A2); [unfold T1; lia|].
      assert (K3 : t_len t1 TE = T1 /\ t_start t1 TE = add_gettimeofday (e_now e) T1).
      { unfold t1. rewrite Hr. replace (if e_send e =? 0 then set_orig t (Some m) else set_orig t (Some m)) with (set_orig t (Some m)) by (destruct (_ =? _); reflexivity).
        cbn [t_len set_orig]. rewrite I2. cbn. rewrite I2. auto. }
      destruct K3 as (K3 & K4). rewrite K3, K4. destruct (quiet_resent nw [OCb (nict_sent_cb (mc m)) (Some m)] nw (ms T1)) as (R1 & R2 & _); [cbn [forallb]; rewrite QS; reflexivity|].
      split; [exact R1|]. exists nw, (ms T1). split; [exact R2|]. split; [auto|]. split; [unfold ms; lia|]. split; [reflexivity|]. split; [unfold T1, T2; lia|discriminate].
  - eapply e_timeout_step; eauto. destruct (Hd ltac:(rewrite He0; reflexivity)) as (p & P1 & P2 & P3). exists p. apply poll_state in P3. rewrite He0 in P3. tauto.
  - eapply e_1xx_step; eauto.
  - eapply e_timeout_step; eauto. destruct (Hd ltac:(rewrite He0; reflexivity)) as (p & P1 & P2 & P3). exists p. apply poll_state in P3. rewrite He0 in P3. tauto.
  - eapply e_1xx_step; eauto.
Qed.

Lemma timed_e_inv : forall c m en now tr, timed true NICT c m en now tr -> e_inv c (en_t en) tr.
Proof.
  intros c m en now tr H. revert en now tr H. apply timed_ind_exec.
  - intros id t Hc Hi. pose proof (init_len_of _ _ _ _ _ Hi) as (L & S). apply init_timers in Hi. destruct Hi as (v & vs & p & _ & _ & _ & St & _).
    unfold e_inv. rewrite S, L, St. cbn [init_state init_len init_start]. split; [|auto]. intros _.
    destruct (add_exact c (64 * T1) Hc) as (X1 & X2); [unfold T1; lia|]. split; auto; unfold ms; lia.
  - intros t ev now tr e r t' o HI Ty HT Ha He Hn Hle Hc Hd Hx. eapply e_inv_step; eauto.
    repeat split; auto; try apply He; try lia; eauto. intros Ht. destruct (Hd Ht) as (p & P1 & P2 & P3). exists p. repeat split; auto; try apply P1. lia.
Qed.

(** On an unreliable transport every resend of the request keeps the schedule ... *)
Theorem C15_schedule_partial : forall c m en now tr s0 m0 rest, timed true NICT c m en now tr ->
  first_send tr = Some (s0, m0, rest) -> unreliable_top (mc m0) -> resent_on_time s0 (ms T1) rest.
Proof. intros c m en now tr s0 m0 rest H. apply timed_e_inv in H. apply e_inv_done in H. apply H. Qed.

(** ... and none is late: at the first poll after the time it is due (before timer F) the worker
    sends the same request to the same place. *)
Theorem C15_resends : forall c m t now tr p e, timed true NICT c m (En t []) now tr ->
  t_state t = NICT_TRYING \/ t_state t = NICT_PROCEEDING -> later now p ->
  exists s0 m0 rest, first_send tr = Some (s0, m0, rest) /\ t_orig t = Some m0 /\
  (unreliable_top (mc m0) -> fst (next_from s0 (ms T1) rest) + snd (next_from s0 (ms T1) rest) < usecs p <= usecs c + ms (64 * T1) ->
   exists ev r t' o, en_q (poll_entry NICT p (En t [])) = [ev] /\ execute e t ev = Ok (r, t', o) /\
     filter is_send o = [OSend m0 (t_dest t) (t_port t) (e_send e)]).
Proof.
  intros c m t now tr p e H Hs (L1 & L2). pose proof (timed_type _ _ _ _ _ _ _ H) as (Ty & _). cbn [en_t] in Ty.
  apply timed_e_inv in H. destruct H as (HF & HI). cbn [en_t] in *.
  assert (HF' : tv_ok (t_start t TF) /\ usecs (t_start t TF) = usecs c + ms (64 * T1)) by (apply HF; destruct Hs as [-> | ->]; reflexivity).
  destruct HF' as (F1 & F2).
  assert (HI' : exists s0 m0 b, first_send tr = Some (s0, m0, b) /\ t_orig t = Some m0 /\
      (unreliable_top (mc m0) -> exists pv iv, next_from s0 (ms T1) b = (pv, iv) /\ tv_ok (t_start t TE) /\ usecs (t_start t TE) = pv + iv)).
  { destruct Hs as [Hs|Hs]; rewrite Hs in *; destruct HI as (s0 & m0 & b & I1 & I2 & I3); exists s0, m0, b; (split; [auto|]); (split; [auto|]);
      intros U; destruct (I3 U) as (J1 & pv & iv & J2 & J3 & J4 & _); exists pv, iv; auto. }
  destruct HI' as (s0 & m0 & b & I1 & I2 & I3). exists s0, m0, b. split; auto. split; auto. intros U (P1 & P2).
  destruct (I3 U) as (pv & iv & J1 & J2 & J3). rewrite J1 in P1. cbn [fst snd] in P1.
  assert (EE : timer_due t TE p = true) by (rewrite due_iff by auto; lia).
  assert (EF : timer_due t TF p = false) by (rewrite due_iff by auto; lia).
  exists (Ev TIMEOUT_E None).
  assert (Pe : poll_event NICT p t = Some (Ev TIMEOUT_E None)).
  { unfold poll_event, need_timer, nict_waiting, is_state. rewrite EE, EF. destruct Hs as [Hs|Hs]; rewrite Hs; reflexivity. }
  unfold poll_entry. cbn [en_q en_t]. rewrite Pe. cbn [en_q app].
  assert (Ex : execute e t (Ev TIMEOUT_E None) = do r <- nict_timeout_e e t (Ev TIMEOUT_E None) ; Ok (1, fst r, snd r)).
  { unfold execute. cbn [ev_type]. rewrite Ty. destruct Hs as [Hs|Hs]; rewrite Hs; reflexivity. }
  rewrite Ex. unfold nict_timeout_e. cbn [t_orig start_timer set_start set_len t_dest t_port]. rewrite I2. unfold tp_error, res_bind.
  destruct (e_send e <? 0); [eexists _, _, _; cbn; auto|].
  destruct (e_send e =? 0); [destruct (top_proto (mc m0))|]; eexists _, _, _; cbn; auto.
Qed.

(** Nothing is sent once a final answer has been announced. *)
Theorem C15_only_before_answer : forall idle c m en now tr tr1 y x tr2, timed idle NICT c m en now tr ->
  tr = tr1 ++ (y, x) :: tr2 -> is_nict_final x = true -> times is_send tr2 = [].
Proof.
  intros idle c m en now tr tr1 y x tr2 H. revert tr1 y x tr2.
  refine (proj2 (timed_after_any idle NICT c m is_nict_final is_send (fun t => t_state t = NICT_COMPLETED \/ t_state t = NICT_TERMINATED) _ en now tr H)).
  clear. intros t ev e r t' o Ty HT Ha Hx. apply execute_inv in Hx. destruct Hx as [(-> & Ho & _)|(h & Hin & Hh & _)].
  { assert (N : filter is_send o = [] /\ existsb is_nict_final o = false) by (destruct Ho as [->| ->]; [auto|destruct (ev_sip ev); auto]).
    destruct N as (N1 & N2). rewrite N2. split; [discriminate|]. split; [auto|]. apply nothing_after; auto. }
  rewrite Ty in Hin. table_cases Hin; try discriminate; rewrite Hs in *.
  5,6,10,11,12: assert (N : filter is_send o = [] /\ (t_state t' = NICT_COMPLETED \/ t_state t' = NICT_TERMINATED)) by
    (handler_cases Hh; injection Hh as <- <-; destruct (t_last t); cbn; auto); destruct N as (N1 & N2); (split; [auto|]); (split; [auto|]); apply nothing_after; auto.
  all: assert (N : existsb is_nict_final o = false) by
    (handler_cases Hh; injection Hh as <- <-; destruct (t_last t); cbn; unfold nict_sent_cb, method_cb;
     repeat match goal with |- context[is_method ?s ?m] => destruct (is_method s m) end; reflexivity);
    rewrite N; (split; [discriminate|]); (split; [intros [F|F]; discriminate|]);
    intros o1 x o2 -> F; rewrite existsb_app in N; cbn in N; rewrite F, orb_true_r in N; discriminate.
Qed.

(** Timer F: the timeout is never reported before 64*T1 after creation, whatever the polling ... *)
Definition is_nict_timeout (o : out) : bool := match o with OCb NICT_STATUS_TIMEOUT _ => true | _ => false end.

Theorem C15_timeout_not_before : forall idle c m en now tr x, timed idle NICT c m en now tr ->
  In x (times is_nict_timeout tr) -> usecs c + ms (64 * T1) < x.
Proof.
  intros idle c m en now tr x H.
  set (act := state_in [NICT_PRE_TRYING; NICT_TRYING; NICT_PROCEEDING]).
  assert (G : (act (t_state (en_t en)) = true -> tv_ok (t_start (en_t en) TF) /\ usecs (t_start (en_t en) TF) = usecs c + ms (64 * T1)) /\
    (forall ev, In ev (en_q en) -> ev_type ev = TIMEOUT_F -> act (t_state (en_t en)) = false \/ usecs c + ms (64 * T1) < usecs now) /\
    (forall x, In x (times is_nict_timeout tr) -> usecs c + ms (64 * T1) < x)).
  { clear x. induction H as [id t Hc H|t q now tr ev H IH Ha Ht|en now tr now' H IH Hl Hi|t ev q now tr e r t' o H IH Hl He].
    - split; [|split; intros ? []]. intros _. apply init_timers in H. destruct H as (v & vs & p & _ & _ & _ & St & _). cbn [en_t]. rewrite St.
      cbn [init_start]. destruct (add_exact c (64 * T1) Hc) as (X1 & X2); [unfold T1; lia|]. split; auto; unfold ms; lia.
    - destruct IH as (I1 & I2 & I3). cbn [en_t en_q] in *. split; [auto|]. split; [|auto]. intros x Hx Hty. apply in_app_iff in Hx.
      destruct Hx as [Hx|[<-|[]]]; [eauto|]. rewrite Hty in Ht. discriminate.
    - destruct IH as (I1 & I2 & I3). destruct Hl as (L1 & L2).
      assert (E : en_t (poll_entry NICT now' en) = en_t en) by (unfold poll_entry; destruct (poll_event _ _ _); reflexivity).
      rewrite E. split; [auto|]. split; [|auto]. intros ev Hv Hty. unfold poll_entry in Hv.
      assert (Old : In ev (en_q en) -> act (t_state (en_t en)) = false \/ usecs c + ms (64 * T1) < usecs now').
      { intros Hv'. destruct (I2 ev Hv' Hty); [auto|right; lia]. }
      destruct (poll_event NICT now' (en_t en)) as [x|] eqn:Ep; [|auto]. cbn [en_q] in Hv. apply in_app_iff in Hv. destruct Hv as [Hv|[<-|[]]]; [auto|].
      apply poll_state in Ep. rewrite Hty in Ep. destruct Ep as (Es & Ed). destruct I1 as (J1 & J2); [destruct Es as [-> | ->]; reflexivity|].
      rewrite due_iff in Ed by auto. right. lia.
    - destruct IH as (I1 & I2 & I3). destruct Hl as (L1 & L2). pose proof (timed_type _ _ _ _ _ _ _ H) as (Ty & HT). cbn [en_t en_q] in *.
      assert (Step : (act (t_state t') = true -> t_start t' TF = t_start t TF /\ act (t_state t) = true) /\
        (filter is_nict_timeout o <> [] -> ev_type ev = TIMEOUT_F /\ act (t_state t) = true)).
      { clear - He Ty. apply execute_inv in He. destruct He as [(-> & Ho & _)|(h & Hin & Hh & _)].
        - split; auto. destruct Ho as [->| ->]; [|destruct (ev_sip ev)]; cbn; congruence.
        - rewrite Ty in Hin. table_cases Hin; try discriminate; rewrite Hs.
          2,7: split; [handler_cases Hh; injection Hh as <- <-; discriminate|auto].
          all: split; [split; [|reflexivity || (handler_cases Hh; injection Hh as <- <-; discriminate)]|
                       intros F; exfalso; apply F; clear F; handler_cases Hh; injection Hh as <- <-; destruct (t_last t); cbn; cb_cases;
                       unfold nict_sent_cb, method_cb; repeat match goal with |- context[is_method ?s ?m] => destruct (is_method s m) end; reflexivity].
          all: handler_cases Hh; injection Hh as <- <-;
               repeat match goal with |- context[if ?b then ?x else _] => match type of x with trans => destruct b end end; try reflexivity. }
      destruct Step as (S1 & S2). split.
      { intros A. destruct (S1 A) as (-> & A'). auto. }
      split.
      { intros x Hx Hty. destruct (I2 x (or_intror Hx) Hty) as [A|A]; [|right; lia]. left. destruct (act (t_state t')) eqn:A'; auto. destruct (S1 eq_refl). congruence. }
      intros x Hx. rewrite times_app, times_stamp in Hx. apply in_app_iff in Hx. destruct Hx as [Hx|Hx]; auto.
      apply in_map_iff in Hx. destruct Hx as (z & <- & Hz). destruct S2 as (S2 & A); [intros F; rewrite F in Hz; destruct Hz|].
      destruct (I2 ev (or_introl eq_refl) S2); [congruence|lia]. }
  destruct G as (_ & _ & G). apply G.
Qed.

(** ... and the first poll after that makes the worker report it and end the transaction. *)
Theorem C15_times_out : forall c m t now tr p e, timed true NICT c m (En t []) now tr ->
  t_state t = NICT_TRYING \/ t_state t = NICT_PROCEEDING -> later now p -> usecs c + ms (64 * T1) < usecs p ->
  exists ev r t', en_q (poll_entry NICT p (En t [])) = [ev] /\
    execute e t ev = Ok (r, t', [OCb NICT_STATUS_TIMEOUT None; OKill NICT]) /\ t_state t' = NICT_TERMINATED.
Proof.
  intros c m t now tr p e H Hs (L1 & L2) Hp. pose proof (timed_type _ _ _ _ _ _ _ H) as (Ty & _). cbn [en_t] in Ty.
  apply timed_e_inv in H. destruct H as (HF & HI). cbn [en_t] in *.
  assert (HF' : tv_ok (t_start t TF) /\ usecs (t_start t TF) = usecs c + ms (64 * T1)) by (apply HF; destruct Hs as [-> | ->]; reflexivity).
  destruct HF' as (F1 & F2). assert (EF : timer_due t TF p = true) by (rewrite due_iff by auto; lia).
  exists (Ev TIMEOUT_F None).
  assert (Pe : poll_event NICT p t = Some (Ev TIMEOUT_F None)).
  { unfold poll_event, need_timer, nict_waiting, is_state. rewrite EF. destruct Hs as [Hs|Hs]; rewrite Hs; reflexivity. }
  unfold poll_entry. cbn [en_q en_t]. rewrite Pe. cbn [en_q app].
  unfold execute. cbn [ev_type]. rewrite Ty. destruct Hs as [Hs|Hs]; rewrite Hs; cbn; rewrite Ty; eexists _, _; auto.
Qed.

(** On a reliable transport nothing is sent again once the request was sent (result 0). *)
Theorem C15_reliable_partial : forall c m en now tr tr1 x m0 h p tr2, timed true NICT c m en now tr ->
  tr = tr1 ++ (x, OSend m0 h p 0) :: tr2 -> reliable_top (mc m0) -> times is_send tr2 = [].
Proof.
  intros c m en now tr tr1 x m0 h p tr2 H E Hr.
  set (rt := fun m1 => match top_proto m1 with Proto q => reliable q | _ => false end).
  set (trig := fun o => match o with OSend m1 _ _ 0 => rt (mc m1) | _ => false end).
  refine (proj2 (timed_after NICT c m (fun _ _ => True) trig is_send
    (fun t => t_state t <> NICT_PRE_TRYING /\ (t_state t = NICT_TRYING \/ t_state t = NICT_PROCEEDING -> tv_sec (t_start t TE) = -1 /\ t_len t TE <= 0)) _ _ en now tr H) _ _ _ _ E _).
  3:{ unfold trig. destruct Hr as (v & vs & q & R1 & R2 & R3). unfold rt, top_proto. rewrite R1, R2, R3. reflexivity. }
  1: auto.
  clear. intros t ev tr e t' o _ (Ty & HT & Ha & He & Hc & Hd & r & Hx).
  apply execute_inv in Hx. destruct Hx as [(-> & Ho & _)|(h & Hin & Hh & _)].
  { assert (N : filter is_send o = [] /\ existsb trig o = false) by (destruct Ho as [->| ->]; [auto|destruct (ev_sip ev); auto]).
    destruct N as (N1 & N2). rewrite N2. split; [discriminate|]. split; [auto|]. apply nothing_after; auto. }
  rewrite Ty in Hin. table_cases Hin; try discriminate; rewrite Hs in *.
  (* events that end the exchange *)
  2,5,6,7,10,11,12: assert (N : filter is_send o = [] /\ (t_state t' = NICT_COMPLETED \/ t_state t' = NICT_TERMINATED)) by
    (handler_cases Hh; injection Hh as <- <-; destruct (t_last t); cbn; auto); destruct N as (N1 & N2);
    assert (Dn : t_state t' <> NICT_PRE_TRYING /\ (t_state t' = NICT_TRYING \/ t_state t' = NICT_PROCEEDING -> tv_sec (t_start t' TE) = -1 /\ t_len t' TE <= 0)) by
      (destruct N2 as [N2|N2]; rewrite N2; split; [discriminate|intros [F|F]; discriminate F|discriminate|intros [F|F]; discriminate F]);
    (split; [auto|]); (split; [auto|]); apply nothing_after; auto.
  1: { (* send *)
    split; [|split; [intros (F & _); congruence|]].
    - intros T. unfold nict_snd_request in Hh. destruct (ev_sip ev) as [m1|]; [|discriminate]. cbn [t_orig set_orig t_dest t_port] in Hh. unfold tp_error in Hh.
      destruct (e_send e >=? 0); [|injection Hh as <- <-; cbn; split; [discriminate|intros [F|F]; discriminate F]].
      destruct (top_proto (mc m1)) as [| |p0] eqn:Ep; try (injection Hh as <- <-; cbn; split; [discriminate|intros [F|F]; discriminate F]).
      injection Hh as <- <-. unfold trig in T. cbn [existsb app orb] in T. rewrite orb_false_r in T.
      destruct (e_send e) eqn:Z0; try discriminate T. unfold rt in T. rewrite Ep in T. rewrite T. cbn. split; [discriminate|]. split; [reflexivity|lia].
    - intros o1 z o2 -> Tz. unfold nict_snd_request in Hh. destruct (ev_sip ev) as [m1|]; [|discriminate]. cbn [t_orig set_orig t_dest t_port] in Hh. unfold tp_error in Hh.
      assert (T2 : exists rest, o1 ++ z :: o2 = OSend m1 (t_dest t) (t_port t) (e_send e) :: rest /\ filter is_send rest = []).
      { destruct (e_send e >=? 0); [destruct (top_proto (mc m1))|]; injection Hh as _ <-; eexists; split; reflexivity. }
      destruct T2 as (rest & E & N). destruct o1 as [|a o1]; cbn in E; injection E as -> E; [subst; auto|].
      rewrite <- E, filter_app in N. apply app_eq_nil in N. destruct N as (_ & N). cbn in N. destruct (is_send z); [discriminate|auto]. }
  2,4: assert (N : filter is_send o = [] /\ existsb trig o = false) by (handler_cases Hh; injection Hh as <- <-; destruct (t_last t); cbn; auto);
    destruct N as (N1 & N2); rewrite N2; (split; [discriminate|]); (split; [|apply nothing_after; auto]);
    intros (_ & D2); destruct (D2 ltac:(auto)) as (D3 & D4); (split; [|auto]);
    unfold nict_rcv_1xx in Hh; destruct (ev_sip ev) as [m1|]; [|discriminate Hh]; cbn [t_len set_last] in Hh;
    replace (t_len t TE >? 0) with false in Hh by lia; injection Hh as <- <-;
    cbn [t_state set_state]; (split; [discriminate|]); intros _; cbn; rewrite ?D3; try lia; auto.
  all: destruct (Hd ltac:(rewrite He0; reflexivity)) as (p & P1 & P2 & P3); apply poll_state in P3; rewrite He0 in P3; destruct P3 as (_ & P3 & _);
    (split; [|split; [intros (_ & D2); destruct (D2 ltac:(auto)) as (D3 & D4); unfold timer_due in P3; rewrite D3 in P3; discriminate P3|]]).
  all: unfold nict_timeout_e in Hh; cbn [t_orig start_timer set_start set_len t_dest t_port] in Hh; destruct (t_orig t) as [m1|]; [|discriminate]; unfold tp_error in Hh.
  1,3: intros T; destruct (e_send e <? 0); [injection Hh as <- <-; cbn; split; [discriminate|intros [F|F]; discriminate F]|];
      destruct (e_send e =? 0) eqn:Z0; [|injection Hh as <- <-; cbn in T; destruct (e_send e); discriminate];
      destruct (top_proto (mc m1)) as [| |p0] eqn:Ep; try (injection Hh as <- <-; cbn; split; [discriminate|intros [F|F]; discriminate F]);
      injection Hh as <- <-; unfold trig in T; cbn [existsb app orb] in T; rewrite orb_false_r in T;
      destruct (e_send e); try discriminate T; unfold rt in T; rewrite Ep in T; rewrite T; cbn; rewrite Hs; (split; [discriminate|]); intros _; split; [reflexivity|lia].
  all: intros o1 z o2 -> Tz;
    assert (T2 : exists rest, o1 ++ z :: o2 = OSend m1 (t_dest t) (t_port t) (e_send e) :: rest /\ filter is_send rest = []) by
      (destruct (e_send e <? 0); [|destruct (e_send e =? 0); [destruct (top_proto (mc m1))|]]; injection Hh as _ <-; eexists; split; reflexivity);
    destruct T2 as (rest & E & N); destruct o1 as [|a o1]; cbn in E; injection E as -> E; [subst; auto|];
    rewrite <- E, filter_app in N; apply app_eq_nil in N; destruct N as (_ & N); cbn in N; destruct (is_send z); [discriminate|auto].
Qed.

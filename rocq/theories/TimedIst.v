(** C14: timer G of the INVITE server transaction. *)
From Coq Require Import String ZArith Ascii Bool List Lia ZifyBool ZifyNat.
From Verif Require Import Base Str StrLemmas Types TimeModel TimeProps PortModel CloneModel TransModel TransSpec
  MatchModel DialogModel StackModel TransProofs TransSteps TransProps TimedSpec TimedIct TimedGen TimedEnd.
Import ListNotations.
Open Scope Z_scope.

(** The sends following the report of a 3xx-6xx answer, other than those made in answer to a copy
    of the INVITE (which directly follow the report of that copy). *)
Fixpoint resends (seen copy : bool) (tr : list stamped) : list Z :=
  match tr with
  | [] => []
  | (x, OCb c a) :: l => resends (seen || is_ist_refused (OCb c a)) (match c with IST_INVITE_RECEIVED_AGAIN => true | _ => false end) l
  | (x, OSend _ _ _ _) :: l => if seen && negb copy then x :: resends seen copy l else resends seen copy l
  | _ :: l => resends seen copy l
  end.
Fixpoint flags (seen copy : bool) (tr : list stamped) : bool * bool :=
  match tr with
  | [] => (seen, copy)
  | (x, OCb c a) :: l => flags (seen || is_ist_refused (OCb c a)) (match c with IST_INVITE_RECEIVED_AGAIN => true | _ => false end) l
  | _ :: l => flags seen copy l
  end.

(** Intervals double up to T2. *)
Definition double_T2 (x : Z) : Z := Z.min (ms T2) (2 * x).

Lemma resends_app : forall a b s c, resends s c (a ++ b) = resends s c a ++ resends (fst (flags s c a)) (snd (flags s c a)) b.
Proof.
  induction a as [|[x o] a IH]; intros b s c; [reflexivity|]. cbn.
  destruct o as [| c0 ?| | |]; auto. destruct (s && negb c); cbn; rewrite IH; auto.
Qed.
Lemma flags_app : forall a b s c, flags s c (a ++ b) = flags (fst (flags s c a)) (snd (flags s c a)) b.
Proof.
  induction a as [|[x o] a IH]; intros b s c; [reflexivity|]. cbn. destruct o as [| c0 ?| | |]; auto.
Qed.

Definition g_inv (rel : bool) (t : trans) (tr : list stamped) : Prop :=
  let R := resends false false tr in
  match t_state t with
  | IST_PRE_PROCEEDING | IST_PROCEEDING => R = [] /\ times is_ist_refused tr = [] /\ fst (flags false false tr) = false /\
      t_len t TG = (if rel then -1 else T1) /\ tv_sec (t_start t TG) = -1
  | IST_COMPLETED => flags false false tr = (true, false) /\ exists y, times is_ist_refused tr = [y] /\ t_last t <> None /\
      if rel then R = [] /\ tv_sec (t_start t TG) = -1
      else spaced double_T2 y (ms T1) R /\ 0 <= t_len t TG <= T2 /\
           ms (t_len t TG) = Nat.iter (length R) double_T2 (ms T1) /\
           tv_ok (t_start t TG) /\ usecs (t_start t TG) = last R y + ms (t_len t TG)
  | _ => (times is_ist_refused tr = [] /\ R = []) \/
      exists y, times is_ist_refused tr = [y] /\ if rel then R = [] else spaced double_T2 y (ms T1) R
  end.

Ltac cb_cases :=
  repeat match goal with |- context[again_cb ?a ?b ?c ?m] => unfold again_cb; destruct (is_1xx m), (is_2xx m) end;
  repeat match goal with |- context[final_cb ?a ?b ?c ?d ?m] => destruct (final_cb_cases a b c d m) as [->|[->|[->| ->]]] end.
Ltac free_cases :=
  repeat match goal with
  | |- context[free_opt (t_last ?t)] => destruct (t_last t)
  | |- context[free_opt (t_ack ?t)] => destruct (t_ack t)
  end.

Lemma g_inv_step : forall rel c t ev tr e t' o, g_inv rel t tr -> exec_at IST c t ev e t' o ->
  g_inv rel t' (tr ++ map (pair (usecs (e_now e))) o).
Proof.
  intros rel c t ev tr e t' o HI (Ty & HT & Ha & He & Hc & Hd & r & Hx). set (nw := usecs (e_now e)) in *.
  assert (RA := resends_app tr (map (pair nw) o) false false).
  assert (FA := flags_app tr (map (pair nw) o) false false).
  assert (TA := times_app is_ist_refused tr (map (pair nw) o)). rewrite times_stamp in TA.
  apply execute_inv in Hx. destruct Hx as [(-> & Ho & _)|(h & Hin & Hh & _)].
  { assert (E1 : resends false false (tr ++ map (pair nw) o) = resends false false tr /\ times is_ist_refused (tr ++ map (pair nw) o) = times is_ist_refused tr
      /\ flags false false (tr ++ map (pair nw) o) = flags false false tr).
    { rewrite RA, FA, TA. destruct Ho as [->| ->]; [|destruct (ev_sip ev)]; cbn; rewrite !app_nil_r; destruct (flags false false tr); auto. }
    destruct E1 as (E1 & E2 & E3). unfold g_inv in *. rewrite E1, E2, E3. exact HI. }
  rewrite Ty in Hin. table_cases Hin; try discriminate; unfold g_inv in HI; rewrite Hs in HI.
  - destruct HI as (R & T & F & L & S). destruct (flags false false tr) as [f1 f2]. cbn [fst snd] in *. subst f1.
    handler_cases Hh. injection Hh as <- <-. unfold g_inv. rewrite RA, FA, TA, R, T. cbn. auto.
  - destruct HI as (R & T & F & L & S). destruct (flags false false tr) as [f1 f2]. cbn [fst snd] in *. subst f1.
    handler_cases Hh; try discriminate; injection Hh as <- <-; unfold g_inv; rewrite RA, FA, TA, R, T; cbn; rewrite ?Hs; cb_cases; cbn; auto.
  - destruct HI as (F & y & T & La & HI). rewrite F in RA, FA. cbn [fst snd] in *.
    handler_cases Hh; try discriminate; try congruence; injection Hh as <- <-; unfold g_inv; rewrite RA, FA, TA, T; cbn; rewrite ?Hs;
      cb_cases; cbn; rewrite !app_nil_r;
      try (split; [reflexivity|exists y; split; [reflexivity|split; [congruence|exact HI]]]);
      right; exists y; (split; [reflexivity|]); destruct rel; apply HI.
  - destruct HI as (F & y & T & La & HI). rewrite F in RA, FA. cbn [fst snd] in *.
    destruct (Hd ltac:(rewrite He0; reflexivity)) as (p & P1 & P2 & P3). apply poll_state in P3. rewrite He0 in P3. destruct P3 as (_ & P3 & _).
    destruct rel. { unfold timer_due in P3. destruct HI as (_ & HI). rewrite HI in P3. discriminate. }
    destruct HI as (I1 & I2 & I3 & I4 & I5). rewrite due_iff in P3 by auto.
    assert (Sp : spaced double_T2 y (ms T1) (resends false false tr ++ [nw])) by (apply spaced_snoc; [auto|rewrite <- I3; lia]).
    assert (L2 : 0 <= (if t_len t TG * 2 >? T2 then T2 else t_len t TG * 2) <= T2).
    { unfold T2 in *. destruct (_ >? _) eqn:?; lia. }
    destruct (add_exact (e_now e) (if t_len t TG * 2 >? T2 then T2 else t_len t TG * 2) He) as (A1 & A2); [unfold T2 in *; lia|].
    assert (Len : ms (if t_len t TG * 2 >? T2 then T2 else t_len t TG * 2) = Nat.iter (length (resends false false tr ++ [nw])) double_T2 (ms T1)).
    { rewrite app_length, Nat.add_1_r. cbn [length Nat.add]. change (Nat.iter (S (length (resends false false tr))) double_T2 (ms T1)) with
        (double_T2 (Nat.iter (length (resends false false tr)) double_T2 (ms T1))). rewrite <- I3. unfold double_T2, ms. destruct (_ >? _) eqn:?; lia. }
    handler_cases Hh; try discriminate; try congruence; injection Hh as <- <-; unfold g_inv; rewrite RA, FA, TA, T; cbn -[ms T1 T2 Z.gtb Z.mul]; rewrite ?Hs;
      cb_cases; cbn -[ms T1 T2 Z.gtb Z.mul]; rewrite ?app_nil_r;
      try (right; exists y; (split; [reflexivity|]); assumption);
      (split; [reflexivity|]); exists y; (split; [reflexivity|]); (split; [congruence|]); repeat (split; [assumption|]); rewrite last_snoc; unfold ms; lia.
  - destruct HI as (F & y & T & La & HI). rewrite F in RA, FA. cbn [fst snd] in *.
    handler_cases Hh. injection Hh as <- <-. unfold g_inv. rewrite RA, FA, TA, T. cbn -[ms]. rewrite app_nil_r. right; exists y; (split; [reflexivity|]). destruct rel; apply HI.
  - destruct HI as (R & T & F & L & S). destruct (flags false false tr) as [f1 f2]. cbn [fst snd] in *. subst f1.
    handler_cases Hh; try discriminate; injection Hh as <- <-; unfold g_inv; rewrite RA, FA, TA, R, T; free_cases; cbn; rewrite ?Hs; cbn; auto.
  - destruct HI as (R & T & F & L & S). destruct (flags false false tr) as [f1 f2]. cbn [fst snd] in *. subst f1.
    handler_cases Hh; try discriminate; injection Hh as <- <-; unfold g_inv; rewrite RA, FA, TA, R, T; free_cases; cbn; rewrite ?Hs; cbn; auto.
  - destruct HI as (R & T & F & L & S). destruct (flags false false tr) as [f1 f2]. cbn [fst snd] in *. subst f1.
    destruct (add_exact (e_now e) T1 He) as (A1 & A2); [unfold T1; lia|].
    handler_cases Hh; try discriminate; injection Hh as <- <-; unfold g_inv; rewrite RA, FA, TA, R, T; free_cases;
      cb_cases; cbn -[ms T1 T2]; auto.
    all: (split; [reflexivity|]); exists nw; (split; [reflexivity|]); (split; [discriminate|]).
    all: match goal with Hb : negb (t_len _ TG =? -1) = _ |- _ => cbn [t_len set_last] in Hb; rewrite L in Hb; destruct rel; try discriminate Hb end.
    all: try (split; [reflexivity|assumption]). all: rewrite L.
    all: (split; [exact I|]); (split; [unfold T1, T2; lia|]); (split; [reflexivity|]); (split; [assumption|]); unfold ms; lia.
  - destruct HI as (F & y & T & La & HI). rewrite F in RA, FA. cbn [fst snd] in *.
    handler_cases Hh. injection Hh as <- <-. unfold g_inv. rewrite RA, FA, TA, T. free_cases; cbn -[ms]; rewrite app_nil_r; right; exists y; (split; [reflexivity|]); destruct rel; apply HI.
  - handler_cases Hh. injection Hh as <- <-. unfold g_inv. rewrite RA, FA, TA. free_cases; cbn -[ms]; rewrite !app_nil_r; auto.
  - handler_cases Hh. injection Hh as <- <-. unfold g_inv. rewrite RA, FA, TA. free_cases; cbn -[ms]; rewrite !app_nil_r; auto.
Qed.

Lemma timed_g_inv : forall c m en now tr, timed true IST c m en now tr -> g_inv (via_reliable m) (en_t en) tr.
Proof.
  intros c m en now tr H. revert en now tr H. apply timed_ind_exec.
  - intros id t Hc Hi. pose proof (init_len_of _ _ _ _ _ Hi) as (L & S). apply init_timers in Hi. destruct Hi as (v & vs & p & _ & _ & _ & St & _).
    unfold g_inv. rewrite S, L, St. cbn. auto.
  - intros t ev now tr e r t' o HI Ty HT Ha He Hn Hle Hc Hd Hx. eapply g_inv_step; eauto.
    repeat split; auto; try apply He; try lia; eauto. intros Ht. destruct (Hd Ht) as (p & P1 & P2 & P3). exists p. repeat split; auto; try apply P1. lia.
Qed.

(** A 3xx-6xx answer is announced once; its resends by timer start more than T1 later and are
    spaced by intervals doubling up to T2; there is none on a reliable transport. *)
Theorem C14_schedule_partial : forall c m en now tr y ys, timed true IST c m en now tr -> times is_ist_refused tr = y :: ys ->
  ys = [] /\ if via_reliable m then resends false false tr = [] else spaced double_T2 y (ms T1) (resends false false tr).
Proof.
  intros c m en now tr y ys H E. apply timed_g_inv in H. unfold g_inv in H. rewrite E in H.
  destruct (t_state (en_t en)); try (destruct H as (_ & H & _); discriminate H);
    try (destruct H as [(H & _)|(y0 & H & G)]; [discriminate|injection H as -> ->; auto]).
  destruct H as (_ & y0 & H & _ & G). injection H as -> ->. split; auto. destruct (via_reliable m); apply G.
Qed.

(** None is late: at the first poll after the next interval (and before timer H) the worker sends
    the last response again, to where responses go. *)
Theorem C14_resends : forall c m t now tr p e, timed true IST c m (En t []) now tr -> t_state t = IST_COMPLETED -> via_reliable m = false ->
  later now p -> exists y r, times is_ist_refused tr = [y] /\ t_last t = Some r /\
  (let R := resends false false tr in
   last R y + Nat.iter (length R) double_T2 (ms T1) < usecs p <= y + ms (64 * T1) ->
   exists ev rc t' o, en_q (poll_entry IST p (En t [])) = [ev] /\ execute e t ev = Ok (rc, t', o) /\
     filter is_send o = fst (snd_xxx e r)).
Proof.
  intros c m t now tr p e H Hs Hr (L1 & L2). pose proof (timed_type _ _ _ _ _ _ _ H) as (Ty & _). cbn [en_t] in Ty.
  assert (HI : linger_inv TH TIMEOUT_H IST_COMPLETED IST_TERMINATED (state_in [IST_CONFIRMED; IST_TERMINATED]) is_ist_refused refused_over len_H (En t []) now tr).
  { eapply linger_timed; eauto using linger_H. intros id t0 Hi. apply init_len_of in Hi. destruct Hi as (-> & ->).
    split; [reflexivity|]. split; [discriminate|reflexivity]. }
  destruct HI as (_ & _ & HI & _). cbn [en_t] in HI. rewrite Hs in HI.
  destruct HI as [(_ & B & _)|[(_ & l & y & C & D1 & D2 & _)|(B & _)]]; [congruence| |discriminate].
  pose proof (timed_g_inv _ _ _ _ _ H) as G. unfold g_inv in G. cbn [en_t] in G. rewrite Hs, Hr in G.
  destruct G as (F & y0 & T & La & I1 & I2 & I3 & I4 & I5). destruct (t_last t) as [r|] eqn:El; [|congruence]. exists y0, r. split; auto. split; auto.
  cbv zeta. intros (P1 & P2). rewrite <- I3 in P1.
  assert (y = y0). { rewrite C in T. destruct l as [|a l]; [injection T; auto|]. injection T as _ T. destruct l; discriminate. } subst y0.
  assert (EG : timer_due t TG p = true) by (rewrite due_iff by auto; lia).
  assert (EH : timer_due t TH p = false) by (rewrite due_iff by auto; unfold len_H in *; lia).
  exists (Ev TIMEOUT_G None). unfold poll_entry, poll_event, need_timer, is_state. cbn [en_q en_t]. rewrite Hs, EG, EH. cbn.
  unfold execute. cbn [ev_type]. rewrite Ty, Hs. cbn [table lookup ist_table find fst snd state_eqb etype_eqb state_num etype_num Nat.eqb andb].
  unfold ist_timeout_g. cbn [t_last start_timer set_start set_len]. rewrite El. unfold snd_xxx, tp_error.
  destruct (m_vias (mc r)) as [|v vs]; [eexists _, _, _; cbn; auto|].
  destruct (negb (e_send e =? 0)); eexists _, _, _; cbn; auto.
Qed.

(** Once an ACK has been announced nothing is sent any more. *)
Theorem C14_until_ack : forall idle c m en now tr tr1 y x tr2, timed idle IST c m en now tr ->
  tr = tr1 ++ (y, x) :: tr2 -> is_ack_received x = true -> times is_send tr2 = [].
Proof.
  intros idle c m en now tr tr1 y x tr2 H. revert tr1 y x tr2.
  refine (proj2 (timed_after_any idle IST c m is_ack_received is_send (fun t => t_state t = IST_CONFIRMED \/ t_state t = IST_TERMINATED) _ en now tr H)).
  clear. intros t ev e r t' o Ty HT Ha Hx. apply execute_inv in Hx. destruct Hx as [(-> & Ho & _)|(h & Hin & Hh & _)].
  { assert (N : filter is_send o = [] /\ existsb is_ack_received o = false) by (destruct Ho as [->| ->]; [auto|destruct (ev_sip ev); auto]).
    destruct N as (N1 & N2). rewrite N2. split; [discriminate|]. split; [auto|]. apply nothing_after; auto. }
  rewrite Ty in Hin. table_cases Hin; try discriminate; rewrite Hs in *.
  9,10,11: assert (N : filter is_send o = [] /\ (t_state t' = IST_CONFIRMED \/ t_state t' = IST_TERMINATED)) by
    (handler_cases Hh; injection Hh as <- <-; free_cases; cbn; auto); destruct N as (N1 & N2); (split; [auto|]); (split; [auto|]); apply nothing_after; auto.
  all: assert (N : existsb is_ack_received o = false) by
    (handler_cases Hh; injection Hh as <- <-; free_cases; cbn; cb_cases; reflexivity);
    rewrite N; (split; [discriminate|]); (split; [intros [F|F]; discriminate|]);
    intros o1 x o2 -> F; rewrite existsb_app in N; cbn in N; rewrite F, orb_true_r in N; discriminate.
Qed.

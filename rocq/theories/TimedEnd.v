(** C12 (timer D), C14 (timers H and I), C15 (timer K), C16 (timer J): how long a transaction that
    has done its work stays. *)
From Coq Require Import String ZArith Ascii Bool List Lia ZifyBool ZifyNat.
From Verif Require Import Base Str StrLemmas Types TimeModel TimeProps PortModel CloneModel TransModel TransSpec
  MatchModel DialogModel StackModel TransProofs TransSteps TransProps TimedSpec TimedIct TimedGen.
Import ListNotations.
Open Scope Z_scope.

(** The topmost Via of the request a transaction is created for names a reliable transport. *)
Definition via_reliable (m : message) : bool :=
  match m_vias m with v :: _ => match v_protocol v with Some p => reliable p | None => false end | [] => false end.

Lemma init_len_of : forall k c id m t, trans_init k c id (Some m) = Ok t ->
  t_len t = init_len k (via_reliable m) /\ t_state t = init_state k.
Proof.
  intros k c id m t H. apply init_timers in H. destruct H as (v & vs & p & E1 & E2 & E3 & E4 & E5 & _).
  unfold via_reliable. rewrite E1, E2. auto.
Qed.


Definition is_ack_sent (o : out) : bool := match o with OCb ICT_ACK_SENT _ => true | _ => false end.
Definition is_ist_refused (o : out) : bool :=
  match o with OCb (IST_STATUS_3XX_SENT | IST_STATUS_4XX_SENT | IST_STATUS_5XX_SENT | IST_STATUS_6XX_SENT) _ => true | _ => false end.
Definition is_ack_received (o : out) : bool :=
  match o with OCb (IST_ACK_RECEIVED | IST_ACK_RECEIVED_AGAIN) _ => true | _ => false end.
Definition is_nict_final (o : out) : bool :=
  match o with OCb (NICT_STATUS_2XX_RECEIVED | NICT_STATUS_3XX_RECEIVED | NICT_STATUS_4XX_RECEIVED
                   | NICT_STATUS_5XX_RECEIVED | NICT_STATUS_6XX_RECEIVED) _ => true | _ => false end.
Definition is_nist_final (o : out) : bool :=
  match o with OCb (NIST_STATUS_2XX_SENT | NIST_STATUS_3XX_SENT | NIST_STATUS_4XX_SENT
                   | NIST_STATUS_5XX_SENT | NIST_STATUS_6XX_SENT) _ => true | _ => false end.

Lemma is_final_cb : forall f a b c d m m', f (OCb a m') = true -> f (OCb b m') = true -> f (OCb c m') = true -> f (OCb d m') = true ->
  f (OCb (final_cb a b c d m) m') = true.
Proof. intros. destruct (final_cb_cases a b c d m) as [->|[->|[->| ->]]]; auto. Qed.
Lemma not_final_cb : forall f a b c d m m', f (OCb a m') = false -> f (OCb b m') = false -> f (OCb c m') = false -> f (OCb d m') = false ->
  f (OCb (final_cb a b c d m) m') = false.
Proof. intros. destruct (final_cb_cases a b c d m) as [->|[->|[->| ->]]]; auto. Qed.

Definition state_in (l : list state) (s : state) : bool := existsb (state_eqb s) l.

Lemma poll_state : forall p k t ev, poll_event k p t = Some ev ->
  match ev_type ev with
  | TIMEOUT_D => t_state t = ICT_COMPLETED /\ timer_due t TD p = true
  | TIMEOUT_H => t_state t = IST_COMPLETED /\ timer_due t TH p = true
  | TIMEOUT_G => t_state t = IST_COMPLETED /\ timer_due t TG p = true /\ timer_due t TH p = false
  | TIMEOUT_I => t_state t = IST_CONFIRMED /\ timer_due t TI p = true
  | TIMEOUT_K => t_state t = NICT_COMPLETED /\ timer_due t TK p = true
  | TIMEOUT_F => (t_state t = NICT_TRYING \/ t_state t = NICT_PROCEEDING) /\ timer_due t TF p = true
  | TIMEOUT_E => (t_state t = NICT_TRYING \/ t_state t = NICT_PROCEEDING) /\ timer_due t TE p = true /\ timer_due t TF p = false
  | TIMEOUT_J => t_state t = NIST_COMPLETED /\ timer_due t TJ p = true
  | _ => True
  end.
Proof.
  intros p k t ev H. unfold poll_event, need_timer, nict_waiting, is_state in H.
  destruct k; destruct (t_state t); cbn [state_eqb state_num Nat.eqb andb orb] in H;
    repeat match type of H with context[timer_due t ?x p] => destruct (timer_due t x p) eqn:? end;
    try discriminate; injection H as <-; cbn; auto.
Qed.

Ltac linger_tac :=
  let p := fresh in let t := fresh "t" in let ev := fresh "ev" in let H := fresh in let H' := fresh in
  split; [reflexivity|]; split; [reflexivity|]; split; [reflexivity|]; split; [match goal with |- context[if ?b then _ else _] => destruct b | _ => idtac end; unfold T1, T4; cbn; lia|];
  split; [intros p t ev H H'; apply poll_state in H; rewrite H' in H; exact H|].

Ltac linger_step Hx Ty HL :=
  let Hin := fresh "Hin" in let Hh := fresh "Hh" in let Hs := fresh "Hs" in let Ho := fresh "Ho" in let h := fresh "h" in
  apply execute_inv in Hx; destruct Hx as [(-> & Ho & Hs & _)|(h & Hin & Hh & _)];
  [|rewrite Ty in Hin; table_cases Hin; try discriminate;
    match goal with Hs : t_state _ = _ |- _ => rewrite Hs in HL |- * end;
    try specialize (HL eq_refl)].

Lemma ignored_step : forall idle mark esc (st term : state) (after : state -> bool) (x : timer) TO D e t ev o,
  (forall m, mark (OFree m) = false) ->
  (o = [] \/ o = free_opt (ev_sip ev)) -> (after (t_state t) = false -> t_len t x = D) ->
  (after (t_state t) = false -> t_len t x = D /\ filter is_kill o = []) /\
     ((after (t_state t) = true /\ after (t_state t) = true /\ filter mark o = [] /\
        (t_state t = term -> t_state t = term /\ filter is_kill o = [])) \/
      (after (t_state t) = false /\ t_state t <> st /\ t_state t <> st /\ filter mark o = [] /\
        (after (t_state t) = true -> t_state t = term)) \/
      (after (t_state t) = false /\ t_state t <> st /\ t_state t = st /\ (exists z, filter mark o = [z]) /\
        t_start t x = add_gettimeofday (e_now e) D) \/
      (t_state t = st /\ t_state t = st /\
        ((filter mark o = [] /\ t_start t x = t_start t x) \/
         (idle = true /\ (exists z, filter mark o = [z]) /\ t_start t x = add_gettimeofday (e_now e) D))) \/
      (t_state t = st /\ after (t_state t) = true /\ filter mark o = [] /\
        (existsb esc o = true \/ (ev_type ev = TO /\ t_state t = term)))).
Proof.
  intros idle mark esc st term after x TO D e t ev o Hm Ho Hl.
  assert (K1 : filter is_kill o = []) by (destruct Ho as [->| ->]; [|destruct (ev_sip ev)]; reflexivity).
  assert (K2 : filter mark o = []) by (destruct Ho as [->| ->]; [|destruct (ev_sip ev); cbn; rewrite ?Hm]; reflexivity).
  split; [auto|]. destruct (after (t_state t)) eqn:A; [left; auto|].
  destruct (state_eqb (t_state t) st) eqn:E; [apply state_eqb_eq in E; right; right; right; left; auto|].
  right; left. repeat split; auto; intros F; try discriminate F; apply state_eqb_eq in F; congruence.
Qed.

Ltac out_tac HL :=
  repeat match goal with
  | |- context[free_opt (t_last ?t)] => destruct (t_last t)
  | |- context[free_opt (t_ack ?t)] => destruct (t_ack t)
  end;
  cbn [app filter free_opt existsb orb is_kill is_tperr is_ack_sent is_ist_refused is_ack_received is_nict_final is_nist_final];
  repeat match goal with |- context[method_cb] => unfold method_cb | |- context[nict_sent_cb] => unfold nict_sent_cb, method_cb
    | |- context[nist_rcv_cb] => unfold nist_rcv_cb, method_cb end;
  repeat match goal with |- context[is_method ?s ?m] => destruct (is_method s m) end;
  repeat match goal with |- context[again_cb ?a ?b ?c ?m] => unfold again_cb; destruct (is_1xx m), (is_2xx m) end;
  repeat match goal with |- context[final_cb ?a ?b ?c ?d ?m] => destruct (final_cb_cases a b c d m) as [->|[->|[->| ->]]] end;
  cbn; rewrite ?HL; solve [auto | discriminate | eauto | left; eauto | right; eauto].

Ltac pick_case HL :=
  first [ left; repeat split; solve [out_tac HL]
        | right; left; repeat split; solve [out_tac HL]
        | right; right; left; repeat split; solve [out_tac HL]
        | right; right; right; left; repeat split; solve [out_tac HL]
        | right; right; right; right; repeat split; solve [out_tac HL] ].

Ltac linger_all HL Hh :=
  handler_cases Hh; injection Hh as <- <-;
  repeat match goal with
  | |- context[if ?b then ?x else _] => match type of x with trans => destruct b end
  | |- context[match m_uri ?a with Some _ => _ | None => _ end] => destruct (m_uri a)
  end;
  cbn [t_state t_len t_start t_last t_ack set_state set_orig set_last set_ack set_dest set_len set_start start_timer stop_timer upd timer_eqb
       state_in existsb state_eqb state_num Nat.eqb orb];
  repeat match goal with Hs : t_state ?t = _ |- context[t_state ?t] => rewrite Hs end;
  cbn [state_in existsb state_eqb state_num Nat.eqb orb];
  (split; [let F := fresh "F" in intros F; try discriminate F; (split; [first [exact HL|assumption]|out_tac HL])|pick_case HL]).

Definition len_D (rel : bool) : Z := if rel then 0 else 32000.
Lemma linger_D : forall idle rel, lingers idle ICT TD TIMEOUT_D ICT_COMPLETED ICT_TERMINATED (state_in [ICT_TERMINATED]) is_ack_sent is_tperr (len_D rel).
Proof.
  intros idle rel. unfold len_D. linger_tac. set (D := if rel then 0 else 32000). intros e t ev r t' o Ty HT Ha HL Hx.
  linger_step Hx Ty HL; [apply ignored_step; auto|..].
  all: linger_all HL Hh.
Qed.

Definition len_H : Z := 64 * T1.
Definition refused_over (o : out) : bool := is_tperr o || is_ack_received o.
Lemma linger_H : forall idle, lingers idle IST TH TIMEOUT_H IST_COMPLETED IST_TERMINATED (state_in [IST_CONFIRMED; IST_TERMINATED])
  is_ist_refused refused_over len_H.
Proof.
  intros idle. unfold len_H. linger_tac. set (D := 64 * T1). intros e t ev r t' o Ty HT Ha HL Hx.
  linger_step Hx Ty HL; [apply ignored_step; auto|..].
  all: linger_all HL Hh.
Qed.

Definition len_I (rel : bool) : Z := if rel then 0 else T4.
Lemma linger_I : forall rel, lingers true IST TI TIMEOUT_I IST_CONFIRMED IST_TERMINATED (state_in [IST_TERMINATED])
  is_ack_received is_tperr (len_I rel).
Proof.
  intros rel. unfold len_I. linger_tac. set (D := if rel then 0 else T4). intros e t ev r t' o Ty HT Ha HL Hx.
  linger_step Hx Ty HL; [apply ignored_step; auto|..].
  all: linger_all HL Hh.
Qed.

Definition len_K (rel : bool) : Z := if rel then 0 else T4.
Lemma linger_K : forall idle rel, lingers idle NICT TK TIMEOUT_K NICT_COMPLETED NICT_TERMINATED (state_in [NICT_TERMINATED])
  is_nict_final is_tperr (len_K rel).
Proof.
  intros idle rel. unfold len_K. linger_tac. set (D := if rel then 0 else T4). intros e t ev r t' o Ty HT Ha HL Hx.
  linger_step Hx Ty HL; [apply ignored_step; auto|..].
  all: linger_all HL Hh.
Qed.

Definition len_J (rel : bool) : Z := if rel then 0 else 64 * T1.
Lemma linger_J : forall idle rel, lingers idle NIST TJ TIMEOUT_J NIST_COMPLETED NIST_TERMINATED (state_in [NIST_TERMINATED])
  is_nist_final is_tperr (len_J rel).
Proof.
  intros idle rel. unfold len_J. linger_tac. set (D := if rel then 0 else 64 * T1). intros e t ev r t' o Ty HT Ha HL Hx.
  linger_step Hx Ty HL; [apply ignored_step; auto|..].
  all: linger_all HL Hh.
Qed.


(** * Theorems *)

(** Timer D: after the ACK of a 3xx-6xx the transaction is not reported dead (unless a transport
    error occurred) before 32 s have passed, or at once on a reliable transport ... *)
Theorem C12_timer_D : forall idle c m en now tr y z, timed idle ICT c m en now tr ->
  In y (times is_ack_sent tr) -> In z (times is_kill tr) -> times is_tperr tr <> [] \/ y + ms (len_D (via_reliable m)) < z.
Proof.
  intros. eapply linger_not_before; eauto using linger_D. intros id t Hi. apply init_len_of in Hi. destruct Hi as (-> & ->).
  split; [reflexivity|]. split; [discriminate|reflexivity].
Qed.

(** ... and goes away at the first poll after that. *)
Theorem C12_timer_D_ends : forall idle c m t now tr p e, timed idle ICT c m (En t []) now tr -> t_state t = ICT_COMPLETED ->
  later now p -> (forall y, In y (times is_ack_sent tr) -> y + ms (len_D (via_reliable m)) < usecs p) ->
  exists ev r t', en_q (poll_entry ICT p (En t [])) = [ev] /\ execute e t ev = Ok (r, t', [OKill ICT]) /\ t_state t' = ICT_TERMINATED.
Proof.
  intros idle c m t now tr p e H Hs (L1 & L2) Hy. pose proof (timed_type _ _ _ _ _ _ _ H) as (Ty & _). cbn [en_t] in Ty.
  assert (Due : timer_due t TD p = true).
  { change t with (en_t (En t [])). eapply linger_due; eauto using linger_D. intros id t0 Hi. apply init_len_of in Hi. destruct Hi as (-> & ->).
    split; [reflexivity|]. split; [discriminate|reflexivity]. }
  exists (Ev TIMEOUT_D None). unfold poll_entry, poll_event, need_timer, is_state. cbn [en_q en_t]. rewrite Hs, Due. 
  unfold execute. cbn [ev_type]. rewrite Ty, Hs. cbn. rewrite Ty. eexists _, _. auto.
Qed.

(** Timer H: an unacknowledged 3xx-6xx keeps the transaction for 64*T1, not less ... *)
Theorem C14_timer_H : forall idle c m en now tr y z, timed idle IST c m en now tr ->
  In y (times is_ist_refused tr) -> In z (times is_kill tr) ->
  times is_tperr tr <> [] \/ times is_ack_received tr <> [] \/ y + ms (64 * T1) < z.
Proof.
  intros idle c m en now tr y z H Hy Hz.
  assert (G : times refused_over tr <> [] \/ y + ms len_H < z).
  { eapply linger_not_before; eauto using linger_H. intros id t Hi. apply init_len_of in Hi. destruct Hi as (-> & ->).
    split; [reflexivity|]. split; [discriminate|reflexivity]. }
  destruct G as [G|G]; [|auto]. clear -G. unfold times in *. induction tr as [|[a x] tr IH]; [cbn in G; congruence|].
  cbn in *. unfold refused_over in G at 1. destruct (is_tperr x); cbn in *; [left; discriminate|].
  destruct (is_ack_received x); cbn in *; [right; left; discriminate|]. destruct (IH G) as [?|[?|?]]; auto.
Qed.

(** ... and the first poll after that ends it. *)
Theorem C14_timer_H_ends : forall idle c m t now tr p e, timed idle IST c m (En t []) now tr -> t_state t = IST_COMPLETED ->
  later now p -> (forall y, In y (times is_ist_refused tr) -> y + ms (64 * T1) < usecs p) ->
  exists ev r t', en_q (poll_entry IST p (En t [])) = [ev] /\ execute e t ev = Ok (r, t', [OKill IST]) /\ t_state t' = IST_TERMINATED.
Proof.
  intros idle c m t now tr p e H Hs (L1 & L2) Hy. pose proof (timed_type _ _ _ _ _ _ _ H) as (Ty & _). cbn [en_t] in Ty.
  assert (Due : timer_due t TH p = true).
  { change t with (en_t (En t [])). eapply linger_due; eauto using linger_H. intros id t0 Hi. apply init_len_of in Hi. destruct Hi as (-> & ->).
    split; [reflexivity|]. split; [discriminate|reflexivity]. }
  exists (Ev TIMEOUT_H None). unfold poll_entry, poll_event, need_timer, is_state. cbn [en_q en_t]. rewrite Hs, Due. 
  unfold execute. cbn [ev_type]. rewrite Ty, Hs. cbn. rewrite Ty. eexists _, _. auto.
Qed.

(** Timer I: after an ACK the transaction stays T4 (nothing on a reliable transport) counted from
    the last ACK, provided its timers are polled only when its queue is empty ... *)
Theorem C14_timer_I_partial : forall c m en now tr y z, timed true IST c m en now tr ->
  In y (times is_ack_received tr) -> In z (times is_kill tr) -> times is_tperr tr <> [] \/ y + ms (len_I (via_reliable m)) < z.
Proof.
  intros. eapply linger_not_before; eauto using linger_I. intros id t Hi. apply init_len_of in Hi. destruct Hi as (-> & ->).
  split; [reflexivity|]. split; [discriminate|reflexivity].
Qed.

(** ... and the first poll after that ends it. *)
Theorem C14_timer_I_ends : forall c m t now tr p e, timed true IST c m (En t []) now tr -> t_state t = IST_CONFIRMED ->
  later now p -> (forall y, In y (times is_ack_received tr) -> y + ms (len_I (via_reliable m)) < usecs p) ->
  exists ev r t', en_q (poll_entry IST p (En t [])) = [ev] /\ execute e t ev = Ok (r, t', [OKill IST]) /\ t_state t' = IST_TERMINATED.
Proof.
  intros c m t now tr p e H Hs (L1 & L2) Hy. pose proof (timed_type _ _ _ _ _ _ _ H) as (Ty & _). cbn [en_t] in Ty.
  assert (Due : timer_due t TI p = true).
  { change t with (en_t (En t [])). eapply linger_due; eauto using linger_I. intros id t0 Hi. apply init_len_of in Hi. destruct Hi as (-> & ->).
    split; [reflexivity|]. split; [discriminate|reflexivity]. }
  exists (Ev TIMEOUT_I None). unfold poll_entry, poll_event, need_timer, is_state. cbn [en_q en_t]. rewrite Hs, Due. 
  unfold execute. cbn [ev_type]. rewrite Ty, Hs. cbn. rewrite Ty. eexists _, _. auto.
Qed.

(** Timer K *)
Theorem C15_timer_K : forall idle c m en now tr y z, timed idle NICT c m en now tr ->
  In y (times is_nict_final tr) -> In z (times is_kill tr) -> times is_tperr tr <> [] \/ y + ms (len_K (via_reliable m)) < z.
Proof.
  intros. eapply linger_not_before; eauto using linger_K. intros id t Hi. apply init_len_of in Hi. destruct Hi as (-> & ->).
  split; [reflexivity|]. split; [discriminate|reflexivity].
Qed.

Theorem C15_timer_K_ends : forall idle c m t now tr p e, timed idle NICT c m (En t []) now tr -> t_state t = NICT_COMPLETED ->
  later now p -> (forall y, In y (times is_nict_final tr) -> y + ms (len_K (via_reliable m)) < usecs p) ->
  exists ev r t', en_q (poll_entry NICT p (En t [])) = [ev] /\ execute e t ev = Ok (r, t', [OKill NICT]) /\ t_state t' = NICT_TERMINATED.
Proof.
  intros idle c m t now tr p e H Hs (L1 & L2) Hy. pose proof (timed_type _ _ _ _ _ _ _ H) as (Ty & _). cbn [en_t] in Ty.
  assert (Due : timer_due t TK p = true).
  { change t with (en_t (En t [])). eapply linger_due; eauto using linger_K. intros id t0 Hi. apply init_len_of in Hi. destruct Hi as (-> & ->).
    split; [reflexivity|]. split; [discriminate|reflexivity]. }
  exists (Ev TIMEOUT_K None). unfold poll_entry, poll_event, need_timer, is_state. cbn [en_q en_t]. rewrite Hs, Due. 
  unfold execute. cbn [ev_type]. rewrite Ty, Hs. cbn. rewrite Ty. eexists _, _. auto.
Qed.

(** Timer J *)
Theorem C16_timer_J : forall idle c m en now tr y z, timed idle NIST c m en now tr ->
  In y (times is_nist_final tr) -> In z (times is_kill tr) -> times is_tperr tr <> [] \/ y + ms (len_J (via_reliable m)) < z.
Proof.
  intros. eapply linger_not_before; eauto using linger_J. intros id t Hi. apply init_len_of in Hi. destruct Hi as (-> & ->).
  split; [reflexivity|]. split; [discriminate|reflexivity].
Qed.

Theorem C16_timer_J_ends : forall idle c m t now tr p e, timed idle NIST c m (En t []) now tr -> t_state t = NIST_COMPLETED ->
  later now p -> (forall y, In y (times is_nist_final tr) -> y + ms (len_J (via_reliable m)) < usecs p) ->
  exists ev r t', en_q (poll_entry NIST p (En t [])) = [ev] /\ execute e t ev = Ok (r, t', [OKill NIST]) /\ t_state t' = NIST_TERMINATED.
Proof.
  intros idle c m t now tr p e H Hs (L1 & L2) Hy. pose proof (timed_type _ _ _ _ _ _ _ H) as (Ty & _). cbn [en_t] in Ty.
  assert (Due : timer_due t TJ p = true).
  { change t with (en_t (En t [])). eapply linger_due; eauto using linger_J. intros id t0 Hi. apply init_len_of in Hi. destruct Hi as (-> & ->).
    split; [reflexivity|]. split; [discriminate|reflexivity]. }
  exists (Ev TIMEOUT_J None). unfold poll_entry, poll_event, need_timer, is_state. cbn [en_q en_t]. rewrite Hs, Due. 
  unfold execute. cbn [ev_type]. rewrite Ty, Hs. cbn. rewrite Ty. eexists _, _. auto.
Qed.

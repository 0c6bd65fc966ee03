(** Invariants of the stack along any history of API calls. *)
From Coq Require Import String ZArith Ascii Bool List Lia ZifyBool.
From Verif Require Import Base Str StrLemmas Types TimeModel TimeProps PortModel CloneModel TransModel TransSpec
  MatchModel DialogModel StackModel TransProofs TransSteps StackProps.
Import ListNotations.
Open Scope Z_scope.

(** Histories: clocks show normalised times, and timeout events are made by the polling functions
    only (the application and the network bring messages). *)
Definition good_op (a : op) : Prop :=
  match a with
  | OpCreate now ev => tv_ok now
  | OpAdd _ _ ev => is_timeout (ev_type ev) = false
  | OpFind ev _ => is_timeout (ev_type ev) = false
  | OpPoll _ now => tv_ok now
  | OpWork _ E => forall i n, tv_ok (e_now (E i n))
  | OpStart2xx now _ _ => tv_ok now
  | OpStartAck now _ _ _ _ => tv_ok now
  | OpRetransmit now => tv_ok now
  | _ => True
  end.

Definition reachable (s : osip) : Prop :=
  exists l rs, Forall good_op l /\ steps osip_init l = Ok (rs, s).

Lemma steps_app : forall l1 l2 s rs s2, steps s (l1 ++ l2) = Ok (rs, s2) ->
  exists rs1 s1 rs2, steps s l1 = Ok (rs1, s1) /\ steps s1 l2 = Ok (rs2, s2) /\ rs = rs1 ++ rs2.
Proof.
  induction l1 as [|a l1]; intros l2 s rs s2 H.
  - exists [], s, rs. auto.
  - cbn [steps app] in *. destruct (step s a) as [[x sx]|c|]; cbn in H; try discriminate.
    destruct (steps sx (l1 ++ l2)) as [[y sy]|c|] eqn:E; cbn in H; try discriminate. injection H as <- <-.
    apply IHl1 in E. destruct E as (rs1 & s1 & rs2 & E1 & E2 & ->). exists (x :: rs1), s1, rs2.
    cbn. rewrite E1. cbn. auto.
Qed.

Lemma steps_invariant : forall (I : osip -> Prop) (G : op -> Prop),
  (forall s a r s', I s -> G a -> step s a = Ok (r, s') -> I s') ->
  forall l s rs s', I s -> Forall G l -> steps s l = Ok (rs, s') -> I s'.
Proof.
  intros I G H. induction l as [|a l]; intros s rs s' Hi Hg Hs.
  - cbn in Hs. injection Hs as <- <-. auto.
  - cbn [steps] in Hs. destruct (step s a) as [[x sx]|c|] eqn:E; cbn in Hs; try discriminate.
    destruct (steps sx l) as [[y sy]|c|] eqn:E2; cbn in Hs; try discriminate. injection Hs as <- <-.
    inversion Hg; subst. eauto.
Qed.

Definition cseq_method (m : message) : option str :=
  match m_cseq m with Some c => cs_method c | None => None end.

Definition bump (s : osip) : osip := mkOsip (o_tab s) (o_ixt s) (o_next s + 1).

Lemma init_type : forall k now id m t, trans_init k now id (Some m) = Ok t -> t_type t = k /\ t_id t = id.
Proof.
  intros k now id m t H.
  unfold trans_init in H. destruct (m_call_id m) as [ci|]; [|discriminate]. destruct (ci_number ci); [|discriminate].
  destruct (m_vias m); [discriminate|]. unfold res_bind in H.
  repeat match type of H with match ?x with Ok _ => _ | _ => _ end = _ => destruct x; try discriminate end.
  destruct (v_protocol v); [|destruct k; discriminate].
  destruct k; repeat match type of H with match ?x with _ => _ end = _ => destruct x; try discriminate end;
  injection H as <-; split; reflexivity.
Qed.

(** What osip_create_transaction can do *)
Lemma create_inv : forall now ev s ot s', create_transaction now ev s = Ok (ot, s') ->
  (ot = None /\ (s' = s \/ s' = bump s)) \/
  (exists t m meth k, ot = Some t /\ ev_sip ev = Some m /\ cseq_method (mc m) = Some meth /\
     (is_request (mc m) = true -> m_method (mc m) = Some meth) /\ is_method ($"ACK") (mc m) = false /\
     (incoming_req (ev_type ev) = true /\ k = (if streq meth ($"INVITE") then IST else NIST) \/
      outgoing_req (ev_type ev) = true /\ k = (if streq meth ($"INVITE") then ICT else NICT)) /\
     trans_init k now (o_next s) (Some (mc m)) = Ok t /\
     s' = set_tab (bump s) k (o_tab s k ++ [En t []])).
Proof.
  intros now ev s ot s' E. unfold create_transaction in E.
  destruct (ev_sip ev) as [m|] eqn:Em; [|injection E as <- <-; auto]. cbv zeta in E.
  fold (cseq_method (mc m)) in E.
  match type of E with (if ?b then _ else _) = _ => destruct b eqn:Eb; [injection E as <- <-; auto|] end.
  destruct (is_method ($"ACK") (mc m)) eqn:Ea; [injection E as <- <-; auto|].
  destruct (incoming_req (ev_type ev) || outgoing_req (ev_type ev)) eqn:Eio.
  2:{ destruct (incoming_req (ev_type ev)); [discriminate|]. destruct (outgoing_req (ev_type ev)); [discriminate|].
      injection E as <- <-. auto. }
  assert (R : exists k meth, cseq_method (mc m) = Some meth /\
     (incoming_req (ev_type ev) = true /\ k = (if streq meth ($"INVITE") then IST else NIST) \/
      outgoing_req (ev_type ev) = true /\ k = (if streq meth ($"INVITE") then ICT else NICT)) /\
     register k now (mc m) s = Ok (ot, s')).
  { destruct (incoming_req (ev_type ev)) eqn:Ei.
    - destruct (cseq_method (mc m)) as [meth|] eqn:Hm; [|discriminate]. eauto 10.
    - cbn in Eio. rewrite Eio in E.
      destruct (cseq_method (mc m)) as [meth|] eqn:Hm; [|discriminate]. eauto 10. }
  clear E Eio. destruct R as (k & meth & Hm & Hk & R). unfold register in R.
  destruct (negb (has_call_id (mc m))); [injection R as <- <-; left; auto|].
  destruct (trans_init k now (o_next s) (Some (mc m))) as [t|c|] eqn:Et; try discriminate;
    injection R as <- <-; [right|left; auto].
  exists t, m, meth, k. split; [auto|]. split; [auto|]. split; [auto|]. split; [|auto].
  intros Hr. rewrite Hr, Hm in Eb. cbn [andb] in Eb. destruct (m_method (mc m)) as [x|]; [|discriminate].
  destruct (streq_spec meth x) as [->|]; [auto|discriminate].
Qed.

(** ** A property of single transactions and their queues *)
Section Entries.
  Variable P : fsm -> entry -> Prop.
  Variable G : op -> Prop.
  Variable s : osip.
  Hypothesis Hcreate : forall now ev t s', G (OpCreate now ev) ->
    create_transaction now ev s = Ok (Some t, s') -> P (t_type t) (En t []).
  Hypothesis Hadd : forall k id ev en, G (OpAdd k id ev) -> P k en -> P k (En (en_t en) (en_q en ++ [ev])).
  Hypothesis Hfind : forall k ev txid en, G (OpFind ev txid) -> P k en -> P k (En (en_t en) (en_q en ++ [ev])).
  Hypothesis Hpoll : forall k now en, G (OpPoll k now) -> P k en -> P k (poll_entry k now en).
  Hypothesis Hwork : forall k E en n t o, G (OpWork k E) -> P k en ->
    drain (E (t_id (en_t en))) n (en_t en) (en_q en) = Ok (t, o) -> P k (En t []).

  Definition all_entries (s' : osip) : Prop := forall k, Forall (P k) (o_tab s' k).

  Lemma all_set : forall s0 k l, all_entries s0 -> Forall (P k) l -> all_entries (set_tab s0 k l).
  Proof.
    intros s0 k l H Hl j. cbn. destruct (fsm_eqb j k) eqn:E; auto. apply fsm_eqb_eq in E. subst. auto.
  Qed.

  Lemma step_entries : forall a r s', all_entries s -> G a -> step s a = Ok (r, s') -> all_entries s'.
  Proof.
    intros a r s' H Ha Hs. destruct a; cbn [step] in Hs.
    - destruct (create_transaction now ev s) as [[ot s1]|c|] eqn:E; cbn in Hs; try discriminate. injection Hs as <- <-.
      pose proof E as E0. apply create_inv in E.
      destruct E as [(_ & [-> | ->])|(t & m & meth & k & -> & _ & _ & _ & _ & _ & Hi & ->)]; [exact H..|].
      apply all_set; [exact H|]. apply Forall_app. split; [exact (H k)|]. constructor; auto.
      pose proof (Hcreate _ _ _ _ Ha E0) as Hp. apply init_type in Hi. destruct Hi as (<- & _). exact Hp.
    - unfold remove_transaction in Hs. destruct (remove_id (t_id t) (o_tab s (t_type t))) eqn:E; injection Hs as <- <-; auto.
      cbn. apply all_set; auto. specialize (H (t_type t)).
      revert l E H. induction (o_tab s (t_type t)) as [|en l0]; intros l E H; cbn in E; [discriminate|].
      inversion H; subst. destruct (t_id (en_t en) =? t_id t); [injection E as <-; auto|].
      destruct (remove_id (t_id t) l0); [|discriminate]. injection E as <-. constructor; auto.
    - injection Hs as <- <-. apply all_set; auto. specialize (H k). induction H; cbn [map]; constructor; auto.
      destruct (t_id (en_t x) =? id); auto. eapply Hadd; eauto.
    - unfold find_and_add in Hs. destruct (ev_sip ev) as [m|]; [|injection Hs as <- <-; auto].
      destruct (find_table ev (mc m)) as [[k|]|c|]; cbn in Hs; try discriminate; [|injection Hs as <- <-; auto].
      destruct (find_index (matches ev txid (mc m)) (o_tab s k)) as [[i|]|c|]; cbn in Hs; try discriminate;
        injection Hs as <- <-; auto.
      cbn. apply all_set; auto. specialize (H k). revert i. induction H; intros i; cbn [add_at]; [destruct i; constructor|].
      destruct i; constructor; eauto.
    - injection Hs as <- <-. unfold poll. apply all_set; auto. specialize (H k).
      induction H; cbn [map]; constructor; auto.
    - unfold work in Hs. destruct (work_list E (o_tab s k)) as [[l o]|c|] eqn:Ew; cbn in Hs; try discriminate.
      injection Hs as <- <-. cbn. apply all_set; auto. specialize (H k). revert l o Ew.
      induction H; intros l' o Ew; cbn [work_list] in Ew.
      + injection Ew as <- <-. constructor.
      + destruct (drain (E (t_id (en_t x))) 0 (en_t x) (en_q x)) as [[t1 o1]|c|] eqn:Ed; cbn in Ew; try discriminate.
        destruct (work_list E l) as [[l2 o2]|c|]; cbn in Ew; try discriminate. injection Ew as <- <-.
        constructor; eauto.
    - injection Hs as <- <-. exact H.
    - injection Hs as <- <-. exact H.
    - unfold stop_200ok in Hs. destruct (cseq_number ack); cbn in Hs; [|injection Hs as <- <-; exact H].
      destruct (stop_loop dlg ack _ (o_ixt s)) as [[d0 l0]|c|]; cbn in Hs; try discriminate. injection Hs as <- <-. exact H.
    - injection Hs as <- <-. exact H.
    - injection Hs as <- <-. exact H.
  Qed.
End Entries.

Lemma steps_entries : forall (P : fsm -> entry -> Prop) (G : op -> Prop),
  (forall now ev s t s', G (OpCreate now ev) ->
    create_transaction now ev s = Ok (Some t, s') -> P (t_type t) (En t [])) ->
  (forall k id ev en, G (OpAdd k id ev) -> P k en -> P k (En (en_t en) (en_q en ++ [ev]))) ->
  (forall k ev txid en, G (OpFind ev txid) -> P k en -> P k (En (en_t en) (en_q en ++ [ev]))) ->
  (forall k now en, G (OpPoll k now) -> P k en -> P k (poll_entry k now en)) ->
  (forall k E en n t o, G (OpWork k E) -> P k en ->
    drain (E (t_id (en_t en))) n (en_t en) (en_q en) = Ok (t, o) -> P k (En t [])) ->
  forall l s rs s', all_entries P s -> Forall G l -> steps s l = Ok (rs, s') -> all_entries P s'.
Proof.
  intros P G H1 H2 H3 H4 H5. apply steps_invariant. intros s a r s' Hi Hg Hs.
  eapply step_entries; eauto.
Qed.

(** ** Timers of reachable stacks are normalised *)

Definition tinv (t : trans) : Prop :=
  (forall x, armed t x -> tv_ok (t_start t x)) /\
  (armed t TA -> 0 <= t_len t TA) /\ (armed t TG -> 0 <= t_len t TG) /\
  (t_len t TG = -1 \/ 0 <= t_len t TG) /\ -1 <= t_len t TE /\
  (termb (t_state t) = false -> forall x, x <> TA -> x <> TG -> x <> TE -> 0 <= t_len t x).

Lemma upd_eq : forall A (f : timer -> A) x a, upd f x a x = a.
Proof. intros. unfold upd. destruct x; auto. Qed.
Lemma upd_neq : forall A (f : timer -> A) x y a, y <> x -> upd f x a y = f y.
Proof. intros A f x y a H. unfold upd. destruct x, y; auto; congruence. Qed.

Lemma init_tinv : forall k now id m t, tv_ok now -> trans_init k now id (Some m) = Ok t ->
  tinv t /\ t_type t = k /\ t_state t = init_state k.
Proof.
  intros k now id m t Hn H.
  assert (E : exists rel, t_type t = k /\ t_state t = init_state k /\ t_len t = init_len k rel /\ t_start t = init_start k now).
  { unfold trans_init in H. destruct (m_call_id m) as [ci|]; [|discriminate]. destruct (ci_number ci); [|discriminate].
    destruct (m_vias m); [discriminate|]. unfold res_bind in H.
    repeat match type of H with match ?x with Ok _ => _ | _ => _ end = _ => destruct x; try discriminate end.
    destruct (v_protocol v); [|destruct k; discriminate].
    destruct k; repeat match type of H with match ?x with _ => _ end = _ => destruct x; try discriminate end;
    injection H as <-; eexists; repeat split; reflexivity. }
  destruct E as (rel & E1 & E2 & E3 & E4). split; [|auto].
  assert (A1 : tv_ok (add_gettimeofday now T1)) by (apply add_exact; auto; cbv; split; congruence).
  assert (A2 : tv_ok (add_gettimeofday now (64 * T1))) by (apply add_exact; auto; cbv; split; congruence).
  unfold tinv, armed. rewrite E3, E4, E2. unfold init_len, T1, T4 in *.
  split. { intros x. destruct k, x; cbn [init_start off tv_sec]; auto; intros; congruence. }
  split. { intros _. destruct k; cbn; lia. }
  split. { destruct k; cbn [init_start off tv_sec]; intros; try congruence. }
  split. { destruct k, rel; cbn; lia. }
  split. { destruct k; cbn; lia. }
  intros _ x ? ? ?. destruct k, x, rel; cbn; try lia; congruence.
Qed.

Lemma add_ok : forall t ms, tv_ok t -> 0 <= ms -> tv_ok (add_gettimeofday t ms).
Proof. intros. apply C04_never_late; auto. Qed.

Ltac tm_proj := cbn [t_len t_start t_state t_type set_state set_orig set_last set_ack set_dest set_len set_start start_timer stop_timer] in *.

Lemma tinv_same : forall t t', tinv t -> t_len t' = t_len t -> t_start t' = t_start t ->
  (termb (t_state t') = false -> termb (t_state t) = false) -> tinv t'.
Proof.
  intros t t' (H1 & H2 & H3 & H4 & H5 & H6) E1 E2 E3. unfold tinv, armed in *. rewrite E1, E2. tauto.
Qed.

Lemma tinv_start : forall t x now, tinv t -> tv_ok now -> 0 <= t_len t x -> tinv (start_timer t x now).
Proof.
  intros t x now (H1 & H2 & H3 & H4 & H5 & H6) Hn Hl.
  assert (Hs : forall y, t_start (start_timer t x now) y = if timer_eqb y x then add_gettimeofday now (t_len t x) else t_start t y) by reflexivity.
  assert (Ha := add_ok now _ Hn Hl).
  unfold tinv, armed in *. tm_proj. 
  split. { intros y. unfold upd. destruct (timer_eqb y x) eqn:E; auto. }
  split. { unfold upd. destruct x; cbn [timer_eqb]; auto. }
  split. { unfold upd. destruct x; cbn [timer_eqb]; auto. }
  auto.
Qed.

Lemma tinv_stop : forall t x, tinv t -> (x = TA \/ x = TE \/ termb (t_state t) = true) -> x <> TG -> tinv (stop_timer t x).
Proof.
  intros t x (H1 & H2 & H3 & H4 & H5 & H6) Hx Hg. unfold tinv, armed in *. tm_proj.
  split. { intros y. unfold upd at 1 2. destruct (timer_eqb y x) eqn:E; cbn [tv_sec]; [congruence|auto]. }
  split. { unfold upd. destruct x; cbn [timer_eqb tv_sec]; auto; congruence. }
  split. { rewrite !upd_neq by auto. auto. }
  split. { rewrite upd_neq by auto. auto. }
  split. { unfold upd. destruct x; cbn [timer_eqb]; auto; lia. }
  intros Ht y Y1 Y2 Y3. destruct Hx as [->|[->|Hx]]; [rewrite upd_neq by auto; auto..|congruence].
Qed.

Lemma tinv_len : forall t x l, tinv t -> 0 <= l -> tinv (set_len t x l).
Proof.
  intros t x l (H1 & H2 & H3 & H4 & H5 & H6) Hl. unfold tinv, armed in *. tm_proj.
  split; [auto|]. split. { unfold upd. destruct x; cbn [timer_eqb]; auto. }
  split. { unfold upd. destruct x; cbn [timer_eqb]; auto. }
  split. { unfold upd. destruct x; cbn [timer_eqb]; auto. }
  split. { unfold upd. destruct x; cbn [timer_eqb]; auto; lia. }
  intros Ht y Y1 Y2 Y3. unfold upd. destruct (timer_eqb y x); auto.
Qed.

Lemma tinv_state : forall t s, tinv t -> (termb s = false -> termb (t_state t) = false) -> tinv (set_state t s).
Proof. intros t s H Hs. apply (tinv_same t); auto. Qed.

Lemma tinv_stop_term : forall t x s, tinv t -> termb s = true -> x <> TG -> tinv (set_state (stop_timer t x) s).
Proof.
  intros t x s H Hs Hx.
  apply (tinv_same (stop_timer (set_state t s) x)); [|reflexivity|reflexivity|cbn; congruence].
  apply tinv_stop; auto. apply tinv_state; auto. congruence.
Qed.

(** One executed event; stale timeouts A and G only with a running timer. *)
Lemma exec_tinv : forall e ev t r t' o, typed t -> tinv t -> tv_ok (e_now e) ->
  (ev_type ev = TIMEOUT_A -> 0 <= t_len t TA) -> (ev_type ev = TIMEOUT_G -> 0 <= t_len t TG) ->
  execute e t ev = Ok (r, t', o) -> tinv t' /\ (0 <= t_len t TG -> 0 <= t_len t' TG).
Proof.
  intros e ev t r t' o Hty Hi Hn HA HG H. apply execute_inv in H.
  destruct H as [(-> & _)|(h & Hin & Hh & _)]; [auto|].
  assert (Hl : forall x, x <> TA -> x <> TG -> x <> TE -> termb (t_state t) = false -> 0 <= t_len t x)
    by (intros; apply Hi; auto).
  assert (HE : -1 <= t_len t TE) by apply Hi.
  assert (HTG : t_len t TG = -1 \/ 0 <= t_len t TG) by apply Hi.
  assert (Kx : forall f : trans, True) by auto.
  table_cases Hin;
  unfold ict_snd_invite, ict_timeout_a, ict_timeout_b, ict_rcv_1xx, ict_rcv_2xx, ict_rcv_3456xx,
    ict_timeout_d, ict_retransmit_ack, ist_rcv_invite, ist_timeout_g, ist_timeout_h, ist_timeout_i,
    ist_snd_1xx, ist_snd_2xx, ist_snd_3456xx, ist_rcv_ack, nict_snd_request, nict_timeout_e,
    nict_timeout_f, nict_timeout_k, nict_rcv_1xx, nict_rcv_23456xx, nist_rcv_request, nist_snd_1xx,
    nist_snd_23456xx, nist_timeout_j, tp_error, snd_xxx, T1, T2, T1_TCP_PROGRESS in Hh; cbv zeta in Hh;
  repeat match type of Hh with
  | context [match ?x with _ => _ end] =>
      match x with
      | context [match _ with _ => _ end] => fail 1
      | _ => destruct x eqn:?; try discriminate Hh
      end
  end; injection Hh as <- <-;
  (split; [|tm_proj; unfold upd; cbn [timer_eqb]; try lia]);
  repeat match goal with
    | |- tinv t => exact Hi
    | |- tinv (set_state (stop_timer _ _) _) => apply tinv_stop_term; [|reflexivity|discriminate]
    | |- tinv (set_state _ _) => apply tinv_state; [|tm_proj; rewrite ?Hs; intros; first [reflexivity|discriminate]]
    | |- tinv (start_timer _ _ _) => apply tinv_start; [|exact Hn|]
    | |- tinv (stop_timer _ _) => apply tinv_stop; [|auto|discriminate]
    | |- tinv (set_len _ _ _) => apply tinv_len
    | |- tinv _ => apply (tinv_same t); [exact Hi|reflexivity|reflexivity|tm_proj; auto]
    end;
  try solve [tm_proj; rewrite ?upd_eq in *; unfold upd in *; cbn [timer_eqb] in *;
                  first [lia | apply Hl; [discriminate..|rewrite Hs; reflexivity]]].
Qed.

Definition no_ty (ty : etype) (q : list event) : Prop := Forall (fun ev => ev_type ev <> ty) q.

Definition queue_inv (k : fsm) (t : trans) (q : list event) : Prop :=
  (no_ty TIMEOUT_A q \/ (k = ICT /\ exists q', q = Ev TIMEOUT_A None :: q' /\ no_ty TIMEOUT_A q' /\ 0 <= t_len t TA)) /\
  (no_ty TIMEOUT_G q \/ 0 <= t_len t TG).

Definition entry_inv (k : fsm) (en : entry) : Prop :=
  t_type (en_t en) = k /\ typed (en_t en) /\ tinv (en_t en) /\ queue_inv k (en_t en) (en_q en).

Lemma no_ty_snoc : forall ty q ev, no_ty ty q -> ev_type ev <> ty -> no_ty ty (q ++ [ev]).
Proof. intros. apply Forall_app. split; auto. Qed.

Lemma queue_inv_snoc : forall k t q ev, is_timeout (ev_type ev) = false -> queue_inv k t q -> queue_inv k t (q ++ [ev]).
Proof.
  intros k t q ev He (HA & HG).
  assert (NA : ev_type ev <> TIMEOUT_A) by (intros E; rewrite E in He; discriminate).
  assert (NG : ev_type ev <> TIMEOUT_G) by (intros E; rewrite E in He; discriminate).
  split.
  - destruct HA as [HA|(Hk & q' & -> & HA & Hl)]; [left; apply no_ty_snoc; auto|].
    right. split; auto. exists (q' ++ [ev]). split; auto. split; auto. apply no_ty_snoc; auto.
  - destruct HG as [HG|HG]; [left; apply no_ty_snoc; auto|auto].
Qed.

Lemma poll_queue_inv : forall k now en, t_type (en_t en) = k -> tinv (en_t en) -> queue_inv k (en_t en) (en_q en) ->
  queue_inv k (en_t (poll_entry k now en)) (en_q (poll_entry k now en)).
Proof.
  intros k now en Ht Hi Hq.
  destruct (poll_entry_polled k now en) as (E1 & [E2|(ty & x & E2 & Hl & He & Ha & _)]); rewrite E1, E2; auto.
  assert (HA : ty = TIMEOUT_A -> k = ICT /\ x = TA) by (intros ->; destruct k; try discriminate; injection Hl as <-; auto).
  assert (HG : ty = TIMEOUT_G -> x = TG) by (intros ->; destruct k; try discriminate; injection Hl as <-; auto).
  destruct Hq as (Q1 & Q2). destruct Hi as (_ & I1 & I2 & _). split.
  - destruct (etype_eqb ty TIMEOUT_A) eqn:Ey.
    + apply etype_eqb_eq in Ey. destruct (HA Ey) as (-> & ->). subst ty.
      (* the queue was empty *)
      destruct (en_q en) eqn:Eq; [|exfalso; unfold poll_entry in E2; rewrite Eq in E2; rewrite Eq in E2;
        apply (f_equal (@length event)) in E2; rewrite app_length in E2; cbn in E2; lia].
      right. split; auto. exists []. split; auto. split; [constructor|auto].
    + assert (N : ty <> TIMEOUT_A) by (intros ->; discriminate).
      destruct Q1 as [Q1|(Hk & q' & -> & Q1 & Q3)]; [left; apply no_ty_snoc; auto|].
      right. split; auto. exists (q' ++ [Ev ty None]). split; auto. split; auto. apply no_ty_snoc; auto.
  - destruct Q2 as [Q2|Q2]; [|auto]. destruct (etype_eqb ty TIMEOUT_G) eqn:Ey.
    + apply etype_eqb_eq in Ey. rewrite (HG Ey) in *. right. auto.
    + left. apply no_ty_snoc; auto. cbn. intros ->. discriminate.
Qed.

Lemma drain_inv : forall E k, (forall n, tv_ok (e_now (E n))) -> forall q n t t' o, t_type t = k -> typed t -> tinv t ->
  queue_inv k t q -> drain E n t q = Ok (t', o) -> t_type t' = k /\ typed t' /\ tinv t'.
Proof.
  intros E k HE. induction q as [|ev q]; intros n t t' o Hk Ht Hi (Q1 & Q2) H; cbn [drain] in H.
  - injection H as <- <-. auto.
  - destruct (execute (E n) t ev) as [[[r t1] o1]|c|] eqn:Ex; cbn in H; try discriminate.
    destruct (drain E (S n) t1 q) as [[t2 o2]|c|] eqn:Ed; cbn in H; try discriminate. injection H as <- <-.
    assert (KA : ev_type ev = TIMEOUT_A -> 0 <= t_len t TA).
    { intros Ea. destruct Q1 as [Q1|(_ & q' & Eq & _ & Hl)]; auto. inversion Q1; subst. congruence. }
    assert (KG : ev_type ev = TIMEOUT_G -> 0 <= t_len t TG).
    { intros Ea. destruct Q2 as [Q2|Q2]; auto. inversion Q2; subst. congruence. }
    destruct (exec_tinv (E n) ev t r t1 o1 Ht Hi (HE n) KA KG Ex) as (Hi1 & Hg1).
    pose proof (execute_identity _ _ _ _ _ _ Ex) as (_ & Hty & _).
    apply (IHq (S n) t1 t2 o2); auto; [congruence|eapply exec_typed; eauto|]. split.
    + left. destruct Q1 as [Q1|(_ & q' & Eq & Q1 & _)]; [inversion Q1; auto|]. injection Eq as -> ->. auto.
    + destruct Q2 as [Q2|Q2]; [left; inversion Q2; auto|right; auto].
Qed.

Lemma reach_entry_inv : forall s, reachable s -> all_entries entry_inv s.
Proof.
  intros s (l & rs & Hg & Hs). refine (steps_entries entry_inv good_op _ _ _ _ _ l osip_init rs s _ Hg Hs).
  - intros now ev s0 t s' G H. cbn in G. apply create_inv in H.
    destruct H as [(H & _)|(t' & m & meth & k & E & _ & _ & _ & _ & _ & Hi & _)]; [discriminate|]. injection E as <-.
    destruct (init_tinv k now _ _ t G Hi) as (I1 & I2 & I3).
    split; [auto|]. split; [apply fresh_typed; exists k, now, (o_next s0), (mc m); auto|]. split; auto.
    split; left; constructor.
  - intros k id ev en G (H1 & H2 & H3 & H4). split; [auto|]. split; [auto|]. split; [auto|]. apply queue_inv_snoc; auto.
  - intros k ev txid en G (H1 & H2 & H3 & H4). split; [auto|]. split; [auto|]. split; [auto|]. apply queue_inv_snoc; auto.
  - intros k now en G (H1 & H2 & H3 & H4).
    pose proof (poll_queue_inv k now en H1 H3 H4) as Hq.
    destruct (poll_entry_polled k now en) as (E1 & _). rewrite E1 in Hq.
    unfold entry_inv. rewrite E1. auto.
  - intros k E en n t o G (H1 & H2 & H3 & H4) Hd. cbn in G.
    destruct (drain_inv _ k (G (t_id (en_t en))) (en_q en) n (en_t en) t o H1 H2 H3 H4 Hd) as (A & B & C).
    split; [auto|]. split; [auto|]. split; [auto|]. split; left; constructor.
  - intros k. constructor.
Qed.

(** 2xx/ACK retransmissions *)
Definition ixt_ok (x : ixt) : Prop := tv_ok (ix_start x) /\ 0 < ix_interval x <= T2.

Lemma ixt_retransmit_ok : forall now x, ixt_ok x -> ixt_ok (fst (ixt_retransmit now x)).
Proof.
  intros now x (H1 & H2). unfold ixt_retransmit. destruct (timer_gt now (ix_start x)); [|split; auto].
  unfold ixt_ok. cbn [fst ix_start ix_interval]. unfold T2 in *.
  destruct (ix_interval x * 2 >? 4000) eqn:E; (split; [apply add_ok; auto; lia|lia]).
Qed.

Lemma reach_ixt_ok : forall s, reachable s -> Forall ixt_ok (o_ixt s).
Proof.
  intros s (l & rs & Hg & Hs).
  refine (steps_invariant (fun s => Forall ixt_ok (o_ixt s)) good_op _ l osip_init rs s _ Hg Hs); [|constructor].
  clear. intros s a r s' H G Hs.
  assert (Hnew : forall now d m2 ack dest, tv_ok now -> ixt_ok (ixt_init now d m2 ack dest)).
  { intros. split; cbn [ix_start ix_interval ixt_init].
    - apply add_ok; auto. unfold T1. lia.
    - unfold T1, T2. lia. }
  destruct a; cbn [step] in Hs.
  - destruct (create_transaction now ev s) as [[ot s1]|c|] eqn:E; cbn in Hs; try discriminate. injection Hs as <- <-.
    apply create_inv in E. destruct E as [(_ & [-> | ->])|(t & m & meth & k & _ & _ & _ & _ & _ & _ & _ & ->)]; exact H.
  - unfold remove_transaction in Hs. destruct (remove_id (t_id t) (o_tab s (t_type t))); injection Hs as <- <-; auto.
  - injection Hs as <- <-. auto.
  - unfold find_and_add in Hs. destruct (ev_sip ev) as [m|]; [|injection Hs as <- <-; auto].
    destruct (find_table ev (mc m)) as [[k|]|c|]; cbn in Hs; try discriminate; [|injection Hs as <- <-; auto].
    destruct (find_index (matches ev txid (mc m)) (o_tab s k)) as [[i|]|c|]; cbn in Hs; try discriminate;
      injection Hs as <- <-; auto.
  - injection Hs as <- <-. auto.
  - unfold work in Hs. destruct (work_list E (o_tab s k)) as [[l0 o]|c|]; cbn in Hs; try discriminate.
    injection Hs as <- <-. auto.
  - injection Hs as <- <-. cbn. constructor; auto.
  - injection Hs as <- <-. cbn. constructor; auto.
  - unfold stop_200ok in Hs. destruct (cseq_number ack) as [n|]; cbn in Hs; [|injection Hs as <- <-; exact H].
    destruct (stop_loop dlg ack n (o_ixt s)) as [[d0 l0]|c|] eqn:E; cbn in Hs; try discriminate. injection Hs as <- <-.
    cbn. revert d0 l0 E. induction H; intros d0 l0 E; cbn [stop_loop] in E.
    + injection E as <- <-. constructor.
    + assert (N : forall d1 l1, (do r <- stop_loop dlg ack n l; Ok (fst r, x :: snd r)) = Ok (d1, l1) -> Forall ixt_ok l1).
      { intros d1 l1 N. destruct (stop_loop dlg ack n l) as [[d2 l2]|c|]; cbn in N; try discriminate.
        injection N as <- <-. constructor; eauto. }
      destruct (match ix_2xx x with Some m => cseq_number m | None => None end); eauto.
      destruct (match_as_uas (dlg (ix_dialog x)) ack); cbn in E; try discriminate.
      destruct ((a =? 0) && streq s0 n); eauto. injection E as <- <-. auto.
  - injection Hs as <- <-. cbn. apply Forall_forall. intros x Hx. apply filter_In in Hx.
    rewrite Forall_forall in H. apply H. tauto.
  - injection Hs as <- <-. cbn. induction H; cbn [ixt_loop fst]; [constructor|].
    destruct (ix_counter (fst (ixt_retransmit now x)) =? 0); auto. constructor; auto using ixt_retransmit_ok.
Qed.

Lemma reach_stack_ok : forall s, reachable s -> stack_ok s.
Proof.
  intros s H. split.
  - intros k. pose proof (reach_entry_inv s H k) as He. eapply Forall_impl; [|exact He].
    intros en (_ & _ & Hi & _) x _ Ha. apply Hi. auto.
  - eapply Forall_impl; [|apply reach_ixt_ok; eauto]. intros x (Hx & _). auto.
Qed.

(** C05, C21, C22, C23: the stack along any history of API calls. *)
From Coq Require Import String ZArith Ascii Bool List Lia ZifyBool.
From Verif Require Import Base Str StrLemmas Types TimeModel TimeProps PortModel CloneModel CloneProofs TransModel
  TransSpec MatchModel DialogModel StackModel TransProofs TransSteps TransProps StackProps StackReach.
Import ListNotations.
Open Scope Z_scope.

(** * C05 *)

(** After any history: the delay is normalised and non-negative, sleeping that long never passes
    an armed timer that has not expired yet, and it is zero when one has expired or a client
    INVITE transaction has a pending event. *)
Theorem C05_never_misses_a_timer_partial : forall s now, reachable s -> tv_ok now ->
  let d := gettimeout s now in
  tv_ok d /\
  (forall a, wakeup s a -> usecs now <= usecs a -> usecs now + usecs d <= usecs a) /\
  (forall a, wakeup s a -> usecs a < usecs now -> d = tv0) /\
  (has_pending s -> d = tv0).
Proof. intros s now Hr Hn. apply next_wakeup; auto using reach_stack_ok. Qed.

(** It is the longest such delay: when nothing is due, it ends exactly at the earliest wake-up
    (or after a year). *)
Theorem C05_not_too_early : forall s now, reachable s -> tv_ok now -> ~ has_pending s ->
  (forall a, wakeup s a -> usecs now <= usecs a) ->
  let d := gettimeout s now in
  usecs d = one_year \/ exists a, wakeup s a /\ usecs now + usecs d = usecs a.
Proof. intros s now Hr Hn. apply next_exact; auto using reach_stack_ok. Qed.

(** A stack with one client transaction of each kind, the request just handed over *)
Definition ex_options : message := ex_msg (Some ($"SIP/2.0")) (Some ($"OPTIONS")) 0 (ex_via ($"UDP")) ex_to ($"OPTIONS").
Definition ex_inv_ev : event := Ev SND_REQINVITE (Some (Msg 1 (ex_invite ($"UDP")))).
Definition ex_opt_ev : event := Ev SND_REQUEST (Some (Msg 2 ex_options)).
Definition ex_world : Z -> nat -> env := fun _ _ => mkEnv (TV 100 250000) 0 1000.

Definition ex_hist : list op :=
  [ OpCreate (TV 100 0) ex_inv_ev; OpAdd ICT 1 ex_inv_ev; OpWork ICT ex_world;
    OpCreate (TV 100 300000) ex_opt_ev ].
Definition state_after (l : list op) : osip := match steps osip_init l with Ok (_, s) => s | _ => osip_init end.

Lemma ex_reach : forall l, Forall good_op l -> (exists r, steps osip_init l = Ok r) -> reachable (state_after l).
Proof.
  intros l Hg ([rs s] & Hs). exists l, rs. split; auto. unfold state_after. rewrite Hs. auto.
Qed.

Lemma ex_hist_ok : Forall good_op ex_hist.
Proof. unfold ex_hist. repeat constructor; cbn; try lia. Qed.

(** The INVITE is retransmitted 500 ms after the creation at 100 s: 200 ms to sleep at 100.3 s. *)
Example C05_witness : reachable (state_after ex_hist) /\
  gettimeout (state_after ex_hist) (TV 100 300000) = TV 0 200000 /\
  gettimeout (state_after ex_hist) (TV 100 500001) = TV 0 0 /\
  wakeup (state_after ex_hist) (TV 100 500000).
Proof.
  split; [apply ex_reach; [exact ex_hist_ok|eexists; vm_compute; reflexivity]|].
  split; [vm_compute; reflexivity|]. split; [vm_compute; reflexivity|].
  left. exists ICT. exists (hd (En (ex_t ICT) []) (o_tab (state_after ex_hist) ICT)), TA.
  split; [vm_compute; left; reflexivity|]. split; [exists ICT_CALLING; vm_compute; constructor|].
  split; [vm_compute; discriminate|vm_compute; reflexivity].
Qed.

(** C05 as stated fails: an event waiting in the queue of any other kind of transaction does not
    shorten the delay. *)
Theorem C05_refuted : exists s now en, reachable s /\ tv_ok now /\ In en (o_tab s NICT) /\ en_q en <> [] /\
  usecs (gettimeout s now) = 200000.
Proof.
  pose (l := ex_hist ++ [OpAdd NICT 2 ex_opt_ev]). exists (state_after l), (TV 100 300000).
  exists (hd (En (ex_t ICT) []) (o_tab (state_after l) NICT)).
  split; [apply ex_reach|].
  - subst l. apply Forall_app. split; [exact ex_hist_ok|]. repeat constructor.
  - eexists. vm_compute. reflexivity.
  - split; [repeat split; cbn; lia|]. split; [vm_compute; left; reflexivity|].
    split; [vm_compute; discriminate|vm_compute; reflexivity].
Qed.

(** * C21 *)

Definition str_dec : forall a b : str, {a = b} + {a <> b} := list_eq_dec ascii_dec.

(** Only a request whose method equals its CSeq method and is not ACK makes a transaction; its
    kind is server for received, client for outgoing requests, INVITE or not by method; it is
    the last of the table of its kind, with an empty queue. *)
Theorem C21_typed : forall now ev s t s', api_event ev -> create_transaction now ev s = Ok (Some t, s') ->
  exists m meth, ev_sip ev = Some m /\ m_status (mc m) = 0 /\ m_method (mc m) = Some meth /\
    cseq_method (mc m) = Some meth /\ meth <> $"ACK" /\
    ((exists m', parsed_event m' = Some ev) \/ (exists m', new_outgoing (Some m') = Some ev)) /\
    ((exists m', parsed_event m' = Some ev) -> t_type t = (if str_dec meth ($"INVITE") then IST else NIST)) /\
    ((exists m', new_outgoing (Some m') = Some ev) -> t_type t = (if str_dec meth ($"INVITE") then ICT else NICT)) /\
    o_tab s' (t_type t) = o_tab s (t_type t) ++ [En t []] /\
    (forall j, j <> t_type t -> o_tab s' j = o_tab s j) /\ o_ixt s' = o_ixt s.
Proof.
  intros now ev s t s' Ha H. apply create_inv in H.
  destruct H as [(H & _)|(t' & m & meth & k & E & Em & Hm & Hq & Hk & Hio & Hi & ->)]; [discriminate|].
  injection E as <-.
  assert (Ty : t_type t = k) by (apply init_type in Hi; tauto).
  assert (Hin : forall m', parsed_event m' = Some ev -> outgoing_req (ev_type ev) = false /\
                  (incoming_req (ev_type ev) = true -> is_request (mc m) = true)).
  { intros m' Hp. unfold parsed_event in Hp.
    assert (Hp' : ev = Ev (incoming_type (mc m')) (Some m')).
    { destruct (is_request (mc m')); [|injection Hp as <-; auto].
      destruct (m_method (mc m')), (m_uri (mc m')); try discriminate; injection Hp as <-; auto. }
    rewrite Hp' in Em. cbn in Em. injection Em as ->. rewrite Hp'. cbn [ev_type]. unfold incoming_type.
    split; repeat match goal with |- context [if ?b then _ else _] => destruct b end; auto; discriminate. }
  assert (Hout : forall m', new_outgoing (Some m') = Some ev -> incoming_req (ev_type ev) = false /\
                  (outgoing_req (ev_type ev) = true -> is_request (mc m) = true)).
  { intros m' Hp. unfold new_outgoing in Hp.
    assert (Hp' : ev = Ev (outgoing_type (mc m')) (Some m')).
    { destruct (is_request (mc m')); [|injection Hp as <-; auto].
      destruct (m_method (mc m')), (m_uri (mc m')); try discriminate; injection Hp as <-; auto. }
    rewrite Hp' in Em. cbn in Em. injection Em as ->. rewrite Hp'. cbn [ev_type]. unfold outgoing_type.
    split; repeat match goal with |- context [if ?b then _ else _] => destruct b end; auto; discriminate. }
  assert (Hst : forall k1 k2 : fsm, (if streq meth ($"INVITE") then k1 else k2) = (if str_dec meth ($"INVITE") then k1 else k2)).
  { intros. destruct (streq_spec meth ($"INVITE")), (str_dec meth ($"INVITE")); congruence. }
  assert (Hor : (exists m', parsed_event m' = Some ev) \/ (exists m', new_outgoing (Some m') = Some ev)).
  { destruct Ha as [Ha|[Ha|(_ & Ha)]]; auto. congruence. }
  assert (Hreq : is_request (mc m) = true).
  { destruct Hor as [(m' & Hp)|(m' & Hp)].
    - destruct (Hin m' Hp) as (F1 & F2). destruct Hio as [(Hio & _)|(Hio & _)]; [auto|congruence].
    - destruct (Hout m' Hp) as (F1 & F2). destruct Hio as [(Hio & _)|(Hio & _)]; [congruence|auto]. }
  exists m, meth. split; auto. split; [unfold is_request in Hreq; lia|]. split; [auto|]. split; auto.
  split. { intros ->. unfold is_method in Hk. rewrite Hreq, (Hq Hreq) in Hk. discriminate. }
  split; [auto|]. split; [|split; [|split; [|split]]].
  - intros (m' & Hp). destruct (Hin m' Hp) as (F1 & _). rewrite Ty, <- Hst.
    destruct Hio as [(_ & ->)|(Hio & _)]; [auto|congruence].
  - intros (m' & Hp). destruct (Hout m' Hp) as (F1 & _). rewrite Ty, <- Hst.
    destruct Hio as [(Hio & _)|(_ & ->)]; [congruence|auto].
  - rewrite Ty. apply set_tab_same.
  - rewrite Ty. intros j Hj. rewrite set_tab_other by auto. reflexivity.
  - reflexivity.
Qed.

(** Conversely: a complete request makes a transaction (no failure, no undefined behaviour). *)
Definition creatable (m : message) (meth : str) : Prop :=
  m_status m = 0 /\ m_method m = Some meth /\ meth <> $"ACK" /\ complete_request m /\
  (exists f, m_from m = Some f /\ na_ok f) /\ (exists t, m_to m = Some t /\ na_ok t) /\
  (exists c, m_call_id m = Some c /\ ci_number c <> None) /\
  (exists c, m_cseq m = Some c /\ cs_method c = Some meth /\ cs_number c <> None).

Theorem C21_created : forall now m meth s, creatable (mc m) meth ->
  (forall ev, parsed_event m = Some ev \/ new_outgoing (Some m) = Some ev ->
   exists t s', create_transaction now ev s = Ok (Some t, s')) /\
  parsed_event m <> None /\ new_outgoing (Some m) <> None.
Proof.
  intros now m meth s (H1 & H2 & H3 & H4 & (f & F1 & F2) & (tt & T1' & T2') & (ci & C1 & C2) & (c & D1 & D2 & D3)).
  destruct H4 as (V1 & (u & U1 & U2) & (v & vs & V2 & V3 & V4 & V5) & V6).
  assert (Hr : is_request (mc m) = true) by (unfold is_request; rewrite H1; reflexivity).
  assert (Kinit : forall k id, exists t, trans_init k now id (Some (mc m)) = Ok t).
  { intros k id. unfold trans_init. rewrite C1. destruct (ci_number ci) eqn:E; [|congruence]. rewrite V2.
    rewrite (via_clone_total v V3 V4 V5). cbn [res_bind]. rewrite F1, (from_clone_total f F2). cbn [res_bind].
    rewrite T1', (from_clone_total tt T2'). cbn [res_bind].
    unfold call_id_clone. rewrite E. cbn [res_bind].
    rewrite D1. unfold cseq_clone. rewrite D2. destruct (cs_number c); [|congruence]. cbn [res_bind].
    destruct (v_protocol v); [|congruence]. rewrite U1. destruct k; eexists; reflexivity. }
  assert (Kc : forall ev, ev_sip ev = Some m -> incoming_req (ev_type ev) || outgoing_req (ev_type ev) = true ->
            exists t s', create_transaction now ev s = Ok (Some t, s')).
  { intros ev Em Eio. unfold create_transaction. rewrite Em. cbv zeta. rewrite D1, D2, H2, Hr.
    destruct (streq_spec meth meth); [|congruence]. cbn [andb negb].
    unfold is_method. rewrite Hr, H2. cbn [andb]. destruct (streq_spec meth ($"ACK")); [congruence|].
    assert (R : forall k, exists t s', register k now (mc m) s = Ok (Some t, s')).
    { intros k. unfold register, has_call_id. rewrite C1. destruct (ci_number ci); [|congruence]. cbn [negb].
      destruct (Kinit k (o_next s)) as (t & ->). eexists _, _. reflexivity. }
    destruct (incoming_req (ev_type ev)); [apply R|]. cbn in Eio. rewrite Eio. apply R. }
  split; [|unfold parsed_event, new_outgoing; rewrite Hr, H2, U1; split; discriminate].
  intros ev [Hp|Hp]; unfold parsed_event, new_outgoing in Hp; rewrite Hr, H2, U1 in Hp; injection Hp as <-;
    apply Kc; auto; cbn [ev_type]; unfold incoming_type, outgoing_type; rewrite Hr;
    destruct (is_method ($"INVITE") (mc m)), (is_method ($"ACK") (mc m)); reflexivity.
Qed.

Lemma from_clone_not_ub : forall f, from_clone (Some f) <> UB.
Proof.
  intros f. unfold from_clone, opt_clone, uri_clone. destruct (na_url f) as [u|]; cbn [res_bind].
  - rewrite !params_clone. destruct (u_host u), (u_string u); cbn; discriminate.
  - rewrite params_clone. discriminate.
Qed.

Lemma trans_init_safe : forall k now id m, m_uri m <> None -> trans_init k now id (Some m) <> UB.
Proof.
  intros k now id m Hu. unfold trans_init. destruct (m_call_id m) as [ci|]; [|discriminate].
  destruct (ci_number ci) eqn:E; [|discriminate]. destruct (m_vias m) as [|v vs]; [discriminate|].
  destruct (via_clone (Some v)) as [tv|c|] eqn:Ev; cbn [res_bind]; [|discriminate|].
  - assert (Hp : v_protocol v <> None).
    { unfold via_clone in Ev. destruct (v_version v); [|discriminate]. destruct (v_protocol v); discriminate. }
    destruct (m_from m) as [f|]; [|cbn; discriminate].
    destruct (from_clone (Some f)) as [f'|c|] eqn:Ef; cbn [res_bind]; [|discriminate|].
    + destruct (m_to m) as [f2|]; [|cbn; discriminate].
      destruct (from_clone (Some f2)) as [f2'|c|] eqn:Ef2; cbn [res_bind]; [|discriminate|].
      * unfold call_id_clone. rewrite E. cbn [res_bind].
        destruct (cseq_clone (m_cseq m)) as [cs|c|] eqn:Ec; cbn [res_bind]; [|discriminate|].
        -- destruct (v_protocol v); [|congruence]. destruct (m_uri m); [|congruence]. destruct k; discriminate.
        -- unfold cseq_clone in Ec. destruct (m_cseq m) as [c|]; [|discriminate].
           destruct (cs_method c), (cs_number c); discriminate.
      * exfalso. revert Ef2. apply from_clone_not_ub.
    + exfalso. revert Ef. apply from_clone_not_ub.
  - unfold via_clone in Ev. rewrite params_clone in Ev.
    destruct (v_version v), (v_protocol v), (v_host v); discriminate.
Qed.

(** Trying to create a transaction from an event of the library never has undefined behaviour. *)
Theorem C21_no_crash : forall now ev s, api_event ev -> create_transaction now ev s <> UB.
Proof.
  intros now ev s Ha. unfold create_transaction. destruct (ev_sip ev) as [m|] eqn:Em; [|discriminate]. cbv zeta.
  assert (Hu : is_request (mc m) = true -> m_uri (mc m) <> None).
  { intros Hr. destruct Ha as [(m' & Hp)|[(m' & Hp)|(_ & Hp)]]; [| |congruence]; unfold parsed_event, new_outgoing in Hp.
    - destruct (is_request (mc m')) eqn:Er.
      + destruct (m_method (mc m')), (m_uri (mc m')) eqn:Eu; try discriminate. injection Hp as <-. cbn in Em. congruence.
      + injection Hp as <-. cbn in Em. congruence.
    - destruct (is_request (mc m')) eqn:Er.
      + destruct (m_method (mc m')), (m_uri (mc m')) eqn:Eu; try discriminate. injection Hp as <-. cbn in Em. congruence.
      + injection Hp as <-. cbn in Em. congruence. }
  assert (Hty : is_request (mc m) = false -> incoming_req (ev_type ev) = false /\ outgoing_req (ev_type ev) = false).
  { intros Hr. destruct Ha as [(m' & Hp)|[(m' & Hp)|(_ & Hp)]]; [| |congruence]; unfold parsed_event, new_outgoing in Hp.
    - destruct (is_request (mc m')) eqn:Er.
      + destruct (m_method (mc m')), (m_uri (mc m')) eqn:Eu; try discriminate; injection Hp as <-; cbn in Em; congruence.
      + injection Hp as <-. cbn in Em. injection Em as ->. cbn [ev_type]. unfold incoming_type. rewrite Er.
        repeat match goal with |- context [if ?b then _ else _] => destruct b end; auto.
    - destruct (is_request (mc m')) eqn:Er.
      + destruct (m_method (mc m')), (m_uri (mc m')) eqn:Eu; try discriminate; injection Hp as <-; cbn in Em; congruence.
      + injection Hp as <-. cbn in Em. injection Em as ->. cbn [ev_type]. unfold outgoing_type. rewrite Er.
        repeat match goal with |- context [if ?b then _ else _] => destruct b end; auto. }
  destruct (is_request (mc m)) eqn:Er.
  - destruct (match m_cseq (mc m) with Some c => cs_method c | None => None end) as [a|]; [|discriminate].
    destruct (m_method (mc m)) as [b|]; [|discriminate]. destruct (streq a b); [|discriminate]. cbn [andb negb].
    assert (R : forall k, register k now (mc m) s <> UB).
    { intros k. unfold register. destruct (has_call_id (mc m)); [|discriminate]. cbn [negb].
      pose proof (trans_init_safe k now (o_next s) (mc m) (Hu eq_refl)).
      destruct (trans_init k now (o_next s) (Some (mc m))); congruence. }
    destruct (is_method ($"ACK") (mc m)); [discriminate|]. destruct (incoming_req (ev_type ev)); [apply R|].
    destruct (outgoing_req (ev_type ev)); [apply R|discriminate].
  - cbn [andb]. destruct (is_method ($"ACK") (mc m)); [discriminate|]. destruct (Hty eq_refl) as (-> & ->). discriminate.
Qed.

(** Ids of the transactions created along a history, in order *)
Definition created_ids (rs : list opres) : list Z :=
  flat_map (fun r => match r with RCreate (Some t) => [t_id t] | _ => [] end) rs.

Lemma step_next : forall s a r s', step s a = Ok (r, s') ->
  o_next s <= o_next s' /\ forall t, r = RCreate (Some t) -> t_id t = o_next s /\ o_next s' = o_next s + 1.
Proof.
  intros s a r s' H. destruct a; cbn [step] in H.
  - destruct (create_transaction now ev s) as [[ot s1]|c|] eqn:E; cbn in H; try discriminate. injection H as <- <-.
    apply create_inv in E. cbn [fst snd].
    destruct E as [(-> & [-> | ->])|(t & m & meth & k & -> & _ & _ & _ & _ & _ & Hi & ->)].
    + split; [lia|discriminate].
    + split; [cbn; lia|discriminate].
    + split; [cbn; lia|]. intros t' Et. injection Et as <-. apply init_type in Hi. split; [tauto|reflexivity].
  - unfold remove_transaction in H. destruct (remove_id (t_id t) (o_tab s (t_type t))); injection H as <- <-;
      (split; [cbn; lia|discriminate]).
  - injection H as <- <-. split; [cbn; lia|discriminate].
  - unfold find_and_add in H. destruct (ev_sip ev) as [m|]; [|injection H as <- <-; split; [lia|discriminate]].
    destruct (find_table ev (mc m)) as [[k|]|c|]; cbn in H; try discriminate;
      [|injection H as <- <-; split; [lia|discriminate]].
    destruct (find_index (matches ev txid (mc m)) (o_tab s k)) as [[i|]|c|]; cbn in H; try discriminate;
      injection H as <- <-; (split; [cbn; lia|discriminate]).
  - injection H as <- <-. split; [cbn; lia|discriminate].
  - unfold work in H. destruct (work_list E (o_tab s k)) as [[l0 o]|c|]; cbn in H; try discriminate.
    injection H as <- <-. split; [cbn; lia|discriminate].
  - injection H as <- <-. split; [cbn; lia|discriminate].
  - injection H as <- <-. split; [cbn; lia|discriminate].
  - unfold stop_200ok in H. destruct (cseq_number ack) as [n|]; cbn in H;
      [|injection H as <- <-; split; [lia|discriminate]].
    destruct (stop_loop dlg ack n (o_ixt s)) as [[d0 l0]|c|] eqn:E; cbn in H; try discriminate. injection H as <- <-.
    split; [cbn; lia|discriminate].
  - injection H as <- <-. split; [cbn; lia|discriminate].
  - injection H as <- <-. split; [cbn; lia|discriminate].
Qed.

Lemma steps_ids : forall l s rs s', steps s l = Ok (rs, s') ->
  NoDup (created_ids rs) /\ Forall (fun i => o_next s <= i < o_next s') (created_ids rs) /\ o_next s <= o_next s'.
Proof.
  induction l as [|a l]; intros s rs s' H; cbn [steps] in H.
  - injection H as <- <-. cbn. repeat split; try constructor. lia.
  - destruct (step s a) as [[x s1]|c|] eqn:E; cbn in H; try discriminate.
    destruct (steps s1 l) as [[y s2]|c|] eqn:E2; cbn in H; try discriminate. injection H as <- <-.
    apply step_next in E. destruct E as (N1 & N2). apply IHl in E2. destruct E2 as (D & F & N3).
    cbn [created_ids flat_map]. fold (created_ids y).
    assert (Fy : Forall (fun i => o_next s <= i < o_next s2) (created_ids y)).
    { eapply Forall_impl; [|exact F]. intros; cbn in *; lia. }
    destruct x as [[t|]| | | | |]; cbn [app]; try solve [split; [auto|split; [auto|lia]]].
    destruct (N2 t eq_refl) as (I1 & I2). split; [|split; [|lia]].
    + constructor; auto. intros Hin. rewrite Forall_forall in F. specialize (F _ Hin). cbn in F. lia.
    + constructor; auto. lia.
Qed.

(** Whatever happens in between, two created transactions never have the same id. *)
Theorem C21_unique_ids : forall l rs s, steps osip_init l = Ok (rs, s) -> NoDup (created_ids rs).
Proof. intros l rs s H. apply steps_ids in H. tauto. Qed.

Example C21_witness : exists rs s, steps osip_init ex_hist = Ok (rs, s) /\ created_ids rs = [1; 2] /\
  creatable (ex_invite ($"UDP")) ($"INVITE") /\ api_event ex_inv_ev.
Proof.
  eexists _, _. split; [vm_compute; reflexivity|]. split; [reflexivity|]. split; [|unfold ex_inv_ev; api_ev].
  unfold creatable, complete_request, na_ok. cbn.
  split; [reflexivity|]. split; [reflexivity|]. split; [discriminate|].
  split; [split; [discriminate|]; split; [eexists; split; [reflexivity|left; discriminate]|];
          split; [eexists _, _; split; [reflexivity|repeat split; discriminate]|constructor]|].
  repeat split; eexists; repeat split; try reflexivity; try discriminate; intros u E; injection E as <-; left; discriminate.
Qed.

(** * C22 *)

(** The transactions created and not removed, by kind and id, in order of creation: recomputed
    from the calls of the history and what they returned, without looking at the tables. *)
Definition drop_key (k : fsm) (i : Z) (l : list (fsm * Z)) : list (fsm * Z) :=
  filter (fun p => negb (fsm_eqb (fst p) k && (snd p =? i))) l.
Definition live_step (acc : list (fsm * Z)) (x : op * opres) : list (fsm * Z) :=
  match x with
  | (OpCreate _ _, RCreate (Some t)) => acc ++ [(t_type t, t_id t)]
  | (OpRemove t, RCode c) => if c =? 0 then drop_key (t_type t) (t_id t) acc else acc
  | _ => acc
  end.
Definition live (h : list (op * opres)) : list (fsm * Z) := fold_left live_step h [].

Definition ids (s : osip) (k : fsm) : list Z := map (fun en => t_id (en_t en)) (o_tab s k).
Definition of_kind (k : fsm) (l : list (fsm * Z)) : list Z := map snd (filter (fun p => fsm_eqb (fst p) k) l).

Definition agree (s : osip) (acc : list (fsm * Z)) : Prop :=
  (forall k, ids s k = of_kind k acc) /\ (forall k, NoDup (ids s k)) /\
  (forall k i, In i (ids s k) -> i < o_next s).

Lemma remove_id_ids : forall i l l', remove_id i l = Some l' -> NoDup (map (fun en => t_id (en_t en)) l) ->
  In i (map (fun en => t_id (en_t en)) l) /\
  map (fun en => t_id (en_t en)) l' = filter (fun x => negb (x =? i)) (map (fun en => t_id (en_t en)) l).
Proof.
  induction l as [|en l]; intros l' H D; cbn [remove_id] in H; [discriminate|].
  cbn [map] in *. inversion D; subst. destruct (t_id (en_t en) =? i) eqn:E.
  - injection H as <-. split; [left; lia|]. cbn [filter]. rewrite E. cbn [negb].
    assert (K : forall x, In x (map (fun en0 => t_id (en_t en0)) l) -> negb (x =? i) = true).
    { intros x Hx. destruct (x =? i) eqn:E2; auto. exfalso. apply H2. replace (t_id (en_t en)) with x by lia. auto. }
    clear - K. induction (map (fun en0 => t_id (en_t en0)) l) as [|y l']; cbn; auto.
    rewrite K by (left; auto). f_equal. apply IHl'. intros. apply K. right. auto.
  - destruct (remove_id i l) as [r|]; [|discriminate]. injection H as <-.
    destruct (IHl r eq_refl H3) as (I1 & I2). split; [right; auto|]. cbn [map filter]. rewrite E. cbn [negb]. f_equal. auto.
Qed.

Lemma remove_id_none : forall i l, remove_id i l = None -> ~ In i (map (fun en => t_id (en_t en)) l).
Proof.
  induction l as [|en l]; intros H; cbn [remove_id] in H; cbn [map In]; [auto|].
  destruct (t_id (en_t en) =? i) eqn:E; [discriminate|]. destruct (remove_id i l); [discriminate|].
  intros [Hi|Hi]; [lia|]. apply IHl; auto.
Qed.

Lemma of_kind_drop : forall k i acc j, of_kind j (drop_key k i acc) =
  if fsm_eqb j k then filter (fun x => negb (x =? i)) (of_kind j acc) else of_kind j acc.
Proof.
  intros k i acc j. unfold of_kind, drop_key. induction acc as [|[a x] acc]; cbn [filter map].
  - destruct (fsm_eqb j k); auto.
  - cbn [fst snd]. destruct (fsm_eqb a k) eqn:E1; cbn [andb negb].
    + apply fsm_eqb_eq in E1. subst a. destruct (x =? i) eqn:E2; cbn [negb].
      * rewrite IHacc. destruct (fsm_eqb j k) eqn:E3.
        -- apply fsm_eqb_eq in E3. subst j. rewrite fsm_eqb_refl. cbn [map filter snd]. rewrite E2. auto.
        -- destruct (fsm_eqb k j) eqn:E4; [apply fsm_eqb_eq in E4; subst; rewrite fsm_eqb_refl in E3; discriminate|auto].
      * cbn [filter fst]. destruct (fsm_eqb k j) eqn:E4.
        -- apply fsm_eqb_eq in E4. subst j. rewrite fsm_eqb_refl in *. cbn [map filter snd]. rewrite E2. cbn [negb]. f_equal. auto.
        -- auto.
    + cbn [filter fst]. destruct (fsm_eqb a j) eqn:E4; auto. apply fsm_eqb_eq in E4. subst a. cbn [map snd].
      rewrite E1 in *. f_equal. auto.
Qed.

Lemma in_of_kind : forall k i acc, In i (of_kind k acc) <-> In (k, i) acc.
Proof.
  intros. unfold of_kind. rewrite in_map_iff. split.
  - intros ([a x] & <- & H). apply filter_In in H. cbn in H. destruct H as (H & E). apply fsm_eqb_eq in E. subst. auto.
  - intros H. exists (k, i). split; auto. apply filter_In. cbn. split; auto using fsm_eqb_refl.
Qed.

Lemma drain_id : forall E q n t t' o, drain E n t q = Ok (t', o) -> t_id t' = t_id t /\ t_type t' = t_type t.
Proof.
  induction q as [|ev q]; intros n t t' o H; cbn [drain] in H.
  - injection H as <- <-. auto.
  - destruct (execute (E n) t ev) as [[[r t1] o1]|c|] eqn:Ex; cbn in H; try discriminate.
    destruct (drain E (S n) t1 q) as [[t2 o2]|c|] eqn:Ed; cbn in H; try discriminate. injection H as <- <-.
    apply execute_identity in Ex. destruct Ex as (H1 & H2 & _). apply IHq in Ed. cbn. intuition congruence.
Qed.

Lemma ids_set : forall s k l j, ids (set_tab s k l) j = if fsm_eqb j k then map (fun en => t_id (en_t en)) l else ids s j.
Proof. intros. unfold ids. cbn. destruct (fsm_eqb j k); auto. Qed.

Lemma ids_unchanged : forall s s' acc, agree s acc -> (forall k, ids s' k = ids s k) -> o_next s' = o_next s -> agree s' acc.
Proof.
  intros s s' acc (H1 & H2 & H3) Hi Hn. split; [|split]; intros; rewrite ?Hi, ?Hn in *; auto.
  apply (H3 k). auto.
Qed.

Lemma step_live : forall s acc a r s', agree s acc -> step s a = Ok (r, s') -> agree s' (live_step acc (a, r)).
Proof.
  intros s acc a r s' Ha H. destruct a; cbn [step] in H.
  - destruct (create_transaction now ev s) as [[ot s1]|c|] eqn:E; cbn in H; try discriminate. injection H as <- <-.
    apply create_inv in E. cbn [fst snd].
    destruct E as [(-> & [-> | ->])|(t & m & meth & k & -> & _ & _ & _ & _ & _ & Hi & ->)]; cbn [live_step]; auto.
    + destruct Ha as (H1 & H2 & H3). split; [exact H1|]. split; [exact H2|]. intros k i Hi. cbn. specialize (H3 k i Hi). lia.
    + apply init_type in Hi. destruct Hi as (-> & Hid). destruct Ha as (H1 & H2 & H3). rewrite Hid.
      assert (Hk : ~ In (o_next s) (ids s k)) by (intros Hx; specialize (H3 _ _ Hx); lia).
      split; [|split].
      * intros j. rewrite ids_set. change (ids (bump s) j) with (ids s j). rewrite H1. unfold of_kind. rewrite filter_app, map_app. cbn [filter fst].
        destruct (fsm_eqb j k) eqn:Ej.
        -- apply fsm_eqb_eq in Ej. subst j. rewrite fsm_eqb_refl. rewrite map_app. cbn [map snd].
           cbn [en_t]. rewrite Hid. f_equal. exact (H1 k).
        -- destruct (fsm_eqb k j) eqn:Ek; [apply fsm_eqb_eq in Ek; subst; rewrite fsm_eqb_refl in Ej; discriminate|].
           cbn [map]. rewrite app_nil_r. reflexivity.
      * intros j. rewrite ids_set. destruct (fsm_eqb j k); [|apply H2]. rewrite map_app. cbn [map en_t]. fold (ids s k).
        rewrite Hid. clear - Hk H2. specialize (H2 k). induction (ids s k) as [|x l]; cbn; [repeat constructor; auto|].
        inversion H2; subst. constructor.
        -- rewrite in_app_iff. cbn in *. intuition.
        -- apply IHl; auto. cbn in Hk. tauto.
      * intros j i. rewrite ids_set. cbn [o_next set_tab bump]. destruct (fsm_eqb j k).
        -- rewrite map_app, in_app_iff. cbn. rewrite Hid. intros [Hx|[Hx|[]]]; [specialize (H3 k i Hx); lia|lia].
        -- intros Hx. specialize (H3 j i Hx). lia.
  - unfold remove_transaction in H. destruct (remove_id (t_id t) (o_tab s (t_type t))) as [l|] eqn:E;
      injection H as <- <-; cbn [fst snd live_step].
    + destruct Ha as (H1 & H2 & H3). destruct (remove_id_ids _ _ _ E (H2 (t_type t))) as (R1 & R2).
      fold (ids s (t_type t)) in R1, R2. cbn [Z.eqb OSIP_SUCCESS].
      split; [|split].
      * intros j. rewrite ids_set, of_kind_drop. destruct (fsm_eqb j (t_type t)) eqn:Ej; [|apply H1].
        apply fsm_eqb_eq in Ej. subst j. rewrite R2, H1. reflexivity.
      * intros j. rewrite ids_set. destruct (fsm_eqb j (t_type t)); [|apply H2]. rewrite R2. apply NoDup_filter. apply H2.
      * intros j i. rewrite ids_set. destruct (fsm_eqb j (t_type t)) eqn:Ej; [|apply H3].
        rewrite R2. intros Hx. apply filter_In in Hx. apply (H3 (t_type t)). tauto.
    + change (OSIP_UNDEFINED_ERROR =? 0) with false. exact Ha.
  - injection H as <- <-. cbn [live_step]. apply (ids_unchanged s); auto. intros j. unfold add_event. rewrite ids_set.
    destruct (fsm_eqb j k) eqn:Ej; auto. apply fsm_eqb_eq in Ej. subst j. rewrite map_map. unfold ids.
    apply map_ext. intros en. destruct (t_id (en_t en) =? id); auto.
  - unfold find_and_add in H. destruct (ev_sip ev) as [m|]; [|injection H as <- <-; exact Ha].
    destruct (find_table ev (mc m)) as [[k|]|c|]; cbn in H; try discriminate; [|injection H as <- <-; exact Ha].
    destruct (find_index (matches ev txid (mc m)) (o_tab s k)) as [[i|]|c|]; cbn in H; try discriminate;
      injection H as <- <-; cbn [live_step]; [|exact Ha].
    apply (ids_unchanged s); auto. intros j. rewrite ids_set. destruct (fsm_eqb j k) eqn:Ej; auto.
    apply fsm_eqb_eq in Ej. subst j. unfold ids. revert i. induction (o_tab s k) as [|en l]; intros i; destruct i; cbn; auto.
    f_equal. auto.
  - injection H as <- <-. cbn [live_step]. apply (ids_unchanged s); auto. intros j. unfold poll. rewrite ids_set.
    destruct (fsm_eqb j k) eqn:Ej; auto. apply fsm_eqb_eq in Ej. subst j. rewrite map_map. unfold ids.
    apply map_ext. intros en. destruct (poll_entry_polled k now en) as (-> & _). auto.
  - unfold work in H. destruct (work_list E (o_tab s k)) as [[l0 o]|c|] eqn:Ew; cbn in H; try discriminate.
    injection H as <- <-. cbn [live_step]. apply (ids_unchanged s); auto. intros j. rewrite ids_set.
    destruct (fsm_eqb j k) eqn:Ej; auto. apply fsm_eqb_eq in Ej. subst j. cbn [fst]. unfold ids. revert l0 o Ew.
    induction (o_tab s k) as [|en l]; intros l0 o Ew; cbn [work_list] in Ew.
    + injection Ew as <- <-. auto.
    + destruct (drain (E (t_id (en_t en))) 0 (en_t en) (en_q en)) as [[t1 o1]|c|] eqn:Ed; cbn in Ew; try discriminate.
      destruct (work_list E l) as [[l2 o2]|c|] eqn:El; cbn in Ew; try discriminate. injection Ew as <- <-.
      apply drain_id in Ed. cbn. f_equal; [tauto|eauto].
  - injection H as <- <-. exact Ha.
  - injection H as <- <-. exact Ha.
  - unfold stop_200ok in H. destruct (cseq_number ack) as [n|]; cbn in H; [|injection H as <- <-; exact Ha].
    destruct (stop_loop dlg ack n (o_ixt s)) as [[d0 l0]|c|] eqn:E; cbn in H; try discriminate. injection H as <- <-. exact Ha.
  - injection H as <- <-. exact Ha.
  - injection H as <- <-. exact Ha.
Qed.

Lemma steps_live : forall l s acc rs s', agree s acc -> steps s l = Ok (rs, s') ->
  agree s' (fold_left live_step (combine l rs) acc).
Proof.
  induction l as [|a l]; intros s acc rs s' Ha H; cbn [steps] in H.
  - injection H as <- <-. exact Ha.
  - destruct (step s a) as [[x s1]|c|] eqn:E; cbn in H; try discriminate.
    destruct (steps s1 l) as [[y s2]|c|] eqn:E2; cbn in H; try discriminate. injection H as <- <-.
    cbn [combine fold_left fst]. eapply IHl; [|exact E2]. eapply step_live; eauto.
Qed.

Lemma agree_init : agree osip_init [].
Proof. split; [|split]; intros; cbn in *; try constructor; contradiction. Qed.

(** After any history each table holds exactly the transactions of its kind that were created and
    not removed, in order of creation, each once. *)
Theorem C22_tables : forall l rs s, steps osip_init l = Ok (rs, s) ->
  forall k, map (fun en => t_id (en_t en)) (o_tab s k) = of_kind k (live (combine l rs)) /\
            NoDup (map (fun en => t_id (en_t en)) (o_tab s k)).
Proof.
  intros l rs s H k. destruct (steps_live l osip_init [] rs s agree_init H) as (H1 & H2 & _).
  split; [apply H1|apply H2].
Qed.

(** Removal succeeds exactly for a transaction that is there, takes it away, and leaves every
    other transaction as it was, with its queue. *)
Theorem C22_remove : forall l rs s t, steps osip_init l = Ok (rs, s) ->
  let (c, s') := remove_transaction t s in
  (c = OSIP_SUCCESS <-> In (t_type t, t_id t) (live (combine l rs))) /\
  (forall k en, In en (o_tab s' k) <-> In en (o_tab s k) /\ ~ (k = t_type t /\ t_id (en_t en) = t_id t)) /\
  o_ixt s' = o_ixt s.
Proof.
  intros l rs s t H. destruct (steps_live l osip_init [] rs s agree_init H) as (H1 & H2 & _).
  fold (live (combine l rs)) in H1. unfold remove_transaction.
  destruct (remove_id (t_id t) (o_tab s (t_type t))) as [l'|] eqn:E; cbn [fst snd].
  - destruct (remove_id_ids _ _ _ E (H2 (t_type t))) as (R1 & R2).
    split; [|split; [|reflexivity]].
    + split; auto. intros _. apply in_of_kind. rewrite <- H1. exact R1.
    + intros k en. destruct (fsm_eqb k (t_type t)) eqn:Ek.
      * apply fsm_eqb_eq in Ek. subst k. rewrite set_tab_same. specialize (H2 (t_type t)). unfold ids in H2.
        clear - E H2. revert l' E H2. induction (o_tab s (t_type t)) as [|e0 l0]; intros l' E H2; cbn [remove_id] in E; [discriminate|].
        cbn [map] in H2. inversion H2; subst. destruct (t_id (en_t e0) =? t_id t) eqn:Eq.
        -- injection E as <-. cbn [In]. split.
           ++ intros Hin. split; auto. intros (_ & He). apply H1. replace (t_id (en_t e0)) with (t_id (en_t en)) by lia.
              change (t_id (en_t en)) with ((fun e => t_id (en_t e)) en). apply in_map. auto.
           ++ intros ([->|Hin] & Hn); auto. exfalso. apply Hn. split; auto. lia.
        -- destruct (remove_id (t_id t) l0) as [r|]; [|discriminate]. injection E as <-. cbn [In].
           rewrite (IHl0 r eq_refl H3). split.
           ++ intros [->|(Hin & Hn)]; [split; auto; lia|auto].
           ++ intros ([->|Hin] & Hn); auto.
      * assert (k <> t_type t) by (intros ->; rewrite fsm_eqb_refl in Ek; discriminate).
        rewrite set_tab_other by auto. tauto.
  - apply remove_id_none in E. split; [|split; [|reflexivity]].
    + split; [discriminate|]. intros Hin. exfalso. apply E. apply in_of_kind in Hin. rewrite <- H1 in Hin. exact Hin.
    + intros k en. split; [|tauto]. intros Hin. split; auto. intros (-> & He). apply E. rewrite <- He.
      change (t_id (en_t en)) with ((fun e => t_id (en_t e)) en). apply in_map. auto.
Qed.

Definition ex_hist2 : list op :=
  ex_hist ++ [OpCreate (TV 101 0) ex_inv_ev; OpRemove (ex_t ICT); OpRemove (ex_t ICT)].

Example C22_witness : exists rs s, steps osip_init ex_hist2 = Ok (rs, s) /\
  live (combine ex_hist2 rs) = [(NICT, 2); (ICT, 3)] /\ length (o_tab s ICT) = 1%nat /\
  t_type (ex_t ICT) = ICT /\ t_id (ex_t ICT) = 1.
Proof. eexists _, _. split; [vm_compute; reflexivity|]. repeat split; vm_compute; reflexivity. Qed.

(** * C23 *)

(** The queued events of a transaction, each with the world in which it is executed *)
Fixpoint numbered (E : nat -> env) (n : nat) (q : list event) : list (env * event) :=
  match q with [] => [] | ev :: q' => (E n, ev) :: numbered E (S n) q' end.

(** What a worker does to one transaction: its events are executed in order, the queue is empty *)
Definition drained (E : Z -> nat -> env) (en en' : entry) (tr : list (list out)) : Prop :=
  en_q en' = [] /\ run (en_t en) (numbered (E (t_id (en_t en))) 0 (en_q en)) = Ok (en_t en', tr).

Inductive all_drained (E : Z -> nat -> env) : list entry -> list entry -> list out -> Prop :=
| ad_nil : all_drained E [] [] []
| ad_cons : forall en en' tr l l' o, drained E en en' tr -> all_drained E l l' o ->
    all_drained E (en :: l) (en' :: l') (concat tr ++ o).

Lemma drain_run : forall E q n t t' o, drain E n t q = Ok (t', o) <->
  exists tr, run t (numbered E n q) = Ok (t', tr) /\ o = concat tr.
Proof.
  induction q as [|ev q]; intros n t t' o; cbn [drain numbered run].
  - split; [intros H; injection H as <- <-; exists []; auto|intros (tr & H & ->); injection H as <- <-; auto].
  - destruct (execute (E n) t ev) as [[[r t1] o1]|c|]; cbn [res_bind].
    2,3: split; [discriminate|intros (tr & H & _); discriminate].
    destruct (drain E (S n) t1 q) as [[t2 o2]|c|] eqn:Ed.
    + apply IHq in Ed. destruct Ed as (tr & Er & ->). rewrite Er. cbn. split.
      * intros H. injection H as <- <-. exists (o1 :: tr). auto.
      * intros (tr' & H & ->). injection H as <- <-. auto.
    + split; [discriminate|]. intros (tr & H & _).
      destruct (run t1 (numbered E (S n) q)) as [[t3 tr3]|c'|] eqn:Er; cbn in H; try discriminate.
      assert (X : drain E (S n) t1 q = Ok (t3, concat tr3)) by (apply IHq; eauto). congruence.
    + split; [discriminate|]. intros (tr & H & _).
      destruct (run t1 (numbered E (S n) q)) as [[t3 tr3]|c'|] eqn:Er; cbn in H; try discriminate.
      assert (X : drain E (S n) t1 q = Ok (t3, concat tr3)) by (apply IHq; eauto). congruence.
Qed.

(** One worker call executes every queued event of every transaction of its kind, in queue order,
    and touches nothing else. *)
Theorem C23_drained : forall k E s s' o, work k E s = Ok (s', o) ->
  all_drained E (o_tab s k) (o_tab s' k) o /\
  (forall j, j <> k -> o_tab s' j = o_tab s j) /\ o_ixt s' = o_ixt s /\ o_next s' = o_next s.
Proof.
  intros k E s s' o H. unfold work in H. destruct (work_list E (o_tab s k)) as [[l0 o0]|c|] eqn:Ew; cbn in H; try discriminate.
  injection H as <- <-. split; [|split; [intros; apply set_tab_other; auto|auto]].
  rewrite set_tab_same. cbn [fst snd]. revert l0 o0 Ew. induction (o_tab s k) as [|en l]; intros l0 o0 Ew; cbn [work_list] in Ew.
  - injection Ew as <- <-. constructor.
  - destruct (drain (E (t_id (en_t en))) 0 (en_t en) (en_q en)) as [[t1 o1]|c|] eqn:Ed; cbn in Ew; try discriminate.
    destruct (work_list E l) as [[l2 o2]|c|] eqn:El; cbn in Ew; try discriminate. injection Ew as <- <-.
    apply drain_run in Ed. destruct Ed as (tr & Er & ->). constructor; [split; auto|apply IHl; auto].
Qed.

(** It always gets through when each transaction can execute its queue (which C54 shows for
    events made by the library). *)
Theorem C23_total : forall k E s,
  (forall en, In en (o_tab s k) -> exists r, run (en_t en) (numbered (E (t_id (en_t en))) 0 (en_q en)) = Ok r) ->
  exists r, work k E s = Ok r.
Proof.
  intros k E s H. unfold work.
  assert (K : exists r, work_list E (o_tab s k) = Ok r).
  { induction (o_tab s k) as [|en l]; cbn [work_list]; [eauto|].
    destruct (H en (or_introl eq_refl)) as ([t tr] & Hr).
    assert (Hd : drain (E (t_id (en_t en))) 0 (en_t en) (en_q en) = Ok (t, concat tr)) by (apply drain_run; eauto).
    rewrite Hd. cbn [res_bind]. destruct IHl as (r & ->); [intros; apply H; right; auto|]. cbn. eauto. }
  destruct K as (r & ->). cbn. eauto.
Qed.

Example C23_witness : exists s' o,
  let s := state_after (ex_hist ++ [OpAdd NICT 2 ex_opt_ev; OpAdd ICT 1 (Ev RCV_STATUS_1XX (Some (Msg 5 (ex_resp 180 ($"UDP")))));
                                    OpAdd ICT 1 (Ev RCV_STATUS_1XX (Some (Msg 6 (ex_resp 183 ($"UDP")))))]) in
  work ICT ex_world s = Ok (s', o) /\ length o = 3%nat /\
  map (fun en => (t_state (en_t en), length (en_q en))) (o_tab s' ICT) = [(ICT_PROCEEDING, 0%nat)] /\
  map (fun en => (t_state (en_t en), length (en_q en))) (o_tab s' NICT) = [(NICT_PRE_TRYING, 1%nat)].
Proof. eexists _, _. cbv zeta. split; [vm_compute; reflexivity|]. repeat split; vm_compute; reflexivity. Qed.

Print Assumptions C05_never_misses_a_timer_partial.
Print Assumptions C05_not_too_early.
Print Assumptions C05_refuted.
Print Assumptions C21_typed.
Print Assumptions C21_created.
Print Assumptions C21_unique_ids.
Print Assumptions C21_no_crash.
Print Assumptions C22_tables.
Print Assumptions C22_remove.
Print Assumptions C23_drained.
Print Assumptions C23_total.

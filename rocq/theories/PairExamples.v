(** C73, C74: concrete runs of a client and a server over a network that loses and repeats messages. *)
From Coq Require Import String ZArith Ascii Bool List Lia.
From Verif Require Import Base Str StrLemmas Types TimeModel PortModel CloneModel CloneProofs TransModel TransSpec TransProofs TransSteps TransProps TransReports TransServer PairModel PairSpec PairProofs PairInv PairProps PairRecover.
Import ListNotations.
Open Scope Z_scope.

Definition at_ (s : Z) : env := mkEnv (TV s 0) 0 1000.
Definition after (t0 : trans) (l : list move) : pair := match plays (begin t0) l with Ok p => p | _ => begin t0 end.
Definition names (l : list ran) : list cb := flat_map (fun o => match o with OCb c _ => [c] | _ => [] end) (did l).

Lemma ex_client : forall k, k = ICT \/ k = NICT -> client (ex_t k).
Proof. intros k Hk. split; [apply ex_t_fresh|]. destruct Hk as [-> | ->]; auto. Qed.

Lemma reached_after : forall k l, k = ICT \/ k = NICT -> reached (ex_t k) l (after (ex_t k) l).
Proof.
  intros k l Hk. pose proof (ex_client k Hk) as Hc. split; auto.
  unfold after. destruct (C73_no_undefined_behaviour _ l Hc) as (p & ->). reflexivity.
Qed.

Definition udp : str := $"UDP".
(** The first INVITE is lost; the second arrives, and later the first again.  The 180 is lost.  The
    486 is sent twice; both copies arrive; the first ACK is lost, the second arrives twice. *)
Definition ex_refused : list move :=
  [ CApp (at_ 101) (Msg 1 (ex_invite udp)); CTimer (at_ 102) TA; SNet (at_ 102) 10 1; SNet (at_ 102) 11 0;
    SApp (at_ 103) (Msg 2 (ex_resp 180 udp)); SApp (at_ 104) (Msg 3 (ex_resp 486 udp)); STimer (at_ 106) TG;
    CNet (at_ 106) 12 2; CNet (at_ 107) 13 1; SNet (at_ 107) 14 3; SNet (at_ 108) 15 3 ].

Example C73_run : names (p_clog (after (ex_t ICT) ex_refused)) =
    [ICT_INVITE_SENT; ICT_INVITE_SENT_AGAIN; ICT_STATUS_4XX_RECEIVED; ICT_ACK_SENT; ICT_STATUS_3456XX_RECEIVED_AGAIN; ICT_ACK_SENT_AGAIN] /\
  names (p_sall (after (ex_t ICT) ex_refused)) =
    [IST_INVITE_RECEIVED; IST_INVITE_RECEIVED_AGAIN; IST_STATUS_1XX_SENT; IST_STATUS_4XX_SENT; IST_STATUS_3456XX_SENT_AGAIN;
     IST_ACK_RECEIVED; IST_ACK_RECEIVED_AGAIN].
Proof. split; vm_compute; reflexivity. Qed.

Definition ex_p : pair := after (ex_t ICT) ex_refused.
Lemma ex_p_reached : reached (ex_t ICT) ex_refused ex_p.
Proof. apply reached_after. auto. Qed.
Definition outc (i : nat) (l : list ran) : out := nth i (did l) (OKill ICT).

(** Each theorem applies to this run. *)
Ltac at_index n := apply (nth_error_In _ n); vm_compute; reflexivity.

Example C73_request_is_the_clients_witness :
  In (OCb IST_INVITE_RECEIVED (Some (Msg 10 (ex_invite udp)))) (did (p_sall ex_p)) /\
  exists c m m0, OCb IST_INVITE_RECEIVED (Some (Msg 10 (ex_invite udp))) = OCb c (Some m) /\ handed (p_clog ex_p) m0 /\ mc m = mc m0.
Proof.
  assert (H : In (OCb IST_INVITE_RECEIVED (Some (Msg 10 (ex_invite udp)))) (did (p_sall ex_p))) by at_index 0%nat.
  split; [exact H|]. exact (C73_request_is_the_clients _ _ _ _ ex_p_reached H eq_refl).
Qed.

Example C73_request_told_once_witness : Forall no_forget ex_refused /\ count is_new (did (p_sall ex_p)) = 1%nat.
Proof. split; [repeat constructor; discriminate|vm_compute; reflexivity]. Qed.

Definition ex_told : msg := Msg 12 (ex_resp 486 udp).
Lemma ex_told_final : final_told ex_told (OCb ICT_STATUS_4XX_RECEIVED (Some ex_told)).
Proof. exists ICT_STATUS_4XX_RECEIVED. split; [reflexivity|simpl; tauto]. Qed.
Lemma ex_told_in : In (OCb ICT_STATUS_4XX_RECEIVED (Some ex_told)) (did (p_clog ex_p)).
Proof. at_index 5%nat. Qed.

Example C73_answers_witness : exists m0 y, handed (p_sall ex_p) m0 /\ mc m0 = mc ex_told /\ In y (did (p_sall ex_p)) /\ is_new y = true.
Proof. exact (C73_answers_are_the_servers _ _ _ _ _ ex_p_reached ex_told_in (final_is_answer _ _ ex_told_final)). Qed.

Example C73_one_final_witness : count is_final_told (did (p_clog ex_p)) = 1%nat.
Proof. vm_compute. reflexivity. Qed.

Example C73_agreement_witness : Forall no_forget ex_refused /\ exists m' y,
  In y (did (p_sall ex_p)) /\ final_sent m' y /\ mc ex_told = mc m'.
Proof.
  split; [repeat constructor; discriminate|]. set (m' := Msg 3 (ex_resp 486 udp)).
  exists m', (OCb IST_STATUS_4XX_SENT (Some m')). split; [at_index 7%nat|].
  split; [exists IST_STATUS_4XX_SENT; split; [reflexivity|simpl; tauto]|reflexivity].
Qed.

Example C73_ack_witness : exists c m, In (OCb c (Some m)) (did (p_sall ex_p)) /\ is_ack_told (OCb c (Some m)) = true.
Proof.
  destruct (nth_error (did (p_sall ex_p)) 10) as [x|] eqn:E; [|vm_compute in E; discriminate].
  assert (H : match nth_error (did (p_sall ex_p)) 10 with Some (OCb IST_ACK_RECEIVED (Some _)) => true | _ => false end = true)
    by (vm_compute; reflexivity).
  rewrite E in H. destruct x as [ |c [m|]| | | ]; try discriminate H; [|destruct c; discriminate H].
  exists c, m. split; [exact (nth_error_In _ _ E)|]. destruct c; try discriminate H. reflexivity.
Qed.

(** When the server throws its finished transaction away, a late copy of the INVITE is announced as
    new, and the two applications can end with different answers. *)
Definition ex_forgot : list move :=
  [ CApp (at_ 101) (Msg 1 (ex_invite udp)); SNet (at_ 101) 10 0; SApp (at_ 102) (Msg 2 (ex_resp 200 udp)); CNet (at_ 102) 11 0;
    Forget; SNet (at_ 103) 12 0; SApp (at_ 104) (Msg 3 (ex_resp 486 udp)) ].

Theorem C73_forget_rule_needed :
  reached (ex_t ICT) ex_forgot (after (ex_t ICT) ex_forgot) /\
  p_gone (after (ex_t ICT) ex_forgot) = 1%nat /\
  count is_new (did (p_sall (after (ex_t ICT) ex_forgot))) = 2%nat /\
  exists m x m' y, In x (did (p_clog (after (ex_t ICT) ex_forgot))) /\ final_told m x /\
    In y (did (p_sall (after (ex_t ICT) ex_forgot))) /\ final_sent m' y /\ mc m <> mc m'.
Proof.
  split; [apply reached_after; auto|]. split; [vm_compute; reflexivity|]. split; [vm_compute; reflexivity|].
  set (m := Msg 11 (ex_resp 200 udp)). set (m' := Msg 3 (ex_resp 486 udp)).
  exists m, (OCb ICT_STATUS_2XX_RECEIVED (Some m)), m', (OCb IST_STATUS_4XX_SENT (Some m')).
  split; [at_index 2%nat|]. split; [exists ICT_STATUS_2XX_RECEIVED; split; [reflexivity|simpl; tauto]|].
  split; [at_index 6%nat|]. split; [exists IST_STATUS_4XX_SENT; split; [reflexivity|simpl; tauto]|].
  intros E. discriminate (f_equal m_status E).
Qed.

(** * Recovery *)

Lemma handed_in : forall l m, handed l m -> In (Some m) (map (fun r => ev_sip (r_ev r)) l).
Proof.
  intros l m (r & H1 & H2). apply in_map_iff. exists r. split; auto.
  destruct (outgoing_facts _ _ H2) as (E & _). rewrite E. reflexivity.
Qed.

Lemma udp_unreliable : forall m, m_vias m = [ex_via udp] -> unreliable m.
Proof. intros m H. exists udp. unfold top_proto. rewrite H. split; reflexivity. Qed.

Lemma invite_complete : complete_request (ex_invite udp).
Proof.
  unfold complete_request. simpl. split; [discriminate|].
  split; [exists ex_uri; split; [reflexivity|left; discriminate]|].
  split; [exists (ex_via udp), []; split; [reflexivity|repeat split; discriminate]|constructor].
Qed.
Lemma options_complete : complete_request ex_options.
Proof.
  unfold complete_request. simpl. split; [discriminate|].
  split; [exists ex_uri; split; [reflexivity|left; discriminate]|].
  split; [exists (ex_via udp), []; split; [reflexivity|repeat split; discriminate]|constructor].
Qed.
Lemma msg_complete : forall v meth st via to cs, na_ok to -> complete_response (ex_msg v meth st via to cs).
Proof.
  intros v meth st via to cs Hto. unfold complete_response. simpl.
  split; [exists ex_from; split; [reflexivity|intros u Hu; injection Hu as <-; left; discriminate]|].
  split; [exists to; auto|]. split; eexists; (split; [reflexivity|]); [discriminate|split; discriminate].
Qed.
Lemma ex_timely : forall k, timely (ex_t k).
Proof. intros k. exists k, (TV 100 0), 1, (Some (ex_invite udp)). split; [split; cbn; lia|]. destruct k; vm_compute; reflexivity. Qed.
Lemma to_ok : forall ps, na_ok (mkNA None (Some ex_uri) ps).
Proof. intros ps u Hu. injection Hu as <-. left. discriminate. Qed.

(** The INVITE arrived, nothing that the server sent did. *)
Definition ex_deaf : list move :=
  [ CApp (at_ 101) (Msg 1 (ex_invite udp)); SNet (at_ 101) 10 0; SApp (at_ 104) (Msg 3 (ex_resp 486 udp)) ].

Example C74_refusal_recovered_witness : exists p ts, reached (ex_t ICT) ex_deaf p /\ Forall clock_ok ex_deaf /\
  (forall m, handed (p_clog p) m -> unreliable (mc m)) /\ can_ack p /\ t_state (p_client p) = ICT_CALLING /\
  p_server p = Some ts /\ t_state ts = IST_COMPLETED.
Proof.
  exists (after (ex_t ICT) ex_deaf). destruct (p_server (after (ex_t ICT) ex_deaf)) as [ts|] eqn:E.
  2:{ exfalso. assert (H : (match p_server (after (ex_t ICT) ex_deaf) with Some _ => true | None => false end) = true) by (vm_compute; reflexivity).
      rewrite E in H. discriminate. }
  exists ts. split; [apply reached_after; auto|]. split; [repeat constructor; cbn; lia|].
  assert (HC : map (fun r => ev_sip (r_ev r)) (p_clog (after (ex_t ICT) ex_deaf)) = [Some (Msg 1 (ex_invite udp))]) by (vm_compute; reflexivity).
  assert (HS : map (fun r => ev_sip (r_ev r)) (p_sall (after (ex_t ICT) ex_deaf)) =
               [Some (Msg 10 (ex_invite udp)); Some (Msg 3 (ex_resp 486 udp))]) by (vm_compute; reflexivity).
  split. { intros m Hm. apply handed_in in Hm. rewrite HC in Hm. destruct Hm as [Hm|[]]. injection Hm as <-. apply udp_unreliable. reflexivity. }
  split. { split; intros m Hm; apply handed_in in Hm; [rewrite HC in Hm|rewrite HS in Hm].
    - destruct Hm as [Hm|[]]. injection Hm as <-. apply invite_complete.
    - destruct Hm as [Hm|[Hm|[]]]; injection Hm as <-; apply msg_complete, to_ok. }
  split; [vm_compute; reflexivity|]. split; auto.
  assert (H : option_map t_state (p_server (after (ex_t ICT) ex_deaf)) = Some IST_COMPLETED) by (vm_compute; reflexivity).
  rewrite E in H. injection H as ->. reflexivity.
Qed.

Definition ex_ok : message := ex_msg (Some ($"SIP/2.0")) None 200 (ex_via udp) (mkNA None (Some ex_uri) []) ($"OPTIONS").
Definition ex_deaf2 : list move :=
  [ CApp (at_ 101) (Msg 1 ex_options); SNet (at_ 101) 10 0; SApp (at_ 104) (Msg 3 ex_ok) ].

Example C74_answer_recovered_witness : exists p ts, reached (ex_t NICT) ex_deaf2 p /\ Forall clock_ok ex_deaf2 /\
  (forall m, handed (p_clog p) m -> unreliable (mc m)) /\ t_state (p_client p) = NICT_TRYING /\
  p_server p = Some ts /\ t_state ts = NIST_COMPLETED.
Proof.
  exists (after (ex_t NICT) ex_deaf2). destruct (p_server (after (ex_t NICT) ex_deaf2)) as [ts|] eqn:E.
  2:{ exfalso. assert (H : (match p_server (after (ex_t NICT) ex_deaf2) with Some _ => true | None => false end) = true) by (vm_compute; reflexivity).
      rewrite E in H. discriminate. }
  exists ts. split; [apply reached_after; auto|]. split; [repeat constructor; cbn; lia|].
  assert (HC : map (fun r => ev_sip (r_ev r)) (p_clog (after (ex_t NICT) ex_deaf2)) = [Some (Msg 1 ex_options)]) by (vm_compute; reflexivity).
  split. { intros m Hm. apply handed_in in Hm. rewrite HC in Hm. destruct Hm as [Hm|[]]. injection Hm as <-. apply udp_unreliable. reflexivity. }
  split; [vm_compute; reflexivity|]. split; auto.
  assert (H : option_map t_state (p_server (after (ex_t NICT) ex_deaf2)) = Some NIST_COMPLETED) by (vm_compute; reflexivity).
  rewrite E in H. injection H as ->. reflexivity.
Qed.

Example C74_request_recovered_witness : forall k q, (k, q) = (ICT, ex_invite udp) \/ (k, q) = (NICT, ex_options) ->
  let l := [CApp (at_ 101) (Msg 1 q)] in
  exists p, reached (ex_t k) l p /\ Forall clock_ok l /\ timely (ex_t k) /\
  (forall m, handed (p_clog p) m -> unreliable (mc m) /\ openable (mc m)) /\
  (t_state (p_client p) = ICT_CALLING \/ t_state (p_client p) = NICT_TRYING) /\ p_server p = None.
Proof.
  intros k q H l. exists (after (ex_t k) l).
  assert (Hk : k = ICT \/ k = NICT) by (destruct H as [H|H]; injection H; auto).
  split; [apply reached_after; auto|]. split; [repeat constructor; cbn; lia|]. split; [apply ex_timely|].
  assert (HC : map (fun r => ev_sip (r_ev r)) (p_clog (after (ex_t k) l)) = [Some (Msg 1 q)])
    by (destruct H as [H|H]; injection H as -> ->; vm_compute; reflexivity).
  split. { intros m Hm. apply handed_in in Hm. rewrite HC in Hm. destruct Hm as [Hm|[]]. injection Hm as <-. cbn [mc].
    destruct H as [H|H]; injection H as -> ->; (split; [apply udp_unreliable; reflexivity|]); split;
    first [apply invite_complete | apply options_complete | apply msg_complete, to_ok]. }
  split; destruct H as [H|H]; injection H as -> ->; try reflexivity; vm_compute; auto.
Qed.

(** A 2xx lost after a 180. *)
Definition ex_lost : list move :=
  [ CApp (at_ 101) (Msg 1 (ex_invite udp)); SNet (at_ 101) 10 0; SApp (at_ 102) (Msg 2 (ex_resp 180 udp)); CNet (at_ 102) 11 0;
    SApp (at_ 103) (Msg 3 (ex_resp 200 udp)) ].

Example C74_lost_2xx_witness : reached (ex_t ICT) ex_lost (after (ex_t ICT) ex_lost) /\
  t_state (p_client (after (ex_t ICT) ex_lost)) = ICT_PROCEEDING /\
  option_map t_state (p_server (after (ex_t ICT) ex_lost)) = Some IST_TERMINATED.
Proof. split; [apply reached_after; auto|]. split; vm_compute; reflexivity. Qed.

Print Assumptions C73_no_undefined_behaviour.
Print Assumptions C73_request_is_the_clients.
Print Assumptions C73_request_told_once.
Print Assumptions C73_answers_are_the_servers.
Print Assumptions C73_one_final_told.
Print Assumptions C73_agreement.
Print Assumptions C73_ack_means_known.
Print Assumptions C73_forget_rule_needed.
Print Assumptions C74_lost_answer_recovered.
Print Assumptions C74_lost_refusal_or_ack_recovered.
Print Assumptions C74_lost_request_recovered.
Print Assumptions C74_lost_2xx_rule_needed.

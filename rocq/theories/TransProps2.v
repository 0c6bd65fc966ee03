(** Properties C17, C24 and C25. *)
From Coq Require Import String ZArith Ascii Bool List Lia ZifyBool ZifyNat Permutation.
From Verif Require Import Base Str StrLemmas Types TimeModel PortModel CloneModel CloneProofs TransModel TransSpec TransProofs TransSteps TransProps.
Import ListNotations.
Open Scope Z_scope.

(** * C17 *)

Lemma exec_send_negative : forall e t ev r t' o m h p i, execute e t ev = Ok (r, t', o) ->
  In (OSend m h p i) o -> i < 0 ->
  termb (t_state t') = true /\ i = e_send e /\
  exists o1, o = o1 ++ [OTpErr (t_type t) i; OKill (t_type t)] /\ count is_tperr o1 = 0%nat.
Proof.
  intros e t ev r t' o m h p i H Hin Hi. apply execute_inv in H.
  destruct H as [(-> & Ho & _)|(h0 & Ht & Hh & _)].
  { destruct Ho as [->| ->]; in_cases Hin; discriminate. }
  table_cases Ht; handler_cases Hh; injection Hh as <- <-; proj; rewrite ?Hk in *; rewrite ?Hs;
    in_cases Hin; try discriminate Hin; try injection Hin as <- <- <- <-; try lia;
    (split; [reflexivity|]; split; [reflexivity|]).
  all: rewrite ?app_assoc; try (eexists; split; [reflexivity|]; cnt).
  all: match goal with
       | |- exists o1, [?a; OTpErr _ _; OKill _] = _ /\ _ => exists [a]; split; reflexivity
       | |- exists o1, [?a; ?b; OTpErr _ _; OKill _] = _ /\ _ => exists [a; b]; split; reflexivity
       | |- exists o1, [?a; ?b; ?c; OTpErr _ _; OKill _] = _ /\ _ => exists [a; b; c]; split; reflexivity
       | |- exists o1, [?a; ?b; ?c; ?d; OTpErr _ _; OKill _] = _ /\ _ => exists [a; b; c; d]; split; reflexivity
       end.
Qed.

(** A failed send (negative result) is reported by exactly one transport error carrying that
    result, followed by the kill callback, and the transaction is over. *)
Theorem C17_failure_is_reported : forall t0 l t tr e ev r t' o m h p i, fresh t0 -> run t0 l = Ok (t, tr) ->
  execute e t ev = Ok (r, t', o) -> In (OSend m h p i) o -> i < 0 ->
  terminated (t_state t') /\
  exists o1, o = o1 ++ [OTpErr (t_type t) i; OKill (t_type t)] /\ count is_tperr o1 = 0%nat.
Proof.
  intros t0 l t tr e ev r t' o m h p i _ _ He Hin Hi.
  destruct (exec_send_negative _ _ _ _ _ _ _ _ _ _ He Hin Hi) as (H1 & _ & H2).
  rewrite <- termb_iff. auto.
Qed.

(** Messages held by a transaction come from events. *)
Definition held_ok (P : message -> Prop) (t : trans) : Prop :=
  (forall m, t_orig t = Some m -> P (mc m)) /\ (forall m, t_last t = Some m -> P (mc m)).

Lemma exec_held_ok : forall P e ev t r t' o, held_ok P t -> (forall m, ev_sip ev = Some m -> P (mc m)) ->
  execute e t ev = Ok (r, t', o) -> held_ok P t'.
Proof.
  intros P e ev t r t' o (HI1 & HI2) HP H. apply execute_inv in H.
  destruct H as [(-> & Ho & _)|(h0 & Ht & Hh & _)]; [split; auto|].
  table_cases Ht; handler_cases Hh; injection Hh as <- <-; split; proj; auto;
    intros mm Hm; first [ injection Hm as <-; auto; fail | discriminate | apply HI1; congruence | apply HI2; congruence ].
Qed.

Lemma run_held_ok : forall (P : message -> Prop) t0 l t tr, fresh t0 ->
  Forall (fun x => forall m, ev_sip (snd x) = Some m -> P (mc m)) l -> run t0 l = Ok (t, tr) -> held_ok P t.
Proof.
  intros P t0 l t tr Hf Hl Hr.
  refine (run_invariant (held_ok P) (fun x => forall m, ev_sip (snd x) = Some m -> P (mc m)) _ l t0 t tr _ Hl Hr).
  - intros. eapply exec_held_ok; eauto.
  - destruct (fresh_nomsg _ Hf) as (H1 & H2 & _). split; intros; congruence.
Qed.

Lemma has_top_via_vias : forall m, has_top_via m -> m_vias m <> [].
Proof. intros m (p & H). unfold top_proto in H. destruct (m_vias m); congruence. Qed.

(** The converse, when the send callback never returns a positive value and every message has
    a usable top Via.  (Partial: see C17_refuted for positive results.) *)
Theorem C17_error_only_on_failure_partial : forall t0 l t tr e ev r t' o, fresh t0 ->
  Forall (fun x => forall m, ev_sip (snd x) = Some m -> has_top_via (mc m)) l -> run t0 l = Ok (t, tr) ->
  (forall m, ev_sip ev = Some m -> has_top_via (mc m)) -> e_send e <= 0 ->
  execute e t ev = Ok (r, t', o) ->
  (forall k err, In (OTpErr k err) o -> k = t_type t /\ err < 0 /\ exists m h p, In (OSend m h p err) o).
Proof.
  intros t0 l t tr e ev r t' o Hf Hl Hr Hv Hs0 He k err Hin.
  pose proof (run_held_ok _ _ _ _ _ Hf Hl Hr) as (HH1 & HH2).
  apply execute_inv in He. destruct He as [(-> & Ho & _)|(h0 & Ht & Hh & _)].
  { destruct Ho as [->| ->]; in_cases Hin; discriminate. }
  assert (Hnv : forall m, has_top_via (mc m) -> top_proto (mc m) = NoVia -> False) by (intros m (? & ?) ?; congruence).
  assert (Hnp : forall m, has_top_via (mc m) -> top_proto (mc m) = NoProto -> False) by (intros m (? & ?) ?; congruence).
  assert (Hne : forall m, has_top_via (mc m) -> m_vias (mc m) = [] -> False)
    by (intros m Hm Hc; apply has_top_via_vias in Hm; auto).
  table_cases Ht; handler_cases Hh; injection Hh as <- <-; proj; rewrite ?Hk in *;
    try (exfalso; eauto; fail);
    in_cases Hin; try discriminate Hin; injection Hin as <- <-;
    (split; [first [reflexivity | exact Hk]|]; split; [lia|]);
    eexists _, _, _; rewrite ?in_app_iff; cbn [In]; eauto 10.
Qed.

(** A non-negative result never ends a client transaction that is (re)sending its request. *)
Theorem C17_nonnegative_request_send : forall t0 l t tr e ev r t' o m, fresh t0 ->
  Forall (fun x => forall m, ev_sip (snd x) = Some m -> has_top_via (mc m)) l -> run t0 l = Ok (t, tr) ->
  (forall m, ev_sip ev = Some m -> has_top_via (mc m)) ->
  execute e t ev = Ok (r, t', o) -> 0 <= e_send e ->
  (ev_type ev = SND_REQINVITE \/ ev_type ev = SND_REQUEST \/ ev_type ev = TIMEOUT_A \/ ev_type ev = TIMEOUT_E) ->
  In m o -> is_tperr m = false /\ is_kill m = false.
Proof.
  intros t0 l t tr e ev r t' o x Hf Hl Hr Hv He Hs0 Hty Hin.
  pose proof (run_held_ok _ _ _ _ _ Hf Hl Hr) as (HH1 & HH2).
  apply execute_inv in He. destruct He as [(-> & Ho & _)|(h0 & Ht & Hh & _)].
  { destruct Ho as [->| ->]; in_cases Hin; subst; auto. }
  assert (Hnv : forall m, has_top_via (mc m) -> top_proto (mc m) = NoVia -> False) by (intros m (? & ?) ?; congruence).
  assert (Hnp : forall m, has_top_via (mc m) -> top_proto (mc m) = NoProto -> False) by (intros m (? & ?) ?; congruence).
  table_cases Ht; rewrite He in Hty; destruct Hty as [Hty|[Hty|[Hty|Hty]]]; try discriminate Hty; clear Hty;
    handler_cases Hh; injection Hh as <- <-; proj;
    try (exfalso; eauto; fail); try (exfalso; lia);
    in_cases Hin; subst; auto.
Qed.

(** The full converse fails: when the send callback returns a positive value for the ACK of a
    486, the transaction ends with a transport error and the 486 is never reported. *)
Theorem C17_refuted : exists t0 l t tr e ev r t' o, fresh t0 /\
  Forall (fun x => api_event (snd x) /\ complete_event (snd x)) l /\ run t0 l = Ok (t, tr) /\
  api_event ev /\ complete_event ev /\ e_send e = 1 /\ execute e t ev = Ok (r, t', o) /\
  In (OTpErr ICT 1) o /\ terminated (t_state t') /\ (forall c m, In (OCb c m) o -> False).
Proof.
  exists (ex_t ICT), (firstn 1 ex_ict_run). eexists _, _, (ex_env 1).
  exists (Ev RCV_STATUS_3456XX (Some (Msg 3 (ex_resp 486 ($"UDP"))))). eexists _, _, _.
  split; [apply ex_t_fresh|]. split.
  { pose proof ex_ict_api as H. inversion H; subst. constructor; auto. }
  split; [vm_compute; reflexivity|]. split; [api_ev|].
  split. { refine (proj2 (proj1 (Forall_forall _ _) ex_ict_api (ex_env 0, _) _)). right; right; right; left; reflexivity. }
  split; [reflexivity|]. split; [vm_compute; reflexivity|].
  split; [right; left; reflexivity|]. split; [left; reflexivity|].
  intros c m H. in_cases H; discriminate.
Qed.

(** An INVITE whose send fails with -5: the hypotheses of the theorems above are met. *)
Example C17_witness : exists r t' o m h p, fresh (ex_t ICT) /\
  execute (ex_env (-5)) (ex_t ICT) (Ev SND_REQINVITE (Some (Msg 1 (ex_invite ($"UDP"))))) = Ok (r, t', o) /\
  has_top_via (ex_invite ($"UDP")) /\
  o = [OSend m h p (-5); OTpErr ICT (-5); OKill ICT].
Proof.
  eexists _, _, _, _, _, _. split; [apply ex_t_fresh|]. split; [vm_compute; reflexivity|].
  split; [exists ($"UDP"); reflexivity|reflexivity].
Qed.

(** * C24 *)

Lemma param_get_some : forall ps n p, param_get ps n = Some p -> first_param ps n (snd p).
Proof.
  unfold param_get. induction ps as [|q ps]; intros n p H; [discriminate|]. simpl in H.
  destruct (strcaseeq (fst q) n) eqn:E.
  - injection H as <-. exists [], q, ps. repeat split; auto. intros ? [].
  - destruct (IHps _ _ H) as (ps1 & p' & ps2 & -> & H1 & H2 & H3).
    exists (q :: ps1), p', ps2. repeat split; auto. intros x [<-|Hx]; auto.
Qed.

Lemma param_get_none : forall ps n, param_get ps n = None -> no_param ps n.
Proof. unfold param_get, no_param. intros. exact (find_none _ _ H q H0). Qed.

Lemma param_get_no : forall ps n, no_param ps n -> param_get ps n = None.
Proof.
  unfold param_get, no_param. induction ps; simpl; intros; auto. rewrite (H a); auto.
Qed.

Lemma param_get_first : forall ps n x, first_param ps n x -> exists p, param_get ps n = Some p /\ snd p = x.
Proof.
  intros ps n x (ps1 & p & ps2 & -> & H1 & H2 & H3). exists p. split; auto. clear H2.
  unfold param_get. induction ps1; simpl; [rewrite H1; auto|].
  rewrite H3 by (simpl; auto). apply IHps1. intros. apply H3. simpl; auto.
Qed.

Lemma port_is_or : forall p, port_is p (port_or_5060 p).
Proof. destruct p; reflexivity. Qed.

(** What a server transaction sends, and where. *)
Lemma exec_server_dest : forall e t ev r t' o m h p i, execute e t ev = Ok (r, t', o) ->
  (t_type t = IST \/ t_type t = NIST) -> In (OSend m h p i) o ->
  exists v vs, m_vias (mc m) = v :: vs /\ (h, p) = response_dest v.
Proof.
  intros e t ev r t' o m h p i H Hty Hin. apply execute_inv in H.
  destruct H as [(-> & Ho & _)|(h0 & Ht & Hh & _)].
  { destruct Ho as [->| ->]; in_cases Hin; discriminate. }
  table_cases Ht; try (destruct Hty; discriminate); handler_cases Hh; injection Hh as <- <-;
    in_cases Hin; try discriminate Hin; injection Hin as <- <- <- <-;
    eexists _, _; split; eassumption || reflexivity.
Qed.

(** Responses go where RFC 3261 18.2.2 and RFC 3581 say, provided maddr and received, when
    present, have a value.  (Partial: see C24_refuted.) *)
Theorem C24_response_target_partial : forall t0 l t tr e ev r t' o m h p i, fresh t0 ->
  (t_type t0 = IST \/ t_type t0 = NIST) -> run t0 l = Ok (t, tr) -> execute e t ev = Ok (r, t', o) ->
  In (OSend m h p i) o ->
  exists v vs, m_vias (mc m) = v :: vs /\ response_port v p /\
    (~ first_param (v_params v) ($"maddr") None -> ~ first_param (v_params v) ($"received") None ->
     response_host v h).
Proof.
  intros t0 l t tr e ev r t' o m h p i Hf Hty Hr He Hin.
  assert (Hty' : t_type t = t_type t0).
  { refine (run_invariant (fun x => t_type x = t_type t0) (fun _ => True) _ l t0 t tr _ _ Hr); auto.
    - intros. apply execute_identity in H1. destruct H1 as (_ & -> & _). auto.
    - apply Forall_forall. auto. }
  rewrite <- Hty' in Hty.
  destruct (exec_server_dest _ _ _ _ _ _ _ _ _ _ He Hty Hin) as (v & vs & Hv & Hd).
  exists v, vs. split; auto.
  assert (h = fst (response_dest v)) as -> by (rewrite <- Hd; reflexivity).
  assert (p = snd (response_dest v)) as -> by (rewrite <- Hd; reflexivity).
  clear. unfold response_dest. cbn [fst snd]. split.
  - destruct (param_get (v_params v) ($"rport")) as [[n x]|] eqn:E.
    + apply param_get_some in E. destruct x as [x|].
      * apply rp_rport. auto.
      * apply rp_via; [right; auto|apply port_is_or].
    + apply rp_via; [left; apply param_get_none; auto|apply port_is_or].
  - intros H1 H2. destruct (param_get (v_params v) ($"maddr")) as [[n x]|] eqn:E.
    + apply param_get_some in E. destruct x as [x|]; [|contradiction]. apply rh_maddr. auto.
    + apply param_get_none in E. destruct (param_get (v_params v) ($"received")) as [[n x]|] eqn:E2.
      * apply param_get_some in E2. destruct x as [x|]; [|contradiction]. apply rh_received; auto.
      * apply param_get_none in E2. apply rh_host; auto.
Qed.

(** A 200 to an INVITE whose Via has received and rport. *)
Definition ex_nat_via : via :=
  mkVia (Some ($"2.0")) (Some ($"UDP")) (Some ($"10.0.0.1")) (Some ($"5070")) None
        [($"Received", Some ($"192.0.2.7")); ($"branch", Some ($"z9hG4bK77")); ($"rport", Some ($"6000"))].
Definition ex_200 (v : via) : message := ex_msg (Some ($"SIP/2.0")) None 200 v ex_to ($"INVITE").

Example C24_witness : exists t tr r t' o m i, 
  run (ex_t IST) [(ex_env 0, Ev RCV_REQINVITE (Some (Msg 1 (ex_invite ($"UDP")))))] = Ok (t, tr) /\
  execute (ex_env 0) t (Ev SND_STATUS_2XX (Some (Msg 2 (ex_200 ex_nat_via)))) = Ok (r, t', o) /\
  In (OSend m (Some ($"192.0.2.7")) 6000 i) o.
Proof.
  eexists _, _, _, _, _, _, _. split; [vm_compute; reflexivity|]. split; [vm_compute; reflexivity|].
  left. reflexivity.
Qed.

(** With a valueless "received" parameter the host given to the send callback is NULL. *)
Definition ex_bad_via : via :=
  mkVia (Some ($"2.0")) (Some ($"UDP")) (Some ($"10.0.0.1")) None None [($"received", None)].

Theorem C24_refuted : exists t0 l t tr e ev r t' o m p i, fresh t0 /\ t_type t0 = IST /\
  run t0 l = Ok (t, tr) /\ execute e t ev = Ok (r, t', o) /\ In (OSend m None p i) o /\
  exists v vs, m_vias (mc m) = v :: vs /\ v_host v <> None.
Proof.
  exists (ex_t IST), [(ex_env 0, Ev RCV_REQINVITE (Some (Msg 1 (ex_invite ($"UDP")))))]. eexists _, _.
  exists (ex_env 0), (Ev SND_STATUS_2XX (Some (Msg 2 (ex_200 ex_bad_via)))). eexists _, _, _, _, _, _.
  split; [apply ex_t_fresh|]. split; [reflexivity|]. split; [vm_compute; reflexivity|].
  split; [vm_compute; reflexivity|]. split; [left; reflexivity|].
  eexists _, _. split; [reflexivity|discriminate].
Qed.

(** * C25 *)

Lemma no_value_get : forall ps n, match param_get ps n with Some (_, v) => v | None => None end = None ->
  no_value ps n.
Proof.
  intros ps n H. destruct (param_get ps n) as [[n' v]|] eqn:E.
  - subst. right. apply param_get_some in E. auto.
  - left. apply param_get_none. auto.
Qed.

Lemma value_get : forall ps n x, match param_get ps n with Some (_, v) => v | None => None end = Some x ->
  first_param ps n (Some x).
Proof.
  intros ps n x H. destruct (param_get ps n) as [[n' v]|] eqn:E; [|discriminate].
  subst. apply param_get_some in E. auto.
Qed.

Lemma request_dest_ok : forall m u, m_uri m = Some u ->
  request_target m (fst (request_dest (m_routes m) u)) (snd (request_dest (m_routes m) u)).
Proof.
  intros m u Hu. unfold request_dest.
  destruct (match top (m_routes m) with
            | Some r => match na_url r with
                        | Some u => match param_get (u_params u) ($"lr") with
                                    | Some _ => Some u | None => None end
                        | None => None end
            | None => None end) as [w|] eqn:E.
  - destruct (m_routes m) as [|r rs] eqn:Er; [discriminate|]. cbn [top] in E.
    destruct (na_url r) as [w'|] eqn:Ew; [|discriminate].
    destruct (param_get (u_params w') _) as [[n x]|] eqn:Ep; [|discriminate]. injection E as ->.
    simpl. apply rt_route; [|apply port_is_or]. exists r, rs, x. rewrite Er. split; auto. split; auto.
    apply param_get_some in Ep. auto.
  - assert (Hno : forall w, ~ loose_route (m_routes m) w).
    { intros w (r & rs & x & Hr & Hw & Hp). rewrite Hr in E. cbn [top] in E. rewrite Hw in E.
      apply param_get_first in Hp. destruct Hp as (q & Hq & _). rewrite Hq in E. discriminate. }
    destruct (match param_get (u_params u) ($"maddr") with Some (_, v) => v | None => None end) as [x|] eqn:Em.
    { eapply rt_maddr; eauto using value_get, port_is_or. }
    apply no_value_get in Em.
    destruct (match param_get (u_params u) ($"x-obr") with Some (_, v) => v | None => None end) as [x|] eqn:E1;
      [destruct (match param_get (u_params u) ($"x-obp") with Some (_, v) => v | None => None end) as [y|] eqn:E2|].
    + eapply rt_outbound; eauto using value_get.
    + eapply rt_host; eauto using port_is_or, no_value_get.
    + eapply rt_host; eauto using port_is_or, no_value_get.
Qed.

(** A new client transaction aims at the first loose route, else at the Request-URI. *)
Theorem C25_destination : forall k now id m t, trans_init k now id (Some m) = Ok t -> (k = ICT \/ k = NICT) ->
  m_uri m <> None -> request_target m (t_dest t) (t_port t).
Proof.
  intros k now id m t H Hk Hu. destruct (m_uri m) as [u|] eqn:Eu; [clear Hu|congruence].
  pose proof (request_dest_ok m u Eu) as Hd.
  unfold trans_init, res_bind in H. rewrite Eu in H.
  destruct (m_call_id m); [|discriminate]. destruct (ci_number _); [|discriminate].
  destruct (m_vias m); [discriminate|].
  destruct (via_clone _); try discriminate. destruct (from_clone (m_from m)); try discriminate.
  destruct (from_clone (m_to m)); try discriminate. destruct (call_id_clone _); try discriminate.
  destruct (cseq_clone _); try discriminate. destruct (v_protocol _); [|destruct k; discriminate].
  destruct k; try (destruct Hk; discriminate); injection H as <-; exact Hd.
Qed.

Lemma exec_dest : forall e t ev r t' o, execute e t ev = Ok (r, t', o) -> t_dest t <> None ->
  t_dest t' = t_dest t /\ t_port t' = t_port t /\
  ((t_type t = ICT \/ t_type t = NICT) ->
   forall m h p i, In (OSend m h p i) o -> h = t_dest t /\ p = t_port t).
Proof.
  intros e t ev r t' o H Hd. apply execute_inv in H.
  destruct H as [(-> & Ho & _)|(h0 & Ht & Hh & _)].
  { repeat split; auto; destruct Ho as [->| ->]; in_cases H0; discriminate. }
  table_cases Ht; handler_cases Hh; injection Hh as <- <-; proj; try congruence;
    (split; [first [reflexivity | congruence]|]; split; [reflexivity|]); intros Hty mm1 h1 p1 i1 Hin;
    try (destruct Hty; discriminate);
    in_cases Hin; try discriminate Hin; injection Hin as <- <- <- <-; proj; auto.
Qed.

(** Everything a client transaction sends, retransmissions and ACKs included, goes there. *)
Theorem C25_sends : forall t0 l t tr m h p i, fresh t0 -> (t_type t0 = ICT \/ t_type t0 = NICT) ->
  t_dest t0 <> None -> run t0 l = Ok (t, tr) -> In (OSend m h p i) (concat tr) ->
  h = t_dest t0 /\ p = t_port t0.
Proof.
  intros t0 l t tr m h p i _. revert t0 t tr. induction l as [|[e ev] l]; intros t0 t tr Hty Hd Hr Hin.
  - injection Hr as <- <-. destruct Hin.
  - apply run_cons in Hr. destruct Hr as (r & t1 & o & tr1 & H1 & H2 & ->).
    simpl in Hin. pose proof (execute_identity _ _ _ _ _ _ H1) as (_ & Hty1 & _).
    destruct (exec_dest _ _ _ _ _ _ H1 Hd) as (Hd1 & Hp1 & Hs).
    apply in_app_or in Hin. destruct Hin as [Hin|Hin]; eauto.
    rewrite <- Hd1, <- Hp1. eapply IHl; eauto; congruence.
Qed.

Definition ex_routed : message :=
  mkMsg (Some ($"SIP/2.0")) (Some ex_uri) (Some ($"INVITE")) 0 None [] [] [] [] [] [] []
        (Some ex_cid) [] [] [] None None (Some (mkCSeq (Some ($"INVITE")) (Some ($"1")))) [] (Some ex_from) None
        [] [] [] []
        [mkNA None (Some (mkUri (Some ($"sip")) None None (Some ($"proxy.org")) (Some ($"5080")) [($"lr", None)] [] None)) []]
        (Some ex_to) [ex_via ($"UDP")] [] [] [].

Example C25_witness : exists t, trans_init ICT (TV 1 0) 1 (Some ex_routed) = Ok t /\
  t_dest t = Some ($"proxy.org") /\ t_port t = 5080 /\
  exists tr t', run t [(ex_env 0, Ev SND_REQINVITE (Some (Msg 1 ex_routed)))] = Ok (t', tr) /\
                In (OSend (Msg 1 ex_routed) (Some ($"proxy.org")) 5080 0) (concat tr).
Proof.
  eexists. split; [vm_compute; reflexivity|]. split; [reflexivity|]. split; [reflexivity|].
  eexists _, _. split; [vm_compute; reflexivity|]. left. reflexivity.
Qed.
Print Assumptions C17_failure_is_reported.
Print Assumptions C17_error_only_on_failure_partial.
Print Assumptions C17_nonnegative_request_send.
Print Assumptions C17_refuted.
Print Assumptions C24_response_target_partial.
Print Assumptions C24_refuted.
Print Assumptions C25_destination.
Print Assumptions C25_sends.

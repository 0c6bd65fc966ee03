(** Single-step facts about transactions. *)
From Coq Require Import String ZArith Ascii Bool List Lia ZifyBool ZifyNat.
From Verif Require Import Base Str StrLemmas Types TimeModel PortModel CloneModel CloneProofs TransModel TransSpec TransProofs.
Import ListNotations.
Open Scope Z_scope.

(** * Messages carried by API events *)

Lemma api_event_msg : forall ev, api_event ev -> evt_is_msg (ev_type ev) = true ->
  exists m, ev_sip ev = Some m /\ (ev_type ev = incoming_type (mc m) \/ ev_type ev = outgoing_type (mc m)).
Proof.
  intros ev [(m & H)|[(m & H)|(H & H')]] Hm.
  - unfold parsed_event in H. destruct (is_request (mc m)).
    + destruct (m_method (mc m)), (m_uri (mc m)); try discriminate; injection H as <-; exists m; auto.
    + injection H as <-; exists m; auto.
  - unfold new_outgoing in H. destruct (is_request (mc m)).
    + destruct (m_method (mc m)), (m_uri (mc m)); try discriminate; injection H as <-; exists m; auto.
    + injection H as <-; exists m; auto.
  - unfold is_timeout, evt_is_msg in *. destruct (ev_type ev); simpl in *; discriminate.
Qed.

Lemma api_event_nomsg : forall ev, api_event ev -> evt_is_msg (ev_type ev) = false ->
  ev_sip ev = None /\ is_timeout (ev_type ev) = true.
Proof.
  intros ev [(m & H)|[(m & H)|(H & H')]] Hm; auto; exfalso.
  - assert (ev_type ev = incoming_type (mc m)) as E.
    { unfold parsed_event in H. destruct (is_request (mc m)).
      + destruct (m_method (mc m)), (m_uri (mc m)); try discriminate; injection H as <-; auto.
      + injection H as <-; auto. }
    rewrite E in Hm. unfold incoming_type in Hm. repeat match type of Hm with context [if ?b then _ else _] => destruct b end; discriminate.
  - assert (ev_type ev = outgoing_type (mc m)) as E.
    { unfold new_outgoing in H. destruct (is_request (mc m)).
      + destruct (m_method (mc m)), (m_uri (mc m)); try discriminate; injection H as <-; auto.
      + injection H as <-; auto. }
    rewrite E in Hm. unfold outgoing_type in Hm. repeat match type of Hm with context [if ?b then _ else _] => destruct b end; discriminate.
Qed.

(** * Which messages a transaction holds *)

(** [P] is a property of the request the client transaction sent. *)
Definition holds (P : message -> Prop) (t : trans) : Prop :=
  match t_state t with
  | ICT_CALLING | ICT_PROCEEDING => exists m, t_orig t = Some m /\ P (mc m)
  | ICT_COMPLETED => exists m a, t_orig t = Some m /\ P (mc m) /\ t_ack t = Some a
  | IST_COMPLETED => exists r, t_last t = Some r
  | NICT_TRYING | NICT_PROCEEDING => exists m, t_orig t = Some m /\ P (mc m)
  | _ => True
  end.

Definition ev_ok (P : message -> Prop) (ev : event) : Prop :=
  api_event ev /\
  forall m, ev_sip ev = Some m ->
    match ev_type ev with SND_REQINVITE | SND_REQUEST => P (mc m) | _ => True end.

Lemma fresh_state : forall t, fresh t -> t_state t = init_state (t_type t).
Proof.
  intros t (k & now & id & m & H). unfold trans_init, res_bind in H.
  repeat match type of H with
  | context [match ?x with _ => _ end] =>
      match x with context [match _ with _ => _ end] => fail 1 | _ => destruct x; try discriminate H end
  end; injection H as <-; reflexivity.
Qed.

Lemma fresh_nomsg : forall t, fresh t -> t_orig t = None /\ t_last t = None /\ t_ack t = None.
Proof.
  intros t (k & now & id & m & H). unfold trans_init, res_bind in H.
  repeat match type of H with
  | context [match ?x with _ => _ end] =>
      match x with context [match _ with _ => _ end] => fail 1 | _ => destruct x; try discriminate H end
  end; injection H as <-; auto.
Qed.

Lemma fresh_holds : forall P t, fresh t -> holds P t.
Proof. intros. unfold holds. rewrite (fresh_state t H). destruct (t_type t); simpl; auto. Qed.

Lemma exec_holds : forall P e ev t r t' o, holds P t -> ev_ok P ev ->
  execute e t ev = Ok (r, t', o) -> holds P t'.
Proof.
  intros P e ev t r t' o HI (Ha & Hc) H. apply execute_inv in H.
  destruct H as [(-> & Ho & _)|(h & Hin & Hh & _)]; auto.
  unfold holds in *.
  table_cases Hin; rewrite Hs in HI; handler_cases Hh; injection Hh as <- <-;
    proj; rewrite ?Hs; auto.
  all: try (eexists; split; [reflexivity|]; rewrite He in Hc; apply Hc; auto).
  all: try (eexists; reflexivity).
  all: repeat match goal with
       | H : exists _, _ |- _ => destruct H
       | H : _ /\ _ |- _ => destruct H
       | H : Some _ = Some _ |- _ => injection H as H; subst
       end;
       first [ discriminate | eexists; split; eassumption | eexists; eassumption | eexists; reflexivity
             | eexists _, _; repeat split; first [eassumption | reflexivity]
             | eexists _, _; split; [eassumption|]; split; first [eassumption | congruence] ].
Qed.

(** Every handler succeeds when the transaction holds what it needs. *)
Lemma exec_total : forall P e ev t, holds P t -> api_event ev ->
  exists r t' o, execute e t ev = Ok (r, t', o).
Proof.
  intros P e ev t HI Ha.
  destruct (etype_eqb (ev_type ev) KILL_TRANSACTION) eqn:Hk.
  { apply etype_eqb_eq in Hk. unfold execute. rewrite Hk. eauto. }
  assert (E : execute e t ev = match lookup (table (t_type t)) (t_state t) (ev_type ev) with
                 | Some h => do r <- h e t ev ; Ok (1, fst r, snd r)
                 | None => Ok (1, t, if evt_is_msg (ev_type ev) then free_opt (ev_sip ev) else [])
                 end) by (unfold execute; destruct (ev_type ev); auto; discriminate).
  rewrite E. clear E.
  destruct (lookup (table (t_type t)) (t_state t) (ev_type ev)) as [h|] eqn:Hl; [|eexists _, _, _; reflexivity].
  assert (Hin := lookup_in _ _ _ _ Hl); unfold holds in HI.
  assert (Hm : evt_is_msg (ev_type ev) = true -> exists m, ev_sip ev = Some m)
         by (intros Hm; apply api_event_msg in Hm; auto; destruct Hm as (m & Hm & _); eauto).
  clear Hl Hk.
  destruct (h e t ev) as [[t1 o1]|c|] eqn:Hh; [eexists _, _, _; reflexivity| |]; exfalso;
  table_cases Hin; rewrite Hs in HI; rewrite He in Hm;
    repeat match goal with
       | H : exists _, _ |- _ => destruct H
       | H : _ /\ _ |- _ => destruct H
       end; try destruct (Hm eq_refl) as (m & Em); clear Hm; handler_cases Hh; congruence.
Qed.

(** * Building the ACK *)

Lemma create_ack_some : forall orig resp, complete_request orig -> complete_response resp ->
  exists a, create_ack orig resp = Some a.
Proof.
  intros orig resp (Hv & (u & Hu & Hut) & (v & vs & Hvia & Hvc) & Hr)
         ((f & Hf & Hfo) & (t & Ht & Hto) & (c & Hc & Hcn) & (cs & Hcs & Hcm & Hcsn)).
  unfold create_ack. rewrite Hf, Ht, Hc, Hcs, Hu, Hvia.
  rewrite (from_clone_total f Hfo), (from_clone_total t Hto), (uri_clone_total u Hut).
  destruct c as [cn ch], cs as [csm csn]; cbn in Hcn, Hcm, Hcsn.
  destruct cn; [|congruence]. destruct csm; [|congruence]. destruct csn; [|congruence].
  cbn [cseq_clone call_id_clone ci_number cs_method cs_number].
  destruct (m_version orig); [|congruence].
  destruct Hvc as (H1 & H2 & H3). cbn [top]. rewrite (via_clone_total v H1 H2 H3).
  rewrite (list_clone_total _ (fun r => from_clone (Some r))).
  2:{ eapply Forall_impl; [|exact Hr]. intros. apply from_clone_total. auto. }
  destruct (negb _ && negb _); rewrite ?authz_list_clone; eauto.
Qed.

Lemma create_ack_inv : forall orig resp a, create_ack orig resp = Some a ->
  exists f t ci cs u v,
    m_from resp = Some f /\ m_to resp = Some t /\ m_call_id resp = Some ci /\ m_cseq resp = Some cs /\
    m_uri orig = Some u /\ top (m_vias orig) = Some v /\ m_version orig <> None /\
    let creds := negb (Z.eqb (m_status resp) 401) && negb (Z.eqb (m_status resp) 407) in
    a = mkMsg (m_version orig) (Some u) (Some ($"ACK")) 0 None [] [] [] [] [] []
          (if creds then m_authorizations orig else []) (Some ci) [] [] []
          None None (Some (mkCSeq (Some ($"ACK")) (cs_number cs))) [] (Some f) None
          [] [] (if creds then m_proxy_authorizations orig else []) [] (m_routes orig) (Some t) [v] [] [] [].
Proof.
  intros orig resp a H. unfold create_ack in H.
  destruct (from_clone (m_from resp)) as [f| |] eqn:E1; try discriminate. apply from_clone_ok in E1.
  destruct (from_clone (m_to resp)) as [t| |] eqn:E2; try discriminate. apply from_clone_ok in E2.
  destruct (call_id_clone (m_call_id resp)) as [ci| |] eqn:E3; try discriminate. apply call_id_clone_ok in E3.
  destruct (cseq_clone (m_cseq resp)) as [cs| |] eqn:E4; try discriminate. apply cseq_clone_ok in E4.
  destruct (m_version orig) as [ver|] eqn:E5; try discriminate.
  destruct (uri_clone (m_uri orig)) as [u| |] eqn:E6; try discriminate. apply uri_clone_ok in E6.
  destruct (via_clone (top (m_vias orig))) as [v| |] eqn:E7; try discriminate. apply via_clone_ok in E7.
  destruct (list_clone (fun r => from_clone (Some r)) [] (m_routes orig)) as [rs| |] eqn:E8; try discriminate.
  apply list_clone_ok in E8; [|apply from_some_clone_ok]. simpl in E8. subst rs.
  exists f, t, ci, cs, u, v. repeat split; auto; [congruence|].
  destruct (negb (m_status resp =? 401) && negb (m_status resp =? 407)); rewrite ?authz_list_clone in H;
    injection H as <-; reflexivity.
Qed.

(** * The diagrams *)

(** Edges of the figures are exactly the entries of the tables. *)
Lemma table_edge : forall t ev h, In (t_state t, ev_type ev, h) (table (t_type t)) ->
  exists l s1, label_of (t_type t) (ev_type ev) = Some l /\ figure (t_type t) (rfc_state (t_state t)) l s1.
Proof.
  intros t ev h Hin.
  table_cases Hin; rewrite Hs, He; cbn;
    first [ eexists _, _; split; [reflexivity|constructor] ].
Qed.

Lemma no_entry_no_edge : forall k s ty l s1, lookup (table k) s ty = None -> label_of k ty = Some l ->
  figure k (rfc_state s) l s1 ->
  s = init_state k \/ rfc_state s <> None -> False.
Proof.
  intros k s ty l s1 Hn Hl Hf Hc.
  destruct k, ty; try discriminate Hl; injection Hl as <-; simpl in Hf; destruct s; simpl in Hf, Hc;
    inversion Hf; subst; try discriminate Hn; destruct Hc; congruence.
Qed.

(** The states of one kind of machine *)
Definition state_of (k : fsm) (s : state) : bool :=
  match k, s with
  | ICT, (ICT_PRE_CALLING | ICT_CALLING | ICT_PROCEEDING | ICT_COMPLETED | ICT_TERMINATED) => true
  | IST, (IST_PRE_PROCEEDING | IST_PROCEEDING | IST_COMPLETED | IST_CONFIRMED | IST_TERMINATED) => true
  | NICT, (NICT_PRE_TRYING | NICT_TRYING | NICT_PROCEEDING | NICT_COMPLETED | NICT_TERMINATED) => true
  | NIST, (NIST_PRE_TRYING | NIST_TRYING | NIST_PROCEEDING | NIST_COMPLETED | NIST_TERMINATED) => true
  | _, _ => false
  end.

Definition typed (t : trans) : Prop := state_of (t_type t) (t_state t) = true.

Lemma fresh_typed : forall t, fresh t -> typed t.
Proof. intros. unfold typed. rewrite (fresh_state t H). destruct (t_type t); auto. Qed.

Lemma exec_typed : forall e ev t r t' o, typed t -> execute e t ev = Ok (r, t', o) -> typed t'.
Proof.
  unfold typed. intros e ev t r t' o HI H. apply execute_inv in H.
  destruct H as [(-> & _)|(h & Hin & Hh & _)]; auto.
  table_cases Hin; handler_cases Hh; injection Hh as <- <-; proj; rewrite ?Hk, ?Hs; auto.
Qed.

Lemma typed_init : forall t, typed t -> t_state t = init_state (t_type t) \/ rfc_state (t_state t) <> None.
Proof.
  unfold typed. intros. destruct (t_type t), (t_state t); try discriminate; auto; right; discriminate.
Qed.

(** The step that RFC 3261 does not have: the ACK cannot be built. *)
Definition ack_impossible (t : trans) (ev : event) : Prop :=
  t_type t = ICT /\ (t_state t = ICT_CALLING \/ t_state t = ICT_PROCEEDING) /\ ev_type ev = RCV_STATUS_3456XX /\
  exists m r, t_orig t = Some m /\ ev_sip ev = Some r /\ create_ack (mc m) (mc r) = None.

Lemma exec_rfc : forall e ev t r t' o, typed t -> execute e t ev = Ok (r, t', o) ->
  ack_impossible t ev \/ rfc_step (t_type t) (t_state t) (ev_type ev) o (t_state t').
Proof.
  intros e ev t r t' o HT H. apply execute_inv in H.
  destruct H as [(-> & Ho & Hn & _)|(h & Hin & Hh & _)].
  - right. apply rfc_stray; auto.
    + intros l s1 Hl Hf. eapply no_entry_no_edge; eauto using typed_init.
    + destruct Ho as [->| ->]; auto using invisible_free_opt.
  - table_cases Hin; handler_cases Hh; injection Hh as <- <-; proj; rewrite ?Hs, ?He.
    all: try (left; unfold ack_impossible; rewrite Hk; repeat split; eauto 10; fail).
    all: right.
    all: first [ eapply rfc_edge; [reflexivity | cbn; constructor | solve [cnt] ]
               | eapply rfc_error; [reflexivity | cbn; constructor
                                   | first [ left; cbn; constructor; fail | right; cbn; constructor; fail ] | cnt ] ].
Qed.

Lemma exec_rank : forall e ev t r t' o, execute e t ev = Ok (r, t', o) ->
  (rank (t_state t) <= rank (t_state t'))%nat.
Proof.
  intros e ev t r t' o H. apply execute_inv in H.
  destruct H as [(-> & Ho & Hn & _)|(h & Hin & Hh & _)]; auto.
  table_cases Hin; handler_cases Hh; injection Hh as <- <-; proj; rewrite ?Hs; simpl; lia.
Qed.

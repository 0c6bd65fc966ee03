(** C27, C28: dialogs. *)
From Coq Require Import String ZArith Ascii Bool List Lia ZifyBool.
From Verif Require Import Base Str StrLemmas Types TimeModel PortModel CloneModel CloneProofs TransModel TransSpec
  DialogModel TransProofs TransSteps TransProps TransProps2.
Import ListNotations.
Open Scope Z_scope.

(** * C27 *)

Lemma prepend_ok : forall l acc r, prepend_routes acc l = (0, r) -> r = rev l ++ acc.
Proof.
  induction l as [|x l]; intros acc r H; cbn [prepend_routes] in H; [injection H as <-; auto|].
  destruct (from_clone (Some x)) as [y|c|] eqn:E.
  - apply from_clone_ok in E. injection E as <-. apply IHl in H. subst r. cbn [rev]. rewrite <- app_assoc. reflexivity.
  - injection H as -> <-. exfalso. unfold from_clone in E. destruct (opt_clone _ (na_url x)) as [u|c|] eqn:Eu; cbn in E; try discriminate.
    + rewrite params_clone in E. discriminate.
    + injection E as ->. unfold opt_clone in Eu. destruct (na_url x) as [u|]; [|discriminate].
      unfold uri_clone in Eu. destruct (u_host u), (u_string u); cbn in Eu; rewrite ?params_clone in Eu; cbn in Eu; discriminate.
  - discriminate.
Qed.

Lemma prepend_total : forall l acc, Forall na_ok l -> prepend_routes acc l = (0, rev l ++ acc).
Proof.
  induction l as [|x l]; intros acc H; cbn [prepend_routes]; [auto|]. inversion H; subst.
  rewrite (from_clone_total x) by auto. rewrite IHl by auto. cbn [rev]. rewrite <- app_assoc. reflexivity.
Qed.

Lemma dialog_init_inv : forall invite resp local remote rm ty d, dialog_init invite resp local remote rm ty = Ok d ->
  exists c n l r ltag, m_call_id resp = Some c /\ ci_number c = Some n /\ local = Some l /\ remote = Some r /\
    d_call_id d = Some (match ci_host c with None => n | Some h => n ++ "@"%char :: h end) /\
    first_param (na_params l) ($"tag") ltag /\ d_local_tag d = ltag /\
    d_remote_tag d = match param_get (na_params r) ($"tag") with Some (_, v) => v | None => None end /\
    d_route_set d = match invite with None => rev (m_record_routes resp) | Some _ => m_record_routes resp end /\
    d_local_uri d = local /\ d_remote_uri d = remote /\ d_type d = ty /\
    d_state d = (if is_2xx resp then DIALOG_CONFIRMED else DIALOG_EARLY).
Proof.
  intros invite resp local remote rm ty d H. unfold dialog_init in H.
  destruct (m_cseq resp) as [cs|]; [|discriminate]. destruct local as [l|]; [|discriminate]. destruct remote as [r|]; [|discriminate].
  unfold call_id_to_str in H. destruct (m_call_id resp) as [c|]; [|discriminate]. destruct (ci_number c) as [n|] eqn:En; [|discriminate].
  cbn [res_bind] in H. destruct (param_get (na_params l) ($"tag")) as [[nm ltag]|] eqn:Et; [|discriminate].
  destruct (match invite with None => Ok None | Some inv => match m_uri inv with None => UB | Some u => Ok (match param_get (u_params u) ($"line") with Some (_, v) => v | None => None end) end end) as [line|c0|];
    cbn [res_bind] in H; try discriminate.
  destruct (match invite with None => match prepend_routes [] (m_record_routes resp) with (0, l) => Ok l | (e, _) => Err e end
            | Some _ => list_clone (fun r => from_clone (Some r)) [] (m_record_routes resp) end) as [routes|c0|] eqn:Er;
    cbn [res_bind] in H; try discriminate.
  assert (Rt : routes = match invite with None => rev (m_record_routes resp) | Some _ => m_record_routes resp end).
  { destruct invite.
    - apply list_clone_ok in Er; [|apply from_some_clone_ok]. exact Er.
    - destruct (prepend_routes [] (m_record_routes resp)) as [z l0] eqn:Ep. destruct z; try discriminate.
      injection Er as <-. apply prepend_ok in Ep. rewrite app_nil_r in Ep. auto. }
  destruct (cs_number cs) as [csn|]; [|discriminate].
  destruct (from_clone (Some r)) as [ru|c0|] eqn:E1; cbn [res_bind] in H; try discriminate.
  destruct (from_clone (Some l)) as [lu|c0|] eqn:E2; cbn [res_bind] in H; try discriminate.
  apply from_clone_ok in E1, E2. injection E1 as <-. injection E2 as <-.
  destruct (match m_contacts rm with [] => Ok None | c1 :: _ => do c' <- from_clone (Some c1) ; Ok (Some c') end) as [ct|c0|];
    cbn [res_bind] in H; try discriminate.
  injection H as <-. exists c, n, l, r, ltag. cbn. apply param_get_some in Et. repeat split; auto.
Qed.

(** The caller's dialog has the Record-Routes of the answer in reverse order, the callee's those of
    its answer in order. *)
Theorem C27_initial_routes :
  (forall resp d, init_as_uac resp = Ok d -> d_route_set d = rev (m_record_routes resp)) /\
  (forall invite resp d, init_as_uas invite resp = Ok d -> d_route_set d = m_record_routes resp) /\
  (forall req n d, init_as_uac_with_remote_request req n = Ok d -> d_route_set d = m_record_routes req).
Proof.
  split; [|split].
  - intros resp d H. unfold init_as_uac in H.
    destruct (dialog_init None resp (m_from resp) (m_to resp) resp CALLER) as [d0|c|] eqn:E; cbn in H; try discriminate.
    injection H as <-. apply dialog_init_inv in E. cbn. decompose [ex and] E. auto.
  - intros invite resp d H. unfold init_as_uas in H. destruct (m_cseq resp) as [cs|]; [|discriminate].
    destruct (dialog_init (Some invite) resp (m_to resp) (m_from resp) invite CALLEE) as [d0|c|] eqn:E; cbn in H; try discriminate.
    destruct (cs_number cs); [|discriminate]. injection H as <-. apply dialog_init_inv in E. cbn. decompose [ex and] E. auto.
  - intros req n d H. unfold init_as_uac_with_remote_request in H. destruct (m_cseq req) as [cs|]; [|discriminate].
    destruct (dialog_init (Some req) req (m_to req) (m_from req) req CALLER) as [d0|c|] eqn:E; cbn in H; try discriminate.
    destruct (cs_number cs); [|discriminate]. injection H as <-. apply dialog_init_inv in E. cbn. decompose [ex and] E. auto.
Qed.

(** What the route set should be after a history, knowing only whether the dialog is still early:
    each answer seen by the caller while the dialog is early replaces it, a 2xx confirms. *)
Definition route_spec (st : dstate * list nameaddr) (a : dop) : dstate * list nameaddr :=
  match a with
  | DRoutes m =>
    ((if (200 <=? m_status m) && (m_status m <=? 299) then DIALOG_CONFIRMED else fst st),
     match fst st with DIALOG_EARLY => rev (m_record_routes m) | _ => snd st end)
  | DState s => (s, snd st)
  | _ => st
  end.
Definition cloneable (a : dop) : Prop :=
  match a with
  | DRoutes m => Forall na_ok (m_record_routes m) /\ Forall na_ok (m_contacts m)
  | _ => True
  end.

Lemma update_contact_other : forall d m, let r := snd (update_contact d m) in
  d_call_id r = d_call_id d /\ d_local_tag r = d_local_tag d /\ d_remote_tag r = d_remote_tag d /\
  d_route_set r = d_route_set d /\ d_local_uri r = d_local_uri d /\ d_remote_uri r = d_remote_uri d /\
  d_type r = d_type d /\ d_state r = d_state d.
Proof.
  intros d m. cbv zeta. unfold update_contact. destruct (m_contacts m) as [|c l]; [cbn; tauto|].
  destruct (from_clone (Some c)); cbn; tauto.
Qed.

Lemma update_contact_total : forall d m, Forall na_ok (m_contacts m) -> fst (update_contact d m) = 0.
Proof.
  intros d m H. unfold update_contact. destruct (m_contacts m) as [|c l]; [reflexivity|]. inversion H; subst.
  rewrite (from_clone_total c) by auto. reflexivity.
Qed.

Theorem C27_route_history : forall l d, Forall cloneable l ->
  (d_state (dsteps d l), d_route_set (dsteps d l)) = fold_left route_spec l (d_state d, d_route_set d).
Proof.
  induction l as [|a l]; intros d H; [reflexivity|]. inversion H; subst. cbn [dsteps fold_left]. rewrite IHl by auto.
  f_equal. destruct a; cbn [dstep route_spec].
  - destruct (update_contact_other d m) as (_ & _ & _ & R & _ & _ & _ & S). unfold update_route_set_as_uas. congruence.
  - unfold update_cseq_as_uas. destruct (m_cseq m) as [c|]; [destruct (cs_number c)|]; reflexivity.
  - destruct H2 as (Hr & Hc). unfold update_route_set_as_uac.
    destruct (update_contact_other d m) as (_ & _ & _ & R & _ & _ & _ & S). pose proof (update_contact_total d m Hc) as F.
    destruct (update_contact d m) as [i d1]. cbn [fst snd] in *. subst i. cbn [Z.eqb negb].
    unfold is_2xx, status_in. rewrite S. destruct (d_state d); cbn [is_early].
    + rewrite prepend_total by auto. rewrite app_nil_r. cbn [fst snd Z.eqb negb].
      replace ((200 <=? m_status m) && (m_status m <=? 299)) with ((200 <=? m_status m) && (m_status m <? 300)) by lia.
      destruct ((200 <=? m_status m) && (m_status m <? 300)); cbn; rewrite ?S; reflexivity.
    + cbn [Z.eqb negb OSIP_SUCCESS]. replace ((200 <=? m_status m) && (m_status m <=? 299)) with ((200 <=? m_status m) && (m_status m <? 300)) by lia.
      destruct ((200 <=? m_status m) && (m_status m <? 300)); cbn; rewrite ?S, ?R; reflexivity.
    + cbn [Z.eqb negb OSIP_SUCCESS]. replace ((200 <=? m_status m) && (m_status m <=? 299)) with ((200 <=? m_status m) && (m_status m <? 300)) by lia.
      destruct ((200 <=? m_status m) && (m_status m <? 300)); cbn; rewrite ?S, ?R; reflexivity.
  - unfold update_tag_as_uac. destruct (m_to m); [|reflexivity]. destruct (d_remote_tag d); [reflexivity|].
    destruct (param_get (na_params n) ($"tag")) as [[nm [v|]]|]; reflexivity.
  - reflexivity.
Qed.

(** Confirmed (or closed): no update changes the route set any more, whatever the messages look
    like, unless the application itself makes the dialog early again. *)
Theorem C27_frozen : forall l d, d_state d <> DIALOG_EARLY -> ~ In (DState DIALOG_EARLY) l ->
  d_route_set (dsteps d l) = d_route_set d.
Proof.
  assert (K : forall l d, d_state d <> DIALOG_EARLY -> ~ In (DState DIALOG_EARLY) l ->
    d_route_set (dsteps d l) = d_route_set d /\ d_state (dsteps d l) <> DIALOG_EARLY); [|intros; apply K; auto].
  induction l as [|a l]; intros d H Hl; [auto|]. cbn [dsteps]. cbn [In] in Hl.
  assert (S : d_route_set (snd (dstep d a)) = d_route_set d /\ d_state (snd (dstep d a)) <> DIALOG_EARLY).
  { destruct a; cbn [dstep].
    - destruct (update_contact_other d m) as (_ & _ & _ & R & _ & _ & _ & S). unfold update_route_set_as_uas. rewrite R, S. auto.
    - unfold update_cseq_as_uas. destruct (m_cseq m) as [c|]; [destruct (cs_number c)|]; auto.
    - unfold update_route_set_as_uac.
      destruct (update_contact_other d m) as (_ & _ & _ & R & _ & _ & _ & S). destruct (update_contact d m) as [i d1]. cbn [fst snd] in *.
      destruct (negb (i =? 0)); [cbn; rewrite R, S; auto|]. rewrite S. destruct (d_state d) eqn:Ed; [congruence|..]; cbn;
      destruct (is_2xx m); cbn; rewrite ?S; split; auto; discriminate.
    - unfold update_tag_as_uac. destruct (m_to m); [|auto]. destruct (d_remote_tag d); [auto|].
      destruct (param_get (na_params n) ($"tag")) as [[nm [v|]]|]; auto.
    - cbn. split; auto. intros ->. tauto. }
  destruct S as (S1 & S2). rewrite <- S1. apply IHl; tauto.
Qed.

(** Two Record-Routes in a 180, then different ones in the 200, then a re-INVITE's answer *)
Definition rr (h : str) : nameaddr := mkNA None (Some (mkUri (Some ($"sip")) None None (Some h) None [($"lr", None)] [] None)) [].
Definition ex_rr_resp (st : Z) (l : list nameaddr) : message :=
  mkMsg (Some ($"SIP/2.0")) None None st None [] [] [] [] [] [] []
        (Some ex_cid) [] [] [] None None (Some (mkCSeq (Some ($"INVITE")) (Some ($"1")))) [] (Some ex_from) None
        [] [] [] l [] (Some (mkNA None (Some ex_uri) [($"tag", Some ($"b2"))])) [] [] [] [].

Example C27_witness : exists d, init_as_uac (ex_rr_resp 180 [rr ($"p1"); rr ($"p2")]) = Ok d /\
  d_route_set d = [rr ($"p2"); rr ($"p1")] /\
  d_route_set (dsteps d [DRoutes (ex_rr_resp 200 [rr ($"p1"); rr ($"p3")]); DRoutes (ex_rr_resp 200 [])]) = [rr ($"p3"); rr ($"p1")] /\
  Forall cloneable [DRoutes (ex_rr_resp 200 [rr ($"p1"); rr ($"p3")])].
Proof.
  eexists. split; [vm_compute; reflexivity|]. split; [reflexivity|]. split; [vm_compute; reflexivity|].
  assert (R : forall h, na_ok (rr h)) by (intros h u E; injection E as <-; left; discriminate).
  constructor; [|constructor]. split; cbn; [apply Forall_cons; [apply R|apply Forall_cons; [apply R|]]|]; apply Forall_nil.
Qed.

(** * C28 *)

(** Call-ID, local tag, URIs and side never change; a remote tag, once known, never changes. *)
Theorem C28_stable : forall l d, let d' := dsteps d l in
  d_call_id d' = d_call_id d /\ d_local_tag d' = d_local_tag d /\ d_local_uri d' = d_local_uri d /\
  d_remote_uri d' = d_remote_uri d /\ d_type d' = d_type d /\
  (d_remote_tag d <> None -> d_remote_tag d' = d_remote_tag d).
Proof.
  induction l as [|a l]; intros d; cbv zeta; [cbn; tauto|]. cbn [dsteps].
  assert (S : d_call_id (snd (dstep d a)) = d_call_id d /\ d_local_tag (snd (dstep d a)) = d_local_tag d /\
    d_local_uri (snd (dstep d a)) = d_local_uri d /\ d_remote_uri (snd (dstep d a)) = d_remote_uri d /\
    d_type (snd (dstep d a)) = d_type d /\ (d_remote_tag d <> None -> d_remote_tag (snd (dstep d a)) = d_remote_tag d)).
  { destruct a; cbn [dstep].
    - unfold update_route_set_as_uas. destruct (update_contact_other d m) as (U1 & U2 & U3 & U4 & U5 & U6 & U7 & U8). tauto.
    - unfold update_cseq_as_uas. destruct (m_cseq m) as [c|]; [destruct (cs_number c)|]; cbn; tauto.
    - unfold update_route_set_as_uac. destruct (update_contact_other d m) as (U1 & U2 & U3 & U4 & U5 & U6 & U7 & U8).
      destruct (update_contact d m) as [i d1]. cbn [fst snd] in *. destruct (negb (i =? 0)); [cbn; tauto|].
      destruct (is_early (d_state d1)); cbn.
      + destruct (negb (fst (prepend_routes [] (m_record_routes m)) =? 0)); cbn; [tauto|]. destruct (is_2xx m); cbn; tauto.
      + destruct (is_2xx m); cbn; tauto.
    - unfold update_tag_as_uac. destruct (m_to m); [|cbn; tauto]. destruct (d_remote_tag d) eqn:E; [cbn; tauto|].
      destruct (param_get (na_params n) ($"tag")) as [[nm [v|]]|]; cbn; tauto.
    - cbn; tauto. }
  destruct S as (S1 & S2 & S3 & S4 & S5 & S6). destruct (IHl (snd (dstep d a))) as (I1 & I2 & I3 & I4 & I5 & I6).
  rewrite I1, I2, I3, I4, I5. repeat (split; [auto; fail|]). intros H. rewrite I6 by (rewrite S6; auto). auto.
Qed.

(** The remote tag comes from the To header of an answer seen while it was unknown. *)
Theorem C28_remote_tag_origin : forall l d x, d_remote_tag d = None -> d_remote_tag (dsteps d l) = Some x ->
  exists l1 m to l2, l = l1 ++ DTag m :: l2 /\ d_remote_tag (dsteps d l1) = None /\
    m_to m = Some to /\ first_param (na_params to) ($"tag") (Some x).
Proof.
  induction l as [|a l]; intros d x H Hx; [cbn in Hx; congruence|]. cbn [dsteps] in Hx.
  destruct (d_remote_tag (snd (dstep d a))) as [y|] eqn:E.
  - destruct (C28_stable l (snd (dstep d a))) as (_ & _ & _ & _ & _ & S). rewrite S, E in Hx by congruence. injection Hx as ->.
    destruct a; cbn [dstep] in E.
    + unfold update_route_set_as_uas in E. destruct (update_contact_other d m) as (_ & _ & U & _). congruence.
    + unfold update_cseq_as_uas in E. destruct (m_cseq m) as [c|]; [destruct (cs_number c)|]; cbn in E; congruence.
    + unfold update_route_set_as_uac in E. destruct (update_contact_other d m) as (_ & _ & U & _).
      destruct (update_contact d m) as [i d1]. cbn [fst snd] in *. destruct (negb (i =? 0)); [cbn in E; congruence|].
      destruct (is_early (d_state d1)); cbn in E.
      * destruct (negb (fst (prepend_routes [] (m_record_routes m)) =? 0)); cbn in E; [congruence|]. destruct (is_2xx m); cbn in E; congruence.
      * destruct (is_2xx m); cbn in E; congruence.
    + exists [], m. unfold update_tag_as_uac in E. destruct (m_to m) as [to|] eqn:Eto; [|cbn in E; congruence]. rewrite H in E.
      destruct (param_get (na_params to) ($"tag")) as [[nm [v|]]|] eqn:Ep; cbn in E; try discriminate. injection E as ->.
      exists to, l. apply param_get_some in Ep. auto.
    + cbn in E. congruence.
  - destruct (IHl _ _ E Hx) as (l1 & m & to & l2 & -> & H1 & H2 & H3). exists (a :: l1), m, to, l2. auto.
Qed.

(** Printed form of a Call-ID *)
Definition call_id_text (c : option call_id) (s : str) : Prop :=
  exists i n, c = Some i /\ ci_number i = Some n /\ s = match ci_host i with None => n | Some h => n ++ $"@" ++ h end.
Definition tag_is (f : option nameaddr) (x : str) : Prop :=
  exists a, f = Some a /\ first_param (na_params a) ($"tag") (Some x).
Definition no_tag (f : option nameaddr) : Prop := exists a, f = Some a /\ no_param (na_params a) ($"tag").

Lemma call_id_text_iff : forall c s, call_id_to_str c = Ok s <-> call_id_text c s.
Proof.
  intros c s. unfold call_id_to_str, call_id_text. split.
  - destruct c as [i|]; [|discriminate]. destruct (ci_number i) as [n|] eqn:E; [|discriminate]. intros H. injection H as <-. eauto.
  - intros (i & n & -> & -> & ->). reflexivity.
Qed.

Lemma match_remote_inv : forall d mine theirs, match_remote d mine theirs = Ok OSIP_SUCCESS ->
  forall x, d_remote_tag d = Some x -> first_param (na_params theirs) ($"tag") (Some x).
Proof.
  intros d mine theirs H x Hx. unfold match_remote in H. rewrite Hx in H.
  destruct (param_get (na_params theirs) ($"tag")) as [[n [v|]]|] eqn:E; try discriminate.
  destruct (streq_spec v x) as [->|]; [|discriminate]. apply param_get_some in E. auto.
Qed.

(** A message seen by the caller's side matches only if it has the dialog's Call-ID, its From tag
    is the local tag, and its To tag is the remote tag when that is known - and when all three are
    so it does match. *)
Theorem C28_match_uac : forall d m,
  (match_as_uac d m = Ok OSIP_SUCCESS ->
     (exists s, d_call_id d = Some s /\ call_id_text (m_call_id m) s) /\
     (exists x, d_local_tag d = Some x /\ tag_is (m_from m) x) /\
     (forall x, d_remote_tag d = Some x -> tag_is (m_to m) x)) /\
  (forall s x y, d_call_id d = Some s -> call_id_text (m_call_id m) s -> d_local_tag d = Some x -> tag_is (m_from m) x ->
     d_remote_tag d = Some y -> tag_is (m_to m) y -> match_as_uac d m = Ok OSIP_SUCCESS).
Proof.
  intros d m. split.
  - intros H. unfold match_as_uac in H. destruct (d_call_id d) as [cid|]; [|discriminate].
    destruct (m_call_id m) as [mc|]; [|discriminate]. destruct (m_from m) as [from|]; [|discriminate].
    destruct (m_to m) as [to|]; [|discriminate].
    destruct (call_id_to_str (Some mc)) as [s|e|] eqn:Ec; [| |discriminate].
    2:{ injection H as ->. exfalso. unfold call_id_to_str in Ec. destruct (ci_number mc); discriminate. }
    destruct (streq_spec cid s) as [->|]; [|discriminate]. cbn [negb] in H.
    destruct (param_get (na_params from) ($"tag")) as [[n v]|] eqn:Et; [|discriminate].
    destruct (d_local_tag d) as [lt|]; [|discriminate]. destruct v as [v|]; [|discriminate].
    destruct (streq_spec v lt) as [->|]; [|discriminate]. cbn [negb] in H.
    split; [exists s; split; auto; apply call_id_text_iff; auto|].
    split; [exists lt; split; auto; exists from; split; auto; apply param_get_some in Et; auto|].
    intros x Hx. exists to. split; auto. eapply match_remote_inv; eauto.
  - intros s x y H1 H2 H3 (from & H4 & H5) H6 (to & H7 & H8). unfold match_as_uac.
    apply call_id_text_iff in H2. rewrite H1, H4, H7. destruct (m_call_id m) as [c|]; [|discriminate]. rewrite H2.
    destruct (streq_spec s s); [|congruence]. cbn [negb].
    apply param_get_first in H5, H8. destruct H5 as ([n1 v1] & -> & V1), H8 as ([n2 v2] & E2 & V2). cbn in V1, V2. subst.
    rewrite H3. destruct (streq_spec x x); [|congruence]. cbn [negb]. unfold match_remote. rewrite E2, H6.
    destruct (streq_spec y y); [reflexivity|congruence].
Qed.

(** On the callee's side the roles of From and To are exchanged.  Missing: the local tag is not
    compared with the To tag (see C28_refuted). *)
Theorem C28_match_uas_partial : forall d m,
  (match_as_uas d m = Ok OSIP_SUCCESS ->
     (exists s, d_call_id d = Some s /\ call_id_text (m_call_id m) s) /\
     (forall x, d_remote_tag d = Some x -> tag_is (m_from m) x)) /\
  (forall s x y, d_call_id d = Some s -> call_id_text (m_call_id m) s -> d_local_tag d = Some x -> tag_is (m_to m) x ->
     d_remote_tag d = Some y -> tag_is (m_from m) y -> match_as_uas d m = Ok OSIP_SUCCESS).
Proof.
  intros d m. split.
  - intros H. unfold match_as_uas in H. destruct (d_call_id d) as [cid|]; [|discriminate].
    destruct (m_call_id m) as [mc|]; [|discriminate]. destruct (m_from m) as [from|]; [|discriminate].
    destruct (m_to m) as [to|]; [|discriminate].
    destruct (call_id_to_str (Some mc)) as [s|e|] eqn:Ec; [| |discriminate].
    2:{ injection H as ->. exfalso. unfold call_id_to_str in Ec. destruct (ci_number mc); discriminate. }
    destruct (streq_spec cid s) as [->|]; [|discriminate]. cbn [negb] in H.
    destruct (d_local_tag d) as [lt|]; [|discriminate].
    split; [exists s; split; auto; apply call_id_text_iff; auto|].
    intros x Hx. exists from. split; auto. eapply match_remote_inv; eauto.
  - intros s x y H1 H2 H3 (to & H4 & H5) H6 (from & H7 & H8). unfold match_as_uas.
    apply call_id_text_iff in H2. rewrite H1, H4, H7. destruct (m_call_id m) as [c|]; [|discriminate]. rewrite H2.
    destruct (streq_spec s s); [|congruence]. cbn [negb]. rewrite H3.
    apply param_get_first in H8. destruct H8 as ([n2 v2] & E2 & V2). cbn in V2. subst.
    unfold match_remote. rewrite E2, H6. destruct (streq_spec y y); [reflexivity|congruence].
Qed.

(** While the remote tag is unknown, a match also needs the URIs of the two parties. *)
Definition same_target (a b : option nameaddr) : Prop :=
  exists x y u w, a = Some x /\ b = Some y /\ na_url x = Some u /\ na_url y = Some w /\
    u_host u = u_host w /\ (u_host u = None -> u_string u <> None /\ u_string u = u_string w) /\
    (u_host u <> None -> forall n p, u_username u = Some n -> u_username w = Some p -> n = p).

Lemma from_compare_inv : forall a b, from_compare a b = true -> same_target a b.
Proof.
  intros a b H. unfold from_compare in H. destruct a as [x|]; [|discriminate]. destruct b as [y|]; [|discriminate].
  destruct (na_url x) as [u|] eqn:Eu; [|discriminate]. destruct (na_url y) as [w|] eqn:Ew; [|discriminate].
  exists x, y, u, w. repeat (split; [auto; fail|]).
  destruct (u_host u) as [h|] eqn:Eh, (u_host w) as [k|] eqn:Ek; try discriminate.
  - destruct (streq_spec h k) as [->|]; [|discriminate]. cbn [negb] in H. split; auto. split; [discriminate|].
    intros _ n p Hn Hp. rewrite Hn, Hp in H. destruct (streq_spec n p); [auto|discriminate].
  - split; auto. split; [|congruence]. intros _. destruct (u_string u) as [s|]; [|discriminate].
    destruct (u_string w) as [z|]; [|discriminate]. destruct (streq_spec s z); [|discriminate]. subst. split; [discriminate|auto].
Qed.

Theorem C28_match_unknown_remote : forall d m, d_remote_tag d = None ->
  (match_as_uac d m = Ok OSIP_SUCCESS -> same_target (d_local_uri d) (m_from m) /\ same_target (d_remote_uri d) (m_to m)) /\
  (match_as_uas d m = Ok OSIP_SUCCESS -> same_target (d_local_uri d) (m_to m) /\ same_target (d_remote_uri d) (m_from m)).
Proof.
  intros d m Hr.
  assert (K : forall mine theirs, match_remote d mine theirs = Ok OSIP_SUCCESS ->
    same_target (d_local_uri d) (Some mine) /\ same_target (d_remote_uri d) (Some theirs)).
  { intros mine theirs H. unfold match_remote in H. rewrite Hr in H.
    assert (F : from_compare (d_local_uri d) (Some mine) && from_compare (d_remote_uri d) (Some theirs) = true).
    { destruct (from_compare (d_local_uri d) (Some mine) && from_compare (d_remote_uri d) (Some theirs)); auto.
      destruct (param_get (na_params theirs) ($"tag")) as [[n v]|]; [destruct v|]; discriminate. }
    apply andb_true_iff in F. destruct F. split; apply from_compare_inv; auto. }
  split; intros H.
  - unfold match_as_uac in H. destruct (d_call_id d) as [cid|]; [|discriminate].
    destruct (m_call_id m) as [mc|]; [|discriminate]. destruct (m_from m) as [from|]; [|discriminate].
    destruct (m_to m) as [to|]; [|discriminate].
    destruct (call_id_to_str (Some mc)) as [s|e|] eqn:Ec; [| |discriminate].
    2:{ injection H as ->. exfalso. unfold call_id_to_str in Ec. destruct (ci_number mc); discriminate. }
    destruct (streq cid s); [|discriminate]. cbn [negb] in H.
    destruct (param_get (na_params from) ($"tag")) as [[n v]|]; [|discriminate].
    destruct (d_local_tag d); [|discriminate]. destruct v as [v|]; [|discriminate].
    destruct (streq v s0); [|discriminate]. auto.
  - unfold match_as_uas in H. destruct (d_call_id d) as [cid|]; [|discriminate].
    destruct (m_call_id m) as [mc|]; [|discriminate]. destruct (m_from m) as [from|]; [|discriminate].
    destruct (m_to m) as [to|]; [|discriminate].
    destruct (call_id_to_str (Some mc)) as [s|e|] eqn:Ec; [| |discriminate].
    2:{ injection H as ->. exfalso. unfold call_id_to_str in Ec. destruct (ci_number mc); discriminate. }
    destruct (streq cid s); [|discriminate]. cbn [negb] in H. destruct (d_local_tag d); [|discriminate]. auto.
Qed.

(** A dialog of the callee with local tag b2 and remote tag of the caller *)
Definition ex_bye (totag : str) : message :=
  mkMsg (Some ($"SIP/2.0")) (Some ex_uri) (Some ($"BYE")) 0 None [] [] [] [] [] [] []
        (Some ex_cid) [] [] [] None None (Some (mkCSeq (Some ($"BYE")) (Some ($"2")))) [] (Some ex_from) None
        [] [] [] [] [] (Some (mkNA None (Some ex_uri) [($"tag", Some totag)])) [ex_via ($"UDP")] [] [] [].

Example C28_witness : exists d e, init_as_uas (ex_invite ($"UDP")) (ex_rr_resp 200 []) = Ok d /\
  d_local_tag d = Some ($"b2") /\ match_as_uas d (ex_bye ($"b2")) = Ok OSIP_SUCCESS /\
  init_as_uac (ex_rr_resp 200 []) = Ok e /\ match_as_uac e (ex_rr_resp 180 []) = Ok OSIP_SUCCESS.
Proof. eexists _, _. split; [vm_compute; reflexivity|]. repeat split; vm_compute; reflexivity. Qed.

(** C28 as stated fails on the callee's side: a request for another local tag matches. *)
Theorem C28_refuted : exists d m, init_as_uas (ex_invite ($"UDP")) (ex_rr_resp 200 []) = Ok d /\
  d_local_tag d = Some ($"b2") /\ tag_is (m_to m) ($"other") /\ match_as_uas d m = Ok OSIP_SUCCESS.
Proof.
  eexists _, (ex_bye ($"other")). split; [vm_compute; reflexivity|]. split; [reflexivity|].
  split; [|vm_compute; reflexivity]. eexists. split; [reflexivity|]. exists [], ($"tag", Some ($"other")), [].
  repeat split. intros ? [].
Qed.

Print Assumptions C27_initial_routes.
Print Assumptions C27_route_history.
Print Assumptions C27_frozen.
Print Assumptions C28_stable.
Print Assumptions C28_remote_tag_origin.
Print Assumptions C28_match_uac.
Print Assumptions C28_match_uas_partial.
Print Assumptions C28_match_unknown_remote.
Print Assumptions C28_refuted.

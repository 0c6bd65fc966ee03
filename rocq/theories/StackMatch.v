(** C19, C20: which transaction a received message is handed to. *)
From Coq Require Import String ZArith Ascii Bool List Lia ZifyBool.
From Verif Require Import Base Str StrLemmas Types TimeModel TimeProps PortModel CloneModel CloneProofs TransModel
  TransSpec ViaModel MatchModel DialogModel StackModel TransProofs TransSteps TransProps TransProps2 StackProps StackReach
  StackProps2.
Import ListNotations.
Open Scope Z_scope.

(** * Specification *)

(** In history [h] the transaction [t] was created from message [m]. *)
Definition created (h : list (op * opres)) (t : trans) (m : message) : Prop :=
  exists now ev x t0, In (OpCreate now ev, RCreate (Some t0)) h /\ ev_sip ev = Some x /\ mc x = m /\ t_id t0 = t_id t.

Definition top_branch (m : message) (b : str) : Prop :=
  exists v vs, m_vias m = v :: vs /\ first_param (v_params v) ($"branch") (Some b).
Definition has_cseq_method (m : message) (meth : str) : Prop := exists c, m_cseq m = Some c /\ cs_method c = Some meth.

(** Response [r] answers request [q]: RFC 3261 17.1.3 *)
Definition answers (q r : message) : Prop :=
  exists b meth, top_branch q b /\ top_branch r b /\ has_cseq_method q meth /\ has_cseq_method r meth.

Lemma streq_refl : forall a, streq a a = true.
Proof. intros. destruct (streq_spec a a); congruence. Qed.

(** * Where transactions come from *)

Definition from_history (h : list (op * opres)) (k : fsm) (en : entry) : Prop :=
  exists now ev m t0, In (OpCreate now ev, RCreate (Some t0)) h /\ ev_sip ev = Some m /\
    trans_init k now (t_id (en_t en)) (Some (mc m)) = Ok t0 /\ same_identity t0 (en_t en) /\
    t_id t0 = t_id (en_t en) /\
    exists meth, cseq_method (mc m) = Some meth /\
      (meth = $"INVITE" <-> k = ICT \/ k = IST) /\ (is_client k = true <-> outgoing_req (ev_type ev) = true) /\
      (is_request (mc m) = true -> meth <> $"ACK").

Lemma from_history_mono : forall h x k en, from_history h k en -> from_history (h ++ x) k en.
Proof.
  intros h x k en (now & ev & m & t0 & H & R). exists now, ev, m, t0. split; auto. apply in_or_app. auto.
Qed.

Lemma same_identity_trans : forall a b c, same_identity a b -> same_identity b c -> same_identity a c.
Proof. unfold same_identity. intuition congruence. Qed.

Lemma drain_identity : forall E q n t t' o, drain E n t q = Ok (t', o) -> same_identity t t'.
Proof.
  induction q as [|ev q]; intros n t t' o H; cbn [drain] in H.
  - injection H as <- <-. apply same_identity_refl.
  - destruct (execute (E n) t ev) as [[[r t1] o1]|c|] eqn:Ex; cbn in H; try discriminate.
    destruct (drain E (S n) t1 q) as [[t2 o2]|c|] eqn:Ed; cbn in H; try discriminate. injection H as <- <-.
    apply execute_identity in Ex. apply IHq in Ed. cbn. eapply same_identity_trans; eauto.
Qed.

Lemma step_from : forall h s a r s', all_entries (from_history h) s -> step s a = Ok (r, s') ->
  all_entries (from_history (h ++ [(a, r)])) s'.
Proof.
  intros h s a r s' Hi Hs.
  refine (step_entries (from_history (h ++ [(a, r)])) (fun b => b = a) s _ _ _ _ _ a r s' _ eq_refl Hs).
  - intros now ev t s1 <- Hc. pose proof Hc as Hc0. apply create_inv in Hc.
    destruct Hc as [(Hc & _)|(t' & m & meth & k & E & Em & Hm & Hq & Hna & Hk & Hi0 & _)]; [discriminate|]. injection E as <-.
    cbn [step] in Hs. rewrite Hc0 in Hs. cbn in Hs. injection Hs as <- <-.
    pose proof (init_type _ _ _ _ _ Hi0) as (Ty & Id).
    exists now, ev, m, t. split; [apply in_or_app; right; left; auto|]. split; auto. cbn [en_t]. rewrite Ty, Id.
    split; auto. split; [apply same_identity_refl|]. split; auto. exists meth. split; auto.
    split; [|split].
    3:{ intros Hr Ea. unfold is_method in Hna. rewrite Hr, (Hq Hr), Ea, streq_refl in Hna. discriminate. }
    all: destruct (streq_spec meth ($"INVITE")) as [->|N]; destruct Hk as [(H1 & ->)|(H1 & ->)]; cbn; split; intros; auto;
      try congruence; try (destruct (ev_type ev); discriminate); intuition congruence.
  - intros k id ev en _ H. exact H.
  - intros k ev txid en _ H. exact H.
  - intros k now en _ (n0 & e0 & m & t0 & H1 & H2 & H3 & H4 & H5). destruct (poll_entry_polled k now en) as (E & _).
    exists n0, e0, m, t0. rewrite E. auto.
  - intros k E en n t o _ (n0 & e0 & m & t0 & H1 & H2 & H3 & H4 & H5 & H6) Hd. exists n0, e0, m, t0. cbn [en_t].
    pose proof (drain_identity _ _ _ _ _ _ Hd) as Hsi.
    assert (Hid : t_id t = t_id (en_t en)) by (destruct Hsi as (Hid & _); congruence). rewrite Hid.
    split; auto. split; auto. split; auto. split; [eapply same_identity_trans; eauto|auto].
  - intros k. specialize (Hi k). eapply Forall_impl; [|exact Hi]. intros. apply from_history_mono. auto.
Qed.

Lemma steps_from : forall l h s rs s', all_entries (from_history h) s -> steps s l = Ok (rs, s') ->
  all_entries (from_history (h ++ combine l rs)) s'.
Proof.
  induction l as [|a l]; intros h s rs s' Hi H; cbn [steps] in H.
  - injection H as <- <-. rewrite app_nil_r. auto.
  - destruct (step s a) as [[x s1]|c|] eqn:E; cbn in H; try discriminate.
    destruct (steps s1 l) as [[y s2]|c|] eqn:E2; cbn in H; try discriminate. injection H as <- <-.
    cbn [combine fst snd]. apply step_from with (h := h) in E; auto. apply IHl with (h := h ++ [(a, x)]) in E2; auto.
    rewrite <- app_assoc in E2. exact E2.
Qed.

Lemma history_entries : forall l rs s, steps osip_init l = Ok (rs, s) -> all_entries (from_history (combine l rs)) s.
Proof.
  intros l rs s H. apply (steps_from l [] osip_init); auto. intros k. constructor.
Qed.

Lemma unique_creation : forall (l : list op) rs, NoDup (created_ids rs) -> forall a b t1 t2,
  In (a, RCreate (Some t1)) (combine l rs) -> In (b, RCreate (Some t2)) (combine l rs) -> t_id t1 = t_id t2 -> a = b.
Proof.
  induction l as [|o l]; intros rs Hd a b t1 t2 H1 H2 E; [contradiction|]. destruct rs as [|r rs]; [contradiction|].
  cbn [combine In created_ids flat_map] in *. fold (created_ids rs) in Hd.
  assert (K : forall c t, In (c, RCreate (Some t)) (combine l rs) -> In (t_id t) (created_ids rs)).
  { intros c t Hc. apply in_combine_r in Hc. unfold created_ids. apply in_flat_map. exists (RCreate (Some t)). cbn; auto. }
  destruct H1 as [H1|H1], H2 as [H2|H2].
  - congruence.
  - injection H1 as -> ->. cbn [app] in Hd. apply NoDup_cons_iff in Hd. exfalso. apply Hd. rewrite E. eauto.
  - injection H2 as -> ->. cbn [app] in Hd. apply NoDup_cons_iff in Hd. exfalso. apply Hd. rewrite <- E. eauto.
  - apply (IHl rs) with (t1 := t1) (t2 := t2); auto.
    destruct r as [[t|]| | | | |]; cbn [app] in Hd; auto. inversion Hd; auto.
Qed.

(** Every transaction in the tables was created from exactly one message of the history. *)
Lemma created_once : forall l rs s k en, steps osip_init l = Ok (rs, s) -> In en (o_tab s k) ->
  exists now ev m t0, created (combine l rs) (en_t en) (mc m) /\
    (forall m', created (combine l rs) (en_t en) m' -> m' = mc m) /\ ev_sip ev = Some m /\
    trans_init k now (t_id (en_t en)) (Some (mc m)) = Ok t0 /\ same_identity t0 (en_t en) /\
    exists meth, cseq_method (mc m) = Some meth /\
      (meth = $"INVITE" <-> k = ICT \/ k = IST) /\ (is_client k = true <-> outgoing_req (ev_type ev) = true) /\
      (is_request (mc m) = true -> meth <> $"ACK").
Proof.
  intros l rs s k en Hs Hin. pose proof (history_entries l rs s Hs k) as H. rewrite Forall_forall in H.
  destruct (H en Hin) as (now & ev & m & t0 & H1 & H2 & H3 & H4 & H5 & H6).
  exists now, ev, m, t0. split; [exists now, ev, m, t0; auto|]. split; [|auto].
  intros m' (now' & ev' & x' & t1 & G1 & G2 & <- & G3).
  assert (OpCreate now' ev' = OpCreate now ev).
  { apply (unique_creation l rs (C21_unique_ids l rs s Hs) _ _ t1 t0); auto. congruence. }
  congruence.
Qed.

(** * C19 *)

Lemma init_identity : forall k now id m t, trans_init k now id (Some m) = Ok t ->
  exists v vs f to c cs, m_vias m = v :: vs /\ t_topvia t = v /\ m_from m = Some f /\ t_from t = f /\
    m_to m = Some to /\ t_to t = to /\ m_call_id m = Some c /\ t_cid t = c /\ m_cseq m = Some cs /\ t_cseq t = cs /\
    ci_number c <> None /\ cs_method cs <> None /\ cs_number cs <> None /\ via_complete v /\ t_type t = k.
Proof.
  intros k now id m t H. unfold trans_init in H.
  destruct (m_call_id m) as [ci|]; [|discriminate]. destruct (ci_number ci) eqn:En; [|discriminate].
  destruct (m_vias m) as [|v vs]; [discriminate|].
  destruct (via_clone (Some v)) as [v'|c|] eqn:Ev; cbn [res_bind] in H; try discriminate.
  destruct (from_clone (m_from m)) as [f'|c|] eqn:Ef; cbn [res_bind] in H; try discriminate.
  destruct (from_clone (m_to m)) as [to'|c|] eqn:Eto; cbn [res_bind] in H; try discriminate.
  destruct (call_id_clone (Some ci)) as [ci'|c|] eqn:Eci; cbn [res_bind] in H; try discriminate.
  destruct (cseq_clone (m_cseq m)) as [cs'|c|] eqn:Ecs; cbn [res_bind] in H; try discriminate.
  assert (Vc : via_complete v).
  { unfold via_clone in Ev. unfold via_complete.
    destruct (v_version v), (v_protocol v), (v_host v); try discriminate. repeat split; discriminate. }
  assert (Cc : cs_method cs' <> None /\ cs_number cs' <> None).
  { pose proof Ecs as Ecs'. apply cseq_clone_ok in Ecs'. rewrite Ecs' in Ecs. unfold cseq_clone in Ecs.
    destruct (cs_method cs'); [|discriminate]. destruct (cs_number cs'); [|discriminate]. split; discriminate. }
  apply via_clone_ok in Ev. apply from_clone_ok in Ef. apply from_clone_ok in Eto. apply call_id_clone_ok in Eci.
  apply cseq_clone_ok in Ecs. injection Ev as <-. injection Eci as <-.
  exists v, vs, f', to', ci, cs'. destruct Cc.
  destruct (v_protocol v); [|destruct k; discriminate].
  destruct k; repeat match type of H with match ?x with _ => _ end = _ => destruct x; try discriminate end;
  injection H as <-; cbn; repeat match goal with |- _ /\ _ => split end; auto; try congruence; apply Vc.
Qed.

Lemma first_param_fun : forall ps n x y, first_param ps n x -> first_param ps n y -> x = y.
Proof.
  intros ps n x y Hx Hy. apply param_get_first in Hx, Hy. destruct Hx as (p & Hp & <-), Hy as (q & Hq & <-). congruence.
Qed.

Lemma match_response_spec : forall t0 now id q t r, is_client (t_type t) = true ->
  trans_init (t_type t) now id (Some q) = Ok t0 -> same_identity t0 t -> (match_response t r = 0 <-> answers q r).
Proof.
  intros t0 now id q t r Hc Hi Hsi. apply init_identity in Hi.
  destruct Hi as (v & vs & f & to & c & cs & V1 & V2 & _ & _ & _ & _ & _ & _ & C1 & C2 & _ & C3 & _ & _).
  destruct Hsi as (_ & _ & S1 & _ & _ & _ & S5). unfold match_response. rewrite Hc. cbn [negb].
  rewrite S1, V2, S5, C2.
  split.
  - destruct (m_cseq r) as [rc|] eqn:Erc; [|discriminate]. destruct (cs_method rc) as [meth|] eqn:Em; [|discriminate].
    destruct (m_vias r) as [|rv rvs] eqn:Erv; [discriminate|].
    destruct (param_get (v_params v) ($"branch")) as [[n1 b1]|] eqn:E1; [|discriminate].
    destruct (param_get (v_params rv) ($"branch")) as [[n2 b2]|] eqn:E2; [|discriminate].
    destruct b1 as [b1|]; [|discriminate]. destruct b2 as [b2|]; [|discriminate].
    destruct (streq_spec b1 b2) as [->|]; [|discriminate]. cbn [negb].
    destruct (cs_method cs) as [tm|] eqn:Et; [|discriminate]. destruct (streq_spec meth tm) as [->|]; [|discriminate].
    intros _. exists b2, tm. apply param_get_some in E1, E2. cbn in E1, E2.
    split; [exists v, vs; auto|]. split; [exists rv, rvs; auto|]. split; [exists cs; auto|exists rc; auto].
  - intros (b & meth & (v' & vs' & B1 & B2) & (rv & rvs & B3 & B4) & (c1 & M1 & M2) & (c2 & M3 & M4)).
    rewrite V1 in B1. injection B1 as <- <-. rewrite C1 in M1. injection M1 as <-.
    rewrite M3, M4, B3. apply param_get_first in B2, B4. destruct B2 as ([n1 x1] & -> & X1), B4 as ([n2 x2] & -> & X2).
    cbn in X1, X2. subst. rewrite M2, !streq_refl. reflexivity.
Qed.

Lemma find_index_spec : forall f l r, find_index f l = Ok r ->
  match r with
  | Some i => exists l1 en l2, l = l1 ++ en :: l2 /\ i = length l1 /\ f (en_t en) = Ok true /\
                Forall (fun e => f (en_t e) = Ok false) l1
  | None => Forall (fun e => f (en_t e) = Ok false) l
  end.
Proof.
  induction l as [|en l]; intros r H; cbn [find_index] in H.
  - injection H as <-. constructor.
  - destruct (f (en_t en)) as [b|c|] eqn:E; cbn in H; try discriminate. destruct b.
    + injection H as <-. exists [], en, l. auto.
    + destruct (find_index f l) as [r'|c|]; cbn in H; try discriminate. injection H as <-.
      specialize (IHl r' eq_refl). destruct r' as [i|]; cbn.
      * destruct IHl as (l1 & e & l2 & -> & -> & H1 & H2). exists (en :: l1), e, l2. auto.
      * auto.
Qed.

Lemma add_at_spec : forall l1 en l2 ev, add_at (length l1) ev (l1 ++ en :: l2) = l1 ++ En (en_t en) (en_q en ++ [ev]) :: l2.
Proof. induction l1; intros; cbn; auto. f_equal. auto. Qed.

(** The table position that got the event *)
Definition queued_at (s s' : osip) (ev : event) (k : fsm) (l1 : list entry) (en : entry) (l2 : list entry) : Prop :=
  o_tab s k = l1 ++ en :: l2 /\ o_tab s' k = l1 ++ En (en_t en) (en_q en ++ [ev]) :: l2 /\
  (forall j, j <> k -> o_tab s' j = o_tab s j) /\ o_ixt s' = o_ixt s /\ o_next s' = o_next s.

Lemma find_and_add_spec : forall ev txid s c s' m k, ev_sip ev = Some m -> find_table ev (mc m) = Ok (Some k) ->
  find_and_add ev txid s = Ok (c, s') ->
  (c = OSIP_SUCCESS /\ exists l1 en l2, queued_at s s' ev k l1 en l2 /\ matches ev txid (mc m) (en_t en) = Ok true /\
     Forall (fun e => matches ev txid (mc m) (en_t e) = Ok false) l1) \/
  (c <> OSIP_SUCCESS /\ s' = s /\ Forall (fun e => matches ev txid (mc m) (en_t e) = Ok false) (o_tab s k)).
Proof.
  intros ev txid s c s' m k Hm Hk H. unfold find_and_add in H. rewrite Hm, Hk in H. cbn in H.
  destruct (find_index (matches ev txid (mc m)) (o_tab s k)) as [r|c0|] eqn:E; cbn in H; try discriminate.
  apply find_index_spec in E. destruct r as [i|]; injection H as <- <-.
  - destruct E as (l1 & en & l2 & El & -> & H1 & H2). left. split; auto. exists l1, en, l2. split; [|auto].
    unfold queued_at. rewrite set_tab_same, El, add_at_spec. split; auto. split; auto. split; auto.
    intros. apply set_tab_other; auto.
  - right. split; [discriminate|auto].
Qed.

Lemma parsed_response : forall m ev, parsed_event m = Some ev -> is_request (mc m) = false ->
  ev_sip ev = Some m /\ incoming_req (ev_type ev) = false /\ incoming_resp (ev_type ev) = true /\
  incoming_msg (ev_type ev) = true.
Proof.
  intros m ev H Hr. unfold parsed_event in H. rewrite Hr in H. injection H as <-. cbn [ev_sip ev_type].
  unfold incoming_type. rewrite Hr.
  repeat match goal with |- context [if ?b then _ else _] => destruct b end; auto.
Qed.

(** A received response goes to the first client transaction whose request it answers, and
    nothing else changes; when it answers no request of any client transaction it is refused and
    nothing changes. *)
Theorem C19_delivered : forall l rs s m ev txid c s', steps osip_init l = Ok (rs, s) ->
  m_status (mc m) <> 0 -> parsed_event m = Some ev -> find_and_add ev txid s = Ok (c, s') ->
  (c = OSIP_SUCCESS /\ exists k l1 en l2 q, (k = ICT \/ k = NICT) /\ queued_at s s' ev k l1 en l2 /\
     created (combine l rs) (en_t en) q /\ answers q (mc m) /\
     (forall en' q', In en' l1 -> created (combine l rs) (en_t en') q' -> ~ answers q' (mc m)) /\
     (forall j en' q', j <> k -> (j = ICT \/ j = NICT) -> In en' (o_tab s j) ->
        created (combine l rs) (en_t en') q' -> ~ answers q' (mc m))) \/
  (c <> OSIP_SUCCESS /\ s' = s /\
   forall k en q, (k = ICT \/ k = NICT) -> In en (o_tab s k) -> created (combine l rs) (en_t en) q -> ~ answers q (mc m)).
Proof.
  intros l rs s m ev txid c s' Hs Hst Hp H.
  assert (Hr : is_request (mc m) = false) by (unfold is_request; lia).
  destruct (parsed_response m ev Hp Hr) as (P1 & P2 & P3 & P4).
  pose proof H as H0. unfold find_and_add in H0. rewrite P1 in H0.
  unfold find_table in H0. rewrite P4, Hr in H0.
  destruct (m_cseq (mc m)) as [cs|] eqn:Ecs.
  2:{ cbn in H0. injection H0 as <- <-. right. split; [discriminate|]. split; auto.
      intros k en q _ _ _ (b & meth & _ & _ & _ & (c0 & Hc & _)). congruence. }
  destruct (cs_method cs) as [meth|] eqn:Em; [|cbn in H0; discriminate]. clear H0.
  set (k := if streq meth ($"INVITE") then ICT else NICT) in *.
  assert (Hk : find_table ev (mc m) = Ok (Some k)) by (unfold find_table; rewrite Ecs, Em, P4, Hr; reflexivity).
  assert (Kc : k = ICT \/ k = NICT) by (subst k; destruct (streq meth ($"INVITE")); auto).
  assert (M : forall en j, (j = ICT \/ j = NICT) -> In en (o_tab s j) -> forall q, created (combine l rs) (en_t en) q ->
           (answers q (mc m) -> j = k) /\
           (j = k -> (matches ev txid (mc m) (en_t en) = Ok true <-> answers q (mc m)))).
  { intros en j Hj Hin q Hq. destruct (created_once l rs s j en Hs Hin)
      as (now & e0 & m0 & t0 & _ & U & _ & Hi & Hsi & meth0 & K1 & K2 & _ & _).
    rewrite (U q Hq) in *. pose proof (init_type _ _ _ _ _ Hi) as (Ty & _).
    assert (Tj : t_type (en_t en) = j) by (destruct Hsi as (_ & Hsi & _); congruence).
    split.
    - intros (b & mm & _ & _ & (c1 & A1 & A2) & (c2 & A3 & A4)). unfold cseq_method in K1. rewrite A1, A2 in K1. injection K1 as <-.
      rewrite Ecs in A3. injection A3 as <-. rewrite Em in A4. injection A4 as <-. subst k.
      destruct (streq_spec meth ($"INVITE")) as [->|N]; destruct Hj as [-> | ->]; auto; exfalso.
      + destruct K2 as (K2 & _). destruct (K2 eq_refl); discriminate.
      + destruct K2 as (_ & K2). apply N, K2. auto.
    - intros ->. unfold matches. rewrite P2, P3. rewrite <- Tj in Hi.
      assert (Cl : is_client (t_type (en_t en)) = true) by (rewrite Tj; destruct Kc as [-> | ->]; reflexivity).
      pose proof (match_response_spec t0 now _ (mc m0) (en_t en) (mc m) Cl Hi Hsi) as MR. rewrite <- MR.
      destruct (match_response (en_t en) (mc m)); cbn; intuition congruence. }
  assert (MF : forall en, In en (o_tab s k) -> matches ev txid (mc m) (en_t en) = Ok false ->
           forall q, created (combine l rs) (en_t en) q -> ~ answers q (mc m)).
  { intros en Hin Hf q Hq Ha. destruct (M en k Kc Hin q Hq) as (_ & M2). apply (M2 eq_refl) in Ha. congruence. }
  destruct (find_and_add_spec ev txid s c s' m k P1 Hk H) as [(-> & l1 & en & l2 & Q & M1 & F)|(Hc & -> & F)].
  - left. split; auto. assert (Hin : In en (o_tab s k)) by (destruct Q as (-> & _); apply in_elt).
    destruct (created_once l rs s k en Hs Hin) as (_ & _ & m0 & _ & C0 & _).
    exists k, l1, en, l2, (mc m0). split; auto. split; auto. split; auto.
    split. { destruct (M en k Kc Hin _ C0) as (_ & M2). apply M2; auto. }
    split.
    + intros en' q' Hin' Hq'. rewrite Forall_forall in F. apply (MF en'); auto.
      destruct Q as (-> & _). apply in_or_app. auto.
    + intros j en' q' Nj Hj Hin' Hq' Ha. destruct (M en' j Hj Hin' q' Hq') as (M1' & _). auto.
  - right. split; auto. split; auto. intros j en q Hj Hin Hq Ha.
    destruct (M en j Hj Hin q Hq) as (M1 & _). specialize (M1 Ha). subst j. rewrite Forall_forall in F.
    apply (MF en) in Hq; auto.
Qed.

(** A response whose CSeq, if any, has a method never causes undefined behaviour. *)
Theorem C19_no_crash : forall s m ev txid, m_status (mc m) <> 0 -> parsed_event m = Some ev ->
  (forall c, m_cseq (mc m) = Some c -> cs_method c <> None) -> exists r, find_and_add ev txid s = Ok r.
Proof.
  intros s m ev txid Hst Hp Hc. assert (Hr : is_request (mc m) = false) by (unfold is_request; lia).
  destruct (parsed_response m ev Hp Hr) as (P1 & P2 & P3 & P4).
  unfold find_and_add, find_table. rewrite P1, P4, Hr. destruct (m_cseq (mc m)) as [cs|] eqn:E; cbn; [|eauto].
  specialize (Hc cs eq_refl). destruct (cs_method cs) as [meth|]; [|congruence]. cbn.
  assert (K : forall l, exists r, find_index (matches ev txid (mc m)) l = Ok r).
  { induction l as [|en l]; cbn [find_index]; [eauto|]. unfold matches at 1. rewrite P2, P3. cbn [res_bind].
    destruct (match_response (en_t en) (mc m) =? 0); [eauto|]. destruct IHl as (r & ->). cbn. eauto. }
  match goal with |- context [find_index _ ?l] => destruct (K l) as (r & ->) end. cbn. destruct r; eauto.
Qed.

(** Two client INVITE transactions with different branches; the answer to the second one goes to
    the second. *)
Definition br_via (b : str) : via :=
  mkVia (Some ($"2.0")) (Some ($"UDP")) (Some ($"10.0.0.1")) None None [($"branch", Some b)].
Definition br_invite (b : str) : message :=
  ex_msg (Some ($"SIP/2.0")) (Some ($"INVITE")) 0 (br_via b) ex_to ($"INVITE").
Definition br_resp (b : str) : message :=
  ex_msg (Some ($"SIP/2.0")) None 180 (br_via b) (mkNA None (Some ex_uri) [($"tag", Some ($"b2"))]) ($"INVITE").
Definition ex_two : list op :=
  [ OpCreate (TV 100 0) (Ev SND_REQINVITE (Some (Msg 1 (br_invite ($"z9hG4bK1")))));
    OpCreate (TV 100 0) (Ev SND_REQINVITE (Some (Msg 2 (br_invite ($"z9hG4bK2"))))) ].

Example C19_witness : exists rs s s', steps osip_init ex_two = Ok (rs, s) /\
  parsed_event (Msg 3 (br_resp ($"z9hG4bK2"))) = Some (Ev RCV_STATUS_1XX (Some (Msg 3 (br_resp ($"z9hG4bK2"))))) /\
  find_and_add (Ev RCV_STATUS_1XX (Some (Msg 3 (br_resp ($"z9hG4bK2"))))) (-1) s = Ok (OSIP_SUCCESS, s') /\
  map (fun en => length (en_q en)) (o_tab s' ICT) = [0; 1]%nat /\
  find_and_add (Ev RCV_STATUS_1XX (Some (Msg 3 (br_resp ($"z9hG4bK3"))))) (-1) s = Ok (OSIP_UNDEFINED_ERROR, s).
Proof. eexists _, _, _. split; [vm_compute; reflexivity|]. repeat split; vm_compute; reflexivity. Qed.

(** * C20 *)

(** Request [q] belongs to the transaction opened by request [q0]: RFC 3261 17.2.3 *)
Definition cookie_branch (v : via) (b : str) : Prop :=
  first_param (v_params v) ($"branch") (Some b) /\ exists x, b = $"z9hG4bK" ++ x.
Definition port_text (p : option str) : str := match p with Some p => p | None => $"5060" end.
Definition same_transaction (q0 q : message) : Prop :=
  exists v0 vs0 v vs b meth0 meth, m_vias q0 = v0 :: vs0 /\ m_vias q = v :: vs /\
    cookie_branch v0 b /\ cookie_branch v b /\
    v_host v0 <> None /\ v_host v = v_host v0 /\ port_text (v_port v) = port_text (v_port v0) /\
    has_cseq_method q0 meth0 /\ has_cseq_method q meth /\
    (meth = meth0 \/ meth0 = $"INVITE" /\ meth = $"ACK").
Definition rfc3261 (q : message) : Prop := exists v vs b, m_vias q = v :: vs /\ cookie_branch v b.

Lemma cookie_iff : forall b, strneq 7 b magic = true <-> exists x, b = $"z9hG4bK" ++ x.
Proof.
  intros b. split.
  - intros H. unfold magic in H. cbn in H.
    do 7 (destruct b as [|? b]; [discriminate|]; cbn in H; apply andb_true_iff in H; destruct H as (?E & H);
          apply Ascii.eqb_eq in E; subst).
    exists b. reflexivity.
  - intros (x & ->). reflexivity.
Qed.

Lemma sent_by_iff : forall a b, v_host a <> None ->
  (sent_by_eq a b = true <-> v_host b = v_host a /\ port_text (v_port b) = port_text (v_port a)).
Proof.
  intros a b Ha. unfold sent_by_eq, port_text. destruct (v_host a) as [ha|]; [|congruence].
  destruct (v_host b) as [hb|]; [|split; [discriminate|intros (H & _); discriminate]].
  destruct (streq_spec ha hb) as [->|N]; cbn [negb]; [|split; [discriminate|intros (H & _); congruence]].
  destruct (v_port b) as [pb|], (v_port a) as [pa|].
  - destruct (streq_spec pa pb); split; auto; try discriminate; intros (_ & H); congruence.
  - destruct (streq_spec pb ($"5060")); split; auto; try discriminate; intros (_ & H); congruence.
  - destruct (streq_spec pa ($"5060")) as [->|]; split; auto; try discriminate; intros (_ & H); congruence.
  - split; auto.
Qed.

Lemma match_request_spec : forall t0 now id q0 t q, is_client (t_type t) = false ->
  trans_init (t_type t) now id (Some q0) = Ok t0 -> same_identity t0 t ->
  rfc3261 q0 -> rfc3261 q -> (exists meth, has_cseq_method q meth) ->
  exists c, match_request t q = Ok c /\ (c = 0 <-> same_transaction q0 q).
Proof.
  intros t0 now id q0 t q Hc Hi Hsi (v0 & vs0 & b0 & E0 & B0 & (x0 & X0)) (v & vs & b & E & B & (x & X)) (meth & cq & M1 & M2).
  apply init_identity in Hi.
  destruct Hi as (v' & vs' & f & to & c & cs & V1 & V2 & _ & _ & _ & _ & _ & _ & C1 & C2 & _ & C3 & _ & (_ & _ & Vh) & _).
  rewrite E0 in V1. injection V1 as <- <-.
  destruct Hsi as (_ & _ & S1 & _ & _ & _ & S5). unfold match_request. rewrite Hc, M1, M2, E, S1, V2, S5, C2.
  pose proof B0 as B0'. pose proof B as B'. apply param_get_first in B0', B'.
  destruct B0' as ([n0 y0] & -> & Y0), B' as ([n y] & -> & Y). cbn in Y0, Y. subst y0 y.
  assert (K0 : strneq 7 b0 magic = true) by (apply cookie_iff; eauto).
  assert (K : strneq 7 b magic = true) by (apply cookie_iff; eauto).
  destruct (cs_method cs) as [meth0|] eqn:Em0; [|congruence].
  assert (Spec : same_transaction q0 q <-> b0 = b /\ sent_by_eq v0 v = true /\
            (meth = meth0 \/ meth0 = $"INVITE" /\ meth = $"ACK")).
  { rewrite (sent_by_iff v0 v Vh). split.
    - intros (w0 & ws0 & w & ws & b' & n0' & n' & G1 & G2 & (G3 & _) & (G4 & _) & G5 & G6 & G7 & (c0 & G8 & G9) & (c1 & G10 & G11) & G12).
      rewrite E0 in G1. injection G1 as <- <-. rewrite E in G2. injection G2 as <- <-.
      rewrite C1 in G8. injection G8 as <-. rewrite M1 in G10. injection G10 as <-.
      pose proof (first_param_fun _ _ _ _ B0 G3) as F1. pose proof (first_param_fun _ _ _ _ B G4) as F2.
      rewrite Em0 in G9. rewrite M2 in G11. split; [congruence|]. split; [auto|].
      injection G9 as <-. injection G11 as <-. auto.
    - intros (<- & (G1 & G2) & G3). exists v0, vs0, v, vs, b0, meth0, meth. 
      split; [auto|]. split; [auto|]. split; [split; eauto|]. split; [split; eauto|].
      split; [auto|]. split; [auto|]. split; [auto|]. split; [exists cs; auto|]. split; [exists cq; auto|auto]. }
  setoid_rewrite Spec.
  destruct (Nat.eqb (length b0) (length b)) eqn:El; cbn [negb].
  2:{ eexists. split; [reflexivity|]. split; [discriminate|]. intros (<- & _). rewrite Nat.eqb_refl in El. discriminate. }
  rewrite K0, K. cbn [andb].
  destruct (streq_spec b0 b) as [<-|N]; cbn [negb].
  2:{ eexists. split; [reflexivity|]. split; [discriminate|]. intros (? & _). contradiction. }
  destruct (sent_by_eq v0 v); cbn [negb].
  2:{ eexists. split; [reflexivity|]. split; [discriminate|]. intros (_ & ? & _). discriminate. }
  destruct (streq_spec meth0 meth) as [<-|N2].
  { eexists. rewrite andb_false_r. split; [reflexivity|]. split; auto. }
  cbn [negb]. rewrite andb_true_r.
  destruct (streq_spec meth0 ($"INVITE")) as [->|N3]; cbn [andb negb].
  - destruct (streq_spec meth ($"ACK")) as [->|N4]; cbn [negb].
    + eexists. split; [reflexivity|]. split; auto.
    + eexists. split; [reflexivity|]. split; [discriminate|]. intros (_ & _ & [?|(_ & ?)]); congruence.
  - eexists. split; [reflexivity|]. split; [discriminate|]. intros (_ & _ & [?|(? & _)]); congruence.
Qed.

Lemma parsed_request : forall m ev, parsed_event m = Some ev -> is_request (mc m) = true ->
  ev_sip ev = Some m /\ incoming_req (ev_type ev) = true /\ incoming_msg (ev_type ev) = true.
Proof.
  intros m ev H Hr. unfold parsed_event in H. rewrite Hr in H.
  destruct (m_method (mc m)), (m_uri (mc m)); try discriminate. injection H as <-. cbn [ev_sip ev_type].
  unfold incoming_type. rewrite Hr.
  repeat match goal with |- context [if ?b then _ else _] => destruct b end; auto.
Qed.

(** Every server transaction was opened by an RFC 3261 request. *)
Definition all_rfc3261 (h : list (op * opres)) (s : osip) : Prop :=
  forall k en q0, (k = IST \/ k = NIST) -> In en (o_tab s k) -> created h (en_t en) q0 -> m_status q0 = 0 /\ rfc3261 q0.

(** A received request goes to the first server transaction it belongs to, and nothing else
    changes; when it belongs to none, it is refused and nothing changes. *)
Theorem C20_delivered : forall l rs s m ev txid, steps osip_init l = Ok (rs, s) -> all_rfc3261 (combine l rs) s ->
  m_status (mc m) = 0 -> parsed_event m = Some ev -> rfc3261 (mc m) -> (exists meth, has_cseq_method (mc m) meth) ->
  exists c s', find_and_add ev txid s = Ok (c, s') /\
  ((c = OSIP_SUCCESS /\ exists k l1 en l2 q0, (k = IST \/ k = NIST) /\ queued_at s s' ev k l1 en l2 /\
      created (combine l rs) (en_t en) q0 /\ same_transaction q0 (mc m) /\
      (forall en' q', In en' l1 -> created (combine l rs) (en_t en') q' -> ~ same_transaction q' (mc m)) /\
      (forall j en' q', j <> k -> (j = IST \/ j = NIST) -> In en' (o_tab s j) ->
         created (combine l rs) (en_t en') q' -> ~ same_transaction q' (mc m))) \/
   (c <> OSIP_SUCCESS /\ s' = s /\
    forall k en q0, (k = IST \/ k = NIST) -> In en (o_tab s k) -> created (combine l rs) (en_t en) q0 ->
      ~ same_transaction q0 (mc m))).
Proof.
  intros l rs s m ev txid Hs Hall Hst Hp Hrfc (meth & Hmeth).
  assert (Hr : is_request (mc m) = true) by (unfold is_request; lia).
  destruct (parsed_request m ev Hp Hr) as (P1 & P2 & P4).
  destruct Hmeth as (cs & Ecs & Em).
  set (k := if streq meth ($"INVITE") || streq meth ($"ACK") then IST else NIST) in *.
  assert (Hk : find_table ev (mc m) = Ok (Some k)) by (unfold find_table; rewrite Ecs, Em, P4, Hr; reflexivity).
  assert (Kc : k = IST \/ k = NIST) by (subst k; destruct (streq meth ($"INVITE") || streq meth ($"ACK")); auto).
  assert (M : forall en j, (j = IST \/ j = NIST) -> In en (o_tab s j) -> forall q, created (combine l rs) (en_t en) q ->
           (same_transaction q (mc m) -> j = k) /\
           (exists b, matches ev txid (mc m) (en_t en) = Ok b /\ (b = true <-> same_transaction q (mc m)))).
  { intros en j Hj Hin q Hq. destruct (created_once l rs s j en Hs Hin)
      as (now & e0 & m0 & t0 & _ & U & _ & Hi & Hsi & meth0 & K1 & K2 & _ & K3).
    destruct (Hall j en q Hj Hin Hq) as (Q1 & Q2).
    rewrite (U q Hq) in *. pose proof (init_type _ _ _ _ _ Hi) as (Ty & _).
    assert (Tj : t_type (en_t en) = j) by (destruct Hsi as (_ & Hsi & _); congruence).
    split.
    - intros (v0 & vs0 & v & vs & b & n0 & n1 & _ & _ & _ & _ & _ & _ & _ & (c1 & A1 & A2) & (c2 & A3 & A4) & A5).
      unfold cseq_method in K1. rewrite A1, A2 in K1. injection K1 as <-.
      rewrite Ecs in A3. injection A3 as <-. rewrite Em in A4. injection A4 as <-.
      assert (NA : n0 <> $"ACK") by (apply K3; unfold is_request; lia).
      subst k. destruct K2 as (K2 & K2').
      destruct (streq_spec meth ($"INVITE")) as [->|N]; cbn [orb].
      + destruct A5 as [<-|(_ & ?)]; [|discriminate]. destruct (K2 eq_refl) as [-> | ->]; auto. destruct Hj; discriminate.
      + destruct (streq_spec meth ($"ACK")) as [->|N2].
        * destruct A5 as [<-|(-> & _)]; [congruence|]. destruct (K2 eq_refl) as [-> | ->]; auto. destruct Hj; discriminate.
        * destruct A5 as [<-|(_ & ?)]; [|congruence]. destruct Hj as [-> | ->]; auto. exfalso. apply N, K2'. auto.
    - rewrite <- Tj in Hi.
      assert (Cl : is_client (t_type (en_t en)) = false) by (rewrite Tj; destruct Hj as [-> | ->]; reflexivity).
      destruct (match_request_spec t0 now _ (mc m0) (en_t en) (mc m) Cl Hi Hsi Q2 Hrfc) as (c & Hm & Hcs).
      { exists meth, cs. auto. }
      unfold matches. rewrite P2, Hm. cbn [res_bind]. eexists. split; [reflexivity|]. rewrite <- Hcs. lia. }
  assert (MF : forall en, In en (o_tab s k) -> matches ev txid (mc m) (en_t en) = Ok false ->
           forall q, created (combine l rs) (en_t en) q -> ~ same_transaction q (mc m)).
  { intros en Hin Hf q Hq Ha. destruct (M en k Kc Hin q Hq) as (_ & b & M2 & M3). apply M3 in Ha. congruence. }
  assert (Ok' : exists r, find_and_add ev txid s = Ok r).
  { unfold find_and_add. rewrite P1, Hk. cbn [res_bind].
    assert (F : forall lx, (forall en, In en lx -> In en (o_tab s k)) -> exists r, find_index (matches ev txid (mc m)) lx = Ok r).
    { induction lx as [|en lx]; intros Hl; cbn [find_index]; [eauto|].
      assert (Hin : In en (o_tab s k)) by (apply Hl; left; auto).
      destruct (created_once l rs s k en Hs Hin) as (_ & _ & m0 & _ & C0 & _).
      destruct (M en k Kc Hin _ C0) as (_ & b & -> & _). cbn [res_bind]. destruct b; [eauto|].
      destruct IHlx as (r & ->); [intros; apply Hl; right; auto|]. cbn. eauto. }
    destruct (F (o_tab s k)) as (r & ->); auto. cbn [res_bind]. destruct r; eauto. }
  destruct Ok' as ([c s'] & H). exists c, s'. split; auto.
  destruct (find_and_add_spec ev txid s c s' m k P1 Hk H) as [(-> & l1 & en & l2 & Q & M1 & F)|(Hc & -> & F)].
  - left. split; auto. assert (Hin : In en (o_tab s k)) by (destruct Q as (-> & _); apply in_elt).
    destruct (created_once l rs s k en Hs Hin) as (_ & _ & m0 & _ & C0 & _).
    exists k, l1, en, l2, (mc m0). split; auto. split; auto. split; auto.
    split. { destruct (M en k Kc Hin _ C0) as (_ & b & M2 & M3). apply M3. congruence. }
    split.
    + intros en' q' Hin' Hq'. rewrite Forall_forall in F. apply (MF en'); auto.
      destruct Q as (-> & _). apply in_or_app. auto.
    + intros j en' q' Nj Hj Hin' Hq' Ha. destruct (M en' j Hj Hin' q' Hq') as (M1' & _). auto.
  - right. split; auto. split; auto. intros j en q Hj Hin Hq Ha.
    destruct (M en j Hj Hin q Hq) as (M1 & _). specialize (M1 Ha). subst j. rewrite Forall_forall in F.
    apply (MF en) in Hq; auto.
Qed.

(** A copy of the opening request belongs to the transaction; so does the ACK built for a final
    answer to any INVITE with the same top Via. *)
Theorem C20_copy_and_ack : forall q0, rfc3261 q0 ->
  (exists v vs, m_vias q0 = v :: vs /\ v_host v <> None) -> (exists meth, has_cseq_method q0 meth) ->
  same_transaction q0 q0 /\
  forall orig resp a, has_cseq_method q0 ($"INVITE") -> m_vias orig = m_vias q0 ->
    create_ack orig resp = Some a -> same_transaction q0 a.
Proof.
  intros q0 (v & vs & b & E & B) (v' & vs' & E' & Vh) (meth & Hm). rewrite E in E'. injection E' as <- <-. split.
  - exists v, vs, v, vs, b, meth, meth. repeat (split; [auto; fail|]). auto.
  - intros orig resp a Hi Ho Ha. apply create_ack_inv in Ha.
    destruct Ha as (f & t & ci & cs & u & w & _ & _ & _ & _ & _ & A1 & _ & ->).
    rewrite Ho, E in A1. cbn in A1. injection A1 as <-.
    exists v, vs, v, [], b, ($"INVITE"), ($"ACK"). 
    split; [auto|]. split; [reflexivity|]. split; [auto|]. split; [auto|]. split; [auto|]. split; [auto|]. split; [auto|].
    split; [auto|]. split; [eexists; split; reflexivity|auto].
Qed.

Definition ex_srv : list op :=
  [ OpCreate (TV 100 0) (Ev RCV_REQINVITE (Some (Msg 1 (br_invite ($"z9hG4bK1")))));
    OpCreate (TV 100 0) (Ev RCV_REQINVITE (Some (Msg 2 (br_invite ($"z9hG4bK2"))))) ].
Definition ex_ack : message :=
  match create_ack (br_invite ($"z9hG4bK2")) (ex_resp 486 ($"UDP")) with Some a => a | None => br_invite [] end.

Example C20_witness : exists rs s s', steps osip_init ex_srv = Ok (rs, s) /\ all_rfc3261 (combine ex_srv rs) s /\
  rfc3261 ex_ack /\ parsed_event (Msg 3 ex_ack) = Some (Ev RCV_REQACK (Some (Msg 3 ex_ack))) /\
  find_and_add (Ev RCV_REQACK (Some (Msg 3 ex_ack))) (-1) s = Ok (OSIP_SUCCESS, s') /\
  map (fun en => length (en_q en)) (o_tab s' IST) = [0; 1]%nat /\
  find_and_add (Ev RCV_REQINVITE (Some (Msg 4 (br_invite ($"z9hG4bK3"))))) (-1) s = Ok (OSIP_UNDEFINED_ERROR, s).
Proof.
  assert (C : forall b, first_param [($"branch", Some b)] ($"branch") (Some b)).
  { intros. exists [], ($"branch", Some b), []. repeat split. intros ? []. }
  eexists _, _, _. split; [vm_compute; reflexivity|].
  split. { intros k en q0 Hk Hin (now & ev & x & t0 & H1 & H2 & <- & _). cbn in H1.
    destruct H1 as [H1|[H1|[]]]; injection H1 as <- <- <-; cbn in H2; injection H2 as <-; cbn [mc];
      (split; [reflexivity|]).
    - exists (br_via ($"z9hG4bK1")), [], ($"z9hG4bK1"). split; [reflexivity|]. split; [apply C|]. exists ($"1"). reflexivity.
    - exists (br_via ($"z9hG4bK2")), [], ($"z9hG4bK2"). split; [reflexivity|]. split; [apply C|]. exists ($"2"). reflexivity. }
  split. { exists (br_via ($"z9hG4bK2")), [], ($"z9hG4bK2"). split; [vm_compute; reflexivity|]. split; [apply C|]. exists ($"2"). reflexivity. }
  split; [vm_compute; reflexivity|]. split; [vm_compute; reflexivity|]. split; vm_compute; reflexivity.
Qed.

(** ** RFC 2543 requests *)

Lemma exec_orig : forall e t ev r t' o, execute e t ev = Ok (r, t', o) -> typed t -> is_client (t_type t) = false ->
  (rank (t_state t) <> 0%nat -> t_orig t' = t_orig t /\ rank (t_state t') <> 0%nat) /\
  (rank (t_state t) = 0%nat ->
     (ev_type ev = (if fsm_eqb (t_type t) IST then RCV_REQINVITE else RCV_REQUEST) /\ t_orig t' = ev_sip ev /\ rank (t_state t') <> 0%nat) \/
     (ev_type ev <> (if fsm_eqb (t_type t) IST then RCV_REQINVITE else RCV_REQUEST) /\ t_orig t' = t_orig t /\ rank (t_state t') = 0%nat)).
Proof.
  intros e t ev r t' o H Hty Hc. apply execute_inv in H. unfold typed in Hty.
  destruct H as [(-> & _ & Hl & _)|(h & Hin & Hh & _)].
  - split; auto. intros Hr. right. split; auto. intros He. rewrite He in Hl.
    destruct (t_type t), (t_state t); cbn in Hty, Hr; try discriminate; cbn in Hl; discriminate.
  - table_cases Hin; cbn in Hc; try discriminate; handler_cases Hh; injection Hh as <- <-; proj; rewrite ?Hs, ?He;
      cbn [rank]; split; intros Hr; try lia; try (split; [reflexivity|lia]);
      left; (split; [reflexivity|split; [congruence|lia]]).
Qed.

Lemma etype_eqb_refl : forall x, etype_eqb x x = true.
Proof. intros x. destruct x; reflexivity. Qed.

Definition opening (k : fsm) : etype := if fsm_eqb k IST then RCV_REQINVITE else RCV_REQUEST.

Lemma run_orig : forall l t t' tr, run t l = Ok (t', tr) -> typed t -> is_client (t_type t) = false ->
  (rank (t_state t) <> 0%nat -> t_orig t' = t_orig t) /\
  (rank (t_state t) = 0%nat -> forall m, first_of (opening (t_type t)) l = Some m -> t_orig t' = Some m).
Proof.
  induction l as [|[e ev] l]; intros t t' tr H Hty Hc; cbn [run] in H.
  - injection H as <- <-. split; auto. intros _ m Hm. discriminate.
  - destruct (execute e t ev) as [[[r t1] o]|c|] eqn:E; cbn [res_bind] in H; try discriminate.
    destruct (run t1 l) as [[t2 tr2]|c|] eqn:E2; cbn [res_bind fst snd] in H; try discriminate. injection H as <- <-.
    pose proof (exec_orig _ _ _ _ _ _ E Hty Hc) as (X1 & X2).
    pose proof (execute_identity _ _ _ _ _ _ E) as (_ & Ty & _).
    destruct (IHl t1 t2 tr2 E2 (exec_typed _ _ _ _ _ _ Hty E)) as (I1 & I2); [rewrite Ty; auto|].
    split.
    + intros Hr. destruct (X1 Hr) as (Y1 & Y2). rewrite I1; auto.
    + intros Hr m Hm. cbn [first_of] in Hm. unfold opening in Hm.
      destruct (X2 Hr) as [(Y1 & Y2 & Y3)|(Y1 & Y2 & Y3)].
      * rewrite Y1 in Hm. rewrite etype_eqb_refl in Hm. rewrite I1 by auto. congruence.
      * destruct (etype_eqb (ev_type ev) _) eqn:Ee in Hm; [apply etype_eqb_eq in Ee; contradiction|].
        apply I2; auto. rewrite Ty. exact Hm.
Qed.

Definition rfc2543 (q : message) : Prop :=
  exists v vs, m_vias q = v :: vs /\
    (no_param (v_params v) ($"branch") \/
     exists b, first_param (v_params v) ($"branch") (Some b) /\ ~ exists x, b = $"z9hG4bK" ++ x).
Definition tag_valued (f : option nameaddr) : Prop :=
  forall a, f = Some a -> no_param (na_params a) ($"tag") \/ exists x, first_param (na_params a) ($"tag") (Some x).

Lemma tag_match_refl : forall a, tag_valued (Some a) -> tag_match (Some a) (Some a) = 0.
Proof.
  intros a H. unfold tag_match. destruct (H a eq_refl) as [Hn|(x & Hx)].
  - rewrite (param_get_no _ _ Hn). reflexivity.
  - apply param_get_first in Hx. destruct Hx as ([n y] & -> & Hy). cbn in Hy. subst y. rewrite streq_refl. reflexivity.
Qed.

(** A copy of an RFC 2543 style request matches its transaction once the request itself was
    executed.  Missing: before that (see C20_refuted). *)
Theorem C20_copy_2543_partial : forall k now id q0 t0 l t tr m, k = IST \/ k = NIST ->
  trans_init k now id (Some q0) = Ok t0 -> m_method q0 <> Some ($"ACK") -> rfc2543 q0 ->
  tag_valued (m_from q0) -> tag_valued (m_to q0) ->
  run t0 l = Ok (t, tr) -> first_of (match k with IST => RCV_REQINVITE | _ => RCV_REQUEST end) l = Some m -> mc m = q0 ->
  match_request t q0 = Ok OSIP_SUCCESS.
Proof.
  intros k now id q0 t0 l t tr m Hk Hi Hna (v & vs & Ev & Hb) Hf Ht Hr Hfst Hm.
  assert (Hc0 : is_client k = false) by (destruct Hk as [-> | ->]; reflexivity).
  pose proof Hi as Hi0. apply init_identity in Hi0.
  destruct Hi0 as (v' & vs' & f & to & ci & cs & V1 & V2 & F1 & F2 & O1 & O2 & I1 & I2 & C1 & C2 & N1 & N2 & N3 & Vc & Ty).
  rewrite Ev in V1. injection V1 as <- <-.
  assert (Fr : fresh t0) by (exists k, now, id, q0; auto).
  assert (Hid : same_identity t0 t).
  { clear - Hr. revert t0 tr Hr. induction l as [|[e ev] l]; intros t0 tr Hr; cbn [run] in Hr.
    - injection Hr as <- <-. apply same_identity_refl.
    - destruct (execute e t0 ev) as [[[r t1] o]|c|] eqn:E; cbn [res_bind] in Hr; try discriminate.
      destruct (run t1 l) as [[t2 tr2]|c|] eqn:E2; cbn [res_bind fst snd] in Hr; try discriminate. injection Hr as <- <-.
      apply execute_identity in E. apply IHl in E2. eapply same_identity_trans; eauto. }
  destruct Hid as (_ & S0 & S1 & S2 & S3 & S4 & S5).
  assert (Ho : t_orig t = Some m).
  { destruct (run_orig l t0 t tr Hr (fresh_typed _ Fr)) as (_ & R); [rewrite Ty; auto|]. apply R.
    - rewrite (fresh_state _ Fr), Ty. destruct k; reflexivity.
    - rewrite Ty. destruct Hk as [-> | ->]; exact Hfst. }
  assert (M2 : match_request_2543 t q0 v = Ok OSIP_SUCCESS).
  { unfold match_request_2543. rewrite S4, S2, S5, S1, Ho, I2, I1, F1, F2, O1, C1, C2, V2.
    unfold call_id_match. destruct (ci_number ci) as [x|]; [|congruence]. rewrite streq_refl. cbn [negb].
    replace (match ci_host ci with
       | Some h => match ci_host ci with Some k0 => if streq h k0 then OSIP_SUCCESS else OSIP_UNDEFINED_ERROR | None => OSIP_UNDEFINED_ERROR end
       | None => match ci_host ci with Some _ => OSIP_UNDEFINED_ERROR | None => OSIP_SUCCESS end end) with OSIP_SUCCESS
      by (destruct (ci_host ci); rewrite ?streq_refl; reflexivity).
    cbn [Z.eqb OSIP_SUCCESS negb].
    destruct (is_method ($"ACK") q0) eqn:Ea; [apply is_method_iff in Ea; tauto|].
    rewrite Hm, O1. rewrite (tag_match_refl to) by (rewrite <- O1; auto). cbn [Z.eqb OSIP_SUCCESS negb].
    rewrite (tag_match_refl f) by (rewrite <- F1; auto). cbn [Z.eqb OSIP_SUCCESS negb].
    assert (Q : cseq_match (Some cs) (Some cs) = 0).
    { unfold cseq_match. destruct (cs_number cs); [|congruence]. destruct (cs_method cs) as [mm|]; [|congruence].
      rewrite !streq_refl. destruct (inv_or_ack mm); reflexivity. }
    rewrite Q. cbn [Z.eqb negb].
    assert (VM : via_match v v = 0).
    { unfold via_match, via_to_str. destruct Vc as (A1 & A2 & A3).
      destruct (v_host v); [|congruence]. destruct (v_version v); [|congruence]. destruct (v_protocol v); [|congruence].
      rewrite streq_refl. reflexivity. }
    rewrite VM. reflexivity. }
  unfold match_request. rewrite S0, Ty, Hc0, C1. destruct (cs_method cs) as [meth|]; [|congruence].
  rewrite Ev, S1, V2. destruct Hb as [Hb|(b & Hb & Hnc)].
  - rewrite (param_get_no _ _ Hb). exact M2.
  - apply param_get_first in Hb. destruct Hb as ([n y] & -> & Hy). cbn in Hy. subst y.
    rewrite Nat.eqb_refl. cbn [negb]. destruct (strneq 7 b magic) eqn:E; [apply cookie_iff in E; contradiction|exact M2].
Qed.

(** An RFC 2543 style request without branch, and what is executed of it *)
Definition old_via : via := mkVia (Some ($"2.0")) (Some ($"UDP")) (Some ($"10.0.0.1")) None None [].
Definition old_invite : message := ex_msg (Some ($"SIP/2.0")) (Some ($"INVITE")) 0 old_via ex_to ($"INVITE").

Example C20_2543_witness : exists t0 t tr, trans_init IST (TV 100 0) 1 (Some old_invite) = Ok t0 /\
  rfc2543 old_invite /\ run t0 [(ex_env 0, Ev RCV_REQINVITE (Some (Msg 1 old_invite)))] = Ok (t, tr) /\
  match_request t old_invite = Ok OSIP_SUCCESS.
Proof.
  eexists _, _, _. split; [vm_compute; reflexivity|]. split; [|split; vm_compute; reflexivity].
  exists old_via, []. split; [reflexivity|]. left. intros q [].
Qed.

(** As stated the property fails for RFC 2543 style requests: before the first event of a server
    transaction is executed, a copy of the request that created it does not match it. *)
Theorem C20_refuted : exists t0, trans_init IST (TV 100 0) 1 (Some old_invite) = Ok t0 /\ rfc2543 old_invite /\
  match_request t0 old_invite = Ok OSIP_UNDEFINED_ERROR.
Proof.
  eexists. split; [vm_compute; reflexivity|]. split; [|vm_compute; reflexivity].
  exists old_via, []. split; [reflexivity|]. left. intros q [].
Qed.

(** An RFC 2543 style request only matches when Call-ID, From tag, CSeq number and printed Via
    are those of the request that created the transaction. *)
Definition tag_of (f : option nameaddr) (x : option str) : Prop :=
  exists a, f = Some a /\ match x with Some y => first_param (na_params a) ($"tag") (Some y) | None => no_param (na_params a) ($"tag") end.

Theorem C20_2543_same : forall t0 now id q0 t q, is_client (t_type t) = false ->
  trans_init (t_type t) now id (Some q0) = Ok t0 -> same_identity t0 t -> rfc2543 q ->
  match_request t q = Ok OSIP_SUCCESS ->
  m_call_id q = m_call_id q0 /\ (exists x, tag_of (m_from q0) x /\ tag_of (m_from q) x) /\
  (exists c0 c, m_cseq q0 = Some c0 /\ m_cseq q = Some c /\ cs_number c = cs_number c0 /\
     (cs_method c = cs_method c0 \/
      exists a b, cs_method c0 = Some a /\ cs_method c = Some b /\ In a [$"INVITE"; $"ACK"] /\ In b [$"INVITE"; $"ACK"])) /\
  (exists v0 vs0 v vs x, m_vias q0 = v0 :: vs0 /\ m_vias q = v :: vs /\ via_to_str v0 = Ok x /\ via_to_str v = Ok x).
Proof.
  intros t0 now id q0 t q Hc Hi Hsi (v & vs & Ev & Hb) H. apply init_identity in Hi.
  destruct Hi as (v' & vs' & f & to & ci & cs & V1 & V2 & F1 & F2 & O1 & O2 & I1 & I2 & C1 & C2 & N1 & N2 & N3 & Vc & Ty).
  destruct Hsi as (_ & S0 & S1 & S2 & S3 & S4 & S5).
  assert (M2 : match_request_2543 t q v = Ok OSIP_SUCCESS).
  { unfold match_request in H. rewrite Hc, Ev in H. destruct (m_cseq q) as [c|]; [|discriminate].
    destruct (cs_method c) as [meth|]; [|discriminate].
    destruct Hb as [Hb|(b & Hb & Hnc)].
    - rewrite (param_get_no _ _ Hb) in H. destruct (param_get (v_params (t_topvia t)) ($"branch")); [discriminate|auto].
    - apply param_get_first in Hb. destruct Hb as ([n y] & Hb & Hy). cbn in Hy. subst y. rewrite Hb in H.
      destruct (param_get (v_params (t_topvia t)) ($"branch")) as [[n0 [b0|]]|]; try discriminate.
      destruct (negb (Nat.eqb (length b0) (length b))); [discriminate|].
      destruct (strneq 7 b magic) eqn:E; [apply cookie_iff in E; contradiction|]. rewrite andb_false_r in H. auto. }
  unfold match_request_2543 in M2. rewrite S4, S2, S5, S1, I2, F2, C2, V2 in M2.
  destruct (call_id_match (Some ci) (m_call_id q) =? 0) eqn:Eci; cbn [negb] in M2; [|discriminate].
  assert (Rest : (if negb (tag_match (Some f) (m_from q) =? 0) then OSIP_UNDEFINED_ERROR
      else if negb (cseq_match (Some cs) (m_cseq q) =? 0) then OSIP_UNDEFINED_ERROR
      else if negb (via_match v' v =? 0) then OSIP_UNDEFINED_ERROR else OSIP_SUCCESS) = OSIP_SUCCESS).
  { destruct (is_method ($"ACK") q).
    - destruct (m_to q) as [qto|]; [|discriminate].
      destruct (param_get (na_params (t_to t)) ($"tag")), (param_get (na_params qto) ($"tag"));
        try (destruct (negb (tag_match (Some (t_to t)) (Some qto) =? 0)); try discriminate); try discriminate; congruence.
    - destruct (t_orig t) as [o|]; [|discriminate]. destruct (m_to (mc o)) as [oto|]; [|discriminate].
      destruct (negb (tag_match (Some oto) (m_to q) =? 0)); [discriminate|]. congruence. }
  destruct (tag_match (Some f) (m_from q) =? 0) eqn:Etag; cbn [negb] in Rest; [|discriminate].
  destruct (cseq_match (Some cs) (m_cseq q) =? 0) eqn:Ecs; cbn [negb] in Rest; [|discriminate].
  destruct (via_match v' v =? 0) eqn:Evm; cbn [negb] in Rest; [|discriminate]. clear Rest M2 H.
  split; [|split; [|split]].
  - rewrite I1. destruct (m_call_id q) as [cq|]; [|discriminate]. unfold call_id_match in Eci.
    destruct ci as [n1 h1], cq as [n2 h2]. cbn in *. destruct n1 as [n1|]; [|congruence]. destruct n2 as [n2|]; [|discriminate].
    destruct (streq_spec n1 n2) as [->|]; [|discriminate]. cbn [negb] in Eci.
    destruct h1 as [h1|], h2 as [h2|]; try discriminate; auto. destruct (streq_spec h1 h2) as [->|]; [auto|discriminate].
  - destruct (m_from q) as [fq|]; [|discriminate]. unfold tag_match in Etag.
    destruct (param_get (na_params f) ($"tag")) as [[n1 [x1|]]|] eqn:E1, (param_get (na_params fq) ($"tag")) as [[n2 [x2|]]|] eqn:E2;
      try discriminate.
    + destruct (streq_spec x1 x2) as [->|]; [|discriminate]. exists (Some x2).
      apply param_get_some in E1, E2. split; eexists; eauto.
    + exists None. apply param_get_none in E1, E2. split; eexists; eauto.
  - destruct (m_cseq q) as [cq|]; [|discriminate]. exists cs, cq. split; auto. split; auto. unfold cseq_match in Ecs.
    destruct (cs_number cs) as [n1|]; [|congruence]. destruct (cs_method cs) as [m1|]; [|congruence].
    destruct (cs_number cq) as [n2|]; [|discriminate]. destruct (cs_method cq) as [m2|]; [|discriminate].
    destruct (streq_spec n1 n2) as [->|]; [|discriminate]. split; auto.
    assert (IA : forall x, inv_or_ack x = true -> In x [$"INVITE"; $"ACK"]).
    { intros x Hx. unfold inv_or_ack in Hx. destruct (streq_spec x ($"INVITE")) as [E|E]; [left; auto|].
      destruct (streq_spec x ($"ACK")) as [E2|E2]; [right; left; auto|discriminate]. }
    destruct (inv_or_ack m2) eqn:E2.
    + destruct (inv_or_ack m1) eqn:E1; [|discriminate]. right. exists m1, m2. split; auto.
    + destruct (streq_spec m1 m2) as [->|]; [auto|discriminate].
  - unfold via_match in Evm. destruct (via_to_str v') as [x|c|] eqn:E1; try discriminate.
    2:{ exfalso. unfold via_to_str in E1. destruct Vc as (A1 & A2 & A3).
        destruct (v_host v'); [|congruence]. destruct (v_version v'); [|congruence]. destruct (v_protocol v'); congruence. }
    destruct (via_to_str v) as [y|c|] eqn:E2; try discriminate.
    2:{ unfold via_to_str in E2. destruct (v_host v), (v_version v), (v_protocol v); try discriminate; injection E2 as <-; discriminate. }
    destruct (streq_spec x y) as [->|]; [|discriminate]. exists v', vs', v, vs, y. auto.
Qed.

Print Assumptions C19_delivered.
Print Assumptions C19_no_crash.
Print Assumptions C20_delivered.
Print Assumptions C20_copy_and_ack.
Print Assumptions C20_copy_2543_partial.
Print Assumptions C20_refuted.
Print Assumptions C20_2543_same.

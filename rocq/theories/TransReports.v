(** Properties C09 and C10. *)
From Coq Require Import String ZArith Ascii Bool List Lia ZifyBool ZifyNat.
From Verif Require Import Base Str StrLemmas Types TimeModel PortModel CloneModel CloneProofs TransModel TransSpec TransProofs TransSteps TransProps.
Import ListNotations.
Open Scope Z_scope.

(** An invariant relating the transaction to everything that happened so far. *)
Lemma run_trace_inv : forall (P : trans -> list out -> Prop) (Q : env * event -> Prop),
  (forall e ev t r t' o acc, P t acc -> Q (e, ev) -> execute e t ev = Ok (r, t', o) -> P t' (acc ++ o)) ->
  forall l t t' tr acc, P t acc -> Forall Q l -> run t l = Ok (t', tr) -> P t' (acc ++ concat tr).
Proof.
  intros P Q Hs. induction l as [|[e ev] l]; intros t t' tr acc HP HQ Hr.
  - simpl in Hr. injection Hr as <- <-. simpl. rewrite app_nil_r. auto.
  - apply run_cons in Hr. destruct Hr as (r & t1 & o & tr1 & H1 & H2 & ->). inversion HQ; subst.
    simpl. rewrite app_assoc. eapply IHl; eauto.
Qed.

Ltac table_cases1 H :=
  cbn [table] in H; unfold ict_table, ist_table, nict_table, nist_table in H; cbn [In] in H;
  let Hs := fresh "Hs" in let He := fresh "He" in
  repeat (destruct H as [H|H]; [injection H as Hs He <-|]); try contradiction;
  try (symmetry in Hs); try (symmetry in He).

Lemma forall_any : forall A (l : list A), Forall (fun _ => True) l.
Proof. intros. apply Forall_forall. auto. Qed.

Lemma run_type : forall l t t' tr, run t l = Ok (t', tr) -> t_type t' = t_type t.
Proof.
  intros l t t' tr Hr.
  refine (run_invariant (fun x => t_type x = t_type t) (fun _ => True) _ l t t' tr eq_refl (forall_any _ _) Hr).
  intros e ev t1 r t2 o H _ H1. apply execute_identity in H1. destruct H1 as (_ & -> & _). auto.
Qed.

Lemma filter_free_opt : forall f m, (forall x, f (OFree x) = false) -> filter f (free_opt m) = [].
Proof. intros f m H. destruct m; simpl; auto. rewrite H. auto. Qed.

(** * C09 *)

Definition report_shape (s : state) (rs : list out) : Prop :=
  exists pre rest, rs = pre ++ rest /\ Forall (fun x => is_provisional x = true) pre /\
  match s with
  | ICT_COMPLETED => exists f again, rest = f :: again /\ is_3456 f = true /\ Forall (fun x => is_again x = true) again
  | ICT_TERMINATED => rest = [] \/ exists f again err, rest = f :: again ++ err /\ is_outcome f = true /\
      Forall (fun x => is_again x = true) again /\ (err = [] \/ exists k i, err = [OTpErr k i]) /\
      (again ++ err <> [] -> is_3456 f = true)
  | _ => rest = []
  end.

Lemma shape_stay : forall s rs, report_shape s rs -> report_shape s (rs ++ []).
Proof. intros. rewrite app_nil_r. auto. Qed.

(** Reports of one step, by state. *)
Lemma exec_ict_reports : forall e ev t r t' o, t_type t = ICT -> execute e t ev = Ok (r, t', o) ->
  let rs := filter is_ict_report o in
  (rs = [] /\ t_state t' = t_state t) \/
  match t_state t with
  | ICT_PRE_CALLING => (rs = [] /\ t_state t' = ICT_CALLING) \/ (exists k i, rs = [OTpErr k i] /\ t_state t' = ICT_TERMINATED)
  | ICT_CALLING | ICT_PROCEEDING =>
      (exists x, rs = [x] /\ is_provisional x = true /\ t_state t' = ICT_PROCEEDING) \/
      (exists x, rs = [x] /\ is_3456 x = true /\ t_state t' = ICT_COMPLETED) \/
      (exists x, rs = [x] /\ is_outcome x = true /\ t_state t' = ICT_TERMINATED) \/
      (rs = [] /\ t_state t' = ICT_TERMINATED /\ ack_impossible t ev)
  | ICT_COMPLETED =>
      (exists x, rs = [x] /\ is_again x = true /\ t_state t' = ICT_COMPLETED) \/
      (exists x k i, rs = [x; OTpErr k i] /\ is_again x = true /\ t_state t' = ICT_TERMINATED) \/
      (rs = [] /\ t_state t' = ICT_TERMINATED)
  | _ => False
  end.
Proof.
  intros e ev t r t' o Hk H. apply execute_inv in H.
  destruct H as [(-> & Ho & _)|(h & Hin & Hh & _)].
  - left. split; auto. destruct Ho as [->| ->]; auto. apply filter_free_opt. auto.
  - rewrite Hk in Hin.
    table_cases1 Hin; rewrite Hs; handler_cases Hh; injection Hh as <- <-; proj; rewrite ?Hs.
    all: cbv zeta; rewrite ?filter_app, ?filter_free_opt by reflexivity; unfold final_cb.
    all: try match goal with |- context [is_3xx ?m] => destruct (is_3xx m), (is_4xx m), (is_5xx m) end.
    all: cbn [filter is_ict_report is_provisional is_outcome is_again is_3456 orb app].
    all: try (left; split; reflexivity).
    all: try (right; left; split; reflexivity).
    all: try (right; right; eexists _, _; split; reflexivity).
    all: try (right; left; eexists; repeat split; reflexivity).
    all: try (right; right; left; eexists; repeat split; reflexivity).
    all: try (right; right; left; eexists _, _, _; repeat split; reflexivity).
    all: try (right; right; right; left; eexists; repeat split; reflexivity).
    all: try (right; right; right; split; reflexivity).
    all: right; right; right; right; split; [reflexivity|]; split; [reflexivity|];
         unfold ack_impossible; rewrite Hk; repeat split; eauto 10.
Qed.

Lemma exec_shape : forall e ev t r t' o rs, t_type t = ICT -> report_shape (t_state t) rs ->
  execute e t ev = Ok (r, t', o) -> report_shape (t_state t') (rs ++ filter is_ict_report o).
Proof.
  intros e ev t r t' o rs Hk (pre & rest & -> & Hpre & HI) H.
  apply (exec_ict_reports _ _ _ _ _ _ Hk) in H. cbv zeta in H.
  destruct H as [(-> & ->)|H].
  { rewrite app_nil_r. exists pre, rest. auto. }
  destruct (t_state t); try contradiction.
  - subst rest. destruct H as [(-> & ->)|(k & i & -> & ->)]; rewrite app_nil_r.
    + exists pre, []. auto.
    + exists pre, [OTpErr k i]. split; auto. split; auto. right. exists (OTpErr k i), [], []. repeat split; auto; congruence.
  - subst rest. rewrite app_nil_r.
    destruct H as [(x & -> & Hx & ->)|[(x & -> & Hx & ->)|[(x & -> & Hx & ->)|(-> & -> & _)]]].
    + exists (pre ++ [x]), []. rewrite app_nil_r. split; auto. split; auto. apply Forall_app; auto.
    + exists pre, [x]. split; auto. split; auto. exists x, []. auto.
    + exists pre, [x]. split; auto. split; auto. right. exists x, [], []. repeat split; auto; congruence.
    + exists pre, []. auto.
  - subst rest. rewrite app_nil_r.
    destruct H as [(x & -> & Hx & ->)|[(x & -> & Hx & ->)|[(x & -> & Hx & ->)|(-> & -> & _)]]].
    + exists (pre ++ [x]), []. rewrite app_nil_r. split; auto. split; auto. apply Forall_app; auto.
    + exists pre, [x]. split; auto. split; auto. exists x, []. auto.
    + exists pre, [x]. split; auto. split; auto. right. exists x, [], []. repeat split; auto; congruence.
    + exists pre, []. auto.
  - destruct HI as (f & again & -> & Hf & Hag).
    assert (Ho : is_outcome f = true) by (unfold is_outcome; rewrite Hf; auto).
    destruct H as [(x & -> & Hx & ->)|[(x & k & i & -> & Hx & ->)|(-> & ->)]].
    + exists pre, (f :: again ++ [x]). rewrite <- app_assoc. split; auto. split; auto.
      exists f, (again ++ [x]). split; auto. split; auto. apply Forall_app; auto.
    + exists pre, (f :: (again ++ [x]) ++ [OTpErr k i]). rewrite <- !app_assoc. split; auto. split; auto.
      right. exists f, (again ++ [x]), [OTpErr k i]. rewrite <- app_assoc. repeat split; eauto. apply Forall_app; auto.
    + exists pre, (f :: again). rewrite app_nil_r. split; auto. split; auto. right. exists f, again, []. rewrite app_nil_r.
      repeat split; auto.
Qed.

(** Over the whole life of a client INVITE transaction the reports to the application are:
    provisional answers, then at most one first-time outcome (a 2xx, a 3xx-6xx, a timeout or a
    transport error).  Only after a 3xx-6xx can anything follow: copies of the answer, reported as
    received again, and at the very end possibly one transport error. *)
Theorem C09_one_outcome : forall t0 l t tr, fresh t0 -> t_type t0 = ICT -> run t0 l = Ok (t, tr) ->
  exists provisional outcome again error,
    filter is_ict_report (concat tr) = provisional ++ outcome ++ again ++ error /\
    Forall (fun x => is_provisional x = true) provisional /\
    (outcome = [] \/ exists f, outcome = [f] /\ is_outcome f = true) /\
    Forall (fun x => is_again x = true) again /\
    (error = [] \/ exists k i, error = [OTpErr k i]) /\
    (again ++ error <> [] -> exists f, outcome = [f] /\ is_3456 f = true).
Proof.
  intros t0 l t tr Hf Hk Hr.
  assert (H : t_type t = ICT /\ report_shape (t_state t) (filter is_ict_report ([] ++ concat tr))).
  { refine (run_trace_inv (fun t acc => t_type t = ICT /\ report_shape (t_state t) (filter is_ict_report acc))
              (fun _ => True) _ l t0 t tr [] _ (forall_any _ _) Hr).
    - intros e ev t1 r t2 o acc (H1 & H2) _ H3. split.
      + apply execute_identity in H3. destruct H3 as (_ & -> & _). auto.
      + rewrite filter_app. eapply exec_shape; eauto.
    - split; auto. rewrite (fresh_state _ Hf), Hk. exists [], []. simpl. auto. }
  simpl in H. destruct H as (_ & pre & rest & -> & Hp & H).
  assert (Hr0 : rest = [] -> exists provisional outcome again error,
    pre ++ rest = provisional ++ outcome ++ again ++ error /\
    Forall (fun x => is_provisional x = true) provisional /\
    (outcome = [] \/ exists f, outcome = [f] /\ is_outcome f = true) /\
    Forall (fun x => is_again x = true) again /\
    (error = [] \/ exists k i, error = [OTpErr k i]) /\
    (again ++ error <> [] -> exists f, outcome = [f] /\ is_3456 f = true)).
  { intros ->. exists pre, [], [], []. repeat split; auto. simpl. congruence. }
  destruct (t_state t) eqn:Hst; auto; clear Hr0.
  - destruct H as (f & again & -> & H1 & H2). exists pre, [f], again, []. rewrite app_nil_r.
    repeat split; auto.
    + right. exists f. split; auto. unfold is_outcome. rewrite H1. auto.
    + intros _. exists f. auto.
  - destruct H as [->|(f & again & err & -> & H1 & H2 & H3 & H4)].
    + exists pre, [], [], []. repeat split; auto. simpl. congruence.
    + exists pre, [f], again, err. repeat split; eauto.
Qed.

(** The class of a final answer report is that of its status code. *)
Definition class_cb (st : Z) : cb :=
  if (300 <=? st) && (st <? 400) then ICT_STATUS_3XX_RECEIVED
  else if (400 <=? st) && (st <? 500) then ICT_STATUS_4XX_RECEIVED
  else if (500 <=? st) && (st <? 600) then ICT_STATUS_5XX_RECEIVED
  else ICT_STATUS_6XX_RECEIVED.

(** While waiting for a final answer, every answer received is reported, once, with its own
    message and under its own class (final ones: when the ACK can be built and sent). *)
Theorem C09_answers_are_reported : forall t0 l t tr e ev m r t' o, fresh t0 -> t_type t0 = ICT ->
  Forall (fun x => api_event (snd x) /\ complete_event (snd x)) l -> run t0 l = Ok (t, tr) ->
  (t_state t = ICT_CALLING \/ t_state t = ICT_PROCEEDING) ->
  ev_sip ev = Some m -> complete_event ev -> e_send e = 0 -> execute e t ev = Ok (r, t', o) ->
  (ev_type ev = RCV_STATUS_1XX -> filter is_ict_report o = [OCb ICT_STATUS_1XX_RECEIVED (Some m)]) /\
  (ev_type ev = RCV_STATUS_2XX -> filter is_ict_report o = [OCb ICT_STATUS_2XX_RECEIVED (Some m)]) /\
  (ev_type ev = RCV_STATUS_3456XX -> filter is_ict_report o = [OCb (class_cb (m_status (mc m))) (Some m)]).
Proof.
  intros t0 l t tr e ev m r t' o Hf Hk Hl Hr Hst Hm Hc Hsend He.
  assert (Hh : holds complete_request t).
  { refine (run_holds _ _ _ _ _ Hf _ Hr). eapply Forall_impl; [|exact Hl]. intros x (H1 & H2). apply complete_ok; auto. }
  assert (Hho : exists q, t_orig t = Some q /\ complete_request (mc q))
    by (unfold holds in Hh; destruct Hst as [Hst|Hst]; rewrite Hst in Hh; auto).
  destruct Hho as (q & Hq & HP). clear Hh.
  pose proof (run_type _ _ _ _ Hr) as Hty. rewrite Hk in Hty.
  specialize (Hc m Hm).
  repeat split; intros Het; rewrite Het in Hc; unfold execute in He; rewrite Het, Hty in He; cbn [table] in He;
    (destruct Hst as [Hst|Hst]; rewrite Hst in He; cbn in He;
     [set (s := t_state t) in * | set (s := t_state t) in *]);
    unfold ict_rcv_1xx, ict_rcv_2xx, ict_rcv_3456xx in He; rewrite Hm in He; cbn in He.
  1-4: injection He as <- <- <-; rewrite filter_app, filter_free_opt by reflexivity; reflexivity.
  all: fold s in He; rewrite ?Hst in He; cbn in He; rewrite Hq in He;
    destruct (create_ack_some _ _ HP Hc) as (a & Ha); rewrite Ha in He; rewrite Hsend in He; cbn in He;
    injection He as <- <- <-; rewrite !filter_app, filter_free_opt by reflexivity;
    unfold final_cb, class_cb, is_3xx, is_4xx, is_5xx, status_in;
    repeat match goal with |- context [(?a <=? ?b) && (?c <? ?d)] => destruct ((a <=? b) && (c <? d)) end; reflexivity.
Qed.

(** When the messages are complete, a finished client INVITE transaction has reported an
    outcome. *)
Lemma shape_outcome : forall l t0 t tr, fresh t0 -> t_type t0 = ICT ->
  Forall (fun x => api_event (snd x) /\ complete_event (snd x)) l -> run t0 l = Ok (t, tr) ->
  (t_state t = ICT_COMPLETED \/ t_state t = ICT_TERMINATED) -> exists x, In x (concat tr) /\ is_outcome x = true.
Proof.
  intros l t0 t tr Hf Hk Hl Hr.
  set (P := fun (t : trans) (acc : list out) => t_type t = ICT /\ holds complete_request t /\
     ((t_state t = ICT_COMPLETED \/ t_state t = ICT_TERMINATED) -> exists x, In x acc /\ is_outcome x = true)).
  assert (H : P t ([] ++ concat tr)).
  { refine (run_trace_inv P (fun x => api_event (snd x) /\ complete_event (snd x)) _ l t0 t tr [] _ Hl Hr).
    - intros e ev t1 r t2 o acc (H1 & H2 & H3) (Ha & Hc) H4. cbn [snd] in Ha, Hc.
      unfold P. split; [apply execute_identity in H4; destruct H4 as (_ & -> & _); auto|].
      split; [eapply exec_holds; eauto; apply complete_ok; auto|].
      intros Hst.
      assert (Hex : (exists x, In x (filter is_ict_report o) /\ is_outcome x = true) \/
                    t_state t1 = ICT_COMPLETED \/ t_state t1 = ICT_TERMINATED).
      { pose proof (exec_ict_reports _ _ _ _ _ _ H1 H4) as Hx. cbv zeta in Hx.
        destruct Hx as [(Hx1 & Hx2)|Hx]; [rewrite Hx2 in Hst; auto|].
        assert (Hno : ~ ack_impossible t1 ev).
        { intros (_ & Hs & Het & m & x & Hm & Hx' & Hn). specialize (Hc x Hx'). rewrite Het in Hc.
          assert (exists m, t_orig t1 = Some m /\ complete_request (mc m)) as (m' & Hm' & HP)
            by (unfold holds in H2; destruct Hs as [Hs|Hs]; rewrite Hs in H2; auto).
          rewrite Hm' in Hm. injection Hm as <-. destruct (create_ack_some _ _ HP Hc) as (a & Hack). congruence. }
        destruct (t_state t1); auto; try contradiction.
        - destruct Hx as [(_ & Hx)|(k & i & -> & _)]; [rewrite Hx in Hst; destruct Hst; discriminate|].
          left. exists (OTpErr k i). simpl. auto.
        - destruct Hx as [(x & _ & _ & Hx)|[(x & -> & Hx & _)|[(x & -> & Hx & _)|(_ & _ & Hx)]]];
            try contradiction; [rewrite Hx in Hst; destruct Hst; discriminate| |];
            left; exists x; simpl; split; auto; unfold is_outcome; rewrite Hx; auto.
        - destruct Hx as [(x & _ & _ & Hx)|[(x & -> & Hx & _)|[(x & -> & Hx & _)|(_ & _ & Hx)]]];
            try contradiction; [rewrite Hx in Hst; destruct Hst; discriminate| |];
            left; exists x; simpl; split; auto; unfold is_outcome; rewrite Hx; auto. }
      destruct Hex as [(x & Hx & Hox)|Hex].
      + exists x. apply filter_In in Hx. rewrite in_app_iff. tauto.
      + destruct (H3 Hex) as (x & Hx & Hox). exists x. rewrite in_app_iff. auto.
    - split; auto. split; [apply fresh_holds; auto|]. rewrite (fresh_state _ Hf), Hk. simpl. intros [?|?]; discriminate. }
  apply H.
Qed.

Theorem C09_outcome_when_over : forall t0 l t tr, fresh t0 -> t_type t0 = ICT ->
  Forall (fun x => api_event (snd x) /\ complete_event (snd x)) l -> run t0 l = Ok (t, tr) ->
  t_state t = ICT_TERMINATED -> exists x, In x (concat tr) /\ is_outcome x = true.
Proof. intros. eapply shape_outcome; eauto. Qed.

(** Without that condition it fails: a 486 without To ends the transaction and the application
    never hears of any outcome. *)
Theorem C09_outcome_when_over_needs_headers : exists t0 l t tr, fresh t0 /\ t_type t0 = ICT /\
  Forall (fun x => api_event (snd x)) l /\ run t0 l = Ok (t, tr) /\ t_state t = ICT_TERMINATED /\
  filter is_ict_report (concat tr) = [].
Proof.
  exists (ex_t ICT), [(ex_env 0, Ev SND_REQINVITE (Some (Msg 1 (ex_invite ($"UDP")))));
                      (ex_env 0, Ev RCV_STATUS_3456XX (Some (Msg 3 (no_to (ex_resp 486 ($"UDP"))))))].
  eexists _, _. split; [apply ex_t_fresh|]. split; [reflexivity|]. split.
  - repeat (apply Forall_cons; [cbn [snd]; api_ev|]); apply Forall_nil.
  - split; [vm_compute; reflexivity|]. split; reflexivity.
Qed.

Example C09_witness : exists t tr, run (ex_t ICT) ex_ict_run = Ok (t, tr) /\
  filter is_ict_report (concat tr) =
  [OCb ICT_STATUS_1XX_RECEIVED (Some (Msg 2 (ex_resp 180 ($"UDP"))));
   OCb ICT_STATUS_4XX_RECEIVED (Some (Msg 3 (ex_resp 486 ($"UDP"))));
   OCb ICT_STATUS_3456XX_RECEIVED_AGAIN (Some (Msg 4 (ex_resp 486 ($"UDP"))))].
Proof. eexists _, _. split; vm_compute; reflexivity. Qed.

(** * C10 *)

(** The request of a client INVITE transaction is an INVITE, and the ACK it keeps is an ACK. *)
Definition ict_methods (t : trans) : Prop :=
  (t_state t <> ICT_PRE_CALLING -> forall m, t_orig t = Some m -> is_method ($"ACK") (mc m) = false) /\
  (t_state t = ICT_COMPLETED -> forall m, t_ack t = Some m -> is_method ($"ACK") (mc m) = true).

Lemma api_invite_not_ack : forall ev m, api_event ev -> ev_type ev = SND_REQINVITE -> ev_sip ev = Some m ->
  is_method ($"ACK") (mc m) = false.
Proof.
  intros ev m Ha Ht Hm. destruct (api_event_msg ev Ha) as (x & Hx & Hy); [rewrite Ht; reflexivity|].
  rewrite Hm in Hx. injection Hx as <-. rewrite Ht in Hy. unfold incoming_type, outgoing_type in Hy.
  destruct Hy as [Hy|Hy].
  - repeat match type of Hy with context [if ?b then _ else _] => destruct b end; discriminate.
  - destruct (is_request (mc m)).
    + destruct (is_method ($"INVITE") (mc m)) eqn:Hi.
      * apply is_method_iff in Hi. destruct Hi as (H1 & H2).
        destruct (is_method ($"ACK") (mc m)) eqn:Hb; auto. apply is_method_iff in Hb. destruct Hb as (_ & Hb).
        rewrite H2 in Hb. discriminate.
      * destruct (is_method ($"ACK") (mc m)); discriminate.
    + repeat match type of Hy with context [if ?b then _ else _] => destruct b end; discriminate.
Qed.

Lemma create_ack_method : forall a b c, create_ack a b = Some c -> is_method ($"ACK") c = true.
Proof.
  intros a b c H. apply is_method_iff. unfold create_ack in H.
  repeat match type of H with
  | context [match ?x with _ => _ end] =>
      match x with context [match _ with _ => _ end] => fail 1 | _ => destruct x; try discriminate H end
  end; injection H as <-; auto.
Qed.

Lemma exec_ict_methods : forall e ev t r t' o, t_type t = ICT -> ict_methods t -> api_event ev ->
  execute e t ev = Ok (r, t', o) ->
  ict_methods t' /\
  (count is_ack_send o =
     (if (match t_state t with ICT_CALLING | ICT_PROCEEDING | ICT_COMPLETED => true | _ => false end)
         && etype_eqb (ev_type ev) RCV_STATUS_3456XX then 1 else 0)%nat \/
   (count is_ack_send o = 0%nat /\ ack_impossible t ev)) /\
  (forall m h p i, In (OSend m h p i) o -> is_method ($"ACK") (mc m) = true ->
     t_ack t' = Some m /\ (t_state t' = ICT_COMPLETED \/ t_state t' = ICT_TERMINATED)) /\
  (t_state t = ICT_COMPLETED -> t_ack t' = t_ack t).
Proof.
  intros e ev t r t' o Hk (HI1 & HI2) Ha H. apply execute_inv in H.
  destruct H as [(-> & Ho & Hn & _)|(h & Hin & Hh & _)].
  - split; [split; auto|]. split; [left|split; auto].
    + assert (Hc : count is_ack_send o = 0%nat) by (destruct Ho as [->| ->]; cnt). rewrite Hc.
      rewrite Hk in Hn. destruct (t_state t); try reflexivity; destruct (ev_type ev); try reflexivity; discriminate Hn.
    + intros m h p i Hi. exfalso. destruct Ho as [->| ->]; [destruct Hi|].
      apply in_free_opt in Hi. destruct Hi as (y & Hy). discriminate.
  - rewrite Hk in Hin.
    assert (Hinv : forall m, ev_type ev = SND_REQINVITE -> ev_sip ev = Some m -> is_method ($"ACK") (mc m) = false)
      by (intros; eapply api_invite_not_ack; eauto).
    table_cases1 Hin; handler_cases Hh; injection Hh as <- <-; unfold ict_methods; proj; rewrite ?Hs in *; rewrite ?He in *.
    all: try pose proof (Hinv _ eq_refl eq_refl).
    all: try (assert (is_method ($"ACK") (mc _) = false) by (refine (HI1 _ _ eq_refl); discriminate)).
    all: try pose proof (HI2 eq_refl _ eq_refl).
    all: try match goal with H : create_ack _ _ = Some _ |- _ => pose proof (create_ack_method _ _ _ H) end.
    all: split; [split|split; [|split]].
    all: try (intros _ mm Hm; first [injection Hm as <-; assumption | apply HI1; [discriminate|congruence]]; fail).
    all: try (intros Hc mm Hm; first [discriminate Hc | injection Hm as <-; assumption | apply HI2; congruence]; fail).
    all: try (intros; first [discriminate | congruence]; fail).
    all: try (left; rewrite ?count_app, ?count_free_opt by reflexivity; unfold count; cbn [filter is_ack_send mc];
      repeat match goal with H : is_method _ _ = _ |- _ => rewrite H end; reflexivity).
    all: try (intros mm hh pp ii Hin Hack; in_cases Hin; try discriminate Hin; injection Hin as <- <- <- <-;
      first [congruence | split; [congruence|auto]]).
    all: right; split; [cnt | unfold ack_impossible; rewrite Hk, He; repeat split; eauto 10].
Qed.

Lemma run_ict_methods : forall t0 l t tr, fresh t0 -> t_type t0 = ICT ->
  Forall (fun x => api_event (snd x)) l -> run t0 l = Ok (t, tr) -> t_type t = ICT /\ ict_methods t.
Proof.
  intros t0 l t tr Hf Hk Hl Hr.
  refine (run_invariant (fun t => t_type t = ICT /\ ict_methods t) (fun x => api_event (snd x)) _ l t0 t tr _ Hl Hr).
  - intros e ev t1 r t2 o (H1 & H2) Ha He. split.
    + apply execute_identity in He. destruct He as (_ & -> & _). auto.
    + eapply exec_ict_methods; eauto.
  - split; auto. split; [rewrite (fresh_state _ Hf), Hk; simpl; congruence|].
    rewrite (fresh_state _ Hf), Hk. simpl. discriminate.
Qed.

(** RFC 3261 figure 5 has an edge for a 3xx-6xx answer out of this state: the answer is accepted. *)
Definition accepts_final (t : trans) (ev : event) : Prop :=
  ev_type ev = RCV_STATUS_3456XX /\ exists s1, figure ICT (rfc_state (t_state t)) L_3456xx s1.

Lemma accepts_final_iff : forall t ev, accepts_final t ev <->
  (match t_state t with ICT_CALLING | ICT_PROCEEDING | ICT_COMPLETED => true | _ => false end)
         && etype_eqb (ev_type ev) RCV_STATUS_3456XX = true.
Proof.
  intros. unfold accepts_final. rewrite andb_true_iff, etype_eqb_eq. split.
  - intros (H & s1 & H1). split; auto. destruct (t_state t); auto; inversion H1.
  - intros (H & H1). split; auto. destruct (t_state t); try discriminate; eexists; cbn; constructor.
Qed.

(** Each accepted 3xx-6xx answer, first copy or retransmission, makes the transaction send one
    ACK.  (Partial: the answer must carry From, To, Call-ID and CSeq, see C10_refuted.) *)
Theorem C10_ack_for_each_final_partial : forall t0 l t tr e ev r t' o, fresh t0 -> t_type t0 = ICT ->
  Forall (fun x => api_event (snd x) /\ complete_event (snd x)) l -> run t0 l = Ok (t, tr) ->
  api_event ev -> complete_event ev -> execute e t ev = Ok (r, t', o) ->
  accepts_final t ev -> count is_ack_send o = 1%nat.
Proof.
  intros t0 l t tr e ev r t' o Hf Hk Hl Hr Ha Hc He Hacc.
  assert (Hl' : Forall (fun x => api_event (snd x)) l) by (eapply Forall_impl; [|exact Hl]; simpl; tauto).
  destruct (run_ict_methods _ _ _ _ Hf Hk Hl' Hr) as (Hty & HM).
  destruct (exec_ict_methods _ _ _ _ _ _ Hty HM Ha He) as (_ & H & _).
  apply accepts_final_iff in Hacc. rewrite Hacc in H. destruct H as [H|(_ & H)]; auto. exfalso.
  destruct H as (_ & Hs & Het & m & x & Hm & Hx & Hn). specialize (Hc x Hx). rewrite Het in Hc.
  assert (Hh : holds complete_request t).
  { refine (run_holds _ _ _ _ _ Hf _ Hr). eapply Forall_impl; [|exact Hl]. intros y (H1 & H2). apply complete_ok; auto. }
  assert (exists m, t_orig t = Some m /\ complete_request (mc m)) as (m' & Hm' & HP)
    by (unfold holds in Hh; destruct Hs as [Hs|Hs]; rewrite Hs in Hh; auto).
  rewrite Hm' in Hm. injection Hm as <-. destruct (create_ack_some _ _ HP Hc) as (a & Hack). congruence.
Qed.

(** Nothing else makes it send an ACK, whatever the messages contain. *)
Theorem C10_no_other_ack : forall t0 l t tr e ev r t' o, fresh t0 -> t_type t0 = ICT ->
  Forall (fun x => api_event (snd x)) l -> run t0 l = Ok (t, tr) ->
  api_event ev -> execute e t ev = Ok (r, t', o) ->
  ~ accepts_final t ev -> count is_ack_send o = 0%nat.
Proof.
  intros t0 l t tr e ev r t' o Hf Hk Hl Hr Ha He Hacc.
  destruct (run_ict_methods _ _ _ _ Hf Hk Hl Hr) as (Hty & HM).
  destruct (exec_ict_methods _ _ _ _ _ _ Hty HM Ha He) as (_ & H & _).
  rewrite accepts_final_iff in Hacc. apply not_true_is_false in Hacc. rewrite Hacc in H.
  destruct H as [H|(H & _)]; auto.
Qed.

(** All the ACKs a transaction ever sends are one and the same message. *)
Theorem C10_same_ack : forall t0 l t tr m1 h1 p1 i1 m2 h2 p2 i2, fresh t0 -> t_type t0 = ICT ->
  Forall (fun x => api_event (snd x)) l -> run t0 l = Ok (t, tr) ->
  In (OSend m1 h1 p1 i1) (concat tr) -> In (OSend m2 h2 p2 i2) (concat tr) ->
  is_ack_send (OSend m1 h1 p1 i1) = true -> is_ack_send (OSend m2 h2 p2 i2) = true -> m1 = m2.
Proof.
  intros t0 l t tr m1 h1 p1 i1 m2 h2 p2 i2 Hf Hk Hl Hr.
  set (P := fun (t : trans) (acc : list out) => t_type t = ICT /\ typed t /\ ict_methods t /\
     forall m h p i, In (OSend m h p i) acc -> is_method ($"ACK") (mc m) = true ->
       t_ack t = Some m /\ (t_state t = ICT_COMPLETED \/ t_state t = ICT_TERMINATED)).
  assert (H : P t ([] ++ concat tr)).
  { refine (run_trace_inv P (fun x => api_event (snd x)) _ l t0 t tr [] _ Hl Hr).
    - intros e ev t1 r t2 o acc (H1 & H2 & H3 & H4) Ha He. cbn [snd] in Ha.
      assert (Hty : t_type t2 = ICT) by (apply execute_identity in He; destruct He as (_ & -> & _); auto).
      destruct (exec_ict_methods _ _ _ _ _ _ H1 H3 Ha He) as (G1 & _ & G2 & G3).
      pose proof (exec_typed _ _ _ _ _ _ H2 He) as Hty2.
      unfold P. repeat (split; auto). 
      + apply in_app_or in H. destruct H as [H|H]; [|eapply G2; eauto].
        destruct (H4 _ _ _ _ H H0) as (E1 & [E2|E2]).
        * rewrite G3; auto.
        * assert (termb (t_state t1) = true) by (rewrite E2; auto).
          destruct (exec_terminated _ _ _ _ _ _ He H5) as (-> & _). auto.
      + apply in_app_or in H. destruct H as [H|H]; [|eapply G2; eauto].
        destruct (H4 _ _ _ _ H H0) as (E1 & E2).
        pose proof (exec_rank _ _ _ _ _ _ He) as Hrk. unfold typed in Hty2. rewrite Hty in Hty2.
        destruct E2 as [E2|E2]; rewrite E2 in Hrk; cbn [rank] in Hrk;
          destruct (t_state t2); try discriminate; auto; cbn [rank] in Hrk; lia.
    - split; auto. split; [apply fresh_typed; auto|]. split.
      + split; rewrite (fresh_state _ Hf), Hk; simpl; [congruence|discriminate].
      + intros m h p i []. }
  destruct H as (_ & _ & _ & H). simpl in H. intros E1 E2 F1 F2.
  destruct (H _ _ _ _ E1 F1) as (G1 & _). destruct (H _ _ _ _ E2 F2) as (G2 & _). congruence.
Qed.

Example C10_witness : exists t tr, run (ex_t ICT) (firstn 5 ex_ict_run) = Ok (t, tr) /\
  map (count is_ack_send) tr = [0; 0; 0; 1; 1]%nat.
Proof. eexists _, _. split; [vm_compute; reflexivity|]. reflexivity. Qed.

(** The full claim ("every answer content") fails: a 486 without To is never acknowledged. *)
Theorem C10_refuted : exists t0 l t tr e ev r t' o, fresh t0 /\ t_type t0 = ICT /\
  Forall (fun x => api_event (snd x)) l /\ run t0 l = Ok (t, tr) /\ api_event ev /\
  execute e t ev = Ok (r, t', o) /\ accepts_final t ev /\ count is_ack_send o = 0%nat.
Proof.
  exists (ex_t ICT), [(ex_env 0, Ev SND_REQINVITE (Some (Msg 1 (ex_invite ($"UDP")))))].
  eexists _, _, (ex_env 0), (Ev RCV_STATUS_3456XX (Some (Msg 3 (no_to (ex_resp 486 ($"UDP")))))), _, _, _.
  split; [apply ex_t_fresh|]. split; [reflexivity|]. split.
  - constructor; [cbn [snd]; api_ev | constructor].
  - split; [vm_compute; reflexivity|]. split; [api_ev|].
    split; [vm_compute; reflexivity|]. split; [|reflexivity].
    split; [reflexivity|]. exists ICT_COMPLETED. cbn. constructor.
Qed.

Print Assumptions C09_one_outcome.
Print Assumptions C09_answers_are_reported.
Print Assumptions C09_outcome_when_over.
Print Assumptions C09_outcome_when_over_needs_headers.
Print Assumptions C10_ack_for_each_final_partial.
Print Assumptions C10_no_other_ack.
Print Assumptions C10_same_ack.
Print Assumptions C10_refuted.

(** Property C54: message ownership. *)
From Coq Require Import String ZArith Ascii Bool List Lia ZifyBool ZifyNat Permutation.
From Verif Require Import Base Str StrLemmas Types TimeModel PortModel CloneModel CloneProofs TransModel TransSpec TransProofs TransSteps TransProps.
Import ListNotations.
Open Scope Z_scope.

(** * C54 *)

(** Whatever the application and the network feed to a new transaction, no handler ever
    dereferences a missing message: every event executes. *)
Theorem C54_no_missing_message : forall t0 l, fresh t0 -> Forall (fun x => api_event (snd x)) l ->
  exists t tr, run t0 l = Ok (t, tr).
Proof.
  intros t0 l Hf. assert (HI := fresh_holds (fun _ => True) _ Hf). clear Hf. revert t0 HI.
  induction l as [|[e ev] l]; intros t0 HI Hl; [simpl; eauto|].
  inversion Hl; subst. cbn [snd] in H1.
  destruct (exec_total _ e ev t0 HI H1) as (r & t1 & o & He).
  assert (HI1 : holds (fun _ => True) t1).
  { eapply exec_holds; eauto. split; auto. intros m _. destruct (ev_type ev); auto. }
  destruct (IHl t1 HI1 H2) as (t & tr & Hr). exists t, (o :: tr). simpl. rewrite He. simpl. rewrite Hr. auto.
Qed.

Lemma frees_app : forall a b, frees (a ++ b) = frees a ++ frees b.
Proof. intros. unfold frees. rewrite flat_map_app. auto. Qed.

Lemma frees_free_opt : forall m, frees (free_opt m) = opt_mid m.
Proof. destruct m; reflexivity. Qed.

(** Slots that must be empty in a state *)
Definition slots (t : trans) : Prop :=
  match t_state t with
  | ICT_PRE_CALLING => t_orig t = None /\ t_last t = None /\ t_ack t = None
  | ICT_CALLING => t_last t = None /\ t_ack t = None
  | ICT_PROCEEDING => t_ack t = None
  | NICT_PRE_TRYING | NIST_PRE_TRYING => t_orig t = None
  | IST_PRE_PROCEEDING => t_orig t = None /\ t_ack t = None
  | _ => True
  end.

Lemma fresh_slots : forall t, fresh t -> slots t.
Proof.
  intros t H. destruct (fresh_nomsg _ H) as (H1 & H2 & H3). unfold slots. rewrite (fresh_state _ H).
  destruct (t_type t); simpl; auto.
Qed.

Lemma exec_slots : forall e ev t r t' o, slots t -> execute e t ev = Ok (r, t', o) -> slots t'.
Proof.
  intros e ev t r t' o HI H. apply execute_inv in H.
  destruct H as [(-> & Ho & _)|(h0 & Ht & Hh & _)]; auto.
  unfold slots in *.
  table_cases Ht; rewrite Hs in HI; handler_cases Hh; injection Hh as <- <-; proj; rewrite ?Hs; auto; tauto.
Qed.

Definition new_of (e : env) (b : bool) : list nat := if b then [e_fresh e] else [].

Lemma exec_stray_out : forall e ev t r t' o, api_event ev ->
  lookup (table (t_type t)) (t_state t) (ev_type ev) = None -> execute e t ev = Ok (r, t', o) ->
  o = free_opt (ev_sip ev).
Proof.
  intros e ev t r t' o Ha Hn H. destruct (evt_is_msg (ev_type ev)) eqn:Em.
  - unfold execute in H. destruct (ev_type ev); try discriminate Em; rewrite Hn in H; injection H as <- <- <-; auto.
  - destruct (api_event_nomsg _ Ha Em) as (E & _). apply execute_inv in H.
    destruct H as [(_ & [->| ->] & _)|(h & Hin & _)]; [rewrite E; auto | auto |].
    exfalso. clear -Hn Hin. revert Hn. table_cases Hin; rewrite Hs, He; discriminate.
Qed.

(** Permutations of concatenations, by counting occurrences. *)
Lemma perm_count : forall l l' : list nat,
  (forall x, count_occ Nat.eq_dec l x = count_occ Nat.eq_dec l' x) -> Permutation l l'.
Proof. intros. apply (Permutation_count_occ Nat.eq_dec). auto. Qed.

Lemma count_cons : forall a l x,
  count_occ Nat.eq_dec (a :: l) x = (count_occ Nat.eq_dec [a] x + count_occ Nat.eq_dec l x)%nat.
Proof. intros. simpl. destruct (Nat.eq_dec a x); auto. Qed.

Ltac perm_solve :=
  apply perm_count; intros ?y;
  repeat (rewrite count_occ_app ||
          match goal with |- context [count_occ Nat.eq_dec (?a :: ?l) ?x] =>
            match l with [] => fail 1 | _ => rewrite (count_cons a l) end end);
  cbn [count_occ]; lia.

(** One event moves messages between "held" and "freed" and loses none. *)
Lemma exec_balance : forall e ev t r t' o, slots t -> api_event ev -> execute e t ev = Ok (r, t', o) ->
  exists b, Permutation (frees o ++ held t') (held t ++ opt_mid (ev_sip ev) ++ new_of e b).
Proof.
  intros e ev t r t' o HI Ha H. pose proof H as H'. apply execute_inv in H.
  destruct H as [(-> & Ho & Hn & Hk)|(h0 & Ht & Hh & _)].
  - exists false. simpl. rewrite app_nil_r. rewrite (exec_stray_out _ _ _ _ _ _ Ha Hn H'), frees_free_opt.
    apply Permutation_app_comm.
  - clear H'. unfold slots in HI. unfold held.
    assert (Hm : evt_is_msg (ev_type ev) = false -> ev_sip ev = None)
      by (intros Hm; apply (api_event_nomsg _ Ha Hm)).
    table_cases Ht; rewrite Hs in HI; rewrite He in Hm; cbn in Hm; handler_cases Hh; injection Hh as <- <-; proj.
    all: try (rewrite (Hm eq_refl)); clear Hm.
    all: rewrite ?frees_app, ?frees_free_opt; cbn [frees flat_map app opt_mid].
    all: repeat match goal with H : _ /\ _ |- _ => destruct H end.
    all: repeat match goal with
         | H : t_orig _ = _ |- _ => rewrite H | H : t_last _ = _ |- _ => rewrite H
         | H : t_ack _ = _ |- _ => rewrite H end; cbn [opt_mid app].
    all: solve [ exists false; cbn [new_of]; perm_solve | exists true; cbn [new_of mid]; perm_solve ].
Qed.

Lemma uses_ok_sub : forall o F F', (forall x, In x F' -> In x F) -> uses_ok F o -> uses_ok F' o.
Proof.
  induction o as [|[m h p r|c [m|]|k r|k|m] o]; simpl; intros F F' Hi H; eauto.
  - destruct H. split; eauto.
  - destruct H. split; eauto.
  - destruct H as (H1 & H2). split; eauto. eapply IHo; [|exact H2]. simpl. intros x [->|Hx]; auto.
Qed.

Lemma uses_ok_app : forall a b F, uses_ok F a -> uses_ok (frees a ++ F) b -> uses_ok F (a ++ b).
Proof.
  induction a as [|[m h p r|c [m|]|k r|k|m] a]; simpl; intros b F H1 H2; auto;
    try (destruct H1; split; auto).
  apply IHa; auto. eapply uses_ok_sub; [|exact H2]. simpl. intros x Hx. rewrite in_app_iff in *. simpl in *. tauto.
Qed.

(** One event uses and frees only live messages. *)
Lemma exec_uses : forall e ev t r t' o F, slots t -> api_event ev ->
  NoDup (held t ++ opt_mid (ev_sip ev) ++ e_fresh e :: F) -> execute e t ev = Ok (r, t', o) -> uses_ok F o.
Proof.
  intros e ev t r t' o F HI Ha Hnd H. pose proof H as H'. apply execute_inv in H.
  destruct H as [(-> & Ho & Hn & Hk)|(h0 & Ht & Hh & _)].
  - rewrite (exec_stray_out _ _ _ _ _ _ Ha Hn H'). destruct (ev_sip ev) as [m|]; simpl; auto.
    split; auto. intros HF. apply NoDup_remove_2 in Hnd. apply Hnd. rewrite in_app_iff. simpl. auto.
  - clear H'. unfold slots in HI. unfold held in Hnd.
    assert (Hm : evt_is_msg (ev_type ev) = false -> ev_sip ev = None)
      by (intros Hm; apply (api_event_nomsg _ Ha Hm)).
    table_cases Ht; rewrite Hs in HI; rewrite He in Hm; cbn in Hm; handler_cases Hh; injection Hh as <- <-; proj.
    all: try (rewrite (Hm eq_refl)); clear Hm.
    all: repeat match goal with H : _ /\ _ |- _ => destruct H end.
    all: repeat match goal with
         | H : t_orig _ = _ |- _ => first [rewrite H in Hnd | rewrite H]
         | H : t_last _ = _ |- _ => first [rewrite H in Hnd | rewrite H]
         | H : t_ack _ = _ |- _ => first [rewrite H in Hnd | rewrite H]
         | H : ev_sip _ = _ |- _ => first [rewrite H in Hnd | rewrite H] end.
    all: repeat match goal with
         | |- context [free_opt (t_last ?x)] => destruct (t_last x) eqn:?
         | |- context [free_opt (t_ack ?x)] => destruct (t_ack x) eqn:?
         | |- context [OCb _ ?x] => is_var x; destruct x eqn:?
         | |- context [OCb _ (t_orig ?x)] => destruct (t_orig x) eqn:? end.
    all: cbn [free_opt app uses_ok].
    all: repeat match goal with H : context [opt_mid ?x] |- _ =>
           match x with Some _ => fail 1 | None => fail 1 | _ => destruct x eqn:? end end.
    all: clear -Hnd; cbn [opt_mid app mid] in Hnd |- *; repeat rewrite NoDup_cons_iff in Hnd; cbn [In] in Hnd |- *.
    all: clear -Hnd; repeat match goal with H : _ /\ _ |- _ => destruct H end.
    all: repeat match goal with |- _ /\ _ => split end; auto.
    all: let HX := fresh "HX" in intros HX; cbn [In] in HX;
         repeat match type of HX with _ \/ _ => destruct HX as [HX|HX] end; try contradiction;
         match goal with A : ~ _ |- False =>
           apply A; clear -HX; solve [auto 10 | rewrite HX; auto 10 | rewrite <- HX; auto 10] end.
Qed.

(** The messages an event list brings: those handed over with the events, and the address a
    message created by the handler would get. *)
Definition brought (x : env * event) : list nat := opt_mid (ev_sip (snd x)) ++ [e_fresh (fst x)].
Definition handed (x : env * event) : list nat := opt_mid (ev_sip (snd x)).

Lemma nodup_l : forall l l' : list nat, NoDup (l ++ l') -> NoDup l.
Proof.
  induction l; simpl; intros; [constructor|]. inversion H; subst. constructor; eauto.
  intros Hc. apply H2. rewrite in_app_iff. auto.
Qed.

Lemma nodup_r : forall l l' : list nat, NoDup (l ++ l') -> NoDup l'.
Proof. induction l; simpl; intros; auto. inversion H; subst. auto. Qed.

Lemma run_own : forall l t t' tr F, slots t -> Forall (fun x => api_event (snd x)) l ->
  NoDup (held t ++ F ++ flat_map brought l) -> run t l = Ok (t', tr) ->
  uses_ok F (concat tr) /\ NoDup (frees (concat tr) ++ held t' ++ F) /\
  (forall x, In x (held t ++ flat_map handed l) -> In x (frees (concat tr) ++ held t')) /\
  (forall x, In x (frees (concat tr) ++ held t') -> In x (held t ++ flat_map brought l)).
Proof.
  induction l as [|[e ev] l]; intros t t' tr F HI Hl Hnd Hr.
  - simpl in Hr. injection Hr as <- <-. simpl in *. rewrite !app_nil_r in *. auto.
  - apply run_cons in Hr. destruct Hr as (r & t1 & o & tr1 & H1 & H2 & ->). cbn [concat].
    inversion Hl; subst. cbn [snd] in H3.
    destruct (exec_balance _ _ _ _ _ _ HI H3 H1) as (b & Hb).
    cbn [flat_map] in *. change (brought (e, ev)) with (opt_mid (ev_sip ev) ++ [e_fresh e]) in *.
    change (handed (e, ev)) with (opt_mid (ev_sip ev)) in *.
    set (B := flat_map brought l) in *. set (Hd := flat_map handed l) in *.
    assert (Hu : uses_ok F o).
    { eapply (exec_uses e ev t r t1 o F); eauto.
      apply (Permutation_NoDup (l' := (held t ++ opt_mid (ev_sip ev) ++ e_fresh e :: F) ++ B)) in Hnd as Hnd'.
      - apply nodup_l in Hnd'. auto.
      - perm_solve. }
    assert (Hn1 : NoDup (held t1 ++ (frees o ++ F) ++ B)).
    { destruct b; cbn [new_of] in Hb.
      - apply (Permutation_NoDup (l := held t ++ F ++ (opt_mid (ev_sip ev) ++ [e_fresh e]) ++ B)); auto.
        assert (Hq : Permutation ((held t ++ opt_mid (ev_sip ev) ++ [e_fresh e]) ++ F ++ B)
                       ((frees o ++ held t1) ++ F ++ B)) by (apply Permutation_app_tail; symmetry; auto).
        transitivity ((held t ++ opt_mid (ev_sip ev) ++ [e_fresh e]) ++ F ++ B); [perm_solve|].
        rewrite Hq. perm_solve.
      - assert (Hn2 : NoDup ((held t ++ opt_mid (ev_sip ev) ++ []) ++ F ++ B)).
        { apply (Permutation_NoDup (l' := [e_fresh e] ++ (held t ++ opt_mid (ev_sip ev) ++ []) ++ F ++ B)) in Hnd;
            [|perm_solve]. apply nodup_r in Hnd. auto. }
        apply (Permutation_NoDup (l' := (frees o ++ held t1) ++ F ++ B)) in Hn2;
          [|apply Permutation_app_tail; symmetry; auto].
        eapply Permutation_NoDup; [|exact Hn2]. perm_solve. }
    pose proof (exec_slots _ _ _ _ _ _ HI H1) as HI1.
    destruct (IHl t1 t' tr1 (frees o ++ F) HI1 H4 Hn1 H2) as (G1 & G2 & G3 & G4).
    rewrite frees_app. split; [apply uses_ok_app; auto|]. split; [|split].
    + eapply Permutation_NoDup; [|exact G2]. perm_solve.
    + intros x Hx. assert (Hin : In x (frees o ++ held t1) \/ In x Hd).
      { rewrite !in_app_iff in Hx. destruct Hx as [Hx|[Hx|Hx]]; auto; left;
          apply (Permutation_in x (Permutation_sym Hb)); rewrite !in_app_iff; auto. }
      rewrite !in_app_iff in *. destruct Hin as [[?|?]|?]; auto;
        (assert (In x (frees (concat tr1) ++ held t')) by (apply G3; rewrite in_app_iff; auto);
         rewrite in_app_iff in *; tauto).
    + intros x Hx. assert (Hin : In x (frees o ++ held t1) \/ In x B).
      { rewrite !in_app_iff in *. destruct Hx as [[Hx|Hx]|Hx]; auto;
          (assert (In x (held t1 ++ B)) by (apply G4; rewrite in_app_iff; auto); rewrite in_app_iff in *; tauto). }
      destruct Hin as [Hin|Hin].
      * apply (Permutation_in x Hb) in Hin. rewrite !in_app_iff in *.
        destruct Hin as [?|[?|Hn]]; auto. destruct b; simpl in *; tauto.
      * rewrite !in_app_iff. auto.
Qed.

(** Every message handed to a transaction, and every ACK it builds, has its own address.  Then
    whatever the events and their order, no message is sent, reported or freed after it was
    freed; none is freed twice; none freed is still held; and each message handed over is, at any
    later point, either freed or still held (and osip_transaction_free then frees it once). *)
Theorem C54_ownership : forall t0 l t tr, fresh t0 -> Forall (fun x => api_event (snd x)) l ->
  NoDup (flat_map brought l) -> run t0 l = Ok (t, tr) ->
  uses_ok [] (concat tr) /\ NoDup (frees (concat tr) ++ held t) /\
  (forall x, In x (flat_map handed l) -> In x (frees (concat tr) ++ held t)) /\
  (forall x, In x (frees (concat tr) ++ held t) -> In x (flat_map brought l)).
Proof.
  intros t0 l t tr Hf Hl Hnd Hr. destruct (fresh_nomsg _ Hf) as (E1 & E2 & E3).
  assert (Eh : held t0 = []) by (unfold held; rewrite E1, E2, E3; auto).
  destruct (run_own l t0 t tr [] (fresh_slots _ Hf) Hl) as (G1 & G2 & G3 & G4); auto.
  { rewrite Eh. auto. }
  rewrite Eh in *. rewrite app_nil_r in G2. auto.
Qed.

Definition ex_own_run : list (env * event) :=
  [ (mkEnv (TV 1 0) 0 101, Ev SND_REQINVITE (Some (Msg 1 (ex_invite ($"UDP")))));
    (mkEnv (TV 1 0) 0 102, Ev RCV_STATUS_1XX (Some (Msg 2 (ex_resp 180 ($"UDP")))));
    (mkEnv (TV 1 0) 0 103, Ev RCV_STATUS_3456XX (Some (Msg 3 (ex_resp 486 ($"UDP")))));
    (mkEnv (TV 1 0) 0 104, Ev RCV_STATUS_3456XX (Some (Msg 4 (ex_resp 486 ($"UDP"))))) ].

Example C54_witness : exists t tr, run (ex_t ICT) ex_own_run = Ok (t, tr) /\
  NoDup (flat_map brought ex_own_run) /\ frees (concat tr) = [2; 4]%nat /\ held t = [1; 3; 103]%nat.
Proof.
  eexists _, _. split; [vm_compute; reflexivity|]. split; [|split; reflexivity].
  vm_compute. repeat (constructor; [simpl; intuition discriminate|]). constructor.
Qed.

Print Assumptions C54_no_missing_message.
Print Assumptions C54_ownership.

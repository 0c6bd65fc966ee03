(** Lemmas on single transactions. *)
From Coq Require Import String ZArith Ascii Bool List Lia ZifyBool ZifyNat.
From Verif Require Import Base Str StrLemmas Types TimeModel PortModel CloneModel TransModel TransSpec.
Import ListNotations.
Open Scope Z_scope.

Lemma state_eqb_eq : forall a b, state_eqb a b = true <-> a = b.
Proof. intros a b; split; intros H; [|subst; destruct b; reflexivity]. destruct a, b; (reflexivity || discriminate H). Qed.

Lemma etype_eqb_eq : forall a b, etype_eqb a b = true <-> a = b.
Proof. intros a b; split; intros H; [|subst; destruct b; reflexivity]. destruct a, b; (reflexivity || discriminate H). Qed.

Lemma lookup_in : forall tbl s e h, lookup tbl s e = Some h -> In (s, e, h) tbl.
Proof.
  unfold lookup. intros. destruct (find _ tbl) as [[[s0 e0] h0]|] eqn:Hf; try discriminate.
  injection H as <-. apply find_some in Hf. destruct Hf as (Hin & Hb). simpl in Hb.
  apply andb_true_iff in Hb. destruct Hb as (H1 & H2). apply state_eqb_eq in H1. apply etype_eqb_eq in H2.
  subst. auto.
Qed.

(** Case analysis of one executed event: either nothing happened, or one table entry applied. *)
Lemma execute_inv : forall e t ev r t' o, execute e t ev = Ok (r, t', o) ->
  (t' = t /\ (o = [] \/ o = free_opt (ev_sip ev)) /\ lookup (table (t_type t)) (t_state t) (ev_type ev) = None
     /\ (ev_type ev = KILL_TRANSACTION <-> r = 0)) \/
  (exists h, In (t_state t, ev_type ev, h) (table (t_type t)) /\ h e t ev = Ok (t', o) /\ r = 1 /\ ev_type ev <> KILL_TRANSACTION).
Proof.
  intros e t ev r t' o H. unfold execute in H.
  assert (HK : ev_type ev = KILL_TRANSACTION -> lookup (table (t_type t)) (t_state t) (ev_type ev) = None).
  { intros ->. destruct (t_type t), (t_state t); reflexivity. }
  assert (Hd : ev_type ev = KILL_TRANSACTION /\ H = H \/ ev_type ev <> KILL_TRANSACTION)
    by (destruct (ev_type ev); auto; right; discriminate).
  destruct Hd as [(Hk & _)|Hk].
  - left. rewrite (HK Hk). rewrite Hk in *. injection H as <- <- <-. repeat split; auto.
  - assert (H' : match lookup (table (t_type t)) (t_state t) (ev_type ev) with
                 | Some h => do r <- h e t ev ; Ok (1, fst r, snd r)
                 | None => Ok (1, t, if evt_is_msg (ev_type ev) then free_opt (ev_sip ev) else [])
                 end = Ok (r, t', o)) by (destruct (ev_type ev); auto; congruence).
    clear H. destruct (lookup (table (t_type t)) (t_state t) (ev_type ev)) eqn:Hl.
    + right. exists h. apply lookup_in in Hl. unfold res_bind in H'.
      destruct (h e t ev) as [[t1 o1]|c|] eqn:Hh; try discriminate. injection H' as <- <- <-. auto.
    + left. injection H' as <- <- <-. split; auto. split; [destruct (evt_is_msg (ev_type ev)); auto|].
      split; auto. split; intros; [congruence|discriminate].
Qed.

Ltac split_in H :=
  simpl in H; repeat (destruct H as [H|H]; [injection H as <- <- <-|]); try contradiction.

Ltac table_cases H :=
  let Hk := fresh "Hk" in let Hs := fresh "Hs" in let He := fresh "He" in
  match type of H with In (?s, ?e, ?h) (table ?k) =>
    destruct k eqn:Hk; cbn [table] in H;
    unfold ict_table, ist_table, nict_table, nist_table in H; cbn [In] in H;
    repeat (destruct H as [H|H]; [injection H as Hs He <-|]); try contradiction;
    try (symmetry in Hs); try (symmetry in He)
  end.

(** Evaluate projections of updated transactions. *)
Ltac proj := cbn [t_id t_type t_state t_orig t_last t_ack t_dest t_port t_topvia t_from t_to t_cid t_cseq
                  set_state set_orig set_last set_ack set_dest set_len set_start start_timer stop_timer].

Ltac inv H := inversion H; subst; clear H.

(** Unfold the handlers and split every conditional they contain. *)
Ltac handler_cases H :=
  unfold ict_snd_invite, ict_timeout_a, ict_timeout_b, ict_rcv_1xx, ict_rcv_2xx, ict_rcv_3456xx,
    ict_timeout_d, ict_retransmit_ack, ist_rcv_invite, ist_timeout_g, ist_timeout_h, ist_timeout_i,
    ist_snd_1xx, ist_snd_2xx, ist_snd_3456xx, ist_rcv_ack, nict_snd_request, nict_timeout_e,
    nict_timeout_f, nict_timeout_k, nict_rcv_1xx, nict_rcv_23456xx, nist_rcv_request, nist_snd_1xx,
    nist_snd_23456xx, nist_timeout_j, tp_error, snd_xxx in H;
  cbv zeta in H;
  cbn [t_id t_type t_state t_orig t_last t_ack t_dest t_port set_state set_orig set_last set_ack set_dest
       set_len set_start start_timer stop_timer] in H;
  repeat match goal with
  | Hs : t_state ?t = _ |- _ => rewrite Hs in H
  | Hs : ev_type ?t = _ |- _ => rewrite Hs in H
  end;
  cbn [is_ict_completed is_ist_preproceeding is_ist_completed is_nict_trying is_nict_completed
       is_nist_pretrying is_nist_completed] in H; cbv iota in H;
  repeat match type of H with
  | context [match ?x with _ => _ end] =>
      match x with
      | context [match _ with _ => _ end] => fail 1
      | _ => destruct x eqn:?; try discriminate H
      end
  end.

(** run decomposes *)
Lemma run_app : forall l1 l2 t t2 tr, run t (l1 ++ l2) = Ok (t2, tr) ->
  exists t1 tr1 tr2, run t l1 = Ok (t1, tr1) /\ run t1 l2 = Ok (t2, tr2) /\ tr = tr1 ++ tr2.
Proof.
  induction l1 as [|[e ev] l1]; simpl; intros.
  - exists t, [], tr. auto.
  - destruct (execute e t ev) as [[[r t1] o]|c|] eqn:He; simpl in H; try discriminate.
    destruct (run t1 (l1 ++ l2)) as [[t3 tr3]|c|] eqn:Hr; simpl in H; try discriminate.
    injection H as <- <-. apply IHl1 in Hr. destruct Hr as (ta & tra & trb & H1 & H2 & H3).
    exists ta, (o :: tra), trb. simpl. rewrite H1. simpl. subst. auto.
Qed.

Lemma run_cons : forall e ev l t t2 tr, run t ((e, ev) :: l) = Ok (t2, tr) ->
  exists r t1 o tr1, execute e t ev = Ok (r, t1, o) /\ run t1 l = Ok (t2, tr1) /\ tr = o :: tr1.
Proof.
  simpl. intros. destruct (execute e t ev) as [[[r t1] o]|c|] eqn:He; simpl in H; try discriminate.
  destruct (run t1 l) as [[t3 tr3]|c|] eqn:Hr; simpl in H; try discriminate.
  injection H as <- <-. exists r, t1, o, tr3. auto.
Qed.

(** Induction principle: an invariant of single steps holds along a run. *)
Lemma run_invariant : forall (P : trans -> Prop) (Q : env * event -> Prop),
  (forall e ev t r t' o, P t -> Q (e, ev) -> execute e t ev = Ok (r, t', o) -> P t') ->
  forall l t t' tr, P t -> Forall Q l -> run t l = Ok (t', tr) -> P t'.
Proof.
  intros P Q Hstep. induction l as [|[e ev] l]; intros.
  - simpl in H1. injection H1 as <- <-. auto.
  - apply run_cons in H1. destruct H1 as (r & t1 & o & tr1 & H1 & H2 & ->).
    inversion H0; subst. eauto.
Qed.

Lemma count_app : forall A (f : A -> bool) a b, count f (a ++ b) = (count f a + count f b)%nat.
Proof. intros. unfold count. rewrite filter_app, app_length. auto. Qed.

Lemma count_free_opt : forall f m, (forall x, f (OFree x) = false) -> count f (free_opt m) = 0%nat.
Proof. intros. destruct m; unfold count; simpl; auto. rewrite H. auto. Qed.

(** The kind of a transaction never changes; id, matching fields neither. *)
Definition same_identity (t t' : trans) : Prop :=
  t_id t' = t_id t /\ t_type t' = t_type t /\ t_topvia t' = t_topvia t /\ t_from t' = t_from t /\
  t_to t' = t_to t /\ t_cid t' = t_cid t /\ t_cseq t' = t_cseq t.

Lemma same_identity_refl : forall t, same_identity t t.
Proof. unfold same_identity. tauto. Qed.

Lemma execute_identity : forall e t ev r t' o, execute e t ev = Ok (r, t', o) -> same_identity t t'.
Proof.
  intros. apply execute_inv in H. destruct H as [(-> & _)|(h & Hin & Hh & _)]; [apply same_identity_refl|].
  table_cases Hin; handler_cases Hh; injection Hh as <- <-; repeat split.
Qed.

Definition termb (s : state) : bool :=
  match s with ICT_TERMINATED | IST_TERMINATED | NICT_TERMINATED | NIST_TERMINATED => true | _ => false end.

Lemma termb_iff : forall s, termb s = true <-> terminated s.
Proof. unfold terminated. destruct s; simpl; split; intros; try discriminate; auto; intuition discriminate. Qed.

Lemma lookup_term : forall t ty, termb (t_state t) = true -> lookup (table (t_type t)) (t_state t) ty = None.
Proof. intros. destruct (t_state t); try discriminate; destruct (t_type t), ty; reflexivity. Qed.

Lemma invisible_free_opt : forall m, filter visible (free_opt m) = [].
Proof. destruct m; reflexivity. Qed.

Lemma exec_terminated : forall e t ev r t' o, execute e t ev = Ok (r, t', o) -> termb (t_state t) = true ->
  t' = t /\ filter visible o = [].
Proof.
  intros. pose proof (lookup_term t (ev_type ev) H0). apply execute_inv in H.
  destruct H as [(-> & Ho & _)|(h & Hin & _)].
  - split; auto. destruct Ho as [->| ->]; auto using invisible_free_opt.
  - exfalso. destruct (t_state t) eqn:Hs; try discriminate; table_cases Hin; discriminate.
Qed.

Ltac cnt := repeat rewrite ?count_app, ?count_free_opt by (intros; reflexivity); try reflexivity.

Lemma exec_kill : forall e t ev r t' o, execute e t ev = Ok (r, t', o) ->
  count is_kill o = (if termb (t_state t') && negb (termb (t_state t)) then 1 else 0)%nat.
Proof.
  intros. apply execute_inv in H. destruct H as [(-> & Ho & _)|(h & Hin & Hh & _)].
  - rewrite andb_negb_r. destruct Ho as [->| ->]; cnt.
  - table_cases Hin; handler_cases Hh; injection Hh as <- <-; proj; cnt; rewrite Hs; cnt.
Qed.

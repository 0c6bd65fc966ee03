(** C26: retransmissions of 2xx answers and of their ACKs outside transactions. *)
From Coq Require Import String ZArith Ascii Bool List Lia ZifyBool.
From Verif Require Import Base Str StrLemmas Types TimeModel TimeProps PortModel CloneModel CloneProofs TransModel TransSpec
  DialogModel MatchModel StackModel TransProofs TransSteps TransProps DialogProps StackProps2.
Import ListNotations.
Open Scope Z_scope.

(** * Specification *)

(** What a user knows about a running retransmission: the dialog and message it was started with,
    whether the message is an ACK, when it was started (microseconds), how often it was sent since,
    and where to. *)
Record rtx := Rtx { r_dialog : nat; r_msg : message; r_is_ack : bool; r_start : Z; r_sent : nat;
                    r_dest : option str; r_port : Z }.

(** Delay between start and the n-th retransmission: 510 ms, then the gaps double from 1 s up to 4 s. *)
Fixpoint due_ms (n : nat) : Z :=
  match n with O => 510 | S k => due_ms k + Z.min (500 * 2 ^ Z.of_nat (S k)) 4000 end.
Definition due (r : rtx) (now : timeval) : bool := r_start r + 1000 * due_ms (r_sent r) <? usecs now.
Definition sent_once_more (r : rtx) : rtx :=
  Rtx (r_dialog r) (r_msg r) (r_is_ack r) (r_start r) (S (r_sent r)) (r_dest r) (r_port r).

(** The ACK [ack] ends the retransmission [r] of a 2xx: same CSeq number, and it matches the dialog. *)
Definition ends (dlg : nat -> dialog) (ack : message) (r : rtx) : Prop :=
  r_is_ack r = false /\ (exists n, cseq_number (r_msg r) = Some n /\ cseq_number ack = Some n) /\
  match_as_uas (dlg (r_dialog r)) ack = Ok OSIP_SUCCESS.

Definition is_ixt_op (a : op) : bool :=
  match a with OpStart2xx _ _ _ | OpStartAck _ _ _ _ _ | OpStop2xx _ _ | OpStopDialog _ | OpRetransmit _ => true | _ => false end.

Inductive rstep : list rtx -> op -> opres -> list rtx -> Prop :=
| RStart2xx : forall l now d m,
    rstep l (OpStart2xx now d m) RUnit
      (Rtx d m false (usecs now) 0 (fst (response_get_destination m)) (snd (response_get_destination m)) :: l)
| RStartAck : forall l now d m dest port,
    rstep l (OpStartAck now d m dest port) RUnit (Rtx d m true (usecs now) 0 dest port :: l)
| RStopHit : forall l1 r l2 dlg ack, ends dlg ack r -> (forall x, In x l1 -> ~ ends dlg ack x) ->
    rstep (l1 ++ r :: l2) (OpStop2xx dlg ack) (RDialog (Some (r_dialog r))) (l1 ++ l2)
| RStopNone : forall l dlg ack, (forall x, In x l -> ~ ends dlg ack x) ->
    rstep l (OpStop2xx dlg ack) (RDialog None) l
| RStopDialog : forall l d,
    rstep l (OpStopDialog d) RUnit (filter (fun r => negb (Nat.eqb (r_dialog r) d)) l)
| RPoll : forall l now,
    rstep l (OpRetransmit now)
      (RSent (flat_map (fun r => if due r now then [XSend (r_msg r) (r_dest r) (r_port r)] else []) l))
      (filter (fun r => (r_sent r <? 10)%nat) (map (fun r => if due r now then sent_once_more r else r) l))
| ROther : forall l a o, is_ixt_op a = false -> rstep l a o l.

Inductive rsteps : list rtx -> list op -> list opres -> list rtx -> Prop :=
| RNil : forall l, rsteps l [] [] l
| RCons : forall l a o l1 h os l2, rstep l a o l1 -> rsteps l1 h os l2 -> rsteps l (a :: h) (o :: os) l2.

(** Messages are complete enough to be copied, clock readings are normal. *)
Definition ixt_op_ok (a : op) : Prop :=
  match a with
  | OpStart2xx now _ m => tv_ok now /\ msg_clone m = Ok m
  | OpStartAck now _ m _ _ => tv_ok now /\ msg_clone m = Ok m
  | OpRetransmit now => tv_ok now
  | _ => True
  end.

(** * Proofs *)

Definition ival (n : nat) : Z := Z.min (500 * 2 ^ Z.of_nat n) 4000.

Lemma ival_next : forall n, (if ival n * 2 >? T2 then T2 else ival n * 2) = ival (S n).
Proof.
  intros n. unfold ival, T2. rewrite Nat2Z.inj_succ, Z.pow_succ_r by lia.
  assert (0 < 2 ^ Z.of_nat n) by (apply Z.pow_pos_nonneg; lia).
  destruct (Z.gtb_spec (Z.min (500 * 2 ^ Z.of_nat n) 4000 * 2) 4000); lia.
Qed.

Lemma ival_small : forall n, 0 <= ival n < 1000000.
Proof. intros n. unfold ival. assert (0 < 2 ^ Z.of_nat n) by (apply Z.pow_pos_nonneg; lia). lia. Qed.

(** The model's entry for a retransmission *)
Definition rel (x : ixt) (r : rtx) : Prop :=
  ix_dialog x = r_dialog r /\
  (if r_is_ack r then ix_ack x = Some (r_msg r) /\ ix_2xx x = None else ix_ack x = None /\ ix_2xx x = Some (r_msg r)) /\
  tv_ok (ix_start x) /\ usecs (ix_start x) = r_start r + 1000 * due_ms (r_sent r) /\
  ix_interval x = ival (r_sent r) /\ ix_counter x = 10 - Z.of_nat (r_sent r) /\ (r_sent r < 10)%nat /\
  ix_dest x = r_dest r /\ ix_port x = r_port r.

Definition rel1 (x : ixt) (r : rtx) : Prop :=
  ix_dialog x = r_dialog r /\
  (if r_is_ack r then ix_ack x = Some (r_msg r) /\ ix_2xx x = None else ix_ack x = None /\ ix_2xx x = Some (r_msg r)) /\
  tv_ok (ix_start x) /\ usecs (ix_start x) = r_start r + 1000 * due_ms (r_sent r) /\
  ix_interval x = ival (r_sent r) /\ ix_counter x = 10 - Z.of_nat (r_sent r) /\
  ix_dest x = r_dest r /\ ix_port x = r_port r.

Lemma retransmit_rel : forall now x r, tv_ok now -> rel x r ->
  rel1 (fst (ixt_retransmit now x)) (if due r now then sent_once_more r else r) /\
  snd (ixt_retransmit now x) = (if due r now then [XSend (r_msg r) (r_dest r) (r_port r)] else []).
Proof.
  intros now x r Hn (R1 & R2 & R3 & R4 & R5 & R6 & R7 & R8 & R9). unfold ixt_retransmit, due.
  rewrite usecs_gt, R4 by auto. destruct (r_start r + 1000 * due_ms (r_sent r) <? usecs now) eqn:E.
  - cbn [fst snd]. rewrite R5, ival_next. pose proof (ival_small (S (r_sent r))) as I.
    destruct (add_exact (ix_start x) (ival (S (r_sent r))) R3 I) as (A1 & A2). split.
    + repeat split; cbn [ix_dialog ix_ack ix_2xx ix_start ix_interval ix_counter ix_dest ix_port sent_once_more r_dialog r_is_ack r_msg r_start r_sent r_dest r_port]; auto; try apply A1.
      * rewrite A2, R4. cbn [due_ms]. fold (ival (S (r_sent r))). lia.
      * lia.
    + rewrite R8, R9. destruct (r_is_ack r); destruct R2 as (Ra & Rb); rewrite Ra, ?Rb; reflexivity.
  - cbn [fst snd]. split; auto. repeat split; auto; apply R3.
Qed.

Lemma loop_rel : forall now, tv_ok now -> forall xs l, Forall2 rel xs l ->
  Forall2 rel (fst (ixt_loop now xs)) (filter (fun r => (r_sent r <? 10)%nat) (map (fun r => if due r now then sent_once_more r else r) l)) /\
  snd (ixt_loop now xs) = flat_map (fun r => if due r now then [XSend (r_msg r) (r_dest r) (r_port r)] else []) l.
Proof.
  intros now Hn xs l H. induction H as [|x r xs l Hx Hl IH]; [cbn; auto|]. cbn [ixt_loop map filter flat_map fst snd].
  destruct (retransmit_rel now x r Hn Hx) as (R & S). destruct IH as (I1 & I2). rewrite S, I2. split; auto.
  set (r' := if due r now then sent_once_more r else r) in *. destruct R as (R1 & R2 & R3 & R4 & R5 & R6 & R7 & R8).
  assert (B : (r_sent r' <= 10)%nat).
  { unfold r'. destruct Hx as (_ & _ & _ & _ & _ & _ & B & _). destruct (due r now); cbn; lia. }
  rewrite R6. destruct (Nat.ltb_spec (r_sent r') 10).
  - replace (10 - Z.of_nat (r_sent r') =? 0) with false by lia. constructor; auto. repeat split; auto; apply R3.
  - replace (10 - Z.of_nat (r_sent r') =? 0) with true by lia. auto.
Qed.

Lemma stop_rel : forall dlg ack n, cseq_number ack = Some n -> forall xs l, Forall2 rel xs l ->
  forall o xs', stop_loop dlg ack n xs = Ok (o, xs') ->
  exists l', Forall2 rel xs' l' /\ rstep l (OpStop2xx dlg ack) (RDialog o) l'.
Proof.
  intros dlg ack n Hack xs l H. induction H as [|x r xs l Hx Hl IH]; intros o xs' E; cbn [stop_loop] in E.
  - injection E as <- <-. exists []. split; [constructor|]. apply RStopNone. intros ? [].
  - assert (Next : ~ ends dlg ack r -> (do q <- stop_loop dlg ack n xs ; Ok (fst q, x :: snd q)) = Ok (o, xs') ->
      exists l', Forall2 rel xs' l' /\ rstep (r :: l) (OpStop2xx dlg ack) (RDialog o) l').
    { intros Hne En. destruct (stop_loop dlg ack n xs) as [[o1 xs1]|c|] eqn:E1; cbn in En; try discriminate. injection En as -> <-.
      destruct (IH _ _ eq_refl) as (l' & I1 & I2). inversion I2 as [| |l1 r0 l2 dlg0 ack0 He Hf|l0 dlg0 ack0 Hf| | |? ? ? Hop]; subst; [| |discriminate].
      - exists (r :: l1 ++ l2). split; [constructor; auto|].
        change (r :: l1 ++ r0 :: l2) with ((r :: l1) ++ r0 :: l2). change (r :: l1 ++ l2) with ((r :: l1) ++ l2).
        apply RStopHit; auto. intros y [<-|Hy]; auto.
      - exists (r :: l'). split; [constructor; auto|]. apply RStopNone. intros y [<-|Hy]; auto. }
    destruct Hx as (R1 & R2 & R3). destruct (r_is_ack r) eqn:Ea.
    { destruct R2 as (Ra & Rb). rewrite Rb in E. apply Next; auto. intros (F & _). congruence. }
    destruct R2 as (Ra & Rb). rewrite Rb in E. destruct (cseq_number (r_msg r)) as [n2|] eqn:En.
    2:{ apply Next; auto. intros (_ & (k & Hk & _) & _). congruence. }
    rewrite R1 in E. destruct (match_as_uas (dlg (r_dialog r)) ack) as [i|c|] eqn:Em; cbn [res_bind] in E; try discriminate.
    destruct ((i =? 0) && streq n2 n) eqn:Eb.
    + apply andb_true_iff in Eb. destruct Eb as (B1 & B2). apply Z.eqb_eq in B1. subst i.
      destruct (streq_spec n2 n) as [Q|]; [subst n2|discriminate]. injection E as <- <-. exists l. split; auto.
      apply (RStopHit [] r l); [|intros ? []]. repeat split; eauto.
    + apply Next; auto. intros (_ & (k & K1 & K2) & K3). rewrite Em in K3. injection K3 as ->.
      rewrite En in K1. rewrite Hack in K2. injection K1 as ->. injection K2 as ->.
      destruct (streq_spec k k); [|congruence]. discriminate.
Qed.

Lemma tab_ixt : forall s k l, o_ixt (set_tab s k l) = o_ixt s. Proof. reflexivity. Qed.

Lemma step_ixt_other : forall s a o s', step s a = Ok (o, s') -> is_ixt_op a = false -> o_ixt s' = o_ixt s.
Proof.
  intros s a o s' H Ha. destruct a; try discriminate; cbn [step] in H.
  - unfold create_transaction, register in H.
    repeat match type of H with
    | context[match ?x with _ => _ end] => destruct x; cbn [res_bind fst snd] in H; try discriminate
    end; injection H as _ <-; reflexivity.
  - unfold remove_transaction in H. injection H as _ <-.
    repeat match goal with |- context[match ?x with _ => _ end] => destruct x end; reflexivity.
  - injection H as _ <-. unfold add_event. reflexivity.
  - unfold find_and_add, res_bind in H. destruct (ev_sip ev) as [m|]; [|injection H as _ <-; reflexivity].
    destruct (find_table ev (mc m)) as [[k|]|c|]; try discriminate; [|injection H as _ <-; reflexivity].
    destruct (find_index (matches ev txid (mc m)) (o_tab s k)) as [[i|]|c|]; try discriminate; injection H as _ <-; reflexivity.
  - injection H as _ <-. reflexivity.
  - unfold work, res_bind in H.
    destruct (work_list _ _) as [r|c|] eqn:W; cbn [fst snd] in H; try discriminate. injection H as _ <-. reflexivity.
Qed.

Lemma clone_or_null_ok : forall m, msg_clone m = Ok m -> clone_or_null m = Some m.
Proof. intros m H. unfold clone_or_null. rewrite H. reflexivity. Qed.

Lemma init_rel : forall now d m a, tv_ok now -> forall dest,
  rel (ixt_init now d (if a : bool then None else Some m) (if a then Some m else None) dest) (Rtx d m a (usecs now) 0 (fst dest) (snd dest)).
Proof.
  intros now d m a Hn dest. unfold ixt_init, rel. cbn [ix_dialog ix_ack ix_2xx ix_start ix_interval ix_counter ix_dest ix_port r_dialog r_is_ack r_msg r_start r_sent r_dest r_port].
  destruct (add_exact now (T1 + 10) Hn) as (A1 & A2); [unfold T1; lia|]. rewrite A2.
  repeat split; auto; try apply A1; try lia; destruct a; auto.
Qed.

Lemma step_rel : forall s a o s' l, step s a = Ok (o, s') -> ixt_op_ok a -> Forall2 rel (o_ixt s) l ->
  exists l', rstep l a o l' /\ Forall2 rel (o_ixt s') l'.
Proof.
  intros s a o s' l H Ha Hl. destruct (is_ixt_op a) eqn:Ei.
  2:{ exists l. rewrite (step_ixt_other _ _ _ _ H Ei). split; auto. apply ROther; auto. }
  destruct a; try discriminate; cbn [step] in H; cbn [ixt_op_ok] in Ha.
  - injection H as <- <-. eexists. split; [constructor|]. cbn [o_ixt start_200ok set_ixt]. constructor; auto.
    destruct Ha as (Ha & Hc). rewrite clone_or_null_ok by auto. apply (init_rel now d m false Ha).
  - injection H as <- <-. eexists. split; [constructor|]. cbn [o_ixt start_ack set_ixt]. constructor; auto.
    destruct Ha as (Ha & Hc). rewrite clone_or_null_ok by auto. apply (init_rel now d m true Ha (dest, port)).
  - unfold stop_200ok in H. destruct (cseq_number ack) as [n|] eqn:En.
    + destruct (stop_loop dlg ack n (o_ixt s)) as [[o1 xs1]|c|] eqn:E; cbn in H; try discriminate. injection H as <- <-.
      destruct (stop_rel _ _ _ En _ _ Hl _ _ E) as (l' & L1 & L2). exists l'. auto.
    + cbn in H. injection H as <- <-. exists l. split; auto. apply RStopNone. intros x _ (_ & (n & _ & F) & _). congruence.
  - injection H as <- <-. eexists. split; [constructor|]. cbn [o_ixt stop_from_dialog set_ixt].
    clear Ha Ei. induction Hl as [|x r xs l Hx Hl IH]; cbn; [constructor|]. destruct Hx as (R1 & R2). rewrite R1.
    destruct (Nat.eqb (r_dialog r) d); cbn; auto. constructor; auto. split; auto.
  - injection H as <- <-. unfold retransmissions_execute. cbn [fst snd set_ixt o_ixt].
    destruct (loop_rel now Ha _ _ Hl) as (L1 & ->). eexists. split; [constructor|]. exact L1.
Qed.

(** Over any history of calls, mixed with all other calls of the stack, exactly the retransmissions
    of the specification are sent, each to its destination and at the first poll after it is due. *)
Theorem C26_refines : forall h os s, steps osip_init h = Ok (os, s) -> Forall ixt_op_ok h -> exists l, rsteps [] h os l.
Proof.
  assert (K : forall h s0 l0 os s, steps s0 h = Ok (os, s) -> Forall ixt_op_ok h -> Forall2 rel (o_ixt s0) l0 ->
    exists l, rsteps l0 h os l); [|intros; eapply K; eauto; constructor].
  induction h as [|a h]; intros s0 l0 os s H Hh Hl; cbn [steps] in H.
  - injection H as <- <-. eexists. constructor.
  - destruct (step s0 a) as [[o s1]|c|] eqn:E; cbn [res_bind fst snd] in H; try discriminate.
    destruct (steps s1 h) as [[os1 s2]|c|] eqn:E2; cbn [res_bind fst snd] in H; try discriminate. injection H as <- <-.
    inversion Hh; subst. destruct (step_rel _ _ _ _ _ E H1 Hl) as (l1 & S1 & S2).
    destruct (IHh _ _ _ _ E2 H2 S2) as (l2 & S3). eexists. econstructor; eauto.
Qed.

(** Each retransmission runs as if it were alone: what [r] sends at each of the polls [ps] *)
Fixpoint alone (r : rtx) (ps : list timeval) : list (list xsend) :=
  match ps with
  | [] => []
  | p :: ps' => if (r_sent r <? 10)%nat && due r p
                then [XSend (r_msg r) (r_dest r) (r_port r)] :: alone (sent_once_more r) ps'
                else [] :: alone r ps'
  end.

Lemma alone_over : forall ps r k, (10 <= r_sent r)%nat -> nth k (alone r ps) [] = [].
Proof.
  induction ps as [|p ps]; intros r k H; cbn [alone]; [destruct k; auto|].
  replace (r_sent r <? 10)%nat with false by lia. cbn [andb]. destruct k; cbn; auto.
Qed.

Theorem C26_alone : forall ps l os l', (forall r, In r l -> (r_sent r < 10)%nat) ->
  rsteps l (map OpRetransmit ps) os l' ->
  os = map (fun k => RSent (flat_map (fun r => nth k (alone r ps) []) l)) (seq 0 (length ps)).
Proof.
  induction ps as [|p ps]; intros l os l' Hl H; cbn [map] in H; inversion H as [|? ? ? ? ? ? ? S1 S2]; subst; [reflexivity|].
  inversion S1 as [| | | | | |? ? ? F]; subst; [|discriminate F]. cbn [length seq map]. f_equal.
  - f_equal. clear -Hl. induction l as [|r l IH]; [reflexivity|]. cbn [flat_map]. rewrite IH by (intros; apply Hl; right; auto). f_equal.
    cbn [alone]. assert (r_sent r < 10)%nat by (apply Hl; left; auto). replace (r_sent r <? 10)%nat with true by lia.
    destruct (due r p); reflexivity.
  - rewrite <- seq_shift, map_map. apply IHps in S2; [|intros r Hr; apply filter_In in Hr; lia]. rewrite S2.
    apply map_ext_in. intros k _. f_equal. clear -Hl. induction l as [|r l IH]; [reflexivity|]. cbn [map filter flat_map].
    rewrite <- IH by (intros; apply Hl; right; auto).
    assert (Hr : (r_sent r < 10)%nat) by (apply Hl; left; auto). cbn [alone]. replace (r_sent r <? 10)%nat with true by lia.
    destruct (due r p); cbn [andb nth].
    + destruct (Nat.ltb_spec (r_sent (sent_once_more r)) 10); [reflexivity|]. rewrite (alone_over ps (sent_once_more r)) by lia. reflexivity.
    + replace (r_sent r <? 10)%nat with true by lia. reflexivity.
Qed.

(** At most ten transmissions, each of them late enough: the n-th (counting from 0) not before
    start + due_ms n, and not twice at one poll. *)
Theorem C26_bounded : forall ps r, (length (concat (alone r ps)) <= 10 - r_sent r)%nat.
Proof.
  induction ps as [|p ps]; intros r; cbn [alone]; [cbn; lia|].
  destruct ((r_sent r <? 10)%nat && due r p) eqn:E; cbn [concat app length].
  - specialize (IHps (sent_once_more r)). cbn [sent_once_more r_sent] in IHps. lia.
  - apply IHps.
Qed.

Theorem C26_not_early : forall ps r k, (nth k (alone r ps) [] <> []) ->
  exists p, nth_error ps k = Some p /\
    r_start r + 1000 * due_ms (r_sent r + length (concat (firstn k (alone r ps)))) < usecs p.
Proof.
  induction ps as [|p ps]; intros r k H; cbn [alone] in *; [destruct k; cbn in H; congruence|].
  destruct ((r_sent r <? 10)%nat && due r p) eqn:E; destruct k as [|k]; cbn [nth firstn concat app length nth_error] in *.
  - exists p. split; auto. apply andb_true_iff in E. destruct E as (_ & E). unfold due in E. rewrite Nat.add_0_r. lia.
  - destruct (IHps _ _ H) as (q & Q1 & Q2). exists q. split; auto. cbn [sent_once_more r_start r_sent] in Q2.
    replace (r_sent r + S (length (concat (firstn k (alone (sent_once_more r) ps)))))%nat
      with (S (r_sent r) + length (concat (firstn k (alone (sent_once_more r) ps))))%nat by lia. exact Q2.
  - congruence.
  - destruct (IHps _ _ H) as (q & Q1 & Q2). exists q. auto.
Qed.

(** Nothing is omitted: a poll after the due time of the next transmission sends it. *)
Theorem C26_not_omitted : forall ps r k p, nth_error ps k = Some p ->
  (r_sent r + length (concat (firstn k (alone r ps))) < 10)%nat ->
  r_start r + 1000 * due_ms (r_sent r + length (concat (firstn k (alone r ps)))) < usecs p ->
  nth k (alone r ps) [] = [XSend (r_msg r) (r_dest r) (r_port r)].
Proof.
  induction ps as [|q ps]; intros r k p H Hc Hd; [destruct k; discriminate|]. cbn [alone] in *.
  destruct ((r_sent r <? 10)%nat && due r q) eqn:E; destruct k as [|k]; cbn [nth firstn concat app length nth_error] in *.
  - reflexivity.
  - rewrite (IHps (sent_once_more r) k p); auto; cbn [sent_once_more r_start r_sent].
    + lia.
    + replace (S (r_sent r) + length (concat (firstn k (alone (sent_once_more r) ps))))%nat
        with (r_sent r + S (length (concat (firstn k (alone (sent_once_more r) ps)))))%nat by lia. exact Hd.
  - exfalso. injection H as ->. rewrite Nat.add_0_r in *. unfold due in E. lia.
  - eapply IHps; eauto.
Qed.

(** A 2xx answer in dialog 7, retransmitted at the second poll, then acknowledged *)
Definition ex_2xx : message :=
  mkMsg (Some ($"SIP/2.0")) None None 200 None [] [] [] [] [] [] []
        (Some ex_cid) [] [] [] None None (Some (mkCSeq (Some ($"INVITE")) (Some ($"2")))) [] (Some ex_from) None
        [] [] [] [] [] (Some (mkNA None (Some ex_uri) [($"tag", Some ($"b2"))])) [ex_via ($"UDP")] [] [] [].
Definition ex_dlg : dialog :=
  match init_as_uas (ex_invite ($"UDP")) ex_2xx with Ok d => d | _ => mkDlg None None None None [] 0 0 None None None CALLEE DIALOG_EARLY end.

Example C26_witness : exists s h,
  h = [OpStart2xx (TV 10 0) 7%nat ex_2xx; OpRetransmit (TV 10 500000); OpRetransmit (TV 10 510001); OpRetransmit (TV 11 510000);
       OpRetransmit (TV 11 510001); OpStop2xx (fun _ => ex_dlg) (ex_bye ($"b2")); OpRetransmit (TV 60 0)] /\
  Forall ixt_op_ok h /\
  steps osip_init h = Ok ([RUnit; RSent []; RSent [XSend ex_2xx (Some ($"10.0.0.1")) 5070]; RSent [];
    RSent [XSend ex_2xx (Some ($"10.0.0.1")) 5070]; RDialog (Some 7%nat); RSent []], s).
Proof.
  eexists _, _. split; [reflexivity|]. split.
  - repeat constructor; unfold tv_ok; cbn; try lia; vm_compute; reflexivity.
  - vm_compute. reflexivity.
Qed.

Print Assumptions C26_refines.
Print Assumptions C26_alone.
Print Assumptions C26_bounded.
Print Assumptions C26_not_early.
Print Assumptions C26_not_omitted.

(** C67: osip_message_to_str gives the text of the message as it is now, although it keeps the text
    of an earlier call. *)
From Coq Require Import String ZArith NArith Ascii Bool List Lia ZifyBool ZifyNat.
From Verif Require Import Base Str Types MemModel CString UriModel HdrModel MsgFields MsgModel MsgPrint CloneModel CloneProofs CacheModel.
Import ListNotations.
Open Scope Z_scope.

(** what a printing function answers for a message without a cached text *)
Definition current (frag : bool) (m : message) : res answer :=
  match message_to_str frag m with Ok t => Ok (Text t) | Err c => Ok (Code c) | UB => UB end.
(** what it answers now *)
Definition answers (frag : bool) (s : cmsg) : res answer := match step (Print frag true) s with Ok (_, a) => Ok a | Err c => Err c | UB => UB end.

Definition line_op (o : op) : Prop := match o with SetMethod _ | SetVersion _ | SetUri _ | SetStatus _ | SetReason _ => True | _ => False end.
(** the histories the property is proved for: one of the two printing functions is used, memory does not
    run out while printing, a text with a NUL byte is not cached when the message is cloned, and after a
    print the start line is only changed together with a call of osip_message_force_update *)
Definition careful (frag : bool) (s : cmsg) (o : op) : Prop :=
  match o with
  | Print f room => f = frag /\ room = true
  | Clone => c_prop s = 1 -> forall t, c_text s = Some t -> ~ In NUL t
  | SetMethod _ | SetVersion _ | SetUri _ | SetStatus _ | SetReason _ => c_prop s <> 1
  | _ => True
  end.
Inductive history (frag : bool) : cmsg -> Prop :=
| h_new : forall m p, p = 2 \/ p = 3 -> history frag (new m p)
| h_call : forall s o s' a, history frag s -> careful frag s o -> step o s = Ok (s', a) -> history frag s'
| h_line : forall s o s1 a s' b, history frag s -> line_op o -> step o s = Ok (s1, a) -> step ForceUpdate s1 = Ok (s', b) -> history frag s'.

Definition up_to_date (frag : bool) (s : cmsg) : Prop :=
  c_prop s = 1 -> exists t, message_to_str frag (c_msg s) = Ok t /\ c_text s = Some t /\ c_len s = slen t.

Lemma until_nul_id : forall t, ~ In NUL t -> until_nul t = t.
Proof.
  induction t as [|c t IH]; intros H; [reflexivity|]. cbn. destruct (Ascii.eqb c NUL) eqn:E; [apply Ascii.eqb_eq in E; subst; exfalso; apply H; left; reflexivity|].
  f_equal. apply IH. intros I. apply H. right. exact I.
Qed.
Lemma untouched : forall k m v m', setter_of k m v = Ok m' -> touches k m v true = false -> m' = m.
Proof.
  intros k m v m' H T. destruct k; cbn [setter_of touches] in *; destruct v as [[|c v]|]; cbn [no_value negb andb] in T; try discriminate T;
    repeat match type of H with ?f _ _ = _ => unfold f in H end; cbn [if_value] in H; try congruence; try (destruct (m_content_type m); cbn in *; congruence);
    match type of H with if_unset ?x _ _ = _ => destruct x; cbn in *; congruence end.
Qed.
Lemma dirty_ok : forall frag s m, up_to_date frag (dirty s m).
Proof. intros frag s m H. cbn in H. discriminate. Qed.
Lemma step_ok : forall frag s o s' a, up_to_date frag s -> careful frag s o -> step o s = Ok (s', a) -> up_to_date frag s'.
Proof.
  intros frag s o s' a U C H. destruct o; cbn [step careful] in *;
    try (injection H as <- <-; intros P; cbn in P; congruence);
    try (injection H as <- <-; apply dirty_ok);
    try (unfold updating in H; match type of H with match ?r with _ => _ end = _ => destruct r; try discriminate H; injection H as <- <-; [apply dirty_ok|exact U] end).
  - destruct (setter_of k (c_msg s) v) as [m'|c|] eqn:E; try discriminate H; injection H as <- <-.
    + destruct (touches k (c_msg s) v true) eqn:T; [apply dirty_ok|]. rewrite (untouched _ _ _ _ E T). exact U.
    + destruct (touches k (c_msg s) v false); [apply dirty_ok|exact U].
  - destruct C as (-> & ->). unfold print in H. destruct (c_prop s =? 1) eqn:P.
    + destruct (fetch s); cbn [res_bind] in H; try discriminate H. injection H as <- <-. exact U.
    + destruct (message_to_str frag (c_msg s)) as [t|c|] eqn:E; try discriminate H; injection H as <- <-.
      * intros _. exists t. cbn. repeat split; auto. destruct (m_bodies (c_msg s)); reflexivity.
      * intros Q. cbn in Q. lia.
  - unfold clone in H. destruct (msg_clone (c_msg s)) as [m|c|] eqn:E; try discriminate H; injection H as <- <-; [|exact U].
    apply msg_clone_ok in E. subst m. intros P. cbn in *. destruct (U P) as (t & T & X & L). exists t. rewrite X in *. cbn. rewrite until_nul_id; [auto|]. exact (C P t eq_refl).
Qed.
Lemma up_to_date_now : forall frag s, history frag s -> up_to_date frag s.
Proof.
  intros frag s H. induction H as [m p D|s o s' a H IH C S|s o s1 a s' b H IH L S F].
  - intros P. cbn in P. lia.
  - exact (step_ok _ _ _ _ _ IH C S).
  - cbn in F. injection F as <- <-. apply dirty_ok.
Qed.

(** Printing after any such history answers what printing the present content answers. *)
Theorem C67_print_current_partial : forall frag s, history frag s -> answers frag s = current frag (c_msg s).
Proof.
  intros frag s H. pose proof (up_to_date_now _ _ H) as U. unfold answers, current. cbn [step]. unfold print. destruct (c_prop s =? 1) eqn:P.
  - destruct (U ltac:(lia)) as (t & T & X & L). rewrite T. unfold fetch. rewrite X, L. unfold rd_range, slen. rewrite app_length. cbn [length].
    destruct ((0 <? 0) || (Z.of_nat (length t) <? 0) || (Z.of_nat (length t + 1) <? 0 + Z.of_nat (length t))) eqn:Q; [lia|]. cbn [res_bind].
    rewrite Nat2Z.id. cbn [Z.to_nat skipn]. rewrite firstn_app, firstn_all, Nat.sub_diag. cbn. rewrite app_nil_r. reflexivity.
  - destruct (message_to_str frag (c_msg s)); reflexivity.
Qed.
(** osip_message_get__property answers 1 only if the cached text is the text of the message *)
Theorem C67_property_partial : forall frag s, history frag s -> c_prop s = 1 ->
  exists t, message_to_str frag (c_msg s) = Ok t /\ c_text s = Some t /\ c_len s = slen t.
Proof. intros frag s H. exact (up_to_date_now _ _ H). Qed.
(** osip_message_force_update makes the next print current in any state *)
Theorem C67_force_update : forall frag s s' a, step ForceUpdate s = Ok (s', a) -> answers frag s' = current frag (c_msg s') /\ c_msg s' = c_msg s.
Proof.
  intros frag s s' a H. cbn in H. injection H as <- <-. split; [|reflexivity]. unfold answers, current. cbn [step]. unfold print, dirty. cbn [c_prop c_msg]. change (2 =? 1) with false. cbv iota. destruct (message_to_str frag (c_msg s)); reflexivity.
Qed.
(** Printing never changes the message itself, and printing twice gives the same text *)
Theorem C67_print_keeps_content : forall frag room s s' a, step (Print frag room) s = Ok (s', a) -> c_msg s' = c_msg s.
Proof.
  intros frag room s s' a H. cbn [step] in H. unfold print in H. destruct (c_prop s =? 1); [destruct (fetch s); try discriminate H; injection H as <- <-; reflexivity|].
  destruct (message_to_str frag (c_msg s)); try discriminate H; injection H as <- <-; reflexivity.
Qed.

(** a small request *)
Definition request : message := with_method (Some $"INVITE") (with_version (Some $"SIP/2.0") (with_uri (Some (mkUri (Some $"sip") None None (Some $"h") None [] [] None)) msg_init)).
Definition request_text : list ascii := $"INVITE sip:h SIP/2.0" ++ CRLF ++ $"Content-Length: 0" ++ CRLF ++ CRLF.
Definition printed : cmsg := mkC request 1 (Some request_text) (slen request_text).
Example request_printed : step (Print false true) (new request 2) = Ok (printed, Text request_text).
Proof. vm_compute. reflexivity. Qed.
(** printed, a header added, printed, cloned, a header replaced: the text shows the last header *)
Definition calls : list op := [Print false true; SetHeader $"Subject" (Some $"a"); Print false true; Clone; ReplaceHeader $"subject" (Some $"b"); Set_ CallId (Some $"1@h")].
Fixpoint calls_run (l : list op) (s : cmsg) : res cmsg := match l with [] => Ok s | o :: l => match step o s with Ok (s', _) => calls_run l s' | Err c => Err c | UB => UB end end.
Lemma run_history : forall frag l s, history frag s -> (forall l1 o l2 s1, l = l1 ++ o :: l2 -> calls_run l1 s = Ok s1 -> careful frag s1 o) -> forall s', calls_run l s = Ok s' -> history frag s'.
Proof.
  intros frag. induction l as [|o l IH]; intros s H C s' R; cbn in R; [injection R as <-; exact H|]. destruct (step o s) as [[s1 a]|c|] eqn:E; try discriminate R.
  apply (IH s1); [exact (h_call frag s o s1 a H (C [] o l s eq_refl eq_refl) E)| |exact R].
  intros l1 p l2 s2 -> Q. apply (C (o :: l1) p l2 s2 eq_refl). cbn. rewrite E. exact Q.
Qed.
Definition after (l : list op) : cmsg := match calls_run l (new request 2) with Ok s => s | _ => new request 2 end.
Definition ok_run (l : list op) : bool := match calls_run l (new request 2) with Ok _ => true | _ => false end.
Lemma after_ok : forall l, ok_run l = true -> calls_run l (new request 2) = Ok (after l).
Proof. intros l H. unfold ok_run, after in *. destruct (calls_run l (new request 2)); congruence. Qed.
Lemma ok_inj : forall A (x y : A), Ok x = Ok y -> x = y.
Proof. intros A x y H. injection H. auto. Qed.
Definition has_nul (x : option (list ascii)) : bool := match x with Some t => existsb (Ascii.eqb NUL) t | None => false end.
Lemma no_nul : forall x, has_nul x = false -> forall t, x = Some t -> ~ In NUL t.
Proof.
  intros x H t -> I. cbn in H. assert (E : existsb (Ascii.eqb NUL) t = true) by (apply existsb_exists; exists NUL; split; [exact I|reflexivity]). rewrite E in H. discriminate H.
Qed.
Example C67_example : calls_run calls (new request 2) = Ok (after calls) /\ history false (after calls) /\
  answers false (after calls) = Ok (Text ($"INVITE sip:h SIP/2.0" ++ CRLF ++ $"Call-ID: 1@h" ++ CRLF ++ $"Subject: b" ++ CRLF ++ $"Content-Length: 0" ++ CRLF ++ CRLF)).
Proof.
  assert (E : calls_run calls (new request 2) = Ok (after calls)) by (apply after_ok; vm_compute; reflexivity).
  split; [exact E|]. split; [|vm_compute; reflexivity].
  apply (run_history false calls (new request 2)); [apply h_new; left; reflexivity| |exact E]. clear E.
  intros l1 o l2 s1 E R. unfold calls in E.
  do 6 (try (destruct l1 as [|q l1]; [injection E as <- <-; cbn [careful]; auto|injection E as <- E])).
  2:{ destruct l1; discriminate E. }
  intros _. apply no_nul. rewrite after_ok in R by (vm_compute; reflexivity). apply ok_inj in R. subst s1. vm_compute. reflexivity.
Qed.

(** Findings. *)
(** After a print, the functions that change the start line leave the old text in use: all five of them *)
Theorem C67_start_line_refuted : forall o, In o [SetMethod (Some $"ACK"); SetVersion (Some $"SIP/3.0"); SetUri None; SetReason (Some $"x"); SetStatus 200] ->
  exists s, step o printed = Ok (s, Code OSIP_SUCCESS) /\ answers false s = Ok (Text request_text).
Proof. intros o I. cbn [In] in I. repeat (destruct I as [<-|I]; [eexists; split; [reflexivity|vm_compute; reflexivity]|]). destruct I. Qed.
Theorem C67_method_refuted : exists s, step (SetMethod (Some $"ACK")) printed = Ok (s, Code OSIP_SUCCESS) /\ answers false s = Ok (Text request_text) /\
  current false (c_msg s) = Ok (Text ($"ACK sip:h SIP/2.0" ++ CRLF ++ $"Content-Length: 0" ++ CRLF ++ CRLF)).
Proof. eexists. split; [reflexivity|]. split; vm_compute; reflexivity. Qed.
(** The two printing functions share one cache: a fragment without start line, printed first, is what
    osip_message_to_str then answers, although the message cannot be printed without a start line *)
Theorem C67_fragment_refuted : exists s a, step (Print true true) (new (with_call_id (Some (mkCid (Some $"1") None)) msg_init) 2) = Ok (s, a) /\
  answers false s = Ok (Text ($"Call-ID: 1" ++ CRLF ++ CRLF)) /\ (exists c, current false (c_msg s) = Ok (Code c)).
Proof. eexists. eexists. split; [vm_compute; reflexivity|]. split; [vm_compute; reflexivity|]. eexists. vm_compute. reflexivity. Qed.
(** A printed message whose body has a NUL byte: printing its clone reads past the cached copy *)
Theorem C67_clone_nul_refuted : exists s1 a s2, step (Print false true) (new (set_body request ["a"%char; NUL; "b"%char]) 2) = Ok (s1, Text a) /\
  step Clone s1 = Ok (s2, Code OSIP_SUCCESS) /\ answers false s2 = UB /\ current false (c_msg s2) = Ok (Text a).
Proof. eexists. eexists. eexists. split; [vm_compute; reflexivity|]. split; [vm_compute; reflexivity|]. split; vm_compute; reflexivity. Qed.
(** When memory runs out while the cached copy is made, the next print copies from NULL *)
Theorem C67_no_memory_refuted : exists s, step (Print false false) (new request 2) = Ok (s, Text request_text) /\ answers false s = UB.
Proof. eexists. split; [vm_compute; reflexivity|]. vm_compute. reflexivity. Qed.
Print Assumptions C67_print_current_partial.
Print Assumptions C67_property_partial.
Print Assumptions C67_force_update.
Print Assumptions C67_print_keeps_content.
Print Assumptions C67_start_line_refuted.
Print Assumptions C67_method_refuted.
Print Assumptions C67_fragment_refuted.
Print Assumptions C67_clone_nul_refuted.
Print Assumptions C67_no_memory_refuted.

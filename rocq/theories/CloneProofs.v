(** The clone functions return the value they were given, and when they refuse. *)
From Coq Require Import String ZArith Ascii Bool List.
From Verif Require Import Base Str Types CloneModel.
Import ListNotations.

Lemma list_clone_ok : forall A (f : A -> res A), (forall x y, f x = Ok y -> y = x) ->
  forall l acc r, list_clone f acc l = Ok r -> r = acc ++ l.
Proof.
  induction l; simpl; intros acc r H0.
  - injection H0 as <-. rewrite app_nil_r. auto.
  - unfold res_bind in H0. destruct (f a) eqn:Hf; try discriminate. apply H in Hf. subst.
    apply IHl in H0. subst. rewrite <- app_assoc. auto.
Qed.

Lemma list_clone_total : forall A (f : A -> res A) l acc, Forall (fun x => f x = Ok x) l ->
  list_clone f acc l = Ok (acc ++ l).
Proof.
  induction l; simpl; intros.
  - rewrite app_nil_r; auto.
  - inversion H; subst. rewrite H2. simpl. rewrite IHl; auto. rewrite <- app_assoc. auto.
Qed.

Ltac clone_inv H :=
  repeat match type of H with
  | context [match ?x with _ => _ end] =>
      match x with context [match _ with _ => _ end] => fail 1 | _ => destruct x eqn:?; try discriminate H end
  end; try (injection H as <-).

Lemma param_clone_ok : forall x y, param_clone x = Ok y -> y = x.
Proof. intros [n v] y H. injection H as <-. auto. Qed.

Lemma params_clone : forall l acc, list_clone param_clone acc l = Ok (acc ++ l).
Proof. intros. apply list_clone_total. apply Forall_forall. intros [? ?] ?. auto. Qed.

Lemma uri_clone_ok : forall u y, uri_clone u = Ok y -> u = Some y.
Proof.
  intros [u|] y H; try discriminate. unfold uri_clone in H. rewrite !params_clone in H. simpl in H.
  destruct u as [s un pw h p ps hs st]; simpl in *. destruct h, st; try discriminate; injection H as <-; auto.
Qed.

Lemma uri_clone_total : forall u, (u_host u <> None \/ u_string u <> None) -> uri_clone (Some u) = Ok u.
Proof.
  intros. unfold uri_clone. rewrite !params_clone. destruct u as [s un pw h p ps hs st]; simpl in *.
  destruct h, st; auto. destruct H; congruence.
Qed.

Lemma opt_clone_ok : forall A (f : A -> res A), (forall x y, f x = Ok y -> y = x) ->
  forall o r, opt_clone f o = Ok r -> r = o.
Proof.
  intros A f Hf [a|] r H; simpl in H; [|congruence]. unfold res_bind in H.
  destruct (f a) eqn:E; try discriminate. apply Hf in E. congruence.
Qed.

Lemma from_clone_ok : forall f y, from_clone f = Ok y -> f = Some y.
Proof.
  intros [f|] y H; try discriminate. unfold from_clone in H. rewrite params_clone in H. unfold res_bind in H.
  destruct (opt_clone _ (na_url f)) eqn:E; try discriminate.
  apply opt_clone_ok in E; [|intros; apply uri_clone_ok in H0; congruence].
  subst. injection H as <-. destruct f; auto.
Qed.

Lemma from_clone_total : forall f,
  (forall u, na_url f = Some u -> u_host u <> None \/ u_string u <> None) -> from_clone (Some f) = Ok f.
Proof.
  intros. unfold from_clone. rewrite params_clone. destruct f as [d [u|] ps]; cbn [opt_clone na_url na_params na_display] in *; auto.
  rewrite uri_clone_total by auto. auto.
Qed.

Lemma via_clone_ok : forall v y, via_clone v = Ok y -> v = Some y.
Proof.
  intros [[ve pr h p c ps]|] y H; try discriminate. unfold via_clone in H. rewrite params_clone in H. simpl in H.
  destruct ve, pr, h; try discriminate. injection H as <-. auto.
Qed.

Lemma via_clone_total : forall v, v_version v <> None -> v_protocol v <> None -> v_host v <> None ->
  via_clone (Some v) = Ok v.
Proof.
  intros [ve pr h p c ps] ? ? ?. unfold via_clone. rewrite params_clone. simpl in *.
  destruct ve, pr, h; try congruence. reflexivity.
Qed.

Lemma cseq_clone_ok : forall c y, cseq_clone c = Ok y -> c = Some y.
Proof.
  intros [[m n]|] y H; simpl in H; try discriminate. destruct m, n; try discriminate. injection H as <-. auto.
Qed.

Lemma call_id_clone_ok : forall c y, call_id_clone c = Ok y -> c = Some y.
Proof. intros [[n h]|] y H; simpl in H; try discriminate. destruct n; try discriminate. injection H as <-. auto. Qed.

Lemma content_length_clone_ok : forall x y, content_length_clone x = Ok y -> y = x.
Proof. intros. injection H as <-. auto. Qed.

Lemma content_type_clone_ok : forall x y, content_type_clone x = Ok y -> y = x.
Proof.
  intros [a b c] y H. unfold content_type_clone in H. rewrite params_clone in H. injection H as <-. auto.
Qed.

Lemma elem_clone_ok : forall x y, elem_clone x = Ok y -> y = x.
Proof.
  intros [[a|] c] y H; try discriminate. unfold elem_clone in H. rewrite params_clone in H. injection H as <-. auto.
Qed.

Lemma header_clone_ok : forall x y, header_clone x = Ok y -> y = x.
Proof. intros [[a|] c] y H; try discriminate. injection H as <-. auto. Qed.

Lemma www_clone_ok : forall x y, www_clone x = Ok y -> y = x.
Proof. intros [[a|]] y H; try discriminate. injection H as <-. auto. Qed.

Lemma authz_clone_ok : forall x y, authz_clone x = Ok y -> y = x.
Proof. intros [] y H. injection H as <-. auto. Qed.

Lemma authz_list_clone : forall l acc, list_clone authz_clone acc l = Ok (acc ++ l).
Proof. intros. apply list_clone_total. apply Forall_forall. intros [] ?. auto. Qed.

Lemma authinfo_clone_ok : forall x y, authinfo_clone x = Ok y -> y = x.
Proof. intros [] y H. injection H as <-. auto. Qed.

Lemma body_clone_ok : forall x y, body_clone x = Ok y -> y = x.
Proof.
  intros [[|a b] h c] y H; try discriminate. unfold body_clone in H. simpl in H. unfold res_bind in H.
  destruct (opt_clone _ c) eqn:E1; try discriminate. apply opt_clone_ok in E1; [|apply content_type_clone_ok].
  destruct (list_clone _ _ h) eqn:E2; try discriminate. apply list_clone_ok in E2; [|apply header_clone_ok].
  subst. injection H as <-. auto.
Qed.

Lemma from_some_clone_ok : forall x y, from_clone (Some x) = Ok y -> y = x.
Proof. intros. apply from_clone_ok in H. congruence. Qed.
Lemma via_some_clone_ok : forall x y, via_clone (Some x) = Ok y -> y = x.
Proof. intros. apply via_clone_ok in H. congruence. Qed.
Lemma uri_some_clone_ok : forall x y, uri_clone (Some x) = Ok y -> y = x.
Proof. intros. apply uri_clone_ok in H. congruence. Qed.
Lemma cseq_some_clone_ok : forall x y, cseq_clone (Some x) = Ok y -> y = x.
Proof. intros. apply cseq_clone_ok in H. congruence. Qed.
Lemma call_id_some_clone_ok : forall x y, call_id_clone (Some x) = Ok y -> y = x.
Proof. intros. apply call_id_clone_ok in H. congruence. Qed.

Lemma msg_clone_ok : forall m y, msg_clone m = Ok y -> y = m.
Proof.
  intros m y H. unfold msg_clone in H. unfold res_bind in H.
  repeat match type of H with
  | match ?x with _ => _ end = _ => let E := fresh "E" in destruct x eqn:E; try discriminate H
  end.
  repeat match goal with
  | E : list_clone _ _ _ = Ok _ |- _ => apply list_clone_ok in E;
      [ simpl in E; subst
      | first [ apply content_type_clone_ok | apply elem_clone_ok | apply content_length_clone_ok
              | apply authinfo_clone_ok | apply authz_clone_ok | apply from_some_clone_ok | apply www_clone_ok
              | apply via_some_clone_ok | apply header_clone_ok | apply body_clone_ok ] ]
  | E : opt_clone _ _ = Ok _ |- _ => apply opt_clone_ok in E;
      [ subst
      | first [ apply uri_some_clone_ok | apply content_type_clone_ok | apply content_length_clone_ok
              | apply from_some_clone_ok | apply cseq_some_clone_ok | apply call_id_some_clone_ok ] ]
  end.
  injection H as <-. subst. destruct m; reflexivity.
Qed.

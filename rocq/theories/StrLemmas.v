(** Basic facts about the string library. *)
From Coq Require Import String ZArith NArith Ascii Bool List Lia.
From Verif Require Import Base Str.
Import ListNotations.

Lemma str_eqb_eq : forall a b, str_eqb a b = true <-> a = b.
Proof.
  induction a; destruct b; simpl; split; intros; try discriminate; auto.
  - apply andb_true_iff in H. destruct H as (H1 & H2). apply Ascii.eqb_eq in H1. apply IHa in H2. congruence.
  - injection H as -> ->. rewrite Ascii.eqb_refl. simpl. apply IHa. auto.
Qed.

Lemma str_eqb_refl : forall a, str_eqb a a = true.
Proof. intros. apply str_eqb_eq. auto. Qed.

Lemma str_eqb_neq : forall a b, str_eqb a b = false <-> a <> b.
Proof.
  intros. destruct (str_eqb a b) eqn:H.
  - apply str_eqb_eq in H. split; intros; congruence.
  - split; auto. intros _ ->. rewrite str_eqb_refl in H. discriminate.
Qed.

Lemma str_eq_dec : forall a b : str, {a = b} + {a <> b}.
Proof. intros. destruct (str_eqb a b) eqn:H; [left; apply str_eqb_eq | right; apply str_eqb_neq]; auto. Qed.

Lemma streq_spec : forall a b, reflect (a = b) (streq a b).
Proof. intros. unfold streq. destruct (str_eqb a b) eqn:H; constructor; [apply str_eqb_eq | apply str_eqb_neq]; auto. Qed.

Lemma str_eqb_sym : forall a b, str_eqb a b = str_eqb b a.
Proof.
  intros. destruct (str_eqb a b) eqn:H.
  - apply str_eqb_eq in H. subst. rewrite str_eqb_refl. auto.
  - symmetry. apply str_eqb_neq. apply str_eqb_neq in H. auto.
Qed.

Lemma strcaseeq_refl : forall a, strcaseeq a a = true.
Proof. intros. apply str_eqb_refl. Qed.

Lemma strchr_some : forall s c i, strchr s c = Some i ->
  s = firstn i s ++ c :: skipn (S i) s /\ ~ In c (firstn i s) /\ (i < length s)%nat.
Proof.
  induction s; simpl; intros; try discriminate.
  destruct (Ascii.eqb_spec a c).
  - injection H as <-. subst. simpl. repeat split; auto. lia.
  - destruct (strchr s c) eqn:Hs; try discriminate. injection H as <-.
    apply IHs in Hs. destruct Hs as (H1 & H2 & H3). simpl. repeat split.
    + f_equal. auto.
    + intros [?|?]; auto.
    + lia.
Qed.

Lemma strchr_none : forall s c, strchr s c = None <-> ~ In c s.
Proof.
  induction s; simpl; intros; split; intros; auto.
  - destruct (Ascii.eqb_spec a c); try discriminate. destruct (strchr s c) eqn:Hs; try discriminate.
    apply IHs in Hs. tauto.
  - destruct (Ascii.eqb_spec a c); [subst; tauto|]. assert (strchr s c = None) as -> by (apply IHs; tauto). auto.
Qed.

Lemma strchr_app_notin : forall a b c, ~ In c a ->
  strchr (a ++ b) c = option_map (fun i => length a + i)%nat (strchr b c).
Proof.
  induction a; simpl; intros.
  - destruct (strchr b c); auto.
  - destruct (Ascii.eqb_spec a c); [subst; tauto|]. rewrite IHa by tauto. destruct (strchr b c); auto.
Qed.

Lemma strchr_here : forall a b c, ~ In c a -> strchr (a ++ c :: b) c = Some (length a).
Proof. intros. rewrite strchr_app_notin by auto. simpl. rewrite Ascii.eqb_refl. simpl. f_equal. lia. Qed.

Lemma strchr_absent : forall a c, ~ In c a -> strchr a c = None.
Proof. intros. apply strchr_none. auto. Qed.

Lemma firstn_len_app : forall A (a b : list A), firstn (length a) (a ++ b) = a.
Proof. intros. rewrite firstn_app, Nat.sub_diag, firstn_all, firstn_O, app_nil_r. auto. Qed.

Lemma skipn_len_app : forall A (a b : list A), skipn (length a) (a ++ b) = b.
Proof. intros. rewrite skipn_app, Nat.sub_diag, skipn_all. auto. Qed.

Lemma skipn_Slen_app : forall A (a b : list A) x, skipn (S (length a)) (a ++ x :: b) = b.
Proof.
  intros. replace (a ++ x :: b) with ((a ++ [x]) ++ b) by (rewrite <- app_assoc; auto).
  replace (S (length a)) with (length (a ++ [x])) by (rewrite app_length; simpl; lia).
  apply skipn_len_app.
Qed.

(** trim *)
Lemma ltrim_id : forall s, (forall c s', s = c :: s' -> is_blank c = false) -> ltrim s = s.
Proof. intros. destruct s; simpl; auto. rewrite (H a s eq_refl). auto. Qed.

Lemma ltrim_head : forall s c s', ltrim s = c :: s' -> is_blank c = false.
Proof.
  induction s; simpl; intros; try discriminate. destruct (is_blank a) eqn:Ha; eauto. congruence.
Qed.

Lemma ltrim_split : forall s, exists b, s = b ++ ltrim s /\ forallb is_blank b = true.
Proof.
  induction s; simpl.
  - exists []. auto.
  - destruct (is_blank a) eqn:Ha.
    + destruct IHs as (b & H1 & H2). exists (a :: b). simpl. rewrite Ha. split; auto. f_equal. auto.
    + exists []. auto.
Qed.

(** A string that trimming leaves alone: empty, or not blank at either end. *)
Definition trimmed (s : str) : Prop := trim s = s.

Definition no_blank (s : str) : Prop := Forall (fun c => is_blank c = false) s.

Lemma forallb_rev : forall A (f : A -> bool) l, forallb f (rev l) = forallb f l.
Proof.
  induction l; simpl; auto. rewrite forallb_app, IHl. simpl. rewrite andb_true_r, andb_comm. auto.
Qed.

Lemma ltrim_app_blank : forall b s, forallb is_blank b = true -> ltrim (b ++ s) = ltrim s.
Proof.
  induction b; simpl; intros; auto. apply andb_true_iff in H. destruct H as (-> & H). auto.
Qed.

Lemma ltrim_app_nonblank : forall s t, ltrim s <> [] -> ltrim (s ++ t) = ltrim s ++ t.
Proof.
  induction s; simpl; intros; [tauto|]. destruct (is_blank a); auto.
Qed.

Lemma ltrim_allblank : forall s, forallb is_blank s = true <-> ltrim s = [].
Proof.
  induction s; simpl; split; intros; auto.
  - apply andb_true_iff in H. destruct H as (-> & H). apply IHs. auto.
  - destruct (is_blank a); try discriminate. simpl. apply IHs. auto.
Qed.

Lemma trim_split : forall s, exists b1 b2, s = b1 ++ trim s ++ b2 /\ forallb is_blank b1 = true /\ forallb is_blank b2 = true.
Proof.
  intros. destruct (ltrim_split s) as (b1 & H1 & H2).
  destruct (ltrim_split (rev (ltrim s))) as (b2 & H3 & H4).
  exists b1, (rev b2). split; [|split; auto; rewrite forallb_rev; auto].
  unfold trim, rtrim. rewrite <- rev_app_distr. rewrite <- H3, rev_involutive. auto.
Qed.

Lemma ltrim_idem : forall s, ltrim (ltrim s) = ltrim s.
Proof. intros. apply ltrim_id. intros. eapply ltrim_head; eauto. Qed.

(** characterisation of trimmed strings *)
Lemma trimmed_iff : forall s, trimmed s <->
  (s = [] \/ (is_blank (hd NUL s) = false /\ is_blank (last s NUL) = false)).
Proof.
  assert (Hb : is_blank NUL = false) by reflexivity.
  intros s. unfold trimmed. split.
  - intros H. destruct s as [|c s]; [auto|right].
    assert (Hl : ltrim (c :: s) = c :: s).
    { destruct (ltrim_split (c :: s)) as (b & H1 & H2).
      destruct b as [|x b]; [simpl in H1; auto|].
      exfalso. assert (length (trim (c :: s)) <= length (ltrim (c :: s)))%nat.
      { unfold trim, rtrim. rewrite rev_length.
        destruct (ltrim_split (rev (ltrim (c :: s)))) as (b' & E & _).
        apply (f_equal (@length _)) in E. rewrite app_length, rev_length in E. lia. }
      apply (f_equal (@length _)) in H1. rewrite app_length in H1. simpl length at 2 in H1.
      rewrite H in H0. lia. }
    split.
    + simpl in Hl. simpl. destruct (is_blank c) eqn:Hc; auto. exfalso.
      destruct (ltrim_split s) as (b & E & _). apply (f_equal (@length _)) in E. rewrite app_length in E.
      apply (f_equal (@length _)) in Hl. simpl in Hl. lia.
    + unfold trim in H. rewrite Hl in H. unfold rtrim in H.
      apply (f_equal (@rev _)) in H. rewrite rev_involutive in H.
      assert (rev (c :: s) <> []) by (simpl; destruct (rev s); discriminate).
      destruct (rev (c :: s)) as [|x l] eqn:Hr; [tauto|].
      apply ltrim_head in H.
      assert (E : c :: s = rev l ++ [x]). { apply (f_equal (@rev _)) in Hr. rewrite rev_involutive in Hr. auto. }
      rewrite E. rewrite last_last. auto.
  - intros [->|(H1 & H2)]; auto.
    destruct s as [|c s]; auto. simpl in H1.
    unfold trim. assert (ltrim (c :: s) = c :: s) as -> by (simpl; rewrite H1; auto).
    unfold rtrim. destruct (rev (c :: s)) as [|x l] eqn:Hr.
    { apply (f_equal (@rev _)) in Hr. rewrite rev_involutive in Hr. discriminate. }
    assert (E : c :: s = rev l ++ [x]). { apply (f_equal (@rev _)) in Hr. rewrite rev_involutive in Hr. auto. }
    rewrite E in H2. rewrite last_last in H2. simpl ltrim. rewrite H2. rewrite E. auto.
Qed.

Lemma no_blank_trimmed : forall s, no_blank s -> trimmed s.
Proof.
  intros. unfold no_blank in H. apply trimmed_iff. destruct s; auto. right. split; [inversion H; auto|].
  assert (In (last (a :: s) NUL) (a :: s)).
  { assert (a :: s <> []) by discriminate. apply exists_last in H0. destruct H0 as (l & x & ->).
    rewrite last_last, in_app_iff. simpl. auto. }
  rewrite Forall_forall in H. apply H. auto.
Qed.

Lemma trim_app_blanks : forall b1 s b2, forallb is_blank b1 = true -> forallb is_blank b2 = true ->
  trimmed s -> trim (b1 ++ s ++ b2) = s.
Proof.
  intros. unfold trim. rewrite ltrim_app_blank by auto.
  destruct s as [|c s].
  - simpl. assert (ltrim b2 = []) as -> by (apply ltrim_allblank; auto). auto.
  - pose proof H1 as Ht. apply trimmed_iff in Ht. destruct Ht as [?|(Hh & Hl)]; [discriminate|].
    simpl in Hh. assert (Hlt : ltrim (c :: s) = c :: s) by (simpl; rewrite Hh; auto).
    rewrite ltrim_app_nonblank by (rewrite Hlt; discriminate). rewrite Hlt.
    unfold rtrim. rewrite rev_app_distr. rewrite ltrim_app_blank by (rewrite forallb_rev; auto).
    unfold trimmed, trim in H1. rewrite Hlt in H1. exact H1.
Qed.

Lemma trim_trimmed : forall s, trimmed (trim s).
Proof.
  intros. destruct (trim_split s) as (b1 & b2 & H & _).
  apply trimmed_iff. destruct (trim s) as [|c t] eqn:Ht; auto. right. split.
  - simpl. unfold trim in Ht. unfold rtrim in Ht.
    destruct (ltrim_split (rev (ltrim s))) as (b & E & _).
    apply (f_equal (@rev _)) in E. rewrite rev_involutive, rev_app_distr, Ht in E. simpl in E.
    eapply ltrim_head; eauto.
  - unfold trim, rtrim in Ht. apply (f_equal (@rev _)) in Ht. rewrite rev_involutive in Ht.
    assert (c :: t <> []) by discriminate. apply exists_last in H0. destruct H0 as (l & x & E).
    rewrite E in *. rewrite last_last. rewrite rev_app_distr in Ht. simpl in Ht. eapply ltrim_head; eauto.
Qed.

Lemma trim_id : forall s, trimmed s -> trim s = s.
Proof. auto. Qed.

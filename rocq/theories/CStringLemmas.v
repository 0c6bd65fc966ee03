(** Facts about the checked string primitives. *)
From Coq Require Import String ZArith NArith Ascii Bool List Lia ZifyBool ZifyNat.
From Verif Require Import Base Str StrLemmas MemModel MemLemmas CString.
Import ListNotations.
Open Scope Z_scope.

Lemma slen_len : forall A (s : list A), slen s = len s.
Proof. reflexivity. Qed.
Lemma slen_app : forall A (a b : list A), slen (a ++ b) = slen a + slen b.
Proof. intros. apply len_app. Qed.
Lemma slen_cons : forall A (x : A) b, slen (x :: b) = 1 + slen b.
Proof. intros. apply len_cons. Qed.
Lemma slen_nil : forall A, slen (@nil A) = 0.
Proof. reflexivity. Qed.
Lemma slen_nonneg : forall A (l : list A), 0 <= slen l.
Proof. intros. apply len_nonneg. Qed.
Lemma slen_pos : forall A (l : list A), l <> [] -> 1 <= slen l.
Proof. intros A [|x l] H; [contradiction|]. rewrite slen_cons. pose proof (slen_nonneg A l). lia. Qed.
Lemma slen_to_nat : forall A (l : list A), Z.to_nat (slen l) = length l.
Proof. intros. unfold slen. apply Nat2Z.id. Qed.

(** Lengths as linear arithmetic *)
Ltac slens :=
  repeat match goal with
  | |- context [slen (?a ++ ?b)] => rewrite (slen_app _ a b)
  | |- context [slen (?a :: ?b)] => rewrite (slen_cons _ a b)
  | |- context [slen (@nil ?A)] => rewrite (slen_nil A)
  | H : context [slen (?a ++ ?b)] |- _ => rewrite (slen_app _ a b) in H
  | H : context [slen (?a :: ?b)] |- _ => rewrite (slen_cons _ a b) in H
  | H : context [slen (@nil ?A)] |- _ => rewrite (slen_nil A) in H
  end;
  repeat match goal with
  | |- context [slen ?a] => lazymatch goal with H : 0 <= slen a |- _ => fail | _ => pose proof (slen_nonneg _ a) end
  | _ : context [slen ?a] |- _ => lazymatch goal with H : 0 <= slen a |- _ => fail | _ => pose proof (slen_nonneg _ a) end
  end.
Ltac sl := slens; lia.
(** Equality of concatenations up to associativity *)
Ltac cat := repeat rewrite <- ?app_assoc, <- ?app_comm_cons, ?app_nil_r, ?app_nil_l; reflexivity.

Lemma in_range_at : forall s a b i, s = a ++ b -> i = slen a -> in_range s i = true.
Proof. intros s a b i -> ->. unfold in_range. slens. apply andb_true_iff. split; lia. Qed.

Lemma ch_at : forall s a c b i, s = a ++ c :: b -> i = slen a -> ch s i = Ok c.
Proof.
  intros s a c b i -> ->. unfold ch. rewrite (in_range_at _ a (c :: b)) by auto.
  rewrite slen_to_nat, app_nth2, Nat.sub_diag; [reflexivity|lia].
Qed.
Lemma ch_end : forall s i, i = slen s -> ch s i = Ok NUL.
Proof.
  intros s i ->. unfold ch. rewrite (in_range_at _ s []) by (auto; symmetry; apply app_nil_r).
  rewrite slen_to_nat, nth_overflow; auto.
Qed.
Lemma tail_at_app : forall s a b i, s = a ++ b -> i = slen a -> tail_at s i = Ok b.
Proof. intros s a b i -> ->. unfold tail_at. rewrite (in_range_at _ a b) by auto. rewrite slen_to_nat, skipn_len_app. reflexivity. Qed.

Lemma strchr_at_some : forall s a x c y i, s = a ++ x ++ c :: y -> i = slen a -> ~ In c x ->
  strchr_at s i c = Ok (Some (slen a + slen x)).
Proof.
  intros s a x c y i -> -> H. unfold strchr_at. rewrite (in_range_at _ a (x ++ c :: y)) by auto.
  rewrite slen_to_nat, skipn_len_app, strchr_here by auto. reflexivity.
Qed.
Lemma strchr_at_none : forall s a x c i, s = a ++ x -> i = slen a -> ~ In c x -> strchr_at s i c = Ok None.
Proof.
  intros s a x c i -> -> H. unfold strchr_at. rewrite (in_range_at _ a x) by auto.
  rewrite slen_to_nat, skipn_len_app, strchr_absent by auto. reflexivity.
Qed.
Lemma copy_at_app : forall s a x b i n m, s = a ++ x ++ b -> i = slen a -> n = slen x -> slen x + 1 <= m ->
  copy_at s i n m = Ok x.
Proof.
  intros s a x b i n m -> -> -> M. unfold copy_at. rewrite (in_range_at _ a (x ++ b)) by auto.
  replace (0 <=? slen x) with true by sl. replace (slen x + 1 <=? m) with true by sl. cbn [andb].
  rewrite !slen_to_nat, skipn_len_app, firstn_len_app. reflexivity.
Qed.
Lemma copy_at_end : forall s a x i n m, s = a ++ x -> i = slen a -> slen x <= n -> n + 1 <= m ->
  copy_at s i n m = Ok x.
Proof.
  intros s a x i n m -> -> N M. unfold copy_at. rewrite (in_range_at _ a x) by auto.
  replace (0 <=? n) with true by sl. replace (n + 1 <=? m) with true by sl. cbn [andb].
  rewrite !slen_to_nat, skipn_len_app, firstn_all2; [reflexivity|unfold slen in N; lia].
Qed.
Lemma clrncpy_at_app : forall s a x b i n m, s = a ++ x ++ b -> i = slen a -> n = slen x -> slen x + 1 <= m ->
  clrncpy_at s i n m = Ok (trim x).
Proof.
  intros s a x b i n m -> -> -> M. unfold clrncpy_at. rewrite (in_range_at _ a (x ++ b)) by auto.
  replace (0 <=? slen x) with true by sl. replace (slen x + 1 <=? m) with true by sl.
  replace (slen a + slen x <=? slen (a ++ x ++ b)) with true by sl. cbn [andb].
  rewrite !slen_to_nat, skipn_len_app, firstn_len_app. reflexivity.
Qed.

(** ** What any successful search says *)
Lemma strchr_at_inv : forall s i c k, strchr_at s i c = Ok (Some k) ->
  0 <= i <= k /\ k < slen s /\ exists a x y, s = a ++ x ++ c :: y /\ slen a = i /\ slen x = k - i /\ ~ In c x.
Proof.
  intros s i c k H. unfold strchr_at in H. destruct (in_range s i) eqn:R; [|discriminate].
  unfold in_range in R. apply andb_true_iff in R. destruct R as [R1 R2].
  destruct (strchr (skipn (Z.to_nat i) s) c) as [n|] eqn:E; [|discriminate]. injection H as <-.
  apply strchr_some in E. destruct E as (E & Hx & L).
  set (x := firstn n (skipn (Z.to_nat i) s)) in *. set (y := skipn (S n) (skipn (Z.to_nat i) s)) in *.
  assert (length x = n) as Lx by (apply firstn_length_le; lia).
  assert (s = firstn (Z.to_nat i) s ++ x ++ c :: y) as Es by (rewrite <- E; symmetry; apply firstn_skipn).
  assert (length (firstn (Z.to_nat i) s) = Z.to_nat i) as Li by (apply firstn_length_le; unfold slen in R2; lia).
  assert (slen (firstn (Z.to_nat i) s) = i) as Si by (unfold slen; lia).
  assert (slen x = Z.of_nat n) as Sx by (unfold slen; lia).
  split; [lia|]. split.
  - assert (slen s = i + (Z.of_nat n + (1 + slen y))) as -> by (rewrite Es at 1; rewrite !slen_app, slen_cons; lia).
    pose proof (slen_nonneg _ y). lia.
  - exists (firstn (Z.to_nat i) s), x, y. repeat split; auto. lia.
Qed.
Lemma strchr_at_ok : forall s i c, 0 <= i <= slen s -> strchr_at s i c <> UB /\ forall e, strchr_at s i c <> Err e.
Proof. intros s i c H. unfold strchr_at, in_range. replace (0 <=? i) with true by lia. replace (i <=? slen s) with true by lia. split; [|intros e]; discriminate. Qed.

(** ** Printing *)
Lemma emit_ok : forall t cap s, slen t + slen s + 1 <= cap -> emit (mkOut t cap) s = Ok (mkOut (t ++ s) cap).
Proof. intros t cap s H. unfold emit. cbn [o_cap o_text]. replace (cap <? slen t + slen s + 1) with false by lia. reflexivity. Qed.
Lemma grow_ok : forall t cap n, slen t + 1 <= n -> out_grow (mkOut t cap) n = Ok (mkOut t n).
Proof. intros t cap n H. unfold out_grow. cbn [o_text]. replace (n <? slen t + 1) with false by lia. reflexivity. Qed.

(** ** Scans; the terminator is made explicit *)
Lemma ch_nul : forall s a c b i, s ++ [NUL] = a ++ c :: b -> i = slen a -> ch s i = Ok c.
Proof.
  intros s a c b i E ->. unfold ch. assert (slen s + 1 = slen a + (1 + slen b)) as L.
  { replace (slen s + 1) with (slen (s ++ [NUL])) by sl. rewrite E. sl. }
  unfold in_range. replace (0 <=? slen a) with true by sl. replace (slen a <=? slen s) with true by sl. cbn [andb]. f_equal.
  rewrite slen_to_nat. transitivity (nth (length a) (s ++ [NUL]) NUL).
  - unfold slen in L. destruct (Nat.eq_dec (length a) (length s)) as [D|D].
    + rewrite D, app_nth2, Nat.sub_diag, nth_overflow; auto.
    + rewrite app_nth1; [reflexivity|]. lia.
  - rewrite E, app_nth2, Nat.sub_diag; [reflexivity|lia].
Qed.
Lemma scan_back_to : forall stop a c x b s lo p fuel, s ++ [NUL] = a ++ c :: x ++ b ->
  (forall d, In d x -> stop d = false) -> p = slen a + slen x -> (length x < fuel)%nat ->
  (slen a > lo /\ stop c = true) \/ slen a = lo ->
  scan_back fuel s lo p stop = Ok (slen a).
Proof.
  intros stop a c x. induction x as [|d x IH] using rev_ind; intros b s lo p fuel E N -> F H; destruct fuel as [|fuel]; try (cbn in F; rewrite ?app_length in F; cbn in F; lia); cbn [scan_back].
  - rewrite slen_nil, Z.add_0_r. cbn [app] in E. destruct H as [[H1 H2]|H1].
    + replace (slen a >? lo) with true by lia. rewrite (ch_nul _ _ _ _ _ E) by reflexivity. cbn [res_bind]. rewrite H2. reflexivity.
    + replace (slen a >? lo) with false by lia. reflexivity.
  - assert (lo <= slen a) by (destruct H; lia).
    replace (slen a + slen (x ++ [d]) >? lo) with true by sl.
    rewrite (ch_nul s (a ++ c :: x) d b); [|rewrite E; cat|sl]. cbn [res_bind].
    rewrite (N d) by (apply in_or_app; right; left; reflexivity).
    rewrite app_length in F. cbn [length] in F.
    apply (IH (d :: b)); auto; [rewrite E; cat| |sl|lia].
    intros e I. apply N, in_or_app. left. exact I.
Qed.
Lemma scan_fwd_to : forall stop x a c b s p hi fuel, s = a ++ x ++ c :: b ->
  (forall d, In d x -> stop d = false) -> p = slen a -> (length x < fuel)%nat ->
  slen a + slen x < hi -> stop c = true ->
  scan_fwd fuel s p hi stop = Ok (slen a + slen x).
Proof.
  intros stop x. induction x as [|d x IH]; intros a c b s p hi fuel E N -> F L H; (destruct fuel as [|fuel]; [cbn in F; lia|]); cbn [scan_fwd].
  - rewrite slen_nil, Z.add_0_r in *. replace (slen a <? hi) with true by lia.
    rewrite (ch_at _ a c b) by auto. cbn [res_bind]. rewrite H. reflexivity.
  - replace (slen a <? hi) with true by sl. rewrite (ch_at s a d (x ++ c :: b)) by auto. cbn [res_bind].
    rewrite (N d) by (left; reflexivity). cbn [length] in F.
    rewrite (IH (a ++ [d]) c b); [f_equal; sl| | |sl|lia|sl|exact H].
    + rewrite E. cat.
    + intros e I. apply N. right. exact I.
Qed.
Lemma next_separator_some : forall s a x c y i before, s = a ++ x ++ c :: y -> i = slen a -> ~ In c x -> ~ In before x -> c <> before ->
  next_separator s i c before = Ok (Some (slen a + slen x)).
Proof.
  intros s a x c y i before E -> H1 H2 NE. unfold next_separator. rewrite (strchr_at_some s a x c y) by auto. cbn [res_bind].
  destruct (in_dec ascii_dec before y) as [I|I].
  - apply in_split in I. destruct I as (y1 & y2 & Ey).
    destruct (strchr_at s (slen a) before) as [[k|]|e|] eqn:K.
    + apply strchr_at_inv in K. destruct K as (_ & _ & a' & x' & y' & E' & La & Lx & Nx).
      assert (a' = a) as -> by (assert (length a' = length a) by (unfold slen in La; lia);
        rewrite E in E'; apply (f_equal (firstn (length a))) in E'; rewrite firstn_len_app in E'; rewrite <- H in E' at 1; rewrite firstn_len_app in E'; congruence).
      rewrite E in E'. apply app_inv_head in E'.
      cbn [res_bind]. assert (slen a + slen x < k) as L; [|replace (slen a + slen x <? k) with true by lia; reflexivity].
      assert (slen x < slen x'); [|lia].
      revert E' H2 NE Nx. clear. revert x'. induction x as [|d x IH]; intros x' E H2 NE Nx.
      * destruct x' as [|d' x']; cbn in E; injection E as E1 E2; [congruence|sl].
      * destruct x' as [|d' x']; cbn in E; injection E as E1 E2.
        { subst d. exfalso. apply H2. left. reflexivity. }
        assert (slen x < slen x') by (apply (IH x' E2); auto; intros X; [apply H2|apply Nx]; right; exact X). sl.
    + reflexivity.
    + destruct (strchr_at_ok s (slen a) before) as [_ X]; [rewrite E; sl|]. exfalso. eapply X. exact K.
    + destruct (strchr_at_ok s (slen a) before) as [X _]; [rewrite E; sl|]. exfalso. apply X. exact K.
  - rewrite (strchr_at_none s a (x ++ c :: y)); auto. rewrite in_app_iff. intros [X|[X|X]]; auto.
Qed.
(** The separator is absent, or comes after the other one *)
Lemma next_separator_none : forall s a x c i before, s = a ++ x -> i = slen a ->
  (~ In c x \/ exists x1 x2, x = x1 ++ before :: x2 /\ ~ In c x1 /\ ~ In before x1 /\ c <> before) ->
  next_separator s i c before = Ok None.
Proof.
  intros s a x c i before E -> [H|(x1 & x2 & -> & H1 & H2 & NE)]; unfold next_separator.
  - rewrite (strchr_at_none s a x) by auto. reflexivity.
  - destruct (in_dec ascii_dec c x2) as [I|I].
    + apply in_split in I.
      assert (exists u v, x2 = u ++ c :: v /\ ~ In c u) as (u & v & Eu & Nu).
      { destruct (strchr x2 c) as [n|] eqn:K.
        - apply strchr_some in K. destruct K as (K1 & K2 & _). eauto.
        - apply strchr_none in K. exfalso. apply K. destruct I as (u & v & ->). apply in_or_app. right. left. reflexivity. }
      rewrite (strchr_at_some s a (x1 ++ before :: u) c v); [|rewrite E, Eu; cat|reflexivity|].
      * cbn [res_bind]. rewrite (strchr_at_some s a x1 before x2) by auto. cbn [res_bind].
        replace (slen a + slen (x1 ++ before :: u) <? slen a + slen x1) with false by sl. reflexivity.
      * rewrite in_app_iff. intros [X|[X|X]]; auto.
    + rewrite (strchr_at_none s a (x1 ++ before :: x2)); auto. rewrite in_app_iff. intros [X|[X|X]]; auto.
Qed.

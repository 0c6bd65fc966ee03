(** What the checked primitives return for any string: used to show that the parsers never
    leave their input (C56). *)
From Coq Require Import String ZArith NArith Ascii Bool List Lia ZifyBool ZifyNat.
From Verif Require Import Base Str StrLemmas MemModel MemLemmas CString CStringLemmas.
Import ListNotations.
Open Scope Z_scope.

(** The byte at an offset, the terminator included *)
Definition byte (s : str) (i : Z) : ascii := nth (Z.to_nat i) s NUL.

Lemma ch_ok : forall s i, 0 <= i <= slen s -> ch s i = Ok (byte s i).
Proof. intros s i H. unfold ch, in_range. replace (0 <=? i) with true by lia. replace (i <=? slen s) with true by lia. reflexivity. Qed.
Lemma byte_at : forall s a c b i, s = a ++ c :: b -> i = slen a -> byte s i = c.
Proof. intros s a c b i -> ->. unfold byte. rewrite slen_to_nat, app_nth2, Nat.sub_diag; [reflexivity|lia]. Qed.

Lemma strchr_at_cases : forall s i c, 0 <= i <= slen s ->
  (strchr_at s i c = Ok None /\ forall j, i <= j < slen s -> byte s j <> c) \/
  exists k, strchr_at s i c = Ok (Some k) /\ i <= k < slen s /\ byte s k = c /\ forall j, i <= j < k -> byte s j <> c.
Proof.
  intros s i c H. destruct (strchr_at s i c) as [[k|]|e|] eqn:K.
  - right. exists k. split; [reflexivity|]. apply strchr_at_inv in K. destruct K as (K1 & K2 & a & x & y & E & La & Lx & N).
    split; [lia|]. split.
    + apply (byte_at s (a ++ x) c y); [rewrite E; cat|sl].
    + intros j J B. apply N. assert (j = i + (j - i)) as Ej by lia.
      assert (exists x1 d x2, x = x1 ++ d :: x2 /\ slen x1 = j - i) as (x1 & d & x2 & Ex & L1).
      { destruct (cut _ x (Z.to_nat (j - i))) as (x1 & x2 & Ex & L1); [unfold slen in Lx; lia|].
        destruct x2 as [|d x2]; [exfalso; rewrite app_nil_r in Ex; subst x1; unfold slen in *; lia|]. exists x1, d, x2. split; [exact Ex|unfold slen; lia]. }
      rewrite (byte_at s (a ++ x1) d (x2 ++ c :: y)) in B; [|rewrite E, Ex; cat|sl]. subst d. rewrite Ex. apply in_or_app. right. left. reflexivity.
  - left. split; [reflexivity|]. intros j J B. unfold strchr_at, in_range in K. replace (0 <=? i) with true in K by lia. replace (i <=? slen s) with true in K by lia. cbn [andb] in K.
    destruct (strchr (skipn (Z.to_nat i) s) c) as [n|] eqn:S; [discriminate|]. apply strchr_none in S. apply S.
    unfold byte in B. assert (Z.to_nat j < length s)%nat as L by (unfold slen in J; lia).
    rewrite <- (firstn_skipn (Z.to_nat i) s) in B. rewrite app_nth2 in B by (rewrite firstn_length; lia).
    rewrite <- B. apply nth_In. rewrite skipn_length, firstn_length. lia.
  - destruct (strchr_at_ok s i c H) as [_ X]. exfalso. eapply X. exact K.
  - destruct (strchr_at_ok s i c H) as [X _]. exfalso. apply X. exact K.
Qed.

(** The same search, started later *)
Lemma strchr_at_later : forall s i j c k, strchr_at s i c = Ok (Some k) -> i <= j <= k -> strchr_at s j c = Ok (Some k).
Proof.
  intros s i j c k H J. pose proof H as H'. apply strchr_at_inv in H. destruct H as (I & L & _).
  destruct (strchr_at_cases s i c) as [[X _]|(k' & X & _ & B & M)]; [lia|congruence|]. rewrite X in H'. injection H' as ->.
  destruct (strchr_at_cases s j c) as [[_ Y]|(k' & Y & K & B' & M')]; [lia| |].
  - exfalso. apply (Y k); [lia|exact B].
  - rewrite Y. f_equal. f_equal. destruct (Z_lt_le_dec k' k) as [C|C]; [exfalso; apply (M k'); [lia|exact B']|].
    destruct (Z_lt_le_dec k k') as [C'|C']; [exfalso; apply (M' k); [lia|exact B]|lia].
Qed.

Lemma next_separator_cases : forall s i c b, 0 <= i <= slen s ->
  (exists o, next_separator s i c b = Ok o) /\
  (next_separator s i c b = Ok None \/
   exists k, next_separator s i c b = Ok (Some k) /\ i <= k < slen s /\ byte s k = c /\ (forall j, i <= j < k -> byte s j <> c) /\
             forall t, strchr_at s i b = Ok (Some t) -> k < t).
Proof.
  intros s i c b H.
  assert (next_separator s i c b = Ok None \/
   exists k, next_separator s i c b = Ok (Some k) /\ i <= k < slen s /\ byte s k = c /\ (forall j, i <= j < k -> byte s j <> c) /\
             forall t, strchr_at s i b = Ok (Some t) -> k < t) as X.
  { unfold next_separator. destruct (strchr_at_cases s i c H) as [[-> _]|(k & -> & K)]; cbn [res_bind]; [left; reflexivity|].
    destruct (strchr_at_cases s i b H) as [[E _]|(t & E & T)]; rewrite E; cbn [res_bind].
    - right. exists k. split; [reflexivity|]. split; [tauto|]. split; [tauto|]. split; [tauto|]. intros t X. congruence.
    - destruct (Z.ltb_spec k t) as [L|L]; [right|left; reflexivity]. exists k. split; [reflexivity|]. split; [tauto|]. split; [tauto|]. split; [tauto|].
      intros t' X. congruence. }
  split; [|exact X]. destruct X as [X|(k & X & _)]; rewrite X; eauto.
Qed.

Lemma copy_at_ok : forall s i n m, 0 <= i <= slen s -> 0 <= n -> n + 1 <= m -> exists t, copy_at s i n m = Ok t.
Proof.
  intros s i n m H N M. unfold copy_at, in_range. replace (0 <=? i) with true by lia. replace (i <=? slen s) with true by lia.
  replace (0 <=? n) with true by lia. replace (n + 1 <=? m) with true by lia. eexists. reflexivity.
Qed.
Lemma copy_at_len : forall s i n m t, copy_at s i n m = Ok t -> i + n <= slen s -> slen t = n.
Proof.
  intros s i n m t H L. unfold copy_at, in_range in H. destruct (_ && _ && _) eqn:C; [|discriminate]. injection H as <-.
  unfold slen. rewrite firstn_length, skipn_length. unfold slen in L. lia.
Qed.
Lemma clrncpy_at_ok : forall s i n m, 0 <= i -> 0 <= n -> n + 1 <= m -> i + n <= slen s -> exists t, clrncpy_at s i n m = Ok t.
Proof.
  intros s i n m H N M L. unfold clrncpy_at, in_range. replace (0 <=? i) with true by lia. replace (i <=? slen s) with true by lia.
  replace (0 <=? n) with true by lia. replace (n + 1 <=? m) with true by lia. replace (i + n <=? slen s) with true by lia. eexists. reflexivity.
Qed.
Lemma tail_at_ok : forall s i, 0 <= i <= slen s -> exists t, tail_at s i = Ok t /\ slen t = slen s - i /\ forall j, 0 <= j -> byte t j = byte s (i + j).
Proof.
  intros s i H. unfold tail_at, in_range. replace (0 <=? i) with true by lia. replace (i <=? slen s) with true by lia. eexists. split; [reflexivity|]. split.
  - unfold slen. rewrite skipn_length. unfold slen in H. lia.
  - intros j J. unfold byte. rewrite Z2Nat.inj_add by lia. rewrite <- (firstn_skipn (Z.to_nat i) s) at 2.
    assert (length (firstn (Z.to_nat i) s) = Z.to_nat i) as L by (apply firstn_length_le; unfold slen in H; lia).
    rewrite app_nth2 by lia. f_equal. lia.
Qed.

Lemma scan_back_ok : forall fuel s lo p stop, 0 <= lo <= p -> p <= slen s -> p - lo < Z.of_nat fuel ->
  exists r, scan_back fuel s lo p stop = Ok r /\ lo <= r <= p.
Proof.
  induction fuel as [|fuel IH]; intros s lo p stop H L F; [lia|]. cbn [scan_back].
  destruct (Z.gtb_spec p lo) as [G|G]; [|exists p; split; [reflexivity|lia]].
  rewrite ch_ok by lia. cbn [res_bind]. destruct (stop (byte s p)); [exists p; split; [reflexivity|lia]|].
  destruct (IH s lo (p - 1) stop) as (r & E & R); [lia|lia|lia|]. exists r. split; [exact E|lia].
Qed.
Lemma scan_fwd_ok : forall fuel s p hi stop, 0 <= p <= hi -> hi <= slen s -> hi - p < Z.of_nat fuel ->
  exists r, scan_fwd fuel s p hi stop = Ok r /\ p <= r <= hi.
Proof.
  induction fuel as [|fuel IH]; intros s p hi stop H L F; [lia|]. cbn [scan_fwd].
  destruct (Z.ltb_spec p hi) as [G|G]; [|exists p; split; [reflexivity|lia]].
  rewrite ch_ok by lia. cbn [res_bind]. destruct (stop (byte s p)); [exists p; split; [reflexivity|lia]|].
  destruct (IH s (p + 1) hi stop) as (r & E & R); [lia|lia|lia|]. exists r. split; [exact E|lia].
Qed.

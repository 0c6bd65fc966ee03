(** Facts about checked buffer accesses. *)
From Coq Require Import String ZArith NArith Ascii Bool List Lia ZifyBool ZifyNat.
From Verif Require Import Base Str StrLemmas MemModel.
Import ListNotations.
Open Scope Z_scope.

Definition len {A} (l : list A) : Z := Z.of_nat (length l).

Lemma len_app : forall A (a b : list A), len (a ++ b) = len a + len b.
Proof. intros. unfold len. rewrite app_length. lia. Qed.
Lemma len_cons : forall A (x : A) b, len (x :: b) = 1 + len b.
Proof. intros. unfold len. cbn [length]. lia. Qed.
Lemma len_nil : forall A, len (@nil A) = 0.
Proof. reflexivity. Qed.
Lemma len_nonneg : forall A (l : list A), 0 <= len l.
Proof. intros. unfold len. lia. Qed.

Lemma rd_at : forall a c r i, i = len a -> rd (a ++ c :: r) i = Ok c.
Proof.
  intros a c r i ->. unfold rd. rewrite (proj2 (Z.ltb_ge _ _) (len_nonneg _ a)).
  unfold len. rewrite Nat2Z.id, nth_error_app2, Nat.sub_diag; [reflexivity|lia].
Qed.

Lemma wr_at : forall a c r i x, i = len a -> wr (a ++ c :: r) i x = Ok (a ++ x :: r).
Proof.
  intros a c r i x ->. unfold wr. rewrite app_length. cbn [length].
  replace (len a <? 0) with false by (unfold len; lia).
  replace (Z.of_nat (length a + S (length r)) <=? len a) with false by (unfold len; lia). cbn [orb].
  unfold len. rewrite Nat2Z.id, firstn_len_app, skipn_Slen_app. reflexivity.
Qed.

Lemma rd_range_at : forall a l r i n, i = len a -> n = len l -> rd_range (a ++ l ++ r) i n = Ok l.
Proof.
  intros a l r i n -> ->. unfold rd_range. rewrite !app_length.
  replace (len a <? 0) with false by (unfold len; lia). replace (len l <? 0) with false by (unfold len; lia).
  replace (Z.of_nat (length a + (length l + length r)) <? len a + len l) with false by (unfold len; lia). cbn [orb].
  unfold len. rewrite !Nat2Z.id, skipn_len_app, firstn_len_app. reflexivity.
Qed.

Lemma wr_range_at : forall a l l' r i, i = len a -> length l' = length l -> wr_range (a ++ l ++ r) i l' = Ok (a ++ l' ++ r).
Proof.
  intros a l l' r i -> E. unfold wr_range. rewrite !app_length.
  replace (len a <? 0) with false by (unfold len; lia).
  replace (Z.of_nat (length a + (length l + length r)) <? len a + Z.of_nat (length l')) with false by (unfold len; lia). cbn [orb].
  unfold len. rewrite !Nat2Z.id, firstn_len_app. f_equal. f_equal. f_equal.
  rewrite E, app_assoc. rewrite <- (app_length a l). apply skipn_len_app.
Qed.

Lemma c_string_at : forall s r, cstr s -> c_string (s ++ NUL :: r) = Ok s.
Proof.
  induction s as [|c s IH]; intros r H; [reflexivity|]. cbn [app c_string].
  destruct (Ascii.eqb_spec c NUL) as [->|N]; [exfalso; apply H; left; reflexivity|].
  rewrite IH; [reflexivity|]. intros X. apply H. right. exact X.
Qed.
Lemma strlen_at : forall s r, cstr s -> strlen (s ++ NUL :: r) = Ok (len s).
Proof. intros. unfold strlen. rewrite c_string_at; auto. Qed.

Lemma cstr_app : forall a b, cstr (a ++ b) <-> cstr a /\ cstr b.
Proof. intros. unfold cstr. rewrite in_app_iff. tauto. Qed.
Lemma cstr_cons : forall c b, cstr (c :: b) <-> c <> NUL /\ cstr b.
Proof. intros. unfold cstr. cbn. split; [intros H; split; intros X; apply H; auto | intros [H1 H2] [->|X]; auto]. Qed.

(** Cut a list at a length *)
Lemma cut : forall A (l : list A) n, (n <= length l)%nat -> exists a b, l = a ++ b /\ length a = n.
Proof. intros A l n H. exists (firstn n l), (skipn n l). split; [symmetry; apply firstn_skipn|apply firstn_length_le, H]. Qed.

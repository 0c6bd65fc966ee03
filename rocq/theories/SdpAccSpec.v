(** What the access functions are expected to do, and lemmas on lists of SdpAcc. *)
From Coq Require Import String ZArith NArith Ascii Bool List Lia ZifyBool ZifyNat.
From Verif Require Import Base Str SdpModel SdpAcc.
Import ListNotations.
Open Scope Z_scope.

(** *** Specification *)
(** the session itself, or one of the media *)
Definition place (d : sdp) (pos : Z) : Prop := pos = -1 \/ 0 <= pos < Z.of_nat (length (m_medias d)).
(** [g] answers for the positions 0 .. n-1 and no other *)
Definition holds {A} (g : Z -> option A) (n : Z) : Prop := forall i, g i <> None <-> 0 <= i < n.
(** [g'] answers as [g], and has [x] after the last element of [g] *)
Definition one_more {A} (g g' : Z -> option A) (x : A) : Prop :=
  exists n, holds g n /\ 0 <= n /\ forall i, g' i = if i =? n then Some x else g i.
(** descriptions that differ at most in their attributes, bandwidths, ... *)
Definition same_but {A B} (clear_session : sdp -> A) (clear_media : sdp_media -> B) (d d' : sdp) : Prop :=
  clear_session (with_m [] d) = clear_session (with_m [] d')
  /\ map clear_media (m_medias d) = map clear_media (m_medias d').
Definition same_but_attributes := same_but (with_a []) (media_a []).
Definition same_but_bandwidths := same_but (with_b []) (media_b []).
Definition same_but_connections := same_but (with_c None) (media_c []).
Definition same_but_keys := same_but (with_k None) (media_k None).
Definition same_but_infos := same_but (with_i None) (media_i None).
Definition same_but_payloads := same_but (fun d => d) (media_payloads []).
Definition same_but_ports := same_but (fun d => d) (media_port None).

(** *** Lists *)
Lemma get_nth : forall A (l : list A) i, 0 <= i -> get l i = nth_error l (Z.to_nat i).
Proof.
  intros A l i H. unfold get, size. destruct (_ || _) eqn:E; auto.
  symmetry. apply nth_error_None. lia.
Qed.
Lemma get_neg : forall A (l : list A) i, i < 0 -> get l i = None.
Proof. intros A l i H. unfold get. replace (i <? 0) with true by lia. reflexivity. Qed.
Lemma get_nil : forall A i, get (@nil A) i = None.
Proof. intros A i. unfold get, size. cbn. destruct ((i <? 0) || (0 <=? i)) eqn:E; auto. lia. Qed.
Lemma get_holds : forall A (l : list A), holds (get l) (size l).
Proof.
  intros A l i. destruct (Z.ltb_spec i 0).
  - rewrite get_neg by auto. split; [congruence|lia].
  - rewrite get_nth by auto. rewrite nth_error_Some. unfold size. lia.
Qed.
Lemma get_some : forall A (l : list A) i, 0 <= i < size l -> exists x, get l i = Some x.
Proof. intros A l i H. apply get_holds in H. destruct (get l i); [eauto|congruence]. Qed.
Lemma get_snoc : forall A (l : list A) x i, get (l ++ [x]) i = if i =? size l then Some x else get l i.
Proof.
  intros A l x i. destruct (Z.ltb_spec i 0).
  - rewrite !get_neg by auto. unfold size. replace (i =? Z.of_nat (length l)) with false by lia. reflexivity.
  - rewrite !get_nth by auto. unfold size. destruct (i =? Z.of_nat (length l)) eqn:E.
    + rewrite nth_error_app2 by lia. replace (Z.to_nat i - length l)%nat with 0%nat by lia. reflexivity.
    + destruct (Z.ltb_spec i (Z.of_nat (length l))).
      * rewrite nth_error_app1 by lia. reflexivity.
      * rewrite (proj2 (nth_error_None l _)) by lia. apply nth_error_None. rewrite app_length. cbn. lia.
Qed.
Lemma snoc_more : forall A (l : list A) x, one_more (get l) (get (l ++ [x])) x.
Proof. intros. exists (size l). split; [apply get_holds|]. split; [unfold size; lia|]. intros. apply get_snoc. Qed.
Lemma change_eq : forall A (l : list A) p f,
  (change l p f = l /\ get l p = None) \/ (exists a x b,
  l = a ++ x :: b /\ change l p f = a ++ f x :: b /\ size a = p /\ get l p = Some x).
Proof.
  intros A l p f. unfold change. destruct (get l p) as [x|] eqn:E.
  - assert (0 <= p < size l) by (apply get_holds; congruence). rewrite get_nth in E by lia.
    right. exists (firstn (Z.to_nat p) l), x, (skipn (S (Z.to_nat p)) l).
    assert (El : l = firstn (Z.to_nat p) l ++ x :: skipn (S (Z.to_nat p)) l).
    { rewrite <- (firstn_skipn (Z.to_nat p) l) at 1. f_equal. clear - E. revert E. generalize (Z.to_nat p). intros n.
      revert l. induction n as [|n IH]; intros [|y l] H; cbn in H; try discriminate.
      - injection H as ->. reflexivity. - cbn. apply IH. auto. }
    repeat split; auto. unfold size. rewrite firstn_length. unfold size in *. lia.
  - auto.
Qed.
Lemma get_app : forall A (a b : list A) x i, get (a ++ x :: b) i =
  if i <? size a then get a i else if i =? size a then Some x else get b (i - size a - 1).
Proof.
  intros A a b x i. destruct (Z.ltb_spec i 0).
  - rewrite (get_neg _ (a ++ x :: b)), (get_neg _ a) by auto. unfold size.
    replace (i <? Z.of_nat (length a)) with true by lia. reflexivity.
  - rewrite get_nth by auto. unfold size. destruct (i <? Z.of_nat (length a)) eqn:E.
    + rewrite get_nth by auto. rewrite nth_error_app1 by lia. reflexivity.
    + rewrite nth_error_app2 by lia. destruct (i =? Z.of_nat (length a)) eqn:E2.
      * replace (Z.to_nat i - length a)%nat with 0%nat by lia. reflexivity.
      * rewrite get_nth by lia. replace (Z.to_nat i - length a)%nat with (S (Z.to_nat (i - Z.of_nat (length a) - 1))) by lia. reflexivity.
Qed.
Lemma get_change : forall A (l : list A) p f i,
  get (change l p f) i = if i =? p then match get l i with Some x => Some (f x) | None => None end else get l i.
Proof.
  intros A l p f i. destruct (change_eq A l p f) as [[-> E]|(a & x & b & El & -> & Ep & E)].
  - destruct (i =? p) eqn:Ei; auto. replace i with p by lia. now rewrite E.
  - destruct (i =? p) eqn:Ei.
    + replace i with p by lia. rewrite E. rewrite get_app. rewrite Ep. replace (p <? p) with false by lia.
      replace (p =? p) with true by lia. reflexivity.
    + rewrite El, !get_app, Ep. replace (i =? p) with false by lia. reflexivity.
Qed.
Lemma change_map : forall A B (g : A -> B) (l : list A) p f, (forall x, g (f x) = g x) -> map g (change l p f) = map g l.
Proof.
  intros A B g l p f H. destruct (change_eq A l p f) as [[-> E]|(a & x & b & El & -> & Ep & E)]; auto.
  rewrite El, !map_app. cbn. now rewrite H.
Qed.
Lemma change_size : forall A (l : list A) p f, size (change l p f) = size l.
Proof.
  intros A l p f. destruct (change_eq A l p f) as [[-> E]|(a & x & b & El & -> & Ep & E)]; auto.
  rewrite El. unfold size. rewrite !app_length. cbn. lia.
Qed.

(** the functions that add at a place *)
Lemma add_at_ok : forall d pos s m, place d pos -> pos < INT_MAX ->
  add_at d pos s m = Ok (if pos =? -1 then s d else change_media d pos m).
Proof.
  intros d pos s m [->|H] Hi; unfold add_at, no_such_media; [reflexivity|].
  replace (pos =? -1) with false by lia. unfold INT_MAX in *. replace (2147483647 <? pos + 1) with false by lia.
  unfold size. replace (Z.of_nat (length (m_medias d)) <? pos + 1) with false by lia.
  destruct (get_some _ (m_medias d) pos H) as (x & ->). reflexivity.
Qed.

(** *** Deletions *)
Lemma remove_app : forall A (a b : list A) x, remove (a ++ x :: b) (size a) = a ++ b.
Proof.
  intros A a b x. unfold remove, size. rewrite app_length. cbn [length].
  replace ((Z.of_nat (length a) <? 0) || (Z.of_nat (length a + S (length b)) <=? Z.of_nat (length a))) with false by lia.
  rewrite Nat2Z.id. rewrite firstn_app, firstn_all, Nat.sub_diag. cbn [firstn]. rewrite app_nil_r. f_equal.
  clear. induction a; cbn; auto.
Qed.
Lemma del_field_run : forall b fuel a field, (length b < fuel)%nat ->
  Forall (fun x => a_field x <> None) b ->
  del_field fuel (a ++ b) (size a) field
  = Ended (Ok (a ++ filter (fun x => match a_field x with Some f => negb (streq f field) | None => true end) b)).
Proof.
  induction b as [|x b IH]; intros fuel a field Hf HA; (destruct fuel as [|fuel]; [cbn in Hf; lia|]); cbn [del_field].
  - rewrite app_nil_r. replace (size a <? size a) with false by lia. cbn. now rewrite app_nil_r.
  - cbn in Hf. inversion HA as [|? ? Hx HB]; subst.
    replace (size a <? size (a ++ x :: b)) with true by (unfold size; rewrite app_length; cbn; lia).
    rewrite get_app. replace (size a <? size a) with false by lia. replace (size a =? size a) with true by lia.
    cbn [filter]. destruct (a_field x) as [f|]; [|congruence]. destruct (streq f field); cbn [negb].
    + rewrite remove_app. apply IH; auto. lia.
    + replace (a ++ x :: b) with ((a ++ [x]) ++ b) by (rewrite <- app_assoc; reflexivity).
      replace (size a + 1) with (size (a ++ [x])) by (unfold size; rewrite app_length; cbn; lia).
      rewrite IH by (auto; lia). rewrite <- app_assoc. reflexivity.
Qed.
Lemma del_index_hangs : forall fuel l pos, l <> [] -> pos <> 0 -> del_index fuel l 0 pos = Running.
Proof.
  induction fuel as [|fuel IH]; intros l pos Hl Hp; cbn; auto.
  replace (0 <? size l) with true by (unfold size; destruct l; [congruence|cbn; lia]).
  destruct (get l pos) as [x|] eqn:E; [|now apply IH].
  apply IH; auto. assert (0 <= pos < size l) by (apply get_holds; congruence).
  unfold remove. replace ((pos <? 0) || (size l <=? pos)) with false by lia.
  destruct l as [|y l]; [congruence|]. destruct (Z.to_nat pos) eqn:E2; [lia|]. discriminate.
Qed.
Lemma del_index_all : forall l fuel, (length l < fuel)%nat -> del_index fuel l 0 0 = Ended (Ok []).
Proof.
  induction l as [|x l IH]; intros [|fuel] H; try (cbn in H; lia); [reflexivity|].
  cbn [del_index]. replace (0 <? size (x :: l)) with true by (unfold size; cbn; lia).
  rewrite get_nth by lia. cbn [Z.to_nat nth_error].
  change (remove (x :: l) 0) with (remove ([] ++ x :: l) (size (@nil sdp_attribute))). rewrite remove_app.
  apply IH. cbn in H. lia.
Qed.

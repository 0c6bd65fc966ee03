(** One transaction for one key (C71). *)
From Coq Require Import ZArith Bool List Lia ZifyBool ZifyNat Relations.
From Verif Require Import Base Str Types TransModel FifoModel ThreadModel ThreadSpec ThreadProofs ThreadEvents.
Import ListNotations.
Open Scope nat_scope.

Section Worker.
Variable w : fsm -> tid.

Definition noalloc (x : instr) : Prop := match x with Alloc _ _ _ => False | _ => True end.
Definition free_key (s : shared) (k : fsm) (key : nat) : Prop :=
  forall a o, heap s a = Some o -> o_kind o = k -> o_key o <> key.

Definition allocs (s : shared) (i : tid) (l : list instr) : Prop :=
  Forall noalloc l \/
  (exists k key f r, l = Alloc k key f :: r /\ Forall noalloc r /\ i = w k /\ free_key s k key) \/
  (exists m k key f r, l = Unlock m :: Alloc k key f :: r /\ Forall noalloc r /\ i = w k /\ free_key s k key).

Record uniq (s : system) : Prop := mkU {
  u_key : forall a b o p, heap (sh s) a = Some o -> heap (sh s) b = Some p -> o_kind o = o_kind p -> o_key o = o_key p -> a = b;
  u_stage : forall a o, heap (sh s) a = Some o ->
     o_stage o = Linked \/ In (Link (o_kind o) a) (todo s (w (o_kind o))) \/ In (Dispose a) (todo s (w (o_kind o)));
  u_alloc : forall i, allocs (sh s) i (todo s i) }.

Lemma unused_free : forall s k key, global s -> unused s k key = true -> free_key s k key.
Proof.
  intros s k key G U a o H K E. unfold unused in U. rewrite forallb_forall in U. specialize (U a).
  rewrite H, K, kind_eqb_refl, E, Nat.eqb_refl in U. cbn in U. discriminate U. apply in_seq. apply (g_brk _ G) in H. lia.
Qed.

Lemma source_worker : forall p s i c, one_source w p s i c = true -> one_worker w p s i c = true.
Proof. intros p s i c H. unfold one_source in H. apply andb_true_iff in H. tauto. Qed.

Lemma fits_source : forall s x, fits (one_source w) s x = true -> fits (one_worker w) s x = true.
Proof. intros s x. unfold fits. destruct (starts s x) as [[[p i] c]|]; auto. apply source_worker. Qed.

Lemma reach_source : forall s, reach (one_source w) s -> reach (one_worker w) s.
Proof. intros s R. induction R; [constructor|]. econstructor; eauto using fits_source. Qed.

Lemma allocs_begin : forall s p i c r, global s -> one_source w p s i c = true -> Forall noalloc r -> allocs s i (begin s c ++ r).
Proof.
  intros s p i c r G U R. destruct c; try (left; cbn; repeat constructor; auto; fail).
  - unfold one_source in U. apply andb_true_iff in U. destruct U as [_ U]. apply andb_true_iff in U. destruct U as [U1 U2]. apply Nat.eqb_eq in U1.
    right. left. exists k, key, first, r. split; auto. split; auto. split; auto. apply unused_free; auto.
  - left. cbn. destruct (heap s a); repeat constructor; auto.
Qed.

Lemma allocs_same : forall s t i l, (forall a o', heap t a = Some o' -> i = w (o_kind o') -> exists o, heap s a = Some o /\ o_kind o' = o_kind o /\ o_key o' = o_key o) ->
  allocs s i l -> allocs t i l.
Proof.
  intros s t i l H A.
  assert (F : forall k key, i = w k -> free_key s k key -> free_key t k key).
  { intros k key W F a o' X K. subst k. destruct (H a o' X W) as (o & Y & K' & E). rewrite E. apply (F a); auto. }
  destruct A as [A|[(k & key & f & r & A & B & C & D)|(m & k & key & f & r & A & B & C & D)]]; [left; auto|right; left|right; right].
  - exists k, key, f, r. auto 6.
  - exists m, k, key, f, r. auto 7.
Qed.

Lemma allocs_tail : forall s i x r, noalloc x -> (forall m, x <> Unlock m) -> allocs s i (x :: r) -> Forall noalloc r.
Proof.
  intros s i x r N U [A|[(k & key & f & r' & A & _)|(m & k & key & f & r' & A & _)]].
  - inversion A; auto.
  - injection A as -> ->. destruct N.
  - injection A as -> ->. destruct (U m eq_refl).
Qed.

(** The heap keeps the kind, the key and the number of its objects. *)
Definition samekeys (s t : shared) : Prop := forall a o', heap t a = Some o' -> exists o, heap s a = Some o /\ o_kind o' = o_kind o /\ o_key o' = o_key o.

Lemma uniq_step : forall s t i x r pre, uniq s -> todo s i = x :: r -> samekeys (sh s) t ->
  (forall a o', heap t a = Some o' -> o_stage o' = Linked \/
      (exists o, heap (sh s) a = Some o /\ o_stage o <> Linked /\ (x <> Link (o_kind o) a) /\ x <> Dispose a)
      \/ (i = w (o_kind o') /\ In (Dispose a) r)) ->
  allocs t i (pre ++ r) -> uniq (set_todo s t i (pre ++ r)).
Proof.
  intros s t i x r pre U TI SK SG AL. split; cbn [sh set_todo todo].
  - intros a b o p A B K E. destruct (SK _ _ A) as (o0 & A0 & K0 & E0). destruct (SK _ _ B) as (p0 & B0 & K1 & E1).
    apply (u_key _ U a b o0 p0); auto; congruence.
  - intros a o' A. destruct (SG _ _ A) as [L|[(o & B & N & N1 & N2)|[W D]]]; auto.
    + destruct (SK _ _ A) as (o0 & A0 & K0 & E0). rewrite B in A0. injection A0 as <-. rewrite K0. right.
      destruct (u_stage _ U a o B) as [X|X]; [congruence|]. destruct (Nat.eqb (w (o_kind o)) i) eqn:Q; auto. apply Nat.eqb_eq in Q. rewrite Q, TI in X.
      destruct X as [[X|X]|[X|X]]; try congruence; [left|right]; apply in_or_app; auto.
    + right. right. rewrite <- W, Nat.eqb_refl. apply in_or_app. auto.
  - intros j. destruct (Nat.eqb j i) eqn:Q; [apply Nat.eqb_eq in Q; subst j; auto|].
    apply allocs_same with (s := sh s); [|apply U]. intros a o' A _. apply SK. auto.
Qed.

Theorem uniq_start : uniq start.
Proof. split; cbn; try discriminate. intros i. left. constructor. Qed.

Lemma map_noalloc : forall (f : addr -> instr) l, (forall a, noalloc (f a)) -> Forall noalloc (map f l).
Proof. intros f l H. induction l; cbn; auto. Qed.
Lemma firstn_noalloc : forall n l, Forall noalloc l -> Forall noalloc (firstn n l).
Proof. intros n l F. revert n. induction F; intros [|n]; cbn; auto. Qed.

Theorem uniq_move : forall s x s', inv w s -> uniq s -> fits (one_source w) s x = true -> move s x = Some s' -> uniq s'.
Proof.
  intros s x s' [G T] U F M. destruct x as [i c|i ch].
  - cbn in M. destruct (todo s i) eqn:TI; [|discriminate]. injection M as <-. cbn in F. split; cbn [sh set_todo todo].
    + apply U.
    + intros a o H. destruct (u_stage _ U a o H) as [X|X]; auto. right. destruct (Nat.eqb (w (o_kind o)) i) eqn:Q; auto.
      apply Nat.eqb_eq in Q. rewrite Q, TI in X. destruct X as [[]|[]].
    + intros j. destruct (Nat.eqb j i) eqn:Q; [|apply U]. apply Nat.eqb_eq in Q. subst j.
      rewrite <- (app_nil_r (begin (sh s) c)). eapply allocs_begin; eauto.
  - cbn in M. destruct (todo s i) as [|y r] eqn:TI; [discriminate|]. destruct (bad (sh s) i y) eqn:BD; [discriminate|].
    destruct (exec ch (sh s) i y) as [[t pre]|] eqn:X; [|discriminate]. injection M as <-.
    pose proof (T i) as TH. rewrite TI in TH. pose proof (u_alloc _ U i) as UA. rewrite TI in UA.
    (* steps that leave every object but its queue alone *)
    assert (Q0 : (forall a o', heap t a = Some o' -> exists o, heap (sh s) a = Some o /\ o_kind o' = o_kind o /\ o_stage o' = o_stage o /\ o_key o' = o_key o) ->
              (forall k a, y <> Link k a) -> (forall a, y <> Dispose a) -> allocs (sh s) i (pre ++ r) -> uniq (set_todo s t i (pre ++ r))).
    { intros S N1 N2 AL. assert (SK : samekeys (sh s) t). { intros a o' A. destruct (S _ _ A) as (o & B & K & _ & E). eauto. }
      eapply uniq_step; eauto.
      - intros a o' A. destruct (S _ _ A) as (o & B & K & SG & _). destruct (o_stage o) eqn:QS; auto; right; left; exists o; repeat split; auto; congruence.
      - eapply allocs_same; eauto. }
    assert (Q : soft (sh s) t -> (forall k a, y <> Link k a) -> (forall a, y <> Dispose a) -> allocs (sh s) i (pre ++ r) -> uniq (set_todo s t i (pre ++ r))).
    { intros S. apply Q0. intros a o' A. destruct (soft_bwd _ _ _ _ S A) as (o & B & K & SG & _ & E). eauto. }
    assert (Q1 : t = sh s -> (forall k a, y <> Link k a) -> (forall a, y <> Dispose a) -> allocs (sh s) i (pre ++ r) -> uniq (set_todo s t i (pre ++ r))).
    { intros ->. apply Q. apply soft_same. }
    assert (TL : noalloc y -> (forall m, y <> Unlock m) -> Forall noalloc r) by (intros; eapply allocs_tail; eauto).
    destruct y; cbn [exec] in X; try (assert (NR : Forall noalloc r) by (apply TL; [exact I|congruence])).
    + destruct (owner (sh s) m); [discriminate|]. injection X as <- <-. apply Q0; auto; try congruence; [intros a o' A; cbn in A; eauto|]. left; auto.
    + (* Unlock *) injection X as <- <-. apply Q0; auto; try congruence; [intros a o' A; cbn in A; eauto|]. cbn.
      destruct UA as [A|[(k & key & f & r' & A & _)|(m' & k & key & f & r' & A & B)]].
      * left. inversion A; auto.
      * discriminate.
      * injection A as _ ->. right. left. exists k, key, f, r'. auto.
    + (* Find *) destruct (find _ _) as [a|] eqn:FD; injection X as <- <-.
      * apply Q1; auto; try congruence. left. repeat constructor; auto.
      * apply Q1; auto; try congruence. destruct create; [|left; repeat constructor; auto].
        destruct TH as (h & _ & _ & _ & [N _] & S). cbn in N.
        assert (PR : Forall plain r) by (eapply (simple_rest w (sh s) i (Find e true)); [|exact S]; exact I).
        right. right. exists (MTable (ev_kind e)), (ev_kind e), (ev_key e), (Some e), r. split; auto. split; auto. split; auto.
        intros a o A K E. assert (LK : o_stage o = Linked).
        { destruct (u_stage _ U a o A) as [L|L]; auto. exfalso. rewrite K, <- N, TI in L. rewrite Forall_forall in PR.
          destruct L as [[L|L]|[L|L]]; try discriminate; apply PR in L; destruct L. }
        assert (IN : In a (table (sh s) (ev_kind e))) by (apply (g_table _ G); eauto).
        pose proof (find_none _ _ FD a IN) as FN. unfold has_key in FN. rewrite A, E, Nat.eqb_refl in FN. discriminate.
    + (* Alloc *) assert (P : Forall noalloc pre). { injection X as <- <-. repeat constructor. destruct first; repeat constructor. }
      assert (LI : In (Link k (brk (sh s))) pre). { injection X as <- <-. cbn. auto 7. }
      assert (FR : heap (sh s) (brk (sh s)) = None). { destruct (heap (sh s) (brk (sh s))) eqn:H; auto. apply (g_brk _ G) in H. lia. }
      assert (UB' : Forall noalloc r /\ i = w k /\ free_key (sh s) k key).
      { destruct UA as [A|[(k' & key' & f & r' & A & B & C & D)|(m' & k' & key' & f & r' & A & B)]]; try discriminate.
        - inversion A as [|? ? Y]; destruct Y.
        - injection A as <- <- _ <-. auto. }
      destruct UB' as (NR & W & FK).
      assert (Hn : forall b o, heap t b = Some o -> (b = brk (sh s) /\ o = mkT k key None fifo_init (Fresh i)) \/ (b <> brk (sh s) /\ heap (sh s) b = Some o)).
      { injection X as <- _. intros b o H. cbn in H. destruct (Nat.eqb b (brk (sh s))) eqn:QQ; [left|right]; [apply Nat.eqb_eq in QQ|apply Nat.eqb_neq in QQ]; split; auto; congruence. }
      clear X. split; cbn [sh set_todo todo].
      * intros a b o p A B K E. destruct (Hn _ _ A) as [[-> ->]|[NA A']]; destruct (Hn _ _ B) as [[-> ->]|[NB B']]; auto.
        -- cbn in K, E. destruct (FK b p); auto.
        -- cbn in K, E. destruct (FK a o); auto.
        -- eapply (u_key _ U); eauto.
      * intros a o A. destruct (Hn _ _ A) as [[-> ->]|[NA A']].
        -- cbn. rewrite <- W, Nat.eqb_refl. right. left. apply in_or_app. auto.
        -- destruct (u_stage _ U a o A') as [L|L]; auto. right. destruct (Nat.eqb (w (o_kind o)) i) eqn:QQ; auto. apply Nat.eqb_eq in QQ. rewrite QQ, TI in L.
           destruct L as [[L|L]|[L|L]]; try discriminate; [left|right]; apply in_or_app; auto.
      * intros j. destruct (Nat.eqb j i) eqn:QQ; [left; apply Forall_app; auto|]. apply Nat.eqb_neq in QQ.
        apply allocs_same with (s := sh s); [|apply U]. intros a o' A J. destruct (Hn _ _ A) as [[-> ->]|[NA A']]; [cbn in J; congruence|]. eauto.
    + injection X as <- <-. apply Q1; auto; try congruence. left. repeat constructor; auto.
    + (* StoreId *) destruct (heap (sh s) a) as [o|] eqn:HA; [|discriminate]. injection X as <- <-.
      match goal with |- uniq (set_todo s ?z i _) => set (t := z) in * end.
      assert (SK : samekeys (sh s) t). { intros b o' A. cbn in A. destruct (Nat.eqb b a) eqn:QQ; [|eauto]. apply Nat.eqb_eq in QQ. subst b. injection A as <-. eauto. }
      eapply uniq_step; eauto; [|left; auto].
      intros b o' A. cbn in A. destruct (Nat.eqb b a) eqn:QQ.
      * apply Nat.eqb_eq in QQ. subst b. injection A as <-. cbn. destruct (o_stage o) eqn:QS; auto; right; left; exists o; repeat split; congruence.
      * destruct (o_stage o') eqn:QS; auto; right; left; exists o'; repeat split; congruence.
    + (* Link *) destruct (heap (sh s) a) as [o|] eqn:HA; [|discriminate].
      assert (S' : made (sh s) i k a).
      { destruct TH as (h & _ & _ & _ & _ & S). remember (Link k a :: r) as l. destruct S; try discriminate; [injection Heql as <- <- <-; auto|]. subst. inversion H as [|? ? Y]; destruct Y. }
      injection X as <- <-.
      match goal with |- uniq (set_todo s ?z i _) => set (t := z) in * end.
      assert (SK : samekeys (sh s) t). { intros b o' A. cbn in A. destruct (Nat.eqb b a) eqn:QQ; [|eauto]. apply Nat.eqb_eq in QQ. subst b. injection A as <-. eauto. }
      eapply uniq_step; eauto; [|left; auto].
      intros b o' A. cbn in A. destruct (Nat.eqb b a) eqn:QQ.
      * injection A as <-. cbn. auto.
      * apply Nat.eqb_neq in QQ. destruct (o_stage o') eqn:QS; auto; right; left; exists o'; repeat split; congruence.
    + injection X as <- <-. apply Q1; auto; try congruence. left. repeat constructor; auto.
    + destruct (heap (sh s) a) as [o|] eqn:HA; [|discriminate]. injection X as <- <-. apply Q; try congruence; [apply soft_set; auto|left; auto].
    + injection X as <- <-. apply Q1; auto; try congruence. left. apply Forall_app. split; auto. apply map_noalloc. intros; exact I.
    + destruct (heap (sh s) a) as [o|]; [|discriminate]. injection X as <- <-. apply Q1; auto; try congruence. left. apply Forall_app. split; auto. destruct (o_kind o), (c_timer ch); repeat constructor.
    + destruct (heap (sh s) a) as [o|]; [|discriminate]. injection X as <- <-. apply Q1; auto; try congruence. left. cbn. constructor; [exact I|]. apply Forall_app. split; auto. destruct (c_timer ch); [|constructor]. destruct (Nat.eqb _ _); repeat constructor.
    + destruct l; injection X as <- <-; apply Q1; auto; try congruence; left; repeat constructor; auto.
    + injection X as <- <-. apply Q1; auto; try congruence. left. apply Forall_app. split; auto.
      assert (V : Forall noalloc match m with MTable ICT => map Size (table (sh s) ICT) | MTable k => map Touch (table (sh s) k) | _ => [] end).
      { destruct m as [[]| | |]; try (apply map_noalloc; intros; exact I); constructor. }
      destruct (c_stop ch); apply Forall_app; (split; [auto using firstn_noalloc|repeat constructor]).
    + injection X as <- <-. apply Q1; auto; try congruence. left. repeat constructor; auto.
    + injection X as <- <-. apply Q1; auto; try congruence. left. repeat constructor; auto.
    + injection X as <- <-. apply Q1; auto; try congruence. left. cbn. constructor; [exact I|]. apply Forall_app. split; auto. apply map_noalloc. intros; exact I.
    + destruct (heap (sh s) a) as [o|] eqn:HA; [|discriminate]. destruct (fifo_claim (o_fifo o)) as [f|] eqn:FC; injection X as <- <-.
      * apply Q; try congruence; [apply soft_set; auto|left; repeat constructor; auto].
      * apply Q1; auto; try congruence. left; auto.
    + destruct (heap (sh s) a) as [o|] eqn:HA; [|discriminate]. destruct (fifo_take (o_fifo o)) as [q f] eqn:FC. injection X as <- <-.
      apply Q; try congruence; [apply soft_set; auto|left]. cbn. constructor; [exact I|]. apply Forall_app. split; auto. destruct q; repeat constructor.
    + injection X as <- <-. apply Q; try congruence; [|left; repeat constructor; auto]. split; auto. intros b. cbn. destruct (heap (sh s) b); eauto 8.
    + (* Callback *) destruct (c_call ch) as [c|] eqn:CC; injection X as <- <-; apply Q1; auto; try congruence.
      * rewrite <- app_assoc. eapply allocs_begin; [auto| |cbn; constructor; [exact I|auto]]. unfold fits in F. cbn in F. rewrite TI, CC in F. exact F.
      * left; auto.
    + (* Unlink *) destruct (heap (sh s) a) as [o|] eqn:HA; [|discriminate].
      assert (S' : ending w (sh s) i k a Linked /\ r = [Unlock (MTable k); Dispose a]).
      { destruct TH as (h & _ & _ & _ & _ & S). remember (Unlink k a :: r) as l. destruct S; try discriminate; [injection Heql as <- <- <-; auto|]. subst. inversion H as [|? ? Y]; destruct Y. }
      destruct S' as [(o1 & E1 & E2 & E3 & E4) RE]. rewrite HA in E1. injection E1 as <-.
      injection X as <- <-.
      match goal with |- uniq (set_todo s ?z i _) => set (t := z) in * end.
      assert (SK : samekeys (sh s) t). { intros b o' A. cbn in A. destruct (Nat.eqb b a) eqn:QQ; [|eauto]. apply Nat.eqb_eq in QQ. subst b. injection A as <-. eauto. }
      eapply uniq_step; eauto; [|left; auto].
      intros b o' A. cbn in A. destruct (Nat.eqb b a) eqn:QQ.
      * apply Nat.eqb_eq in QQ. subst b. injection A as <-. right. right. rewrite RE. cbn. split; auto. congruence.
      * destruct (o_stage o') eqn:QS; auto; right; left; exists o'; repeat split; congruence.
    + (* Dispose *) injection X as <- <-.
      match goal with |- uniq (set_todo s ?z i _) => set (t := z) in * end.
      assert (Hn : forall b o, heap t b = Some o -> b <> a /\ heap (sh s) b = Some o).
      { intros b o H. cbn in H. destruct (Nat.eqb b a) eqn:QQ; [discriminate|]. apply Nat.eqb_neq in QQ. auto. }
      eapply uniq_step; eauto; [| |left; auto].
      * intros b o' A. apply Hn in A. exists o'. tauto.
      * intros b o' A. apply Hn in A. destruct A as [NB A]. destruct (o_stage o') eqn:QS; auto; right; left; exists o'; repeat split; congruence.
    + injection X as <- <-. apply Q1; auto; try congruence. left; auto.
Qed.

Theorem reach_uniq : forall s, reach (one_source w) s -> inv w s /\ uniq s.
Proof.
  intros s R. split; [apply reach_inv; apply reach_source; auto|]. induction R; [apply uniq_start|].
  eapply uniq_move; eauto. apply reach_inv. apply reach_source. auto.
Qed.
End Worker.

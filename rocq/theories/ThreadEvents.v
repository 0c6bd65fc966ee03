(** Consequences of the invariant: no undefined behaviour, no deadlock, and what happens to events
    (C69, C70). *)
From Coq Require Import ZArith Bool List Lia ZifyBool ZifyNat Relations.
From Verif Require Import Base Str Types TransModel FifoModel ThreadModel ThreadSpec ThreadProofs.
Import ListNotations.
Open Scope nat_scope.

Lemma owns_held : forall s i m, owner s m = Some i -> owns s i m = true.
Proof. intros s i m H. unfold owns. rewrite H. apply Nat.eqb_refl. Qed.

Lemma live_not_dead : forall s a o, heap s a = Some o -> dead s a = false.
Proof. intros s a o H. unfold dead. rewrite H. auto. Qed.

Section Worker.
Variable w : fsm -> tid.

Lemma table_live : forall s k, global s -> existsb (dead s) (table s k) = false.
Proof.
  intros s k G. destruct (existsb (dead s) (table s k)) eqn:E; auto. apply existsb_exists in E. destruct E as (a & A & B).
  apply (g_table _ G) in A. destruct A as (o & A & _). rewrite (live_not_dead _ _ _ A) in B. discriminate.
Qed.

Theorem inv_fine : forall s i x r, inv w s -> todo s i = x :: r -> bad (sh s) i x = false.
Proof.
  intros s i x r [G T] E. specialize (T i). rewrite E in T. destruct T as (h & D & O & A & [N R] & S).
  assert (OH : forall m, In m h -> owns (sh s) i m = true) by (intros m M; apply owns_held; apply O; auto).
  assert (NH : forall m, below (rank m) h = true -> owns (sh s) i m = false).
  { intros m B. destruct (owns (sh s) i m) eqn:Q; auto. unfold owns in Q. destruct (owner (sh s) m) as [j|] eqn:QQ; [|discriminate].
    apply Nat.eqb_eq in Q. subst j. apply O in QQ. pose proof (below_in _ _ _ B QQ). lia. }
  assert (LV : forall kept a, safe w (sh s) i kept a -> dead (sh s) a = false) by (intros kept a (o & H & _); eapply live_not_dead; eauto).
  assert (LO : forall a, owned w (sh s) i a -> dead (sh s) a = false) by (intros a (o & H & _); eapply live_not_dead; eauto).
  cbn [afters] in A. destruct (after h x) as [h1|] eqn:AF; [|discriminate].
  assert (MK : forall k a, making (sh s) i k a -> dead (sh s) a = false) by (intros k a (o & H & _); eapply live_not_dead; eauto).
  assert (MD : forall k a, made (sh s) i k a -> dead (sh s) a = false) by (intros k a (o & v & H & _); eapply live_not_dead; eauto).
  assert (ED : forall k a g, ending w (sh s) i k a g -> dead (sh s) a = false) by (intros k a g (o & H & _); eapply live_not_dead; eauto).
  destruct x; cbn in AF, N |- *; eauto.
  - (* Lock *) destruct (below (rank m) h) eqn:B; [|discriminate]. rewrite (NH _ B). destruct m; cbn; eauto.
  - (* Unlock *) destruct h as [|n h]; [discriminate|]. destruct (mutex_eqb m n) eqn:Q; [|discriminate]. apply mutex_eqb_eq in Q. subst n.
    rewrite OH by (cbn; auto). destruct m; cbn; eauto.
  - (* Find *) destruct h as [|[j| | |] h]; try discriminate. destruct (kind_eqb j (ev_kind e)) eqn:Q; [|discriminate]. apply kind_eqb_eq in Q. subst j.
    rewrite OH by (cbn; auto). rewrite table_live; auto.
  - (* LoadId *) destruct h as [|[]]; try discriminate. rewrite OH by (cbn; auto). cbn.
    remember (LoadId a :: r) as l. destruct S; try discriminate; [injection Heql as <- <-; eauto|]. subst. inversion H as [|? ? X]; destruct X.
  - (* StoreId *) destruct h as [|[]]; try discriminate. rewrite OH by (cbn; auto). cbn.
    remember (StoreId a v :: r) as l. destruct S; try discriminate; [injection Heql as <- <-; eauto|]. subst. inversion H as [|? ? X]; destruct X.
  - (* Link *) destruct h as [|[j| | |]]; try discriminate. destruct (kind_eqb j k) eqn:Q; [|discriminate]. apply kind_eqb_eq in Q. subst j. rewrite OH by (cbn; auto). cbn.
    remember (Link k a :: r) as l. destruct S; try discriminate; [injection Heql as <- <- <-; eauto|]. subst. inversion H as [|? ? X]; destruct X.
  - (* Append *) destruct h as [|[]]; try discriminate. destruct (Nat.eqb a a0) eqn:Q; [|discriminate]. apply Nat.eqb_eq in Q. subst a0.
    rewrite OH by (cbn; auto). cbn. eauto.
  - (* PollTable *) destruct h as [|[j| | |]]; try discriminate. destruct (kind_eqb j k) eqn:Q; [|discriminate]. apply kind_eqb_eq in Q. subst j. rewrite OH by (cbn; auto). auto.
  - (* Peek *) destruct h as [|[]]; try discriminate. destruct (Nat.eqb a a0) eqn:Q; [|discriminate]. apply Nat.eqb_eq in Q. subst a0.
    rewrite OH by (cbn; auto). cbn. eauto.
  - (* Scan *) destruct h as [|n []]; try discriminate. destruct (mutex_eqb m n) eqn:Q; [|discriminate]. apply mutex_eqb_eq in Q. subst n. rewrite OH by (cbn; auto). auto.
  - (* Snapshot *) destruct h as [|[j| | |] []]; try discriminate. destruct (kind_eqb j k) eqn:Q; [|discriminate]. apply kind_eqb_eq in Q. subst j. rewrite OH by (cbn; auto). auto.
  - (* Take *) destruct h as [|[] []]; try discriminate. destruct (Nat.eqb a a0) eqn:Q; [|discriminate]. apply Nat.eqb_eq in Q. subst a0.
    rewrite OH by (cbn; auto). cbn. eauto.
  - (* Unlink *) destruct h as [|[j| | |] []]; try discriminate. destruct (kind_eqb j k) eqn:Q; [|discriminate]. apply kind_eqb_eq in Q. subst j.
    rewrite OH by (cbn; auto). cbn. rewrite table_live by auto. rewrite orb_false_r.
    remember (Unlink k a :: r) as l. destruct S; try discriminate; [injection Heql as <- <- <-; eauto|]. subst. inversion H as [|? ? X]; destruct X.
  - (* Dispose *) remember (Dispose a :: r) as l. destruct S; try discriminate; [injection Heql as <- <-; eauto|]. subst. inversion H as [|? ? X]; destruct X.
  - (* IxtEdit *) destruct h as [|[]]; try discriminate. rewrite OH by (cbn; auto). auto.
Qed.

(** * No deadlock *)

(** Every step but taking a mutex can always be made. *)
Lemma exec_some : forall s i x, bad s i x = false ->
  (exists t pre, exec (mkCh None None None) s i x = Some (t, pre)) \/ exists m j, x = Lock m /\ owner s m = Some j /\ j <> i.
Proof.
  intros s i x B.
  assert (LV : forall a, dead s a = false -> exists o, heap s a = Some o). { intros a. unfold dead. destruct (heap s a); [eauto|discriminate]. }
  destruct x; cbn in B |- *; eauto.
  - destruct (owner s m) as [j|] eqn:O; [|eauto]. right. exists m, j. split; auto. split; auto. intros ->.
    rewrite (owns_held s i m O) in B. discriminate.
  - destruct (find _ _); eauto.
  - apply orb_false_elim in B. destruct (LV a) as [o ->]; eauto. tauto.
  - apply orb_false_elim in B. destruct (LV a) as [o ->]; eauto. tauto.
  - apply orb_false_elim in B. destruct (LV a) as [o ->]; eauto. tauto.
  - destruct (LV a) as [o ->]; eauto.
  - apply orb_false_elim in B. destruct (LV a) as [o ->]; eauto. tauto.
  - destruct l; eauto.
  - destruct (LV a) as [o ->]; auto. destruct (fifo_claim (o_fifo o)); eauto.
  - apply orb_false_elim in B. destruct (LV a) as [o ->]; [tauto|]. destruct (fifo_take (o_fifo o)); eauto.
  - apply orb_false_elim in B. destruct B as [B _]. apply orb_false_elim in B. destruct (LV a) as [o ->]; eauto. tauto.
Qed.

Lemma inv_go : forall s i, inv w s -> todo s i <> [] -> can_go s i \/ exists m r j, todo s i = Lock m :: r /\ owner (sh s) m = Some j /\ j <> i.
Proof.
  intros s i I N. destruct (todo s i) as [|x r] eqn:T; [congruence|]. pose proof (inv_fine s i x r I T) as B.
  destruct (exec_some _ _ _ B) as [(t & pre & E)|(m & j & -> & O & Q)].
  - left. exists (mkCh None None None), (set_todo s t i (pre ++ r)). cbn. rewrite T, B, E. auto.
  - right. exists m, r, j. auto.
Qed.

Lemma rank_max : forall m, rank m <= 2.
Proof. destruct m; cbn; lia. Qed.

Lemma inv_chain : forall s, inv w s -> forall n i, todo s i <> [] ->
  (forall m r, todo s i = Lock m :: r -> 3 - rank m <= n) ->
  exists j, clos_refl_trans tid (waits s) i j /\ can_go s j.
Proof.
  intros s I n. induction n; intros i N B.
  - destruct (inv_go s i I N) as [C|(m & r & j & T & _)]; [exists i; split; auto; apply rt_refl|]. specialize (B m r T). pose proof (rank_max m). lia.
  - destruct (inv_go s i I N) as [C|(m & r & j & T & O & Q)]; [exists i; split; auto; apply rt_refl|].
    destruct I as [G TH]. pose proof (TH j) as (h & D & OH & A & R & S). assert (M : In m h) by (apply OH; auto).
    assert (NJ : todo s j <> []). { intros E. rewrite E in A. cbn in A. injection A as ->. destruct M. }
    destruct (IHn j NJ) as (l & CH & GO).
    { intros m' r' T'. rewrite T' in A. cbn [afters after] in A. destruct (below (rank m') h) eqn:BB; [|discriminate].
      pose proof (below_in _ _ _ BB M). specialize (B m r T). pose proof (rank_max m'). lia. }
    exists l. split; auto. eapply rt_trans; [|exact CH]. apply rt_step. exists m, r. auto.
Qed.

(** * Events *)

Fixpoint takes (a : addr) (l : list instr) : nat :=
  match l with
  | [] => 0
  | Take b :: r => (if Nat.eqb b a then 1 else 0) + takes a r
  | _ :: r => takes a r
  end.

Lemma in_hand_app : forall a l r, in_hand a (l ++ r) = in_hand a l ++ in_hand a r.
Proof. induction l as [|x l IH]; intros; cbn; auto. destruct x; auto. destruct (Nat.eqb a0 a); cbn; congruence. Qed.
Lemma takes_app : forall a l r, takes a (l ++ r) = takes a l + takes a r.
Proof. induction l as [|x l IH]; intros; cbn; auto. destruct x; auto. rewrite IH. lia. Qed.
Lemma in_hand_plain : forall a l, Forall plain l -> in_hand a l = [].
Proof. induction l as [|x l IH]; intros F; auto. inversion F; subst. destruct x; cbn in *; auto; tauto. Qed.

Lemma not_owned : forall s i a l kept, refs w s i kept l -> ~ owned w s i a -> in_hand a l = [] /\ takes a l = 0.
Proof.
  induction l as [|x l IH]; intros kept R N; auto. destruct R as [X R]. destruct (IH _ R N) as [A B].
  destruct x; cbn in *; auto; destruct (Nat.eqb a0 a) eqn:Q; auto; apply Nat.eqb_eq in Q; subst a0; tauto.
Qed.

Lemma of_app : forall a l r, of a (l ++ r) = of a l ++ of a r.
Proof. intros. unfold of. rewrite filter_app, map_app. auto. Qed.
Lemma of_one : forall a b e, of a [(b, e)] = if Nat.eqb b a then [e] else [].
Proof. intros. unfold of. cbn. destruct (Nat.eqb b a); auto. Qed.
Lemma of_all : forall a b q, of a (map (pair b) q) = if Nat.eqb b a then q else [].
Proof.
  intros. unfold of. induction q; cbn; [destruct (Nat.eqb b a); auto|]. destruct (Nat.eqb b a) eqn:Q; cbn in *; rewrite ?Q in *; congruence.
Qed.

Definition fifo_ok (a : addr) (o : tobj) (l : list instr) : Prop :=
  (f_empty (o_fifo o) = true <-> f_queue (o_fifo o) = []) /\ f_sem (o_fifo o) + takes a l = length (f_queue (o_fifo o)).

Definition events (s : system) : Prop := forall a,
  match heap (sh s) a with
  | Some o => of a (accepted (sh s)) = of a (executed (sh s)) ++ in_hand a (todo s (w (o_kind o))) ++ f_queue (o_fifo o)
              /\ of a (released (sh s)) = [] /\ fifo_ok a o (todo s (w (o_kind o)))
  | None => of a (accepted (sh s)) = of a (executed (sh s)) ++ of a (released (sh s))
            /\ (brk (sh s) <= a -> of a (accepted (sh s)) = [])
  end.

(** A step that moves no event. *)
Lemma events_quiet : forall s t i l, events s ->
  accepted t = accepted (sh s) -> executed t = executed (sh s) -> released t = released (sh s) -> brk t = brk (sh s) ->
  (forall a, match heap (sh s) a with
             | Some o => exists o', heap t a = Some o' /\ o_kind o' = o_kind o /\ o_fifo o' = o_fifo o
             | None => heap t a = None end) ->
  (forall a, in_hand a l = in_hand a (todo s i) /\ takes a l = takes a (todo s i)) -> events (set_todo s t i l).
Proof.
  intros s t i l E A X R B H T a. specialize (E a). specialize (H a).
  assert (TT : forall j, in_hand a (todo (set_todo s t i l) j) = in_hand a (todo s j) /\ takes a (todo (set_todo s t i l) j) = takes a (todo s j)).
  { intros j. cbn. destruct (Nat.eqb j i) eqn:Q; auto. apply Nat.eqb_eq in Q. subst j. apply T. }
  change (sh (set_todo s t i l)) with t. rewrite A, X, R, B. destruct (heap (sh s) a) as [o|].
  - destruct H as (o' & -> & K & F). unfold fifo_ok. rewrite K, F. destruct (TT (w (o_kind o))) as [T1 T2]. rewrite T1, T2. auto.
  - rewrite H. auto.
Qed.

Lemma quiet_same : forall s a, match heap s a with
  | Some o => exists o', heap s a = Some o' /\ o_kind o' = o_kind o /\ o_fifo o' = o_fifo o | None => heap s a = None end.
Proof. intros s a. destruct (heap s a) as [o|]; eauto. Qed.

Definition still (x : instr) : Prop := match x with Take _ | Exec _ _ => False | _ => True end.
Lemma still_none : forall a l, Forall still l -> in_hand a l = [] /\ takes a l = 0.
Proof. induction l as [|x l IH]; intros F; auto. inversion F; subst. destruct x; cbn in *; tauto. Qed.

Lemma begin_still : forall s c, Forall still (begin s c).
Proof. intros s c. destruct c; cbn; try (repeat constructor; fail). destruct (heap s a); repeat constructor. Qed.

Lemma map_still : forall (f : addr -> instr) l, (forall a, still (f a)) -> Forall still (map f l).
Proof. intros f l H. induction l; cbn; auto. Qed.

Lemma firstn_still : forall n l, Forall still l -> Forall still (firstn n l).
Proof. intros n l F. revert n. induction F; intros [|n]; cbn; auto. Qed.

Theorem events_start : events start.
Proof. intros a. cbn. auto. Qed.

Theorem events_move : forall s x s', inv w s -> events s -> fits (one_worker w) s x = true -> move s x = Some s' -> events s'.
Proof.
  intros s x s' [G T] E U M. destruct x as [i c|i ch].
  - cbn in M. destruct (todo s i) eqn:TI; [|discriminate]. injection M as <-. apply events_quiet; auto; try exact (quiet_same (sh s)).
    intros a. rewrite TI. apply still_none. apply begin_still.
  - cbn in M. destruct (todo s i) as [|y r] eqn:TI; [discriminate|]. destruct (bad (sh s) i y) eqn:BD; [discriminate|].
    destruct (exec ch (sh s) i y) as [[t pre]|] eqn:X; [|discriminate]. injection M as <-.
    pose proof (T i) as TH. rewrite TI in TH.
    assert (Q : t = sh s -> still y -> Forall still pre -> events (set_todo s t i (pre ++ r))).
    { intros -> Y P. apply events_quiet; auto; try exact (quiet_same (sh s)). intros a. rewrite TI. rewrite in_hand_app, takes_app.
      destruct (still_none a pre P) as [-> ->]. destruct y; cbn in *; auto; tauto. }
    assert (Q2 : forall o a, heap (sh s) a = Some o -> forall o', o_kind o' = o_kind o -> o_fifo o' = o_fifo o ->
              heap t = (fun b => if Nat.eqb b a then Some o' else heap (sh s) b) -> accepted t = accepted (sh s) -> executed t = executed (sh s) ->
              released t = released (sh s) -> brk t = brk (sh s) -> still y -> pre = [] -> events (set_todo s t i (pre ++ r))).
    { intros o a HA o' K F HP AC EX RE BR Y ->. apply events_quiet; auto.
      - intros b. rewrite HP. destruct (Nat.eqb b a) eqn:QQ; [|apply quiet_same]. apply Nat.eqb_eq in QQ. subst b. rewrite HA. eauto.
      - intros b. rewrite TI. cbn. destruct y; cbn in *; auto; tauto. }
    destruct y; cbn [exec] in X.
    + (* Lock *) destruct (owner (sh s) m); [discriminate|]. injection X as <- <-. apply events_quiet; auto; try exact (quiet_same (sh s)). intros a. rewrite TI. auto.
    + injection X as <- <-. apply events_quiet; auto; try exact (quiet_same (sh s)). intros a. rewrite TI. auto.
    + destruct (find _ _); injection X as <- <-; apply Q; auto; try exact I; repeat constructor. destruct create; repeat constructor.
    + (* Alloc *) remember (brk (sh s)) as a eqn:HA. assert (FR : heap (sh s) a = None). { destruct (heap (sh s) a) eqn:H; auto. apply (g_brk _ G) in H. lia. }
      assert (P : Forall still pre). { injection X as <- <-. repeat constructor. destruct first; repeat constructor. }
      injection X as <- PE. clear PE.
      intros b. cbn [sh set_todo heap todo accepted executed released brk set_obj].
      assert (TT : forall j, in_hand b (if Nat.eqb j i then pre ++ r else todo s j) = in_hand b (todo s j) /\ takes b (if Nat.eqb j i then pre ++ r else todo s j) = takes b (todo s j)).
      { intros j. destruct (Nat.eqb j i) eqn:QQ; auto. apply Nat.eqb_eq in QQ. subst j. rewrite TI, in_hand_app, takes_app. destruct (still_none b pre P) as [-> ->]. auto. }
      pose proof (E b) as EB. destruct (Nat.eqb b a) eqn:QB.
      * apply Nat.eqb_eq in QB. subst b. rewrite FR in EB. destruct EB as [E1 E2]. rewrite <- HA in E2. specialize (E2 (le_n _)). rewrite E2 in E1 |- *.
        symmetry in E1. apply app_eq_nil in E1. destruct E1 as [-> ->]. cbn [o_kind o_fifo fifo_init f_queue f_sem f_empty length].
        destruct (TT (w k)) as [-> T2]. unfold fifo_ok. rewrite T2. destruct (T (w k)) as (h & _ & _ & _ & RR & _).
        destruct (not_owned _ _ a _ _ RR) as [-> ->]; [|cbn; intuition]. intros (o & H & _). congruence.
      * destruct (heap (sh s) b) as [o|].
        -- destruct (TT (w (o_kind o))) as [-> T2]. unfold fifo_ok. rewrite T2. auto.
        -- split; [apply EB|]. intros L. apply EB. lia.
    + injection X as <- <-. apply Q; auto; try exact I; repeat constructor.
    + destruct (heap (sh s) a) as [o|] eqn:HA; [|discriminate]. injection X as <- <-. apply (Q2 o a HA (mkT (o_kind o) (o_key o) (Some v) (o_fifo o) (o_stage o))); auto; exact I.
    + destruct (heap (sh s) a) as [o|] eqn:HA; [|discriminate]. injection X as <- <-. apply (Q2 o a HA (set_stage o Linked)); auto; exact I.
    + injection X as <- <-. apply Q; auto; try exact I; repeat constructor.
    + (* Append *) destruct (heap (sh s) a) as [o|] eqn:HA; [|discriminate]. injection X as <- <-.
      intros b. cbn [sh set_todo heap todo accepted executed released brk set_obj].
      assert (TT : forall j, in_hand b (if Nat.eqb j i then [] ++ r else todo s j) = in_hand b (todo s j) /\ takes b (if Nat.eqb j i then [] ++ r else todo s j) = takes b (todo s j)).
      { intros j. destruct (Nat.eqb j i) eqn:QQ; auto. apply Nat.eqb_eq in QQ. subst j. rewrite TI. auto. }
      pose proof (E b) as EB. rewrite of_app, of_one, (Nat.eqb_sym a b). destruct (Nat.eqb b a) eqn:QB.
      * apply Nat.eqb_eq in QB. subst b. rewrite HA in EB. destruct EB as (E1 & E2 & E3 & E4). cbn [o_kind o_fifo set_fifo fifo_add f_queue f_sem f_empty].
        destruct (TT (w (o_kind o))) as [-> T2]. unfold fifo_ok. rewrite T2. cbn [o_kind o_fifo set_fifo fifo_add f_queue f_sem f_empty].
        split; [rewrite E1, <- !app_assoc; auto|]. split; auto. split; [|rewrite app_length; cbn; lia]. split; [discriminate|]. intros Z. apply app_eq_nil in Z. destruct Z; discriminate.
      * rewrite app_nil_r. destruct (heap (sh s) b) as [p|]; auto. destruct (TT (w (o_kind p))) as [-> T2]. unfold fifo_ok. rewrite T2. auto.
    + injection X as <- <-. apply Q; auto; try exact I. apply map_still. intros; exact I.
    + destruct (heap (sh s) a) as [o|]; [|discriminate]. injection X as <- <-. apply Q; auto; try exact I. destruct (o_kind o), (c_timer ch); repeat constructor.
    + destruct (heap (sh s) a) as [o|]; [|discriminate]. injection X as <- <-. apply Q; auto; try exact I. constructor; [exact I|]. destruct (c_timer ch); [|constructor]. destruct (Nat.eqb _ _); repeat constructor.
    + destruct l; injection X as <- <-; apply Q; auto; try exact I; repeat constructor.
    + injection X as <- <-. apply Q; auto; try exact I.
      assert (V : Forall still match m with MTable ICT => map Size (table (sh s) ICT) | MTable k => map Touch (table (sh s) k) | _ => [] end).
      { destruct m as [[]| | |]; try (apply map_still; intros; exact I); constructor. }
      destruct (c_stop ch); apply Forall_app; (split; [auto using firstn_still|repeat constructor]).
    + injection X as <- <-. apply Q; auto; try exact I; repeat constructor.
    + injection X as <- <-. apply Q; auto; try exact I; repeat constructor.
    + injection X as <- <-. apply Q; auto; try exact I. constructor; [exact I|]. apply map_still. intros; exact I.
    + (* Drain *) destruct (heap (sh s) a) as [o|] eqn:HA; [|discriminate]. destruct (fifo_claim (o_fifo o)) as [f|] eqn:FC.
      2:{ injection X as <- <-. apply Q; auto; exact I. }
      destruct TH as (h & _ & _ & _ & [N _] & _). cbn in N. destruct N as (o' & N1 & N2). rewrite HA in N1. injection N1 as <-.
      injection X as <- <-. unfold fifo_claim in FC. destruct (f_sem (o_fifo o)) as [|n] eqn:SEM; [discriminate|]. injection FC as <-.
      intros b. cbn [sh set_todo heap todo accepted executed released brk set_obj].
      pose proof (E b) as EB. destruct (Nat.eqb b a) eqn:QB.
      * apply Nat.eqb_eq in QB. subst b. rewrite HA in EB. destruct EB as (E1 & E2 & E3 & E4). rewrite <- N2, TI in E1, E4. unfold fifo_ok.
        cbn [o_kind o_fifo set_fifo f_queue f_sem f_empty]. rewrite <- N2, Nat.eqb_refl. cbn. rewrite Nat.eqb_refl. cbn in E1, E4. rewrite SEM in E4. split; auto. split; auto. split; auto. lia.
      * destruct (heap (sh s) b) as [p|]; auto. unfold fifo_ok in *. destruct (Nat.eqb (w (o_kind p)) i) eqn:QW; auto. apply Nat.eqb_eq in QW. rewrite QW, TI in EB. cbn in EB |- *. rewrite (Nat.eqb_sym a b), QB. auto.
    + (* Take *) destruct (heap (sh s) a) as [o|] eqn:HA; [|discriminate]. destruct (fifo_take (o_fifo o)) as [q f] eqn:FT.
      assert (PR : Forall plain r) by (destruct TH as (h & _ & _ & _ & _ & S); eapply (simple_rest w (sh s) i (Take a)); [|exact S]; exact I).
      destruct TH as (h & _ & _ & _ & [N _] & _). cbn in N. destruct N as (o' & N1 & N2). rewrite HA in N1. injection N1 as <-.
      injection X as <- <-.
      pose proof (E a) as EA. rewrite HA in EA. destruct EA as (E1 & E2 & E3 & E4). rewrite <- N2, TI in E1, E4. cbn in E1, E4. rewrite Nat.eqb_refl in E4.
      unfold fifo_take in FT. destruct (f_empty (o_fifo o)) eqn:EM. { destruct E3 as [E3 _]. rewrite (E3 eq_refl) in E4. cbn in E4. lia. }
      destruct (f_queue (o_fifo o)) as [|e q'] eqn:FQ; [destruct E3 as [_ E3]; discriminate (E3 eq_refl)|]. cbn in FT. injection FT as <- <-.
      intros b. cbn [sh set_todo heap todo accepted executed released brk set_obj].
      pose proof (E b) as EB. destruct (Nat.eqb b a) eqn:QB.
      * apply Nat.eqb_eq in QB. subst b. unfold fifo_ok. cbn [o_kind o_fifo set_fifo f_queue f_sem f_empty]. rewrite <- N2, Nat.eqb_refl. cbn. rewrite Nat.eqb_refl.
        rewrite in_hand_plain in E1 |- * by auto. split; auto. split; auto. split; [destruct q'; split; congruence|]. cbn in E4. lia.
      * destruct (heap (sh s) b) as [p|]; auto. unfold fifo_ok in *. destruct (Nat.eqb (w (o_kind p)) i) eqn:QW; auto. apply Nat.eqb_eq in QW. rewrite QW, TI in EB. cbn in EB |- *. rewrite (Nat.eqb_sym a b), QB in *. auto.
    + (* Exec *) injection X as <- <-. destruct TH as (h & _ & _ & _ & [N _] & _). cbn in N. destruct N as (o & HA & N2).
      intros b. cbn [sh set_todo heap todo accepted executed released brk].
      pose proof (E b) as EB. rewrite of_app, of_one. destruct (Nat.eqb a b) eqn:QB.
      * apply Nat.eqb_eq in QB. subst b. rewrite HA in EB |- *. destruct EB as (E1 & E2 & E3). rewrite <- N2, TI in E1, E3. unfold fifo_ok in *. rewrite <- N2, Nat.eqb_refl. cbn in E1, E3 |- *.
        rewrite Nat.eqb_refl in E1. split; auto. rewrite E1, <- app_assoc. auto.
      * rewrite app_nil_r. destruct (heap (sh s) b) as [p|]; auto. unfold fifo_ok in *. destruct (Nat.eqb (w (o_kind p)) i) eqn:QW; auto. apply Nat.eqb_eq in QW. rewrite QW, TI in EB. cbn in EB |- *. rewrite QB in *. auto.
    + (* Callback *) destruct (c_call ch); injection X as <- <-; apply Q; auto; try exact I. apply Forall_app. split; [apply begin_still|repeat constructor].
    + destruct (heap (sh s) a) as [o|] eqn:HA; [|discriminate]. injection X as <- <-. apply (Q2 o a HA (set_stage o Unlinked)); auto; exact I.
    + (* Dispose *) injection X as <- <-. destruct TH as (h & _ & _ & _ & _ & S).
      assert (S' : (exists k, ending w (sh s) i k a Unlinked) /\ r = []).
      { remember (Dispose a :: r) as l. destruct S; try discriminate; [injection Heql as <- <-; eauto|]. subst. inversion H as [|? ? Y]; subst. destruct Y. }
      destruct S' as ((k & o & HA & HK & HG & HW) & ->).
      intros b. cbn [sh set_todo heap todo accepted executed released brk set_obj].
      pose proof (E b) as EB. rewrite of_app, of_all, (Nat.eqb_sym a b). destruct (Nat.eqb b a) eqn:QB.
      * apply Nat.eqb_eq in QB. subst b. rewrite HA in EB. destruct EB as (E1 & E2 & E3). rewrite HK, <- HW, TI in E1. cbn in E1. unfold queue_of. rewrite HA, E2. split; auto.
        intros L. apply (g_brk _ G) in HA. lia.
      * destruct (heap (sh s) b) as [p|]; rewrite ?app_nil_r; auto. unfold fifo_ok in *. destruct (Nat.eqb (w (o_kind p)) i) eqn:QW; auto. apply Nat.eqb_eq in QW. rewrite QW, TI in EB. cbn in EB |- *. auto.
    + injection X as <- <-. apply Q; auto; try exact I; repeat constructor.
Qed.

Theorem reach_events : forall s, reach (one_worker w) s -> inv w s /\ events s.
Proof.
  intros s R. split; [apply reach_inv; auto|]. induction R; [apply events_start|]. eapply events_move; eauto. apply reach_inv; auto.
Qed.

(** * A queue found empty is empty *)

Definition notake (x : instr) : Prop := match x with Take _ => False | _ => True end.
Definition claims (l : list instr) : Prop :=
  Forall notake l \/ (exists a r, l = Take a :: r /\ Forall notake r) \/ (exists m a r, l = Lock m :: Take a :: r /\ Forall notake r).

Lemma notake_takes : forall a l, Forall notake l -> takes a l = 0.
Proof. intros a l F. induction F as [|x l N F IH]; auto. destruct x; cbn in *; auto; tauto. Qed.

Lemma still_notake : forall l, Forall still l -> Forall notake l.
Proof. intros l F. eapply Forall_impl; [|exact F]. intros x. destruct x; cbn; auto. Qed.

Lemma exec_notake : forall ch s i x t pre, exec ch s i x = Some (t, pre) -> (forall a, x <> Drain a) -> Forall notake pre.
Proof.
  intros ch s i x t pre X N.
  assert (Z : match x with Take _ => True | _ => Forall still pre end).
  { destruct x; cbn [exec] in X; auto; try (injection X as <- <-; repeat constructor; fail);
      try (destruct (heap s a); [injection X as <- <-; repeat constructor|discriminate]; fail).
    - destruct (owner s m); [discriminate|]. injection X as <- <-. constructor.
    - destruct (find _ _); injection X as <- <-; repeat constructor. destruct create; repeat constructor.
    - injection X as <- <-. repeat constructor. destruct first; repeat constructor.
    - injection X as <- <-. apply map_still. intros; exact I.
    - destruct (heap s a) as [o|]; [|discriminate]. injection X as <- <-. destruct (o_kind o), (c_timer ch); repeat constructor.
    - destruct (heap s a) as [o|]; [|discriminate]. injection X as <- <-. constructor; [exact I|]. destruct (c_timer ch); [|constructor]. destruct (Nat.eqb _ _); repeat constructor.
    - destruct l; injection X as <- <-; repeat constructor.
    - injection X as <- <-.
      assert (V : Forall still match m with MTable ICT => map Size (table s ICT) | MTable k => map Touch (table s k) | _ => [] end).
      { destruct m as [[]| | |]; try (apply map_still; intros; exact I); constructor. }
      destruct (c_stop ch); apply Forall_app; (split; [auto using firstn_still|repeat constructor]).
    - injection X as <- <-. constructor; [exact I|]. apply map_still. intros; exact I.
    - destruct (N a eq_refl).
    - destruct (c_call ch); injection X as <- <-; [|constructor]. apply Forall_app. split; [apply begin_still|repeat constructor]. }
  destruct x; auto using still_notake. cbn [exec] in X. destruct (heap s a) as [o|]; [|discriminate]. destruct (fifo_take (o_fifo o)) as [q f].
  injection X as <- <-. constructor; [exact I|]. destruct q; repeat constructor.
Qed.

Lemma claims_move : forall s x s', (forall i, claims (todo s i)) -> move s x = Some s' -> forall i, claims (todo s' i).
Proof.
  intros s x s' C M j. destruct x as [i c|i ch].
  - cbn in M. destruct (todo s i) eqn:TI; [|discriminate]. injection M as <-. cbn. destruct (Nat.eqb j i); auto. left. apply still_notake. apply begin_still.
  - cbn in M. destruct (todo s i) as [|y r] eqn:TI; [discriminate|]. destruct (bad (sh s) i y) eqn:BD; [discriminate|].
    destruct (exec ch (sh s) i y) as [[t pre]|] eqn:X; [|discriminate]. injection M as <-. cbn. destruct (Nat.eqb j i) eqn:Q; auto. clear Q j.
    specialize (C i). rewrite TI in C.
    assert (DD : (exists a, y = Drain a) \/ forall a, y <> Drain a) by (destruct y; try (right; congruence); left; eauto).
    destruct C as [C|[(a & r' & C & D)|(m & a & r' & C & D)]].
    + inversion C as [|? ? N F]; subst. destruct DD as [[a ->]|DD].
      * cbn in X. destruct (heap (sh s) a) as [o|]; [|discriminate]. destruct (fifo_claim (o_fifo o)); injection X as <- <-; cbn; [right; right; eauto 6|left; auto].
      * left. apply Forall_app. split; eauto using exec_notake.
    + injection C as -> ->. left. apply Forall_app. split; auto. eapply exec_notake; eauto. congruence.
    + injection C as -> ->. cbn in X. destruct (owner (sh s) m); [discriminate|]. injection X as <- <-. right. left. exists a, r'. auto.
Qed.

Lemma reach_claims : forall u s, reach u s -> forall i, claims (todo s i).
Proof. intros u s R. induction R; [intros i; left; constructor|]. eapply claims_move; eauto. Qed.

(** * After an event the queue is looked at again *)

Definition noexec (x : instr) : Prop := match x with Exec _ _ => False | _ => True end.
Definition follows (l : list instr) : Prop :=
  match l with
  | Exec a _ :: r => exists r', r = Drain a :: r' /\ Forall noexec r'
  | Unlock _ :: Exec a _ :: r => exists r', r = Drain a :: r' /\ Forall noexec r'
  | _ => Forall noexec l
  end.
Lemma follows_none : forall l, Forall noexec l -> follows l.
Proof.
  intros l F. inversion F as [|x r N F']; subst; [constructor|]. destruct x; cbn in *; auto; [|tauto].
  inversion F' as [|y r' N' F'']; subst; auto. destruct y; auto. destruct N'.
Qed.
Lemma follows_tail : forall x r, follows (x :: r) -> noexec x -> (forall m, x <> Unlock m) -> Forall noexec r.
Proof. intros x r F N U. destruct x; try (inversion F; subst; auto; fail); [destruct (U m eq_refl)|destruct N]. Qed.
Lemma still_noexec : forall l, Forall still l -> Forall noexec l.
Proof. intros l F. eapply Forall_impl; [|exact F]. intros x. destruct x; cbn; auto. Qed.

Lemma exec_noexec : forall ch s i x t pre, exec ch s i x = Some (t, pre) -> (forall a, x <> Take a) -> Forall noexec pre.
Proof.
  intros ch s i x t pre X N. destruct x; cbn [exec] in X; auto; try (injection X as <- <-; repeat constructor; fail);
      try (destruct (heap s a); [injection X as <- <-; repeat constructor|discriminate]; fail).
  - destruct (owner s m); [discriminate|]. injection X as <- <-. constructor.
  - destruct (find _ _); injection X as <- <-; repeat constructor. destruct create; repeat constructor.
  - injection X as <- <-. repeat constructor. destruct first; repeat constructor.
  - injection X as <- <-. apply still_noexec. apply map_still. intros; exact I.
  - destruct (heap s a) as [o|]; [|discriminate]. injection X as <- <-. destruct (o_kind o), (c_timer ch); repeat constructor.
  - destruct (heap s a) as [o|]; [|discriminate]. injection X as <- <-. constructor; [exact I|]. destruct (c_timer ch); [|constructor]. destruct (Nat.eqb _ _); repeat constructor.
  - destruct l; injection X as <- <-; repeat constructor.
  - injection X as <- <-. apply still_noexec.
    assert (V : Forall still match m with MTable ICT => map Size (table s ICT) | MTable k => map Touch (table s k) | _ => [] end).
    { destruct m as [[]| | |]; try (apply map_still; intros; exact I); constructor. }
    destruct (c_stop ch); apply Forall_app; (split; [auto using firstn_still|repeat constructor]).
  - injection X as <- <-. constructor; [exact I|]. apply still_noexec. apply map_still. intros; exact I.
  - destruct (heap s a) as [o|]; [|discriminate]. destruct (fifo_claim (o_fifo o)); injection X as <- <-; repeat constructor.
  - destruct (N a eq_refl).
  - destruct (c_call ch); injection X as <- <-; [|constructor]. apply Forall_app. split; [apply still_noexec; apply begin_still|repeat constructor].
Qed.

Lemma follows_move : forall s x s', (forall i, follows (todo s i)) -> move s x = Some s' -> forall i, follows (todo s' i).
Proof.
  intros s x s' C M j. destruct x as [i c|i ch].
  - cbn in M. destruct (todo s i) eqn:TI; [|discriminate]. injection M as <-. cbn. destruct (Nat.eqb j i); auto. apply follows_none. apply still_noexec. apply begin_still.
  - cbn in M. destruct (todo s i) as [|y r] eqn:TI; [discriminate|]. destruct (bad (sh s) i y) eqn:BD; [discriminate|].
    destruct (exec ch (sh s) i y) as [[t pre]|] eqn:X; [|discriminate]. injection M as <-. cbn. destruct (Nat.eqb j i) eqn:Q; auto. clear Q j.
    specialize (C i). rewrite TI in C.
    destruct y; try (apply follows_none; apply Forall_app; split; [eapply exec_noexec; [exact X|congruence]|eapply follows_tail; [exact C|exact I|congruence]]).
    + (* Unlock *) injection X as <- <-. cbn [app]. destruct r as [|z r]; [constructor|].
      assert (D : (exists a e, z = Exec a e) \/ noexec z) by (destruct z; try (right; exact I); left; eauto).
      destruct D as [(a & e & ->)|D]; [exact C|]. apply follows_none. destruct z; try (inversion C; auto; fail). destruct D.
    + (* Take *) assert (NR : Forall noexec r) by (eapply follows_tail; [exact C|exact I|congruence]).
      cbn [exec] in X. destruct (heap (sh s) a) as [o|]; [|discriminate]. destruct (fifo_take (o_fifo o)) as [q f]. injection X as <- <-.
      destruct q as [e|]; cbn [app]; [cbn; eauto|]. apply follows_none. constructor; auto. exact I.
    + (* Exec *) injection X as <- <-. destruct C as (r' & -> & F). apply follows_none. repeat constructor; auto.
Qed.

Lemma reach_follows : forall u s, reach u s -> forall i, match todo s i with Exec a _ :: r => exists r', r = Drain a :: r' | _ => True end.
Proof.
  intros u s R. assert (F : forall i, follows (todo s i)) by (induction R; [intros i; constructor|eapply follows_move; eauto]).
  intros i. specialize (F i). destruct (todo s i) as [|[] r]; auto. destruct F as (r' & -> & _). eauto.
Qed.

Lemma serves_app : forall a l r, serves a (l ++ r) <-> serves a l \/ serves a r.
Proof.
  intros a l r. unfold serves. rewrite !in_app_iff. split.
  - intros [[X|X]|[[X|X]|[e X]]]; try tauto. apply in_app_or in X. destruct X; [left|right]; eauto.
  - intros [[X|[X|[e X]]]|[X|[X|[e X]]]]; try tauto; right; right; exists e; apply in_or_app; auto.
Qed.

(** The pass goes past a transaction only when it has executed all its events. *)
Theorem drained : forall s x s' i a, reach (one_worker w) s -> move s x = Some s' -> serves a (todo s i) -> ~ serves a (todo s' i) ->
  of a (accepted (sh s)) = of a (executed (sh s)).
Proof.
  intros s x s' i a R M SV NS. destruct (reach_events s R) as [[G T] E]. destruct x as [j c|j ch]; cbn in M.
  - destruct (todo s j) eqn:TJ; [|discriminate]. injection M as <-. cbn in NS. destruct (Nat.eqb i j) eqn:Q; [|tauto].
    apply Nat.eqb_eq in Q. subst j. rewrite TJ in SV. destruct SV as [[]|[[]|[? []]]].
  - destruct (todo s j) as [|y r] eqn:TJ; [discriminate|]. destruct (bad (sh s) j y) eqn:BD; [discriminate|].
    destruct (exec ch (sh s) j y) as [[t pre]|] eqn:X; [|discriminate]. injection M as <-. cbn in NS. destruct (Nat.eqb i j) eqn:Q; [|tauto].
    apply Nat.eqb_eq in Q. subst j. rewrite TJ in SV. rewrite serves_app in NS.
    assert (HD : y = Drain a \/ y = Take a \/ exists e, y = Exec a e).
    { destruct SV as [[X1|X1]|[[X1|X1]|[e [X1|X1]]]]; eauto; exfalso; apply NS; right; unfold serves; eauto. }
    pose proof (T i) as TH. rewrite TJ in TH.
    destruct HD as [->|[->|[e ->]]].
    + assert (PR : Forall plain r) by (destruct TH as (h & _ & _ & _ & _ & S); eapply (simple_rest w (sh s) i (Drain a)); [|exact S]; exact I).
      destruct TH as (h & _ & _ & _ & [(o & HA & W) _] & _). specialize (E a). rewrite HA in E. destruct E as (E1 & _ & _ & E4). rewrite <- W, TJ in E1, E4. cbn in E1, E4.
      pose proof (reach_claims _ _ R i) as C. rewrite TJ in C.
      assert (NT : Forall notake r). { destruct C as [C|[(b & r' & C & D)|(m & b & r' & C & D)]]; try discriminate. inversion C; auto. }
      rewrite (notake_takes a r NT) in E4. rewrite (in_hand_plain a r PR) in E1.
      cbn in X. rewrite HA in X. unfold fifo_claim in X. destruct (f_sem (o_fifo o)).
      * destruct (f_queue (o_fifo o)); [|discriminate]. rewrite E1, !app_nil_r. auto.
      * injection X as <- <-. exfalso. apply NS. left. right. left. cbn. auto.
    + destruct TH as (h & _ & _ & _ & [(o & HA & W) _] & _). specialize (E a). rewrite HA in E. destruct E as (E1 & _ & E3 & E4). rewrite <- W, TJ in E1, E4. cbn in E1, E4. rewrite Nat.eqb_refl in E4.
      cbn in X. rewrite HA in X. unfold fifo_take in X. destruct (f_empty (o_fifo o)). { destruct E3 as [E3 _]. rewrite (E3 eq_refl) in E4. cbn in E4. lia. }
      destruct (f_queue (o_fifo o)) as [|e q]; [destruct E3 as [_ E3]; discriminate (E3 eq_refl)|]. cbn in X. injection X as <- <-.
      exfalso. apply NS. left. left. cbn. auto.
    + (* an event is followed by another look at the queue *)
      pose proof (reach_follows _ _ R i) as FO. rewrite TJ in FO. destruct FO as (l & FO). exfalso. apply NS. right. left. rewrite FO. cbn. auto.
Qed.
End Worker.

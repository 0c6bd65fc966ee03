(** The invariant behind C69 and C70. *)
From Coq Require Import ZArith Bool List Lia ZifyBool ZifyNat.
From Verif Require Import Base Str Types TransModel FifoModel ThreadModel ThreadSpec.
Import ListNotations.
Open Scope nat_scope.

Lemma kind_eqb_eq : forall a b, kind_eqb a b = true <-> a = b.
Proof. intros a b; destruct a, b; cbn; split; congruence. Qed.
Lemma mutex_eqb_eq : forall a b, mutex_eqb a b = true <-> a = b.
Proof.
  intros a b; destruct a, b; cbn; try (split; congruence).
  - rewrite kind_eqb_eq. split; congruence.
  - rewrite Nat.eqb_eq. split; congruence.
Qed.
Lemma kind_eqb_refl : forall a, kind_eqb a a = true.
Proof. intros; apply kind_eqb_eq; auto. Qed.
Lemma mutex_eqb_refl : forall a, mutex_eqb a a = true.
Proof. intros; apply mutex_eqb_eq; auto. Qed.
Lemma mutex_eqb_neq : forall a b, a <> b -> mutex_eqb a b = false.
Proof. intros a b N. destruct (mutex_eqb a b) eqn:E; auto. apply mutex_eqb_eq in E. congruence. Qed.
Lemma kind_eqb_neq : forall a b, a <> b -> kind_eqb a b = false.
Proof. intros a b N. destruct (kind_eqb a b) eqn:E; auto. apply kind_eqb_eq in E. congruence. Qed.

(** * Mutexes: taken in an order, given back in the opposite one *)

Definition rank (m : mutex) : nat := match m with MIxt => 0 | MTable _ | MId => 1 | MQueue _ => 2 end.
Definition below (n : nat) (h : list mutex) : bool := forallb (fun m => Nat.ltb (rank m) n) h.

Lemma below_cons : forall n m h, below n (m :: h) = Nat.ltb (rank m) n && below n h.
Proof. auto. Qed.
Lemma below_nil : forall n, below n [] = true.
Proof. auto. Qed.
Lemma below_in : forall n h m, below n h = true -> In m h -> rank m < n.
Proof. intros n h m B I. unfold below in B. rewrite forallb_forall in B. apply B in I. apply Nat.ltb_lt in I. auto. Qed.
Arguments below : simpl never.
Arguments Nat.ltb : simpl never.

(** The mutexes held after a step and everything it leads to, from those held before. *)
Definition after (h : list mutex) (x : instr) : option (list mutex) :=
  match x, h with
  | Lock m, _ => if below (rank m) h then Some (m :: h) else None
  | Unlock m, n :: r => if mutex_eqb m n then Some r else None
  | Find e _, MTable k :: r => if kind_eqb k (ev_kind e) && below 1 r then Some r else None
  | Alloc _ _ _, _ => if below 1 h then Some h else None
  | LoadId _, MId :: _ => Some h
  | StoreId _ _, MId :: _ => Some h
  | Link k _, MTable j :: _ => if kind_eqb j k then Some h else None
  | Push _ _, _ | PollOne _, _ | Size _, _ => if below 2 h then Some h else None
  | Touch _, _ => Some h
  | Append a _, MQueue b :: _ => if Nat.eqb a b then Some h else None
  | PollTable k, MTable j :: r => if kind_eqb j k && below 2 h then Some h else None
  | Peek a, MQueue b :: r => if Nat.eqb a b && below 2 r then Some r else None
  | Timeout l, [] => if below 2 l then Some [] else None
  | Scan m l, [n] => if mutex_eqb m n && Nat.ltb (rank m) 2 && below 2 l then Some [] else None
  | Snapshot k, [MTable j] => if kind_eqb j k then Some [] else None
  | Drain _, [] | Exec _ _, [] | Callback InTransaction, [] | Dispose _, [] => Some []
  | Take a, [MQueue b] => if Nat.eqb a b then Some [] else None
  | Callback InRetransmission, [MIxt] => Some [MIxt]
  | Unlink k _, [MTable j] => if kind_eqb j k then Some h else None
  | IxtEdit, MIxt :: _ => Some h
  | _, _ => None
  end.

Fixpoint afters (h : list mutex) (l : list instr) : option (list mutex) :=
  match l with [] => Some h | x :: r => match after h x with Some h' => afters h' r | None => None end end.

Lemma afters_app : forall l r h, afters h (l ++ r) = match afters h l with Some h' => afters h' r | None => None end.
Proof. induction l; cbn; intros; auto. destruct (after h a); auto. Qed.

Lemma afters_same : forall (f : addr -> instr) h, (forall a, after h (f a) = Some h) -> forall l, afters h (map f l) = Some h.
Proof. intros f h H l. induction l; cbn; auto. rewrite H. auto. Qed.

Lemma afters_firstn : forall (f : addr -> instr) h, (forall a, after h (f a) = Some h) -> forall l n, afters h (firstn n (map f l)) = Some h.
Proof. intros f h H l. induction l; intros [|n]; cbn; auto. rewrite H. auto. Qed.

Lemma below_le : forall n m h, n <= m -> below n h = true -> below m h = true.
Proof.
  intros n m h L. induction h; auto. rewrite !below_cons, !andb_true_iff. intros [A B]. split; auto.
  apply Nat.ltb_lt in A. apply Nat.ltb_lt. lia.
Qed.

Section Worker.
Variable w : fsm -> tid.

(** * Which transactions a thread may use *)

Definition owned (s : shared) (i : tid) (a : addr) : Prop :=
  exists o, heap s a = Some o /\ i = w (o_kind o).

Definition safe (s : shared) (i : tid) (kept : list mutex) (a : addr) : Prop :=
  exists o, heap s a = Some o /\
            (i = w (o_kind o) \/ (In (MTable (o_kind o)) kept /\ In a (table s (o_kind o)))).

Definition need (s : shared) (i : tid) (kept : list mutex) (x : instr) : Prop :=
  match x with
  | Lock (MQueue a) | Unlock (MQueue a) | Push a _ | Append a _ | PollOne a | Peek a | Size a | Touch a => safe s i kept a
  | Drain a | Take a | Exec a _ => owned s i a
  | Snapshot k | Alloc k _ (Some _) => i = w k
  | Find e true => i = w (ev_kind e)
  | _ => True
  end.

Definition without (m : mutex) (h : list mutex) : list mutex := filter (fun n => negb (mutex_eqb n m)) h.

Definition keeps (x : instr) (kept : list mutex) : list mutex :=
  match x with
  | Unlock m | Scan m _ => without m kept
  | Find e _ => without (MTable (ev_kind e)) kept
  | Snapshot k => without (MTable k) kept
  | Peek a | Take a => without (MQueue a) kept
  | _ => kept
  end.

Fixpoint refs (s : shared) (i : tid) (kept : list mutex) (l : list instr) : Prop :=
  match l with [] => True | x :: r => need s i kept x /\ refs s i (keeps x kept) r end.

(** * What a thread is in the middle of *)

Definition plain (x : instr) : Prop :=
  match x with LoadId _ | StoreId _ _ | Link _ _ | Unlink _ _ | Dispose _ | Exec _ _ => False | _ => True end.

Definition making (s : shared) (i : tid) (k : fsm) (a : addr) : Prop :=
  exists o, heap s a = Some o /\ o_kind o = k /\ o_stage o = Fresh i /\ o_id o = None.
Definition made (s : shared) (i : tid) (k : fsm) (a : addr) : Prop :=
  exists o v, heap s a = Some o /\ o_kind o = k /\ o_stage o = Fresh i /\ o_id o = Some v.
Definition ending (s : shared) (i : tid) (k : fsm) (a : addr) (g : stage) : Prop :=
  exists o, heap s a = Some o /\ o_kind o = k /\ o_stage o = g /\ i = w k.

Inductive shape (s : shared) (i : tid) : list instr -> Prop :=
| sh_c1 : forall k a r, making s i k a -> Forall plain r -> shape s i (Lock MId :: LoadId a :: Unlock MId :: Lock (MTable k) :: Link k a :: r)
| sh_c2 : forall k a r, making s i k a -> Forall plain r -> shape s i (LoadId a :: Unlock MId :: Lock (MTable k) :: Link k a :: r)
| sh_c3 : forall k a r, making s i k a -> Forall plain r -> shape s i (StoreId a (nextid s) :: Unlock MId :: Lock (MTable k) :: Link k a :: r)
| sh_c4 : forall k a r, made s i k a -> Forall plain r -> shape s i (Unlock MId :: Lock (MTable k) :: Link k a :: r)
| sh_c5 : forall k a r, made s i k a -> Forall plain r -> shape s i (Lock (MTable k) :: Link k a :: r)
| sh_c6 : forall k a r, made s i k a -> Forall plain r -> shape s i (Link k a :: r)
| sh_f1 : forall k a, ending s i k a Linked -> shape s i [Lock (MTable k); Unlink k a; Unlock (MTable k); Dispose a]
| sh_f2 : forall k a, ending s i k a Linked -> shape s i [Unlink k a; Unlock (MTable k); Dispose a]
| sh_f3 : forall k a, ending s i k a Unlinked -> shape s i [Unlock (MTable k); Dispose a]
| sh_f4 : forall k a, ending s i k a Unlinked -> shape s i [Dispose a]
| sh_e1 : forall a e r, Forall plain r -> shape s i (Unlock (MQueue a) :: Exec a e :: r)
| sh_e2 : forall a e r, Forall plain r -> shape s i (Exec a e :: r)
| sh_plain : forall r, Forall plain r -> shape s i r.

Definition thread (s : shared) (i : tid) (l : list instr) : Prop :=
  exists h, NoDup h /\ (forall m, owner s m = Some i <-> In m h) /\ afters h l = Some [] /\ refs s i h l /\ shape s i l.

Record global (s : shared) : Prop := mkG {
  g_table : forall k a, In a (table s k) <-> exists o, heap s a = Some o /\ o_kind o = k /\ o_stage o = Linked;
  g_nodup : forall k, NoDup (table s k);
  g_done : forall a o, heap s a = Some o -> o_id o = None -> exists i, o_stage o = Fresh i;
  g_brk : forall a o, heap s a = Some o -> a < brk s;
  g_issued : forall a o v, heap s a = Some o -> o_id o = Some v -> In v (issued s);
  g_next : forall v, In v (issued s) -> (v < nextid s)%Z;
  g_ids : NoDup (issued s);
  g_inj : forall a b o p v, heap s a = Some o -> heap s b = Some p -> o_id o = Some v -> o_id p = Some v -> a = b }.

Definition inv (s : system) : Prop := global (sh s) /\ forall i, thread (sh s) i (todo s i).

(** * What one thread's step leaves alone *)

Record frame (s t : shared) (i : tid) : Prop := mkF {
  f_owner : forall j m, j <> i -> (owner t m = Some j <-> owner s m = Some j);
  f_table : forall k, owner s (MTable k) <> Some i -> table t k = table s k;
  f_heap : forall a o, heap s a = Some o ->
      (exists o', heap t a = Some o' /\ o_kind o' = o_kind o /\
         ((o_stage o' = o_stage o /\ o_id o' = o_id o) \/ o_stage o = Fresh i \/ (w (o_kind o) = i /\ o_stage o = Linked)))
      \/ (w (o_kind o) = i /\ o_stage o = Unlinked);
  f_next : owner s MId <> Some i -> nextid t = nextid s }.

Lemma incl_without : forall m h, incl (without m h) h.
Proof. intros m h x H. apply filter_In in H. tauto. Qed.

Lemma keeps_incl : forall x h, incl (keeps x h) h.
Proof. intros x h. destruct x; cbn; auto using incl_refl, incl_without. Qed.

Lemma refs_mono : forall s t i l h h',
  (forall kept a, incl kept h -> safe s i kept a -> safe t i kept a) ->
  (forall a, owned s i a -> owned t i a) ->
  incl h' h -> refs s i h' l -> refs t i h' l.
Proof.
  intros s t i l. induction l as [|x l IH]; cbn; auto. intros h h' S O I [N R]. split.
  - destruct x; cbn in *; auto. all: try (destruct m; cbn in *; auto). all: try (eapply S; eauto; fail).
  - eapply IH; eauto. eapply incl_tran; [apply keeps_incl|auto].
Qed.

Lemma table_excl : forall s t i j k, frame s t i -> j <> i -> owner s (MTable k) = Some j -> table t k = table s k.
Proof. intros s t i j k F N O. apply (f_table _ _ _ F). congruence. Qed.

Lemma frame_owned : forall s t i j a, frame s t i -> j <> i -> owned s j a -> owned t j a.
Proof.
  intros s t i j a F N (o & H & W). destruct (f_heap _ _ _ F _ _ H) as [(o' & A & B & _)|[A _]].
  - exists o'. split; auto. congruence.
  - congruence.
Qed.

Lemma frame_safe : forall s t i j h kept a, global t -> frame s t i -> j <> i -> (forall m, In m h -> owner s m = Some j) ->
  incl kept h -> safe s j kept a -> safe t j kept a.
Proof.
  intros s t i j h kept a G F N O I (o & H & [W|[K T]]).
  - destruct (frame_owned s t i j a F N) as (o' & A & B). { exists o; auto. } exists o'. auto.
  - pose proof (table_excl _ _ _ _ _ F N (O _ (I _ K))) as E.
    assert (T' : In a (table t (o_kind o))) by (rewrite E; auto).
    apply (g_table _ G) in T'. destruct T' as (o' & A & B & C). exists o'. split; auto. right.
    rewrite B. rewrite E. auto.
Qed.

Lemma frame_making : forall s t i j k a, frame s t i -> j <> i -> making s j k a -> making t j k a.
Proof.
  intros s t i j k a F N (o & H & K & G & D). destruct (f_heap _ _ _ F _ _ H) as [(o' & A & B & [[C E]|[C|[C E]]])|[A C]]; try congruence.
  exists o'. repeat split; congruence.
Qed.
Lemma frame_made : forall s t i j k a, frame s t i -> j <> i -> made s j k a -> made t j k a.
Proof.
  intros s t i j k a F N (o & v & H & K & G & D). destruct (f_heap _ _ _ F _ _ H) as [(o' & A & B & [[C E]|[C|[C E]]])|[A C]]; try congruence.
  exists o', v. repeat split; congruence.
Qed.
Lemma frame_ending : forall s t i j k a g, frame s t i -> j <> i -> g = Linked \/ g = Unlinked -> ending s j k a g -> ending t j k a g.
Proof.
  intros s t i j k a g F N GG (o & H & K & G & D). destruct (f_heap _ _ _ F _ _ H) as [(o' & A & B & [[C E]|[C|[C E]]])|[A C]]; try (destruct GG; congruence).
  exists o'. repeat split; congruence.
Qed.

Lemma frame_shape : forall s t i j h l, frame s t i -> j <> i -> (forall m, In m h -> owner s m = Some j) ->
  afters h l = Some [] -> shape s j l -> shape t j l.
Proof.
  intros s t i j h l F N O A S. destruct S; try (econstructor; eauto using frame_making, frame_made; fail).
  - assert (E : nextid t = nextid s).
    { apply (f_next _ _ _ F). cbn in A. destruct h as [|[]]; try discriminate. rewrite (O MId); cbn; auto. congruence. }
    rewrite <- E. constructor; eauto using frame_making.
  - apply sh_f1. eapply frame_ending; eauto.
  - apply sh_f2. eapply frame_ending; eauto.
  - apply sh_f3. eapply frame_ending; eauto.
  - eapply sh_f4. eapply frame_ending; eauto.
Qed.

Lemma frame_thread : forall s t i j l, global t -> frame s t i -> j <> i -> thread s j l -> thread t j l.
Proof.
  intros s t i j l G F N (h & D & O & A & R & S). exists h. split; auto. split.
  { intros m. rewrite (f_owner _ _ _ F j m N). auto. }
  assert (O' : forall m, In m h -> owner s m = Some j) by (intros; apply O; auto).
  split; auto. split.
  - apply (refs_mono s t j l h h); auto using incl_refl.
    + intros kept a I. eapply frame_safe; eauto.
    + intros a. eapply frame_owned; eauto.
  - eapply frame_shape; eauto.
Qed.

Lemma frame_same : forall s i, frame s s i.
Proof.
  intros s i. split; try tauto; auto. intros a o H. left. exists o. auto.
Qed.

Lemma global_ext : forall s t, table t = table s -> heap t = heap s -> nextid t = nextid s -> brk t = brk s -> issued t = issued s ->
  global s -> global t.
Proof. intros s t A B C D E G. destruct G. split; rewrite ?A, ?B, ?C, ?D, ?E in *; auto. Qed.

Lemma shape_ext : forall s t i l, heap t = heap s -> nextid t = nextid s -> shape s i l -> shape t i l.
Proof.
  intros s t i l H N S. destruct S; try (econstructor; eauto; unfold making, made, ending in *; rewrite H; auto; fail).
  - rewrite <- N. constructor; auto. unfold making in *. rewrite H. auto.
  - eapply sh_f4. unfold ending in *. rewrite H. eauto.
Qed.

Lemma safe_incl : forall s i k k' a, incl k k' -> safe s i k a -> safe s i k' a.
Proof. intros s i k k' a I (o & H & [A|[A B]]); exists o; auto. Qed.

Lemma without_incl : forall m k k', incl k k' -> incl (without m k) (without m k').
Proof. intros m k k' I x H. apply filter_In in H. apply filter_In. intuition. Qed.

Lemma keeps_mono : forall x k k', incl k k' -> incl (keeps x k) (keeps x k').
Proof. intros x k k' I. destruct x; cbn; auto using without_incl. Qed.

Lemma refs_incl : forall s i l k k', incl k k' -> refs s i k l -> refs s i k' l.
Proof.
  intros s i l. induction l as [|x l IH]; cbn; auto. intros k k' I [N R]. split; eauto using keeps_mono.
  destruct x; cbn in *; eauto using safe_incl. all: try (destruct m; cbn in *; eauto using safe_incl).
Qed.

Fixpoint keepss (l : list instr) (k : list mutex) : list mutex :=
  match l with [] => k | x :: r => keepss r (keeps x k) end.

Lemma refs_app : forall s i l r k, refs s i k (l ++ r) <-> refs s i k l /\ refs s i (keepss l k) r.
Proof. intros s i l. induction l as [|x l IH]; cbn; intros; [tauto|]. rewrite IH. tauto. Qed.

Lemma refs_ext : forall s t i k l, heap t = heap s -> table t = table s -> refs s i k l -> refs t i k l.
Proof.
  intros s t i k l H T. apply (refs_mono s t i l k k); auto using incl_refl.
  - intros kept a _ (o & A & B). exists o. rewrite H, T. auto.
  - intros a (o & A & B). exists o. rewrite H. auto.
Qed.

(** A step of thread [i]: the shared memory stays well formed, the other threads are left alone,
    and the thread has a well formed rest. *)
Definition good (s t : shared) (i : tid) (l : list instr) : Prop :=
  global t /\ frame s t i /\ thread t i l.

Lemma without_head : forall m h, ~ In m h -> incl (without m (m :: h)) h.
Proof.
  intros m h N x H. apply filter_In in H. destruct H as [[<-|H] E]; auto.
  rewrite mutex_eqb_refl in E. discriminate.
Qed.

Lemma step_lock : forall s i m r ch t pre, global s -> thread s i (Lock m :: r) -> exec ch s i (Lock m) = Some (t, pre) -> good s t i (pre ++ r).
Proof.
  intros s i m r ch t pre G (h & D & O & A & R & S) E. cbn in E. destruct (owner s m) eqn:OM; [discriminate|].
  injection E as <- <-. split; [|split].
  - apply (global_ext s); auto.
  - split; try (cbn; auto; fail).
    + intros j n N. cbn. destruct (mutex_eqb n m) eqn:Q; [|tauto]. apply mutex_eqb_eq in Q. subst n. rewrite OM. split; congruence.
    + intros a o H. left. exists o. auto.
  - assert (NI : ~ In m h) by (intros I; apply O in I; congruence).
    exists (m :: h). split; [constructor; auto|]. split.
    { intros n. cbn. destruct (mutex_eqb n m) eqn:Q.
      - apply mutex_eqb_eq in Q. subst n. intuition.
      - rewrite O. split; intros; auto. destruct H; auto. subst n. rewrite mutex_eqb_refl in Q. discriminate. }
    split.
    { cbn in A |- *. destruct (below (rank m) h); [auto|discriminate]. }
    split.
    { destruct R as [_ R]. cbn in R. apply (refs_ext s); [reflexivity|reflexivity|]. eapply refs_incl; [|exact R]. intros x; cbn; auto. }
    { apply (shape_ext s); [reflexivity|reflexivity|]. clear -S. remember (Lock m :: r) as l. destruct S; try discriminate.
      - injection Heql as <- <-. constructor; auto.
      - injection Heql as <- <-. constructor; auto.
      - injection Heql as <- <-. constructor; auto.
      - subst. apply sh_plain. inversion H; auto. }
Qed.

Lemma step_unlock : forall s i m r ch t pre, global s -> thread s i (Unlock m :: r) -> exec ch s i (Unlock m) = Some (t, pre) -> good s t i (pre ++ r).
Proof.
  intros s i m r ch t pre G (h & D & O & A & R & S) E. cbn in E.
  injection E as <- <-.
  cbn in A. destruct h as [|n h]; [discriminate|]. destruct (mutex_eqb m n) eqn:Q; [|discriminate]. apply mutex_eqb_eq in Q. subst n.
  inversion D as [|? ? NI D']; subst.
  assert (OM : owner s m = Some i) by (apply O; cbn; auto).
  split; [|split].
  - apply (global_ext s); auto.
  - split; try (cbn; auto; fail).
    + intros j n N. cbn. destruct (mutex_eqb n m) eqn:Q; [|tauto]. apply mutex_eqb_eq in Q. subst n. rewrite OM. split; congruence.
    + intros a o H. left. exists o. auto.
  - exists h. split; auto. split.
    { intros n. cbn. destruct (mutex_eqb n m) eqn:Q.
      - apply mutex_eqb_eq in Q. subst n. split; [discriminate|tauto].
      - rewrite O. cbn. split; intros; auto. destruct H; auto. subst n. rewrite mutex_eqb_refl in Q. discriminate. }
    split; auto.
    split.
    { destruct R as [_ R]. cbn [keeps] in R. apply (refs_ext s); [reflexivity|reflexivity|]. eapply refs_incl; [|exact R]. apply without_head; auto. }
    { apply (shape_ext s); [reflexivity|reflexivity|]. clear -S. remember (Unlock m :: r) as l. destruct S; try discriminate.
      - injection Heql as <- <-. constructor; auto.
      - injection Heql as <- <-. econstructor; eauto.
      - injection Heql as <- <-. constructor; auto.
      - subst. apply sh_plain. inversion H; auto. }
Qed.

(** Steps that only read *)
Lemma step_read : forall s i x r pre, global s -> thread s i (x :: r) ->
  (forall h h1, NoDup h -> (forall m, owner s m = Some i <-> In m h) -> after h x = Some h1 -> need s i h x ->
     afters h pre = Some h1 /\ refs s i h pre /\ incl (keeps x h) (keepss pre h)) ->
  shape s i (pre ++ r) -> good s s i (pre ++ r).
Proof.
  intros s i x r pre G (h & D & O & A & R & _) P S. split; [auto|split; [apply frame_same|]].
  exists h. split; auto. split; auto. cbn in A. destruct (after h x) as [h1|] eqn:AX; [|discriminate].
  destruct R as [N R]. destruct (P h h1 D O AX N) as (P1 & P2 & P3). split.
  - rewrite afters_app, P1. auto.
  - split; auto. apply refs_app. split; auto. eapply refs_incl; eauto.
Qed.

Definition simple (x : instr) : Prop :=
  match x with Lock _ | Unlock _ => False | _ => plain x end.

Lemma simple_rest : forall s i x r, simple x -> shape s i (x :: r) -> Forall plain r.
Proof.
  intros s i x r P S. remember (x :: r) as l. destruct S; try (injection Heql as E1 E2; subst; cbn in P; tauto).
  subst. inversion H; subst; auto.
Qed.

Lemma plain_map : forall (f : addr -> instr) l, (forall a, plain (f a)) -> Forall plain (map f l).
Proof. intros f l H. induction l; cbn; constructor; auto. Qed.
Lemma plain_firstn : forall n l, Forall plain l -> Forall plain (firstn n l).
Proof. induction n; intros [|x l] H; cbn; auto. inversion H; subst. constructor; auto. Qed.

Lemma begin_plain : forall u s i p c, u = one_worker w -> u p s i c = true -> p <> Outside -> Forall plain (begin s c).
Proof.
  intros u s i p c -> U N. destruct c; cbn; repeat constructor; cbn in U.
  destruct p; try congruence; discriminate.
Qed.

Lemma refs_map : forall s i k (f : addr -> instr) l, (forall a, keeps (f a) k = k) -> (forall a, In a l -> need s i k (f a)) -> refs s i k (map f l).
Proof. intros s i k f l K N. induction l as [|a l IH]; cbn; auto. rewrite K. split; auto using in_eq. apply IH. intros; apply N; cbn; auto. Qed.
Lemma refs_firstn : forall s i n l k, refs s i k l -> refs s i k (firstn n l).
Proof. induction n; intros [|x l] k; cbn; auto. intros [A B]. auto. Qed.
Lemma keepss_map : forall (f : addr -> instr) l k, (forall a, keeps (f a) k = k) -> keepss (map f l) k = k.
Proof. intros f l k K. induction l as [|a l IH]; cbn; auto. rewrite K. auto. Qed.
Lemma keepss_firstn_map : forall (f : addr -> instr) l k n, (forall a, keeps (f a) k = k) -> keepss (firstn n (map f l)) k = k.
Proof. intros f l k n K. revert n. induction l as [|a l IH]; intros [|n]; cbn; auto. rewrite K. auto. Qed.
Lemma keepss_app : forall l r k, keepss (l ++ r) k = keepss r (keepss l k).
Proof. induction l; cbn; auto. Qed.

Lemma table_safe : forall s i h k a, global s -> In (MTable k) h -> In a (table s k) -> safe s i h a.
Proof.
  intros s i h k a G M T. pose proof T as T'. apply (g_table _ G) in T. destruct T as (o & A & B & C). exists o. split; auto. right. rewrite B. auto.
Qed.
Lemma table_owned : forall s i k a, global s -> i = w k -> In a (table s k) -> owned s i a.
Proof. intros s i k a G -> T. apply (g_table _ G) in T. destruct T as (o & A & B & C). exists o. split; auto. congruence. Qed.

Lemma step_find : forall s i e b r ch t pre, global s -> thread s i (Find e b :: r) -> exec ch s i (Find e b) = Some (t, pre) -> good s t i (pre ++ r).
Proof.
  intros s i e b r ch t pre G T E. assert (PR : Forall plain r) by (destruct T as (h & _ & _ & _ & _ & S); eapply simple_rest; [|exact S]; exact I).
  cbn in E. destruct (find (has_key s (ev_key e)) (table s (ev_kind e))) as [a|] eqn:F; injection E as <- <-.
  - apply find_some in F. destruct F as [F _]. eapply step_read; eauto; [|apply sh_plain; repeat constructor; auto].
    intros h h1 D O A N. cbn in A. destruct h as [|[k| | |] h]; try discriminate.
    destruct (kind_eqb k (ev_kind e)) eqn:K; cbn in A; [|discriminate]. apply kind_eqb_eq in K. subst k.
    destruct (below 1 h) eqn:B; cbn in A; [|discriminate]. injection A as <-.
    assert (B2 : below 2 h = true) by (eapply below_le; [|exact B]; lia).
    assert (B3 : below 2 (MTable (ev_kind e) :: h) = true) by (rewrite below_cons, B2; auto).
    cbn. rewrite B3. cbn. rewrite kind_eqb_refl. split; auto. split.
    + split; auto. eapply table_safe; eauto. cbn; auto.
    + apply incl_refl.
  - eapply step_read; eauto.
    2:{ apply sh_plain. destruct b; repeat constructor; auto. }
    intros h h1 D O A N. cbn in A. destruct h as [|[k| | |] h]; try discriminate.
    destruct (kind_eqb k (ev_kind e)) eqn:K; cbn in A; [|discriminate]. apply kind_eqb_eq in K. subst k.
    destruct (below 1 h) eqn:B; cbn in A; [|discriminate]. injection A as <-.
    destruct b; cbn; rewrite kind_eqb_refl; rewrite ?B; cbn; (split; [auto|split; [|apply incl_refl]]); auto.
Qed.

Lemma step_push : forall s i a e r ch t pre, global s -> thread s i (Push a e :: r) -> exec ch s i (Push a e) = Some (t, pre) -> good s t i (pre ++ r).
Proof.
  intros s i a e r ch t pre G T E. assert (PR : Forall plain r) by (destruct T as (h & _ & _ & _ & _ & S); eapply simple_rest; [|exact S]; exact I).
  cbn in E. injection E as <- <-. eapply step_read; eauto; [|apply sh_plain; repeat constructor; auto].
  intros h h1 D O A N. cbn in A, N. destruct (below 2 h) eqn:B; [|discriminate]. injection A as <-.
  cbn. rewrite B. cbn. rewrite Nat.eqb_refl. cbn. rewrite Nat.eqb_refl. split; auto. split; auto.
  intros m M. apply filter_In. split; auto. destruct m; auto. cbn.
  (* a queue mutex below rank 2 *)
  apply (below_in _ _ _ B) in M. cbn in M. lia.
Qed.

Lemma step_polltable : forall s i k r ch t pre, global s -> thread s i (PollTable k :: r) -> exec ch s i (PollTable k) = Some (t, pre) -> good s t i (pre ++ r).
Proof.
  intros s i k r ch t pre G T E. assert (PR : Forall plain r) by (destruct T as (h & _ & _ & _ & _ & S); eapply simple_rest; [|exact S]; exact I).
  cbn in E. injection E as <- <-. eapply step_read; eauto; [|apply sh_plain; apply Forall_app; split; auto; apply plain_map; cbn; auto].
  intros h h1 D O A N. cbn [after] in A. destruct h as [|[j| | |] h]; try discriminate.
  destruct (kind_eqb j k) eqn:K; cbn [andb] in A; [|discriminate]. apply kind_eqb_eq in K. subst j.
  destruct (below 2 (MTable k :: h)) eqn:B; [|discriminate]. injection A as <-. split; [|split].
  - apply afters_same. intros. cbn [after]. rewrite B. auto.
  - apply refs_map; auto. intros. eapply table_safe; eauto. cbn; auto.
  - rewrite keepss_map; auto. apply incl_refl.
Qed.

Lemma below_queue : forall h a, below 2 h = true -> incl h (without (MQueue a) h).
Proof.
  intros h a B m M. apply filter_In. split; auto. destruct m; auto.
  apply (below_in _ _ _ B) in M. cbn in M. lia.
Qed.

Lemma step_pollone : forall s i a r ch t pre, global s -> thread s i (PollOne a :: r) -> exec ch s i (PollOne a) = Some (t, pre) -> good s t i (pre ++ r).
Proof.
  intros s i a r ch t pre G T E. assert (PR : Forall plain r) by (destruct T as (h & _ & _ & _ & _ & S); eapply simple_rest; [|exact S]; exact I).
  cbn in E. destruct (heap s a) as [o|] eqn:HA; [|discriminate].
  assert (E' : t = s /\ (pre = [Lock (MQueue a); Peek a] \/ pre = [] \/ exists e, pre = [Push a e])).
  { destruct (o_kind o); destruct (c_timer ch); injection E as <- <-; eauto 6. }
  clear E. destruct E' as [-> [->|[->|[e ->]]]]; (eapply step_read; eauto; [|apply sh_plain; repeat constructor; auto]);
    intros h h1 D O A N; cbn in A, N; (destruct (below 2 h) eqn:B; [|discriminate]); injection A as <-; cbn; rewrite ?B; cbn; rewrite ?Nat.eqb_refl, ?B; cbn.
  - split; auto. split; auto. apply below_queue; auto.
  - split; auto. split; auto. apply incl_refl.
  - split; auto. split; auto. apply incl_refl.
Qed.

Lemma step_peek : forall s i a r ch t pre, global s -> thread s i (Peek a :: r) -> exec ch s i (Peek a) = Some (t, pre) -> good s t i (pre ++ r).
Proof.
  intros s i a r ch t pre G T E. assert (PR : Forall plain r) by (destruct T as (h & _ & _ & _ & _ & S); eapply simple_rest; [|exact S]; exact I).
  cbn in E. destruct (heap s a) as [o|] eqn:HA; [|discriminate].
  assert (E' : t = s /\ (pre = [Unlock (MQueue a)] \/ exists e, pre = [Unlock (MQueue a); Push a e])).
  { destruct (c_timer ch); [destruct (fifo_size (o_fifo o) =? 0)|]; injection E as <- <-; eauto. }
  clear E. destruct E' as [-> [->|[e ->]]]; (eapply step_read; eauto; [|apply sh_plain; repeat constructor; auto]);
    intros h h1 D O A N; cbn in A, N; (destruct h as [|[j| | |b] h]; try discriminate);
    (destruct (Nat.eqb a b) eqn:K; cbn [andb] in A; [|discriminate]); apply Nat.eqb_eq in K; subst b;
    (destruct (below 2 h) eqn:B; [|discriminate]); injection A as <-; cbn; rewrite ?Nat.eqb_refl, ?B; cbn.
  - split; auto. split; auto. apply incl_refl.
  - split; auto. split; [|apply incl_refl]. split; auto. split; auto.
    destruct N as (o' & X & [Y|[Y Z]]); exists o'; split; auto. right. split; auto. destruct Y; [discriminate|]. apply filter_In. split; auto.
Qed.

Lemma step_timeout : forall s i l r ch t pre, global s -> thread s i (Timeout l :: r) -> exec ch s i (Timeout l) = Some (t, pre) -> good s t i (pre ++ r).
Proof.
  intros s i l r ch t pre G T E. assert (PR : Forall plain r) by (destruct T as (h & _ & _ & _ & _ & S); eapply simple_rest; [|exact S]; exact I).
  cbn in E. destruct l as [|m l]; injection E as <- <-; (eapply step_read; eauto; [|apply sh_plain; repeat constructor; auto]);
    intros h h1 D O A N; cbn in A, N; (destruct h; [|discriminate]).
  - injection A as <-. cbn. split; auto. split; auto. apply incl_refl.
  - rewrite below_cons in A. destruct (rank m <? 2) eqn:B1; cbn in A; [|discriminate]. destruct (below 2 l) eqn:B2; [|discriminate]. injection A as <-.
    cbn. rewrite below_nil. rewrite mutex_eqb_refl, B1, B2. cbn. split; auto. split; [|intros x []]. destruct m; cbn; auto. discriminate.
Qed.

Lemma step_scan : forall s i m l r ch t pre, global s -> thread s i (Scan m l :: r) -> exec ch s i (Scan m l) = Some (t, pre) -> good s t i (pre ++ r).
Proof.
  intros s i m l r ch t pre G T E. assert (PR : Forall plain r) by (destruct T as (h & _ & _ & _ & _ & S); eapply simple_rest; [|exact S]; exact I).
  cbn in E.
  assert (E' : t = s /\ exists f as_ n, (f = Size \/ f = Touch) /\ (forall a, In a as_ -> exists k, m = MTable k /\ In a (table s k)) /\
               (pre = firstn n (map f as_) ++ [Unlock m] \/ pre = map f as_ ++ [Unlock m; Timeout l])).
  { destruct m as [[]| | |]; (destruct (c_stop ch) as [n|] eqn:C; injection E as <- <-; split; auto).
    all: try (exists Size, (table s ICT), n; split; [auto|split; [eauto|auto]]; fail).
    all: try (exists Size, (table s ICT), 0; split; [auto|split; [eauto|auto]]; fail).
    all: try (exists Touch, (table s IST), n; split; [auto|split; [eauto|auto]]; fail).
    all: try (exists Touch, (table s IST), 0; split; [auto|split; [eauto|auto]]; fail).
    all: try (exists Touch, (table s NICT), n; split; [auto|split; [eauto|auto]]; fail).
    all: try (exists Touch, (table s NICT), 0; split; [auto|split; [eauto|auto]]; fail).
    all: try (exists Touch, (table s NIST), n; split; [auto|split; [eauto|auto]]; fail).
    all: try (exists Touch, (table s NIST), 0; split; [auto|split; [eauto|auto]]; fail).
    all: try (exists Touch, [], n; split; [auto|split; [intros ? []|auto]]; fail).
    all: try (exists Touch, [], 0; split; [auto|split; [intros ? []|auto]]; fail). }
  clear E. destruct E' as [-> (f & as_ & n & Hf & Has & HP)].
  assert (PF : forall a, plain (f a)) by (destruct Hf; subst; cbn; auto).
  assert (KF : forall a k, keeps (f a) k = k) by (destruct Hf; subst; cbn; auto).
  assert (AF : forall a h, below 2 h = true -> after h (f a) = Some h) by (destruct Hf; subst; cbn; intros; auto; rewrite H; auto).
  eapply step_read; eauto.
  2:{ apply sh_plain. apply Forall_app. split; auto. destruct HP as [->| ->]; apply Forall_app; (split; [auto using plain_map, plain_firstn|repeat constructor]). }
  intros h h1 D O A N. cbn in A. destruct h as [|n0 [|? ?]]; try discriminate.
  destruct (mutex_eqb m n0) eqn:K; cbn in A; [|discriminate]. apply mutex_eqb_eq in K. subst n0.
  destruct (rank m <? 2) eqn:B1; cbn in A; [|discriminate]. destruct (below 2 l) eqn:B2; [|discriminate]. injection A as <-.
  assert (B : below 2 [m] = true) by (rewrite below_cons, B1; auto).
  assert (RF : refs s i [m] (map f as_)).
  { apply refs_map; auto. intros a Ia. destruct (Has a Ia) as (k & -> & Ta).
    assert (safe s i [MTable k] a) by (eapply table_safe; eauto; cbn; auto).
    destruct Hf; subst f; cbn; auto. }
  assert (UN : need s i [m] (Unlock m)) by (destruct m; cbn; auto; discriminate).
  destruct HP as [->| ->].
  - rewrite afters_app, afters_firstn by auto. cbn. rewrite mutex_eqb_refl. split; auto. split.
    + apply refs_app. split; [apply refs_firstn; auto|]. rewrite keepss_firstn_map by auto. split; [exact UN|exact I].
    + rewrite keepss_app, keepss_firstn_map by auto. cbn. rewrite mutex_eqb_refl. apply incl_refl.
  - rewrite afters_app, afters_same by auto. cbn. rewrite mutex_eqb_refl, B2. split; auto. split.
    + apply refs_app. split; auto. rewrite keepss_map by auto. split; [exact UN|]. split; exact I.
    + rewrite keepss_app, keepss_map by auto. cbn. rewrite mutex_eqb_refl. apply incl_refl.
Qed.

Lemma step_size : forall s i a r ch t pre, global s -> thread s i (Size a :: r) -> exec ch s i (Size a) = Some (t, pre) -> good s t i (pre ++ r).
Proof.
  intros s i a r ch t pre G T E. assert (PR : Forall plain r) by (destruct T as (h & _ & _ & _ & _ & S); eapply simple_rest; [|exact S]; exact I).
  cbn in E. injection E as <- <-. eapply step_read; eauto; [|apply sh_plain; repeat constructor; auto].
  intros h h1 D O A N; cbn in A, N; (destruct (below 2 h) eqn:B; [|discriminate]); injection A as <-; cbn; rewrite ?B; cbn; rewrite ?Nat.eqb_refl; cbn.
  split; auto. split; auto. apply below_queue; auto.
Qed.

Lemma step_touch : forall s i a r ch t pre, global s -> thread s i (Touch a :: r) -> exec ch s i (Touch a) = Some (t, pre) -> good s t i (pre ++ r).
Proof.
  intros s i a r ch t pre G T E. assert (PR : Forall plain r) by (destruct T as (h & _ & _ & _ & _ & S); eapply simple_rest; [|exact S]; exact I).
  cbn in E. injection E as <- <-. eapply step_read; eauto; [|apply sh_plain; repeat constructor; auto].
  intros h h1 D O A N; cbn in A, N. injection A as <-. cbn. split; auto. split; auto. apply incl_refl.
Qed.

Lemma step_ixtedit : forall s i r ch t pre, global s -> thread s i (IxtEdit :: r) -> exec ch s i IxtEdit = Some (t, pre) -> good s t i (pre ++ r).
Proof.
  intros s i r ch t pre G T E. assert (PR : Forall plain r) by (destruct T as (h & _ & _ & _ & _ & S); eapply simple_rest; [|exact S]; exact I).
  cbn in E. injection E as <- <-. eapply step_read; eauto; [|apply sh_plain; repeat constructor; auto].
  intros h h1 D O A N; cbn in A, N. destruct h as [|[]]; try discriminate. injection A as <-. cbn. split; auto. split; auto. apply incl_refl.
Qed.

Lemma step_snapshot : forall s i k r ch t pre, global s -> thread s i (Snapshot k :: r) -> exec ch s i (Snapshot k) = Some (t, pre) -> good s t i (pre ++ r).
Proof.
  intros s i k r ch t pre G T E. assert (PR : Forall plain r) by (destruct T as (h & _ & _ & _ & _ & S); eapply simple_rest; [|exact S]; exact I).
  cbn in E. injection E as <- <-. eapply step_read; eauto.
  2:{ apply sh_plain. cbn. constructor; [exact I|]. apply Forall_app; split; auto. apply plain_map; cbn; auto. }
  intros h h1 D O A N. cbn in A, N. destruct h as [|[j| | |] [|? ?]]; try discriminate.
  destruct (kind_eqb j k) eqn:K; [|discriminate]. apply kind_eqb_eq in K. subst j. injection A as <-.
  cbn. rewrite kind_eqb_refl. cbn. split; [|split].
  - apply afters_same. auto.
  - split; auto. apply refs_map; auto. intros. eapply table_owned; eauto.
  - rewrite keepss_map; auto. apply incl_refl.
Qed.

Lemma begin_afters : forall s i p c h, (p = InTransaction /\ h = [] \/ p = InRetransmission /\ h = [MIxt]) -> one_worker w p s i c = true -> afters h (begin s c) = Some h.
Proof.
  intros s i p c h [[-> ->]|[-> ->]] U; destruct c; cbn in U; try discriminate; try (rewrite andb_false_r in U; discriminate).
  all: try (destruct e as [[] ? ?]). all: try (destruct k). all: reflexivity.
Qed.

Lemma mine_owned : forall s i a, mine w s i a = true -> owned s i a.
Proof.
  intros s i a M. unfold mine in M. destruct (heap s a) as [o|] eqn:H; [|discriminate].
  destruct (o_stage o); try discriminate. apply Nat.eqb_eq in M. exists o. auto.
Qed.

Lemma owned_safe : forall s i k a, owned s i a -> safe s i k a.
Proof. intros s i k a (o & A & B). exists o. auto. Qed.

Lemma begin_refs : forall s i p c k, p <> Outside -> one_worker w p s i c = true -> refs s i k (begin s c).
Proof.
  intros s i p c k P U; destruct c; cbn in U |- *; auto.
  - apply Nat.eqb_eq in U. auto.
  - destruct first; auto. apply Nat.eqb_eq in U. auto.
  - split; auto. apply owned_safe. apply mine_owned. auto.
  - apply andb_true_iff in U. destruct U as [U _]. apply Nat.eqb_eq in U. auto.
  - destruct p; try congruence; discriminate.
Qed.

Lemma begin_keeps : forall s i p c h, (p = InTransaction /\ h = [] \/ p = InRetransmission /\ h = [MIxt]) -> one_worker w p s i c = true -> incl h (keepss (begin s c) h).
Proof.
  intros s i p c h [[-> ->]|[-> ->]] U; [intros x []|].
  destruct c; cbn in U |- *; auto using incl_refl; try discriminate. all: try (rewrite andb_false_r in U; discriminate).
Qed.

Lemma step_callback : forall s i p r ch t pre, global s -> thread s i (Callback p :: r) ->
  (forall c, c_call ch = Some c -> one_worker w p s i c = true) ->
  exec ch s i (Callback p) = Some (t, pre) -> good s t i (pre ++ r).
Proof.
  intros s i p r ch t pre G T U E. assert (PR : Forall plain r) by (destruct T as (h & _ & _ & _ & _ & S); eapply simple_rest; [|exact S]; exact I).
  assert (P : p = InTransaction \/ p = InRetransmission).
  { destruct T as (h & _ & _ & A & _ & _). cbn in A. destruct p; auto. destruct h; discriminate. }
  assert (P0 : p <> Outside) by (destruct P; congruence).
  cbn in E. destruct (c_call ch) as [c|] eqn:C.
  - specialize (U c eq_refl). injection E as <- <-. eapply step_read; eauto.
    2:{ apply sh_plain. rewrite <- app_assoc. apply Forall_app. split; [eapply begin_plain; eauto|]. repeat constructor; auto. }
    intros h h1 D O A N. cbn in A.
    assert (H : (p = InTransaction /\ h = [] \/ p = InRetransmission /\ h = [MIxt]) /\ h1 = h).
    { destruct P; subst p; destruct h as [|[] [|? ?]]; try discriminate; injection A as <-; auto. }
    destruct H as [H ->]. rewrite afters_app. erewrite begin_afters by eauto. split; [|split].
    + cbn. destruct H as [[-> ->]|[-> ->]]; auto.
    + apply refs_app. split; [eapply begin_refs; eauto|]. cbn. auto.
    + rewrite keepss_app. cbn. eapply begin_keeps; eauto.
  - injection E as <- <-. eapply step_read; eauto; [|apply sh_plain; auto].
    intros h h1 D O A N. cbn in A. cbn. split; [|split; auto using incl_refl].
    destruct P; subst p; destruct h as [|[] [|? ?]]; try discriminate; injection A as <-; auto.
Qed.

Lemma step_loadid : forall s i a r ch t pre, global s -> thread s i (LoadId a :: r) -> exec ch s i (LoadId a) = Some (t, pre) -> good s t i (pre ++ r).
Proof.
  intros s i a r ch t pre G T E. cbn in E. injection E as <- <-.
  assert (S' : shape s i (StoreId a (nextid s) :: r)).
  { destruct T as (h & _ & _ & _ & _ & S). remember (LoadId a :: r) as l. destruct S; try discriminate.
    - injection Heql as <- <-. constructor; auto.
    - subst. inversion H as [|? ? X]; subst. destruct X. }
  eapply step_read; eauto. intros h h1 D O A N. cbn in A. destruct h as [|[]]; try discriminate. injection A as <-.
  cbn. split; auto. split; auto. apply incl_refl.
Qed.

(** Steps that change no more than queues and records *)
Record soft (s t : shared) : Prop := mkSoft {
  so_owner : owner t = owner s; so_table : table t = table s; so_next : nextid t = nextid s; so_brk : brk t = brk s;
  so_issued : issued t = issued s;
  so_heap : forall a, match heap s a with
                      | Some o => exists o', heap t a = Some o' /\ o_kind o' = o_kind o /\ o_stage o' = o_stage o /\ o_id o' = o_id o /\ o_key o' = o_key o
                      | None => heap t a = None
                      end }.

Lemma soft_fwd : forall s t a o, soft s t -> heap s a = Some o ->
  exists o', heap t a = Some o' /\ o_kind o' = o_kind o /\ o_stage o' = o_stage o /\ o_id o' = o_id o /\ o_key o' = o_key o.
Proof. intros s t a o S H. pose proof (so_heap _ _ S a) as X. rewrite H in X. auto. Qed.
Lemma soft_bwd : forall s t a o', soft s t -> heap t a = Some o' ->
  exists o, heap s a = Some o /\ o_kind o' = o_kind o /\ o_stage o' = o_stage o /\ o_id o' = o_id o /\ o_key o' = o_key o.
Proof.
  intros s t a o' S H. pose proof (so_heap _ _ S a) as X. destruct (heap s a) as [o|]; [|congruence].
  destruct X as (o2 & A & B). exists o. split; auto. rewrite H in A. injection A as <-. auto.
Qed.

Lemma soft_global : forall s t, soft s t -> global s -> global t.
Proof.
  intros s t S G. split; rewrite ?(so_table _ _ S), ?(so_next _ _ S), ?(so_brk _ _ S), ?(so_issued _ _ S); try apply G.
  - intros k a. rewrite (g_table _ G). split; intros (o & A & B & C).
    + destruct (soft_fwd _ _ _ _ S A) as (o' & X & Y & Z & _). exists o'. repeat split; congruence.
    + destruct (soft_bwd _ _ _ _ S A) as (o' & X & Y & Z & _). exists o'. repeat split; congruence.
  - intros a o A B. destruct (soft_bwd _ _ _ _ S A) as (o' & X & Y & Z & V & _). destruct (g_done _ G a o') as [j J]; auto; [congruence|]. exists j. congruence.
  - intros a o A. destruct (soft_bwd _ _ _ _ S A) as (o' & X & _). eapply g_brk; eauto.
  - intros a o v A B. destruct (soft_bwd _ _ _ _ S A) as (o' & X & Y & Z & V & _). eapply g_issued with (o := o'); eauto. congruence.
  - intros a b o p v A B C D. destruct (soft_bwd _ _ _ _ S A) as (o' & X & Y & Z & V & _). destruct (soft_bwd _ _ _ _ S B) as (p' & X' & Y' & Z' & V' & _).
    apply (g_inj _ G a b o' p' v); auto; congruence.
Qed.

Lemma soft_frame : forall s t i, soft s t -> frame s t i.
Proof.
  intros s t i S. split.
  - intros. rewrite (so_owner _ _ S). tauto.
  - intros. rewrite (so_table _ _ S). auto.
  - intros a o A. destruct (soft_fwd _ _ _ _ S A) as (o' & X & Y & Z & V & _). left. exists o'. auto.
  - intros. apply (so_next _ _ S).
Qed.

Lemma soft_shape : forall s t i l, soft s t -> shape s i l -> shape t i l.
Proof.
  intros s t i l S H.
  assert (M : forall k a, making s i k a -> making t i k a).
  { intros k a (o & A & B & C & D). destruct (soft_fwd _ _ _ _ S A) as (o' & X & Y & Z & V & _). exists o'. repeat split; congruence. }
  assert (M' : forall k a, made s i k a -> made t i k a).
  { intros k a (o & v & A & B & C & D). destruct (soft_fwd _ _ _ _ S A) as (o' & X & Y & Z & V & _). exists o', v. repeat split; congruence. }
  assert (E : forall k a g, ending s i k a g -> ending t i k a g).
  { intros k a g (o & A & B & C & D). destruct (soft_fwd _ _ _ _ S A) as (o' & X & Y & Z & V & _). exists o'. repeat split; congruence. }
  destruct H; try (econstructor; eauto; fail). rewrite <- (so_next _ _ S). constructor; auto.
Qed.

Lemma soft_good : forall s t i l, soft s t -> good s s i l -> good s t i l.
Proof.
  intros s t i l S (G & _ & h & D & O & A & R & H). split; [eapply soft_global; eauto|]. split; [apply soft_frame; auto|].
  exists h. split; auto. rewrite (so_owner _ _ S). split; auto. split; auto. split; [|eapply soft_shape; eauto].
  apply (refs_mono s t i l h h); auto using incl_refl.
  - intros kept a _ (o & X & Y). destruct (soft_fwd _ _ _ _ S X) as (o' & X' & Y' & _). exists o'. rewrite Y', (so_table _ _ S). auto.
  - intros a (o & X & Y). destruct (soft_fwd _ _ _ _ S X) as (o' & X' & Y' & _). exists o'. rewrite Y'. auto.
Qed.

Lemma soft_same : forall s, soft s s.
Proof. intros s. split; auto. intros a. destruct (heap s a) as [o|]; auto. exists o. auto. Qed.

Lemma soft_set : forall s a o f ac ex, heap s a = Some o ->
  soft s (mkSh (owner s) (table s) (nextid s) (fun b => if Nat.eqb b a then Some (set_fifo o f) else heap s b) (brk s) (issued s) ac ex (released s)).
Proof.
  intros s a o f ac ex H. split; auto. intros b. cbn. destruct (Nat.eqb b a) eqn:E.
  - apply Nat.eqb_eq in E. subst b. rewrite H. eexists. split; [reflexivity|]. cbn. auto.
  - destruct (heap s b) as [p|]; auto. exists p. auto.
Qed.

Lemma step_append : forall s i a e r ch t pre, global s -> thread s i (Append a e :: r) -> exec ch s i (Append a e) = Some (t, pre) -> good s t i (pre ++ r).
Proof.
  intros s i a e r ch t pre G T E. assert (PR : Forall plain r) by (destruct T as (h & _ & _ & _ & _ & S); eapply simple_rest; [|exact S]; exact I).
  cbn in E. destruct (heap s a) as [o|] eqn:HA; [|discriminate]. injection E as <- <-.
  eapply soft_good; [apply soft_set; auto|]. eapply step_read; eauto; [|apply sh_plain; auto].
  intros h h1 D O A N. cbn in A. destruct h as [|[]]; try discriminate. destruct (a =? a0); [|discriminate]. injection A as <-.
  cbn. split; auto. split; auto. apply incl_refl.
Qed.

Lemma step_drain : forall s i a r ch t pre, global s -> thread s i (Drain a :: r) -> exec ch s i (Drain a) = Some (t, pre) -> good s t i (pre ++ r).
Proof.
  intros s i a r ch t pre G T E. assert (PR : Forall plain r) by (destruct T as (h & _ & _ & _ & _ & S); eapply simple_rest; [|exact S]; exact I).
  cbn in E. destruct (heap s a) as [o|] eqn:HA; [|discriminate]. destruct (fifo_claim (o_fifo o)) as [f|] eqn:FC; injection E as <- <-.
  - eapply soft_good; [apply soft_set; auto|]. eapply step_read; eauto; [|apply sh_plain; repeat constructor; auto].
    intros h h1 D O A N. cbn in A, N. destruct h; [|discriminate]. injection A as <-.
    cbn. rewrite below_nil, Nat.eqb_refl. split; auto. split; [|apply incl_refl]. split; [apply owned_safe; auto|]. auto.
  - eapply step_read; eauto; [|apply sh_plain; auto].
    intros h h1 D O A N. cbn in A, N. destruct h; [|discriminate]. injection A as <-.
    cbn. split; auto. split; auto. apply incl_refl.
Qed.

Lemma step_take : forall s i a r ch t pre, global s -> thread s i (Take a :: r) -> exec ch s i (Take a) = Some (t, pre) -> good s t i (pre ++ r).
Proof.
  intros s i a r ch t pre G T E. assert (PR : Forall plain r) by (destruct T as (h & _ & _ & _ & _ & S); eapply simple_rest; [|exact S]; exact I).
  cbn in E. destruct (heap s a) as [o|] eqn:HA; [|discriminate]. destruct (fifo_take (o_fifo o)) as [q f] eqn:FC. injection E as <- <-.
  eapply soft_good; [apply soft_set; auto|]. eapply step_read; eauto.
  2:{ destruct q; cbn; [apply sh_e1; repeat constructor; auto|apply sh_plain; repeat constructor; auto]. }
  intros h h1 D O A N. cbn in A, N. destruct h as [|[j| | |b] [|? ?]]; try discriminate. destruct (Nat.eqb a b) eqn:Q; [|discriminate]. injection A as <-.
  apply Nat.eqb_eq in Q. subst b.
  destruct q; cbn; rewrite !Nat.eqb_refl; cbn; (split; [auto|split; [|apply incl_refl]]); (split; [apply owned_safe; auto|]); auto.
Qed.

Lemma step_exec : forall s i a e r ch t pre, global s -> thread s i (Exec a e :: r) -> exec ch s i (Exec a e) = Some (t, pre) -> good s t i (pre ++ r).
Proof.
  intros s i a e r ch t pre G T E. cbn in E. injection E as <- <-.
  assert (PR : Forall plain r).
  { destruct T as (h & _ & _ & _ & _ & S). remember (Exec a e :: r) as l. destruct S; try discriminate.
    - injection Heql as <- <- <-. auto.
    - subst. inversion H as [|? ? X]; subst. destruct X. }
  apply soft_good with (s := s).
  { split; auto. intros b. cbn. destruct (heap s b) as [p|]; auto. exists p. auto. }
  eapply step_read; eauto; [|apply sh_plain; repeat constructor; auto].
  intros h h1 D O A N. cbn in A, N. destruct h; [|discriminate]. injection A as <-.
  cbn. split; auto. split; auto. apply incl_refl.
Qed.

Lemma heap_set : forall s a o b, heap (set_obj s a o) b = if Nat.eqb b a then o else heap s b.
Proof. auto. Qed.

Lemma step_alloc : forall s i k key first r ch t pre, global s -> thread s i (Alloc k key first :: r) -> exec ch s i (Alloc k key first) = Some (t, pre) -> good s t i (pre ++ r).
Proof.
  intros s i k key first r ch t pre G T E. assert (PR : Forall plain r) by (destruct T as (h & _ & _ & _ & _ & S); eapply simple_rest; [|exact S]; exact I).
  cbn [exec] in E. remember (brk s) as a eqn:HA.
  assert (FR : heap s a = None). { destruct (heap s a) as [o|] eqn:H; auto. apply (g_brk _ G) in H. lia. }
  injection E as <- <-.
  match goal with |- good s ?x i _ => set (t := x) end.
  assert (Hh : forall b, heap t b = if Nat.eqb b a then Some (mkT k key None fifo_init (Fresh i)) else heap s b) by reflexivity.
  assert (Ho : forall b o, heap s b = Some o -> heap t b = Some o).
  { intros b o H. rewrite Hh. destruct (Nat.eqb b a) eqn:Q; auto. apply Nat.eqb_eq in Q. subst b. congruence. }
  assert (Hn : forall b o, heap t b = Some o -> b = a /\ o = mkT k key None fifo_init (Fresh i) \/ b <> a /\ heap s b = Some o).
  { intros b o H. rewrite Hh in H. destruct (Nat.eqb b a) eqn:Q; [left|right]; [apply Nat.eqb_eq in Q|apply Nat.eqb_neq in Q]; split; auto; congruence. }
  split; [|split].
  - split; try apply G.
    + intros j b. change (table t j) with (table s j). rewrite (g_table _ G). split; intros (o & A & B & C).
      * exists o. auto.
      * destruct (Hn _ _ A) as [[-> ->]|[_ X]]; [discriminate|]. exists o. auto.
    + intros b o A B. destruct (Hn _ _ A) as [[-> ->]|[_ X]]; [exists i; auto|]. eapply g_done; eauto.
    + intros b o A. change (brk t) with (S a). destruct (Hn _ _ A) as [[-> ->]|[_ X]]; [lia|]. apply (g_brk _ G) in X. lia.
    + intros b o v A B. destruct (Hn _ _ A) as [[-> ->]|[_ X]]; [discriminate|]. eapply (g_issued _ G); eauto.
    + intros b c o p v A B C D. destruct (Hn _ _ A) as [[-> ->]|[_ X]]; [discriminate|]. destruct (Hn _ _ B) as [[-> ->]|[_ Y]]; [discriminate|].
      eapply (g_inj _ G); eauto.
  - split; try (intros; reflexivity).
    intros b o A. left. exists o. split; auto.
  - destruct T as (h & D & O & A & [N R] & _). exists h. split; auto. split; auto.
    cbn [afters after] in A. destruct (below 1 h) eqn:B1; [|discriminate].
    assert (B2 : below 2 h = true) by (eapply below_le; [|exact B1]; lia).
    split.
    { destruct first; repeat (progress (cbn; rewrite ?B1, ?B2, ?kind_eqb_refl)); auto. }
    split.
    { assert (W : forall m, rank m = 1 -> incl h (without m h)).
      { intros m Hm x X. apply filter_In. split; auto. pose proof (below_in _ _ _ B1 X). destruct x, m; cbn in *; auto; lia. }
      assert (R' : refs t i h r).
      { apply (refs_mono s t i r h h); auto using incl_refl.
        - intros kept b _ (o & X & Y). exists o. auto.
        - intros b (o & X & Y). exists o. auto. }
      apply refs_app. split.
      - cbn. repeat split; auto. destruct first; cbn; repeat split; auto.
        exists (mkT k key None fifo_init (Fresh i)). split; [rewrite Hh, Nat.eqb_refl; auto|]. left. exact N.
      - eapply refs_incl; [|exact R']. cbn [app keepss keeps].
        assert (incl h (without (MTable k) (without MId h))). { eapply incl_tran; [apply (W (MTable k)); auto|]. apply without_incl. apply W; auto. }
        destruct first; cbn; auto. }
    { cbn. apply sh_c1.
      - exists (mkT k key None fifo_init (Fresh i)). split; [rewrite Hh, Nat.eqb_refl; auto|]. auto.
      - constructor; [exact I|]. apply Forall_app. split; auto. destruct first; repeat constructor. }
Qed.

Lemma step_storeid : forall s i a v r ch t pre, global s -> thread s i (StoreId a v :: r) -> exec ch s i (StoreId a v) = Some (t, pre) -> good s t i (pre ++ r).
Proof.
  intros s i a v r ch t pre G (h & D & O & A & R & S) E.
  assert (S' : exists k r', v = nextid s /\ r = Unlock MId :: Lock (MTable k) :: Link k a :: r' /\ making s i k a /\ Forall plain r').
  { remember (StoreId a v :: r) as l. destruct S; try discriminate.
    - injection Heql as <- <- <-. exists k, r0. auto.
    - subst. inversion H as [|? ? X]; subst. destruct X. }
  destruct S' as (k & r' & -> & -> & (o & HA & HK & HG & HI) & PR).
  assert (OM : owner s MId = Some i). { cbn in A. destruct h as [|[]]; try discriminate. apply O. cbn; auto. }
  cbn [exec] in E. rewrite HA in E. injection E as <- <-.
  match goal with |- good s ?x i _ => set (t := x) end.
  set (o1 := mkT (o_kind o) (o_key o) (Some (nextid s)) (o_fifo o) (o_stage o)).
  assert (Hh : forall b, heap t b = if Nat.eqb b a then Some o1 else heap s b) by reflexivity.
  assert (Ho : forall b p, heap s b = Some p -> exists p', heap t b = Some p' /\ o_kind p' = o_kind p /\ o_stage p' = o_stage p /\ (b <> a -> p' = p)).
  { intros b p H. rewrite Hh. destruct (Nat.eqb b a) eqn:Q.
    - apply Nat.eqb_eq in Q. subst b. exists o1. replace p with o by congruence. repeat split; auto. congruence.
    - exists p. auto. }
  assert (Hn : forall b p, heap t b = Some p -> b = a /\ p = o1 \/ b <> a /\ heap s b = Some p).
  { intros b p H. rewrite Hh in H. destruct (Nat.eqb b a) eqn:Q; [left|right]; [apply Nat.eqb_eq in Q|apply Nat.eqb_neq in Q]; split; auto; congruence. }
  assert (NEW : forall b p, heap s b = Some p -> o_id p = Some (nextid s) -> False).
  { intros b p X Y. apply (g_issued _ G _ _ _ X) in Y. apply (g_next _ G) in Y. lia. }
  split; [|split].
  - split; try apply G.
    + intros j b. change (table t j) with (table s j). rewrite (g_table _ G). split; intros (p & X & Y & Z).
      * destruct (Ho _ _ X) as (p' & X' & Y' & Z' & _). exists p'. repeat split; congruence.
      * destruct (Hn _ _ X) as [[-> ->]|[_ X']]; [cbn in Z; congruence|]. exists p. auto.
    + intros b p X Y. destruct (Hn _ _ X) as [[-> ->]|[_ X']]; [discriminate|]. eapply g_done; eauto.
    + intros b p X. change (brk t) with (brk s). destruct (Hn _ _ X) as [[-> ->]|[_ X']]; eapply (g_brk _ G); eauto.
    + intros b p v X Y. change (issued t) with (issued s ++ [nextid s]). apply in_or_app.
      destruct (Hn _ _ X) as [[-> ->]|[_ X']]; [right; cbn in Y |- *; left; congruence|]. left. eapply (g_issued _ G); eauto.
    + intros v X. change (issued t) with (issued s ++ [nextid s]) in X. change (nextid t) with (nextid s + 1)%Z. apply in_app_or in X.
      destruct X as [X|[<-|[]]]; [apply (g_next _ G) in X|]; lia.
    + change (issued t) with (issued s ++ [nextid s]). apply NoDup_rev in G as G' || idtac.
      assert (X : ~ In (nextid s) (issued s)) by (intros X; apply (g_next _ G) in X; lia).
      pose proof (g_ids _ G) as Y. clear -X Y. induction (issued s) as [|z l IH]; cbn; [repeat constructor; auto|].
      inversion Y; subst. constructor. { intros Q. apply in_app_or in Q. destruct Q as [Q|[<-|[]]]; auto. apply X; cbn; auto. } apply IH; auto. intros Q; apply X; cbn; auto.
    + intros b c p q v X Y Z W. destruct (Hn _ _ X) as [[-> ->]|[_ X']]; destruct (Hn _ _ Y) as [[-> ->]|[_ Y']]; auto.
      * cbn in Z. injection Z as <-. exfalso; eauto.
      * cbn in W. injection W as <-. exfalso; eauto.
      * eapply (g_inj _ G); eauto.
  - split; try (intros; reflexivity).
    + intros b p X. left. destruct (Ho _ _ X) as (p' & X' & Y' & Z' & W'). exists p'. split; auto. split; auto.
      destruct (Nat.eq_dec b a) as [->|Q]; [right; left; congruence|]. left. split; auto. rewrite W'; auto.
    + congruence.
  - exists h. split; auto. split; auto. split; [cbn in A; destruct h as [|[]]; try discriminate; auto|].
    destruct R as [_ R]. split.
    + cbn [keeps app] in *. apply (refs_mono s t i _ h h); auto using incl_refl.
      * intros kept b _ (p & X & Y). destruct (Ho _ _ X) as (p' & X' & Y' & _). exists p'. rewrite Y'. auto.
      * intros b (p & X & Y). destruct (Ho _ _ X) as (p' & X' & Y' & _). exists p'. rewrite Y'. auto.
    + apply sh_c4; auto. exists o1, (nextid s). rewrite Hh, Nat.eqb_refl. auto.
Qed.

Lemma step_link : forall s i k a r ch t pre, global s -> thread s i (Link k a :: r) -> exec ch s i (Link k a) = Some (t, pre) -> good s t i (pre ++ r).
Proof.
  intros s i k a r ch t pre G (h & D & O & A & R & S) E.
  assert (S' : made s i k a /\ Forall plain r).
  { remember (Link k a :: r) as l. destruct S; try discriminate.
    - injection Heql as <- <- <-. auto.
    - subst. inversion H as [|? ? X]; subst. destruct X. }
  destruct S' as ((o & v & HA & HK & HG & HI) & PR).
  assert (OM : owner s (MTable k) = Some i /\ afters h r = Some []).
  { cbn in A. destruct h as [|[j| | |]]; try discriminate. destruct (kind_eqb j k) eqn:Q; [|discriminate]. apply kind_eqb_eq in Q. subst j. split; auto. apply O. cbn; auto. }
  destruct OM as [OM A'].
  cbn [exec] in E. rewrite HA in E. injection E as <- <-.
  match goal with |- good s ?x i _ => set (t := x) end.
  set (o1 := set_stage o Linked).
  assert (Hh : forall b, heap t b = if Nat.eqb b a then Some o1 else heap s b) by reflexivity.
  assert (Ht : forall j, table t j = if kind_eqb j k then table s k ++ [a] else table s j) by reflexivity.
  assert (Ho : forall b p, heap s b = Some p -> exists p', heap t b = Some p' /\ o_kind p' = o_kind p /\ o_id p' = o_id p /\ (b <> a -> p' = p)).
  { intros b p H. rewrite Hh. destruct (Nat.eqb b a) eqn:Q.
    - apply Nat.eqb_eq in Q. subst b. exists o1. replace p with o by congruence. repeat split; auto. congruence.
    - exists p. auto. }
  assert (Hn : forall b p, heap t b = Some p -> b = a /\ p = o1 \/ b <> a /\ heap s b = Some p).
  { intros b p H. rewrite Hh in H. destruct (Nat.eqb b a) eqn:Q; [left|right]; [apply Nat.eqb_eq in Q|apply Nat.eqb_neq in Q]; split; auto; congruence. }
  assert (NT : forall j, ~ In a (table s j)). { intros j X. apply (g_table _ G) in X. destruct X as (p & X & Y & Z). congruence. }
  assert (TI : forall j b, In b (table t j) <-> In b (table s j) \/ (j = k /\ b = a)).
  { intros j b. rewrite Ht. destruct (kind_eqb j k) eqn:Q.
    - apply kind_eqb_eq in Q. subst j. rewrite in_app_iff. cbn. intuition.
    - split; auto. intros [X|[X _]]; auto. subst j. rewrite kind_eqb_refl in Q. discriminate. }
  split; [|split].
  - split; try apply G.
    + intros j b. rewrite TI. rewrite (g_table _ G). split.
      * intros [(p & X & Y & Z)|[-> ->]].
        -- exists p. split; auto. rewrite Hh. destruct (Nat.eqb b a) eqn:Q; auto. apply Nat.eqb_eq in Q. subst b. congruence.
        -- exists o1. rewrite Hh, Nat.eqb_refl. auto.
      * intros (p & X & Y & Z). destruct (Hn _ _ X) as [[-> ->]|[_ X']]; [right; cbn in Y; auto; split; congruence|]. left. exists p. auto.
    + intros j. rewrite Ht. destruct (kind_eqb j k); [|apply G].
      pose proof (g_nodup _ G k) as X. specialize (NT k). clear -X NT. induction (table s k) as [|z l IH]; cbn; [repeat constructor; auto|].
      inversion X; subst. constructor. { intros Q. apply in_app_or in Q. destruct Q as [Q|[<-|[]]]; auto. apply NT; cbn; auto. } apply IH; auto. intros Q; apply NT; cbn; auto.
    + intros b p X Y. destruct (Hn _ _ X) as [[-> ->]|[_ X']]; [cbn in Y; congruence|]. eapply g_done; eauto.
    + intros b p X. change (brk t) with (brk s). destruct (Hn _ _ X) as [[-> ->]|[_ X']]; eapply (g_brk _ G); eauto.
    + intros b p z X Y. change (issued t) with (issued s). destruct (Hn _ _ X) as [[-> ->]|[_ X']]; eapply (g_issued _ G); eauto.
    + intros b c p q z X Y Z W. destruct (Hn _ _ X) as [[-> ->]|[_ X']]; destruct (Hn _ _ Y) as [[-> ->]|[_ Y']]; auto; cbn in Z, W; eapply (g_inj _ G); eauto.
  - split; try (intros; reflexivity).
    + intros j X. rewrite Ht. rewrite kind_eqb_neq; auto. congruence.
    + intros b p X. left. destruct (Ho _ _ X) as (p' & X' & Y' & Z' & W'). exists p'. split; auto. split; auto.
      destruct (Nat.eq_dec b a) as [->|Q]; [right; left; congruence|]. left. rewrite W'; auto.
  - exists h. split; auto. split; auto. split; auto.
    destruct R as [_ R]. split; [|apply sh_plain; auto].
    cbn [keeps app] in *. apply (refs_mono s t i _ h h); auto using incl_refl.
    + intros kept b _ (p & X & Y). destruct (Ho _ _ X) as (p' & X' & Y' & _). exists p'. rewrite Y', TI. intuition.
    + intros b (p & X & Y). destruct (Ho _ _ X) as (p' & X' & Y' & _). exists p'. rewrite Y'. auto.
Qed.

Lemma remove_first_in : forall f a l, NoDup l -> In a l -> (forall b, In b l -> (f b = true <-> b = a)) ->
  NoDup (remove_first f l) /\ forall b, In b (remove_first f l) <-> In b l /\ b <> a.
Proof.
  intros f a l. induction l as [|c l IH]; intros D I F; [destruct I|]. inversion D; subst. cbn.
  destruct (f c) eqn:E.
  - apply F in E; [|cbn; auto]. subst c. split; auto. intros b. split.
    + intros X. split; auto. intros ->. auto.
    + intros [[->|X] N]; congruence.
  - assert (c <> a). { intros ->. rewrite (proj2 (F a (or_introl eq_refl))) in E; congruence. }
    destruct I as [->|I]; [congruence|]. destruct (IH H2 I) as [IH1 IH2]. { intros b X. apply F. cbn; auto. }
    split.
    + constructor; auto. intros X. apply IH2 in X. tauto.
    + intros b. cbn. rewrite IH2. split; [intros [->|[X Y]]; auto|intros [[->|X] Y]; auto].
Qed.

Lemma step_unlink : forall s i k a r ch t pre, global s -> thread s i (Unlink k a :: r) -> exec ch s i (Unlink k a) = Some (t, pre) -> good s t i (pre ++ r).
Proof.
  intros s i k a r ch t pre G (h & D & O & A & R & S) E.
  assert (S' : ending s i k a Linked /\ r = [Unlock (MTable k); Dispose a]).
  { remember (Unlink k a :: r) as l. destruct S; try discriminate.
    - injection Heql as <- <- <-. auto.
    - subst. inversion H as [|? ? X]; subst. destruct X. }
  destruct S' as ((o & HA & HK & HG & HW) & ->).
  assert (OM : owner s (MTable k) = Some i /\ afters h [Unlock (MTable k); Dispose a] = Some []).
  { cbn [afters after] in A. destruct h as [|[j| | |] [|? ?]]; try discriminate. destruct (kind_eqb j k) eqn:Q; [|discriminate]. apply kind_eqb_eq in Q. subst j. split; auto. apply O. cbn; auto. }
  destruct OM as [OM A'].
  cbn [exec] in E. rewrite HA in E. injection E as <- <-.
  match goal with |- good s ?x i _ => set (t := x) end.
  set (o1 := set_stage o Unlinked).
  assert (Hh : forall b, heap t b = if Nat.eqb b a then Some o1 else heap s b) by reflexivity.
  assert (Ht : forall j, table t j = if kind_eqb j k then remove_first (has_id s (o_id o)) (table s k) else table s j) by reflexivity.
  assert (Ho : forall b p, heap s b = Some p -> exists p', heap t b = Some p' /\ o_kind p' = o_kind p /\ o_id p' = o_id p /\ (b <> a -> p' = p)).
  { intros b p H. rewrite Hh. destruct (Nat.eqb b a) eqn:Q.
    - apply Nat.eqb_eq in Q. subst b. exists o1. replace p with o by congruence. repeat split; auto. congruence.
    - exists p. auto. }
  assert (Hn : forall b p, heap t b = Some p -> b = a /\ p = o1 \/ b <> a /\ heap s b = Some p).
  { intros b p H. rewrite Hh in H. destruct (Nat.eqb b a) eqn:Q; [left|right]; [apply Nat.eqb_eq in Q|apply Nat.eqb_neq in Q]; split; auto; congruence. }
  assert (TA : In a (table s k)) by (apply (g_table _ G); exists o; auto).
  assert (ID : exists v, o_id o = Some v). { destruct (o_id o) as [v|] eqn:Q; [eauto|]. apply (g_done _ G a o) in Q; auto. destruct Q as [j Q]. congruence. }
  destruct ID as [v ID].
  assert (RF : NoDup (remove_first (has_id s (o_id o)) (table s k)) /\ forall b, In b (remove_first (has_id s (o_id o)) (table s k)) <-> In b (table s k) /\ b <> a).
  { apply remove_first_in; auto; [apply G|]. intros b X. unfold has_id. apply (g_table _ G) in X. destruct X as (p & X & Y & Z). rewrite X, ID.
    destruct (o_id p) as [z|] eqn:Q.
    - rewrite Z.eqb_eq. split; [intros ->; eapply (g_inj _ G); eauto|]. intros ->. congruence.
    - apply (g_done _ G b p) in Q; auto. destruct Q as [j Q]. congruence. }
  destruct RF as [RF1 RF2].
  split; [|split].
  - split; try apply G.
    + intros j b. rewrite Ht. destruct (kind_eqb j k) eqn:Q.
      * apply kind_eqb_eq in Q. subst j. rewrite RF2, (g_table _ G). split.
        -- intros [(p & X & Y & Z) N]. exists p. rewrite Hh. apply Nat.eqb_neq in N. rewrite N. auto.
        -- intros (p & X & Y & Z). destruct (Hn _ _ X) as [[-> ->]|[N X']]; [discriminate|]. split; auto. exists p. auto.
      * rewrite (g_table _ G). split.
        -- intros (p & X & Y & Z). exists p. rewrite Hh. destruct (Nat.eqb b a) eqn:Q2; auto. apply Nat.eqb_eq in Q2. subst b.
           replace p with o in * by congruence. rewrite HK in Y. subst j. rewrite kind_eqb_refl in Q. discriminate.
        -- intros (p & X & Y & Z). destruct (Hn _ _ X) as [[-> ->]|[N X']]; [discriminate|]. exists p. auto.
    + intros j. rewrite Ht. destruct (kind_eqb j k); [auto|apply G].
    + intros b p X Y. destruct (Hn _ _ X) as [[-> ->]|[_ X']]; [cbn in Y; congruence|]. eapply g_done; eauto.
    + intros b p X. change (brk t) with (brk s). destruct (Hn _ _ X) as [[-> ->]|[_ X']]; eapply (g_brk _ G); eauto.
    + intros b p z X Y. change (issued t) with (issued s). destruct (Hn _ _ X) as [[-> ->]|[_ X']]; eapply (g_issued _ G); eauto.
    + intros b c p q z X Y Z W. destruct (Hn _ _ X) as [[-> ->]|[_ X']]; destruct (Hn _ _ Y) as [[-> ->]|[_ Y']]; auto; cbn in Z, W; eapply (g_inj _ G); eauto.
  - split; try (intros; reflexivity).
    + intros j X. rewrite Ht. rewrite kind_eqb_neq; auto. congruence.
    + intros b p X. left. destruct (Ho _ _ X) as (p' & X' & Y' & Z' & W'). exists p'. split; auto. split; auto.
      destruct (Nat.eq_dec b a) as [->|Q]; [right; right|left; rewrite W'; auto]. replace p with o by congruence. split; congruence.
  - exists h. split; auto. split; auto. split; auto. split; [cbn; auto|].
    apply sh_f3. exists o1. rewrite Hh, Nat.eqb_refl. auto.
Qed.

Lemma step_dispose : forall s i a r ch t pre, global s -> thread s i (Dispose a :: r) -> exec ch s i (Dispose a) = Some (t, pre) -> good s t i (pre ++ r).
Proof.
  intros s i a r ch t pre G (h & D & O & A & R & S) E.
  assert (S' : (exists k, ending s i k a Unlinked) /\ r = []).
  { remember (Dispose a :: r) as l. destruct S; try discriminate.
    - injection Heql as <- <-. eauto.
    - subst. inversion H as [|? ? X]; subst. destruct X. }
  destruct S' as ((k & o & HA & HK & HG & HW) & ->).
  cbn [exec] in E. injection E as <- <-.
  match goal with |- good s ?x i _ => set (t := x) end.
  assert (Hh : forall b, heap t b = if Nat.eqb b a then None else heap s b) by reflexivity.
  assert (Hn : forall b p, heap t b = Some p -> b <> a /\ heap s b = Some p).
  { intros b p H. rewrite Hh in H. destruct (Nat.eqb b a) eqn:Q; [discriminate|]. apply Nat.eqb_neq in Q. auto. }
  assert (Ho : forall b p, heap s b = Some p -> b <> a -> heap t b = Some p).
  { intros b p H N. rewrite Hh. apply Nat.eqb_neq in N. rewrite N. auto. }
  split; [|split].
  - split; try apply G.
    + intros j b. change (table t j) with (table s j). rewrite (g_table _ G). split; intros (p & X & Y & Z).
      * exists p. split; auto. apply Ho; auto. intros ->. congruence.
      * apply Hn in X. exists p. tauto.
    + intros b p X Y. apply Hn in X. eapply g_done; [eauto|apply X|auto].
    + intros b p X. apply Hn in X. change (brk t) with (brk s). eapply (g_brk _ G); apply X.
    + intros b p z X Y. apply Hn in X. eapply (g_issued _ G); [apply X|auto].
    + intros b c p q z X Y Z W. apply Hn in X. apply Hn in Y. eapply (g_inj _ G); [apply X|apply Y|eauto|auto].
  - split; try (intros; reflexivity).
    intros b p X. destruct (Nat.eq_dec b a) as [->|N].
    + right. replace p with o by congruence. split; congruence.
    + left. exists p. split; auto.
  - exists h. split; auto. split; auto. split; [|split; [cbn; auto|apply sh_plain; constructor]].
    cbn in A. destruct h; auto; discriminate.
Qed.

Theorem inv_start : inv start.
Proof.
  split.
  - split; cbn; try (intros; discriminate); try tauto; try (constructor).
    + intros []. + intros (o & X & _). discriminate.
  - intros i. exists []. split; [constructor|]. split; [cbn; split; [discriminate|tauto]|]. cbn. split; auto. split; auto. apply sh_plain; constructor.
Qed.

Lemma begin_thread : forall s i c, global s -> thread s i [] -> one_worker w Outside s i c = true -> thread s i (begin s c).
Proof.
  intros s i c G (h & D & O & A & R & S) U. cbn in A. injection A as ->. exists []. split; auto. split; auto.
  destruct c; cbn in U.
  all: try (match goal with e : ev |- _ => idtac end; destruct e as [[] ? ?]; cbn in U |- *; (split; [reflexivity|split; [cbn|apply sh_plain; repeat constructor]]); try (apply Nat.eqb_eq in U); repeat split; auto; fail).
  all: try (destruct k; cbn in U |- *; (split; [reflexivity|split; [cbn|apply sh_plain; repeat constructor]]); repeat split; auto; fail).
  all: try (cbn; (split; [reflexivity|split; [cbn|apply sh_plain; repeat constructor]]); repeat split; auto; fail).
  - cbn. split; [reflexivity|]. split; [|apply sh_plain; repeat constructor]. destruct first; cbn; auto. apply Nat.eqb_eq in U. auto.
  - cbn. split; [reflexivity|]. split; [|apply sh_plain; repeat constructor]. split; auto. apply owned_safe. apply mine_owned. auto.
  - rewrite andb_true_r in U. apply Nat.eqb_eq in U. subst i. destruct k; cbn; (split; [reflexivity|split; [|apply sh_plain; repeat constructor]]); auto.
  - unfold mine in U. cbn [begin]. destruct (heap s a) as [o|] eqn:H; [|discriminate]. destruct (o_stage o) eqn:GG; try discriminate. apply Nat.eqb_eq in U.
    split; [destruct (o_kind o); reflexivity|]. split; [cbn; auto|]. apply sh_f1. exists o. auto.
Qed.

Theorem inv_move : forall s x s', inv s -> fits (one_worker w) s x = true -> move s x = Some s' -> inv s'.
Proof.
  intros s x s' [G T] U M. destruct x as [i c|i ch].
  - cbn in M. destruct (todo s i) eqn:TI; [|discriminate]. injection M as <-. cbn in U. split; auto. intros j. cbn.
    destruct (Nat.eqb j i) eqn:Q; auto. apply Nat.eqb_eq in Q. subst j. apply begin_thread; auto. rewrite <- TI. auto.
  - cbn in M. destruct (todo s i) as [|y r] eqn:TI; [discriminate|]. destruct (bad (sh s) i y); [discriminate|].
    destruct (exec ch (sh s) i y) as [[t pre]|] eqn:E; [|discriminate]. injection M as <-.
    assert (TH : thread (sh s) i (y :: r)) by (rewrite <- TI; auto).
    assert (GD : good (sh s) t i (pre ++ r)).
    { destruct y; eauto using step_lock, step_unlock, step_find, step_alloc, step_loadid, step_storeid, step_link, step_push, step_append,
        step_polltable, step_pollone, step_peek, step_timeout, step_scan, step_size, step_touch, step_snapshot, step_drain, step_take, step_exec,
        step_unlink, step_dispose, step_ixtedit.
      eapply step_callback; eauto. intros c C. unfold fits in U. cbn in U. rewrite TI, C in U. auto. }
    destruct GD as (G' & F & T'). split; auto. intros j. cbn. destruct (Nat.eqb j i) eqn:Q.
    + apply Nat.eqb_eq in Q. subst j. auto.
    + apply Nat.eqb_neq in Q. eapply frame_thread; eauto.
Qed.

Theorem reach_inv : forall s, reach (one_worker w) s -> inv s.
Proof. intros s R. induction R; eauto using inv_start, inv_move. Qed.
End Worker.

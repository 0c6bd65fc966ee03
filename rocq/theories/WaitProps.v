(** C80, C81: the semaphore oSIP builds for ARC processors and the condition variable it builds for Windows *)
From Coq Require Import Bool List Arith ZArith Lia.
From Verif Require Import Base WaitModel.
Import ListNotations.

(** *** Specification of C80: a counting semaphore that serves each call in one moment between its call and its answer *)
Inductive stage := Outside | Asked (o : op) | Answered (o : op) (ok : bool).
Record asem := mkA { permits : nat; stages : tid -> stage }.
Inductive serves : asem -> list ev -> asem -> Prop :=
| s_call a t o : stages a t = Outside -> serves a [Call t o] (mkA (permits a) (upd (stages a) t (Asked o)))
| s_post a t : stages a t = Asked Post -> serves a [] (mkA (S (permits a)) (upd (stages a) t (Answered Post true)))
| s_take a t o n : stages a t = Asked o -> o <> Post -> permits a = S n -> serves a [] (mkA n (upd (stages a) t (Answered o true)))
| s_none a t : stages a t = Asked Try -> permits a = 0 -> serves a [] (mkA 0 (upd (stages a) t (Answered Try false)))
| s_ret a t o ok : stages a t = Answered o ok -> serves a [Ret t o ok] (mkA (permits a) (upd (stages a) t Outside)).
Inductive history : asem -> list ev -> asem -> Prop :=
| h_nil a : history a [] a
| h_step a e b h c : serves a e b -> history b h c -> history a (e ++ h) c.
(** a new semaphore with so many permits *)
Definition fresh (value : nat) : asem := mkA value (fun _ => Outside).

(** *** Proof: each step of the emulation is a step of the semaphore or none *)
Definition abs (p : spc) : stage :=
  match p with
  | Out => Outside
  | Lock o | Body o | Got o _ => Asked o
  | Unlock Wait false | Nap => Asked Wait
  | Unlock o ok => Answered o ok
  end.
Definition rel (s : sem) (a : asem) : Prop := permits a = cnt s /\ forall t, stages a t = abs (spos s t).
(** the mutex is held by who is between locking and unlocking *)
Definition holds_mutex (p : spc) : bool := match p with Body _ | Got _ _ | Unlock _ _ => true | _ => false end.
Definition owned (s : sem) : Prop := forall t, holder s = Some t <-> holds_mutex (spos s t) = true.
Lemma sem_move_owned t o s s' e : owned s -> sem_move t o s = Some (s', e) -> owned s'.
Proof.
  intros W M. unfold sem_move in M. pose proof (W t) as Wt.
  assert (K : forall n p, holds_mutex p = holds_mutex (spos s t) -> owned (mkSem n (holder s) (upd (spos s) t p))).
  { intros n p Q u. cbn. unfold upd. destruct (u =? t) eqn:U; [|apply W]. apply Nat.eqb_eq in U. subst u. rewrite Q. apply W. }
  assert (A : forall n p, holder s = None -> holds_mutex p = true -> owned (mkSem n (Some t) (upd (spos s) t p))).
  { intros n p Q P u. cbn. unfold upd. destruct (u =? t) eqn:U.
    - apply Nat.eqb_eq in U. subst u. split; auto.
    - split; intros X; [injection X as ->; now rewrite Nat.eqb_refl in U|]. apply W in X. congruence. }
  assert (B : forall n p, holder s = Some t -> holds_mutex p = false -> owned (mkSem n None (upd (spos s) t p))).
  { intros n p Q P u. cbn. unfold upd. destruct (u =? t) eqn:U.
    - rewrite P. split; discriminate.
    - split; [discriminate|]. intros X. apply W in X. rewrite Q in X. injection X as ->. now rewrite Nat.eqb_refl in U. }
  destruct (spos s t) as [|q|q|q n|q ok|] eqn:Q; cbn in *.
  - injection M as <- <-. now apply K.
  - destruct (holder s) eqn:Hh; [discriminate|]. injection M as <- <-. now apply A.
  - injection M as <- <-. now apply K.
  - destruct q; [injection M as <- <-; now apply K|destruct n; injection M as <- <-; now apply K..].
  - assert (Hh : holder s = Some t) by (apply Wt; reflexivity). destruct q, ok; injection M as <- <-; now apply B.
  - injection M as <- <-. now apply K.
Qed.
Lemma sem_run_owned l : forall s, owned s -> owned (fst (sem_run l s)).
Proof.
  induction l as [|[t o] l IH]; intros s W; cbn; [auto|]. destruct (sem_move t o s) as [[s' e]|] eqn:M; cbn; [|auto].
  eapply IH, sem_move_owned; eauto.
Qed.
Lemma owned_init v : owned (sem_init v). Proof. intros t. cbn. split; discriminate. Qed.

(** answers false only for osip_sem_trywait; a counter that was read is still the counter *)
Definition sane (s : sem) : Prop := owned s /\ forall t, spos s t <> Unlock Post false /\ forall o n, spos s t = Got o n -> n = cnt s.

Lemma rel_upd s a t p g n h : (forall u, stages a u = abs (spos s u)) -> abs p = g ->
  rel (mkSem n h (upd (spos s) t p)) (mkA n (upd (stages a) t g)).
Proof. intros E G. split; [reflexivity|]. intros u. cbn. unfold upd. destruct (u =? t); [now subst|apply E]. Qed.
Lemma rel_same s a t p n h : rel s a -> cnt s = n -> abs p = abs (spos s t) -> rel (mkSem n h (upd (spos s) t p)) a.
Proof.
  intros [P E] N G. split; [cbn; congruence|]. intros u. cbn. unfold upd. destruct (u =? t) eqn:U; [|apply E].
  apply Nat.eqb_eq in U. subst. now rewrite E.
Qed.
(** a step that keeps the counter, or is taken by the holder of the mutex *)
Lemma sem_move_sane t o s s' e : sane s -> sem_move t o s = Some (s', e) -> sane s'.
Proof.
  intros [W S] M. split; [eapply sem_move_owned; eauto|]. intros u.
  assert (K : u <> t -> spos s' u = spos s u).
  { intros N. apply Nat.eqb_neq in N. unfold sem_move in M.
    destruct (spos s t) as [|q|q|[] n|[] []|]; try destruct (holder s); try destruct n; try discriminate; injection M as <- <-; cbn; unfold upd; now rewrite N. }
  assert (C : cnt s' = cnt s \/ (holder s = Some t /\ forall q n, spos s' t <> Got q n)).
  { pose proof (W t) as Wt. unfold sem_move in M.
    destruct (spos s t) as [|q|q|[] n|[] []|]; try destruct (holder s); try destruct n; try discriminate; injection M as <- <-; cbn; auto; right;
      (split; [apply Wt; reflexivity|]; intros; unfold upd; rewrite Nat.eqb_refl; discriminate). }
  destruct (Nat.eq_dec u t) as [->|N].
  - pose proof (S t) as [S1 S2]. unfold sem_move in M.
    destruct (spos s t) as [|q|q|[] n|[] []|]; try destruct (holder s); try destruct n; try discriminate; injection M as <- <-; cbn; unfold upd;
      rewrite Nat.eqb_refl; (split; [discriminate || now elim S1|]); intros p m X; inversion X; reflexivity.
  - rewrite (K N). destruct (S u) as [S1 S2]. split; [exact S1|]. intros p n X. rewrite (S2 p n X).
    destruct C as [C|[C _]]; [auto|]. assert (Y : holder s = Some u) by (apply W; now rewrite X). congruence.
Qed.

Lemma sem_move_sim t o s s' e a : rel s a -> sane s -> sem_move t o s = Some (s', e) ->
  (e = [] /\ rel s' a) \/ exists b, serves a e b /\ rel s' b.
Proof.
  intros R [_ S] M. pose proof R as [P E]. unfold sem_move in M. pose proof (E t) as Et. pose proof (S t) as [St Sg].
  destruct (spos s t) as [|q|q|q n|q ok|] eqn:Q; cbn in Et.
  - injection M as <- <-. right. eexists. split.
    + apply s_call. exact Et.
    + rewrite P. apply rel_upd; auto.
  - destruct (holder s); [discriminate|]. injection M as <- <-. left. split; [reflexivity|]. apply rel_same; auto. now rewrite Q.
  - injection M as <- <-. left. split; [reflexivity|]. apply rel_same; auto. now rewrite Q.
  - specialize (Sg q n eq_refl). destruct q.
    + injection M as <- <-. right. eexists. split; [apply s_post; exact Et|]. rewrite P, <- Sg. apply rel_upd; auto.
    + destruct n as [|n].
      * injection M as <- <-. left. split; [reflexivity|]. apply rel_same; auto. now rewrite Q.
      * injection M as <- <-. right. eexists. split; [eapply s_take; [exact Et|discriminate|rewrite P; symmetry; exact Sg]|]. apply rel_upd; auto.
    + destruct n as [|n].
      * injection M as <- <-. right. eexists. split; [apply s_none; [exact Et|congruence]|]. rewrite <- Sg. apply rel_upd; auto.
      * injection M as <- <-. right. eexists. split; [eapply s_take; [exact Et|discriminate|rewrite P; symmetry; exact Sg]|]. apply rel_upd; auto.
  - assert (D : (q = Wait /\ ok = false) \/ (abs (Unlock q ok) = Answered q ok /\ Some (mkSem (cnt s) None (upd (spos s) t Out), [Ret t q ok]) = Some (s', e)))
      by (destruct q, ok; cbn in *; auto; now elim St).
    destruct D as [[-> ->]|[A M']].
    + injection M as <- <-. left. split; [reflexivity|]. apply rel_same; auto. now rewrite Q.
    + injection M' as <- <-. right. eexists. split; [apply s_ret; now rewrite E, Q|]. rewrite P. apply rel_upd; auto.
  - injection M as <- <-. left. split; [reflexivity|]. apply rel_same; auto. now rewrite Q.
Qed.

Lemma sem_run_sim l : forall s a, rel s a -> sane s -> exists b, history a (snd (sem_run l s)) b /\ rel (fst (sem_run l s)) b.
Proof.
  induction l as [|[t o] l IH]; intros s a R S; cbn.
  - exists a. split; [constructor|auto].
  - destruct (sem_move t o s) as [[s' e]|] eqn:M; [|now apply IH].
    assert (S' : sane s') by (eapply sem_move_sane; eauto).
    destruct (sem_move_sim t o s s' e a R S M) as [[-> R']|(b & V & R')].
    + cbn. apply (IH s' a R' S').
    + destruct (IH s' b R' S') as (c & H & R''). exists c. cbn. split; [|exact R'']. econstructor; eauto.
Qed.
Lemma sane_init v : sane (sem_init v).
Proof. split; [apply owned_init|]. intros t. split; discriminate. Qed.

(** The full claim: a semaphore made with osip_sem_init (value) behaves, for every number of threads and every schedule, as a counting
    semaphore with that many permits.  False when value is not 0 (C80_value_refuted); what is proved is the case of value 0, the only one
    the library itself uses (port_fifo.c 34) *)
Theorem C80_semaphore_partial : forall l, exists a, history (fresh 0) (snd (sem_run l (sem_init 0))) a.
Proof.
  intros l. destruct (sem_run_sim l (sem_init 0) (fresh 0)) as (b & H & _).
  - split; reflexivity.
  - apply sane_init.
  - now exists b.
Qed.
Print Assumptions C80_semaphore_partial.

Theorem C80_value_refuted : exists value l, ~ exists a, history (fresh value) (snd (sem_run l (sem_init value))) a.
Proof.
  exists 1, [(0, Try); (0, Try); (0, Try); (0, Try); (0, Try)]. cbn. intros [a H].
  assert (G : forall a h c, history a h c -> h = [Ret 0 Try false] -> permits a = 1 -> (stages a 0 = Asked Try \/ stages a 0 = Answered Try true) ->
    (forall u, u <> 0 -> stages a u = Outside) -> False).
  { clear. intros a h c H. induction H as [|a e b h c V H IH]; intros L P S O; [discriminate|].
    inversion V; subst; cbn in *.
    - discriminate.
    - destruct (Nat.eq_dec t 0) as [->|N]; [destruct S; congruence|rewrite O in H0; [discriminate|auto]].
    - destruct (Nat.eq_dec t 0) as [->|N]; [|rewrite O in H0; [discriminate|auto]].
      assert (o = Try) by (destruct S; congruence). subst.
      clear IH. assert (n = 0) by congruence. subst n. clear - H.
      assert (X : forall a h c, history a h c -> h = [Ret 0 Try false] -> stages a 0 = Answered Try true -> False); [|].
      { clear. intros a h c H. induction H as [|a e b h c V H IH]; intros L S; [discriminate|].
        inversion V; subst; cbn in *; try discriminate;
          try (apply IH; auto; unfold upd; destruct (0 =? t) eqn:U; [apply Nat.eqb_eq in U; subst; congruence|exact S]).
        injection L as -> -> -> _. congruence. }
      eapply X; [exact H|reflexivity|reflexivity].
    - destruct (Nat.eq_dec t 0) as [->|N]; [congruence|rewrite O in H0; [discriminate|auto]].
    - injection L as -> -> -> _. destruct S; congruence. }
  assert (K : forall a h c, history a h c -> h = [Call 0 Try; Ret 0 Try false] -> permits a = 1 -> (forall u, stages a u = Outside) -> False).
  { clear - G. intros a h c H. induction H as [|a e b h c V H IH]; intros L P O; [discriminate|].
    inversion V; subst; cbn in *; try (rewrite O in *; discriminate).
    injection L as -> -> ->. eapply G; [exact H|reflexivity|exact P| |].
    - left. reflexivity.
    - intros u N. cbn. unfold upd. apply Nat.eqb_neq in N. rewrite N. apply O. }
  eapply K; [exact H|reflexivity|reflexivity|reflexivity].
Qed.
Print Assumptions C80_value_refuted.

(** in numbers: no permit is given twice or out of nothing *)
Definition posted (e : ev) : bool := match e with Call _ Post => true | _ => false end.
Definition took (e : ev) : bool := match e with Ret _ Wait true | Ret _ Try true => true | _ => false end.
Definition count (f : ev -> bool) (h : list ev) : nat := length (filter f h).
Lemma count_app f a b : count f (a ++ b) = count f a + count f b.
Proof. unfold count. now rewrite filter_app, app_length. Qed.

(** threads that asked to post and were not served, threads that were given a permit and have not returned *)
Definition owed (s : stage) : bool := match s with Asked Post => true | _ => false end.
Definition given (s : stage) : bool := match s with Answered Wait true | Answered Try true => true | _ => false end.
Definition tally {A} (f : A -> bool) (n : nat) (s : tid -> A) : nat := length (filter (fun t => f (s t)) (seq 0 n)).
Lemma tally_upd {A} (f : A -> bool) n s t x : t < n -> tally f n (upd s t x) + (if f (s t) then 1 else 0) = tally f n s + (if f x then 1 else 0).
Proof.
  unfold tally. intros L.
  assert (G : forall l, NoDup l -> length (filter (fun u => f (upd s t x u)) l) + (if f (s t) then if existsb (Nat.eqb t) l then 1 else 0 else 0) =
    length (filter (fun u => f (s u)) l) + (if f x then if existsb (Nat.eqb t) l then 1 else 0 else 0)).
  { induction l as [|u l IH]; intros N; [cbn; destruct (f (s t)), (f x); auto|].
    inversion N as [|? ? NI N']; subst. specialize (IH N'). cbn.
    unfold upd at 1. destruct (u =? t) eqn:U.
    - apply Nat.eqb_eq in U. subst u. rewrite Nat.eqb_refl. cbn.
      assert (Z : existsb (Nat.eqb t) l = false).
      { destruct (existsb (Nat.eqb t) l) eqn:X; [|auto]. apply existsb_exists in X. destruct X as (v & I & V). apply Nat.eqb_eq in V. subst. contradiction. }
      rewrite Z in IH. destruct (f (s t)), (f x); cbn; lia.
    - assert (U' : (t =? u) = false) by (rewrite Nat.eqb_sym; exact U). rewrite U'. cbn.
      destruct (f (s u)); cbn; lia. }
  specialize (G (seq 0 n) (seq_NoDup n 0)).
  assert (X : existsb (Nat.eqb t) (seq 0 n) = true).
  { apply existsb_exists. exists t. split; [apply in_seq; lia|apply Nat.eqb_refl]. }
  now rewrite X in G.
Qed.
Definition mentions (n : nat) (e : ev) : Prop := match e with Call t _ | Ret t _ _ => t < n end.
Lemma history_counts n a h c : history a h c -> (forall t, n <= t -> stages a t = Outside) -> Forall (mentions n) h ->
  permits a + count posted h + tally owed n (stages a) + tally given n (stages a) = permits c + count took h + tally owed n (stages c) + tally given n (stages c).
Proof.
  intros H. induction H as [a|a e b h c V H IH]; intros O F; [unfold count; cbn; lia|].
  rewrite !count_app. apply Forall_app in F. destruct F as [Fe Fh].
  assert (L : forall t, stages a t <> Outside -> t < n) by (intros t N; destruct (le_lt_dec n t) as [G|G]; [elim N; auto|exact G]).
  inversion V; subst; cbn [permits stages] in IH.
  - inversion Fe as [|? ? T _]; subst. cbn in T.
    assert (X : permits a + count posted h + tally owed n (upd (stages a) t (Asked o)) + tally given n (upd (stages a) t (Asked o)) =
      permits c + count took h + tally owed n (stages c) + tally given n (stages c)).
    { apply IH; [|exact Fh]. intros u U. unfold upd. destruct (u =? t) eqn:Q; [apply Nat.eqb_eq in Q; lia|auto]. }
    pose proof (tally_upd owed n (stages a) t (Asked o) T) as A. pose proof (tally_upd given n (stages a) t (Asked o) T) as B.
    rewrite H0 in A, B. cbn in A, B. unfold count at 1 3. destruct o; cbn in *; lia.
  - assert (T : t < n) by (apply L; congruence).
    assert (X : S (permits a) + count posted h + tally owed n (upd (stages a) t (Answered Post true)) + tally given n (upd (stages a) t (Answered Post true)) =
      permits c + count took h + tally owed n (stages c) + tally given n (stages c)).
    { apply IH; [|exact Fh]. intros u U. unfold upd. destruct (u =? t) eqn:Q; [apply Nat.eqb_eq in Q; lia|auto]. }
    pose proof (tally_upd owed n (stages a) t (Answered Post true) T) as A. pose proof (tally_upd given n (stages a) t (Answered Post true) T) as B.
    rewrite H0 in A, B. cbn in A, B. unfold count at 1 3. cbn. lia.
  - assert (T : t < n) by (apply L; congruence).
    assert (X : n0 + count posted h + tally owed n (upd (stages a) t (Answered o true)) + tally given n (upd (stages a) t (Answered o true)) =
      permits c + count took h + tally owed n (stages c) + tally given n (stages c)).
    { apply IH; [|exact Fh]. intros u U. unfold upd. destruct (u =? t) eqn:Q; [apply Nat.eqb_eq in Q; lia|auto]. }
    pose proof (tally_upd owed n (stages a) t (Answered o true) T) as A. pose proof (tally_upd given n (stages a) t (Answered o true) T) as B.
    rewrite H0 in A, B. unfold count at 1 3. destruct o; cbn in *; try congruence; lia.
  - assert (T : t < n) by (apply L; congruence).
    assert (X : 0 + count posted h + tally owed n (upd (stages a) t (Answered Try false)) + tally given n (upd (stages a) t (Answered Try false)) =
      permits c + count took h + tally owed n (stages c) + tally given n (stages c)).
    { apply IH; [|exact Fh]. intros u U. unfold upd. destruct (u =? t) eqn:Q; [apply Nat.eqb_eq in Q; lia|auto]. }
    pose proof (tally_upd owed n (stages a) t (Answered Try false) T) as A. pose proof (tally_upd given n (stages a) t (Answered Try false) T) as B.
    rewrite H0 in A, B. cbn in A, B. unfold count at 1 3. cbn. lia.
  - assert (T : t < n) by (apply L; congruence).
    assert (X : permits a + count posted h + tally owed n (upd (stages a) t Outside) + tally given n (upd (stages a) t Outside) =
      permits c + count took h + tally owed n (stages c) + tally given n (stages c)).
    { apply IH; [|exact Fh]. intros u U. unfold upd. destruct (u =? t) eqn:Q; [apply Nat.eqb_eq in Q; lia|auto]. }
    pose proof (tally_upd owed n (stages a) t Outside T) as A. pose proof (tally_upd given n (stages a) t Outside T) as B.
    rewrite H0 in A, B. unfold count at 1 3. destruct o, ok; cbn in *; lia.
Qed.
Lemma bounded (h : list ev) : exists n, Forall (mentions n) h.
Proof.
  induction h as [|e h [n F]]; [exists 0; constructor|].
  exists (S (match e with Call t _ | Ret t _ _ => t end) + n). constructor; [destruct e; cbn; lia|].
  eapply Forall_impl; [|exact F]. intros [t o|t o ok]; cbn; lia.
Qed.
Lemma tally_zero {A} (f : A -> bool) n s : (forall t, f (s t) = false) -> tally f n s = 0.
Proof. intros Z. unfold tally. induction (seq 0 n) as [|u l IH]; [reflexivity|]. cbn. now rewrite Z. Qed.

(** osip_sem_wait and osip_sem_trywait together never succeed more often than osip_sem_post was called *)
Theorem C80_permits_partial : forall l, let h := snd (sem_run l (sem_init 0)) in count took h <= count posted h.
Proof.
  intros l h. destruct (C80_semaphore_partial l) as [c H]. destruct (bounded h) as [n F].
  pose proof (history_counts n _ _ _ H (fun _ _ => eq_refl) F) as E. cbn [permits fresh stages] in E.
  rewrite !(tally_zero _ n (fun _ => Outside)) in E by (intros; reflexivity). unfold h in *. lia.
Qed.
Print Assumptions C80_permits_partial.

(** and when all calls have returned nothing is lost: what was posted and not taken is there *)
Theorem C80_nothing_lost_partial : forall l, let r := sem_run l (sem_init 0) in
  (forall t, spos (fst r) t = Out) -> count posted (snd r) = cnt (fst r) + count took (snd r).
Proof.
  intros l r Q. destruct (sem_run_sim l (sem_init 0) (fresh 0)) as (b & H & R).
  { split; reflexivity. } { apply sane_init. }
  destruct (bounded (snd r)) as [n F]. pose proof (history_counts n _ _ _ H (fun _ _ => eq_refl) F) as E. cbn [permits fresh stages] in E.
  destruct R as [P S]. fold r in P, S. rewrite !(tally_zero _ n (fun _ => Outside)) in E by (intros; reflexivity).
  rewrite !(tally_zero _ n (stages b)) in E by (intros t; rewrite S, Q; reflexivity). unfold r in *. lia.
Qed.
Print Assumptions C80_nothing_lost_partial.

(** *** No thread is stuck in the emulation *)
(** a thread that cannot go on waits for another one, which is inside the few statements under the mutex and can go on: after three more
    steps it has left them *)
Theorem C80_no_deadlock : forall value l t o, let s := fst (sem_run l (sem_init value)) in
  sem_move t o s = None ->
  exists u, u <> t /\ holder s = Some u /\ exists k, k <= 3 /\ holder (fst (sem_run (repeat (u, o) k) s)) = None.
Proof.
  intros value l t o s M. assert (W : owned s) by apply sem_run_owned, owned_init. clearbody s.
  assert (X : exists q u, spos s t = Lock q /\ holder s = Some u).
  { unfold sem_move in M. destruct (spos s t) as [|q|q|q n|q ok|]; try discriminate.
    - destruct (holder s) as [u|]; [|discriminate]. now exists q, u.
    - destruct q; try discriminate; destruct n; discriminate.
    - destruct q, ok; discriminate. }
  destruct X as (q & u & P & Hu). exists u.
  assert (N : u <> t). { intros ->. apply W in Hu. rewrite P in Hu. discriminate. }
  split; [exact N|]. split; [exact Hu|].
  assert (Y : holds_mutex (spos s u) = true) by now apply W.
  destruct (spos s u) as [|p|p|p n|p ok|] eqn:Pu; try discriminate.
  - exists 3. split; [lia|]. cbn. unfold sem_move at 1. rewrite Pu. cbn. unfold sem_move at 1. cbn. unfold upd at 1. rewrite Nat.eqb_refl.
    destruct p; [|destruct (cnt s)..]; cbn; unfold sem_move, upd; cbn; rewrite ?Nat.eqb_refl; reflexivity.
  - exists 2. split; [lia|]. cbn. unfold sem_move at 1. rewrite Pu.
    destruct p; [|destruct n..]; cbn; unfold sem_move, upd; cbn; rewrite ?Nat.eqb_refl; reflexivity.
  - exists 1. split; [lia|]. cbn. unfold sem_move. rewrite Pu. destruct p, ok; reflexivity.
Qed.
Print Assumptions C80_no_deadlock.

(** a thread inside osip_sem_wait returns within five of its steps if there is a permit and nobody is in the way *)
Theorem C80_wait_returns : forall value l t, let s := fst (sem_run l (sem_init value)) in
  (spos s t = Lock Wait \/ spos s t = Nap) -> holder s = None -> 0 < cnt s ->
  exists k, k <= 5 /\ snd (sem_run (repeat (t, Wait) k) s) = [Ret t Wait true].
Proof.
  intros value l t s P Hh C. clearbody s. destruct (cnt s) as [|n] eqn:E; [lia|].
  destruct P as [P|P]; [exists 4|exists 5]; (split; [lia|]);
    cbn; repeat (unfold sem_move at 1, upd; cbn; rewrite ?Nat.eqb_refl, ?P, ?Hh, ?E; cbn); reflexivity.
Qed.
Print Assumptions C80_wait_returns.

(** two threads: one posts while the other waits; the third call is refused *)
Example C80_example :
  snd (sem_run [(1, Wait); (1, Wait); (1, Wait); (1, Wait); (0, Post); (1, Wait); (0, Post); (0, Post); (0, Post); (0, Post); (1, Wait); (1, Wait); (1, Wait); (1, Wait); (1, Wait);
                 (2, Try); (2, Try); (2, Try); (2, Try); (2, Try)]
                (sem_init 0))
  = [Call 1 Wait; Call 0 Post; Ret 0 Post true; Ret 1 Wait true; Call 2 Try; Ret 2 Try false].
Proof. reflexivity. Qed.

(** *** C81: the condition variable.  Reachable states: any number of threads, any schedule, of calls allowed by a rule of use *)
Definition rule := cond -> tid -> act -> Prop.
Definition any : rule := fun _ _ _ => True.
Inductive reach (r : rule) : list cev -> cond -> Prop :=
| r_init : reach r [] cond_init
| r_move h s t a s' e : reach r h s -> r s t a -> cond_move t a s = Some (s', e) -> reach r (h ++ e) s'.
(** inside osip_cond_wait *)
Definition waiting (p : wpc) : bool := match p with W_lock | W_release | W_sleep | W_again | W_done => true | _ => false end.
(** inside osip_cond_timedwait *)
Definition timed (p : wpc) : bool := match p with T_release | T_sleep | T_again _ => true | _ => false end.
(** the rule of use that is needed: osip_cond_wait is not called while another thread is inside it *)
Definition one_waiter : rule := fun s t a => a = DoWait -> forall u, waiting (wpos s u) = false.

(** *** Invariants *)
Definition owns (p : wpc) : bool := match p with Mine | W_lock | W_release | W_done | T_release => true | _ => false end.
Definition inside (p : wpc) : bool := match p with W_release | W_sleep | W_again | W_done => true | _ => false end.
Definition good (s : cond) : Prop := (forall t, mut s = Some t <-> owns (wpos s t) = true) /\ (forall t, inner s = Some t <-> inside (wpos s t) = true).

Lemma mutex_keep (m : option tid) (f : wpc -> bool) (g : tid -> wpc) t p : (forall u, m = Some u <-> f (g u) = true) -> f p = f (g t) ->
  forall u, m = Some u <-> f (upd g t p u) = true.
Proof. intros W Q u. unfold upd. destruct (u =? t) eqn:U; [|apply W]. apply Nat.eqb_eq in U. subst u. rewrite Q. apply W. Qed.
Lemma mutex_take (m : option tid) (f : wpc -> bool) (g : tid -> wpc) t p : (forall u, m = Some u <-> f (g u) = true) -> m = None -> f p = true ->
  forall u, Some t = Some u <-> f (upd g t p u) = true.
Proof.
  intros W Q P u. unfold upd. destruct (u =? t) eqn:U.
  - apply Nat.eqb_eq in U. subst u. split; auto.
  - split; intros X; [injection X as ->; now rewrite Nat.eqb_refl in U|]. apply W in X. congruence.
Qed.
Lemma mutex_give (m : option tid) (f : wpc -> bool) (g : tid -> wpc) t p : (forall u, m = Some u <-> f (g u) = true) -> f (g t) = true -> f p = false ->
  forall u, None = Some u <-> f (upd g t p u) = true.
Proof.
  intros W Q P u. apply W in Q. unfold upd. destruct (u =? t) eqn:U.
  - rewrite P. split; discriminate.
  - split; [discriminate|]. intros X. apply W in X. rewrite Q in X. injection X as ->. now rewrite Nat.eqb_refl in U.
Qed.

Ltac cases M := unfold cond_move in M;
  repeat match type of M with
  | context [match wpos ?s ?t with _ => _ end] => destruct (wpos s t) eqn:?
  | context [match ?a with DoLock => _ | _ => _ end] => destruct a
  | context [match mut ?s with _ => _ end] => destruct (mut s) eqn:?
  | context [match inner ?s with _ => _ end] => destruct (inner s) eqn:?
  | context [match csem ?s with _ => _ end] => destruct (csem s) eqn:?
  | context [if (?m <=? 0)%Z then _ else _] => destruct (m <=? 0)%Z eqn:?
  end; try discriminate; injection M as <- <-.

Lemma cond_move_good t a s s' e : good s -> cond_move t a s = Some (s', e) -> good s'.
Proof.
  intros [A B] M.
  cases M; split; cbn [mut inner wpos];
    first [ assumption
          | eapply mutex_keep; [eassumption|match goal with H : wpos _ _ = _ |- _ => now rewrite H end]
          | eapply mutex_take; [eassumption|congruence|reflexivity]
          | eapply mutex_give; [eassumption|match goal with H : wpos _ _ = _ |- _ => now rewrite H end|reflexivity]
          | idtac ].
Qed.

Lemma reach_good r h s : reach r h s -> good s.
Proof. intros R. induction R; [split; intros u; split; discriminate|]. eapply cond_move_good; eauto. Qed.

(** whoever comes back from osip_cond_wait or osip_cond_timedwait owns the mutex again, and alone *)
Theorem C81_mutex : forall h s t a s' e w, reach any h s -> cond_move t a s = Some (s', e) -> In (Back t w) e ->
  mut s' = Some t /\ wpos s' t = Mine /\ forall u, wpos s' u = Mine -> u = t.
Proof.
  intros h s t a s' e w R M I.
  assert (G : good s') by (eapply cond_move_good; [eapply reach_good; eauto|eauto]).
  assert (P : wpos s' t = Mine).
  { clear G. cases M; cbn in *; try contradiction; destruct I as [I|[]]; try discriminate; auto; unfold upd; now rewrite Nat.eqb_refl. }
  destruct G as [G _]. assert (E : mut s' = Some t) by (apply G; now rewrite P).
  split; [exact E|]. split; [exact P|]. intros u U.
  assert (X : mut s' = Some u) by (apply G; now rewrite U). congruence.
Qed.
Print Assumptions C81_mutex.

(** *** Signals are neither lost nor used twice *)
Definition is_signal (e : cev) : bool := match e with Signal _ => true | _ => false end.
Definition is_woken (e : cev) : bool := match e with Back _ true => true | _ => false end.
Definition ccount (f : cev -> bool) (h : list cev) : nat := length (filter f h).
(** woken and not back yet *)
Definition rising (p : wpc) : bool := match p with W_again | W_done | T_again true => true | _ => false end.
Lemma ccount_app f a b : ccount f (a ++ b) = ccount f a + ccount f b.
Proof. unfold ccount. now rewrite filter_app, app_length. Qed.
Lemma move_others t a s s' e u : cond_move t a s = Some (s', e) -> u <> t -> wpos s' u = wpos s u.
Proof. intros M N. apply Nat.eqb_neq in N. cases M; cbn; unfold upd; now rewrite ?N. Qed.
Lemma move_counts t a s s' e n : cond_move t a s = Some (s', e) -> t < n ->
  csem s' + ccount is_woken e + tally rising n (wpos s') = csem s + ccount is_signal e + tally rising n (wpos s).
Proof.
  intros M L.
  cases M; cbn [csem wpos];
    repeat match goal with |- context [upd (wpos ?s) ?t ?p] =>
      let X := fresh in pose proof (tally_upd rising n (wpos s) t p L) as X;
      match goal with H : wpos s t = _ |- _ => rewrite H in X end; cbn in X; generalize dependent (tally rising n (upd (wpos s) t p)); intros end;
    unfold ccount; cbn; try lia.
  destruct woken; cbn in *; lia.
Qed.
Lemma reach_counts r h s : reach r h s ->
  exists m, forall n, m <= n -> (forall t, n <= t -> wpos s t = Idle) /\ csem s + ccount is_woken h + tally rising n (wpos s) = ccount is_signal h.
Proof.
  intros R. induction R as [|h s t a s' e R [m IH] _ M].
  - exists 0. intros n _. split; [reflexivity|]. cbn. rewrite tally_zero; [reflexivity|reflexivity].
  - exists (S t + m). intros n L. destruct (IH n ltac:(lia)) as [I E]. split.
    + intros u U. rewrite (move_others t a s s' e u M); [auto|lia].
    + rewrite !ccount_app. pose proof (move_counts t a s s' e n M ltac:(lia)). lia.
Qed.

(** no wait ends by a signal that was not sent, and no signal ends two of them *)
Theorem C81_signals : forall h s, reach any h s -> ccount is_woken h <= ccount is_signal h.
Proof. intros h s R. destruct (reach_counts any h s R) as [m C]. destruct (C m (le_n m)) as [_ E]. lia. Qed.
Print Assumptions C81_signals.

(** and when nobody is inside, the signals nobody was woken by are kept for the next callers *)
Theorem C81_kept : forall h s, reach any h s -> (forall t, waiting (wpos s t) = false /\ timed (wpos s t) = false) ->
  csem s + ccount is_woken h = ccount is_signal h.
Proof.
  intros h s R Q. destruct (reach_counts any h s R) as [m C]. destruct (C m (le_n m)) as [_ E].
  rewrite tally_zero in E; [lia|]. intros t. destruct (Q t) as [A B]. destruct (wpos s t); try discriminate; auto.
Qed.
Print Assumptions C81_kept.

(** *** Waking up.  The full claim: a thread that waits and for which a signal was sent comes back, as soon as the threads that own the
    mutex let it go.  False with two waiting threads (C81_wakes_refuted); proved when osip_cond_wait is used by one thread at a time *)
Lemma reach_one h s : reach one_waiter h s -> forall t u, waiting (wpos s t) = true -> waiting (wpos s u) = true -> t = u.
Proof.
  intros R. induction R as [|h s t a s' e R IH A M]; [discriminate|].
  assert (K : (forall u, waiting (wpos s' u) = true -> waiting (wpos s u) = true) \/ (forall u, waiting (wpos s u) = false)).
  { destruct (match a with DoWait => true | _ => false end) eqn:D.
    - destruct a; try discriminate. right. now apply A.
    - left. intros u U. destruct (Nat.eq_dec u t) as [->|N]; [|now rewrite <- (move_others t a s s' e u M N)].
      clear A IH. cases M; try discriminate; cbn in U |- *; unfold upd in U; rewrite ?Nat.eqb_refl in U;
        try reflexivity; try discriminate;
        match goal with H : wpos s t = _ |- _ => rewrite ?H in U; rewrite ?H; auto end. }
  intros u v U V. destruct K as [K|K]; [now apply IH; apply K|].
  assert (X : forall w, waiting (wpos s' w) = true -> w = t).
  { intros w W. destruct (Nat.eq_dec w t) as [|N]; [auto|]. rewrite (move_others t a s s' e w M N), K in W. discriminate. }
  rewrite (X u U), (X v V). reflexivity.
Qed.

Theorem C81_wakes_partial : forall h s t, reach one_waiter h s ->
  waiting (wpos s t) = true \/ timed (wpos s t) = true ->
  (exists r, cond_move t Go s = Some r) \/
  ((wpos s t = W_sleep \/ wpos s t = T_sleep) /\ csem s = 0) \/
  exists u, u <> t /\ mut s = Some u /\ (wpos s u = Mine \/ exists r, cond_move u Go s = Some r).
Proof.
  intros h s t R P. pose proof (reach_one h s R) as O. destruct (reach_good _ h s R) as [A B].
  assert (F : forall u, wpos s u = W_lock -> inner s = None).
  { intros u U. destruct (inner s) as [v|] eqn:I; [|reflexivity].
    assert (V : inside (wpos s v) = true) by now apply B.
    assert (v = u). { apply O; [destruct (wpos s v); auto|now rewrite U]. } subst v. rewrite U in V. discriminate. }
  assert (G : forall u, mut s = Some u -> u <> t -> wpos s u = Mine \/ exists r, cond_move u Go s = Some r).
  { intros u U N. apply A in U. unfold cond_move. destruct (wpos s u) eqn:Q; try discriminate; eauto.
    rewrite (F u Q). eauto. }
  assert (N : forall u, mut s = Some u -> owns (wpos s t) = false -> u <> t) by (intros u U X ->; apply A in U; congruence).
  destruct (wpos s t) eqn:Q; cbn in P; try (destruct P; discriminate);
    try (left; unfold cond_move; rewrite Q; now eauto).
  - left. unfold cond_move. rewrite Q, (F t Q). eauto.
  - destruct (csem s) eqn:C; [right; left; auto|]. left. unfold cond_move. rewrite Q, C. eauto.
  - destruct (mut s) as [u|] eqn:U; [|left; unfold cond_move; rewrite Q, U; eauto]. right. right. exists u.
    specialize (N u eq_refl eq_refl). split; [exact N|]. split; [reflexivity|]. apply G; auto.
  - destruct (csem s) eqn:C; [right; left; auto|]. left. unfold cond_move. rewrite Q, C. eauto.
  - destruct (mut s) as [u|] eqn:U; [|left; unfold cond_move; rewrite Q, U; eauto]. right. right. exists u.
    specialize (N u eq_refl eq_refl). split; [exact N|]. split; [reflexivity|]. apply G; auto.
Qed.
Print Assumptions C81_wakes_partial.

(** the way back is three steps *)
Theorem C81_returns : forall h s t, reach any h s -> wpos s t = W_sleep -> 0 < csem s -> mut s = None ->
  snd (cond_run [(t, Go); (t, Go); (t, Go)] s) = [Back t true].
Proof.
  intros h s t _ P C M. destruct (csem s) as [|n] eqn:E; [lia|].
  cbn. repeat (unfold cond_move at 1, upd; cbn; rewrite ?Nat.eqb_refl, ?P, ?M, ?E; cbn). reflexivity.
Qed.
Print Assumptions C81_returns.

(** thread 1 holds the mutex of the program and wants the inner one, thread 0 the other way round *)
Definition stuck (s : cond) : Prop := wpos s 0 = W_again /\ wpos s 1 = W_lock /\ good s.
Lemma stuck_move t a s s' e : stuck s -> cond_move t a s = Some (s', e) -> stuck s' /\ t <> 0 /\ t <> 1 /\ wpos s' t <> Mine.
Proof.
  intros (P & Q & G) M. pose proof G as [A B].
  assert (U : mut s = Some 1) by (apply A; now rewrite Q). assert (I : inner s = Some 0) by (apply B; now rewrite P).
  assert (T0 : t <> 0) by (intros ->; unfold cond_move in M; rewrite P, U in M; discriminate).
  assert (T1 : t <> 1) by (intros ->; unfold cond_move in M; rewrite Q, I in M; discriminate).
  split; [|split; [auto|split; [auto|]]].
  - split; [now rewrite (move_others t a s s' e 0 M) by auto|]. split; [now rewrite (move_others t a s s' e 1 M) by auto|].
    eapply cond_move_good; eauto.
  - pose proof (cond_move_good t a s s' e G M) as [A' _].
    assert (Q' : wpos s' 1 = W_lock) by (rewrite (move_others t a s s' e 1 M) by auto; exact Q).
    intros X. assert (mut s' = Some 1) by (apply A'; now rewrite Q'). assert (mut s' = Some t) by (apply A'; now rewrite X). congruence.
Qed.
Lemma stuck_run l : forall s, stuck s -> stuck (fst (cond_run l s)) /\ forall w, ~ In (Back 0 w) (snd (cond_run l s)) /\ ~ In (Back 1 w) (snd (cond_run l s)).
Proof.
  induction l as [|[t a] l IH]; intros s S; cbn; [split; [exact S|intros w; split; intros []]|].
  destruct (cond_move t a s) as [[s' e]|] eqn:M; cbn; [|now apply IH].
  destruct (stuck_move t a s s' e S M) as (S' & T0 & T1 & _). destruct (IH s' S') as [R N]. split; [exact R|].
  assert (E : forall u w, In (Back u w) e -> u = t).
  { clear - M. intros u w I. cases M; cbn in I; try contradiction; destruct I as [I|[]]; congruence. }
  intros w. destruct (N w) as [N0 N1]. split; intros I; apply in_app_or in I; destruct I as [I|I]; auto; apply E in I; auto.
Qed.

(** two threads wait, a signal is sent for each: neither ever comes back and nobody ever gets the mutex again, whatever happens next *)
Theorem C81_wakes_refuted : exists h s, reach any h s /\ ccount is_signal h = 2 /\ waiting (wpos s 0) = true /\ waiting (wpos s 1) = true /\
  forall l, (forall w, ~ In (Back 0 w) (snd (cond_run l s)) /\ ~ In (Back 1 w) (snd (cond_run l s))) /\
    forall t, wpos (fst (cond_run l s)) t <> Mine.
Proof.
  assert (K : forall l h s, reach any h s -> reach any (h ++ snd (cond_run l s)) (fst (cond_run l s))).
  { induction l as [|[t a] l IH]; intros h s R; cbn; [now rewrite app_nil_r|].
    destruct (cond_move t a s) as [[s' e]|] eqn:M; cbn; [|now apply IH].
    rewrite app_assoc. apply IH. eapply r_move; [exact R|exact I|exact M]. }
  pose (l := [(0, DoLock); (0, DoWait); (0, Go); (0, Go); (1, DoLock); (1, DoWait); (2, DoSignal); (2, DoSignal); (0, Go)]).
  exists (snd (cond_run l cond_init)), (fst (cond_run l cond_init)).
  assert (R : reach any (snd (cond_run l cond_init)) (fst (cond_run l cond_init))) by apply (K l [] cond_init), r_init.
  split; [exact R|]. split; [reflexivity|]. split; [reflexivity|]. split; [reflexivity|].
  assert (S : stuck (fst (cond_run l cond_init))) by (split; [reflexivity|split; [reflexivity|eapply reach_good; exact R]]).
  intros k. destruct (stuck_run k _ S) as [(P & Q & G) N]. split; [exact N|].
  intros t X. destruct G as [A _].
  assert (Y : mut (fst (cond_run k (fst (cond_run l cond_init)))) = Some 1) by (apply A; now rewrite Q).
  assert (Z : mut (fst (cond_run k (fst (cond_run l cond_init)))) = Some t) by (apply A; now rewrite X).
  rewrite Y in Z. injection Z as <-. congruence.
Qed.
Print Assumptions C81_wakes_refuted.

(** one thread waits, another signals under the mutex, a third waits with a time limit *)
Example C81_example :
  snd (cond_run [(0, DoLock); (0, DoWait); (0, Go); (0, Go); (1, DoLock); (1, DoSignal); (0, Go); (0, Go); (1, DoUnlock); (0, Go); (0, Go); (0, DoUnlock);
                 (2, DoLock); (2, DoTimed 5); (2, Go); (2, Expire); (2, Go)] cond_init)
  = [Signal 1; Back 0 true; Back 2 false].
Proof. reflexivity. Qed.

(** *** The time limit *)
Definition valid (a : timespec) : Prop := (0 <= tv_nsec a < 1000000000)%Z.
(** nanoseconds from a to b *)
Definition span (a b : timespec) : Z := ((tv_sec b - tv_sec a) * 1000000000 + (tv_nsec b - tv_nsec a))%Z.
(** The full claim: osip_cond_timedwait computes how long to wait to within a millisecond.  False for limits more than 24 days away *)
Theorem C81_limit_partial : forall now limit, valid now -> valid limit -> (Z.abs (tv_sec limit - tv_sec now) <= 2147482)%Z ->
  exists ms, delta_time now limit = Ok ms /\ (Z.abs (ms * 1000000 - span now limit) < 1000000)%Z.
Proof.
  intros [a m] [b n] V W D. unfold valid, span, delta_time in *. cbn [tv_sec tv_nsec] in *.
  pose proof (Z.quot_rem' (n - m) 1000000) as Q.
  assert (R : (Z.abs (Z.rem (n - m) 1000000) < 1000000)%Z) by (apply (Z.rem_bound_abs (n - m) 1000000); lia).
  assert (F : forall z, (-2147483648 <= z <= 2147483647)%Z -> fits z = Ok z).
  { intros z Z. unfold fits. destruct (Z.leb_spec (-2147483648) z); [|lia]. destruct (Z.leb_spec z 2147483647); [reflexivity|lia]. }
  rewrite (F (b - a)%Z) by lia. cbn [res_bind]. rewrite (F ((b - a) * 1000)%Z) by lia. cbn [res_bind].
  rewrite (F (n - m)%Z) by lia. cbn [res_bind].
  set (k := Z.quot (n - m) 1000000) in *. set (r := Z.rem (n - m) 1000000) in *. clearbody k r.
  rewrite F by lia.
  eexists. split; [reflexivity|]. lia.
Qed.
Print Assumptions C81_limit_partial.
Theorem C81_limit_refuted : exists now limit, valid now /\ valid limit /\ tv_sec limit = (tv_sec now + 30 * 24 * 3600)%Z /\ delta_time now limit = UB.
Proof.
  exists (mkTime 1000000 0), (mkTime (1000000 + 30 * 24 * 3600) 0). repeat split; cbn; lia.
Qed.
Print Assumptions C81_limit_refuted.
Example C81_limit_example : delta_time (mkTime 100 900000000) (mkTime 102 100000000) = Ok 1200%Z. Proof. reflexivity. Qed.

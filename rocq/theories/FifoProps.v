(** C06: the event queue. *)
From Coq Require Import ZArith Bool List Lia Arith Permutation.
From Verif Require Import Base FifoModel.
Import ListNotations.

(** * Specification: a sequence used at both ends *)

(** What the calls in [l] (oldest first), taken one after the other on a plain sequence, return:
    [Some q] if every result is the one the sequence gives, [q] being what is left. *)
Fixpoint seq_spec {A} (l : list (flabel A)) (q : list A) (q' : list A) : Prop :=
  match l with
  | [] => q' = q
  | LAdd x :: l' => seq_spec l' (q ++ [x]) q'
  | LInsert x :: l' => seq_spec l' (x :: q) q'
  | LTake r :: l' => match q with x :: q1 => r = Some x /\ seq_spec l' q1 q' | [] => False end
  | LSize n :: l' => n = length q /\ seq_spec l' q q'
  | (LWait | LRefused) :: l' => seq_spec l' q q'
  end.

(** Elements queued, and elements handed out, in order of occurrence *)
Definition queued {A} (l : list (flabel A)) : list A :=
  flat_map (fun x => match x with LAdd a | LInsert a => [a] | _ => [] end) l.
Definition handed {A} (l : list (flabel A)) : list A :=
  flat_map (fun x => match x with LTake (Some a) => [a] | _ => [] end) l.

(** How many readers passed the semaphore, and how many took an element *)
Definition takes {A} (l : list (nat * flabel A)) : nat :=
  length (filter (fun x => match snd x with LTake _ => true | _ => false end) l).
Definition waits {A} (l : list (nat * flabel A)) : nat :=
  length (filter (fun x => match snd x with LWait => true | _ => false end) l).

(** * Invariant *)

Lemma seq_spec_snoc : forall A l (q : list A) q1 lb q2,
  seq_spec l q q1 -> seq_spec [lb] q1 q2 -> seq_spec (l ++ [lb]) q q2.
Proof.
  induction l as [|x l]; intros q q1 lb q2 H H1.
  - cbn in H. subst. exact H1.
  - destruct x; cbn [app seq_spec] in *; eauto; try (destruct H; split; eauto; fail).
    destruct q; [contradiction|]. destruct H. split; eauto.
Qed.

Lemma filter_snoc : forall A (f : A -> bool) l x, length (filter f (l ++ [x])) = length (filter f l) + (if f x then 1 else 0).
Proof. intros. rewrite filter_app, app_length. simpl. destruct (f x); simpl; lia. Qed.

Lemma waits_snoc : forall A (l : list (nat * flabel A)) i x,
  waits (l ++ [(i, x)]) = waits l + match x with LWait => 1 | _ => 0 end.
Proof. intros. unfold waits. rewrite filter_snoc. destruct x; auto. Qed.
Lemma takes_snoc : forall A (l : list (nat * flabel A)) i x,
  takes (l ++ [(i, x)]) = takes l + match x with LTake _ => 1 | _ => 0 end.
Proof. intros. unfold takes. rewrite filter_snoc. destruct x; auto. Qed.

Record finv {A} (l : list (nat * flabel A)) (s : fsys A) : Prop := {
  fi_seq : seq_spec (map snd l) [] (f_queue (fs_fifo s));
  fi_sem : f_sem (fs_fifo s) + waits l = length (f_queue (fs_fifo s)) + takes l;
  fi_empty : f_empty (fs_fifo s) = true <-> f_queue (fs_fifo s) = [];
  (* the threads between semaphore and critical section, without repetition *)
  fi_thr : exists c, NoDup c /\ (forall i, In i c <-> fs_thr s i = FClaimed) /\ length c + takes l = waits l
}.

Lemma set_thr_same : forall h i x, set_thr h i x i = x.
Proof. intros. unfold set_thr. rewrite Nat.eqb_refl. auto. Qed.
Lemma set_thr_other : forall h i x j, j <> i -> set_thr h i x j = h j.
Proof. intros. unfold set_thr. destruct (Nat.eqb_spec j i); congruence. Qed.

Lemma remove_length : forall (i : nat) c, NoDup c -> In i c -> S (length (remove Nat.eq_dec i c)) = length c.
Proof.
  induction c as [|a c]; intros Hn Hin; [contradiction|]. inversion Hn; subst. cbn [remove length].
  destruct (Nat.eq_dec i a).
  - subst. f_equal. rewrite notin_remove; auto.
  - cbn [length]. f_equal. apply IHc; auto. destruct Hin; congruence.
Qed.

Lemma remove_nodup : forall (i : nat) c, NoDup c -> NoDup (remove Nat.eq_dec i c).
Proof.
  induction c as [|a c]; intros Hn; [constructor|]. inversion Hn; subst. cbn [remove].
  destruct (Nat.eq_dec i a); auto. constructor; auto. intros H. apply in_remove in H. tauto.
Qed.

Lemma finv_step : forall A l (s : fsys A) i lb s', finv l s -> fstep s i lb s' -> finv (l ++ [(i, lb)]) s'.
Proof.
  intros A l s i lb s' [H1 H2 H3 (c & C1 & C2 & C3)] Hs.
  inversion Hs; subst; cbn [fs_fifo fs_thr] in *; split; cbn [fs_fifo fs_thr];
    rewrite ?map_app, ?waits_snoc, ?takes_snoc; cbn [map snd].
  - eapply seq_spec_snoc; eauto. reflexivity.
  - cbn [fifo_add f_sem f_queue]. rewrite app_length. simpl. lia.
  - cbn. split; [discriminate|]. intros Hx. destruct (f_queue f); discriminate.
  - exists c. repeat split; auto; try (apply C2). lia.
  - eapply seq_spec_snoc; eauto. reflexivity.
  - cbn [fifo_insert f_sem f_queue length]. lia.
  - cbn. split; discriminate.
  - exists c. repeat split; auto; try (apply C2). lia.
  - eapply seq_spec_snoc; eauto. unfold fifo_claim in H0. destruct (f_sem f); [discriminate|]. injection H0 as <-. reflexivity.
  - unfold fifo_claim in H0. destruct (f_sem f) eqn:E; [discriminate|]. injection H0 as <-. cbn [f_sem f_queue]. lia.
  - unfold fifo_claim in H0. destruct (f_sem f) eqn:E; [discriminate|]. injection H0 as <-. cbn [f_empty f_queue]. auto.
  - exists (i :: c). repeat split.
    + constructor; auto. rewrite C2. congruence.
    + intros [->|Hin]; [apply set_thr_same|]. destruct (Nat.eq_dec i0 i) as [->|Hne]; [apply set_thr_same|].
      rewrite set_thr_other; auto. apply C2. auto.
    + intros Hx. destruct (Nat.eq_dec i0 i) as [->|Hne]; [left; auto|]. rewrite set_thr_other in Hx; auto.
      right. apply C2. auto.
    + cbn [length]. lia.
  - eapply seq_spec_snoc; eauto. reflexivity.
  - lia.
  - auto.
  - exists c. repeat split; auto; try (apply C2). lia.
  - assert (Hc : In i c) by (apply C2; auto). assert (0 < length c) by (destruct c; [contradiction|simpl; lia]).
    unfold fifo_take in H0. destruct (f_empty f) eqn:E.
    + destruct H3 as (H3 & _). specialize (H3 eq_refl). rewrite H3 in H2. simpl in H2. lia.
    + injection H0 as <- <-. eapply seq_spec_snoc; eauto. cbn [seq_spec f_queue].
      destruct (f_queue f) eqn:E1; [destruct H3 as (_ & H3); discriminate (H3 eq_refl)|]. split; auto.
  - assert (Hc : In i c) by (apply C2; auto). assert (0 < length c) by (destruct c; [contradiction|simpl; lia]).
    unfold fifo_take in H0. destruct (f_empty f) eqn:E.
    + destruct H3 as (H3 & _). specialize (H3 eq_refl). rewrite H3 in H2. simpl in H2. lia.
    + injection H0 as <- <-. cbn [f_sem f_queue].
      destruct (f_queue f) eqn:E1; [destruct H3 as (_ & H3); discriminate (H3 eq_refl)|]. cbn [tl length] in *. lia.
  - unfold fifo_take in H0. destruct (f_empty f) eqn:E; injection H0 as <- <-; cbn [f_empty f_queue]; auto.
    + rewrite E. auto.
    + destruct (tl (f_queue f)); split; auto; discriminate.
  - assert (Hc : In i c) by (apply C2; auto). exists (remove Nat.eq_dec i c). repeat split.
    + apply remove_nodup; auto.
    + intros Hx. apply in_remove in Hx. rewrite set_thr_other; [apply C2|]; tauto.
    + intros Hx. destruct (Nat.eq_dec i0 i) as [->|Hne].
      * rewrite set_thr_same in Hx. discriminate.
      * rewrite set_thr_other in Hx; auto. apply in_in_remove; auto. apply C2. auto.
    + pose proof (remove_length i c C1 Hc). lia.
  - eapply seq_spec_snoc; eauto. cbn. auto.
  - lia.
  - auto.
  - exists c. repeat split; auto; try (apply C2). lia.
Qed.

Lemma finv_runs : forall A l (s : fsys A), fruns fsys_init l s -> finv l s.
Proof.
  intros A l s H. remember fsys_init as s0. induction H; subst.
  - split; cbn; auto; try tauto. exists []. repeat split; auto; try constructor; intros Hx; try contradiction; discriminate.
  - eapply finv_step; eauto.
Qed.

(** * C06 *)

(** The calls of all threads, in the order they took the queue's mutex, behave as on a plain
    sequence: every element handed out is the one at the front, a reader that passed the
    semaphore always gets an element, and the size is the true size. *)
Theorem C06_linearizable : forall A l (s : fsys A), fruns fsys_init l s ->
  seq_spec (map snd l) [] (f_queue (fs_fifo s)).
Proof. intros. apply (finv_runs _ _ _ H). Qed.

Lemma seq_spec_perm : forall A l (q q' : list A), seq_spec l q q' -> Permutation (q ++ queued l) (handed l ++ q').
Proof.
  induction l as [|x l]; intros q q' H.
  - cbn in H. subst. cbn. rewrite app_nil_r. auto.
  - destruct x; cbn [seq_spec] in H; unfold queued, handed in *; cbn [flat_map app].
    + apply IHl in H. rewrite <- app_assoc in H. exact H.
    + apply IHl in H. cbn [app] in H. etransitivity; [|exact H]. symmetry. apply Permutation_middle.
    + auto.
    + auto.
    + destruct q as [|y q]; [contradiction|]. destruct H as (-> & H). cbn [app]. constructor. auto.
    + destruct H. auto.
Qed.

(** Nothing is lost or duplicated: what was queued is what was handed out plus what is left. *)
Theorem C06_nothing_lost : forall A l (s : fsys A), fruns fsys_init l s ->
  Permutation (queued (map snd l)) (handed (map snd l) ++ f_queue (fs_fifo s)).
Proof. intros A l s H. apply C06_linearizable in H. apply seq_spec_perm in H. auto. Qed.

(** First in, first out, as long as nobody jumps the queue. *)
Theorem C06_fifo : forall A l (s : fsys A), fruns fsys_init l s ->
  (forall i x, ~ In (i, LInsert x) l) -> queued (map snd l) = handed (map snd l) ++ f_queue (fs_fifo s).
Proof.
  intros A l s H Hno. apply C06_linearizable in H.
  assert (Hn : forall x, ~ In (LInsert x) (map snd l)).
  { intros x Hin. apply in_map_iff in Hin. destruct Hin as ((i & lb) & E & Hin). cbn in E. subst. eapply Hno; eauto. }
  clear Hno. revert H Hn. change (queued (map snd l)) with ([] ++ queued (map snd l)) at 1.
  generalize (@nil A) (f_queue (fs_fifo s)) (map snd l). clear. intros q q' l. revert q.
  induction l as [|x l]; intros q H Hn.
  - cbn in H. subst. cbn. apply app_nil_r.
  - assert (Hn' : forall x, ~ In (LInsert x) l) by (intros y Hy; apply (Hn y); right; auto).
    destruct x; cbn [seq_spec] in H; unfold queued, handed in *; cbn [flat_map app].
    + rewrite <- (IHl _ H Hn'), <- app_assoc. auto.
    + destruct (Hn x). left. auto.
    + auto.
    + auto.
    + destruct q as [|y q]; [contradiction|]. destruct H as (-> & H). cbn [app]. f_equal. auto.
    + destruct H. auto.
Qed.

(** The semaphore counts the queued elements that no reader has claimed: a waiting reader is let
    through exactly when there is such an element. *)
Theorem C06_semaphore : forall A l (s : fsys A), fruns fsys_init l s ->
  exists c, NoDup c /\ (forall i, In i c <-> fs_thr s i = FClaimed) /\
    f_sem (fs_fifo s) + length c = length (f_queue (fs_fifo s)) /\
    (forall i, fs_thr s i = FIdle ->
       ((exists s', fstep s i LWait s') <-> length c < length (f_queue (fs_fifo s))) /\
       (fstep s i LRefused s <-> length (f_queue (fs_fifo s)) <= length c)).
Proof.
  intros A l s H. destruct (finv_runs _ _ _ H) as [_ H2 _ (c & C1 & C2 & C3)]. exists c.
  split; [auto|]. split; [auto|]. split; [lia|]. intros i Hi. destruct s as [f h]. cbn [fs_fifo fs_thr] in *. split; split; intros Hx.
  - destruct Hx as (s' & Hx). inversion Hx; subst. unfold fifo_claim in *. destruct (f_sem f); [discriminate|]. lia.
  - destruct (f_sem f) eqn:E; [lia|]. eexists. apply fs_wait; auto. unfold fifo_claim. rewrite E. reflexivity.
  - inversion Hx; subst. unfold fifo_claim in *. destruct (f_sem f); [lia|discriminate].
  - apply fs_refused; auto. unfold fifo_claim. destruct (f_sem f); auto. lia.
Qed.

(** A reader that passed the semaphore is never sent away empty-handed. *)
Theorem C06_claim_served : forall A l (s : fsys A) i, fruns fsys_init l s -> fs_thr s i = FClaimed ->
  exists x s', fstep s i (LTake (Some x)) s' /\ forall r s'', fstep s i (LTake r) s'' -> r = Some x.
Proof.
  intros A l s i H Hi. pose proof (finv_runs _ _ _ H) as [_ H2 H3 (c & C1 & C2 & C3)].
  assert (Hc : In i c) by (apply C2; auto). assert (0 < length c) by (destruct c; [contradiction|simpl; lia]).
  destruct s as [f h]. cbn [fs_fifo fs_thr] in *.
  destruct (f_queue f) as [|x q] eqn:E; [simpl in H2; lia|].
  assert (E1 : f_empty f = false) by (destruct (f_empty f); auto; destruct H3 as (H3 & _); discriminate (H3 eq_refl)).
  exists x. eexists. split.
  - apply fs_take; auto. unfold fifo_take. rewrite E1, E. reflexivity.
  - intros r s'' Hx. inversion Hx; subst. unfold fifo_take in *. rewrite E1, E in *. simpl in *. congruence.
Qed.

(** Two producers and two readers interleaved, with one element jumping the queue. *)
Definition ex_fifo_run : list (nat * flabel nat) :=
  [(1, LAdd 10); (2, LAdd 20); (3, LWait); (1, LInsert 5); (4, LWait); (4, LTake (Some 5)); (3, LTake (Some 10)); (4, LSize 1)].

Example C06_witness : exists s, fruns fsys_init ex_fifo_run s /\ f_queue (fs_fifo s) = [20].
Proof.
  eexists. split; [|shelve].
  change ex_fifo_run with (((((((([] ++ [(1, LAdd 10)]) ++ [(2, LAdd 20)]) ++ [(3, LWait)]) ++ [(1, LInsert 5)]) ++ [(4, LWait)])
    ++ [(4, LTake (Some 5))]) ++ [(3, LTake (Some 10))]) ++ [(4, LSize 1)]).
  repeat eapply fr_snoc; [apply fr_nil|..].
  - apply fs_add; reflexivity.
  - apply fs_add; reflexivity.
  - eapply fs_wait; reflexivity.
  - apply fs_ins; reflexivity.
  - eapply fs_wait; reflexivity.
  - eapply fs_take; reflexivity.
  - eapply fs_take; reflexivity.
  - refine (fs_size _ _ 4 _); reflexivity.
  Unshelve. reflexivity.
Qed.

Print Assumptions C06_linearizable.
Print Assumptions C06_nothing_lost.
Print Assumptions C06_fifo.
Print Assumptions C06_semaphore.
Print Assumptions C06_claim_served.

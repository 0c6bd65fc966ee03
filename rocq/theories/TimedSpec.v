(** A transaction with its queue in real time: events are added, the timers are polled, a worker
    executes the next queued event.  Everything that happens is recorded with its time in
    microseconds.  The pieces are those of the stack (poll_entry, execute); see C23 for the worker
    loop. *)
From Coq Require Import String ZArith Ascii Bool List Lia ZifyBool.
From Verif Require Import Base Str StrLemmas Types TimeModel TimeProps PortModel CloneModel TransModel TransSpec
  MatchModel DialogModel StackModel TransProofs TransSteps.
Import ListNotations.
Open Scope Z_scope.

Definition stamped := (Z * out)%type.

(** The clock does not go backwards. *)
Definition later (a b : timeval) : Prop := tv_ok b /\ usecs a <= usecs b.

(** [idle = true]: the timers of the transaction are polled only when its queue is empty (the
    library itself takes care of that for INVITE client transactions). *)
Inductive timed (idle : bool) (k : fsm) (c : timeval) (m : message) : entry -> timeval -> list stamped -> Prop :=
| tm_init : forall id t, tv_ok c -> trans_init k c id (Some m) = Ok t -> timed idle k c m (En t []) c []
| tm_add : forall t q now tr ev, timed idle k c m (En t q) now tr ->
    api_event ev -> is_timeout (ev_type ev) = false ->
    timed idle k c m (En t (q ++ [ev])) now tr
| tm_poll : forall en now tr now', timed idle k c m en now tr -> later now now' ->
    (idle = true -> k = ICT \/ en_q en = []) ->
    timed idle k c m (poll_entry k now' en) now' tr
| tm_exec : forall t ev q now tr e r t' o, timed idle k c m (En t (ev :: q)) now tr -> later now (e_now e) ->
    execute e t ev = Ok (r, t', o) ->
    timed idle k c m (En t' q) (e_now e) (tr ++ map (pair (usecs (e_now e))) o).

(** The times at which something happened *)
Definition times (f : out -> bool) (tr : list stamped) : list Z := map fst (filter (fun x => f (snd x)) tr).

(** Times [l], each more than the current interval after the previous one; the interval changes by [next]. *)
Fixpoint spaced (next : Z -> Z) (prev iv : Z) (l : list Z) : Prop :=
  match l with [] => True | x :: l' => prev + iv < x /\ spaced next x (next iv) l' end.

Definition ms (n : Z) : Z := 1000 * n.

(** * General facts *)

Lemma times_app : forall f a b, times f (a ++ b) = times f a ++ times f b.
Proof. intros. unfold times. rewrite filter_app, map_app. reflexivity. Qed.

Lemma times_stamp : forall f z o, times f (map (pair z) o) = map (fun _ => z) (filter f o).
Proof. intros f z. unfold times. induction o as [|x o]; [reflexivity|]. cbn. destruct (f x); cbn; rewrite IHo; reflexivity. Qed.

Lemma last_dflt : forall l (z a b : Z), last (z :: l) a = last (z :: l) b.
Proof. induction l as [|y l]; intros; [reflexivity|]. cbn [last]. apply (IHl y). Qed.
Lemma last_cons : forall l (y p : Z), last (y :: l) p = last l y.
Proof. intros [|z l] y p; [reflexivity|]. change (last (y :: z :: l) p) with (last (z :: l) p). apply last_dflt. Qed.
Lemma last_snoc : forall l (x p : Z), last (l ++ [x]) p = x.
Proof. induction l as [|y l]; intros; [reflexivity|]. change ((y :: l) ++ [x]) with (y :: (l ++ [x])). rewrite last_cons. auto. Qed.

Lemma iter_shift : forall n (f : Z -> Z) x, Nat.iter (S n) f x = Nat.iter n f (f x).
Proof. induction n; intros; [reflexivity|]. change (Nat.iter (S (S n)) f x) with (f (Nat.iter (S n) f x)). rewrite IHn. reflexivity. Qed.

Lemma spaced_snoc : forall next l prev iv x, spaced next prev iv l ->
  last l prev + Nat.iter (length l) next iv < x -> spaced next prev iv (l ++ [x]).
Proof.
  intros next. induction l as [|y l]; intros prev iv x H Hx; [cbn in *; lia|].
  cbn [spaced app length] in *. destruct H as (H1 & H2). split; auto. apply IHl; auto.
  replace (Nat.iter (length l) next (next iv)) with (Nat.iter (S (length l)) next iv).
  - rewrite last_cons in Hx. exact Hx.
  - apply iter_shift.
Qed.

(** * The queue under idle polling: a timeout is always the next event, and was due at a poll of
      the transaction as it still is. *)
Definition queue_ok (k : fsm) (en : entry) (now : timeval) : Prop :=
  (forall ev, In ev (tl (en_q en)) -> is_timeout (ev_type ev) = false) /\
  (forall ev q, en_q en = ev :: q -> is_timeout (ev_type ev) = true ->
     exists p, tv_ok p /\ usecs p <= usecs now /\ poll_event k p (en_t en) = Some ev).

Lemma timed_clock : forall idle k c m en now tr, timed idle k c m en now tr -> tv_ok now /\ usecs c <= usecs now /\ tv_ok c.
Proof.
  intros idle k c m en now tr H. induction H as [id t Hc H|t q now tr ev H IH Ha Ht|en now tr now' H IH Hl Hi|t ev q now tr e r t' o H IH Hl He].
  - split; [auto|split; [lia|auto]].
  - exact IH.
  - destruct IH as (I1 & I2 & I3), Hl as (L1 & L2). split; [auto|split; [lia|auto]].
  - destruct IH as (I1 & I2 & I3), Hl as (L1 & L2). split; [auto|split; [lia|auto]].
Qed.

Lemma timed_queue : forall k c m en now tr, timed true k c m en now tr -> queue_ok k en now.
Proof.
  intros k c m en now tr H. induction H as [id t Hc H|t q now tr ev H IH Ha Ht|en now tr now' H IH Hl Hi|t ev q now tr e r t' o H IH Hl He].
  - split; cbn; [intros ? []|]. discriminate.
  - destruct IH as (I1 & I2). cbn [en_q en_t] in *. split.
    + intros x Hx. destruct q as [|y q]; cbn in *; [tauto|]. apply in_app_iff in Hx. destruct Hx as [Hx|[<-|[]]]; auto.
    + intros x q' Hx Hx'. destruct q as [|y q]; cbn in Hx.
      * injection Hx as <- <-. congruence.
      * injection Hx as <- <-. cbn [en_q en_t]. eauto.
  - assert (Keep : en_q en <> [] -> k = ICT -> poll_entry k now' en = en).
    { intros Hq ->. unfold poll_entry. destruct (en_q en); congruence. }
    destruct Hl as (L1 & L2). destruct (en_q en) as [|y q] eqn:Eq.
    + unfold poll_entry. rewrite Eq. destruct (poll_event k now' (en_t en)) as [x|] eqn:Ep.
      * assert (E : match k with ICT | _ => En (en_t en) ([] ++ [x]) end = En (en_t en) [x]) by (destruct k; reflexivity).
        rewrite E. split; cbn; [intros ? []|]. intros ev q [= <- <-] _. exists now'. repeat split; auto; try lia; apply L1.
      * assert (E : match k with ICT | _ => en end = en) by (destruct k; reflexivity). rewrite E. destruct IH as (I1 & I2).
        split; auto. rewrite Eq. discriminate.
    + destruct (Hi eq_refl) as [->|]; [|discriminate]. rewrite Keep; [|discriminate|auto]. destruct IH as (I1 & I2). split; auto.
      intros ev q0 Hq Ht. destruct (I2 ev q0 Hq Ht) as (p & P1 & P2 & P3). exists p. repeat split; auto; try apply P1; lia.
  - destruct IH as (I1 & I2). cbn [en_q en_t tl] in *. split.
    + intros x Hx. apply I1. destruct q; cbn in *; auto.
    + cbn [en_q]. intros x q' Eq Ht. rewrite I1 in Ht; [discriminate|]. rewrite Eq. left; auto.
Qed.

Lemma timed_type : forall idle k c m en now tr, timed idle k c m en now tr -> t_type (en_t en) = k /\ typed (en_t en).
Proof.
  intros idle k c m en now tr H. induction H as [id t Hc H|t q now tr ev H IH Ha Ht|en now tr now' H IH Hl Hi|t ev q now tr e r t' o H IH Hl He].
  - assert (F : fresh t) by (exists k, c, id, m; auto). split; [|apply fresh_typed; auto].
    unfold trans_init, res_bind in H.
    repeat match type of H with
    | context [match ?x with _ => _ end] =>
        match x with context [match _ with _ => _ end] => fail 1 | _ => destruct x; try discriminate H end
    end; injection H as <-; reflexivity.
  - exact IH.
  - unfold poll_entry. destruct k; [destruct (en_q en)|..]; auto; destruct (poll_event _ _ _); auto.
  - cbn [en_t] in *. destruct IH as (I1 & I2). split; [|eapply exec_typed; eauto].
    apply execute_identity in He. destruct He as (_ & -> & _). auto.
Qed.

Lemma poll_event_timeout : forall k p t ev, poll_event k p t = Some ev -> is_timeout (ev_type ev) = true /\ ev_sip ev = None.
Proof.
  intros k p t ev H. unfold poll_event, need_timer in H.
  destruct k; repeat match type of H with context[if ?b then _ else _] => destruct b end; try discriminate; injection H as <-; auto.
Qed.

Lemma timed_api : forall idle k c m en now tr, timed idle k c m en now tr -> forall ev, In ev (en_q en) -> api_event ev.
Proof.
  intros idle k c m en now tr H. induction H as [id t Hc H|t q now tr ev H IH Ha Ht|en now tr now' H IH Hl Hi|t ev q now tr e r t' o H IH Hl He]; intros x Hx.
  - destruct Hx.
  - cbn in Hx. apply in_app_iff in Hx. destruct Hx as [Hx|[<-|[]]]; auto.
  - assert (K : forall q, In x (en_q match poll_event k now' (en_t en) with Some e => En (en_t en) (q ++ [e]) | None => en end) ->
       q = en_q en -> api_event x).
    { intros q Hq ->. destruct (poll_event k now' (en_t en)) as [y|] eqn:E; auto. cbn in Hq. apply in_app_iff in Hq.
      destruct Hq as [Hq|[<-|[]]]; auto. right; right. apply (poll_event_timeout _ _ _ _ E). }
    unfold poll_entry in Hx. destruct k; eauto. destruct (en_q en) eqn:Eq; [eapply K; eauto|]. rewrite Eq in *. auto.
  - apply IH. right. exact Hx.
Qed.

(** Induction over the executed events: an invariant of transaction and record kept by every
    executed event holds throughout.  A timeout executed was due at an earlier poll. *)
Lemma timed_ind_exec : forall k c m (P : trans -> list stamped -> Prop),
  (forall id t, tv_ok c -> trans_init k c id (Some m) = Ok t -> P t []) ->
  (forall t ev now tr e r t' o, P t tr -> t_type t = k -> typed t -> api_event ev -> tv_ok (e_now e) -> tv_ok now ->
     usecs now <= usecs (e_now e) -> usecs c <= usecs now ->
     (is_timeout (ev_type ev) = true -> exists p, tv_ok p /\ usecs p <= usecs now /\ poll_event k p t = Some ev) ->
     execute e t ev = Ok (r, t', o) -> P t' (tr ++ map (pair (usecs (e_now e))) o)) ->
  forall en now tr, timed true k c m en now tr -> P (en_t en) tr.
Proof.
  intros k c m P H0 H1 en now tr H. induction H as [id t Hc H|t q now tr ev H IH Ha Ht|en now tr now' H IH Hl Hi|t ev q now tr e r t' o H IH Hl He].
  - cbn. eauto.
  - exact IH.
  - assert (E : en_t (poll_entry k now' en) = en_t en).
    { unfold poll_entry. destruct k; [destruct (en_q en)|..]; auto; destruct (poll_event _ _ _); auto. }
    rewrite E. exact IH.
  - cbn [en_t en_q] in *. destruct (timed_queue _ _ _ _ _ _ H) as (_ & Q). destruct (timed_clock _ _ _ _ _ _ _ H) as (C1 & C2 & C3).
    destruct (timed_type _ _ _ _ _ _ _ H) as (T1 & T2). destruct Hl as (L1 & L2). apply (H1 t ev now tr e r t' o); auto.
    + eapply timed_api; eauto. left; auto.
    + intros Ht. apply (Q ev q); auto.
Qed.

Lemma app_split : forall A (l1 l2 a : list A) x b, l1 ++ l2 = a ++ x :: b ->
  (exists k, l1 = a ++ x :: k /\ b = k ++ l2) \/ (exists k, a = l1 ++ k /\ l2 = k ++ x :: b).
Proof.
  induction l1 as [|y l1]; intros l2 a x b H; [right; exists a; auto|].
  destruct a as [|z a]; cbn in H; injection H as <- H.
  - left. exists l1. subst. auto.
  - apply IHl1 in H. destruct H as [(k & -> & ->)|(k & -> & ->)]; [left|right]; exists k; auto.
Qed.

(** The situation in which an event is executed *)
Definition exec_at (k : fsm) (c : timeval) (t : trans) (ev : event) (e : env) (t' : trans) (o : list out) : Prop :=
  t_type t = k /\ typed t /\ api_event ev /\ tv_ok (e_now e) /\ usecs c <= usecs (e_now e) /\
  (is_timeout (ev_type ev) = true -> exists p, tv_ok p /\ usecs p <= usecs (e_now e) /\ poll_event k p t = Some ev) /\
  exists r, execute e t ev = Ok (r, t', o).

(** After [trig] happened, [bad] never happens again. *)
Lemma timed_after : forall k c m (Aux : trans -> list stamped -> Prop) (trig bad : out -> bool) (done : trans -> Prop),
  (forall en now tr, timed true k c m en now tr -> Aux (en_t en) tr) ->
  (forall t ev tr e t' o, Aux t tr -> exec_at k c t ev e t' o ->
     (existsb trig o = true -> done t') /\ (done t -> done t' /\ filter bad o = []) /\
     (forall o1 x o2, o = o1 ++ x :: o2 -> trig x = true -> filter bad o2 = [])) ->
  forall en now tr, timed true k c m en now tr ->
    (existsb (fun x => trig (snd x)) tr = true -> done (en_t en)) /\
    forall tr1 y x tr2, tr = tr1 ++ (y, x) :: tr2 -> trig x = true -> times bad tr2 = [].
Proof.
  intros k c m Aux trig bad done HA HS en now tr H.
  induction H as [id t Hc H|t q now tr ev H IH Ha Ht|en now tr now' H IH Hl Hi|t ev q now tr e r t' o H IH Hl He].
  - split; [discriminate|]. intros tr1 y x tr2 E. destruct tr1; discriminate.
  - exact IH.
  - assert (E : en_t (poll_entry k now' en) = en_t en).
    { unfold poll_entry. destruct k; [destruct (en_q en)|..]; auto; destruct (poll_event _ _ _); auto. }
    rewrite E. exact IH.
  - cbn [en_t en_q] in *. destruct (timed_queue _ _ _ _ _ _ H) as (_ & Q). destruct (timed_clock _ _ _ _ _ _ _ H) as (C1 & C2 & C3).
    destruct (timed_type _ _ _ _ _ _ _ H) as (Y1 & Y2). destruct Hl as (L1 & L2). destruct IH as (I1 & I2).
    assert (X : exec_at k c t ev e t' o).
    { repeat split; auto; try apply L1; try lia; eauto.
      - eapply timed_api; eauto. left; auto.
      - intros Ht. destruct (Q ev q eq_refl Ht) as (p & P1 & P2 & P3). exists p. repeat split; auto; try apply P1. lia. }
    destruct (HS _ _ _ _ _ _ (HA _ _ _ H) X) as (S1 & S2 & S3). split.
    + rewrite existsb_app. intros Hb. apply orb_true_iff in Hb. destruct Hb as [Hb|Hb].
      * apply S2. auto.
      * apply S1. rewrite <- Hb. clear. induction o as [|x o]; [reflexivity|]. cbn. rewrite IHo. reflexivity.
    + intros tr1 y x tr2 E Hx. apply app_split in E. destruct E as [(l & -> & ->)|(l & -> & E)].
      * rewrite times_app, times_stamp. rewrite (I2 _ _ _ _ eq_refl Hx). destruct S2 as (_ & ->); [|reflexivity].
        apply I1. rewrite existsb_app. cbn [existsb snd]. rewrite Hx. apply orb_true_r.
      * assert (F : forall o l, map (pair (usecs (e_now e))) o = l ++ (y, x) :: tr2 ->
          exists o1 o2, o = o1 ++ x :: o2 /\ tr2 = map (pair (usecs (e_now e))) o2).
        { clear. induction o as [|a o]; intros l H; [destruct l; discriminate|]. cbn in H. destruct l as [|b l]; cbn in H; injection H as <- H.
          - exists [], o. subst. auto.
          - apply IHo in H. destruct H as (o1 & o2 & -> & ->). exists (a :: o1), o2. auto. }
        apply F in E. destruct E as (o1 & o2 & -> & ->). rewrite times_stamp, (S3 _ _ _ eq_refl Hx). reflexivity.
Qed.

(** A property of the time of each [f]. *)
Lemma timed_forall : forall k c m (Aux : trans -> list stamped -> Prop) (f : out -> bool) (Q : Z -> Prop),
  (forall en now tr, timed true k c m en now tr -> Aux (en_t en) tr) ->
  (forall t ev tr e t' o, Aux t tr -> exec_at k c t ev e t' o -> filter f o = [] \/ Q (usecs (e_now e))) ->
  forall en now tr, timed true k c m en now tr -> forall x, In x (times f tr) -> Q x.
Proof.
  intros k c m Aux f Q HA HS en now tr H.
  induction H as [id t Hc H|t q now tr ev H IH Ha Ht|en now tr now' H IH Hl Hi|t ev q now tr e r t' o H IH Hl He].
  - intros x [].
  - exact IH.
  - exact IH.
  - cbn [en_t en_q] in *. destruct (timed_queue _ _ _ _ _ _ H) as (_ & QQ). destruct (timed_clock _ _ _ _ _ _ _ H) as (C1 & C2 & C3).
    destruct (timed_type _ _ _ _ _ _ _ H) as (Y1 & Y2). destruct Hl as (L1 & L2).
    assert (X : exec_at k c t ev e t' o).
    { repeat split; auto; try apply L1; try lia; eauto.
      - eapply timed_api; eauto. left; auto.
      - intros Ht. destruct (QQ ev q eq_refl Ht) as (p & P1 & P2 & P3). exists p. repeat split; auto; try apply P1. lia. }
    intros x Hx. rewrite times_app, times_stamp in Hx. apply in_app_iff in Hx. destruct Hx as [Hx|Hx]; auto.
    destruct (HS _ _ _ _ _ _ (HA _ _ _ H) X) as [E|E]; [rewrite E in Hx; destruct Hx|].
    apply in_map_iff in Hx. destruct Hx as (_ & <- & _). auto.
Qed.

(** For INVITE client transactions polling is always idle. *)
Lemma timed_ict_idle : forall idle c m en now tr, timed idle ICT c m en now tr -> timed true ICT c m en now tr.
Proof. intros idle c m en now tr H. induction H; [eapply tm_init|eapply tm_add|eapply tm_poll|eapply tm_exec]; eauto. Qed.

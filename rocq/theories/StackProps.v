(** C05, C51: timer polling and the next wake-up time. *)
From Coq Require Import String ZArith Ascii Bool List Lia ZifyBool.
From Verif Require Import Base Str Types TimeModel TimeProps PortModel CloneModel TransModel TransSpec
  MatchModel StackModel TransProofs.
Import ListNotations.
Open Scope Z_scope.

(** * Specification *)

(** The RFC diagram of kind [k] has an edge for timer [x] in the current state of [t]. *)
Definition timer_edge (k : fsm) (t : trans) (x : timer) : Prop :=
  exists s1, figure k (rfc_state (t_state t)) (L_timer x) s1.

(** A timer is armed unless its start time carries the mark -1. *)
Definition armed (t : trans) (x : timer) : Prop := tv_sec (t_start t x) <> -1.

(** * C51 *)

(** What one poll may do to one transaction *)
Definition polled (k : fsm) (now : timeval) (en en' : entry) : Prop :=
  en_t en' = en_t en /\
  (en_q en' = en_q en \/
   exists ty x, en_q en' = en_q en ++ [Ev ty None] /\ label_of k ty = Some (L_timer x) /\
     timer_edge k (en_t en) x /\ armed (en_t en) x /\ timer_gt now (t_start (en_t en) x) = true).

Lemma fsm_eqb_eq : forall a b, fsm_eqb a b = true <-> a = b.
Proof. intros [] []; cbn; split; congruence. Qed.
Lemma fsm_eqb_refl : forall a, fsm_eqb a a = true.
Proof. intros []; auto. Qed.

Lemma set_tab_same : forall s k l, o_tab (set_tab s k l) k = l.
Proof. intros. cbn. rewrite fsm_eqb_refl. auto. Qed.
Lemma set_tab_other : forall s k l j, j <> k -> o_tab (set_tab s k l) j = o_tab s j.
Proof. intros s k l j H. cbn. destruct (fsm_eqb j k) eqn:E; auto. apply fsm_eqb_eq in E. congruence. Qed.

Lemma is_state_eq : forall t s, is_state t s = true -> t_state t = s.
Proof. intros t s H. apply state_eqb_eq. auto. Qed.

Lemma need_timer_inv : forall t now c x ty ev, need_timer t now c x ty = Some ev ->
  c = true /\ ev = Ev ty None /\ armed t x /\ timer_gt now (t_start t x) = true.
Proof.
  intros t now c x ty ev H. unfold need_timer, timer_due in H.
  destruct c; [|discriminate]. cbn [andb] in H.
  destruct (tv_sec (t_start t x) =? -1) eqn:E; [discriminate|].
  destruct (timer_gt now (t_start t x)); [|discriminate]. injection H as <-. unfold armed. repeat split; auto. lia.
Qed.

Ltac edge := match goal with H : is_state _ _ = true |- _ => apply is_state_eq in H; unfold timer_edge; rewrite H; cbn; eexists; constructor end.

Lemma poll_event_inv : forall k now t ev, poll_event k now t = Some ev ->
  exists ty x, ev = Ev ty None /\ label_of k ty = Some (L_timer x) /\ timer_edge k t x /\ armed t x /\
               timer_gt now (t_start t x) = true.
Proof.
  intros k now t ev H. unfold poll_event in H.
  destruct k;
  repeat match type of H with
  | context [match need_timer ?a ?b ?c ?d ?e with _ => _ end] =>
      let E := fresh "E" in destruct (need_timer a b c d e) eqn:E; [injection H as <-; apply need_timer_inv in E|]
  end; try apply need_timer_inv in H;
  match goal with E : _ /\ _ |- _ => destruct E as (Hc & -> & Ha & Hg) end;
  eexists _, _; (split; [reflexivity|]; split; [reflexivity|]; split; [|split; auto]); try edge;
  unfold nict_waiting in Hc; apply orb_prop in Hc; destruct Hc; edge.
Qed.

Lemma poll_entry_polled : forall k now en, polled k now en (poll_entry k now en).
Proof.
  intros k now en. unfold polled, poll_entry.
  assert (H : en_t (match poll_event k now (en_t en) with Some e => En (en_t en) (en_q en ++ [e]) | None => en end) = en_t en /\
    (en_q (match poll_event k now (en_t en) with Some e => En (en_t en) (en_q en ++ [e]) | None => en end) = en_q en \/
     exists ty x, en_q (match poll_event k now (en_t en) with Some e => En (en_t en) (en_q en ++ [e]) | None => en end)
                  = en_q en ++ [Ev ty None] /\ label_of k ty = Some (L_timer x) /\
        timer_edge k (en_t en) x /\ armed (en_t en) x /\ timer_gt now (t_start (en_t en) x) = true)).
  { destruct (poll_event k now (en_t en)) eqn:E; cbn [en_t en_q]; auto. split; auto. right.
    apply poll_event_inv in E. destruct E as (ty & x & -> & H). exists ty, x. tauto. }
  destruct k; auto. destruct (en_q en) eqn:E; auto.
Qed.

(** Polling kind [k] leaves every other table, the retransmissions and the id counter alone, and
    each transaction of the table as it is, except that it may queue one timeout of an armed,
    strictly expired timer that the state diagram allows in its current state. *)
Theorem C51_poll_effect : forall k now s,
  (forall j, j <> k -> o_tab (poll k now s) j = o_tab s j) /\
  o_ixt (poll k now s) = o_ixt s /\ o_next (poll k now s) = o_next s /\
  Forall2 (polled k now) (o_tab s k) (o_tab (poll k now s) k).
Proof.
  intros k now s. unfold poll. split; [intros; apply set_tab_other; auto|]. split; [auto|]. split; [auto|].
  rewrite set_tab_same. induction (o_tab s k); cbn [map]; constructor; auto using poll_entry_polled.
Qed.

Lemma need_timer_due : forall t now c x ty, c = true -> armed t x -> timer_gt now (t_start t x) = true ->
  need_timer t now c x ty <> None.
Proof.
  intros t now c x ty -> Ha Hg. unfold need_timer, timer_due, armed in *. rewrite Hg.
  destruct (tv_sec (t_start t x) =? -1) eqn:E; [lia|]. discriminate.
Qed.

Lemma poll_event_due : forall k now t x, timer_edge k t x -> armed t x -> timer_gt now (t_start t x) = true ->
  poll_event k now t <> None.
Proof.
  intros k now t x (s1 & He) Ha Hg. unfold poll_event.
  assert (K : forall c ty, c = true -> need_timer t now c x ty <> None) by (intros; apply need_timer_due; auto).
  assert (S : forall s, t_state t = s -> is_state t s = true) by (intros s <-; apply state_eqb_eq; auto).
  destruct k; cbn [figure] in He; inversion He; subst;
    destruct (t_state t) eqn:Est; try discriminate;
    repeat match goal with
    | |- context [match need_timer ?a ?b ?c ?d ?e with _ => _ end] =>
        destruct (need_timer a b c d e) eqn:?; [discriminate|]
    end;
    first [ solve [apply K; unfold nict_waiting, is_state; rewrite Est; reflexivity]
          | exfalso; match goal with E : need_timer ?a ?b ?c ?y ?ty = None |- _ =>
              apply (K c ty); [unfold nict_waiting, is_state; rewrite Est; reflexivity | exact E] end ].
Qed.

(** A timer that has strictly expired is noticed by the next poll: its transaction has a queued
    event afterwards (it is processed at the next worker run). *)
Theorem C51_due_is_queued : forall k now s en x, In en (o_tab s k) ->
  timer_edge k (en_t en) x -> armed (en_t en) x -> timer_gt now (t_start (en_t en) x) = true ->
  In (poll_entry k now en) (o_tab (poll k now s) k) /\ en_t (poll_entry k now en) = en_t en /\
  en_q (poll_entry k now en) <> [].
Proof.
  intros k now s en x Hin He Ha Hg. split; [|split].
  - unfold poll. rewrite set_tab_same. apply in_map. auto.
  - destruct (poll_entry_polled k now en); auto.
  - pose proof (poll_event_due k now (en_t en) x He Ha Hg) as Hd. unfold poll_entry.
    assert (D : en_q (match poll_event k now (en_t en) with Some e => En (en_t en) (en_q en ++ [e]) | None => en end) <> []).
    { destruct (poll_event k now (en_t en)); [|congruence]. cbn. destruct (en_q en); discriminate. }
    destruct k; auto. destruct (en_q en) eqn:E; auto. congruence.
Qed.

(** * C05 *)

Lemma watched_edge : forall k t x, timer_edge k t x -> In x (watched k t).
Proof.
  intros k t x (s1 & He).
  assert (S : forall s, t_state t = s -> is_state t s = true) by (intros s <-; apply state_eqb_eq; auto).
  destruct k; cbn [figure] in He; inversion He; subst; unfold watched, nict_waiting;
    destruct (t_state t) eqn:Est; try discriminate; rewrite ?in_app_iff;
    unfold is_state; rewrite Est; cbn; tauto.
Qed.

Lemma edge_watched : forall k t x, In x (watched k t) -> timer_edge k t x.
Proof.
  intros k t x H. unfold watched, nict_waiting in H. unfold timer_edge.
  destruct k; rewrite ?in_app_iff in H;
   repeat match type of H with context [is_state ?a ?b] => destruct (is_state a b) eqn:? end;
   cbn in H; intuition; subst;
   match goal with E : is_state _ _ = true |- _ => apply is_state_eq in E; rewrite E; cbn; eexists; constructor end.
Qed.

Definition start_ok (a : timeval) : Prop := tv_sec a <> -1 -> tv_ok a.

(** Folding min_timercmp over start times *)
Lemma fold_min : forall A (f : A -> timeval) l a, tv_ok a -> (forall x, In x l -> start_ok (f x)) ->
  let m := fold_left (fun a x => min_timercmp a (f x)) l a in
  tv_ok m /\ usecs m <= usecs a /\
  (forall x, In x l -> tv_sec (f x) <> -1 -> usecs m <= usecs (f x)) /\
  (m = a \/ exists x, In x l /\ tv_sec (f x) <> -1 /\ m = f x).
Proof.
  intros A f l. induction l as [|x l]; intros a Ha Hl m.
  - cbn in m. subst m. repeat split; try apply Ha; auto; try lia. intros x [].
  - cbn [fold_left] in m.
    assert (H1 : let b := min_timercmp a (f x) in tv_ok b /\ usecs b <= usecs a /\
       (tv_sec (f x) <> -1 -> usecs b <= usecs (f x)) /\ (b = a \/ tv_sec (f x) <> -1 /\ b = f x)).
    { unfold min_timercmp. destruct (tv_sec (f x) =? -1) eqn:E.
      - cbn zeta. split; auto. split; [lia|]. split; [lia|auto].
      - assert (Hx : tv_ok (f x)) by (apply Hl; [left; auto|lia]).
        rewrite usecs_gt by auto. destruct (usecs (f x) <? usecs a) eqn:E2; cbn zeta.
        + split; auto. split; [lia|]. split; [lia|]. right. split; auto. lia.
        + split; auto. split; [lia|]. split; [lia|auto]. }
    cbn zeta in H1. destruct H1 as (B1 & B2 & B3 & B4).
    destruct (IHl (min_timercmp a (f x)) B1) as (C1 & C2 & C3 & C4); [intros; apply Hl; right; auto|].
    fold m in C1, C2, C3, C4. split; [auto|]. split; [lia|]. split.
    + intros y [<-|Hy] Hn; [specialize (B3 Hn); lia|auto].
    + destruct C4 as [C4|(y & Y1 & Y2)]; [|right; exists y; split; [right; auto|tauto]].
      destruct B4 as [B4|(B4 & B5)]; [left; congruence|right; exists x; split; [left; auto|split; congruence]].
Qed.

(** Start times an application can observe in table entries: normalised unless switched off *)
Definition timers_ok (k : fsm) (en : entry) : Prop :=
  forall x, timer_edge k (en_t en) x -> armed (en_t en) x -> tv_ok (t_start (en_t en) x).

(** A wake-up is due at [a] for the transactions of table [k] *)
Definition wake (k : fsm) (l : list entry) (a : timeval) : Prop :=
  exists en x, In en l /\ timer_edge k (en_t en) x /\ armed (en_t en) x /\ a = t_start (en_t en) x.

Lemma scan_spec : forall k now l lower, tv_ok now -> tv_ok lower -> usecs now <= usecs lower ->
  Forall (timers_ok k) l ->
  match scan k now lower l with
  | Some m => tv_ok m /\ usecs now <= usecs m <= usecs lower /\ (forall a, wake k l a -> usecs m <= usecs a) /\
              (m = lower \/ wake k l m) /\ Forall (fun en => pending k en = false) l
  | None => (exists en, In en l /\ pending k en = true) \/ (exists a, wake k l a /\ usecs a < usecs now)
  end.
Proof.
  intros k now l. induction l as [|en l]; intros lower Hn Hl Hle HF.
  - cbn. split; auto. split; [lia|]. split; [|auto]. intros a (en & x & [] & _).
  - inversion HF; subst. cbn [scan]. destruct (pending k en) eqn:Ep; [left; exists en; split; [left|]; auto|].
    assert (Hw : forall x, In x (watched k (en_t en)) -> start_ok (t_start (en_t en) x)).
    { intros x Hx Ha. apply H1; auto. apply edge_watched. auto. }
    pose proof (fold_min timer (t_start (en_t en)) (watched k (en_t en)) lower Hl Hw) as (M1 & M2 & M3 & M4).
    set (m := fold_left (fun a x => min_timercmp a (t_start (en_t en) x)) (watched k (en_t en)) lower) in *.
    rewrite usecs_gt by auto. destruct (usecs m <? usecs now) eqn:E.
    + right. destruct M4 as [->|(x & X1 & X2 & X3)]; [lia|]. exists m. split; [|lia].
      exists en, x. split; [left; auto|]. split; [apply edge_watched; auto|]. auto.
    + assert (Hle' : usecs now <= usecs m) by lia.
      specialize (IHl m Hn M1 Hle' H2). destruct (scan k now m l) as [r|].
      * destruct IHl as (I1 & I2 & I3 & I4 & I5). split; auto. split; [lia|]. split; [|split].
        -- intros a (e2 & x & [<-|Hin] & X1 & X2 & ->).
           ++ specialize (M3 x (watched_edge _ _ _ X1) X2). lia.
           ++ apply I3. exists e2, x. auto.
        -- destruct I4 as [->|(e2 & x & X1 & X2)].
           ++ destruct M4 as [M4|(x & X1 & X2 & X3)]; [left; auto|]. right.
              exists en, x. split; [left; auto|]. split; [apply edge_watched; auto|]. auto.
           ++ right. exists e2, x. split; [right; auto|]. auto.
        -- constructor; auto.
      * destruct IHl as [(e2 & X1 & X2)|(a & (e2 & x & X1 & X2) & X3)].
        -- left. exists e2. split; [right|]; auto.
        -- right. exists a. split; auto. exists e2, x. split; [right|]; auto.
Qed.

Lemma scan_ixt_spec : forall now l lower, tv_ok now -> tv_ok lower -> usecs now <= usecs lower ->
  Forall (fun x => tv_ok (ix_start x)) l ->
  match scan_ixt now lower l with
  | Some m => tv_ok m /\ usecs now <= usecs m <= usecs lower /\ (forall x, In x l -> usecs m <= usecs (ix_start x)) /\
              (m = lower \/ exists x, In x l /\ m = ix_start x)
  | None => exists x, In x l /\ usecs (ix_start x) < usecs now
  end.
Proof.
  intros now l. induction l as [|y l]; intros lower Hn Hl Hle HF.
  - cbn. split; auto. split; [lia|]. split; auto. intros x [].
  - inversion HF; subst. cbn [scan_ixt].
    assert (Em : min_timercmp lower (ix_start y) = if usecs (ix_start y) <? usecs lower then ix_start y else lower).
    { unfold min_timercmp. destruct (tv_sec (ix_start y) =? -1) eqn:E.
      - destruct H1. lia.
      - rewrite usecs_gt by auto. auto. }
    rewrite Em. clear Em. set (m := if usecs (ix_start y) <? usecs lower then ix_start y else lower).
    assert (M1 : tv_ok m) by (subst m; destruct (usecs (ix_start y) <? usecs lower); auto).
    assert (M2 : usecs m <= usecs lower /\ usecs m <= usecs (ix_start y))
      by (subst m; destruct (usecs (ix_start y) <? usecs lower) eqn:E; lia).
    rewrite usecs_gt by auto. destruct (usecs m <? usecs now) eqn:E.
    + exists y. split; [left; auto|]. subst m. destruct (usecs (ix_start y) <? usecs lower); lia.
    + assert (Hle' : usecs now <= usecs m) by lia.
      specialize (IHl m Hn M1 Hle' H2). destruct (scan_ixt now m l) as [r|].
      * destruct IHl as (I1 & I2 & I3 & I4). split; auto. split; [lia|]. split.
        -- intros x [<-|Hx]; [lia|auto].
        -- destruct I4 as [->|(x & X1 & X2)]; [|right; exists x; split; [right|]; auto].
           subst m. destruct (usecs (ix_start y) <? usecs lower); auto. right. exists y. split; [left|]; auto.
      * destruct IHl as (x & X1 & X2). exists x. split; [right|]; auto.
Qed.

Lemma normalise_diff : forall m now, tv_ok m -> tv_ok now -> usecs now <= usecs m ->
  let d := normalise (TV (tv_sec m - tv_sec now) (tv_usec m - tv_usec now)) in
  tv_ok d /\ usecs d = usecs m - usecs now.
Proof.
  intros [s u] [s' u'] (H1 & H2) (H3 & H4) Hle. unfold normalise, usecs, tv_ok in *. cbn [tv_sec tv_usec] in *.
  destruct (u - u' <? 0) eqn:E1; cbn [tv_sec tv_usec].
  - destruct (s - s' - 1 <? 0) eqn:E2; cbn [tv_sec tv_usec]; [lia|].
    destruct (u - u' + 1000000 >? 1000000) eqn:E3; cbn [tv_sec tv_usec]; lia.
  - destruct (s - s' <? 0) eqn:E2; cbn [tv_sec tv_usec]; [lia|].
    destruct (u - u' >? 1000000) eqn:E3; cbn [tv_sec tv_usec]; lia.
Qed.

(** The wake-up times of a stack: armed timers of any transaction, 2xx/ACK retransmissions *)
Definition wakeup (s : osip) (a : timeval) : Prop :=
  (exists k, wake k (o_tab s k) a) \/ (exists x, In x (o_ixt s) /\ a = ix_start x).

(** A stack whose start times are normalised *)
Definition stack_ok (s : osip) : Prop :=
  (forall k, Forall (timers_ok k) (o_tab s k)) /\ Forall (fun x => tv_ok (ix_start x)) (o_ixt s).

Definition one_year : Z := 365 * 24 * 3600 * 1000000.
Definition has_pending (s : osip) : Prop := exists en, In en (o_tab s ICT) /\ en_q en <> [].

Lemma pending_ict : forall en, pending ICT en = true <-> en_q en <> [].
Proof. intros en. unfold pending. destruct (en_q en); split; congruence. Qed.
Lemma pending_other : forall k en, k <> ICT -> pending k en = false.
Proof. intros [] en H; auto; congruence. Qed.

Lemma gettimeout_spec : forall s now, tv_ok now -> stack_ok s ->
  let d := gettimeout s now in
  tv_ok d /\
  (d = tv0 /\ (has_pending s \/ exists a, wakeup s a /\ usecs a < usecs now) \/
   (~ has_pending s /\ (forall a, wakeup s a -> usecs now + usecs d <= usecs a) /\ usecs d <= one_year /\
    (usecs d = one_year \/ exists a, wakeup s a /\ usecs now + usecs d = usecs a))).
Proof.
  intros s now Hn (Ht & Hx) d. set (L := TV (tv_sec now + 3600 * 24 * 365) (tv_usec now)).
  assert (HL : tv_ok L) by (subst L; destruct Hn; split; cbn; lia).
  assert (HLe : usecs L = usecs now + one_year) by (subst L; unfold usecs, one_year; cbn [tv_sec tv_usec]; lia).
  assert (Z0 : tv_ok tv0) by (split; cbn; lia).
  assert (Kz : forall P : Prop, d = tv0 -> (has_pending s \/ exists a, wakeup s a /\ usecs a < usecs now) ->
            tv_ok d /\ (d = tv0 /\ (has_pending s \/ exists a, wakeup s a /\ usecs a < usecs now) \/ P))
    by (intros P -> H; split; auto).
  unfold gettimeout in d. fold L in d.
  pose proof (scan_spec ICT now (o_tab s ICT) L Hn HL ltac:(unfold one_year in *; lia) (Ht ICT)) as S1.
  destruct (scan ICT now L (o_tab s ICT)) as [m1|] eqn:E1.
  2:{ apply Kz; auto. destruct S1 as [(en & X1 & X2)|(a & X1 & X2)].
      - left. exists en. split; auto. apply pending_ict. auto.
      - right. exists a. split; auto. left. exists ICT. auto. }
  destruct S1 as (A1 & A2 & A3 & A4 & A5).
  pose proof (scan_spec IST now (o_tab s IST) m1 Hn A1 ltac:(lia) (Ht IST)) as S2.
  destruct (scan IST now m1 (o_tab s IST)) as [m2|] eqn:E2.
  2:{ apply Kz; auto. destruct S2 as [(en & X1 & X2)|(a & X1 & X2)]; [discriminate|].
      right. exists a. split; auto. left. exists IST. auto. }
  destruct S2 as (B1 & B2 & B3 & B4 & _).
  pose proof (scan_spec NICT now (o_tab s NICT) m2 Hn B1 ltac:(lia) (Ht NICT)) as S3.
  destruct (scan NICT now m2 (o_tab s NICT)) as [m3|] eqn:E3.
  2:{ apply Kz; auto. destruct S3 as [(en & X1 & X2)|(a & X1 & X2)]; [discriminate|].
      right. exists a. split; auto. left. exists NICT. auto. }
  destruct S3 as (C1 & C2 & C3 & C4 & _).
  pose proof (scan_spec NIST now (o_tab s NIST) m3 Hn C1 ltac:(lia) (Ht NIST)) as S4.
  destruct (scan NIST now m3 (o_tab s NIST)) as [m4|] eqn:E4.
  2:{ apply Kz; auto. destruct S4 as [(en & X1 & X2)|(a & X1 & X2)]; [discriminate|].
      right. exists a. split; auto. left. exists NIST. auto. }
  destruct S4 as (D1 & D2 & D3 & D4 & _).
  pose proof (scan_ixt_spec now (o_ixt s) m4 Hn D1 ltac:(lia) Hx) as S5.
  destruct (scan_ixt now m4 (o_ixt s)) as [m5|] eqn:E5.
  2:{ apply Kz; auto. destruct S5 as (x & X1 & X2). right. exists (ix_start x). split; auto. right. exists x. auto. }
  destruct S5 as (F1 & F2 & F3 & F4).
  pose proof (normalise_diff m5 now F1 Hn ltac:(lia)) as (G1 & G2). fold d in G1, G2.
  split; auto. right. split; [|split; [|split]].
  - intros (en & X1 & X2). rewrite Forall_forall in A5. specialize (A5 en X1). apply pending_ict in X2. congruence.
  - intros a [(k & Hk)|(x & X1 & ->)].
    + destruct k.
      * specialize (A3 a Hk). lia.
      * specialize (B3 a Hk). lia.
      * specialize (C3 a Hk). lia.
      * specialize (D3 a Hk). lia.
    + specialize (F3 x X1). lia.
  - lia.
  - assert (W : m5 = L \/ wakeup s m5).
    { destruct F4 as [->|(x & X1 & ->)]; [|right; right; exists x; auto].
      destruct D4 as [->|D4]; [|right; left; exists NIST; auto].
      destruct C4 as [->|C4]; [|right; left; exists NICT; auto].
      destruct B4 as [->|B4]; [|right; left; exists IST; auto].
      destruct A4 as [->|A4]; [auto|right; left; exists ICT; auto]. }
    destruct W as [->|W]; [left; lia|right; exists m5; split; auto; lia].
Qed.

(** The delay is normalised and non-negative, sleeping that long never passes an armed timer
    that has not expired yet, and it is zero when one has expired or a client INVITE transaction
    has a pending event. *)
Lemma next_wakeup : forall s now, tv_ok now -> stack_ok s ->
  let d := gettimeout s now in
  tv_ok d /\
  (forall a, wakeup s a -> usecs now <= usecs a -> usecs now + usecs d <= usecs a) /\
  (forall a, wakeup s a -> usecs a < usecs now -> d = tv0) /\
  (has_pending s -> d = tv0).
Proof.
  intros s now Hn Hs d. destruct (gettimeout_spec s now Hn Hs) as (H1 & H2). fold d in H1, H2.
  assert (U : usecs tv0 = 0) by reflexivity. split; auto.
  destruct H2 as [(-> & _)|(P1 & P2 & P3 & _)]; [repeat split; auto; intros; lia|].
  split; [auto|]. split; [|tauto].
  intros a Ha Hl. specialize (P2 a Ha). destruct H1. unfold usecs in *. lia.
Qed.

(** It is the longest such delay: when nothing is due, it ends exactly at the earliest wake-up
    (or after a year). *)
Lemma next_exact : forall s now, tv_ok now -> stack_ok s -> ~ has_pending s ->
  (forall a, wakeup s a -> usecs now <= usecs a) ->
  let d := gettimeout s now in
  usecs d = one_year \/ exists a, wakeup s a /\ usecs now + usecs d = usecs a.
Proof.
  intros s now Hn Hs Hp Hw d. destruct (gettimeout_spec s now Hn Hs) as (H1 & H2). fold d in H1, H2.
  destruct H2 as [(_ & [H2|(a & A1 & A2)])|(_ & _ & _ & H2)]; auto; [contradiction|]. specialize (Hw a A1). lia.
Qed.

Print Assumptions C51_poll_effect.
Print Assumptions C51_due_is_queued.



(** Timers that end a transaction: a general argument used for timers D, F, H, I, J and K. *)
From Coq Require Import String ZArith Ascii Bool List Lia ZifyBool ZifyNat.
From Verif Require Import Base Str StrLemmas Types TimeModel TimeProps PortModel CloneModel TransModel TransSpec
  MatchModel DialogModel StackModel TransProofs TransSteps TransProps TimedSpec TimedIct.
Import ListNotations.
Open Scope Z_scope.

Definition is_kill (o : out) : bool := match o with OKill _ => true | _ => false end.
Definition is_tperr (o : out) : bool := match o with OTpErr _ _ => true | _ => false end.

(** How a timer [x] of length [D], started on entry of the state [st] (announced by [mark]), ends it. *)
Definition lingers (idle : bool) (k : fsm) (x : timer) (TO : etype) (st term : state) (after : state -> bool)
    (mark esc : out -> bool) (D : Z) : Prop :=
  is_timeout TO = true /\ after st = false /\ after term = true /\ 0 <= D < 1000000 /\
  (forall p t ev, poll_event k p t = Some ev -> ev_type ev = TO -> t_state t = st /\ timer_due t x p = true) /\
  (forall e t ev r t' o, t_type t = k -> typed t -> api_event ev -> (after (t_state t) = false -> t_len t x = D) ->
     execute e t ev = Ok (r, t', o) ->
     (after (t_state t') = false -> t_len t' x = D /\ filter is_kill o = []) /\
     ((after (t_state t) = true /\ after (t_state t') = true /\ filter mark o = [] /\
        (t_state t = term -> t_state t' = term /\ filter is_kill o = [])) \/
      (after (t_state t) = false /\ t_state t <> st /\ t_state t' <> st /\ filter mark o = [] /\
        (after (t_state t') = true -> t_state t' = term)) \/
      (after (t_state t) = false /\ t_state t <> st /\ t_state t' = st /\ (exists z, filter mark o = [z]) /\
        t_start t' x = add_gettimeofday (e_now e) D) \/
      (t_state t = st /\ t_state t' = st /\
        ((filter mark o = [] /\ t_start t' x = t_start t x) \/
         (idle = true /\ (exists z, filter mark o = [z]) /\ t_start t' x = add_gettimeofday (e_now e) D))) \/
      (t_state t = st /\ after (t_state t') = true /\ filter mark o = [] /\
        (existsb esc o = true \/ (ev_type ev = TO /\ t_state t' = term))))).

Definition linger_inv (x : timer) (TO : etype) (st term : state) (after : state -> bool) (mark esc : out -> bool) (D : Z)
    (en : entry) (now : timeval) (tr : list stamped) : Prop :=
  let t := en_t en in
  (after (t_state t) = false -> t_len t x = D /\ times is_kill tr = []) /\
  (forall y, In y (times mark tr) -> y <= usecs now) /\
  ((after (t_state t) = false /\ t_state t <> st /\ times mark tr = []) \/
   (t_state t = st /\ exists l y, times mark tr = l ++ [y] /\
     tv_ok (t_start t x) /\ usecs (t_start t x) = y + ms D /\ (forall y', In y' l -> y' <= y)) \/
   (after (t_state t) = true /\
    (times esc tr <> [] \/ (t_state t = term /\ forall y z, In y (times mark tr) -> In z (times is_kill tr) -> y + ms D < z)))) /\
  (forall ev, In ev (en_q en) -> ev_type ev = TO -> after (t_state t) = true \/
     (t_state t = st /\ exists p, tv_ok p /\ usecs p <= usecs now /\ timer_due t x p = true)).

Lemma times_existsb : forall f z o tr, existsb f o = true -> times f (tr ++ map (pair z) o) <> [].
Proof.
  intros f z o tr H E. rewrite times_app, times_stamp in E. apply app_eq_nil in E. destruct E as (_ & E). apply map_eq_nil in E.
  apply existsb_exists in H. destruct H as (y & H1 & H2). assert (In y (filter f o)) by (apply filter_In; auto). rewrite E in *. auto.
Qed.
Lemma times_keep : forall f z o tr, times f tr <> [] -> times f (tr ++ map (pair z) o) <> [].
Proof. intros f z o tr H E. rewrite times_app in E. apply app_eq_nil in E. tauto. Qed.

Lemma linger_timed : forall idle k x TO st term after mark esc D c m, lingers idle k x TO st term after mark esc D ->
  (forall id t, trans_init k c id (Some m) = Ok t -> t_len t x = D /\ t_state t <> st /\ after (t_state t) = false) ->
  forall en now tr, timed idle k c m en now tr -> linger_inv x TO st term after mark esc D en now tr.
Proof.
  intros idle k x TO st term after mark esc D c m (HTO & Hst & Hterm & HD & Hpoll & Hstep) Hinit en now tr H.
  induction H as [id t Hc H|t q now tr ev H IH Ha Ht|en now tr now' H IH Hl Hi|t ev q now tr e r t' o H IH Hl He].
  - destruct (Hinit _ _ H) as (I1 & I2 & I3). unfold linger_inv. cbn [en_t en_q]. repeat split; auto; try (intros ? []). 
  - destruct IH as (I1 & I2 & I3 & I4). cbn [en_t en_q] in *. split; [auto|]. split; [auto|]. split; [auto|].
    intros x0 Hx Hty. apply in_app_iff in Hx. destruct Hx as [Hx|[<-|[]]]; [eauto|congruence].
  - assert (E : en_t (poll_entry k now' en) = en_t en).
    { unfold poll_entry. destruct k; [destruct (en_q en)|..]; auto; destruct (poll_event _ _ _); auto. }
    assert (Eq : en_q (poll_entry k now' en) = en_q en \/ exists x0, poll_event k now' (en_t en) = Some x0 /\ en_q (poll_entry k now' en) = en_q en ++ [x0]).
    { unfold poll_entry. destruct (poll_event k now' (en_t en)) as [x0|] eqn:Ep.
      - destruct k; [destruct (en_q en) eqn:Eq; [|left; exact Eq]|..]; right; exists x0; auto.
      - left. destruct k; auto; destruct (en_q en) eqn:Eq; auto. }
    destruct IH as (I1 & I2 & I3 & I4). destruct Hl as (L1 & L2). unfold linger_inv. rewrite E. split; [auto|].
    split; [intros y Hy; apply I2 in Hy; lia|]. split; [auto|].
    assert (Old : forall ev, In ev (en_q en) -> ev_type ev = TO -> after (t_state (en_t en)) = true \/
     (t_state (en_t en) = st /\ exists p, tv_ok p /\ usecs p <= usecs now' /\ timer_due (en_t en) x p = true)).
    { intros ev Hv Ty. destruct (I4 ev Hv Ty) as [A|(A & p & P1 & P2 & P3)]; auto. right. split; auto. exists p. split; auto. split; [lia|auto]. }
    destruct Eq as [->|(x0 & Hx0 & ->)]; [auto|]. intros ev Hv Ty. apply in_app_iff in Hv. destruct Hv as [Hv|[<-|[]]]; [apply (Old ev Hv Ty)|].
    destruct (Hpoll _ _ _ Hx0 Ty) as (A1 & A2). right. split; auto. exists now'. split; auto. split; [lia|auto].
  - destruct IH as (I1 & I2 & I3 & I4). destruct Hl as (L1 & L2). pose proof (timed_type _ _ _ _ _ _ _ H) as (Ty & HT).
    pose proof (timed_api _ _ _ _ _ _ _ H ev ltac:(left; auto)) as Ha. cbn [en_t en_q] in *.
    assert (HL : after (t_state t) = false -> t_len t x = D) by (intros A; apply I1; auto).
    destruct (Hstep _ _ _ _ _ _ Ty HT Ha HL He) as (S1 & S2). destruct (add_exact (e_now e) D L1 HD) as (X1 & X2).
    set (nw := usecs (e_now e)) in *.
    assert (TK : filter is_kill o = [] -> times is_kill (tr ++ map (pair nw) o) = times is_kill tr) by (intros; apply times_none; auto).
    assert (TM : filter mark o = [] -> times mark (tr ++ map (pair nw) o) = times mark tr) by (intros; apply times_none; auto).
    assert (TM1 : forall z, filter mark o = [z] -> times mark (tr ++ map (pair nw) o) = times mark tr ++ [nw]).
    { intros z Hz. rewrite times_app, times_stamp, Hz. reflexivity. }
    assert (Nd : In ev (ev :: q) ) by (left; auto).
    assert (AF : forall s, after s = true -> s = st -> False) by (intros s A1 A2; congruence).
    unfold linger_inv. cbn [en_t en_q].
    destruct S2 as [(B1 & B2 & B3 & B4)|[(B1 & B2 & B3 & B4 & B5)|[(B1 & B2 & B3 & (z & B4) & B5)|[(B1 & B2 & B3)|(B1 & B2 & B3 & B4)]]]].
    + (* already after *)
      rewrite (TM B3). split; [congruence|]. split; [intros y Hy; apply I2 in Hy; lia|]. split; [|left; auto].
      right; right. split; auto. destruct I3 as [(C1 & _)|[(C1 & _)|(_ & C2)]]; [congruence|congruence|].
      destruct C2 as [C2|(C2 & C3)]; [left; apply times_keep; auto|]. destruct (B4 C2) as (D1 & D2). right. split; auto. rewrite TK by auto. auto.
    + (* before *)
      rewrite (TM B4). destruct I3 as [(_ & _ & C3)|[(C1 & _)|(C1 & _)]]; [|congruence|congruence].
      split. { intros A. destruct (S1 A) as (S2 & S3). split; auto. rewrite TK by auto. apply I1. auto. }
      split; [intros y Hy; apply I2 in Hy; lia|]. split.
      * destruct (after (t_state t')) eqn:A; [right; right|left; auto]. split; auto. right. split; auto. rewrite C3. intros y z [].
      * intros ev0 Hv Ty0. destruct (I4 ev0 (or_intror Hv) Ty0) as [A|(A & _)]; [congruence|contradiction].
    + (* entry *)
      rewrite (TM1 _ B4). destruct I3 as [(_ & _ & C3)|[(C1 & _)|(C1 & _)]]; [|congruence|congruence].
      split. { intros A. destruct (S1 A) as (S2 & S3). split; auto. rewrite TK by auto. apply I1. auto. }
      split; [intros y Hy; apply in_app_iff in Hy; destruct Hy as [Hy|[<-|[]]]; [apply I2 in Hy|]; lia|]. split.
      * right; left. split; auto. exists [], nw. rewrite C3, B5. split; auto. split; auto. split; [unfold ms; lia|intros ? []].
      * intros ev0 Hv Ty0. destruct (I4 ev0 (or_intror Hv) Ty0) as [A|(A & _)]; [congruence|contradiction].
    + (* stay *)
      destruct I3 as [(C1 & C2 & _)|[(C1 & l & y & C2 & C3 & C4 & C5)|(C1 & _)]]; [contradiction| |congruence].
      split. { intros A. destruct (S1 A) as (S2 & S3). split; auto. rewrite TK by auto. apply I1. congruence. }
      destruct B3 as [(B3 & B4)|(B3 & (z & B4) & B5)].
      * rewrite (TM B3), B4. split; [intros y' Hy; apply I2 in Hy; lia|]. split; [right; left; split; auto; exists l, y; auto|].
        intros ev0 Hv Ty0. destruct (I4 ev0 (or_intror Hv) Ty0) as [A|(A & p & P1 & P2 & P3)]; [left; congruence|]. right. split; auto.
        exists p. split; auto. split; [lia|]. unfold timer_due in *. rewrite B4. auto.
      * rewrite (TM1 _ B4), B5. split; [intros y' Hy; apply in_app_iff in Hy; destruct Hy as [Hy|[<-|[]]]; [apply I2 in Hy|]; lia|].
        split. { right; left. split; auto. exists (times mark tr), nw. split; auto. split; auto. split; [unfold ms; lia|]. intros y' Hy. apply I2 in Hy. lia. }
        subst idle. destruct (timed_queue _ _ _ _ _ _ H) as (Q & _). cbn [en_q tl] in Q. intros ev0 Hv Ty0. apply Q in Hv. congruence.
    + (* leave *)
      rewrite (TM B3). destruct I3 as [(C1 & C2 & _)|[(C1 & l & y & C2 & C3 & C4 & C5)|(C1 & _)]]; [contradiction| |congruence].
      split; [congruence|]. split; [intros y' Hy; apply I2 in Hy; lia|]. split; [|left; auto].
      right; right. split; auto. destruct B4 as [B4|(B4 & B5)]; [left; apply times_existsb; auto|]. right. split; auto.
      intros y' z Hy Hz. rewrite times_app, times_stamp in Hz. apply in_app_iff in Hz.
      destruct (I1 ltac:(congruence)) as (_ & K). rewrite K in Hz. destruct Hz as [[]|Hz]. apply in_map_iff in Hz. destruct Hz as (_ & <- & _).
      destruct (I4 ev Nd B4) as [A|(_ & p & P1 & P2 & P3)]; [congruence|]. rewrite due_iff in P3 by auto.
      assert (y' <= y); [|lia]. rewrite C2 in Hy. apply in_app_iff in Hy. destruct Hy as [Hy|[<-|[]]]; [auto|lia].
Qed.

(** The two facts used: not early, and due when its time has come. *)
Lemma linger_not_before : forall idle k x TO st term after mark esc D c m en now tr y z, lingers idle k x TO st term after mark esc D ->
  (forall id t, trans_init k c id (Some m) = Ok t -> t_len t x = D /\ t_state t <> st /\ after (t_state t) = false) ->
  timed idle k c m en now tr -> In y (times mark tr) -> In z (times is_kill tr) -> times esc tr <> [] \/ y + ms D < z.
Proof.
  intros idle k x TO st term after mark esc D c m en now tr y z HL HI H Hy Hz.
  destruct (linger_timed _ _ _ _ _ _ _ _ _ _ _ _ HL HI _ _ _ H) as (I1 & I2 & I3 & _).
  destruct I3 as [(A & B & C)|[(A & _)|(A & B)]].
  - rewrite C in Hy. destruct Hy.
  - destruct HL as (_ & Hst & _). rewrite A in I1. destruct (I1 Hst) as (_ & K). rewrite K in Hz. destruct Hz.
  - destruct B as [B|(_ & B)]; auto.
Qed.

Lemma linger_due : forall idle k x TO st term after mark esc D c m en now tr p, lingers idle k x TO st term after mark esc D ->
  (forall id t, trans_init k c id (Some m) = Ok t -> t_len t x = D /\ t_state t <> st /\ after (t_state t) = false) ->
  timed idle k c m en now tr -> t_state (en_t en) = st -> tv_ok p -> (forall y, In y (times mark tr) -> y + ms D < usecs p) ->
  timer_due (en_t en) x p = true.
Proof.
  intros idle k x TO st term after mark esc D c m en now tr p HL HI H Hs Hp Hy.
  destruct (linger_timed _ _ _ _ _ _ _ _ _ _ _ _ HL HI _ _ _ H) as (I1 & I2 & I3 & _).
  destruct I3 as [(A & B & C)|[(A & l & y & C & D1 & D2 & D3)|(A & B)]]; [contradiction| |destruct HL as (_ & Hst & _); congruence].
  rewrite due_iff by auto. specialize (Hy y). rewrite C in Hy. rewrite in_app_iff in Hy. specialize (Hy ltac:(right; left; auto)). lia.
Qed.

(** As [timed_after], for any polling. *)
Lemma timed_after_any : forall idle k c m (trig bad : out -> bool) (done : trans -> Prop),
  (forall t ev e r t' o, t_type t = k -> typed t -> api_event ev -> execute e t ev = Ok (r, t', o) ->
     (existsb trig o = true -> done t') /\ (done t -> done t' /\ filter bad o = []) /\
     (forall o1 x o2, o = o1 ++ x :: o2 -> trig x = true -> filter bad o2 = [])) ->
  forall en now tr, timed idle k c m en now tr ->
    (existsb (fun x => trig (snd x)) tr = true -> done (en_t en)) /\
    forall tr1 y x tr2, tr = tr1 ++ (y, x) :: tr2 -> trig x = true -> times bad tr2 = [].
Proof.
  intros idle k c m trig bad done HS en now tr H.
  induction H as [id t Hc H|t q now tr ev H IH Ha Ht|en now tr now' H IH Hl Hi|t ev q now tr e r t' o H IH Hl He].
  - split; [discriminate|]. intros tr1 y x tr2 E. destruct tr1; discriminate.
  - exact IH.
  - assert (E : en_t (poll_entry k now' en) = en_t en).
    { unfold poll_entry. destruct k; [destruct (en_q en)|..]; auto; destruct (poll_event _ _ _); auto. }
    rewrite E. exact IH.
  - cbn [en_t en_q] in *. destruct (timed_type _ _ _ _ _ _ _ H) as (Y1 & Y2). destruct IH as (I1 & I2).
    pose proof (timed_api _ _ _ _ _ _ _ H ev ltac:(left; auto)) as Ha.
    destruct (HS _ _ _ _ _ _ Y1 Y2 Ha He) as (S1 & S2 & S3). split.
    + rewrite existsb_app. intros Hb. apply orb_true_iff in Hb. destruct Hb as [Hb|Hb].
      * apply S2. auto.
      * apply S1. rewrite <- Hb. clear. induction o as [|x o]; [reflexivity|]. cbn. rewrite IHo. reflexivity.
    + intros tr1 y x tr2 E Hx. apply app_split in E. destruct E as [(l & -> & ->)|(l & -> & E)].
      * rewrite times_app, times_stamp. rewrite (I2 _ _ _ _ eq_refl Hx). destruct S2 as (_ & ->); [|reflexivity].
        apply I1. rewrite existsb_app. cbn [existsb snd]. rewrite Hx. apply orb_true_r.
      * assert (F : forall o l, map (pair (usecs (e_now e))) o = l ++ (y, x) :: tr2 ->
          exists o1 o2, o = o1 ++ x :: o2 /\ tr2 = map (pair (usecs (e_now e))) o2).
        { clear. induction o as [|a o]; intros l H; [destruct l; discriminate|]. cbn in H. destruct l as [|b l]; cbn in H; injection H as <- H.
          - exists [], o. subst. auto.
          - apply IHo in H. destruct H as (o1 & o2 & -> & ->). exists (a :: o1), o2. auto. }
        apply F in E. destruct E as (o1 & o2 & -> & ->). rewrite times_stamp, (S3 _ _ _ eq_refl Hx). reflexivity.
Qed.

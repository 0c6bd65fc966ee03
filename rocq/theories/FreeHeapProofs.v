(** Correctness of every free program that releases each pointer field of a structure once and then the structure. *)
From Coq Require Import String ZArith NArith Ascii Bool List Lia Permutation.
From Verif Require Import Base Str CloneHeap CloneSpec CloneHeapProofs FreeHeap FreeSpec.
Import ListNotations.
Local Open Scope nat_scope.

Definition ftarget (o : fop) : list nat :=
  match o with Guard | Forget _ | FreeSelf => [] | Free i | FreeSub i _ | FreeIf _ _ i _ | FreeEach i _ | FreeStrs i => [i] end.
Definition ftargets (p : list fop) : list nat := flat_map ftarget p.
Definition mem (i : nat) (l : list nat) : bool := existsb (Nat.eqb i) l.
Lemma mem_in : forall i l, mem i l = true <-> In i l.
Proof. intros i l. unfold mem. rewrite existsb_exists. split; [intros (x & I & E); apply Nat.eqb_eq in E; congruence|intros I; exists i; split; [exact I|apply Nat.eqb_refl]]. Qed.
Lemma mem_out : forall i l, mem i l = false <-> ~ In i l.
Proof. intros i l. rewrite <- mem_in. destruct (mem i l); split; intros; congruence. Qed.

(** fields that lead to blocks, strings apart *)
Definition deep (k : shape) : bool := match k with KRec _ | KList _ | KBuf | KStrs => true | KStr | KInt => false end.
(** the program suits the fields: each is released once, by the step of its kind, everything before the structure itself *)
Fixpoint sound_op (fs : list shape) (done : list nat) (o : fop) {struct o} : bool :=
  let sound := fix sound (fs : list shape) (done : list nat) (p : list fop) {struct p} : bool :=
    match p with
    | [] => false
    | o :: p => match o, p with
                | FreeSelf, [] => forallb (fun i => match nth_error fs i with Some k => if deep k then mem i done else true | None => true end) (seq 0 (length fs))
                | FreeSelf, _ => false
                | _, _ => sound_op fs done o && sound fs (ftarget o ++ done) p
                end
    end in
  match o with
  | Guard => true
  | Free i => negb (mem i done) && match nth_error fs i with Some KStr | Some KBuf => true | _ => false end
  | Forget i => mem i done && match nth_error fs i with Some KStr => true | _ => false end
  | FreeSub i p => negb (mem i done) && guarded p && match nth_error fs i with Some (KRec gs) => sound gs [] p | _ => false end
  | FreeIf c _ i p => negb (mem i done) && negb (mem c done) && guarded p && match nth_error fs c with Some KInt => true | _ => false end && match nth_error fs i with Some (KRec gs) => sound gs [] p | _ => false end
  | FreeEach i p => negb (mem i done) && match nth_error fs i with Some (KList gs) => sound gs [] p | _ => false end
  | FreeStrs i => negb (mem i done) && match nth_error fs i with Some KStrs => true | _ => false end
  | FreeSelf => false
  end.
Definition sound := fix sound (fs : list shape) (done : list nat) (p : list fop) {struct p} : bool :=
    match p with
    | [] => false
    | o :: p => match o, p with
                | FreeSelf, [] => forallb (fun i => match nth_error fs i with Some k => if deep k then mem i done else true | None => true end) (seq 0 (length fs))
                | FreeSelf, _ => false
                | _, _ => sound_op fs done o && sound fs (ftarget o ++ done) p
                end
    end.

(** the strings the program does not release are not there, nor the parts it does not release because of a test *)
Definition spare (fs : list shape) (p : list fop) (us : list tree) : Prop := forall i s, nth_error fs i = Some KStr -> nth_error us i = Some (Text s) -> In i (ftargets p).
Fixpoint owns_op (fs : list shape) (o : fop) (us : list tree) {struct o} : Prop :=
  let owns := fix owns (fs : list shape) (p : list fop) (us : list tree) {struct p} : Prop := match p with [] => True | o :: p => owns_op fs o us /\ owns fs p us end in
  match o with
  | Guard | Free _ | Forget _ | FreeStrs _ | FreeSelf => True
  | FreeSub i p => forall gs vs, nth_error fs i = Some (KRec gs) -> nth_error us i = Some (Rec vs) -> spare gs p vs /\ owns gs p vs
  | FreeIf c test i p => (forall gs vs, nth_error fs i = Some (KRec gs) -> nth_error us i = Some (Rec vs) -> spare gs p vs /\ owns gs p vs) /\
                         (forall z vs, nth_error us c = Some (Num z) -> nth_error us i = Some (Rec vs) -> test z = true)
  | FreeEach i p => forall gs l vs, nth_error fs i = Some (KList gs) -> nth_error us i = Some (Seq l) -> In (Rec vs) l -> spare gs p vs /\ owns gs p vs
  end.
Definition owns := fix owns (fs : list shape) (p : list fop) (us : list tree) {struct p} : Prop := match p with [] => True | o :: p => owns_op fs o us /\ owns fs p us end.

Lemma fop_ind' : forall P : fop -> Prop,
  P Guard -> (forall i, P (Free i)) -> (forall i, P (Forget i)) -> (forall i p, Forall P p -> P (FreeSub i p)) ->
  (forall c t i p, Forall P p -> P (FreeIf c t i p)) -> (forall i p, Forall P p -> P (FreeEach i p)) -> (forall i, P (FreeStrs i)) -> P FreeSelf -> forall o, P o.
Proof.
  intros P H1 H2 H3 H4 H5 H6 H7 H8. fix IH 1. intros [|i|i|i p|c t i p|i p|i|]; [apply H1|apply H2|apply H3| | | |apply H7|apply H8].
  - apply H4. induction p as [|o p IHp]; constructor; [apply IH|exact IHp].
  - apply H5. induction p as [|o p IHp]; constructor; [apply IH|exact IHp].
  - apply H6. induction p as [|o p IHp]; constructor; [apply IH|exact IHp].
Qed.

Lemma drop_same : forall h a, drop h a a = None.
Proof.
  intros [c] a. unfold drop, look. cbn. induction c as [|[b x] c IH]; [reflexivity|]. cbn. destruct (Nat.eqb a b) eqn:E; cbn; [exact IH|]. rewrite E. exact IH.
Qed.
Lemma drop_other : forall h a x, x <> a -> drop h a x = h x.
Proof.
  intros [c] a x N. unfold drop, look. cbn. induction c as [|[b y] c IH]; [reflexivity|]. cbn. destruct (Nat.eqb a b) eqn:E; cbn.
  - apply Nat.eqb_eq in E. subst b. apply Nat.eqb_neq in N. rewrite N. exact IH.
  - destruct (Nat.eqb x b); [reflexivity|exact IH].
Qed.
Lemma release_ok : forall (h : heap) a, h a <> None -> release h a = Ok (drop h a) /\ freed [a] h (drop h a).
Proof.
  intros h a U. unfold release. destruct (h a) eqn:E; [|congruence]. split; [reflexivity|]. split.
  - intros x [<-|[]]. apply drop_same.
  - intros x N. apply drop_other. intros ->. apply N. left. reflexivity.
Qed.
Lemma fields_split : forall (h : heap) fs ws ts fp, hfields h fs ws ts fp -> exists fps, fp = concat fps /\ length fps = length fs /\
  (forall i k, nth_error fs i = Some k -> exists w t f, nth_error ws i = Some w /\ nth_error ts i = Some t /\ nth_error fps i = Some f /\ holds h k w t f).
Proof.
  intros h fs ws ts fp H. induction H as [|k w t fp ks ws ts fps H HF (l & E & L & K)].
  - exists []. repeat split; auto. intros [|i] k E; discriminate.
  - exists (fp :: l). cbn. subst fps. repeat split; auto. intros [|i] k' E; cbn in E |- *; [injection E as <-; exists w, t, fp; auto|apply K; exact E].
Qed.
Lemma nodup_concat : forall A (ls : list (list A)) i j l m x, NoDup (concat ls) -> nth_error ls i = Some l -> nth_error ls j = Some m -> In x l -> In x m -> i = j.
Proof.
  intros A ls. induction ls as [|y ls IH]; intros [|i] [|j] l m x ND E F I J; cbn in *; try discriminate; auto.
  - injection E as ->. exfalso. assert (In x (concat ls)) as K by (apply in_concat; exists m; split; [apply nth_error_In with j; exact F|exact J]). clear - ND I K.
    induction l as [|a l IHl]; [destruct I|]. cbn in ND. inversion ND; subst. destruct I as [->|I]; [apply H1; apply in_or_app; auto|auto].
  - injection F as ->. exfalso. assert (In x (concat ls)) as K by (apply in_concat; exists l; split; [apply nth_error_In with i; exact E|exact I]). clear - ND J K.
    induction m as [|a l IHl]; [destruct J|]. cbn in ND. inversion ND; subst. destruct J as [->|I]; [apply H1; apply in_or_app; auto|auto].
  - f_equal. apply (IH i j l m x); auto. apply nodup_tail in ND. exact ND.
Qed.
Lemma nodup_part : forall A (ls : list (list A)) i l, NoDup (concat ls) -> nth_error ls i = Some l -> NoDup l.
Proof.
  intros A ls. induction ls as [|y ls IH]; intros [|i] l ND E; cbn in *; try discriminate.
  - injection E as ->. clear - ND. induction l as [|a l IHl]; [constructor|]. cbn in ND. inversion ND; subst. constructor; [|auto]. intros I. apply H1. apply in_or_app. auto.
  - apply (IH i l); auto. apply nodup_tail in ND. exact ND.
Qed.

(** freeing a list *)
Section Sweep.
Variable fr : heap -> word -> res heap.
Variable elem : heap -> word -> list addr -> Prop.
Hypothesis elem_frame : forall (h h' : heap) w f, elem h w f -> (forall x, In x f -> h' x = h x) -> elem h' w f.
Hypothesis elem_free : forall (h : heap) w f, elem h w f -> NoDup f -> exists h', fr h w = Ok h' /\ freed f h h'.
Fixpoint chain (h : heap) (first : option addr) (l : list (word * list addr)) (fp : list addr) : Prop :=
  match l with
  | [] => first = None /\ fp = []
  | (w, f) :: l => exists nd next fps, first = Some nd /\ h nd = Some (BNode w next) /\ elem h w f /\ chain h next l fps /\ fp = nd :: f ++ fps
  end.
Lemma chain_frame : forall (h h' : heap) l first fp, chain h first l fp -> (forall x, In x fp -> h' x = h x) -> chain h' first l fp.
Proof.
  intros h h' l. induction l as [|[w f] l IH]; intros first fp C F; cbn in *; [exact C|]. destruct C as (nd & next & fps & -> & N & E & C & ->). exists nd, next, fps.
  split; [reflexivity|]. split; [rewrite F; [exact N|left; reflexivity]|]. split; [apply (elem_frame h); [exact E|]; intros x I; apply F; right; apply in_or_app; auto|].
  split; [|reflexivity]. apply IH; [exact C|]. intros x I. apply F. right. apply in_or_app. auto.
Qed.
Lemma sweep_ok : forall l (h : heap) a i ws first fp, h a = Some (BRec ws) -> nth_error ws i = Some (Lst (length l) first) -> chain h first l fp -> NoDup fp -> ~ In a fp ->
  exists h', sweep fr a i (length l) h = Ok h' /\ h' a = Some (BRec (upd i (Lst 0 None) ws)) /\ (forall x, In x fp -> h' x = None) /\ (forall x, x <> a -> ~ In x fp -> h' x = h x).
Proof.
  induction l as [|[w f] l IH]; intros h a i ws first fp A W C ND NA; cbn [length sweep].
  - destruct C as [-> ->]. rewrite (field_ok _ _ _ _ _ A W). cbn in W |- *. exists h. split; [reflexivity|]. split; [rewrite (upd_id _ _ _ _ W); exact A|]. split; [intros x []|auto].
  - destruct C as (nd & next & fps & -> & N & E & C & ->). rewrite (field_ok _ _ _ _ _ A W). cbn [res_bind length]. unfold node. rewrite N. cbn [res_bind fst snd].
    assert (i < length ws) as LI by (apply nth_error_Some; congruence). rewrite (set_field_ok _ _ _ _ _ A LI). cbn [res_bind].
    set (h1 := put h a (BRec (upd i (Lst (length l) next) ws))). assert (nd <> a) as NDA by (intros ->; apply NA; left; reflexivity).
    assert (h1 nd <> None) as U by (unfold h1; rewrite put_other; congruence). destruct (release_ok h1 nd U) as [R [R1 R2]]. rewrite R. cbn [res_bind].
    inversion ND as [|? ? NI ND']; subst.
    assert (forall x, In x (f ++ fps) -> drop h1 nd x = h x) as K.
    { intros x I. rewrite drop_other by (intros ->; contradiction). unfold h1. apply put_other. intros ->. apply NA. right. exact I. }
    assert (NoDup f) as NF by (clear - ND'; induction f as [|y f IHf]; [constructor|]; cbn in ND'; inversion ND'; subst; constructor; [intros I; apply H1; apply in_or_app; auto|auto]).
    assert (NoDup fps) as NP by (apply nodup_tail in ND'; exact ND').
    assert (forall x, In x f -> ~ In x fps) as DJ by (clear - ND'; intros x I J; induction f as [|y f IHf]; [destruct I|]; cbn in ND'; inversion ND'; subst; destruct I as [->|I]; [apply H1; apply in_or_app; auto|auto]).
    destruct (elem_free (drop h1 nd) w f) as (h2 & F1 & F2 & F3); [apply (elem_frame h); [exact E|]; intros x I; apply K; apply in_or_app; auto|exact NF|].
    rewrite F1. cbn [res_bind].
    destruct (IH h2 a i (upd i (Lst (length l) next) ws) next fps) as (h' & G1 & G2 & G3 & G4); auto.
    + rewrite F3 by (intros I; apply NA; right; apply in_or_app; auto). rewrite drop_other by congruence. apply put_same.
    + apply upd_same. exact LI.
    + apply (chain_frame h); [exact C|]. intros x I. rewrite F3 by (intros J; exact (DJ x J I)). apply K. apply in_or_app. auto.
    + intros I. apply NA. right. apply in_or_app. auto.
    + exists h'. split; [exact G1|]. split; [rewrite upd_twice in G2; exact G2|]. split.
      * assert (forall x, ~ In x fps -> (x = nd \/ In x f) -> h' x = None) as Z.
        { intros x NX HX. assert (x <> a) as XA by (intros ->; apply NA; destruct HX as [->|HX]; [left; reflexivity|right; apply in_or_app; auto]). rewrite G4 by assumption.
          destruct (in_dec Nat.eq_dec x f) as [I|I]; [apply F2; exact I|]. rewrite F3 by exact I. destruct HX as [->|HX]; [apply drop_same|contradiction]. }
        intros x [<-|I]; [apply Z; [intros J; apply NI; apply in_or_app; auto|left; reflexivity]|]. apply in_app_or in I. destruct I as [I|I]; [apply Z; [apply DJ; exact I|right; exact I]|apply G3; exact I].
      * intros x XA NX. rewrite G4; [|exact XA|intros I; apply NX; right; apply in_or_app; auto]. rewrite F3 by (intros I; apply NX; right; apply in_or_app; auto).
        rewrite drop_other by (intros ->; apply NX; left; reflexivity). unfold h1. apply put_other. exact XA.
Qed.
End Sweep.

Definition live (h : heap) (fs : list shape) (ws : list word) (us : list tree) (fps : list (list addr)) (done : list nat) : Prop :=
  forall i k, nth_error fs i = Some k -> ~ In i done -> exists w t f, nth_error ws i = Some w /\ nth_error us i = Some t /\ nth_error fps i = Some f /\ holds h k w t f.
Definition fop_spec (o : fop) : Prop := forall fs done (h : heap) a ws us fps,
  sound_op fs done o = true -> h a = Some (BRec ws) -> length ws = length fs -> live h fs ws us fps done -> NoDup (concat fps) -> ~ In a (concat fps) -> owns_op fs o us ->
  match ftarget o with
  | [] => exists h' ws', fstep o a h = Ok h' /\ h' a = Some (BRec ws') /\ length ws' = length ws /\ (forall j, ~ In j done -> nth_error ws' j = nth_error ws j) /\ (forall x, x <> a -> h' x = h x)
  | i :: _ => exists h' ws' f, fstep o a h = Ok h' /\ h' a = Some (BRec ws') /\ length ws' = length ws /\ (forall j, j <> i -> nth_error ws' j = nth_error ws j) /\
      nth_error fps i = Some f /\ (forall x, In x f -> h' x = None) /\ (forall x, x <> a -> ~ In x f -> h' x = h x)
  end.
Lemma fruns_ok : forall fs us fps (h0 : heap) a p, Forall fop_spec p -> NoDup (concat fps) -> ~ In a (concat fps) -> length fps = length fs -> owns fs p us ->
  forall (h : heap) ws done, sound fs done p = true -> h a = Some (BRec ws) -> length ws = length fs -> live h fs ws us fps done ->
  (forall i s, nth_error fs i = Some KStr -> nth_error us i = Some (Text s) -> In i done \/ In i (ftargets p)) ->
  (forall i f x, In i done -> nth_error fps i = Some f -> In x f -> h x = None) ->
  (forall x, x <> a -> (forall i f, In i done -> nth_error fps i = Some f -> ~ In x f) -> h x = h0 x) ->
  exists h', fruns p a h = Ok h' /\ freed (a :: concat fps) h0 h'.
Proof.
  intros fs us fps h0 a p FS ND NA LF. induction FS as [|o p O FS IH]; intros OW h ws done S A LW LV SP GN KP; [discriminate|].
  destruct OW as [OW1 OW2]. cbn [fruns].
  assert (o = FreeSelf \/ (sound_op fs done o = true /\ sound fs (ftarget o ++ done) p = true)) as [->|[S1 S2]].
  { cbn [sound] in S. destruct o; try (right; apply andb_true_iff in S; exact S). left. reflexivity. }
  - cbn [sound] in S. destruct p; [|discriminate]. cbn [fstep fruns]. destruct (release_ok h a ltac:(congruence)) as [R [R1 R2]]. rewrite R. cbn [res_bind]. exists (drop h a). split; [reflexivity|].
    rewrite forallb_forall in S. split.
    + intros x [<-|I]; [apply drop_same|]. assert (x <> a) as XA by (intros ->; contradiction). rewrite drop_other by exact XA.
      apply in_concat in I. destruct I as (f & F & I). apply In_nth_error in F. destruct F as [i F]. destruct (in_dec Nat.eq_dec i done) as [D|D]; [exact (GN i f x D F I)|]. exfalso.
      assert (i < length fs) as LI by (rewrite <- LF; apply nth_error_Some; congruence). destruct (nth_error fs i) as [k|] eqn:K; [|apply nth_error_None in K; lia].
      specialize (S i ltac:(apply in_seq; lia)). rewrite K in S. destruct (LV i k K D) as (w & t & f' & W & T & F' & H). assert (f' = f) by congruence. subst f'.
      inversion H; subst; cbn [deep] in S; try (apply mem_in in S; contradiction); try contradiction.
      destruct (SP i s K T) as [J|J]; [contradiction|destruct J].
    + intros x NX. rewrite drop_other by (intros ->; apply NX; left; reflexivity). apply KP; [intros ->; apply NX; left; reflexivity|]. intros i f D F I. apply NX. right. apply in_concat. exists f. split; [apply nth_error_In with i; exact F|exact I].
  - specialize (O fs done h a ws us fps S1 A LW LV ND NA OW1).
    change (ftargets (o :: p)) with (ftarget o ++ ftargets p) in SP.
    destruct (ftarget o) as [|i tl] eqn:TG.
    + destruct O as (h' & ws' & E & A' & L' & W' & K'). rewrite E. cbn [res_bind]. apply (IH OW2 h' ws' done); auto.
      * congruence.
      * intros j k J D. destruct (LV j k J D) as (w & t & f & W & T & F & H). exists w, t, f. rewrite W' by exact D. repeat split; auto. apply (frame h); [exact H|]. intros x I. apply K'. intros ->. apply NA. apply in_concat. exists f. split; [apply nth_error_In with j; exact F|exact I].
      * intros j f x J F I. rewrite K'; [exact (GN j f x J F I)|]. intros ->. apply NA. apply in_concat. exists f. split; [apply nth_error_In with j; exact F|exact I].
      * intros x X N. rewrite K' by exact X. apply KP; auto.
    + assert (tl = []) as -> by (destruct o; cbn in TG; congruence). cbn [app] in *.
      destruct O as (h' & ws' & f & E & A' & L' & W' & F & G & K'). rewrite E. cbn [res_bind].
      assert (forall j fj x, nth_error fps j = Some fj -> In x fj -> x <> a) as XA by (intros j fj x FJ I ->; apply NA; apply in_concat; exists fj; split; [apply nth_error_In with j; exact FJ|exact I]).
      apply (IH OW2 h' ws' (i :: done)); auto.
      * congruence.
      * intros j k J D. assert (j <> i) as JI by (intros ->; apply D; left; reflexivity). destruct (LV j k J ltac:(intros D'; apply D; right; exact D')) as (w & t & fj & W & T & FJ & H). exists w, t, fj. rewrite W' by exact JI. repeat split; auto.
        apply (frame h); [exact H|]. intros x I. apply K'; [exact (XA j fj x FJ I)|]. intros I'. apply JI. exact (nodup_concat _ _ _ _ _ _ _ ND FJ F I I').
      * intros j s KJ T. destruct (SP j s KJ T) as [J|[->|J]]; [left; right; exact J|left; left; reflexivity|right; exact J].
      * intros j fj x J FJ I. destruct (in_dec Nat.eq_dec x f) as [I'|I']; [apply G; exact I'|]. rewrite K' by (auto; exact (XA j fj x FJ I)). destruct J as [<-|J]; [|exact (GN j fj x J FJ I)]. exfalso. apply I'. assert (fj = f) as <- by congruence. exact I.
      * intros x X N. rewrite K'; [|exact X|apply (N i f); [left; reflexivity|exact F]]. apply KP; [exact X|]. intros j fj J FJ. apply (N j fj); [right; exact J|exact FJ].
Qed.
Lemma destroy_ok : forall p fs, Forall fop_spec p -> sound fs [] p = true -> forall us, spare fs p us /\ owns fs p us -> destroyed (destroy p) fs us.
Proof.
  intros p fs FS S us [SP OW] h a fp H ND. inversion H as [| | | | | |? ? ws ? fp0 A HF| |]; subst. unfold destroy, destroy_with.
  destruct (fields_split _ _ _ _ _ HF) as (fps & -> & LF & K). destruct (fields_length _ _ _ _ _ HF) as [LW LT]. inversion ND as [|? ? NA ND']; subst.
  destruct (fruns_ok fs us fps h a p FS ND' NA LF OW h ws [] S A LW) as (h' & R & F); auto.
  - intros i k E _. apply K. exact E.
  - intros i s KS T. right. exact (SP i s KS T).
  - intros i f x [].
  - exists h'. auto.
Qed.

Lemma holds_elems : forall (good : list tree -> Prop) (h : heap) gs first ts fp, hchain h gs first ts fp -> (forall us, In (Rec us) ts -> good us) ->
  exists l, length l = length ts /\ chain (fun h w f => exists a us, w = Ptr a /\ good us /\ holds h (KRec gs) (Ptr a) (Rec us) f) h first l fp.
Proof.
  intros good h gs first ts fp H. induction H as [|fs nd a us next ts fp fps N H C IH]; intros G; [exists []; cbn; auto|].
  destruct IH as (l & L & K); [intros vs I; apply G; right; exact I|]. exists ((Ptr a, fp) :: l). split; [cbn; congruence|]. cbn [chain]. exists nd, next, fps. repeat split; auto.
  exists a, us. split; [reflexivity|]. split; [apply G; left; reflexivity|exact H].
Qed.
Lemma strs_elems : forall (h : heap) first ss fp, hstrs h first ss fp -> exists l, length l = length ss /\ chain (fun h w f => exists a s, w = Ptr a /\ f = [a] /\ h a = Some (BText s)) h first l fp.
Proof.
  intros h first ss fp H. induction H as [|nd a s next ss fps N E C H (l & L & K)]; [exists []; cbn; auto|]. exists ((Ptr a, [a]) :: l). split; [cbn; congruence|]. cbn [chain]. exists nd, next, fps. repeat split; auto.
  exists a, s. auto.
Qed.

Lemma fop_ok : forall o, fop_spec o.
Proof.
  induction o using fop_ind'; unfold fop_spec; cbn [ftarget sound_op owns_op]; intros fs done h a ws us fps S A LW LV ND NA OW.
  - exists h, ws. cbn [fstep]. repeat split; auto.
  - apply andb_true_iff in S. destruct S as [S1 S2]. apply negb_true_iff, mem_out in S1. destruct (nth_error fs i) as [k|] eqn:K; [|discriminate].
    destruct (LV i k K S1) as (w & t & f & W & T & F & H). cbn [fstep]. rewrite (field_ok _ _ _ _ _ A W). cbn [res_bind].
    assert (~ In a f) as AF by (intros I; apply NA; apply in_concat; exists f; split; [apply nth_error_In with i; exact F|exact I]).
    assert (f = [] /\ w = Null \/ exists b, f = [b] /\ release_word h w = release h b /\ h b <> None) as [[-> ->]|(b & -> & R & U)].
    { inversion H; subst; try discriminate; auto; right; exists a0; cbn; repeat split; auto; congruence. }
    + exists h, ws, []. cbn. repeat split; auto. intros x [].
    + destruct (release_ok h b U) as [R0 [R1 R2]]. rewrite R, R0. exists (drop h b), ws, [b]. repeat split; auto. rewrite R2; [exact A|]. exact AF.
  - apply andb_true_iff in S. destruct S as [S1 S2]. apply mem_in in S1. destruct (nth_error fs i) as [k|] eqn:K; [|discriminate].
    assert (i < length ws) as LI by (rewrite LW; apply nth_error_Some; congruence). cbn [fstep]. rewrite (set_field_ok _ _ _ _ _ A LI). eexists. exists (upd i Null ws). split; [reflexivity|]. rewrite put_same.
    split; [reflexivity|]. split; [apply upd_length|]. split; [intros j J; apply upd_other; congruence|]. intros x X. apply put_other. exact X.
  - apply andb_true_iff in S. destruct S as [S S3]. apply andb_true_iff in S. destruct S as [S1 S2]. apply negb_true_iff, mem_out in S1. destruct (nth_error fs i) as [[| | |gs| |]|] eqn:K; try discriminate. fold sound in S3.
    destruct (LV i _ K S1) as (w & t & f & W & T & F & HH). cbn [fstep]. fold fruns. rewrite (field_ok _ _ _ _ _ A W). cbn [res_bind].
    assert (~ In a f) as AF by (intros I; apply NA; apply in_concat; exists f; split; [apply nth_error_In with i; exact F|exact I]).
    inversion HH as [| | | | | |? b ws' vs fp' EB HB| |]; subst.
    + unfold destroy_with. rewrite S2. exists h, ws, []. repeat split; auto. intros x [].
    + destruct (destroy_ok p gs H S3 vs (OW gs vs eq_refl T) h b _ HH (nodup_part _ _ _ _ ND F)) as (h' & D & G1 & G2). unfold destroy in D. rewrite D. exists h', ws, (b :: fp'). repeat split; auto. rewrite G2; assumption.
  - apply andb_true_iff in S. destruct S as [S S5]. apply andb_true_iff in S. destruct S as [S S4]. apply andb_true_iff in S. destruct S as [S S3]. apply andb_true_iff in S. destruct S as [S1 S2]. apply negb_true_iff, mem_out in S1, S2.
    destruct (nth_error fs c) as [kc|] eqn:KC; [|discriminate]. destruct kc; try discriminate. destruct (nth_error fs i) as [[| | |gs| |]|] eqn:K; try discriminate. fold sound in S5.
    destruct (LV c _ KC S2) as (wc & tc & fc & WC & TC & FC & HC). inversion HC; subst. destruct (LV i _ K S1) as (w & t' & f & W & T & F & HH). cbn [fstep]. fold fruns. rewrite (field_ok _ _ _ _ _ A WC). cbn [res_bind].
    assert (~ In a f) as AF by (intros I; apply NA; apply in_concat; exists f; split; [apply nth_error_In with i; exact F|exact I]).
    destruct OW as [OW1 OW2]. rewrite (field_ok _ _ _ _ _ A W). cbn [res_bind].
    inversion HH as [| | | | | |? b ws' vs fp' EB HB| |]; subst.
    + exists h, ws, []. unfold destroy_with. rewrite S3. split; [destruct (t z); reflexivity|]. repeat split; auto. intros x [].
    + rewrite (OW2 z vs TC T). destruct (destroy_ok p gs H S5 vs (OW1 gs vs eq_refl T) h b _ HH (nodup_part _ _ _ _ ND F)) as (h' & D & G1 & G2). unfold destroy in D. rewrite D. exists h', ws, (b :: fp'). repeat split; auto. rewrite G2; assumption.
  - apply andb_true_iff in S. destruct S as [S1 S3]. apply negb_true_iff, mem_out in S1. destruct (nth_error fs i) as [[| | | |gs|]|] eqn:K; try discriminate. fold sound in S3.
    destruct (LV i _ K S1) as (w & t & f & W & T & F & HH). cbn [fstep]. fold fruns. unfold sweep_all. rewrite (field_ok _ _ _ _ _ A W). cbn [res_bind].
    assert (~ In a f) as AF by (intros I; apply NA; apply in_concat; exists f; split; [apply nth_error_In with i; exact F|exact I]).
    inversion HH as [| | | | | | |? first l fp' HB|]; subst. destruct (holds_elems (fun vs => spare gs p vs /\ owns gs p vs) h gs first l f HB (fun vs I => OW gs l vs eq_refl T I)) as (es & L & C).
    assert (i < length ws) as LI by (apply nth_error_Some; congruence). rewrite <- L in W |- *.
    pose proof (fun P1 P2 => sweep_ok (destroy_with (fruns p) (guarded p)) _ P1 P2 es h a i ws first f A W C (nodup_part _ _ _ _ ND F) AF) as X. destruct X as (h' & G1 & G2 & G3 & G4).
    + intros h1 h2 w f' (b & vs & -> & G & HE) FR. exists b, vs. repeat split; auto; try apply G. apply (frame h1); assumption.
    + intros h1 w f' (b & vs & -> & G & HE) NF. exact (destroy_ok p gs H S3 vs G h1 b f' HE NF).
    + rewrite G1. exists h', (upd i (Lst 0 None) ws), f. repeat split; auto; [apply upd_length|]. intros j J. apply upd_other. exact J.
  - apply andb_true_iff in S. destruct S as [S1 S3]. apply negb_true_iff, mem_out in S1. destruct (nth_error fs i) as [[| | | | |]|] eqn:K; try discriminate.
    destruct (LV i _ K S1) as (w & t & f & W & T & F & HH). cbn [fstep]. unfold sweep_all. rewrite (field_ok _ _ _ _ _ A W). cbn [res_bind].
    assert (~ In a f) as AF by (intros I; apply NA; apply in_concat; exists f; split; [apply nth_error_In with i; exact F|exact I]).
    inversion HH as [| | | | | | | |first l fp' HB]; subst. destruct (strs_elems h first l f HB) as (es & L & C).
    assert (i < length ws) as LI by (apply nth_error_Some; congruence). rewrite <- L in W |- *.
    pose proof (fun P1 P2 => sweep_ok release_word _ P1 P2 es h a i ws first f A W C (nodup_part _ _ _ _ ND F) AF) as X. destruct X as (h' & G1 & G2 & G3 & G4).
    + intros h1 h2 w f' (b & s & -> & -> & E) FR. exists b, s. repeat split; auto. rewrite FR; [exact E|left; reflexivity].
    + intros h1 w f' (b & s & -> & -> & E) NF. destruct (release_ok h1 b ltac:(congruence)) as [R0 R1]. exists (drop h1 b). split; [exact R0|exact R1].
    + rewrite G1. exists h', (upd i (Lst 0 None) ws), f. repeat split; auto; [apply upd_length|]. intros j J. apply upd_other. exact J.
  - discriminate.
Qed.
Theorem destroy_destroyed : forall p fs us, sound fs [] p = true -> spare fs p us -> owns fs p us -> destroyed (destroy p) fs us.
Proof. intros. apply destroy_ok; auto. apply Forall_forall. intros o _. apply fop_ok. Qed.

(** Every clone program under failing allocations. *)
From Coq Require Import String ZArith NArith Ascii Bool List Lia Permutation.
From Verif Require Import Base Str CloneHeap CloneSpec CloneHeapProofs CloneProps FreeHeap FreeSpec FailClone FailSpec.
Import ListNotations.
Local Open Scope nat_scope.

Definition ctarget (o : cop) : list nat := match o with CDeref _ => [] | CDup _ i | CCopy i | CMem i | CSub i _ _ _ _ | CEach i _ _ _ _ => [i] end.
Definition ctargets (p : list cop) : list nat := flat_map ctarget p.
(** fields the program leaves alone have their initial value *)
Definition cuntouched (fs : list shape) (p : list cop) (ts : list tree) : Prop :=
  forall i k t, nth_error fs i = Some k -> nth_error ts i = Some t -> ~ In i (ctargets p) -> initial k t.
(** so have those of the parts of a structure *)
Fixpoint made_val (o : cop) (t : tree) : Prop :=
  let made := fix made (p : list cop) (us : list tree) : Prop := match p with [] => True | o :: p => (forall i v, In i (ctarget o) -> nth_error us i = Some v -> made_val o v) /\ made p us end in
  match o with
  | CSub _ fs _ p _ => forall us, t = Rec us -> cuntouched fs p us /\ made p us
  | CEach _ fs _ p _ => forall l us, t = Seq l -> In (Rec us) l -> cuntouched fs p us /\ made p us
  | _ => True
  end.
Definition made := fix made (p : list cop) (us : list tree) : Prop := match p with [] => True | o :: p => (forall i v, In i (ctarget o) -> nth_error us i = Some v -> made_val o v) /\ made p us end.
Lemma made_all : forall p us, made p us <-> forall o i v, In o p -> In i (ctarget o) -> nth_error us i = Some v -> made_val o v.
Proof.
  induction p as [|o p IH]; intros us; cbn [made]; [split; [intros _ o i v []|auto]|]. rewrite IH. split.
  - intros [A B] o' i v [<-|I]; [apply A|apply B; exact I].
  - intros A. split; [intros i v; apply A; left; reflexivity|]. intros o' i v I. apply A. right. exact I.
Qed.
Definition clean fs p us := cuntouched fs p us /\ made p us.
(** the free function suits what the clone program can leave behind *)
Definition freeable (fs : list shape) (p : list cop) (fr : list fop) : Prop := forall us, clean fs p us -> destroyed (destroy fr) fs us.
Definition fits_check (fs : list shape) (c : check) : Prop :=
  match c with CNeed i => nth_error fs i = Some KStr | CNeedOne i j => nth_error fs i = Some KStr /\ nth_error fs j = Some KStr | CNeedLen i => nth_error fs i = Some KBuf end.
Fixpoint fits_cop (fs : list shape) (o : cop) : Prop :=
  let fits := fix fits (fs : list shape) (p : list cop) : Prop := match p with [] => True | o :: p => fits_cop fs o /\ fits fs p end in
  match o with
  | CDup _ i => nth_error fs i = Some KStr
  | CMem i => nth_error fs i = Some KBuf
  | CDeref i => exists gs, nth_error fs i = Some (KRec gs)
  | CCopy i => nth_error fs i = Some KInt
  | CSub i gs chk p fr => nth_error fs i = Some (KRec gs) /\ (forall c, In c chk -> fits_check gs c) /\ fits gs p /\ NoDup (ctargets p) /\ freeable gs p fr
  | CEach i gs chk p fr => nth_error fs i = Some (KList gs) /\ (forall c, In c chk -> fits_check gs c) /\ fits gs p /\ NoDup (ctargets p) /\ freeable gs p fr
  end.
Definition cfits := fix fits (fs : list shape) (p : list cop) : Prop := match p with [] => True | o :: p => fits_cop fs o /\ fits fs p end.
(** what is used without a test is not NULL *)
Fixpoint safe_cop (o : cop) (ts : list tree) : Prop :=
  let safe := fix safe (p : list cop) (ts : list tree) : Prop := match p with [] => True | o :: p => safe_cop o ts /\ safe p ts end in
  match o with
  | CDeref i => nth_error ts i <> Some Nul
  | CSub i fs chk p _ => forall us, nth_error ts i = Some (Rec us) -> safe p us
  | CEach i fs chk p _ => forall l us, nth_error ts i = Some (Seq l) -> In (Rec us) l -> safe p us
  | _ => True
  end.
Definition csafe := fix safe (p : list cop) (ts : list tree) : Prop := match p with [] => True | o :: p => safe_cop o ts /\ safe p ts end.
Definition takes (chk : list check) (p : list cop) (us : list tree) : Prop := accepts (map erase_check chk ++ map erase p) us.

Lemma cop_ind' : forall P : cop -> Prop,
  (forall i, P (CDeref i)) -> (forall b i, P (CDup b i)) -> (forall i, P (CCopy i)) -> (forall i, P (CMem i)) ->
  (forall i fs chk p fr, Forall P p -> P (CSub i fs chk p fr)) -> (forall i fs chk p fr, Forall P p -> P (CEach i fs chk p fr)) -> forall o, P o.
Proof.
  intros P H1 H2 H3 H4 H5 H6. fix IH 1. intros [i|b i|i|i|i fs chk p fr|i fs chk p fr]; [apply H1|apply H2|apply H3|apply H4| |].
  - apply H5. induction p as [|o p IHp]; constructor; [apply IH|exact IHp].
  - apply H6. induction p as [|o p IHp]; constructor; [apply IH|exact IHp].
Qed.
Definition init_tree (k : shape) : tree := match k with KStr | KBuf | KRec _ => Nul | KInt => Num 0%Z | KList _ | KStrs => Seq [] end.
Lemma initial_tree : forall k t, initial k t <-> t = init_tree k.
Proof. intros [] t; cbn; tauto. Qed.
Lemma holds_initial : forall h k, holds h k (init_word k) (init_tree k) [].
Proof. intros h k. destruct k; cbn; try constructor; [change 0 with (length (@nil tree))|change 0 with (length (@nil str)); change (@nil tree) with (map Text [])]; constructor; constructor. Qed.
Lemma made_initial : forall fs o i k, fits_cop fs o -> In i (ctarget o) -> nth_error fs i = Some k -> made_val o (init_tree k).
Proof.
  intros fs o i k F I K. destruct o; cbn [ctarget In] in I; try destruct I as [<-|[]]; try contradiction; try exact Logic.I.
  - cbn [fits_cop] in F. destruct F as (F & _). rewrite F in K. injection K as <-. cbn. intros us E. discriminate.
  - cbn [fits_cop] in F. destruct F as (F & _). rewrite F in K. injection K as <-. cbn. intros l us E J. injection E as <-. destruct J.
Qed.
Lemma accepts_app : forall p q us, accepts (p ++ q) us <-> accepts p us /\ accepts q us.
Proof. induction p as [|o p IH]; intros q us; cbn [app accepts]; [tauto|]. rewrite IH. tauto. Qed.

Lemma later_refl : forall malloc m, later malloc m m.
Proof. intros. unfold later. repeat split; lia. Qed.
Lemma ran_out_wide : forall malloc m0 m1 m2 m3, tries m0 <= tries m1 -> tries m2 <= tries m3 -> ran_out malloc m1 m2 -> ran_out malloc m0 m3.
Proof. intros malloc m0 m1 m2 m3 A B (n & h & R & E). exists n, h. split; [lia|exact E]. Qed.
Lemma later_trans : forall malloc m0 m1 m2, later malloc m0 m1 -> later malloc m1 m2 -> later malloc m0 m2.
Proof.
  intros malloc m0 m1 m2 (A1 & A2 & A3) (B1 & B2 & B3). split; [lia|]. split; [lia|]. intros U. destruct (Nat.eq_dec (unseen m0) (unseen m1)) as [E|E].
  - apply (ran_out_wide _ _ m1 m2); [lia|lia|]. apply B3. lia.
  - apply (ran_out_wide _ _ m0 m1); [lia|lia|]. apply A3. lia.
Qed.

Section Fail.
Variable malloc : nat -> heap -> option addr.
Hypothesis ok : sane malloc.

Lemma tick_later : forall m h, later malloc m (tick m h).
Proof. intros. unfold later, tick. cbn. repeat split; lia. Qed.
Lemma same_later : forall m h, later malloc m (mkMem h (tries m) (unseen m)).
Proof. intros. unfold later. cbn. repeat split; lia. Qed.
Lemma overlook_later : forall m, malloc (tries m) (hp m) = None -> later malloc m (overlook m).
Proof. intros m E. unfold later, overlook. cbn. repeat split; try lia. intros _. exists (tries m), (hp m). cbn. split; [lia|exact E]. Qed.
Lemma tick_out : forall m h, malloc (tries m) (hp m) = None -> ran_out malloc m (tick m h).
Proof. intros m h E. exists (tries m), (hp m). cbn. split; [lia|exact E]. Qed.
Lemma store_ok : forall m dst ws i w, hp m dst = Some (BRec ws) -> i < length ws -> store m dst i w = Done (mkMem (put (hp m) dst (BRec (upd i w ws))) (tries m) (unseen m)) tt.
Proof. intros m dst ws i w H L. unfold store. rewrite (set_field_ok _ _ _ _ _ H L). reflexivity. Qed.

(** the tests before the allocation *)
Lemma passes_ok : forall (h : heap) fs a ws ts fp c, h a = Some (BRec ws) -> hfields h fs ws ts fp -> fits_check fs c ->
  exists b, passes h a c = Ok b /\ (b = false -> ~ accepts_op (erase_check c) ts).
Proof.
  intros h fs a ws ts fp c HS HF F. destruct c as [i|i j|i]; cbn [passes fits_check erase_check accepts_op] in *.
  - destruct (fields_nth _ _ _ _ _ _ _ HF F) as (w & t & fp' & E1 & E2 & E3 & E4). rewrite (field_ok _ _ _ _ _ HS E1). cbn [res_bind]. eexists. split; [reflexivity|]. inversion E3; subst; cbn; [auto|discriminate].
  - destruct F as [F G]. destruct (fields_nth _ _ _ _ _ _ _ HF F) as (w & t & fp' & E1 & E2 & E3 & E4). destruct (fields_nth _ _ _ _ _ _ _ HF G) as (v & u & fp2 & G1 & G2 & G3 & G4).
    rewrite (field_ok _ _ _ _ _ HS E1), (field_ok _ _ _ _ _ HS G1). cbn [res_bind]. eexists. split; [reflexivity|]. inversion E3; subst; inversion G3; subst; cbn; try discriminate. intros _ [A|A]; auto.
  - destruct (fields_nth _ _ _ _ _ _ _ HF F) as (w & t & fp' & E1 & E2 & E3 & E4). rewrite (field_ok _ _ _ _ _ HS E1). cbn [res_bind]. inversion E3; subst.
    + exists false. split; [reflexivity|]. intros _ [A _]. auto.
    + destruct s; cbn [length]; eexists; (split; [reflexivity|]); [intros _ [_ A]; auto|discriminate].
Qed.
Lemma pass_all_ok : forall (h : heap) fs a ws ts fp chk, h a = Some (BRec ws) -> hfields h fs ws ts fp -> (forall c, In c chk -> fits_check fs c) ->
  exists b, pass_all h a chk = Ok b /\ (b = false -> ~ accepts (map erase_check chk) ts).
Proof.
  intros h fs a ws ts fp chk HS HF F. induction chk as [|c chk IH]; cbn [pass_all map accepts]; [exists true; split; [reflexivity|discriminate]|].
  destruct (passes_ok h fs a ws ts fp c HS HF (F c (or_introl eq_refl))) as (b & E & N). rewrite E. cbn [res_bind]. destruct b.
  - destruct (IH (fun c I => F c (or_intror I))) as (b & E2 & N2). exists b. split; [exact E2|]. intros B [_ A]. exact (N2 B A).
  - exists false. split; [reflexivity|]. intros B [A _]. exact (N B A).
Qed.

(** the node of a new element: the allocator of [list_add] *)
Definition pick (d : addr) (h : heap) : addr := match h d with None => d | Some _ => next_free h end.
Lemma pick_fresh : forall d (h : heap), h (pick d h) = None.
Proof. intros d h. unfold pick. destruct (h d) eqn:E; [apply next_free_fresh|exact E]. Qed.
Lemma list_add_pick : forall d (h : heap) dst i el, h d = None -> list_add (fun _ => d) h dst i el = list_add (pick d) h dst i el.
Proof. intros d h dst i el E. unfold list_add, alloc, pick. rewrite E. reflexivity. Qed.

Definition reason (m m' : memory) (c : Z) (complete : Prop) : Prop := c = OSIP_NOMEM /\ ran_out malloc m m' \/ c = OSIP_BADPARAMETER /\ ~ complete.
(** [tried], and the copy is clean *)
Definition tried' (clone : memory -> word -> out word) fs p (complete : list tree -> Prop) (m : memory) (w : word) (us : list tree) : Prop :=
  match clone m w with
  | Done m' w' => exists us' fp' lost, holds (hp m') (KRec fs) w' (Rec us') fp' /\ NoDup fp' /\ (forall x, In x fp' \/ In x lost -> hp m x = None) /\
      (forall x, ~ In x fp' -> ~ In x lost -> hp m' x = hp m x) /\ later malloc m m' /\ (unseen m' = unseen m -> lost = [] /\ (clean fs p us -> us' = us)) /\ clean fs p us'
  | Fail m' c => exists lost, (forall x, In x lost -> hp m x = None) /\ (forall x, ~ In x lost -> hp m' x = hp m x) /\ later malloc m m' /\ (unseen m' = unseen m -> lost = []) /\
      reason m m' c (complete us)
  | Bad => False
  end.

(** a list under construction: field [i] of [dst]; [hs] is the heap in which the copying of the list began *)
Definition listed (hs : heap) (m : memory) dst i wsd gs p first done fpd lost : Prop :=
  hp m dst = Some (BRec (upd i (Lst (length done) first) wsd)) /\ hchain (hp m) gs first done fpd /\ NoDup fpd /\ (forall x, In x fpd \/ In x lost -> hs x = None) /\
  (forall x, x <> dst -> ~ In x fpd -> ~ In x lost -> hp m x = hs x) /\ (forall us, In (Rec us) done -> clean gs p us).
Lemma teach_ok : forall cl (complete : list tree -> Prop) (good : list tree -> Prop) p gs dst i wsd (hs : heap),
  (forall (m : memory) a us fp, holds (hp m) (KRec gs) (Ptr a) (Rec us) fp -> good us -> tried' cl gs p complete m (Ptr a) us) -> i < length wsd -> hs dst <> None ->
  forall todo (m : memory) cur fpt first done fpd lost,
  hchain hs gs cur todo fpt -> ~ In dst fpt -> (forall us, In (Rec us) todo -> good us) -> listed hs m dst i wsd gs p first done fpd lost ->
  match teach malloc cl dst i (length todo) cur m with
  | Done m' _ => exists first' done' fp' lost', listed hs m' dst i wsd gs p first' done' fp' lost' /\ later malloc m m' /\
      (unseen m' = unseen m -> lost' = lost /\ ((forall us, In (Rec us) todo -> clean gs p us) -> done' = done ++ todo))
  | Fail m' c => exists first' done' fp' lost', listed hs m' dst i wsd gs p first' done' fp' lost' /\ later malloc m m' /\ (unseen m' = unseen m -> lost' = lost) /\
      reason m m' c (forall us, In (Rec us) todo -> complete us)
  | Bad => False
  end.
Proof.
  intros cl complete good p gs dst i wsd hs CL LI HSD. induction todo as [|t todo IH]; intros m cur fpt first done fpd lost HT DT GD HL.
  - cbn [length teach]. exists first, done, fpd, lost. split; [exact HL|]. split; [apply later_refl|]. intros _. split; [reflexivity|]. rewrite app_nil_r. reflexivity.
  - inversion HT as [|? nd a us next ts fp0 fps E H T]; subst. cbn [length teach]. destruct HL as (HD & HC & ND & NF & FE & CN).
    assert (FR : forall x, x <> dst -> hs x <> None -> hp m x = hs x) by (intros x X U; apply FE; [exact X|intros I; apply U; auto|intros I; apply U; auto]).
    assert (BACK : forall x, hp m x = None -> hs x = None).
    { intros x N. destruct (hs x) eqn:EX; [|reflexivity]. exfalso. destruct (Nat.eq_dec x dst) as [->|X]; [congruence|]. rewrite (FR x X) in N by congruence. congruence. }
    assert (dst <> nd) as DN by (intros <-; apply DT; left; reflexivity).
    assert (hp m nd = Some (BNode (Ptr a) next)) as EN by (rewrite FR; congruence). unfold node at 1. rewrite EN.
    assert (holds (hp m) (KRec gs) (Ptr a) (Rec us) fp0) as HE.
    { apply (frame hs); [exact H|]. intros x I. apply FR; [|exact (used _ _ _ _ _ _ H I)]. intros ->. apply DT. right. apply in_or_app. auto. }
    pose proof (CL m a us fp0 HE (GD us (or_introl eq_refl))) as TR. unfold tried' in TR. destruct (cl m (Ptr a)) as [m1 w1|m1 c|] eqn:EC; [| |exact TR].
    + destruct TR as (us1 & fp1 & lost1 & C1 & C2 & C3 & C4 & C5 & C6 & C7).
      assert (C8 : forall x, hp m x <> None -> hp m1 x = hp m x) by (intros x U; apply C4; intros I; apply U; auto).
      inversion C1 as [| | | | | |? d ws1 ? fp1' EB HF| |]; subst. cbn [tadd]. unfold tadd.
      assert (hp m1 dst = Some (BRec (upd i (Lst (length done) first) wsd))) as D1 by (rewrite C8; congruence).
      assert (hchain (hp m1) gs first done fpd) as HC1 by (apply (frame_chain (hp m)); [exact HC|]; intros x I; apply C8; exact (used_chain _ _ _ _ _ _ HC I)).
      assert (FR1 : forall x, x <> dst -> hs x <> None -> hp m1 x = hs x) by (intros x X U; rewrite C8; [apply FR; assumption|rewrite FR; assumption]).
      destruct (malloc (tries m1) (hp m1)) as [d2|] eqn:EM.
      * pose proof (ok _ _ _ EM) as F2. rewrite (list_add_pick d2 _ _ _ _ F2).
        destruct (list_add_ok (pick d2) (pick_fresh d2) (hp m1) dst i (upd i (Lst (length done) first) wsd) gs first done fpd d us1 (d :: fp1')) as (h2 & first2 & fp2 & A1 & A2 & A3 & A4 & A5 & A6 & A7 & A8 & A9); auto.
        { apply upd_same. exact LI. }
        { intros I. pose proof (C3 _ (or_introl I)). congruence. }
        { intros x I J. exact (used_chain _ _ _ _ _ _ HC J (C3 _ (or_introl I))). }
        rewrite A1. rewrite upd_twice in A2.
        assert (FR2 : forall x, x <> dst -> hs x <> None -> h2 x = hs x).
        { intros x X U. rewrite A7; [apply FR1; assumption|exact X|intros I; exact (U (NF _ (or_introl I)))|rewrite FR1; assumption]. }
        unfold node at 1. cbn [hp tick]. rewrite (FR2 nd) by congruence. rewrite E.
        assert (LS : listed hs (tick m1 h2) dst i wsd gs p first2 (done ++ [Rec us1]) fp2 (lost1 ++ lost)).
        { split; [cbn [hp tick]; rewrite app_length; cbn [length]; rewrite Nat.add_1_r; exact A2|]. split; [exact A3|]. split; [exact A4|]. split; [|split].
          - intros x [I|I].
            + destruct (A5 x I) as [J|[J|J]]; [apply NF; auto|apply BACK; apply C3; auto|]. destruct (hs x) eqn:EX; [|reflexivity]. exfalso.
              destruct (Nat.eq_dec x dst) as [->|X]; [contradiction|]. rewrite (FR1 x X) in J by congruence. congruence.
            + apply in_app_or in I. destruct I as [I|I]; [apply BACK; apply C3; auto|apply NF; auto].
          - cbn [hp tick]. intros x X N1 N2. rewrite A9 by assumption. rewrite C4; [|intros J; apply N1; apply A8; auto|intros J; apply N2; apply in_or_app; auto].
            apply FE; [exact X|intros J; apply N1; apply A8; auto|intros J; apply N2; apply in_or_app; auto].
          - intros vs I. apply in_app_or in I. destruct I as [I|[I|[]]]; [apply CN; exact I|]. injection I as <-. exact C7. }
        pose proof (IH (tick m1 h2) next fps first2 (done ++ [Rec us1]) fp2 (lost1 ++ lost) T ltac:(intros I; apply DT; right; apply in_or_app; auto) ltac:(intros vs I; apply GD; right; exact I) LS) as R.
        assert (LT : later malloc m (tick m1 h2)) by (eapply later_trans; [exact C5|apply tick_later]).
        destruct (teach malloc cl dst i (length todo) next (tick m1 h2)) as [m' u|m' c|]; [| |exact R].
        { destruct R as (first' & done' & fp' & lost' & R1 & R2 & R3). exists first', done', fp', lost'. split; [exact R1|]. split; [eapply later_trans; eassumption|]. intros U.
          assert (unseen m1 = unseen m /\ unseen m' = unseen (tick m1 h2)) as [U1 U2]. { destruct LT as (_ & L2 & _). destruct R2 as (_ & L3 & _). destruct C5 as (_ & L4 & _). cbn in *. lia. }
          destruct (C6 U1) as [-> C6']. destruct (R3 U2) as [-> R3']. split; [reflexivity|]. intros AC. rewrite R3' by (intros vs I; apply AC; right; exact I).
          rewrite C6' by (apply AC; left; reflexivity). rewrite <- app_assoc. reflexivity. }
        { destruct R as (first' & done' & fp' & lost' & R1 & R2 & R3 & R4). exists first', done', fp', lost'. split; [exact R1|]. split; [eapply later_trans; eassumption|]. split.
          - intros U. assert (unseen m1 = unseen m /\ unseen m' = unseen (tick m1 h2)) as [U1 U2]. { destruct LT as (_ & L2 & _). destruct R2 as (_ & L3 & _). destruct C5 as (_ & L4 & _). cbn in *. lia. }
            destruct (C6 U1) as [-> _]. rewrite (R3 U2). reflexivity.
          - destruct R4 as [[-> R4]|[-> R4]]; [left; split; [reflexivity|]; apply (ran_out_wide _ _ (tick m1 h2) m'); auto; apply LT|right; split; [reflexivity|]]. intros A. apply R4. intros vs I. apply A. right. exact I. }
      * unfold node at 1. cbn [hp overlook]. rewrite (FR1 nd) by congruence. rewrite E.
        assert (LS : listed hs (overlook m1) dst i wsd gs p first done fpd ((d :: fp1') ++ lost1 ++ lost)).
        { split; [exact D1|]. split; [exact HC1|]. split; [exact ND|]. split; [|split].
          - intros x [I|I]; [apply NF; auto|]. apply in_app_or in I. destruct I as [I|I]; [apply BACK; apply C3; auto|]. apply in_app_or in I. destruct I as [I|I]; [apply BACK; apply C3; auto|apply NF; auto].
          - cbn [hp overlook]. intros x X N1 N2. rewrite C4; [|intros J; apply N2; apply in_or_app; auto|intros J; apply N2; apply in_or_app; right; apply in_or_app; auto].
            apply FE; [exact X|exact N1|intros J; apply N2; apply in_or_app; right; apply in_or_app; auto].
          - exact CN. }
        pose proof (IH (overlook m1) next fps first done fpd _ T ltac:(intros I; apply DT; right; apply in_or_app; auto) ltac:(intros vs I; apply GD; right; exact I) LS) as R.
        assert (LT : later malloc m (overlook m1)) by (eapply later_trans; [exact C5|apply overlook_later; exact EM]).
        destruct (teach malloc cl dst i (length todo) next (overlook m1)) as [m' u|m' c|]; [| |exact R].
        { destruct R as (first' & done' & fp' & lost' & R1 & R2 & R3). exists first', done', fp', lost'. split; [exact R1|]. split; [eapply later_trans; eassumption|]. intros U. exfalso.
          destruct R2 as (_ & L3 & _). destruct C5 as (_ & L4 & _). cbn in *. lia. }
        { destruct R as (first' & done' & fp' & lost' & R1 & R2 & R3 & R4). exists first', done', fp', lost'. split; [exact R1|]. split; [eapply later_trans; eassumption|]. split.
          - intros U. exfalso. destruct R2 as (_ & L3 & _). destruct C5 as (_ & L4 & _). cbn in *. lia.
          - destruct R4 as [[-> R4]|[-> R4]]; [left; split; [reflexivity|]; apply (ran_out_wide _ _ (overlook m1) m'); auto; apply LT|right; split; [reflexivity|]]. intros A. apply R4. intros vs I. apply A. right. exact I. }
    + destruct TR as (lost1 & C1 & C2 & C3 & C4 & C5). exists first, done, fpd, (lost1 ++ lost). split; [|split; [exact C3|split]].
      * assert (C8 : forall x, hp m x <> None -> hp m1 x = hp m x) by (intros x U; apply C2; intros I; apply U; auto).
        split; [rewrite C8; congruence|]. split; [apply (frame_chain (hp m)); [exact HC|]; intros x I; apply C8; exact (used_chain _ _ _ _ _ _ HC I)|]. split; [exact ND|]. split; [|split; [|exact CN]].
        { intros x [I|I]; [apply NF; auto|]. apply in_app_or in I. destruct I as [I|I]; [apply BACK; apply C1; auto|apply NF; auto]. }
        { intros x X N1 N2. rewrite C2; [|intros J; apply N2; apply in_or_app; auto]. apply FE; [exact X|exact N1|intros J; apply N2; apply in_or_app; auto]. }
      * intros U. rewrite (C4 U). reflexivity.
      * destruct C5 as [[-> R4]|[-> R4]]; [left; auto|right; split; [reflexivity|]]. intros A. apply R4. apply A. left. reflexivity.
Qed.

(** a step that fills field [i] *)
Definition landed (fs : list shape) (o : cop) dst wsd i (m m' : memory) (equal : tree -> Prop) : Prop :=
  exists w t k fp' lost, nth_error fs i = Some k /\ hp m' dst = Some (BRec (upd i w wsd)) /\ holds (hp m') k w t fp' /\ NoDup fp' /\ (forall x, In x fp' \/ In x lost -> hp m x = None) /\
    (forall x, x <> dst -> ~ In x fp' -> ~ In x lost -> hp m' x = hp m x) /\ later malloc m m' /\ made_val o t /\ (unseen m' = unseen m -> lost = [] /\ equal t).
Definition cop_spec (o : cop) : Prop := forall fs src dst (m : memory) ws ts wsd fp,
  fits_cop fs o -> hp m src = Some (BRec ws) -> hfields (hp m) fs ws ts fp -> safe_cop o ts -> hp m dst = Some (BRec wsd) -> length wsd = length fs -> ~ In dst fp ->
  match ctarget o with
  | i :: _ => nth_error wsd i = nth_error (map init_word fs) i ->
      match cstep malloc o src dst m with
      | Done m' _ => landed fs o dst wsd i m m' (fun t => forall t0, nth_error ts i = Some t0 -> made_val o t0 -> t = t0)
      | Fail m' c => landed fs o dst wsd i m m' (fun _ => True) /\ reason m m' c (accepts_op (erase o) ts)
      | Bad => False
      end
  | [] => cstep malloc o src dst m = Done m tt
  end.

Record going (m0 m : memory) (dst : addr) (fs : list shape) (us : list tree) (wsd : list word) (fps : list (list addr)) (lost : list addr) (q : list cop) : Prop := {
  g_lw : length wsd = length fs; g_lf : length fps = length fs; g_lu : length us = length fs;
  g_dst : hp m dst = Some (BRec wsd); g_new : hp m0 dst = None;
  g_else : forall x, x <> dst -> ~ In x (concat fps) -> ~ In x lost -> hp m x = hp m0 x;
  g_fields : forall i k, nth_error fs i = Some k -> exists w t fp, nth_error wsd i = Some w /\ nth_error us i = Some t /\ nth_error fps i = Some fp /\ holds (hp m) k w t fp /\
     (~ In i (ctargets q) -> w = init_word k /\ t = init_tree k /\ fp = []);
  g_nodup : NoDup (concat fps);
  g_fresh : forall x, In x (concat fps) -> hp m0 x = None /\ x <> dst /\ hp m x <> None;
  g_lost : forall x, In x lost -> hp m0 x = None;
  g_later : later malloc m0 m;
  g_made : made q us }.
Definition kept (ts us : list tree) (q : list cop) : Prop := forall o i t, In o q -> In i (ctarget o) -> nth_error ts i = Some t -> made_val o t -> nth_error us i = Some t.

Lemma going_keeps : forall m0 m dst fs us wsd fps lost q x, going m0 m dst fs us wsd fps lost q -> hp m0 x <> None -> hp m x = hp m0 x.
Proof. intros m0 m dst fs us wsd fps lost q x G U. apply (g_else _ _ _ _ _ _ _ _ _ G); [intros ->; apply U; apply (g_new _ _ _ _ _ _ _ _ _ G)|intros I; apply U; apply (g_fresh _ _ _ _ _ _ _ _ _ G x I)|intros I; apply U; exact (g_lost _ _ _ _ _ _ _ _ _ G x I)]. Qed.
Lemma ctargets_app : forall p q, ctargets (p ++ q) = ctargets p ++ ctargets q.
Proof. intros. apply flat_map_app. Qed.
Lemma in_ctargets : forall p i, In i (ctargets p) <-> exists o, In o p /\ In i (ctarget o).
Proof. intros. apply in_flat_map. Qed.
Lemma target_kind : forall fs o i, fits_cop fs o -> In i (ctarget o) -> exists k, nth_error fs i = Some k.
Proof. intros fs o i F I. destruct o; cbn [ctarget In] in I; try destruct I as [<-|[]]; try contradiction; cbn [fits_cop] in F; try (eexists; exact F); destruct F as (F & _); eexists; exact F. Qed.

Lemma going_land : forall m0 m m' dst fs us wsd fps lost q o i equal, going m0 m dst fs us wsd fps lost q -> In i (ctarget o) -> ctarget o = [i] -> ~ In i (ctargets q) ->
  landed fs o dst wsd i m m' equal ->
  exists t w fp' lost', going m0 m' dst fs (upd i t us) (upd i w wsd) (upd i fp' fps) (lost' ++ lost) (q ++ [o]) /\ (unseen m' = unseen m -> lost' = [] /\ equal t) /\ later malloc m m'.
Proof.
  intros m0 m m' dst fs us wsd fps lost q o i equal G IO TO NI (w & t & k & fp' & lost' & L1 & L2 & L3 & L4 & L5 & L6 & L7 & L8 & L9).
  pose proof (fun x => going_keeps _ _ _ _ _ _ _ _ _ x G) as KP. destruct G as [B1 B2 B0 B3 B4 B9 B6 B7 B8 BL BT BM].
  exists t, w, fp', lost'. split; [|split; [exact L9|exact L7]].
  destruct (B6 i k L1) as (w0 & t0 & fp0 & W1 & W2 & W3 & W4 & W5). destruct (W5 NI) as (-> & -> & ->).
  assert (i < length wsd) as LI by (apply nth_error_Some; congruence). assert (i < length fps) as LF by (rewrite B2, <- B1; exact LI). assert (i < length us) as LU by (rewrite B0, <- B1; exact LI).
  assert (forall x, x <> dst -> hp m x <> None -> hp m' x = hp m x) as O8 by (intros x X U; apply L6; [exact X|intros I; apply U; auto|intros I; apply U; auto]).
  pose proof (concat_upd _ i fp' fps W3) as PM.
  assert (forall x, In x (concat fps) -> hp m' x = hp m x) as KEEP by (intros x I; destruct (B8 x I) as (_ & X & U); apply O8; auto).
  assert (BACK : forall x, hp m x = None -> hp m0 x = None) by (intros x N; destruct (hp m0 x) eqn:EX; [|reflexivity]; rewrite KP in N by congruence; congruence).
  constructor; auto; try (rewrite upd_length; assumption).
  - intros x X NX NL. assert (~ In x (fp' ++ concat fps)) as NJ by (intros J; apply NX; apply (Permutation_in _ (Permutation_sym PM)); exact J).
    rewrite L6; [|exact X|intros J; apply NJ; apply in_or_app; auto|intros J; apply NL; apply in_or_app; auto]. apply B9; [exact X| |]; [intros J; apply NJ|intros J; apply NL]; apply in_or_app; auto.
  - intros j kj KJ. destruct (Nat.eq_dec j i) as [->|NE].
    + exists w, t, fp'. rewrite !upd_same by assumption. do 3 (split; [reflexivity|]). split; [congruence|]. intros N. exfalso. apply N. rewrite ctargets_app. apply in_or_app. right. cbn. rewrite app_nil_r. exact IO.
    + destruct (B6 j kj KJ) as (wj & tj & fpj & J1 & J2 & J3 & J4 & J5). exists wj, tj, fpj. rewrite !upd_other by assumption. do 3 (split; [assumption|]). split.
      * apply (frame (hp m)); [exact J4|]. intros x X. apply KEEP. apply in_concat. exists fpj. split; [apply nth_error_In with j; exact J3|exact X].
      * intros N. apply J5. intros I. apply N. rewrite ctargets_app. apply in_or_app. auto.
  - apply (Permutation_NoDup (Permutation_sym PM)). apply nodup_app; auto. intros x I J. destruct (B8 x J) as (_ & _ & U). exact (U (L5 x (or_introl I))).
  - intros x I. apply (Permutation_in _ PM) in I. apply in_app_or in I. destruct I as [I|I].
    + assert (hp m x = None) as HX by auto. split; [auto|split; [congruence|exact (used _ _ _ _ _ _ L3 I)]].
    + destruct (B8 x I) as (X1 & X2 & X3). split; [exact X1|]. split; [exact X2|]. rewrite KEEP; auto.
  - intros x I. apply in_app_or in I. destruct I as [I|I]; auto.
  - eapply later_trans; eassumption.
  - apply made_all. intros o' j v I J E. apply in_app_or in I. destruct I as [I|[<-|[]]].
    + rewrite upd_other in E; [apply (proj1 (made_all q us) BM o' j v I J E)|]. intros ->. apply NI. apply in_ctargets. eauto.
    + rewrite TO in J. destruct J as [<-|[]]. rewrite upd_same in E by assumption. congruence.
Qed.

Lemma cruns_ok : forall fs src ws ts fp (m0 : memory) dst p, Forall cop_spec p -> cfits fs p -> csafe p ts -> hp m0 src = Some (BRec ws) -> hfields (hp m0) fs ws ts fp ->
  forall (m : memory) us wsd fps lost q, going m0 m dst fs us wsd fps lost q -> NoDup (ctargets (q ++ p)) ->
  match cruns malloc p src dst m with
  | Done m' _ => exists us' wsd' fps' lost', going m0 m' dst fs us' wsd' fps' lost' (q ++ p) /\ later malloc m m' /\ (unseen m' = unseen m -> lost' = lost /\ (kept ts us q -> kept ts us' (q ++ p)))
  | Fail m' c => exists us' wsd' fps' lost' q' r, going m0 m' dst fs us' wsd' fps' lost' q' /\ q ++ p = q' ++ r /\ later malloc m m' /\ (unseen m' = unseen m -> lost' = lost) /\
      reason m m' c (accepts (map erase p) ts)
  | Bad => False
  end.
Proof.
  intros fs src ws ts fp m0 dst p. induction p as [|o p IH]; intros FS FT SF HS HF m us wsd fps lost q G ND.
  - cbn [cruns]. exists us, wsd, fps, lost. rewrite app_nil_r. split; [exact G|]. split; [apply later_refl|auto].
  - inversion FS as [|? ? O FS']; subst. destruct FT as [FT1 FT2]. destruct SF as [SF1 SF2]. cbn [cruns].
    pose proof (fun x => going_keeps _ _ _ _ _ _ _ _ _ x G) as KP.
    assert (hp m src = Some (BRec ws)) as HS' by (rewrite KP; congruence).
    assert (hfields (hp m) fs ws ts fp) as HF' by (apply (frame_fields (hp m0)); [exact HF|]; intros x I; apply KP; exact (used_fields _ _ _ _ _ _ HF I)).
    assert (~ In dst fp) as ND0 by (intros I; exact (used_fields _ _ _ _ _ _ HF I (g_new _ _ _ _ _ _ _ _ _ G))).
    specialize (O fs src dst m ws ts wsd fp FT1 HS' HF' SF1 (g_dst _ _ _ _ _ _ _ _ _ G) (g_lw _ _ _ _ _ _ _ _ _ G) ND0).
    replace (q ++ o :: p) with ((q ++ [o]) ++ p) in ND |- * by (rewrite <- app_assoc; reflexivity).
    destruct (ctarget o) as [|i tl] eqn:TG.
    + rewrite O. assert (G' : going m0 m dst fs us wsd fps lost (q ++ [o])).
      { assert (CE : ctargets (q ++ [o]) = ctargets q) by (rewrite ctargets_app; cbn; rewrite TG; apply app_nil_r). destruct G. constructor; rewrite ?CE; auto. apply made_all. intros o' j v I J E. apply in_app_or in I.
        destruct I as [I|[<-|[]]]; [exact (proj1 (made_all q us) g_made0 o' j v I J E)|rewrite TG in J; destruct J]. }
      pose proof (IH FS' FT2 SF2 HS HF m us wsd fps lost (q ++ [o]) G' ND) as R. destruct (cruns malloc p src dst m) as [m' u|m' c|]; [| |exact R].
      * destruct R as (us' & wsd' & fps' & lost' & R1 & R2 & R3). exists us', wsd', fps', lost'. split; [exact R1|]. split; [exact R2|]. intros U. destruct (R3 U) as [R4 R5]. split; [exact R4|]. intros K. apply R5.
        intros o' j t I J. apply in_app_or in I. destruct I as [I|[<-|[]]]; [apply K; assumption|rewrite TG in J; destruct J].
      * destruct R as (us' & wsd' & fps' & lost' & q' & r & R1 & R2 & R3 & R4 & R5). exists us', wsd', fps', lost', q', r. do 4 (split; [assumption|]).
        destruct R5 as [[-> R5]|[-> R5]]; [left; auto|right; split; [reflexivity|]]. intros [_ A]. exact (R5 A).
    + assert (tl = []) as -> by (destruct o; cbn in TG; congruence).
      assert (~ In i (ctargets q)) as NI. { rewrite <- app_assoc, ctargets_app in ND. cbn [app ctargets flat_map] in ND. rewrite TG in ND. cbn [app] in ND. apply NoDup_remove_2 in ND. intros I. apply ND. apply in_or_app. auto. }
      assert (IO : In i (ctarget o)) by (rewrite TG; left; reflexivity). destruct (target_kind fs o i FT1 IO) as [k0 K0].
      assert (W0 : nth_error wsd i = nth_error (map init_word fs) i).
      { destruct (g_fields _ _ _ _ _ _ _ _ _ G i k0 K0) as (w & t & fp1 & W1 & W2 & W3 & W4 & W5). destruct (W5 NI) as (-> & _ & _). rewrite W1. symmetry. apply map_nth_error. exact K0. }
      specialize (O W0). destruct (cstep malloc o src dst m) as [m1 u|m1 c|]; [| |exact O].
      * destruct (going_land _ _ _ _ _ _ _ _ _ _ _ _ _ G IO TG NI O) as (t & w & fp' & lost1 & G' & EQ & LT).
        pose proof (IH FS' FT2 SF2 HS HF m1 _ _ _ _ (q ++ [o]) G' ND) as R. destruct (cruns malloc p src dst m1) as [m' u'|m' c|]; [| |exact R].
        { destruct R as (us' & wsd' & fps' & lost' & R1 & R2 & R3). exists us', wsd', fps', lost'. split; [exact R1|]. split; [eapply later_trans; eassumption|]. intros U.
          assert (unseen m1 = unseen m /\ unseen m' = unseen m1) as [U1 U2] by (destruct LT as (_ & A & _); destruct R2 as (_ & B & _); lia).
          destruct (EQ U1) as [-> EQ']. destruct (R3 U2) as [R4 R5]. split; [exact R4|]. intros K. apply R5. intros o' j t' I J T' M'. apply in_app_or in I. destruct I as [I|[<-|[]]].
          - rewrite upd_other; [apply (K o' j t'); assumption|]. intros ->. apply NI. apply in_ctargets. eauto.
          - rewrite TG in J. destruct J as [<-|[]]. rewrite upd_same; [f_equal; apply EQ'; assumption|]. rewrite (g_lu _ _ _ _ _ _ _ _ _ G). apply nth_error_Some. congruence. }
        { destruct R as (us' & wsd' & fps' & lost' & q' & r & R1 & R2 & R3 & R4 & R5). exists us', wsd', fps', lost', q', r. split; [exact R1|]. split; [exact R2|]. split; [eapply later_trans; eassumption|]. split.
          - intros U. assert (unseen m1 = unseen m /\ unseen m' = unseen m1) as [U1 U2] by (destruct LT as (_ & A & _); destruct R3 as (_ & B & _); lia). destruct (EQ U1) as [-> _]. rewrite (R4 U2). reflexivity.
          - destruct R5 as [[-> R5]|[-> R5]]; [left; split; [reflexivity|]; apply (ran_out_wide _ _ m1 m'); auto; apply LT|right; split; [reflexivity|]]. intros [_ A]. exact (R5 A). }
      * destruct O as [O RS]. destruct (going_land _ _ _ _ _ _ _ _ _ _ _ _ _ G IO TG NI O) as (t & w & fp' & lost1 & G' & EQ & LT).
        exists (upd i t us), (upd i w wsd), (upd i fp' fps), (lost1 ++ lost), (q ++ [o]), p. split; [exact G'|]. split; [reflexivity|]. split; [exact LT|]. split; [intros U; destruct (EQ U) as [-> _]; reflexivity|].
        destruct RS as [RS|[-> RS]]; [left; exact RS|right; split; [reflexivity|]]. intros [A _]. exact (RS A).
Qed.

Lemma nth_error_same : forall A (l m : list A), (forall i, nth_error l i = nth_error m i) -> l = m.
Proof. intros A l. induction l as [|x l IH]; intros [|y m] E; auto; [specialize (E 0); discriminate|specialize (E 0); discriminate|]. pose proof (E 0) as E0. cbn in E0. f_equal; [congruence|]. apply IH. intros i. exact (E (S i)). Qed.
Lemma cfits_in : forall fs p o, cfits fs p -> In o p -> fits_cop fs o.
Proof. intros fs p o. induction p as [|x p IH]; intros F []; cbn [cfits] in F; destruct F as [F1 F2]; [congruence|auto]. Qed.
Lemma going_clean : forall m0 m dst fs us wsd fps lost p q r, cfits fs p -> NoDup (ctargets p) -> p = q ++ r -> going m0 m dst fs us wsd fps lost q -> clean fs p us.
Proof.
  intros m0 m dst fs us wsd fps lost p q r FT ND -> G. split.
  - intros i k t K T N. destruct (g_fields _ _ _ _ _ _ _ _ _ G i k K) as (w & t' & fp & W1 & W2 & W3 & W4 & W5). apply initial_tree. assert (t = t') as -> by congruence. apply W5. intros I. apply N. rewrite ctargets_app. apply in_or_app. auto.
  - apply made_all. intros o i v I J E. apply in_app_or in I. destruct I as [I|I]; [exact (proj1 (made_all q us) (g_made _ _ _ _ _ _ _ _ _ G) o i v I J E)|].
    pose proof (cfits_in _ _ o FT ltac:(apply in_or_app; auto)) as FO. destruct (target_kind fs o i FO J) as [k K]. destruct (g_fields _ _ _ _ _ _ _ _ _ G i k K) as (w & t' & fp & W1 & W2 & W3 & W4 & W5).
    destruct W5 as (_ & -> & _); [|assert (v = init_tree k) as -> by congruence; exact (made_initial fs o i k FO J K)]. intros Q. rewrite ctargets_app in ND. assert (In i (ctargets r)) as Q2 by (apply in_ctargets; eauto). clear - ND Q Q2.
    induction (ctargets q) as [|x l IH]; [destruct Q|]. cbn in ND. inversion ND; subst. destruct Q as [->|Q]; [apply H1; apply in_or_app; auto|auto].
Qed.
Lemma going_holds : forall m0 m dst fs us wsd fps lost q, going m0 m dst fs us wsd fps lost q -> holds (hp m) (KRec fs) (Ptr dst) (Rec us) (dst :: concat fps) /\ NoDup (dst :: concat fps).
Proof.
  intros m0 m dst fs us wsd fps lost q [B1 B2 B0 B3 B4 B9 B6 B7 B8 BL BT BM]. split.
  - econstructor; [exact B3|]. apply fields_build; auto. intros i k K. destruct (B6 i k K) as (w & t & fp & W1 & W2 & W3 & W4 & W5). exists w, t, fp. auto.
  - constructor; [|exact B7]. intros I. destruct (B8 dst I) as (_ & X & _). congruence.
Qed.

Lemma tclone_ok : forall chk p fs fr, Forall cop_spec p -> (forall c, In c chk -> fits_check fs c) -> cfits fs p -> NoDup (ctargets p) -> freeable fs p fr ->
  forall (m : memory) a us fp, holds (hp m) (KRec fs) (Ptr a) (Rec us) fp -> csafe p us -> tried' (tclone_with malloc chk (cruns malloc p) fs fr) fs p (takes chk p) m (Ptr a) us.
Proof.
  intros chk p fs fr FS FC FT ND FF m a us fp H SF. inversion H as [| | | | | |? ? ws ? fp0 E HF| |]; subst. unfold tried', tclone_with.
  destruct (pass_all_ok (hp m) fs a ws us fp0 chk E HF FC) as (b & EP & NP). rewrite EP. destruct b.
  2:{ exists []. repeat split; auto; [intros x []|lia|]. right. split; [reflexivity|]. intros A. apply accepts_app in A. exact (NP eq_refl (proj1 A)). }
  destruct (malloc (tries m) (hp m)) as [d|] eqn:EM.
  2:{ exists []. split; [intros x []|]. split; [auto|]. split; [apply tick_later|]. split; [auto|]. left. split; [reflexivity|]. apply tick_out. exact EM. }
  pose proof (ok _ _ _ EM) as FD. set (h1 := put (hp m) d (BRec (map init_word fs))). assert (a <> d) as AD by congruence. destruct (fields_length _ _ _ _ _ HF) as [LW LT].
  assert (G : going m (tick m h1) d fs (map init_tree fs) (map init_word fs) (map (fun _ => []) fs) [] []).
  { assert (concat (map (fun _ : shape => @nil addr) fs) = []) as CN by (clear; induction fs; auto). constructor; auto; rewrite ?map_length, ?CN; auto.
    - cbn. apply put_same. - intros x X _ _. cbn. apply put_other. exact X.
    - intros i k K. exists (init_word k), (init_tree k), []. split; [apply map_nth_error; exact K|]. split; [apply map_nth_error; exact K|]. split; [rewrite (map_nth_error _ _ _ K); reflexivity|]. split; [apply holds_initial|auto].
    - constructor. - intros x []. - intros x []. - apply tick_later. - exact I. }
  pose proof (cruns_ok fs a ws us fp0 m d p FS FT SF E HF (tick m h1) _ _ _ _ [] G ND) as R. cbn [app] in R.
  destruct (cruns malloc p a d (tick m h1)) as [m' u|m' c|]; [| |exact R].
  - destruct R as (us' & wsd & fps & lost & G' & R2 & R3). destruct (going_holds _ _ _ _ _ _ _ _ _ G') as [HH NN]. pose proof (going_clean _ _ _ _ _ _ _ _ p p [] FT ND (eq_sym (app_nil_r p)) G') as CL.
    exists us', (d :: concat fps), lost. split; [exact HH|]. split; [exact NN|]. split; [|split; [|split; [exact (g_later _ _ _ _ _ _ _ _ _ G')|split; [|exact CL]]]].
    + intros x [[<-|I]|I]; [exact FD|apply (g_fresh _ _ _ _ _ _ _ _ _ G'); exact I|exact (g_lost _ _ _ _ _ _ _ _ _ G' x I)].
    + intros x N1 N2. apply (g_else _ _ _ _ _ _ _ _ _ G'); [intros ->; apply N1; left; reflexivity|intros J; apply N1; right; exact J|exact N2].
    + intros U. destruct (R3 U) as [-> K]. split; [reflexivity|]. intros [CU CM]. specialize (K ltac:(intros o i t [])).
      apply nth_error_same. intros i. destruct (nth_error fs i) as [k|] eqn:K0.
      * destruct (g_fields _ _ _ _ _ _ _ _ _ G' i k K0) as (w & t & fpi & W1 & W2 & W3 & W4 & W5). assert (exists t0, nth_error us i = Some t0) as [t0 T0].
        { destruct (nth_error us i) eqn:EU; [eexists; reflexivity|]. apply nth_error_None in EU. assert (i < length fs) by (apply nth_error_Some; congruence). lia. }
        rewrite T0. destruct (in_dec Nat.eq_dec i (ctargets p)) as [J|J].
        { apply in_ctargets in J. destruct J as (o & O1 & O2). apply (K o i t0 O1 O2 T0). exact (proj1 (made_all p us) CM o i t0 O1 O2 T0). }
        { destruct (W5 J) as (_ & -> & _). pose proof (CU i k t0 K0 T0 J) as IN. apply initial_tree in IN. congruence. }
      * apply nth_error_None in K0. rewrite (proj2 (nth_error_None us' i)) by (rewrite (g_lu _ _ _ _ _ _ _ _ _ G'); exact K0). symmetry. apply nth_error_None. lia.
  - destruct R as (us' & wsd & fps & lost & q' & r & G' & PQ & R2 & R3 & R4). destruct (going_holds _ _ _ _ _ _ _ _ _ G') as [HH NN]. pose proof (going_clean _ _ _ _ _ _ _ _ p q' r FT ND PQ G') as CL.
    destruct (FF us' CL (hp m') d _ HH NN) as (h' & DE & F1 & F2). rewrite DE. exists lost. split; [exact (g_lost _ _ _ _ _ _ _ _ _ G')|]. split; [|split; [|split]].
    + cbn [hp]. intros x NL. destruct (in_dec Nat.eq_dec x (d :: concat fps)) as [J|J].
      * rewrite (F1 x J). symmetry. destruct J as [<-|J]; [exact FD|apply (g_fresh _ _ _ _ _ _ _ _ _ G'); exact J].
      * rewrite (F2 x J). apply (g_else _ _ _ _ _ _ _ _ _ G'); [intros ->; apply J; left; reflexivity|intros K; apply J; right; exact K|exact NL].
    + eapply later_trans; [exact (g_later _ _ _ _ _ _ _ _ _ G')|apply same_later].
    + cbn [unseen]. exact R3.
    + destruct R4 as [[-> R4]|[-> R4]]; [left; split; [reflexivity|]|right; split; [reflexivity|]].
      * destruct R4 as (n & h & R & EN). exists n, h. cbn in *. split; [lia|exact EN].
      * intros A. apply accepts_app in A. exact (R4 (proj2 A)).
Qed.

Lemma cop_ok : forall o, cop_spec o.
Proof.
  induction o using cop_ind'; unfold cop_spec; cbn [ctarget fits_cop safe_cop]; intros fs0 src dst m ws ts wsd fp FT HS HF SF HD LN DF.
  - destruct FT as [gs FT]. destruct (fields_nth _ _ _ _ _ _ _ HF FT) as (w & t & fp' & E1 & E2 & E3 & E4). cbn [cstep]. rewrite (field_ok _ _ _ _ _ HS E1). inversion E3; subst; cbn [is_null]; try reflexivity; exfalso; apply SF; exact E2.
  - intros IN. destruct (fields_nth _ _ _ _ _ _ _ HF FT) as (w & t & fp' & E1 & E2 & E3 & E4). cbn [cstep]. rewrite (field_ok _ _ _ _ _ HS E1).
    assert (i < length wsd) as LI by (rewrite LN; apply nth_error_Some; congruence). rewrite (map_nth_error _ _ _ FT) in IN. cbn in IN.
    inversion E3 as [|a s EA EC| | | | | | |]; subst.
    + rewrite (store_ok _ _ _ _ _ HD LI). exists Null, Nul, KStr, [], []. cbn [hp unseen]. rewrite put_same. split; [exact FT|]. split; [reflexivity|]. split; [constructor|]. split; [constructor|]. split; [intros x [[]|[]]|]. split; [intros x X _ _; apply put_other; exact X|]. split; [apply same_later|]. split; [exact I|]. intros _. split; [reflexivity|]. intros t0 T0 _. congruence.
    + unfold text. rewrite EA. destruct (malloc (tries m) (hp m)) as [d|] eqn:EM.
      * pose proof (ok _ _ _ EM) as FD. assert (dst <> d) as DD by congruence. rewrite (store_ok _ dst wsd); [|cbn; rewrite put_other; auto|exact LI].
        rewrite EC. exists (Ptr d), (Text s), KStr, [d], []. cbn [hp unseen tick tries]. rewrite put_same. split; [exact FT|]. split; [reflexivity|]. split; [constructor; auto; rewrite put_other, put_same; auto|]. split; [constructor; [intros []|constructor]|].
        split; [intros x [[<-|[]]|[]]; exact FD|]. split; [intros x X NI _; rewrite !put_other; auto; intros ->; apply NI; left; reflexivity|]. split; [unfold later; cbn; repeat split; lia|]. split; [exact I|]. intros _. split; [reflexivity|]. intros t0 T0 _. congruence.
      * destruct b.
        { split.
          - exists Null, Nul, KStr, [], []. cbn [hp unseen tick]. rewrite (upd_id _ _ _ _ IN). split; [exact FT|]. split; [exact HD|]. split; [constructor|]. split; [constructor|]. split; [intros x [[]|[]]|]. split; [auto|]. split; [apply tick_later|]. split; [exact I|]. auto.
          - left. split; [reflexivity|]. apply tick_out. exact EM. }
        { rewrite (store_ok _ dst wsd); [|exact HD|exact LI]. exists Null, Nul, KStr, [], []. cbn [hp unseen overlook tries]. rewrite put_same. split; [exact FT|]. split; [reflexivity|]. split; [constructor|]. split; [constructor|]. split; [intros x [[]|[]]|].
          split; [intros x X _ _; apply put_other; exact X|]. split; [|split; [exact I|lia]]. eapply later_trans; [apply overlook_later; exact EM|]. unfold later; cbn; repeat split; lia. }
  - intros IN. destruct (fields_nth _ _ _ _ _ _ _ HF FT) as (w & t & fp' & E1 & E2 & E3 & E4). cbn [cstep]. rewrite (field_ok _ _ _ _ _ HS E1).
    assert (i < length wsd) as LI by (rewrite LN; apply nth_error_Some; congruence). inversion E3; subst. rewrite (store_ok _ _ _ _ _ HD LI). exists (Int z), (Num z), KInt, [], []. cbn [hp unseen]. rewrite put_same.
    split; [exact FT|]. split; [reflexivity|]. split; [constructor|]. split; [constructor|]. split; [intros x [[]|[]]|]. split; [intros x X _ _; apply put_other; exact X|]. split; [apply same_later|]. split; [exact I|]. intros _. split; [reflexivity|]. intros t0 T0 _. congruence.
  - intros IN. destruct (fields_nth _ _ _ _ _ _ _ HF FT) as (w & t & fp' & E1 & E2 & E3 & E4). cbn [cstep]. rewrite (field_ok _ _ _ _ _ HS E1).
    assert (i < length wsd) as LI by (rewrite LN; apply nth_error_Some; congruence). rewrite (map_nth_error _ _ _ FT) in IN. cbn in IN. 
    assert (STAY : forall m', hp m' = hp m -> later malloc m m' -> landed fs0 (CMem i) dst wsd i m m' (fun _ => True)).
    { intros m' EH LT. exists Null, Nul, KBuf, [], []. rewrite EH, (upd_id _ _ _ _ IN). split; [exact FT|]. split; [exact HD|]. split; [constructor|]. split; [constructor|]. split; [intros x [[]|[]]|]. split; [auto|]. split; [exact LT|]. split; [exact I|]. auto. }
    inversion E3 as [| | | |a s EA| | | |]; subst.
    + split; [apply STAY; [reflexivity|apply later_refl]|]. right. split; [reflexivity|]. cbn. intros [A _]. auto.
    + unfold text. rewrite EA, Nat.ltb_irrefl, firstn_all. destruct (malloc (tries m) (hp m)) as [d|] eqn:EM.
      * pose proof (ok _ _ _ EM) as FD. assert (dst <> d) as DD by congruence. rewrite (store_ok _ dst wsd); [|cbn; rewrite put_other; auto|exact LI].
        exists (Buf d (length s)), (Bytes s), KBuf, [d], []. cbn [hp unseen tick tries]. rewrite put_same. split; [exact FT|]. split; [reflexivity|]. split; [constructor; auto; rewrite put_other, put_same; auto|]. split; [constructor; [intros []|constructor]|].
        split; [intros x [[<-|[]]|[]]; exact FD|]. split; [intros x X NI _; rewrite !put_other; auto; intros ->; apply NI; left; reflexivity|]. split; [unfold later; cbn; repeat split; lia|]. split; [exact I|]. intros _. split; [reflexivity|]. intros t0 T0 _. congruence.
      * split; [apply STAY; [reflexivity|apply tick_later]|]. left. split; [reflexivity|]. apply tick_out. exact EM.
  - intros IN. destruct FT as (FT & FC & FP & NDP & FF). destruct (fields_nth _ _ _ _ _ _ _ HF FT) as (w & t & fp' & E1 & E2 & E3 & E4). cbn [cstep]. fold (cruns malloc). rewrite (field_ok _ _ _ _ _ HS E1).
    assert (i < length wsd) as LI by (rewrite LN; apply nth_error_Some; congruence). rewrite (map_nth_error _ _ _ FT) in IN. cbn in IN. fold cfits in FP. fold csafe in SF.
    inversion E3 as [| | | | | |? a ws' us fpa EA HFA| |]; subst; cbn [is_null].
    + exists Null, Nul, (KRec fs), [], []. rewrite (upd_id _ _ _ _ IN). split; [exact FT|]. split; [exact HD|]. split; [constructor|]. split; [constructor|]. split; [intros x [[]|[]]|]. split; [auto|]. split; [apply later_refl|]. split; [cbn; discriminate|]. intros _. split; [reflexivity|]. intros t0 T0 _. congruence.
    + pose proof (tclone_ok chk p fs fr H FC FP NDP FF m a us (a :: fpa) E3 (SF us E2)) as TR. unfold tried' in TR. destruct (tclone_with malloc chk (cruns malloc p) fs fr m (Ptr a)) as [m1 w1|m1 c|]; [| |exact TR].
      * destruct TR as (us1 & fp1 & lost1 & C1 & C2 & C3 & C4 & C5 & C6 & C7).
        assert (C8 : forall x, hp m x <> None -> hp m1 x = hp m x) by (intros x U; apply C4; intros J; apply U; auto).
        assert (hp m1 dst = Some (BRec wsd)) as D1 by (rewrite C8; congruence). rewrite (store_ok _ _ _ _ _ D1 LI). exists w1, (Rec us1), (KRec fs), fp1, lost1. cbn [hp unseen]. rewrite put_same.
        assert (~ In dst fp1) as DN by (intros J; pose proof (C3 _ (or_introl J)); congruence). split; [exact FT|]. split; [reflexivity|]. split; [apply (frame (hp m1)); [exact C1|]; intros x J; apply put_other; intros ->; contradiction|].
        split; [exact C2|]. split; [exact C3|]. split; [intros x X N1 N2; rewrite put_other by exact X; auto|]. split; [eapply later_trans; [exact C5|apply same_later]|]. split; [cbn; intros vs EV; injection EV as <-; exact C7|].
        intros U. destruct (C6 U) as [-> C6']. split; [reflexivity|]. intros t0 T0 MV. assert (t0 = Rec us) as -> by congruence. cbn in MV. f_equal. apply C6'. apply MV. reflexivity.
      * destruct TR as (lost1 & C1 & C2 & C3 & C4 & C5). assert (C8 : forall x, hp m x <> None -> hp m1 x = hp m x) by (intros x U; apply C2; intros J; apply U; auto). split.
        { exists Null, Nul, (KRec fs), [], lost1. rewrite (upd_id _ _ _ _ IN). split; [exact FT|]. split; [rewrite C8; congruence|]. split; [constructor|]. split; [constructor|]. split; [intros x [[]|J]; auto|]. split; [auto|]. split; [exact C3|]. split; [cbn; discriminate|]. auto. }
        { destruct C5 as [C5|[-> C5]]; [left; exact C5|right; split; [reflexivity|]]. intros A. apply C5. cbn [erase accepts_op] in A. exact (proj1 (A us E2)). }
  - intros IN. destruct FT as (FT & FC & FP & NDP & FF). destruct (fields_nth _ _ _ _ _ _ _ HF FT) as (w & t & fp' & E1 & E2 & E3 & E4). cbn [cstep]. fold (cruns malloc). rewrite (field_ok _ _ _ _ _ HS E1).
    assert (i < length wsd) as LI by (rewrite LN; apply nth_error_Some; congruence). rewrite (map_nth_error _ _ _ FT) in IN. cbn in IN. fold cfits in FP. fold csafe in SF.
    inversion E3 as [| | | | | | |? first l ? HC|]; subst.
    assert (LS : listed (hp m) m dst i wsd fs p None [] [] []).
    { split; [cbn [length]; rewrite (upd_id _ _ _ _ IN); exact HD|]. split; [constructor|]. split; [constructor|]. split; [intros x [[]|[]]|]. split; [auto|intros us []]. }
    pose proof (teach_ok (tclone_with malloc chk (cruns malloc p) fs fr) (takes chk p) (csafe p) p fs dst i wsd (hp m) (tclone_ok chk p fs fr H FC FP NDP FF) LI ltac:(congruence) l m first fp' None [] [] [] HC ltac:(auto) (fun us J => SF l us E2 J) LS) as R.
    destruct (teach malloc (tclone_with malloc chk (cruns malloc p) fs fr) dst i (length l) first m) as [m' u|m' c|]; [| |exact R].
    + destruct R as (first' & done' & fpc & lost' & (B1 & B2 & B3 & B4 & B5 & B6) & R2 & R3). exists (Lst (length done') first'), (Seq done'), (KList fs), fpc, lost'. split; [exact FT|]. split; [exact B1|]. split; [constructor; exact B2|].
      split; [exact B3|]. split; [exact B4|]. split; [exact B5|]. split; [exact R2|]. split; [cbn; intros l' us EL J; injection EL as <-; apply B6; exact J|]. intros U. destruct (R3 U) as [-> R4]. split; [reflexivity|]. intros t0 T0 MV. assert (t0 = Seq l) as -> by congruence. f_equal.
      cbn in MV. apply R4. intros us J. exact (MV l us eq_refl J).
    + destruct R as (first' & done' & fpc & lost' & (B1 & B2 & B3 & B4 & B5 & B6) & R2 & R3 & R4). split.
      * exists (Lst (length done') first'), (Seq done'), (KList fs), fpc, lost'. split; [exact FT|]. split; [exact B1|]. split; [constructor; exact B2|].
        split; [exact B3|]. split; [exact B4|]. split; [exact B5|]. split; [exact R2|]. split; [cbn; intros l' us EL J; injection EL as <-; apply B6; exact J|]. auto.
      * destruct R4 as [R4|[-> R4]]; [left; exact R4|right; split; [reflexivity|]]. intros A. apply R4. intros us J. cbn [erase accepts_op] in A. exact (proj1 (A l us E2 J)).
Qed.

Theorem clone_tried : forall chk p fs fr (m : memory) a us fp, (forall c, In c chk -> fits_check fs c) -> cfits fs p -> NoDup (ctargets p) -> freeable fs p fr ->
  holds (hp m) (KRec fs) (Ptr a) (Rec us) fp -> csafe p us -> tried malloc (tclone malloc chk p fs fr) fs (takes chk p) (clean fs p) m (Ptr a) us.
Proof.
  intros chk p fs fr m a us fp FC FT ND FF H SF. pose proof (tclone_ok chk p fs fr ltac:(apply Forall_forall; intros o _; apply cop_ok) FC FT ND FF m a us fp H SF) as T. unfold tried', tried, tclone in *.
  destruct (tclone_with malloc chk (cruns malloc p) fs fr m (Ptr a)); [| |exact T].
  - destruct T as (us' & fp' & lost & T1 & T2 & T3 & T4 & T5 & T6 & T7). exists us', fp', lost. auto 10.
  - exact T.
Qed.
End Fail.

(** Correctness of every clone program that treats each field of a structure once, with the step of its kind. *)
From Coq Require Import String ZArith NArith Ascii Bool List Lia Permutation.
From Verif Require Import Base Str CloneHeap CloneSpec.
Import ListNotations.
Local Open Scope nat_scope.

Scheme holds_mind := Minimality for holds Sort Prop with hfields_mind := Minimality for hfields Sort Prop with hchain_mind := Minimality for hchain Sort Prop.
Combined Scheme holds_comb from holds_mind, hfields_mind, hchain_mind.

Lemma frame_strs : forall (h : heap) c ss fp (h' : heap), hstrs h c ss fp -> (forall x, In x fp -> h' x = h x) -> hstrs h' c ss fp.
Proof.
  intros h c ss fp h' H F. induction H; [constructor|]. econstructor; [rewrite F; [eassumption|left; reflexivity]|rewrite F; [assumption|right; left; reflexivity]|assumption|]. apply IHhstrs. intros x I. apply F. right. right. exact I.
Qed.
Lemma used_strs : forall (h : heap) c ss fp x, hstrs h c ss fp -> In x fp -> h x <> None.
Proof. intros h c ss fp x H I. induction H; [destruct I|]. destruct I as [<-|[<-|I]]; [congruence|congruence|auto]. Qed.
Lemma frame_all : forall h : heap,
  (forall k w t fp, holds h k w t fp -> forall h' : heap, (forall x, In x fp -> h' x = h x) -> holds h' k w t fp) /\
  (forall ks ws ts fp, hfields h ks ws ts fp -> forall h' : heap, (forall x, In x fp -> h' x = h x) -> hfields h' ks ws ts fp) /\
  (forall fs c ts fp, hchain h fs c ts fp -> forall h' : heap, (forall x, In x fp -> h' x = h x) -> hchain h' fs c ts fp).
Proof.
  intros h. apply holds_comb; intros; try (constructor; auto; fail).
  - constructor; auto. rewrite H1; [assumption|left; reflexivity].
  - constructor. rewrite H0; [assumption|left; reflexivity].
  - econstructor; [rewrite H2; [eassumption|left; reflexivity]|]. apply H1. intros x I. apply H2. right. exact I.
  - constructor. apply (frame_strs h); auto.
  - constructor; [apply H0|apply H2]; intros x I; apply H3; apply in_or_app; auto.
  - econstructor; [rewrite H4; [eassumption|left; reflexivity]| |]; [apply H1|apply H3]; intros x I; apply H4; right; apply in_or_app; auto.
Qed.
Lemma frame : forall (h : heap) k w t fp (h' : heap), holds h k w t fp -> (forall x, In x fp -> h' x = h x) -> holds h' k w t fp.
Proof. intros h k w t fp h' H F. exact (proj1 (frame_all h) k w t fp H h' F). Qed.
Lemma frame_chain : forall (h : heap) fs c ts fp (h' : heap), hchain h fs c ts fp -> (forall x, In x fp -> h' x = h x) -> hchain h' fs c ts fp.
Proof. intros h fs c ts fp h' H F. exact (proj2 (proj2 (frame_all h)) fs c ts fp H h' F). Qed.
Lemma frame_fields : forall (h : heap) fs c ts fp (h' : heap), hfields h fs c ts fp -> (forall x, In x fp -> h' x = h x) -> hfields h' fs c ts fp.
Proof. intros h fs c ts fp h' H F. exact (proj1 (proj2 (frame_all h)) fs c ts fp H h' F). Qed.
Lemma used_all : forall h : heap,
  (forall k w t fp, holds h k w t fp -> forall x, In x fp -> h x <> None) /\
  (forall ks ws ts fp, hfields h ks ws ts fp -> forall x, In x fp -> h x <> None) /\
  (forall fs c ts fp, hchain h fs c ts fp -> forall x, In x fp -> h x <> None).
Proof.
  intros h. apply holds_comb; intros; try contradiction; auto.
  - destruct H1 as [<-|[]]. congruence.
  - destruct H0 as [<-|[]]. congruence.
  - destruct H2 as [<-|I]; [congruence|auto].
  - exact (used_strs _ _ _ _ _ H H0).
  - apply in_app_or in H3. destruct H3; auto.
  - destruct H4 as [<-|I]; [congruence|]. apply in_app_or in I. destruct I; auto.
Qed.
Lemma used : forall (h : heap) k w t fp x, holds h k w t fp -> In x fp -> h x <> None.
Proof. intros h k w t fp x H I. exact (proj1 (used_all h) k w t fp H x I). Qed.
Lemma used_chain : forall (h : heap) fs c ts fp x, hchain h fs c ts fp -> In x fp -> h x <> None.
Proof. intros h k w t fp x H I. exact (proj2 (proj2 (used_all h)) k w t fp H x I). Qed.
Lemma used_fields : forall (h : heap) fs c ts fp x, hfields h fs c ts fp -> In x fp -> h x <> None.
Proof. intros h k w t fp x H I. exact (proj1 (proj2 (used_all h)) k w t fp H x I). Qed.

Lemma put_same : forall (h : heap) a b, put h a b a = Some b.
Proof. intros. unfold put, look. cbn. rewrite Nat.eqb_refl. reflexivity. Qed.
Lemma put_other : forall (h : heap) a b x, x <> a -> put h a b x = h x.
Proof. intros. unfold put, look. cbn. apply Nat.eqb_neq in H. rewrite H. reflexivity. Qed.
Lemma upd_length : forall A i (w : A) ws, length (upd i w ws) = length ws.
Proof. intros A i w ws. revert i. induction ws; intros [|i]; cbn; auto. Qed.
Lemma upd_same : forall A i (w : A) ws, i < length ws -> nth_error (upd i w ws) i = Some w.
Proof. intros A i w ws. revert i. induction ws; intros [|i] L; cbn in *; try lia; auto. apply IHws. lia. Qed.
Lemma upd_other : forall A i j (w : A) ws, j <> i -> nth_error (upd i w ws) j = nth_error ws j.
Proof. intros A i j w ws. revert i j. induction ws; intros [|i] [|j] N; cbn; auto; try lia. Qed.
Lemma upd_twice : forall A i (v w : A) ws, upd i w (upd i v ws) = upd i w ws.
Proof. intros A i v w ws. revert i. induction ws; intros [|i]; cbn; f_equal; auto. Qed.
Lemma upd_id : forall A i (w : A) ws, nth_error ws i = Some w -> upd i w ws = ws.
Proof. intros A i w ws. revert i. induction ws; intros [|i] E; cbn in *; try discriminate; f_equal; auto. congruence. Qed.
Lemma fields_length : forall (h : heap) fs ws ts fp, hfields h fs ws ts fp -> length ws = length fs /\ length ts = length fs.
Proof. intros h fs ws ts fp H. induction H; cbn; lia. Qed.
Lemma fields_nth : forall (h : heap) fs ws ts fp i k, hfields h fs ws ts fp -> nth_error fs i = Some k ->
  exists w t fp', nth_error ws i = Some w /\ nth_error ts i = Some t /\ holds h k w t fp' /\ (forall x, In x fp' -> In x fp).
Proof.
  intros h fs ws ts fp i k H. revert i. induction H; intros [|i] E; cbn in E; try discriminate.
  - injection E as <-. exists w, t, fp. repeat split; auto. intros x I. apply in_or_app. auto.
  - destruct (IHhfields i E) as (w' & t' & fp' & A & B & C & D). exists w', t', fp'. repeat split; auto. intros x I. apply in_or_app. auto.
Qed.
Lemma fields_build : forall (h : heap) fs ws ts fps, length ws = length fs -> length ts = length fs -> length fps = length fs ->
  (forall i k, nth_error fs i = Some k -> exists w t fp, nth_error ws i = Some w /\ nth_error ts i = Some t /\ nth_error fps i = Some fp /\ holds h k w t fp) ->
  hfields h fs ws ts (concat fps).
Proof.
  intros h fs. induction fs as [|k fs IH]; intros [|w ws] [|t ts] [|fp fps] L1 L2 L3 N; cbn in *; try lia; [constructor|].
  constructor.
  - destruct (N 0 k eq_refl) as (w' & t' & fp' & A & B & C & D). cbn in *. congruence.
  - apply IH; try lia. intros i k' E. exact (N (S i) k' E).
Qed.
Lemma concat_upd : forall A i (l : list A) ls, nth_error ls i = Some [] -> Permutation (concat (upd i l ls)) (l ++ concat ls).
Proof.
  intros A i l ls. revert i. induction ls as [|x ls IH]; intros [|i] E; cbn in *; try discriminate.
  - injection E as ->. reflexivity.
  - rewrite (IH i E). rewrite !app_assoc. apply Permutation_app_tail. apply Permutation_app_comm.
Qed.
Lemma cut_nul : forall s, cut (cut s) = cut s.
Proof. induction s as [|c s IH]; cbn; auto. destruct (Ascii.eqb c zero) eqn:E; cbn; auto. rewrite E. f_equal. exact IH. Qed.
Lemma nodup_app : forall A (l m : list A), NoDup l -> NoDup m -> (forall x, In x l -> ~ In x m) -> NoDup (l ++ m).
Proof. intros A l m Hl Hm D. induction l as [|a l IH]; cbn; auto. inversion Hl; subst. constructor; [|apply IH; auto; intros; apply D; right; auto]. intros I. apply in_app_or in I. destruct I; [auto|]. exact (D a (or_introl eq_refl) H). Qed.

Lemma nodup_tail : forall A (l m : list A), NoDup (l ++ m) -> NoDup m.
Proof. intros A l m H. induction l; cbn in *; auto. inversion H; auto. Qed.

Definition target (o : op) : list nat := match o with Need _ | NeedOne _ _ | NeedLen _ | Deref _ => [] | Dup i | Copy i | Mem i | Sub i _ _ | Each i _ _ => [i] end.
Definition targets (p : list op) : list nat := flat_map target p.
(** each step suits the kind of its field *)
Fixpoint fits_op (fs : list shape) (o : op) : Prop :=
  let fits := fix fits (fs : list shape) (p : list op) : Prop := match p with [] => True | o :: p => fits_op fs o /\ fits fs p end in
  match o with
  | Need i | Dup i => nth_error fs i = Some KStr
  | NeedOne i j => nth_error fs i = Some KStr /\ nth_error fs j = Some KStr
  | NeedLen i | Mem i => nth_error fs i = Some KBuf
  | Deref i => exists gs, nth_error fs i = Some (KRec gs)
  | Copy i => nth_error fs i = Some KInt
  | Sub i gs p => nth_error fs i = Some (KRec gs) /\ fits gs p /\ NoDup (targets p)
  | Each i gs p => nth_error fs i = Some (KList gs) /\ fits gs p /\ NoDup (targets p)
  end.
Definition fits := fix fits (fs : list shape) (p : list op) : Prop := match p with [] => True | o :: p => fits_op fs o /\ fits fs p end.

Definition initial (k : shape) (t : tree) : Prop := match k with KStr | KBuf | KRec _ => t = Nul | KInt => t = Num 0%Z | KList _ | KStrs => t = Seq [] end.
(** fields the program leaves alone have their initial value *)
Definition untouched (fs : list shape) (p : list op) (ts : list tree) : Prop :=
  forall i k t, nth_error fs i = Some k -> nth_error ts i = Some t -> ~ In i (targets p) -> initial k t.
(** mandatory fields are there *)
Fixpoint accepts_op (o : op) (ts : list tree) : Prop :=
  let accepts := fix accepts (p : list op) (ts : list tree) : Prop := match p with [] => True | o :: p => accepts_op o ts /\ accepts p ts end in
  match o with
  | Need i | Deref i => nth_error ts i <> Some Nul
  | NeedOne i j => nth_error ts i <> Some Nul \/ nth_error ts j <> Some Nul
  | NeedLen i | Mem i => nth_error ts i <> Some Nul /\ nth_error ts i <> Some (Bytes [])
  | Dup _ | Copy _ => True
  | Sub i fs p => forall us, nth_error ts i = Some (Rec us) -> accepts p us /\ untouched fs p us
  | Each i fs p => forall l us, nth_error ts i = Some (Seq l) -> In (Rec us) l -> accepts p us /\ untouched fs p us
  end.
Definition accepts := fix accepts (p : list op) (ts : list tree) : Prop := match p with [] => True | o :: p => accepts_op o ts /\ accepts p ts end.

Lemma op_ind' : forall P : op -> Prop,
  (forall i, P (Need i)) -> (forall i j, P (NeedOne i j)) -> (forall i, P (NeedLen i)) -> (forall i, P (Deref i)) -> (forall i, P (Dup i)) -> (forall i, P (Copy i)) -> (forall i, P (Mem i)) ->
  (forall i fs p, Forall P p -> P (Sub i fs p)) -> (forall i fs p, Forall P p -> P (Each i fs p)) -> forall o, P o.
Proof.
  intros P H1 H2 H3 H4 H5 H6 H7 H8 H9. fix IH 1. intros [i|i j|i|i|i|i|i|i fs p|i fs p]; [apply H1|apply H2|apply H3|apply H4|apply H5|apply H6|apply H7| |].
  - apply H8. induction p as [|o p IHp]; constructor; [apply IH|exact IHp].
  - apply H9. induction p as [|o p IHp]; constructor; [apply IH|exact IHp].
Qed.

Section Clone.
Variable malloc : heap -> addr.
Hypothesis fresh : forall h : heap, h (malloc h) = None.

Lemma field_ok : forall (h : heap) a ws i w, h a = Some (BRec ws) -> nth_error ws i = Some w -> field h a i = Ok w.
Proof. intros h a ws i w E N. unfold field. rewrite E, N. reflexivity. Qed.
Lemma set_field_ok : forall (h : heap) a ws i w, h a = Some (BRec ws) -> i < length ws -> set_field h a i w = Ok (put h a (BRec (upd i w ws))).
Proof. intros h a ws i w E N. unfold set_field. rewrite E. apply Nat.ltb_lt in N. rewrite N. reflexivity. Qed.

(** appending to a list *)
Lemma walk_ok : forall (h : heap) gs first done fp n, hchain h gs (Some first) done fp -> length done = S n -> NoDup fp ->
  exists last e, walk n h first = Ok last /\ node h last = Ok (Ptr e, None) /\ In last fp /\
    forall (h' : heap) nd us fp1, h' last = Some (BNode (Ptr e) (Some nd)) -> (forall x, In x fp -> x <> last -> h' x = h x) -> hchain h' gs (Some nd) [Rec us] (nd :: fp1) ->
      exists fp', hchain h' gs (Some first) (done ++ [Rec us]) fp' /\ Permutation fp' (fp ++ nd :: fp1).
Proof.
  intros h gs first done fp n. revert first done fp. induction n as [|n IH]; intros first done fp C L ND.
  - inversion C as [|? nd0 a us0 next ts fp0 fps E H T]; subst. cbn in L. destruct ts; [|cbn in L; lia]. inversion T; subst.
    exists first, a. cbn [walk]. unfold node. rewrite E. repeat split; auto; [left; reflexivity|]. intros h' nd us fp1 E' F C'.
    exists (first :: fp0 ++ nd :: fp1). split; [|cbn; rewrite app_nil_r; reflexivity]. cbn [app]. econstructor; [exact E'| |exact C'].
    apply (frame h); auto. intros x I. apply F; [right; apply in_or_app; auto|]. intros ->. inversion ND; subst. apply H2. apply in_or_app. auto.
  - inversion C as [|? nd0 a us0 next ts fp0 fps E H T]; subst. cbn in L. destruct ts as [|t ts]; [cbn in L; lia|]. inversion T as [|? nd1 ? ? ? ? ? ? E1]; subst.
    inversion ND as [|? ? NI ND']; subst. assert (NoDup (nd1 :: fp ++ fps0)) as NDt by (apply nodup_tail in ND'; exact ND').
    destruct (IH nd1 (Rec us :: ts) (nd1 :: fp ++ fps0) T ltac:(cbn in *; lia) NDt) as (last & e & W & N & I & K).
    exists last, e. cbn [walk]. unfold node at 1. rewrite E. cbn [res_bind snd]. repeat split; auto; [right; apply in_or_app; auto|].
    intros h' nd us' fp1 E' F C'. destruct (K h' nd us' fp1 E') as (fp' & K1 & K2); auto.
    { intros x J. apply F. right. apply in_or_app. auto. }
    exists (first :: fp0 ++ fp'). split.
    + cbn [app]. econstructor; [|apply (frame h); [exact H|]|exact K1].
      * rewrite F; [exact E|left; reflexivity|]. intros ->. apply NI. apply in_or_app. auto.
      * intros x J. apply F; [right; apply in_or_app; auto|]. intros ->. clear - J I ND'. induction fp0 as [|y fp0 IHf]; [destruct J|]. cbn in ND'. inversion ND'; subst. destruct J as [->|J]; [|auto]. apply H1. apply in_or_app. auto.
    + cbn. constructor. rewrite <- app_assoc. apply Permutation_app_head. exact K2.
Qed.
Lemma list_add_ok : forall (h : heap) dst i W gs first done fp a us fp1,
  h dst = Some (BRec W) -> nth_error W i = Some (Lst (length done) first) -> hchain h gs first done fp -> NoDup fp -> ~ In dst fp ->
  holds h (KRec gs) (Ptr a) (Rec us) fp1 -> ~ In dst fp1 -> NoDup fp1 -> (forall x, In x fp1 -> ~ In x fp) ->
  exists (h' : heap) first' fp', list_add malloc h dst i (Ptr a) = Ok h' /\ h' dst = Some (BRec (upd i (Lst (S (length done)) first') W)) /\
    hchain h' gs first' (done ++ [Rec us]) fp' /\ NoDup fp' /\ (forall x, In x fp' -> In x fp \/ In x fp1 \/ h x = None) /\ ~ In dst fp' /\
    (forall x, x <> dst -> ~ In x fp -> h x <> None -> h' x = h x) /\ (forall x, In x fp \/ In x fp1 -> In x fp') /\ (forall x, x <> dst -> ~ In x fp' -> h' x = h x).
Proof.
  intros h dst i W gs first done fp a us fp1 HD HW HC ND DF HA DA NA DJ.
  assert (i < length W) as LI by (apply nth_error_Some; congruence).
  unfold list_add. rewrite (field_ok _ _ _ _ _ HD HW). cbn [res_bind]. set (nd := malloc h). assert (h nd = None) as FN by apply fresh.
  assert (dst <> nd) as DN by congruence. assert (~ In nd fp1) as N1 by (intros I; exact (used _ _ _ _ _ _ HA I FN)).
  destruct (length done) as [|n] eqn:LD.
  - destruct done; [|discriminate]. inversion HC; subst. unfold alloc. fold nd. rewrite (set_field_ok _ dst W); [|rewrite put_other; auto|exact LI].
    eexists. exists (Some nd), (nd :: fp1). split; [reflexivity|]. split; [rewrite put_same; reflexivity|]. split; [|split; [constructor; auto|split; [|split; [|split; [|split]]]]].
    + cbn [app]. rewrite <- (app_nil_r fp1). econstructor; [rewrite put_other, put_same; auto| |constructor].
      apply (frame h); [exact HA|]. intros x I. rewrite !put_other; auto; intros ->; contradiction.
    + intros x [<-|I]; auto.
    + intros [E|I]; [congruence|auto].
    + intros x X _ U. rewrite !put_other; auto. congruence.
    + intros x [[]|I]. right. exact I.
    + intros x X NI. rewrite !put_other; auto. intros ->. apply NI. left. reflexivity.
  - destruct first as [first|]; [|inversion HC; subst; discriminate].
    destruct (walk_ok h gs first done fp n HC LD ND) as (last & e & WK & NK & IK & K). rewrite WK. cbn [res_bind]. rewrite NK. cbn [res_bind fst]. unfold alloc. fold nd.
    assert (last <> nd) as LN by (intros ->; exact (used_chain _ _ _ _ _ _ HC IK FN)). assert (dst <> last) as DL by (intros ->; contradiction).
    rewrite (set_field_ok _ dst W); [|rewrite !put_other; auto|exact LI].
    set (h' := put (put (put h nd (BNode (Ptr a) None)) last (BNode (Ptr e) (Some nd))) dst (BRec (upd i (Lst (S (S n)) (Some first)) W))).
    destruct (K h' nd us fp1) as (fp' & K1 & K2).
    { unfold h'. rewrite put_other, put_same; auto. }
    { intros x I X. unfold h'. rewrite !put_other; auto; intros ->; [exact (used_chain _ _ _ _ _ _ HC I FN)|contradiction]. }
    { rewrite <- (app_nil_r fp1). econstructor; [unfold h'; rewrite put_other, put_other, put_same; auto| |constructor].
      apply (frame h); [exact HA|]. intros x I. unfold h'. rewrite !put_other; auto; intros ->; try contradiction. exact (DJ _ I IK). }
    exists h', (Some first), fp'. split; [reflexivity|]. split; [unfold h'; rewrite put_same; reflexivity|]. split; [exact K1|].
    assert (~ In nd fp) as NF by (intros I; exact (used_chain _ _ _ _ _ _ HC I FN)).
    split; [|split; [|split; [|split; [|split]]]].
    + apply (Permutation_NoDup (Permutation_sym K2)). apply nodup_app; auto; [constructor; auto|]. intros x I [<-|J]; [contradiction|]. exact (DJ _ J I).
    + intros x I. apply (Permutation_in _ K2) in I. apply in_app_or in I. destruct I as [I|[<-|I]]; auto.
    + intros I. apply (Permutation_in _ K2) in I. apply in_app_or in I. destruct I as [I|[E|I]]; auto.
    + intros x X NI U. unfold h'. rewrite !put_other; auto; try congruence.
    + intros x I. apply (Permutation_in _ (Permutation_sym K2)). apply in_or_app. destruct I as [I|I]; [left; exact I|right; right; exact I].
    + intros x X NI. assert (~ In x (fp ++ nd :: fp1)) as NJ by (intros J; apply NI; apply (Permutation_in _ (Permutation_sym K2)); exact J).
      unfold h'. rewrite !put_other; auto; intros ->; apply NJ; apply in_or_app; [right; left; reflexivity|left; exact IK].
Qed.

(** cloning a list *)
Lemma each_ok : forall cl (good : list tree -> Prop) gs dst i wsd (hs : heap),
  (forall (h : heap) a us fp, holds h (KRec gs) (Ptr a) (Rec us) fp -> good us -> cloned cl gs h (Ptr a) us fp) -> i < length wsd -> hs dst <> None ->
  forall todo (h : heap) cur fpt first done fpd,
  hchain hs gs cur todo fpt -> ~ In dst fpt -> (forall us, In (Rec us) todo -> good us) ->
  (forall x, x <> dst -> hs x <> None -> h x = hs x) -> h dst = Some (BRec (upd i (Lst (length done) first) wsd)) ->
  hchain h gs first done fpd -> NoDup fpd -> (forall x, In x fpd -> hs x = None) -> (forall x, x <> dst -> ~ In x fpd -> h x = hs x) ->
  exists (h' : heap) first' fp', each malloc cl dst i (length todo) cur h = Ok h' /\ h' dst = Some (BRec (upd i (Lst (length done + length todo) first') wsd)) /\
    hchain h' gs first' (done ++ todo) fp' /\ NoDup fp' /\ (forall x, In x fp' -> hs x = None) /\ (forall x, x <> dst -> ~ In x fp' -> h' x = hs x).
Proof.
  intros cl good gs dst i wsd hs CL LI HSD. induction todo as [|t todo IH]; intros h cur fpt first done fpd HT DT GD FR HD HC ND NF FE.
  - exists h, first, fpd. cbn [length each]. rewrite app_nil_r, Nat.add_0_r. repeat split; auto.
  - inversion HT as [|? nd a us next ts fp0 fps E H T]; subst. cbn [length each].
    assert (dst <> nd) as DN by (intros <-; apply DT; left; reflexivity).
    assert (h nd = Some (BNode (Ptr a) next)) as EN by (rewrite FR; congruence). unfold node at 1. rewrite EN. cbn [res_bind fst].
    assert (holds h (KRec gs) (Ptr a) (Rec us) fp0) as HE.
    { apply (frame hs); [exact H|]. intros x I. apply FR; [|exact (used _ _ _ _ _ _ H I)]. intros ->. apply DT. right. apply in_or_app. auto. }
    destruct (CL h a us fp0 HE (GD us (or_introl eq_refl))) as (h1 & w1 & fp1 & C1 & C2 & C3 & C4 & C5 & C6 & C8).
    assert (forall x, h x <> None -> h1 x = h x) as C7 by (intros x U; apply C8; intros I; exact (U (C5 x I))). rewrite C1. cbn [res_bind fst snd].
    inversion C2 as [| | | | | |? d ws1 ? fp1' EB HF| |]; subst.
    assert (h1 dst = h dst) as D1 by (apply C7; congruence).
    destruct (list_add_ok h1 dst i (upd i (Lst (length done) first) wsd) gs first done fpd d us (d :: fp1')) as (h2 & first2 & fp2 & A1 & A2 & A3 & A4 & A5 & A6 & A7 & A8 & A9); auto.
    { rewrite D1. exact HD. } { apply upd_same. exact LI. }
    { apply (frame_chain h); [exact HC|]. intros x I. apply C7. exact (used_chain _ _ _ _ _ _ HC I). }
    { intros I. pose proof (C5 _ I). congruence. }
    { intros x I J. exact (used_chain _ _ _ _ _ _ HC J (C5 _ I)). }
    rewrite A1. cbn [res_bind].
    assert (forall x, x <> dst -> hs x <> None -> h2 x = hs x) as FR2.
    { intros x X U. pose proof (FR x X U) as FX. assert (h x <> None) as HX by congruence. rewrite A7; [rewrite C7; [exact FX|exact HX]|exact X|intros I; exact (U (NF _ I))|rewrite C7; exact HX]. }
    unfold node at 1. rewrite (FR2 nd); [|congruence|congruence]. rewrite E. cbn [res_bind snd].
    rewrite upd_twice in A2.
    destruct (IH h2 next fps first2 (done ++ [Rec us]) fp2) as (h' & first' & fp' & B1 & B2 & B3 & B4 & B5 & B6); auto.
    { intros I. apply DT. right. apply in_or_app. auto. } { intros us' I. apply GD. right. exact I. }
    { rewrite app_length. cbn [length]. rewrite Nat.add_1_r. exact A2. }
    { intros x I. destruct (A5 x I) as [J|[J|J]]; auto.
      - destruct (hs x) eqn:EX; [|reflexivity]. exfalso. destruct (Nat.eq_dec x dst) as [->|X]; [contradiction|]. pose proof (C5 _ J) as N1. rewrite (FR x X) in N1 by congruence. congruence.
      - destruct (hs x) eqn:EX; [|reflexivity]. exfalso. destruct (Nat.eq_dec x dst) as [->|X]; [contradiction|]. assert (h x = hs x) as FX by (apply FR; congruence). rewrite C7 in J by congruence. congruence. }
    { intros x X NI. rewrite A9 by assumption. rewrite C8 by (intros J; apply NI; apply A8; auto). apply FE; [exact X|]. intros J. apply NI. apply A8. auto. }
    exists h', first', fp'. rewrite B1. split; [reflexivity|]. rewrite <- app_assoc in B3. cbn [app] in B3. rewrite app_length in B2. cbn [length] in B2.
    replace (length done + S (length todo)) with (length done + 1 + length todo) by lia. repeat split; auto.
Qed.

Definition result (fs : list shape) (ts : list tree) (h : heap) (dst : addr) (wsd : list word) (i : nat) (r : res heap) : Prop :=
  exists (h' : heap) w t k fp', r = Ok h' /\ nth_error fs i = Some k /\ nth_error ts i = Some t /\ h' dst = Some (BRec (upd i w wsd)) /\ holds h' k w t fp' /\ NoDup fp' /\
    (forall x, In x fp' -> h x = None) /\ (forall x, x <> dst -> ~ In x fp' -> h' x = h x).
Definition op_spec (o : op) : Prop := forall fs src dst (h : heap) ws ts wsd fp,
  fits_op fs o -> h src = Some (BRec ws) -> hfields h fs ws ts fp -> accepts_op o ts -> h dst = Some (BRec wsd) -> length wsd = length fs -> ~ In dst fp ->
  match target o with
  | i :: _ => nth_error wsd i = nth_error (map init_word fs) i -> result fs ts h dst wsd i (step malloc o src dst h)
  | [] => step malloc o src dst h = Ok h
  end.

Record built (h0 h : heap) (dst : addr) (fs : list shape) (ts : list tree) (wsd : list word) (fps : list (list addr)) (done : list nat) : Prop := {
  b_lw : length wsd = length fs; b_lf : length fps = length fs;
  b_dst : h dst = Some (BRec wsd); b_new : h0 dst = None;
  b_frame : forall x, h0 x <> None -> h x = h0 x; b_else : forall x, x <> dst -> ~ In x (concat fps) -> h x = h0 x;
  b_fields : forall i k, nth_error fs i = Some k -> exists w fp, nth_error wsd i = Some w /\ nth_error fps i = Some fp /\
     (In i done -> exists t, nth_error ts i = Some t /\ holds h k w t fp) /\ (~ In i done -> w = init_word k /\ fp = []);
  b_nodup : NoDup (concat fps);
  b_fresh : forall x, In x (concat fps) -> h0 x = None /\ x <> dst /\ h x <> None }.

Lemma runs_ok : forall fs src ws ts fp (h0 : heap) dst p, Forall op_spec p -> fits fs p -> accepts p ts -> h0 src = Some (BRec ws) -> hfields h0 fs ws ts fp ->
  forall (h : heap) wsd fps done, built h0 h dst fs ts wsd fps done -> NoDup (done ++ targets p) ->
  exists h' wsd' fps', runs malloc p src dst h = Ok h' /\ built h0 h' dst fs ts wsd' fps' (done ++ targets p).
Proof.
  intros fs src ws ts fp h0 dst p. induction p as [|o p IH]; intros FS FT AC HS HF h wsd fps done B ND.
  - exists h, wsd, fps. cbn. rewrite app_nil_r. auto.
  - inversion FS as [|? ? O FS']; subst. destruct FT as [FT1 FT2]. destruct AC as [AC1 AC2]. cbn [runs].
    destruct B as [B1 B2 B3 B4 B5 B9 B6 B7 B8].
    assert (h src = Some (BRec ws)) as HS' by (rewrite B5; congruence).
    assert (hfields h fs ws ts fp) as HF' by (apply (frame_fields h0); [exact HF|]; intros x I; apply B5; exact (used_fields _ _ _ _ _ _ HF I)).
    assert (~ In dst fp) as ND0 by (intros I; exact (used_fields _ _ _ _ _ _ HF I B4)).
    specialize (O fs src dst h ws ts wsd fp FT1 HS' HF' AC1 B3 B1 ND0).
    change (targets (o :: p)) with (target o ++ targets p) in *. destruct (target o) as [|i tl] eqn:TG.
    + rewrite O. cbn [res_bind]. apply (IH FS' FT2 AC2 HS HF h wsd fps done); [constructor; assumption|exact ND].
    + assert (tl = []) as -> by (destruct o; cbn in TG; congruence). cbn [app] in ND |- *.
      assert (~ In i done) as NI by (apply NoDup_remove_2 in ND; intros I; apply ND; apply in_or_app; auto).
      destruct O as (h' & w & t & k & fp' & O1 & O2 & O3 & O4 & O5 & O6 & O7 & O9).
      { assert (exists k, nth_error fs i = Some k) as [k0 K]. { destruct o; cbn in TG; try discriminate; injection TG as ->; cbn in FT1; try (eexists; exact FT1); destruct FT1 as [FT1 _]; eexists; exact FT1. }
        destruct (B6 i k0 K) as (w & fp1 & W1 & W2 & W3 & W4). destruct (W4 NI) as [-> _]. rewrite W1. symmetry. apply map_nth_error. exact K. }
      destruct (B6 i k O2) as (w0 & fp0 & W1 & W2 & W3 & W4). destruct (W4 NI) as [-> ->].
      assert (i < length wsd) as LI by (apply nth_error_Some; congruence). assert (i < length fps) as LF by (rewrite B2, <- B1; exact LI).
      rewrite O1. cbn [res_bind]. replace (done ++ i :: targets p) with ((done ++ [i]) ++ targets p) by (rewrite <- app_assoc; reflexivity).
      apply (IH FS' FT2 AC2 HS HF h' (upd i w wsd) (upd i fp' fps) (done ++ [i])); [|rewrite <- app_assoc; exact ND].
      assert (forall x, x <> dst -> h x <> None -> h' x = h x) as O8 by (intros x X U; apply O9; [exact X|]; intros I; exact (U (O7 x I))).
      pose proof (concat_upd _ i fp' fps W2) as PM.
      assert (forall x, In x (concat fps) -> h' x = h x) as KEEP by (intros x I; destruct (B8 x I) as (_ & X & U); apply O8; auto).
      constructor; auto.
      * rewrite upd_length. exact B1.
      * rewrite upd_length. exact B2.
      * intros x U. rewrite O8; auto; [congruence|rewrite B5; auto].
      * intros x X NX. assert (~ In x (fp' ++ concat fps)) as NJ by (intros J; apply NX; apply (Permutation_in _ (Permutation_sym PM)); exact J).
        rewrite O9; [|exact X|intros J; apply NJ; apply in_or_app; auto]. apply B9; [exact X|]. intros J. apply NJ. apply in_or_app. auto.
      * intros j kj KJ. destruct (Nat.eq_dec j i) as [->|NE].
        { exists w, fp'. rewrite !upd_same by assumption. split; [reflexivity|]. split; [reflexivity|]. split; [|intros N; exfalso; apply N; apply in_or_app; right; left; reflexivity].
          intros _. exists t. split; [exact O3|]. congruence. }
        { destruct (B6 j kj KJ) as (wj & fpj & J1 & J2 & J3 & J4). exists wj, fpj. rewrite !upd_other by assumption. split; [exact J1|]. split; [exact J2|]. split.
          - intros I. apply in_app_or in I. destruct I as [I|[I|[]]]; [|congruence]. destruct (J3 I) as (tj & T1 & T2). exists tj. split; [exact T1|]. apply (frame h); [exact T2|].
            intros x X. apply KEEP. apply in_concat. exists fpj. split; [apply nth_error_In with j; exact J2|exact X].
          - intros N. apply J4. intros I. apply N. apply in_or_app. auto. }
      * apply (Permutation_NoDup (Permutation_sym PM)). apply nodup_app; auto. intros x I J. destruct (B8 x J) as (_ & _ & U). exact (U (O7 x I)).
      * intros x I. apply (Permutation_in _ PM) in I. apply in_app_or in I. destruct I as [I|I].
        { assert (h x = None) as HX by (apply O7; exact I). split; [|split; [congruence|exact (used _ _ _ _ _ _ O5 I)]].
          destruct (h0 x) eqn:E0; [|reflexivity]. rewrite B5 in HX by congruence. congruence. }
        { destruct (B8 x I) as (X1 & X2 & X3). split; [exact X1|]. split; [exact X2|]. rewrite KEEP; auto. }
Qed.

Lemma clone_ok : forall p fs, Forall op_spec p -> fits fs p -> NoDup (targets p) ->
  forall (h : heap) a us fp, holds h (KRec fs) (Ptr a) (Rec us) fp -> accepts p us /\ untouched fs p us -> cloned (clone_with malloc (runs malloc p) fs) fs h (Ptr a) us fp.
Proof.
  intros p fs FS FT ND h a us fp H [AC UT]. inversion H as [| | | | | |? ? ws ? fp0 E HF| |]; subst. unfold cloned, clone_with, alloc. set (d := malloc h). set (h1 := put h d (BRec (map init_word fs))).
  assert (h d = None) as FD by apply fresh. assert (a <> d) as AD by congruence.
  destruct (fields_length _ _ _ _ _ HF) as [LW LT].
  assert (built h h1 d fs us (map init_word fs) (map (fun _ => []) fs) []) as B.
  { assert (concat (map (fun _ : shape => @nil addr) fs) = []) as CN by (clear; induction fs; auto). constructor; auto; rewrite ?map_length, ?CN; auto.
    - apply put_same. - intros x U. apply put_other. congruence. - intros x X _. apply put_other. exact X.
    - intros i k K. exists (init_word k), []. repeat split; auto; [apply map_nth_error; exact K|rewrite (map_nth_error _ _ _ K); reflexivity|intros []].
    - constructor. - intros x []. }
  destruct (runs_ok fs a ws us fp0 h d p FS FT AC E HF h1 _ _ [] B ND) as (h' & wsd & fps & R & [B1 B2 B3 B4 B5 B9 B6 B7 B8]). cbn [app] in *.
  rewrite R. cbn [res_bind]. exists h', (Ptr d), (d :: concat fps). split; [reflexivity|].
  assert (forall x, In x (d :: concat fps) -> h x = None) as FRS by (intros x [<-|I]; [exact FD|exact (proj1 (B8 x I))]).
  split; [|split; [|split; [|split; [|split]]]]; auto.
  - econstructor; [exact B3|]. apply fields_build; auto. intros i k K. destruct (B6 i k K) as (w & fpi & W1 & W2 & W3 & W4). destruct (in_dec Nat.eq_dec i (targets p)) as [I|I].
    + destruct (W3 I) as (t & T1 & T2). exists w, t, fpi. auto.
    + destruct (W4 I) as [-> ->]. assert (exists t, nth_error us i = Some t) as [t T]. { destruct (nth_error us i) eqn:EU; [eexists; reflexivity|]. apply nth_error_None in EU. assert (i < length fs) by (apply nth_error_Some; congruence). lia. }
      exists (init_word k), t, []. repeat split; auto. pose proof (UT i k t K T I) as IN. destruct k; cbn in IN |- *; subst; try (constructor; fail); [change 0 with (length (@nil tree))|change 0 with (length (@nil str)); change (@nil tree) with (map Text [])]; constructor; constructor.
  - apply (frame h); [exact H|]. intros x I. apply B5. exact (used _ _ _ _ _ _ H I).
  - constructor; [|exact B7]. intros I. destruct (B8 d I) as (_ & X & _). congruence.
  - intros x I J. exact (used _ _ _ _ _ _ H I (FRS x J)).
  - intros x NI. apply B9; [intros ->; apply NI; left; reflexivity|intros J; apply NI; right; exact J].
Qed.

Lemma op_ok : forall o, op_spec o.
Proof.
  induction o using op_ind'; unfold op_spec; cbn [target fits_op accepts_op]; intros fs0 src dst h ws ts wsd fp FT HS HF AC HD LN DF.
  - destruct (fields_nth _ _ _ _ _ _ _ HF FT) as (w & t & fp' & E1 & E2 & E3 & E4). cbn [step]. rewrite (field_ok _ _ _ _ _ HS E1). cbn [res_bind]. inversion E3; subst; cbn [is_null]; try reflexivity; exfalso; apply AC; exact E2.
  - destruct FT as [F1 F2]. destruct (fields_nth _ _ _ _ _ _ _ HF F1) as (w & t & fp' & E1 & E2 & E3 & E4). destruct (fields_nth _ _ _ _ _ _ _ HF F2) as (w2 & t2 & fp2 & G1 & G2 & G3 & G4). cbn [step].
    rewrite (field_ok _ _ _ _ _ HS E1). cbn [res_bind]. rewrite (field_ok _ _ _ _ _ HS G1). cbn [res_bind]. inversion E3; subst; inversion G3; subst; cbn [is_null andb]; auto. destruct AC as [AC|AC]; exfalso; apply AC; assumption.
  - destruct (fields_nth _ _ _ _ _ _ _ HF FT) as (w & t & fp' & E1 & E2 & E3 & E4). cbn [step]. rewrite (field_ok _ _ _ _ _ HS E1). cbn [res_bind]. inversion E3; subst; [destruct AC as [AC _]; exfalso; apply AC; exact E2|].
    destruct s; [destruct AC as [_ AC]; exfalso; apply AC; exact E2|reflexivity].
  - destruct FT as [gs FT]. destruct (fields_nth _ _ _ _ _ _ _ HF FT) as (w & t & fp' & E1 & E2 & E3 & E4). cbn [step]. rewrite (field_ok _ _ _ _ _ HS E1). cbn [res_bind]. inversion E3; subst; cbn [is_null]; try reflexivity; exfalso; apply AC; exact E2.
  - intros IN. destruct (fields_nth _ _ _ _ _ _ _ HF FT) as (w & t & fp' & E1 & E2 & E3 & E4). cbn [step]. rewrite (field_ok _ _ _ _ _ HS E1). cbn [res_bind].
    assert (i < length wsd) as LI by (rewrite LN; apply nth_error_Some; congruence). inversion E3 as [|a s EA EC| | | | | | |]; subst; cbn [strdup].
    + cbn [res_bind fst snd]. rewrite (set_field_ok _ _ _ _ _ HD LI). eexists. exists Null, Nul, KStr, []. split; [reflexivity|]. rewrite put_same. repeat split; auto; [constructor|constructor|intros x []|]. intros x X NI. apply put_other. exact X.
    + unfold text. rewrite EA. cbn [res_bind]. unfold alloc. set (d := malloc h). assert (h d = None) as FD by apply fresh. assert (dst <> d) as DD by congruence. cbn [res_bind fst snd]. rewrite (set_field_ok _ _ wsd); [|rewrite put_other; auto|exact LI].
      rewrite EC. eexists. exists (Ptr d), (Text s), KStr, [d]. split; [reflexivity|]. rewrite put_same. repeat split; auto.
      * constructor; auto. rewrite put_other, put_same; auto.
      * constructor; [intros []|constructor].
      * intros x [<-|[]]. exact FD.
      * intros x X NI. rewrite !put_other; auto. intros ->. apply NI. left. reflexivity.
  - intros IN. destruct (fields_nth _ _ _ _ _ _ _ HF FT) as (w & t & fp' & E1 & E2 & E3 & E4). cbn [step]. rewrite (field_ok _ _ _ _ _ HS E1). cbn [res_bind].
    assert (i < length wsd) as LI by (rewrite LN; apply nth_error_Some; congruence). inversion E3; subst. rewrite (set_field_ok _ _ _ _ _ HD LI). eexists. exists (Int z), (Num z), KInt, []. split; [reflexivity|]. rewrite put_same. repeat split; auto; [constructor|constructor|intros x []|]. intros x X NI. apply put_other. exact X.
  - intros IN. destruct (fields_nth _ _ _ _ _ _ _ HF FT) as (w & t & fp' & E1 & E2 & E3 & E4). cbn [step]. rewrite (field_ok _ _ _ _ _ HS E1). cbn [res_bind].
    assert (i < length wsd) as LI by (rewrite LN; apply nth_error_Some; congruence). inversion E3 as [| | | |a s EA| | | |]; subst; [destruct AC as [AC _]; exfalso; apply AC; exact E2|]. unfold text. rewrite EA. cbn [res_bind]. rewrite Nat.ltb_irrefl. rewrite firstn_all.
    unfold alloc. set (d := malloc h). assert (h d = None) as FD by apply fresh. assert (dst <> d) as DD by congruence. rewrite (set_field_ok _ _ wsd); [|rewrite put_other; auto|exact LI].
    eexists. exists (Buf d (length s)), (Bytes s), KBuf, [d]. split; [reflexivity|]. rewrite put_same. repeat split; auto.
    * constructor; auto. rewrite put_other, put_same; auto.
    * constructor; [intros []|constructor].
    * intros x [<-|[]]. exact FD.
    * intros x X NI. rewrite !put_other; auto. intros ->. apply NI. left. reflexivity.
  - intros IN. destruct FT as (FT & FP & NDP). destruct (fields_nth _ _ _ _ _ _ _ HF FT) as (w & t & fp' & E1 & E2 & E3 & E4). cbn [step]. fold (runs malloc). rewrite (field_ok _ _ _ _ _ HS E1). cbn [res_bind].
    assert (i < length wsd) as LI by (rewrite LN; apply nth_error_Some; congruence). inversion E3 as [| | | | | |? a ws' us fpa EA HFA| |]; subst; cbn [is_null].
    + exists h, Null, Nul, (KRec fs), []. split; [reflexivity|]. rewrite (map_nth_error _ _ _ FT) in IN. cbn in IN. rewrite (upd_id _ _ _ _ IN). split; [exact FT|]. split; [exact E2|]. split; [exact HD|]. split; [constructor|]. split; [apply NoDup_nil|]. split; [intros x []|auto].
    + destruct (clone_ok p fs H FP NDP h a us (a :: fpa) E3 (AC us E2)) as (h1 & w1 & fp1 & C1 & C2 & C3 & C4 & C5 & C6 & C8).
      assert (forall x, h x <> None -> h1 x = h x) as C7 by (intros x U; apply C8; intros I; exact (U (C5 x I))). rewrite C1. cbn [res_bind fst snd].
      assert (h1 dst = Some (BRec wsd)) as D1 by (rewrite C7; congruence). rewrite (set_field_ok _ _ _ _ _ D1 LI). eexists. exists w1, (Rec us), (KRec fs), fp1. split; [reflexivity|]. rewrite put_same.
      assert (~ In dst fp1) as DN by (intros I; pose proof (C5 _ I); congruence). repeat split; auto.
      * apply (frame h1); [exact C2|]. intros x I. apply put_other. intros ->. contradiction.
      * intros x X NI. rewrite put_other; auto.
  - intros IN. destruct FT as (FT & FP & NDP). destruct (fields_nth _ _ _ _ _ _ _ HF FT) as (w & t & fp' & E1 & E2 & E3 & E4). cbn [step]. fold (runs malloc). rewrite (field_ok _ _ _ _ _ HS E1). cbn [res_bind].
    assert (i < length wsd) as LI by (rewrite LN; apply nth_error_Some; congruence). inversion E3 as [| | | | | | |? first l ? HC|]; subst.
    rewrite (map_nth_error _ _ _ FT) in IN. cbn in IN.
    destruct (each_ok (clone_with malloc (runs malloc p) fs) (fun us => accepts p us /\ untouched fs p us) fs dst i wsd h (clone_ok p fs H FP NDP) LI ltac:(congruence) l h first fp' None [] []) as (h' & first' & fpc & B1 & B2 & B3 & B4 & B5 & B6); auto.
    { intros us I. exact (AC l us E2 I). } { cbn [length]. rewrite (upd_id _ _ _ _ IN). exact HD. } { constructor. } { constructor. } { intros x []. }
    cbn [length Nat.add app] in *. exists h', (Lst (length l) first'), (Seq l), (KList fs), fpc. split; [exact B1|]. repeat split; auto. constructor. exact B3.
Qed.

Theorem clone_cloned : forall fs p h a us fp, fits fs p -> NoDup (targets p) -> holds h (KRec fs) (Ptr a) (Rec us) fp -> accepts p us -> untouched fs p us ->
  cloned (clone malloc fs p) fs h (Ptr a) us fp.
Proof. intros. apply clone_ok; auto. apply Forall_forall. intros o _. apply op_ok. Qed.
End Clone.

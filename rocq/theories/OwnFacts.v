(** Facts about the memory the parsers own: which blocks are allocated before and after each function of OwnModel.v.
    The state of the memory is described by how many times each block occurs in it. *)
From Coq Require Import Bool List Arith Lia Permutation.
From Verif Require Import OwnModel.
Import ListNotations.

Definition occ (x : block) (l : list block) : nat := count_occ Nat.eq_dec l x.
Definition one (x b : block) : nat := if Nat.eq_dec b x then 1 else 0.
Lemma occ_nil x : occ x [] = 0. Proof. reflexivity. Qed.
Lemma occ_cons x b l : occ x (b :: l) = one x b + occ x l.
Proof. unfold occ, one. cbn. destruct (Nat.eq_dec b x); reflexivity. Qed.
Lemma occ_app x l k : occ x (l ++ k) = occ x l + occ x k.
Proof. apply count_occ_app. Qed.
Lemma one_self b : one b b = 1.
Proof. unfold one. destruct (Nat.eq_dec b b); congruence. Qed.
Global Opaque occ one.

(** *** What a structure owns *)
Definition own_opt {A} (own : A -> list block) (o : option A) : list block := match o with Some x => own x | None => [] end.
Definition own_list {A} (own : A -> list block) (l : olist A) : list block := flat_map (fun e => fst e :: own (snd e)) l.
Definition own_b (o : option block) : list block := match o with Some b => [b] | None => [] end.
Definition own_fs (l : list (option block)) : list block := flat_map own_b l.
Definition own_param (p : param) : list block := p_self p :: own_b (p_name p) ++ own_b (p_value p).
Definition own_params := own_list own_param.
Definition own_obj (o : obj) : list block := self o :: own_fs (fs o) ++ own_params (ps o) ++ own_params (hs o).
Definition own_addr (a : addr) : list block := own_obj (a_obj a) ++ own_opt own_obj (a_url a).
Definition own_body (y : bodyo) : list block :=
  y_self y :: y_list y :: own_b (y_body y) ++ own_opt own_obj (y_type y) ++ own_list own_obj (y_headers y).
Definition own_elem (e : elem) : list block := match e with Flat o => own_obj o | Addr a => own_addr a end.
Definition own_msg (g : msgo) : list block :=
  g_self g :: own_fs (g_fs g) ++ own_opt own_obj (g_uri g) ++ own_opt own_addr (g_from g) ++ own_opt own_addr (g_to g) ++
  own_opt own_obj (g_type g) ++ own_opt own_obj (g_length g) ++ own_opt own_obj (g_call_id g) ++ own_opt own_obj (g_cseq g) ++
  own_opt own_obj (g_mime g) ++ own_list own_elem (g_lists g) ++ own_list own_body (g_bodies g).

(** *** The state of the memory *)
Definition lost (m : mem) : nat := nodes_lost m + types_lost m.
(** the memory is what [f] counts, and nothing else unless something was lost since [d]; a node is only lost when an
    allocation fails *)
Definition holds (d : mem) (f : block -> nat) (m : mem) : Prop :=
  exists L, (forall x, occ x (live m) = f x + occ x L) /\ lost d <= lost m /\ (lost m = lost d -> L = []) /\ nodes_lost m + failed d <= failed m + nodes_lost d.
Definition wp {A} (p : prog A) (Q : A -> mem -> Prop) (m : mem) : Prop := exists x m', p m = Some (x, m') /\ Q x m'.

Lemma holds_eq d f g m : holds d f m -> (forall x, f x = g x) -> holds d g m.
Proof. intros (L & A & B) E. exists L. split; [|exact B]. intro x. rewrite <- E. apply A. Qed.
Lemma wp_ret A (x : A) (Q : A -> mem -> Prop) m : Q x m -> wp (ret x) Q m.
Proof. intro H. exists x, m. split; [reflexivity|exact H]. Qed.
Lemma wp_bind A B (p : prog A) (k : A -> prog B) (Q : B -> mem -> Prop) m : wp p (fun x m => wp (k x) Q m) m -> wp (bind p k) Q m.
Proof. intros (x & m' & E & y & m'' & F & H). exists y, m''. split; [|exact H]. unfold bind. rewrite E. exact F. Qed.
Lemma wp_mono A (p : prog A) (Q R : A -> mem -> Prop) m : wp p Q m -> (forall x m, Q x m -> R x m) -> wp p R m.
Proof. intros (x & m' & E & H) I. exists x, m'. split; [exact E|apply I, H]. Qed.
Lemma wp_ask d f m (Q : nat -> mem -> Prop) : holds d f m -> (forall n m', holds d f m' -> Q n m') -> wp ask Q m.
Proof. intros H K. eexists _, _. split; [reflexivity|]. apply K. destruct H as (L & A & B). exists L. split; [exact A|exact B]. Qed.
Lemma wp_test d f m (Q : bool -> mem -> Prop) : holds d f m -> (forall b m', holds d f m' -> Q b m') -> wp test Q m.
Proof.
  intros H K. unfold test. apply wp_bind, (wp_ask d f m); [exact H|]. intros n m' H'. apply wp_ret, K, H'.
Qed.
Lemma wp_new d f m (Q : option block -> mem -> Prop) : holds d f m ->
  (forall m', holds d f m' -> Q None m') -> (forall b m', holds d (fun x => one x b + f x) m' -> Q (Some b) m') -> wp new Q m.
Proof.
  intros H N K. unfold new. apply wp_bind, (wp_test d f m); [exact H|]. clear m H. intros [] m H; apply wp_bind; (eexists _, _; split; [reflexivity|]); apply wp_ret.
  - apply K. destruct H as (L & A & B). exists L. split; [|exact B]. intro x. cbn [live]. rewrite occ_cons, A. lia.
  - apply N. destruct H as (L & A & B & C & D). exists L. split; [exact A|]. unfold lost in *. cbn [nodes_lost types_lost failed]. repeat split; auto. lia.
Qed.
Lemma remove_one_occ b l : 1 <= occ b l -> exists k, remove_one b l = Some k /\ forall x, occ x l = one x b + occ x k.
Proof.
  induction l as [|c l IH]; intro H; [rewrite occ_nil in H; lia|]. cbn [remove_one]. destruct (Nat.eqb_spec b c).
  - subst c. exists l. split; [reflexivity|]. intro x. apply occ_cons.
  - rewrite occ_cons in H. assert (one b c = 0) as Z. { Local Transparent one. unfold one. destruct (Nat.eq_dec c b); congruence. }
    destruct (IH ltac:(lia)) as (k & -> & E). exists (c :: k). split; [reflexivity|]. intro x. rewrite !occ_cons, E. lia.
Qed.
Global Opaque one.
Lemma wp_free d f o m (Q : unit -> mem -> Prop) : holds d f m -> (forall x, occ x (own_b o) <= f x) ->
  (forall m', holds d (fun x => f x - occ x (own_b o)) m' -> Q tt m') -> wp (free o) Q m.
Proof.
  destruct o as [b|]; intros H S K.
  - destruct H as (L & A & B). cbn [free own_b] in *.
    assert (forall x, one x b <= f x) as S' by (intro x; specialize (S x); rewrite occ_cons, occ_nil in S; lia). clear S.
    destruct (remove_one_occ b (live m)) as (k & E & F). { rewrite A. specialize (S' b). rewrite one_self in S'. lia. }
    eexists tt, _. split; [rewrite E; reflexivity|]. apply K. exists L. split; [|exact B]. intro x. cbn [live].
    specialize (A x). specialize (F x). specialize (S' x). rewrite occ_cons, occ_nil. lia.
  - apply wp_ret, K. apply (holds_eq d f); [exact H|]. intro x. cbn. rewrite occ_nil. lia.
Qed.
Lemma lose_holds d f (l : list block) m m' : holds d f m -> (forall x, occ x l <= f x) -> live m' = live m -> lost m < lost m' ->
  nodes_lost m' + failed m <= failed m' + nodes_lost m -> holds d (fun x => f x - occ x l) m'.
Proof.
  intros (L & A & B & C & D) S E F G. exists (l ++ L). split; [|split; [lia|split; [intro; exfalso; lia|lia]]]. intro x. rewrite E, occ_app, A. specialize (S x). lia.
Qed.
Lemma wp_lose_type d f l m (Q : unit -> mem -> Prop) : holds d f m -> (forall x, occ x l <= f x) ->
  (forall m', holds d (fun x => f x - occ x l) m' -> Q tt m') -> wp lose_type Q m.
Proof. intros H S K. eexists tt, _. split; [reflexivity|]. apply K, (lose_holds d f l m); [exact H|exact S|reflexivity|unfold lost; cbn; lia|cbn; lia]. Qed.

(** *** Specifications *)
(** [p] turns what [x] owns into what the answer owns *)
Definition keeps_at {A} (own : A -> list block) (p : A -> prog (bool * A)) (y : A) : Prop :=
  forall d f m (Q : bool * A -> mem -> Prop), holds d f m -> (forall x, occ x (own y) <= f x) ->
  (forall r m', holds d (fun x => f x - occ x (own y) + occ x (own (snd r))) m' -> Q r m') -> wp (p y) Q m.
Definition keeps {A} (own : A -> list block) (p : A -> prog (bool * A)) : Prop := forall y, keeps_at own p y.
(** [fr] frees what [x] owns *)
Definition frees {A} (own : A -> list block) (fr : A -> prog unit) : Prop :=
  forall y d f m (Q : unit -> mem -> Prop), holds d f m -> (forall x, occ x (own y) <= f x) ->
  (forall m', holds d (fun x => f x - occ x (own y)) m' -> Q tt m') -> wp (fr y) Q m.
(** [init] allocates a structure with [fresh], or nothing *)
Definition makes {A} (own : A -> list block) (fresh : A -> Prop) (init : prog (option A)) : Prop :=
  forall d f m (Q : option A -> mem -> Prop), holds d f m -> (forall m', holds d f m' -> Q None m') ->
  (forall y m', fresh y -> holds d (fun x => occ x (own y) + f x) m' -> Q (Some y) m') -> wp init Q m.

Lemma own_list_cons A (own : A -> list block) b y l x : occ x (own_list own ((b, y) :: l)) = one x b + occ x (own y) + occ x (own_list own l).
Proof. change (own_list own ((b, y) :: l)) with (b :: (own y ++ own_list own l)). rewrite occ_cons, occ_app. lia. Qed.
Lemma own_list_snoc A (own : A -> list block) b y l x : occ x (own_list own (l ++ [(b, y)])) = one x b + occ x (own y) + occ x (own_list own l).
Proof.
  induction l as [|[c z] l IH].
  - cbn [app]. rewrite own_list_cons. lia.
  - cbn [app]. rewrite !own_list_cons, IH. lia.
Qed.
Lemma own_list_nil A (own : A -> list block) x : occ x (own_list own []) = 0.
Proof. reflexivity. Qed.
Lemma occ_b_some x b : occ x (own_b (Some b)) = one x b.
Proof. cbn. rewrite occ_cons, occ_nil. lia. Qed.
Lemma occ_b_none x : occ x (own_b None) = 0.
Proof. reflexivity. Qed.
Lemma occ_fs_nil x : occ x (own_fs []) = 0. Proof. reflexivity. Qed.
Lemma occ_fs_cons x o l : occ x (own_fs (o :: l)) = occ x (own_b o) + occ x (own_fs l).
Proof. change (own_fs (o :: l)) with (own_b o ++ own_fs l). apply occ_app. Qed.
Lemma occ_opt_some A (own : A -> list block) y x : occ x (own_opt own (Some y)) = occ x (own y). Proof. reflexivity. Qed.
Lemma occ_opt_none A (own : A -> list block) x : occ x (own_opt own None) = 0. Proof. reflexivity. Qed.
Lemma occ_param x s n v : occ x (own_param (mkParam s n v)) = one x s + occ x (own_b n) + occ x (own_b v).
Proof. unfold own_param. cbn [p_self p_name p_value]. rewrite occ_cons, occ_app. lia. Qed.
Lemma occ_obj x s a l k : occ x (own_obj (mkObj s a l k)) = one x s + occ x (own_fs a) + occ x (own_list own_param l) + occ x (own_list own_param k).
Proof. unfold own_obj, own_params. cbn [self fs ps hs]. rewrite occ_cons, !occ_app. lia. Qed.
Lemma occ_addr x o u : occ x (own_addr (mkAddr o u)) = occ x (own_obj o) + occ x (own_opt own_obj u).
Proof. unfold own_addr. cbn [a_obj a_url]. apply occ_app. Qed.
Lemma occ_body x s l b t h : occ x (own_body (mkBodyo s l b t h)) = one x s + one x l + occ x (own_b b) + occ x (own_opt own_obj t) + occ x (own_list own_obj h).
Proof. unfold own_body. cbn [y_self y_list y_body y_type y_headers]. rewrite !occ_cons, !occ_app. lia. Qed.
Lemma occ_msg x s a b c d e f g h i j k : occ x (own_msg (mkMsgo s a b c d e f g h i j k)) =
  one x s + occ x (own_fs a) + occ x (own_opt own_obj b) + occ x (own_opt own_addr c) + occ x (own_opt own_addr d) + occ x (own_opt own_obj e) +
  occ x (own_opt own_obj f) + occ x (own_opt own_obj g) + occ x (own_opt own_obj h) + occ x (own_opt own_obj i) + occ x (own_list own_elem j) + occ x (own_list own_body k).
Proof. unfold own_msg. cbn [g_self g_fs g_uri g_from g_to g_type g_length g_call_id g_cseq g_mime g_lists g_bodies]. rewrite !occ_cons, !occ_app. lia. Qed.

Ltac norm := cbv beta iota zeta delta [own_params fst snd negb andb orb
    self fs ps hs put put_nth with_ps with_hs p_self p_name p_value a_obj a_url y_self y_list y_body y_type y_headers
    g_self g_fs g_uri g_from g_to g_type g_length g_call_id g_cseq g_mime g_lists g_bodies repeat app
    set_fs set_uri set_from set_to set_type set_length set_call_id set_cseq set_mime set_lists set_bodies] in *.
Ltac occs := norm; rewrite ?own_list_snoc, ?own_list_cons, ?own_list_nil, ?occ_msg, ?occ_body, ?occ_addr, ?occ_opt_some, ?occ_opt_none, ?occ_addr, ?occ_opt_some, ?occ_opt_none, ?own_list_snoc, ?own_list_cons, ?own_list_nil, ?occ_obj, ?own_list_snoc, ?own_list_cons, ?occ_param,
   ?occ_fs_cons, ?occ_fs_nil, ?occ_b_some, ?occ_b_none, ?own_list_nil, ?occ_app, ?occ_cons, ?occ_nil, ?occ_b_some, ?occ_b_none in *.
Ltac count := let x := fresh "x" in intro x; occs; try lia.
(** put what the memory is in the form the goal counts *)
Ltac close H := apply (holds_eq _ _ _ _ H); count.

Lemma wp_list_add A (own : A -> list block) (l : olist A) y d f m (Q : olist A -> mem -> Prop) : holds d f m ->
  (forall x, occ x (own y) + occ x (own_list own l) <= f x) ->
  (forall l' m', holds d (fun x => f x - occ x (own y) - occ x (own_list own l) + occ x (own_list own l')) m' -> Q l' m') -> wp (list_add l y) Q m.
Proof.
  intros H S K. unfold list_add, new. apply wp_bind, wp_bind, (wp_test d f m); [exact H|]. clear m H. intros [] m H; apply wp_bind; (eexists _, _; split; [reflexivity|]); apply wp_ret.
  - apply wp_ret, K. assert (holds d (fun x => one x (next m) + f x) (mkMem (next m :: live m) (Datatypes.S (next m)) (nodes_lost m) (types_lost m) (failed m) (choices m))) as H'.
    { destruct H as (L & A0 & B). exists L. split; [|exact B]. intro x. cbn [live]. rewrite occ_cons, A0. lia. }
    apply (holds_eq _ _ _ _ H'). intro x. specialize (S x). rewrite own_list_snoc. lia.
  - apply wp_bind. eexists _, _. split; [reflexivity|]. apply wp_ret, K.
    match goal with |- holds _ _ ?m' => assert (holds d (fun x => f x - occ x (own y)) m') as H' end.
    { apply (lose_holds d f (own y) m); [exact H|intro x; specialize (S x); lia|reflexivity|unfold lost; cbn; lia|cbn; lia]. }
    apply (holds_eq _ _ _ _ H'). intro x. specialize (S x). lia.
Qed.
Lemma frees_list A (own : A -> list block) fr : frees own fr -> frees (own_list own) (list_free fr).
Proof.
  intros F l. induction l as [|[b y] l IH]; intros d f m Q H S K; cbn [list_free].
  - apply wp_ret, K. close H.
  - assert (forall x, one x b + occ x (own y) + occ x (own_list own l) <= f x) as S' by (intro x; specialize (S x); rewrite own_list_cons in S; lia).
    apply wp_bind, (wp_free d f (Some b) m); [exact H|intro x; specialize (S' x); rewrite occ_b_some; lia|]. clear m H. intros m H.
    apply wp_bind, (F y d _ m _ H); [intro x; specialize (S' x); rewrite occ_b_some; lia|]. clear m H. intros m H.
    apply (IH d _ m _ H); [intro x; specialize (S' x); rewrite occ_b_some; lia|]. clear m H. intros m H. apply K.
    apply (holds_eq _ _ _ _ H). intro x. rewrite own_list_cons, occ_b_some. lia.
Qed.
Lemma frees_fs : frees own_fs free_all.
Proof.
  intros l. induction l as [|o l IH]; intros d f m Q H S K; cbn [free_all].
  - apply wp_ret, K. close H.
  - assert (forall x, occ x (own_b o) + occ x (own_fs l) <= f x) as S' by (intro x; specialize (S x); rewrite occ_fs_cons in S; lia).
    apply wp_bind, (wp_free d f o m); [exact H|intro x; specialize (S' x); lia|]. clear m H. intros m H.
    apply (IH d _ m _ H); [intro x; specialize (S' x); lia|]. clear m H. intros m H. apply K. apply (holds_eq _ _ _ _ H). intro x. rewrite occ_fs_cons. lia.
Qed.
Lemma frees_opt A (own : A -> list block) fr : frees own fr -> frees (own_opt own) (opt_free fr).
Proof.
  intros F [y|] d f m Q H S K; cbn [opt_free].
  - apply (F y d f m Q H S K).
  - apply wp_ret, K. close H.
Qed.
Lemma keeps_loop A (own : A -> list block) p : keeps own p -> forall n, keeps own (loop n p).
Proof.
  intros P n. induction n as [|n IH]; intros y d f m Q H S K; cbn [loop].
  - apply wp_ret, K. close H. specialize (S x). lia.
  - apply wp_bind, (P y d f m _ H S). clear m H. intros [[] z] m H; cbn [fst snd] in *.
    + apply (IH z d _ m _ H); [intro x; lia|]. clear m H. intros r m H. apply K. apply (holds_eq _ _ _ _ H). intro x. lia.
    + apply wp_ret, K. apply (holds_eq _ _ _ _ H). intro x. cbn [snd]. lia.
Qed.

Lemma keeps_intro A (own : A -> list block) p y :
  (forall d F m, holds d (fun x => occ x (own y) + F x) m -> wp (p y) (fun r m' => holds d (fun x => occ x (own (snd r)) + F x) m') m) -> keeps_at own p y.
Proof.
  intros I d f m Q H S K. eapply wp_mono; [apply (I d (fun x => f x - occ x (own y)) m)|].
  - apply (holds_eq _ _ _ _ H). intro x. specialize (S x). lia.
  - intros r m' H'. apply K. apply (holds_eq _ _ _ _ H'). intro x. lia.
Qed.
Lemma frees_intro A (own : A -> list block) fr :
  (forall y d F m, holds d (fun x => occ x (own y) + F x) m -> wp (fr y) (fun _ m' => holds d F m') m) -> frees own fr.
Proof.
  intros I y d f m Q H S K. eapply wp_mono; [apply (I y d (fun x => f x - occ x (own y)) m)|].
  - apply (holds_eq _ _ _ _ H). intro x. specialize (S x). lia.
  - intros [] m' H'. apply K, H'.
Qed.

Ltac use L := match goal with
  | H : holds ?d ?f ?m |- wp _ ?Q ?m => apply (L d f m Q H); [count|]; clear m H; intros
  end.
Ltac named := match goal with |- forall _ : bool * _, _ => let r := fresh "r" in intro r; destruct r as [[] r] | _ => idtac end.
Ltac step := match goal with
  | |- wp (bind _ _) _ _ => apply wp_bind
  | |- wp (unless _ _) _ _ => unfold unless
  | |- wp (obtain _ _) _ _ => unfold obtain
  | |- wp (ret _) _ _ => apply wp_ret; norm
  | |- wp (if ?b then _ else _) _ _ => match type of b with bool => destruct b end
  | H : holds ?d ?f ?m |- wp test ?Q ?m => apply (wp_test d f m Q H); clear m H; let b := fresh "b" in intros b m H
  | H : holds ?d ?f ?m |- wp ask ?Q ?m => apply (wp_ask d f m Q H); clear m H; let n := fresh "n" in intros n m H
  | H : holds ?d ?f ?m |- wp new ?Q ?m => apply (wp_new d f m Q H); clear m H; [intros m H|let b := fresh "b" in intros b m H]
  | H : holds ?d ?f ?m |- wp (free ?o) ?Q ?m => apply (wp_free d f o m Q H); [clear H; count|clear m H; intros m H]
  end; norm.
Ltac steps := repeat step.
Ltac call L := match goal with
  | H : holds ?d ?f ?m |- wp _ ?Q ?m => apply (L d f m Q H); [clear H; count|clear m H; let r := fresh "r" in intro r; try destruct r as [[] r]; intros m H]; norm
  end.
Ltac done := match goal with H : holds _ _ ?m |- holds _ _ ?m => close H end.

(** *** Parameters *)
Lemma param_free_ok : frees own_param param_free.
Proof. apply frees_intro. intros [s n v] d F m H. unfold param_free. steps. all: done. Qed.
Definition params_free_ok := frees_list _ _ _ param_free_ok.

Lemma param_add_ok n v : forall l d f m (Q : bool * olist param -> mem -> Prop), holds d f m -> 
  (forall x, occ x (own_params l) + occ x (own_b n) + occ x (own_b v) <= f x) ->
  (forall (r : bool * olist param) m', holds d (fun x => f x - occ x (own_params l) + occ x (own_params (snd r)) - (if fst r : bool then occ x (own_b n) + occ x (own_b v) else 0)) m' -> Q r m') ->
  wp (param_add l n v) Q m.
Proof.
  intros l d f m Q H S K. unfold param_add. steps.
  - apply K. close H. specialize (S x). unfold own_params in *. lia.
  - apply (wp_list_add _ own_param l (mkParam b n v) d _ m _ H).
    + intro x. specialize (S x). unfold own_params in *. rewrite occ_param. lia.
    + clear m H. intros l' m H. apply wp_ret, K. norm. apply (holds_eq _ _ _ _ H). intro x. specialize (S x). unfold own_params in *. rewrite occ_param. cbn [snd]. lia.
Qed.
Ltac padd := match goal with
  | H : holds ?d ?f ?m |- wp (param_add ?l ?n ?v) ?Q ?m => apply (param_add_ok n v l d f m Q H); [clear H; count|clear m H; let r := fresh "r" in intros [[] r] m H]; norm
  end.
Lemma param_round_ok : keeps own_params param_round.
Proof. intro l. apply keeps_intro. intros d F m H. unfold param_round. repeat (step || padd). all: done. Qed.
Lemma uheader_round_ok : keeps own_params uheader_round.
Proof. intro l. apply keeps_intro. intros d F m H. unfold uheader_round. repeat (step || padd). all: done. Qed.
Ltac kcall L := match goal with
  | H : holds ?d ?f ?m |- wp (_ ?y) ?Q ?m => apply (L y d f m Q H); [clear H; count|clear m H; let r := fresh "r" in intros [[] r] m H]; norm
  end.
Lemma uri_params_ok : keeps own_params uri_params.
Proof.
  intro l. apply keeps_intro. intros d F m H. unfold uri_params. steps.
  kcall (keeps_loop _ own_params _ param_round_ok n); steps; try done; kcall param_round_ok; done.
Qed.
Lemma gen_params_ok : keeps own_params gen_params.
Proof.
  intro l. apply keeps_intro. intros d F m H. unfold gen_params. steps.
  kcall (keeps_loop _ own_params _ param_round_ok n); steps; try done; kcall param_round_ok; done.
Qed.
Lemma uri_headers_ok : keeps own_params uri_headers.
Proof.
  intro l. apply keeps_intro. intros d F m H. unfold uri_headers. steps; [done|].
  kcall (keeps_loop _ own_params _ uheader_round_ok (S n)); done.
Qed.

(** *** Structures of character pointers *)
Lemma obj_free_ok : frees own_obj obj_free.
Proof.
  apply frees_intro. intros [s a l k] d F m H. unfold obj_free. norm.
  apply wp_bind, (frees_fs a d _ m _ H); [count|]. clear m H. intros m H.
  apply wp_bind, (params_free_ok l d _ m _ H); [count|]. clear m H. intros m H.
  apply wp_bind, (params_free_ok k d _ m _ H); [count|]. clear m H. intros m H. steps. done.
Qed.
Definition fresh_obj (k : nat) (o : obj) : Prop := o = mkObj (self o) (repeat None k) [] [].
Lemma occ_repeat_none k x : occ x (own_fs (repeat None k)) = 0.
Proof. induction k; cbn [repeat]; [reflexivity|]. rewrite occ_fs_cons, occ_b_none. exact IHk. Qed.
Lemma obj_init_ok k : makes own_obj (fresh_obj k) (obj_init k).
Proof.
  intros d f m Q H N K. unfold obj_init. steps; [apply N, H|]. apply K; [reflexivity|]. apply (holds_eq _ _ _ _ H). intro x.
  rewrite occ_obj, occ_repeat_none. rewrite own_list_nil. lia.
Qed.
Definition keeps_fresh {A} (own : A -> list block) (fresh : A -> Prop) (p : A -> prog (bool * A)) : Prop := forall y, fresh y -> keeps_at own p y.
Ltac obj_start := let s := fresh "s" in intros [s ? ? ?] E; unfold fresh_obj in E; cbn in E; injection E as -> -> ->; apply keeps_intro; intros d F m H.
Ltac osteps := repeat (step || padd || match goal with
  | |- wp (gen_params _) _ _ => kcall gen_params_ok
  | |- wp (uri_params _) _ _ => kcall uri_params_ok
  | |- wp (uri_headers _) _ _ => kcall uri_headers_ok
  | |- wp (fill _ _) _ _ => cbn [fill]
  | |- wp (with_params _ _) _ _ => unfold with_params
  end).
Lemma uri_parse_ok : keeps_fresh own_obj (fresh_obj 6) uri_parse.
Proof. obj_start. unfold uri_parse. osteps. all: done. Qed.
Lemma ctype_parse_ok : keeps_fresh own_obj (fresh_obj 2) ctype_parse.
Proof. obj_start. unfold ctype_parse. osteps. all: done. Qed.
Lemma aenc_parse_ok : keeps_fresh own_obj (fresh_obj 1) aenc_parse.
Proof. obj_start. unfold aenc_parse. osteps. all: done. Qed.
Lemma cinfo_parse_ok : keeps_fresh own_obj (fresh_obj 1) cinfo_parse.
Proof. obj_start. unfold cinfo_parse. osteps. all: done. Qed.
Lemma clen_parse_ok : keeps_fresh own_obj (fresh_obj 1) clen_parse.
Proof. obj_start. unfold clen_parse. osteps. all: done. Qed.
Lemma cseq_parse_ok : keeps_fresh own_obj (fresh_obj 2) cseq_parse.
Proof. obj_start. unfold cseq_parse. osteps. all: done. Qed.
Lemma call_id_parse_ok : keeps_fresh own_obj (fresh_obj 2) call_id_parse.
Proof. obj_start. unfold call_id_parse. osteps. all: done. Qed.
Lemma header_fill_ok : keeps_fresh own_obj (fresh_obj 2) header_fill.
Proof. obj_start. unfold header_fill. osteps. all: done. Qed.
Lemma via_parse_ok : keeps_fresh own_obj (fresh_obj 5) via_parse.
Proof. obj_start. unfold via_parse. osteps. all: done. Qed.

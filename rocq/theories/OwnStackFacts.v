(** Facts about the memory that events, transactions and dialogs own: OwnStack.v *)
From Coq Require Import Bool List Arith Lia Permutation.
From Verif Require Import OwnModel OwnFacts OwnMsg OwnStack.
Import ListNotations.

Definition own_evt (e : evt) : list block := e_self e :: own_opt own_msg (e_sip e).
Definition own_ctx (c : ctx) : list block := c_self c :: own_b (c_dest c).
Definition own_fifo (q : fifo) : list block := q_self q :: own_b (q_lock q) ++ own_b (q_sem q) ++ own_list own_evt (q_events q).
Definition own_trn (t : trn) : list block :=
  t_self t :: own_b (t_node t) ++ own_opt own_ctx (t_ctx t) ++ own_opt own_fifo (t_fifo t) ++ own_opt own_obj (t_via t) ++ own_opt own_addr (t_from t) ++
  own_opt own_addr (t_to t) ++ own_opt own_obj (t_call_id t) ++ own_opt own_obj (t_cseq t).
Definition own_dlg (l : dlg) : list block :=
  l_self l :: own_fs (l_texts l) ++ own_list own_addr (l_routes l) ++ own_opt own_addr (l_remote l) ++ own_opt own_addr (l_local l) ++ own_opt own_addr (l_contact l).
Lemma occ_evt x s g : occ x (own_evt (mkEvt s g)) = one x s + occ x (own_opt own_msg g).
Proof. unfold own_evt. cbn [e_self e_sip]. apply occ_cons. Qed.
Lemma occ_ctx x s o : occ x (own_ctx (mkCtx s o)) = one x s + occ x (own_b o).
Proof. unfold own_ctx. cbn [c_self c_dest]. apply occ_cons. Qed.
Lemma occ_fifo x s a b l : occ x (own_fifo (mkFifo s a b l)) = one x s + occ x (own_b a) + occ x (own_b b) + occ x (own_list own_evt l).
Proof. unfold own_fifo. cbn [q_self q_lock q_sem q_events]. rewrite occ_cons, !occ_app. lia. Qed.
Lemma occ_trn x s k a b c d e f g h : occ x (own_trn (mkTrn s k a b c d e f g h)) =
  one x s + occ x (own_b h) + occ x (own_opt own_ctx a) + occ x (own_opt own_fifo b) + occ x (own_opt own_obj c) + occ x (own_opt own_addr d) + occ x (own_opt own_addr e) +
  occ x (own_opt own_obj f) + occ x (own_opt own_obj g).
Proof. unfold own_trn. cbn [t_self t_kind t_ctx t_fifo t_via t_from t_to t_call_id t_cseq t_node]. rewrite occ_cons, !occ_app. lia. Qed.
Lemma occ_dlg x s a b c d e : occ x (own_dlg (mkDlg s a b c d e)) =
  one x s + occ x (own_fs a) + occ x (own_list own_addr b) + occ x (own_opt own_addr c) + occ x (own_opt own_addr d) + occ x (own_opt own_addr e).
Proof. unfold own_dlg. cbn [l_self l_texts l_routes l_remote l_local l_contact]. rewrite occ_cons, !occ_app. lia. Qed.

Ltac snorm := cbv beta iota zeta delta [e_self e_sip c_self c_dest q_self q_lock q_sem q_events t_self t_kind t_ctx t_fifo t_via t_from t_to t_call_id t_cseq t_node
  l_self l_texts l_routes l_remote l_local l_contact] in *; norm.
Ltac scount := let x := fresh "x" in intro x; snorm; rewrite ?occ_trn, ?occ_dlg, ?occ_opt_some, ?occ_opt_none, ?occ_fifo, ?occ_ctx, ?own_list_snoc, ?own_list_cons, ?own_list_nil, ?occ_evt in *; occs; try lia.
Ltac sclose H := apply (holds_eq _ _ _ _ H); clear H; scount.
Ltac sdone := match goal with H : holds _ _ ?m |- holds _ _ ?m => sclose H end.
Ltac sstep := match goal with
  | |- wp (bind _ _) _ _ => apply wp_bind
  | |- wp (unless _ _) _ _ => unfold unless
  | |- wp (refuse _) _ _ => unfold refuse
  | |- wp copy_opt _ _ => unfold copy_opt
  | |- wp (obtain _ _) _ _ => unfold obtain
  | |- wp (ret _) _ _ => apply wp_ret; snorm
  | |- wp (if ?b then _ else _) _ _ => match type of b with bool => destruct b end
  | H : holds ?d ?f ?m |- wp test ?Q ?m => apply (wp_test d f m Q H); clear m H; let b := fresh "b" in intros b m H
  | H : holds ?d ?f ?m |- wp ask ?Q ?m => apply (wp_ask d f m Q H); clear m H; let n := fresh "n" in intros n m H
  | H : holds ?d ?f ?m |- wp new ?Q ?m => apply (wp_new d f m Q H); clear m H; [intros m H|let b := fresh "b" in intros b m H]
  | H : holds ?d ?f ?m |- wp (free ?o) ?Q ?m => apply (wp_free d f o m Q H); [clear H; scount|clear m H; intros m H]
  end; snorm.
Ltac ssteps := repeat sstep.
(** freeing something the memory holds *)
Ltac fcall L := match goal with
  | H : holds ?d ?f ?m |- wp (_ ?y) ?Q ?m => apply (L y d f m Q H); [clear H; scount|clear m H; intros m H]; snorm
  end.
(** making something *)
Definition clones {A} (own : A -> list block) (p : prog (option A)) : Prop :=
  forall d f m (Q : option A -> mem -> Prop), holds d f m -> (forall m', holds d f m' -> Q None m') ->
  (forall y m', holds d (fun x => occ x (own y) + f x) m' -> Q (Some y) m') -> wp p Q m.
Ltac ccall L := match goal with
  | H : holds ?d ?f ?m |- wp _ ?Q ?m => apply (L d f m Q H); clear m H; [intros m H|let y := fresh "y" in intros y m H]; snorm
  end.
Ltac icall L := match goal with
  | H : holds ?d ?f ?m |- wp _ ?Q ?m => apply (L d f m Q H); clear m H; [intros m H|let y := fresh "y" in let E := fresh "E" in intros y m E H]; snorm
  end.
Ltac keep L := match goal with
  | H : holds ?d ?f ?m |- wp (_ ?y) ?Q ?m => apply (L y d f m Q H); [clear H; scount|clear m H; let r := fresh "r" in intros [[] r] m H]; snorm
  end.

(** *** Copies *)
Lemma param_clone_ok : clones own_param param_clone.
Proof.
  intros d f m Q H N K. unfold param_clone. ssteps; try (apply N; sdone); apply K; sdone.
Qed.
Lemma list_clone_ok A (own : A -> list block) clone : clones own clone -> keeps (own_list own) (list_clone clone).
Proof.
  intros C l. apply keeps_intro. intros d F m H. unfold list_clone. ssteps.
  assert (keeps (own_list own) (clone_round clone)) as R.
  { clear - C. intro l. apply keeps_intro. intros d F m H. unfold clone_round. ssteps. apply (C d _ m _ H); clear m H; [intros m H|intros y m H]; ssteps; [sdone|].
    match goal with H : holds ?d ?f ?m |- wp (list_add ?l ?z) ?Q ?m => apply (wp_list_add A own l z d f m Q H); [clear H; intro x; lia|clear m H; intros k m H] end. ssteps. sdone. }
  keep (keeps_loop _ (own_list own) _ R n); sdone.
Qed.
Lemma copies_ok n : forall d f m (Q : list (option block) -> mem -> Prop), holds d f m ->
  (forall l m', holds d (fun x => occ x (own_fs l) + f x) m' -> Q l m') -> wp (copies n) Q m.
Proof.
  induction n as [|n IH]; intros d f m Q H K; cbn [copies].
  - ssteps. apply K. sdone.
  - ssteps; (apply (IH d _ m _ H); clear m H; intros l m H); ssteps; apply K; sdone.
Qed.
Definition params_clone_ok := list_clone_ok _ own_param _ param_clone_ok.
Lemma uri_clone_ok : clones own_obj uri_clone.
Proof.
  intros d f m Q H N K. unfold uri_clone, uri_init. ssteps; [apply N, H|]. icall (obj_init_ok 6); ssteps; [apply N, H|].
  destruct y as [s a l k]. unfold fresh_obj in E. cbn in E. injection E as -> -> ->. snorm.
  apply (copies_ok _ d _ m _ H); clear m H; intros l m H. ssteps. keep params_clone_ok; ssteps.
  - keep params_clone_ok; ssteps; [apply K; sdone|]. fcall obj_free_ok. ssteps. apply N. sdone.
  - fcall obj_free_ok. ssteps. apply N. sdone.
Qed.
Lemma must_ok i v k d f (Q : option obj -> mem -> Prop) m : holds d (fun x => occ x (own_obj v) + f x) m ->
  (forall m, holds d f m -> Q None m) ->
  (forall b m, holds d (fun x => one x b + occ x (own_obj v) + f x) m -> wp (k (put i b v)) Q m) -> wp (must i v k) Q m.
Proof.
  intros H N K. unfold must. ssteps.
  - fcall obj_free_ok. ssteps. apply N. sdone.
  - apply K. sdone.
Qed.
Ltac via_end N K := ssteps; keep params_clone_ok; ssteps; [apply K; sdone|]; fcall obj_free_ok; ssteps; apply N; sdone.
Lemma via_clone_ok protocol : clones own_obj (via_clone protocol).
Proof.
  intros d f m Q H N K. unfold via_clone. destruct protocol; cbn [negb]; [|ssteps; apply N, H]. unfold via_init. ssteps; [apply N, H|].
  icall (obj_init_ok 5); ssteps; [apply N, H|]. destruct y as [s a l k]. unfold fresh_obj in E. cbn in E. injection E as -> -> ->. snorm.
  apply (must_ok 0 _ _ d f Q m H N). clear m H. intros b0 m H. apply (must_ok 1 _ _ d f Q m); [sdone|exact N|]. clear m H. intros b1 m H. snorm.
  apply (must_ok 2 _ _ d f Q m); [sdone|exact N|]. clear m H. intros b2 m H. snorm. unfold maybe. ssteps.
  - apply (must_ok 3 _ _ d f Q m); [sdone|exact N|]. clear m H. intros b3 m H. snorm. ssteps.
    + apply (must_ok 4 _ _ d f Q m); [sdone|exact N|]. clear m H. intros b4 m H. snorm. via_end N K.
    + via_end N K.
  - apply (must_ok 4 _ _ d f Q m); [sdone|exact N|]. clear m H. intros b4 m H. snorm. via_end N K.
  - via_end N K.
Qed.
Lemma from_clone_ok : clones own_addr from_clone.
Proof.
  intros d f m Q H N K. unfold from_clone. ssteps; [apply N, H|]. icall from_init_ok; [ssteps; apply N, H|].
  destruct y as [[s a l k] u]. destruct E as [E E']. unfold fresh_obj in E. cbn in E, E'. injection E as -> -> ->. subst u. snorm.
  repeat (sstep || match goal with
    | |- wp uri_clone _ _ => ccall uri_clone_ok
    | |- wp (list_clone param_clone _) _ _ => keep params_clone_ok
    | |- wp (from_free _) _ _ => fcall from_free_ok
    end).
  all: first [apply N; sdone|apply K; sdone].
Qed.
Lemma call_id_clone_ok : clones own_obj call_id_clone.
Proof.
  intros d f m Q H N K. unfold call_id_clone, call_id_init. ssteps; [apply N, H|]. icall (obj_init_ok 2); [ssteps; apply N, H|].
  destruct y as [s a l k]. unfold fresh_obj in E. cbn in E. injection E as -> -> ->. snorm. ssteps; apply K; sdone.
Qed.
Lemma cseq_clone_ok : clones own_obj cseq_clone.
Proof.
  intros d f m Q H N K. unfold cseq_clone, cseq_init. ssteps; [apply N, H|]. icall (obj_init_ok 2); [cbn [opt_free]; ssteps; apply N, H|].
  destruct y as [s a l k]. unfold fresh_obj in E. cbn in E. injection E as -> -> ->. snorm. ssteps; apply K; sdone.
Qed.

(** *** Events *)
Lemma evt_free_ok : frees own_evt evt_free.
Proof.
  apply frees_intro. intros [s g] d F m H. unfold evt_free. ssteps. fcall (frees_opt _ own_msg _ msg_free_ok). ssteps. sdone.
Qed.
Lemma evt_new_ok : clones own_evt evt_new.
Proof. intros d f m Q H N K. unfold evt_new. ssteps; [apply N, H|apply K; sdone]. Qed.
Lemma evt_parse_ok : clones own_evt evt_parse.
Proof.
  intros d f m Q H N K. unfold evt_parse, evt_new. ssteps; [apply N, H|]. icall msg_init_ok; ssteps; [apply N; sdone|].
  match goal with H : holds ?d ?f ?m |- wp _ ?Q ?m => apply (msg_parse_ok false y E d f m Q H) end; [clear H; scount|clear m H; intros [[] r] m H]; ssteps.
  - fcall msg_free_ok. ssteps. apply N. sdone.
  - apply K. sdone.
  - fcall msg_free_ok. ssteps. apply N. sdone.
Qed.

(** *** Transactions *)
Lemma ctx_free_ok : frees own_ctx ctx_free.
Proof. apply frees_intro. intros [s o] d F m H. unfold ctx_free. ssteps. sdone. Qed.
Lemma fifo_free_ok : frees own_fifo fifo_free.
Proof.
  apply frees_intro. intros [s a b l] d F m H. unfold fifo_free. snorm. destruct b as [b|]; ssteps.
  - fcall (frees_list _ own_evt _ evt_free_ok). ssteps. sdone.
  - destruct l as [|e l]; ssteps; [sdone|].
    match goal with H : holds ?d ?f ?m |- wp lose_type ?Q ?m => apply (wp_lose_type d f (own_list own_evt (e :: l)) m Q H); [clear H; scount|clear m H; intros m H] end. ssteps. sdone.
Qed.
Lemma trn_free_ok : frees own_trn trn_free.
Proof.
  apply frees_intro. intros [s k a b c e f g h n] d F m H. unfold trn_free. ssteps.
  fcall (frees_opt _ own_ctx _ ctx_free_ok). ssteps. fcall (frees_opt _ own_fifo _ fifo_free_ok). ssteps. fcall (frees_opt _ own_obj _ obj_free_ok). ssteps.
  fcall (frees_opt _ own_addr _ from_free_ok). ssteps. fcall (frees_opt _ own_addr _ from_free_ok). ssteps. fcall (frees_opt _ own_obj _ obj_free_ok). ssteps.
  fcall (frees_opt _ own_obj _ obj_free_ok). ssteps. sdone.
Qed.
Lemma drop_ok t d f (Q : option trn -> mem -> Prop) m : holds d (fun x => occ x (own_trn t) + f x) m -> (forall m, holds d f m -> Q None m) -> wp (drop t) Q m.
Proof. intros H N. unfold drop. ssteps. fcall trn_free_ok. ssteps. apply N. sdone. Qed.
(** the context, when the protocol of the Via is there, or when it is not an INVITE client transaction *)
Lemma ctx_init_ok k protocol d f m (Q : bool * option ctx -> mem -> Prop) : protocol = true \/ k <> Ict -> holds d f m ->
  (forall r m', holds d (fun x => occ x (own_opt own_ctx (snd r)) + f x) m' -> Q r m') -> wp (ctx_init k protocol) Q m.
Proof.
  intros P H K. unfold ctx_init. destruct protocol; destruct k; try (destruct P as [P|P]; [discriminate|congruence]); ssteps; apply K; sdone.
Qed.
Lemma trn_init_ok k protocol protocol' : protocol' = protocol \/ k <> Ict -> makes own_trn (fun t => t_fifo t <> None) (trn_init k protocol protocol').
Proof.
  intros P d f m Q H N K. unfold trn_init. ssteps; try (apply N; sdone).
  { apply (drop_ok _ d f Q m); [sdone|exact N]. }
  destruct protocol; [|unfold via_clone; cbn [negb]; ssteps; apply (drop_ok _ d f Q m); [sdone|exact N]].
  ccall (via_clone_ok true); [apply (drop_ok _ d f Q m); [sdone|exact N]|]. ssteps.
  ccall from_clone_ok; [apply (drop_ok _ d f Q m); [sdone|exact N]|]. ssteps.
  ccall from_clone_ok; [apply (drop_ok _ d f Q m); [sdone|exact N]|]. ssteps.
  ccall call_id_clone_ok; [apply (drop_ok _ d f Q m); [sdone|exact N]|]. ssteps.
  ccall cseq_clone_ok; [apply (drop_ok _ d f Q m); [sdone|exact N]|]. sstep. sstep; [apply (drop_ok _ d f Q m); [sdone|exact N]|]. sstep.
  assert (forall g d f m (R : fifo -> mem -> Prop), holds d f m -> (forall q m, q_events q = [] -> q_self q = g -> holds d (fun x => occ x (own_b (q_lock q)) + occ x (own_b (q_sem q)) + f x) m -> R q m) -> wp (fifo_init g) R m) as FI.
  { clear. intros g d f m R H K. unfold fifo_init. ssteps; apply K; try reflexivity; sdone. }
  match goal with H : holds ?d ?f ?m |- wp (fifo_init ?g) ?R ?m => apply (FI g d f m R H) end. clear m H. intros [g lk sm es] m E1 E2 H. cbn in E1, E2. subst. snorm. sstep.
  match goal with H : holds ?d ?f ?m |- wp (ctx_init k protocol') ?R ?m => apply (ctx_init_ok k protocol' d f m R P H) end. clear m H. intros [[] c] m H; ssteps.
  - apply K; [discriminate|]. sdone.
  - apply K; [discriminate|]. sdone.
  - apply (drop_ok _ d f Q m); [sdone|exact N].
Qed.
(** [p] turns a structure with [inv] into one with [inv] *)
Definition steady {A} (own : A -> list block) (inv : A -> Prop) (p : A -> prog (bool * A)) : Prop := forall y, inv y -> forall d F m,
  holds d (fun x => occ x (own y) + F x) m -> wp (p y) (fun r m' => inv (snd r) /\ holds d (fun x => occ x (own (snd r)) + F x) m') m.
Lemma steady_loop A (own : A -> list block) inv p : steady own inv p -> forall n, steady own inv (loop n p).
Proof.
  intros P n. induction n as [|n IH]; intros y I d F m H; cbn [loop].
  - apply wp_ret. split; assumption.
  - apply wp_bind. eapply wp_mono; [apply (P y I d F m H)|]. clear m H. intros [[] z] m [I' H]; cbn [fst snd] in *; [apply (IH z I' d F m H)|apply wp_ret; split; assumption].
Qed.
Lemma steady_keeps A (own : A -> list block) inv p : steady own inv p -> keeps_fresh own inv p.
Proof.
  intros P y I. apply keeps_intro. intros d F m H. eapply wp_mono; [apply (P y I d F m H)|]. intros r m' [_ H']. exact H'.
Qed.
Lemma add_event_ok e t d F m : holds d (fun x => occ x (own_evt e) + (occ x (own_trn t) + F x)) m -> t_fifo t <> None ->
  wp (add_event t e) (fun t' m' => t_fifo t' <> None /\ holds d (fun x => occ x (own_trn t') + F x) m') m.
Proof.
  intros H Z. destruct t as [s k a [[g lk sm es]|] c u v i j n]; [|cbn in Z; congruence]. unfold add_event. snorm. ssteps.
  match goal with H : holds ?d ?f ?m |- wp (list_add ?l ?z) ?Q ?m => apply (wp_list_add _ own_evt l z d f m Q H); [clear H; scount|clear m H; intros l' m H] end.
  ssteps. split; [discriminate|sdone].
Qed.
Lemma trn_step_ok : steady own_trn (fun t => t_fifo t <> None) trn_step.
Proof.
  intros t Z d F m H. unfold trn_step. ssteps.
  assert (forall m p, wp p (fun t' m' => t_fifo t' <> None /\ holds d (fun x => occ x (own_trn t') + F x) m') m ->
    wp p (fun t m => wp (ret (true, t)) (fun r m' => t_fifo (snd r) <> None /\ holds d (fun x => occ x (own_trn (snd r)) + F x) m') m) m) as R.
  { clear. intros m p W. eapply wp_mono; [exact W|]. intros t m' HH. apply wp_ret. exact HH. }
  apply R. clear R. destruct n as [|[|[|[|n]]]]; ssteps; try (split; assumption).
  - ccall evt_parse_ok; ssteps; [split; assumption|]. apply add_event_ok; assumption.
  - ccall evt_new_ok; ssteps; [split; assumption|]. apply add_event_ok; assumption.
  - destruct t as [s k [[cs cd]|] b c u v i j n]; unfold set_destination; destruct k; snorm; ssteps; (split; [assumption|sdone]).
  - destruct t as [s k a b c u v i j n]; unfold unlink; snorm; ssteps. split; [assumption|sdone].
Qed.
Lemma trn_steps_ok : keeps_fresh own_trn (fun t => t_fifo t <> None) trn_steps.
Proof.
  apply steady_keeps. intros t Z d F m H. unfold trn_steps. ssteps. apply (steady_loop _ _ _ _ trn_step_ok n t Z d F m H).
Qed.

(** *** Dialogs *)
Lemma occ_fs_rev x l : occ x (own_fs (rev l)) = occ x (own_fs l).
Proof.
  unfold own_fs. induction l as [|o l IH]; [reflexivity|]. cbn [rev flat_map]. rewrite flat_map_app. rewrite !occ_app, IH. cbn [flat_map]. rewrite app_nil_r. lia.
Qed.
Lemma dlg_free_ok : frees own_dlg dlg_free.
Proof.
  apply frees_intro. intros [s a b c e f] d F m H. unfold dlg_free. ssteps.
  fcall (frees_opt _ own_addr _ from_free_ok). ssteps. fcall (frees_opt _ own_addr _ from_free_ok). ssteps. fcall (frees_opt _ own_addr _ from_free_ok). ssteps.
  fcall (frees_list _ own_addr _ from_free_ok). ssteps.
  match goal with H : holds ?d ?f ?m |- wp (free_all ?y) ?Q ?m => apply (frees_fs y d f m Q H); [clear H; intro x; rewrite occ_fs_rev; revert x; scount|clear m H; intros m H] end. ssteps.
  - rewrite occ_fs_rev. lia.
  - apply (holds_eq _ _ _ _ H). intro x. rewrite occ_fs_rev. revert x. clear H. scount.
Qed.
Lemma dlg_drop_ok l d f (Q : option dlg -> mem -> Prop) m : holds d (fun x => occ x (own_dlg l) + f x) m -> (forall m, holds d f m -> Q None m) -> wp (dlg_drop l) Q m.
Proof. intros H N. unfold dlg_drop. ssteps. fcall dlg_free_ok. ssteps. apply N. sdone. Qed.
Definition routes_ok := list_clone_ok _ own_addr _ from_clone_ok.
Lemma dlg_init_ok : makes own_dlg (fun _ => True) dlg_init.
Proof.
  intros d f m Q H N K. unfold dlg_init.
  repeat (sstep || match goal with
    | |- wp from_clone _ _ => ccall from_clone_ok
    | |- wp (list_clone from_clone _) _ _ => keep routes_ok
    | |- wp (dlg_drop _) _ _ => apply (dlg_drop_ok _ d f Q); [sdone|exact N]
    end).
  all: first [apply N; sdone|apply K; [exact I|sdone]].
Qed.
Lemma dlg_target_ok : keeps own_dlg dlg_target.
Proof.
  intros [s a b c e f]. apply keeps_intro. intros d F m H. unfold dlg_target. ssteps; [exact H|].
  fcall (frees_opt _ own_addr _ from_free_ok). ssteps. ccall from_clone_ok; ssteps; sdone.
Qed.
Lemma dlg_update_uac_ok : keeps own_dlg dlg_update_uac.
Proof.
  intros l. apply keeps_intro. intros d F m H. unfold dlg_update_uac. ssteps. keep dlg_target_ok; destruct r as [s a b c e f]; ssteps; try sdone.
  fcall (frees_list _ own_addr _ from_free_ok). ssteps. keep routes_ok; ssteps; sdone.
Qed.
Lemma dlg_update_tag_ok : keeps own_dlg dlg_update_tag.
Proof.
  intros [s a b c e f]. apply keeps_intro. intros d F m H. unfold dlg_update_tag. snorm.
  destruct a as [|x [|y [|[z|] [|w [|? ?]]]]]; ssteps; first [exact H|sdone].
Qed.
Lemma dlg_steps_ok : keeps_fresh own_dlg (fun _ => True) dlg_steps.
Proof.
  assert (keeps own_dlg dlg_step) as S.
  { intros l. apply keeps_intro. intros d F m H. unfold dlg_step. ssteps. destruct n as [|[|n]]; [keep dlg_target_ok|keep dlg_update_uac_ok|keep dlg_update_tag_ok]; ssteps; sdone. }
  intros l _. apply keeps_intro. intros d F m H. unfold dlg_steps. ssteps. keep (keeps_loop _ own_dlg _ S n); sdone.
Qed.

(** *** The stack *)
Lemma locks_ok n : forall d f m (Q : list (option block) -> mem -> Prop), holds d f m ->
  (forall l m', holds d (fun x => occ x (own_fs l) + f x) m' -> Q l m') -> wp (locks n) Q m.
Proof.
  induction n as [|n IH]; intros d f m Q H K; cbn [locks].
  - ssteps. apply K. sdone.
  - ssteps; (apply (IH d _ m _ H); clear m H; intros l m H); ssteps; apply K; sdone.
Qed.
Lemma stack_init_ok : makes own_obj (fun _ => True) stack_init.
Proof.
  intros d f m Q H N K. unfold stack_init. ssteps. icall (obj_init_ok 6); [ssteps; apply N, H|]. destruct y as [s a l k]. unfold fresh_obj in E. cbn in E. injection E as -> -> ->. snorm. sstep.
  apply (locks_ok 6 d _ m _ H); clear m H; intros l m H. ssteps. apply K; [exact I|]. sdone.
Qed.

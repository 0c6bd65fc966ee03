(** Facts about the memory that authentication headers, addresses, bodies and messages own, continued from OwnFacts.v *)
From Coq Require Import Bool List Arith Lia Permutation.
From Verif Require Import OwnModel OwnFacts.
Import ListNotations.

Ltac opt := match goal with |- wp (match ?o with Some _ => _ | None => _ end) _ _ => destruct o end.

(** *** Authentication headers *)
Lemma set_one_ok o d f m (Q : next_step * option block -> mem -> Prop) : holds d f m -> (forall x, occ x (own_b o) <= f x) ->
  (forall r m', holds d (fun x => f x - occ x (own_b o) + occ x (own_b (snd r))) m' -> Q r m') -> wp (set_one o) Q m.
Proof.
  intros H S K. destruct o as [b|]; unfold set_one; steps; apply K; norm; apply (holds_eq _ _ _ _ H); intro x; specialize (S x); occs; lia.
Qed.
Lemma set_all_ok l : forall d f m (Q : next_step * list (option block) -> mem -> Prop), holds d f m -> (forall x, occ x (own_fs l) <= f x) ->
  (forall r m', holds d (fun x => f x - occ x (own_fs l) + occ x (own_fs (snd r))) m' -> Q r m') -> wp (set_all l) Q m.
Proof.
  induction l as [|o l IH]; intros d f m Q H S K; cbn [set_all].
  - apply wp_ret, K. apply (holds_eq _ _ _ _ H). intro x. cbn [snd]. occs. lia.
  - assert (forall x, occ x (own_b o) + occ x (own_fs l) <= f x) as S' by (intro x; specialize (S x); rewrite occ_fs_cons in S; lia).
    apply wp_bind, (set_one_ok o d f m _ H); [intro x; specialize (S' x); lia|]. clear m H. intros [[] q] m H; norm.
    + apply wp_bind, (IH d _ m _ H); [intro x; specialize (S' x); lia|]. clear m H. intros r m H. apply wp_ret, K. apply (holds_eq _ _ _ _ H).
      intro x. specialize (S' x). cbn [snd]. rewrite !occ_fs_cons. lia.
    + apply wp_ret, K. apply (holds_eq _ _ _ _ H). intro x. specialize (S' x). cbn [snd]. rewrite !occ_fs_cons. lia.
    + apply wp_ret, K. apply (holds_eq _ _ _ _ H). intro x. specialize (S' x). cbn [snd]. rewrite !occ_fs_cons. lia.
Qed.
Lemma auth_rounds_ok n : keeps own_fs (auth_rounds n).
Proof.
  induction n as [|n IH]; intro l; apply keeps_intro; intros d F m H; cbn [auth_rounds].
  - steps. exact H.
  - apply wp_bind, (set_all_ok l d _ m _ H); [count|]. clear m H. intros [[] k] m H; norm; steps; try done. kcall IH; done.
Qed.
Lemma auth_rest_ok : keeps own_obj auth_rest.
Proof.
  intros [s a l k]. apply keeps_intro. intros d F m H. unfold auth_rest. norm. destruct a as [|t a]; steps; [exact H|].
  kcall (auth_rounds_ok n); steps; done.
Qed.
Lemma auth_parse_ok k : keeps_fresh own_obj (fresh_obj (S k)) auth_parse.
Proof.
  intros [s ? ? ?] E. unfold fresh_obj in E. cbn in E. injection E as -> -> ->. apply keeps_intro. intros d F m H. unfold auth_parse.
  steps; try done. kcall auth_rest_ok; done.
Qed.
Lemma ainfo_parse_ok k : keeps_fresh own_obj (fresh_obj (S k)) ainfo_parse.
Proof.
  intros [s ? ? ?] E. unfold fresh_obj in E. cbn in E. injection E as -> -> ->. apply keeps_intro. intros d F m H. unfold ainfo_parse.
  steps; try done; kcall auth_rest_ok; done.
Qed.

(** *** Addresses *)
Definition fresh_addr (a : addr) : Prop := fresh_obj 1 (a_obj a) /\ a_url a = None.
Lemma from_init_ok : makes own_addr fresh_addr from_init.
Proof.
  intros d f m Q H N K. unfold from_init. apply wp_bind, (obj_init_ok 1 d f m _ H); clear m H; [intros m H|intros y m Y H]; steps; [apply N, H|].
  apply K; [split; [exact Y|reflexivity]|]. done.
Qed.
Lemma from_free_ok : frees own_addr from_free.
Proof.
  apply frees_intro. intros [o u] d F m H. unfold from_free. norm.
  apply wp_bind, (frees_opt _ own_obj _ obj_free_ok u d _ m _ H); [count|]. clear m H. intros m H. apply (obj_free_ok o d _ m _ H); [count|]. clear m H. intros m H. done.
Qed.
Lemma from_parse_ok : keeps_fresh own_addr fresh_addr from_parse.
Proof.
  intros [[s ? ? ?] u] [E E']. unfold fresh_obj in E. cbn in E, E'. injection E as -> -> ->. subst u. apply keeps_intro. intros d F m H. unfold from_parse.
  osteps; try done;
  (match goal with H : holds _ ?f ?m |- wp uri_init ?Q ?m => apply (obj_init_ok 6 _ f m Q H) end; clear m H; [intros m H|intros y m Y H]; osteps; try done;
   match goal with H : holds _ ?f ?m |- wp (uri_parse ?z) ?Q ?m => apply (uri_parse_ok z Y _ f m Q H) end; [clear H; count|clear m H; let q := fresh "q" in intros [[] q] m H; osteps; done]).
Qed.

(** *** Bodies *)
Definition fresh_body (y : bodyo) : Prop := y_body y = None /\ y_type y = None /\ y_headers y = [].
Lemma body_init_ok : makes own_body fresh_body body_init.
Proof.
  intros d f m Q H N K. unfold body_init. steps; [apply N, H|apply N; done|]. apply K; [repeat split|]. done.
Qed.
Lemma body_free_ok : frees own_body body_free.
Proof.
  apply frees_intro. intros [s l b t h] d F m H. unfold body_free. steps.
  apply (frees_opt _ own_obj _ obj_free_ok t d _ m _ H); [count|]. clear m H. intros m H. steps.
  apply (frees_list _ own_obj _ obj_free_ok h d _ m _ H); [count|]. clear m H. intros m H. steps. done.
Qed.
Lemma body_parse_ok : keeps_fresh own_body fresh_body body_parse.
Proof.
  intros [s l b t h] (E1 & E2 & E3). cbn in E1, E2, E3. subst. apply keeps_intro. intros d F m H. unfold body_parse. steps; done.
Qed.
(** the headers of a part leave the content alone *)
Definition keeps_empty (p : bodyo -> prog (bool * bodyo)) : Prop := forall y, y_body y = None -> forall d F m, holds d (fun x => occ x (own_body y) + F x) m ->
  wp (p y) (fun r m' => y_body (snd r) = None /\ holds d (fun x => occ x (own_body (snd r)) + F x) m') m.
Ltac ends := split; [reflexivity|done].
Lemma body_set_type_ok : keeps_empty body_set_type.
Proof.
  intros [s l b t h] B d F m H. cbn in B. subst b. unfold body_set_type. apply wp_bind.
  assert (forall m, holds d (fun x => occ x (own_body (mkBodyo s l None None h)) + F x) m ->
    wp (bind ctype_init (fun o => match o with
      | Some c => r <~ ctype_parse c;; (if fst r then ret (true, mkBodyo s l None (Some (snd r)) h) else _ <~ obj_free (snd r);; ret (false, mkBodyo s l None None h))
      | None => ret (false, mkBodyo s l None None h) end)) (fun r m' => y_body (snd r) = None /\ holds d (fun x => occ x (own_body (snd r)) + F x) m') m) as G.
  { clear m H. intros m H. apply wp_bind, (obj_init_ok 2 d _ m _ H); clear m H; [intros m H|intros y m Y H]; steps; [ends|].
    apply (ctype_parse_ok y Y d _ m _ H); [clear H; count|clear m H; intros [[] r] m H; steps; [ends|]].
    apply (obj_free_ok r d _ m _ H); [count|]. clear m H. intros m H. steps. ends. }
  destruct t as [c|]; norm.
  - apply (wp_lose_type d _ (own_obj c) m _ H); [count|]. clear m H. intros m H. apply G. done.
  - apply wp_ret, G, H.
Qed.
Lemma body_set_header_ok : keeps_empty body_set_header.
Proof.
  intros [s l b t h] B d F m H. cbn in B. subst b. unfold body_set_header. norm.
  apply wp_bind, (obj_init_ok 2 d _ m _ H); clear m H; [intros m H|intros y m Y H]; steps; [ends| | |].
  - apply (obj_free_ok y d _ m _ H); [count|]. clear m H. intros m H. steps. ends.
  - destruct y as [ys ? ? ?]. unfold fresh_obj in Y. cbn in Y. injection Y as -> -> ->. norm.
    apply (obj_free_ok _ d _ m _ H); [count|]. clear m H. intros m H. steps. ends.
  - destruct y as [ys ? ? ?]. unfold fresh_obj in Y. cbn in Y. injection Y as -> -> ->. norm.
    apply (wp_list_add _ own_obj h _ d _ m _ H); [count|]. clear m H. intros h' m H. steps. ends.
Qed.
Lemma part_round_ok : keeps_empty part_round.
Proof.
  intros y B d F m H. unfold part_round. steps; try (split; [exact B|done]).
  - eapply wp_mono; [apply (body_set_type_ok y B d (fun x => one x b + one x b0 + F x)); done|]. clear m H. intros [[] r] m [B' H]; norm; steps; (split; [exact B'|done]).
  - eapply wp_mono; [apply (body_set_header_ok y B d (fun x => one x b + one x b0 + F x)); done|]. clear m H. intros [[] r] m [B' H]; norm; steps; (split; [exact B'|done]).
Qed.
Lemma part_rounds_ok n : keeps_empty (loop n part_round).
Proof.
  induction n as [|n IH]; intros y B d F m H; cbn [loop]; steps; [split; [exact B|done]|].
  eapply wp_mono; [apply (part_round_ok y B d F m H)|]. clear m H. intros [[] r] m [B' H]; norm; [apply (IH r B' d F m H)|steps; split; [exact B'|exact H]].
Qed.
Lemma body_parse_mime_ok : keeps_fresh own_body fresh_body body_parse_mime.
Proof.
  intros y (B & _). apply keeps_intro. intros d F m H. unfold body_parse_mime. steps.
  eapply wp_mono; [apply (part_rounds_ok (S n) y B d F m H)|]. clear m H. intros [[] [s l b t h]] m [B' H]; cbn [snd y_body] in B'; subst b; norm; steps; done.
Qed.

(** *** Messages *)
Lemma elem_free_ok : frees own_elem elem_free.
Proof.
  intros [o|a] d f m Q H S K; cbn [elem_free]; [apply (obj_free_ok o d f m Q H S K)|apply (from_free_ok a d f m Q H S K)].
Qed.
Lemma msg_free_ok : frees own_msg msg_free.
Proof.
  apply frees_intro. intros [s a b c e f g h i j k l] d F m H. unfold msg_free. norm.
  Local Ltac fr L := (apply wp_bind; match goal with H : holds ?d ?f ?m |- wp (_ ?y) ?Q ?m => apply (L y d f m Q H); [clear H; count|clear m H; intros m H] end; norm).
  fr frees_fs. fr (frees_opt _ own_obj _ obj_free_ok). fr (frees_opt _ own_obj _ obj_free_ok). fr (frees_opt _ own_obj _ obj_free_ok). fr (frees_opt _ own_obj _ obj_free_ok).
  fr (frees_opt _ own_obj _ obj_free_ok). fr (frees_opt _ own_addr _ from_free_ok). fr (frees_opt _ own_obj _ obj_free_ok). fr (frees_opt _ own_addr _ from_free_ok).
  fr (frees_list _ own_elem _ elem_free_ok). fr (frees_list _ own_body _ body_free_ok). steps. done.
Qed.
Lemma set_single_ok A (own : A -> list block) (fresh : A -> Prop) (get : msgo -> option A) set init parse fr :
  makes own fresh init -> keeps_fresh own fresh parse -> frees own fr ->
  (forall g o x, get g = None -> occ x (own_msg (set o g)) = occ x (own_msg g) + occ x (own_opt own o)) ->
  keeps own_msg (fun g => set_single (get g) set init parse fr g).
Proof.
  intros I P Fr W g. apply keeps_intro. intros d F m H. unfold set_single. steps; [done|]. destruct (get g) as [o|] eqn:G; steps; [done|].
  apply (I d _ m _ H); clear m H; [intros m H|intros y m Y H]; steps.
  - apply (holds_eq _ _ _ _ H). intro x. rewrite (W g None x G). occs. lia.
  - apply (P y Y d _ m _ H); [clear H; count|clear m H; intros [[] r] m H; steps].
    + apply (holds_eq _ _ _ _ H). intro x. rewrite (W g (Some r) x G). occs. lia.
    + apply (Fr r d _ m _ H); [count|]. clear m H. intros m H. steps. apply (holds_eq _ _ _ _ H). intro x. rewrite (W g None x G). occs. lia.
Qed.
Lemma set_many_ok A (own : A -> list block) (fresh : A -> Prop) wrap init parse fr :
  makes own fresh init -> keeps_fresh own fresh parse -> frees own fr -> (forall y, own_elem (wrap y) = own y) ->
  keeps own_msg (set_many wrap init parse fr).
Proof.
  intros I P Fr W g. apply keeps_intro. intros d F m H. unfold set_many. steps; [done|].
  apply (I d _ m _ H); clear m H; [intros m H|intros y m Y H]; steps; [done|].
  apply (P y Y d _ m _ H); [clear H; count|clear m H; intros [[] r] m H; steps].
  - destruct g as [s a b c e f g h i j k l]. norm. apply (wp_list_add _ own_elem k (wrap r) d _ m _ H); [intro x; rewrite W; occs; lia|].
    clear m H. intros k' m H. steps. apply (holds_eq _ _ _ _ H). intro x. rewrite W. occs. lia.
  - apply (Fr r d _ m _ H); [count|]. clear m H. intros m H. steps. done.
Qed.
Lemma set_header_ok : keeps own_msg set_header.
Proof.
  intros g d f m Q H S K. unfold set_header. apply wp_bind, (wp_ask d f m _ H). clear m H. intros k m H.
  Local Ltac single get own := refine (set_single_ok _ own _ get _ _ _ _ _ _ _ _ _ _ _ _ _ _ _ _).
  assert (forall A (own : A -> list block) (fresh : A -> Prop) (get : msgo -> option A) set init parse fr,
    makes own fresh init -> keeps_fresh own fresh parse -> frees own fr ->
    (forall g o x, get g = None -> occ x (own_msg (set o g)) = occ x (own_msg g) + occ x (own_opt own o)) ->
    wp (set_single (get g) set init parse fr g) Q m) as One.
  { intros A own fresh get set init parse fr I P Fr W. apply (set_single_ok A own fresh get set init parse fr I P Fr W g d f m Q H S K). }
  assert (forall A (own : A -> list block) (fresh : A -> Prop) wrap init parse fr,
    makes own fresh init -> keeps_fresh own fresh parse -> frees own fr -> (forall y, own_elem (wrap y) = own y) ->
    wp (set_many wrap init parse fr g) Q m) as Many.
  { intros A own fresh wrap init parse fr I P Fr W. apply (set_many_ok A own fresh wrap init parse fr I P Fr W g d f m Q H S K). }
  do 16 (destruct k as [|k]; [first
    [ refine (One _ own_addr fresh_addr g_from set_from _ _ _ from_init_ok from_parse_ok from_free_ok _)
    | refine (One _ own_addr fresh_addr g_to set_to _ _ _ from_init_ok from_parse_ok from_free_ok _)
    | refine (One _ own_obj (fresh_obj 2) g_type set_type _ _ _ (obj_init_ok 2) ctype_parse_ok obj_free_ok _)
    | refine (One _ own_obj (fresh_obj 1) g_length set_length _ _ _ (obj_init_ok 1) clen_parse_ok obj_free_ok _)
    | refine (One _ own_obj (fresh_obj 2) g_call_id set_call_id _ _ _ (obj_init_ok 2) call_id_parse_ok obj_free_ok _)
    | refine (One _ own_obj (fresh_obj 2) g_cseq set_cseq _ _ _ (obj_init_ok 2) cseq_parse_ok obj_free_ok _)
    | refine (One _ own_obj (fresh_obj 1) g_mime set_mime _ _ _ (obj_init_ok 1) clen_parse_ok obj_free_ok _)
    | refine (Many _ own_obj (fresh_obj 5) Flat _ _ _ (obj_init_ok 5) via_parse_ok obj_free_ok _); reflexivity
    | refine (Many _ own_addr fresh_addr Addr _ _ _ from_init_ok from_parse_ok from_free_ok _); reflexivity
    | refine (Many _ own_obj (fresh_obj 2) Flat _ _ _ (obj_init_ok 2) ctype_parse_ok obj_free_ok _); reflexivity
    | refine (Many _ own_obj (fresh_obj 1) Flat _ _ _ (obj_init_ok 1) aenc_parse_ok obj_free_ok _); reflexivity
    | refine (Many _ own_obj (fresh_obj 1) Flat _ _ _ (obj_init_ok 1) cinfo_parse_ok obj_free_ok _); reflexivity
    | refine (Many _ own_obj (fresh_obj 1) Flat _ _ _ (obj_init_ok 1) clen_parse_ok obj_free_ok _); reflexivity
    | refine (Many _ own_obj (fresh_obj 11) Flat _ _ _ (obj_init_ok 11) (auth_parse_ok 10) obj_free_ok _); reflexivity
    | refine (Many _ own_obj (fresh_obj 17) Flat _ _ _ (obj_init_ok 17) (auth_parse_ok 16) obj_free_ok _); reflexivity
    | refine (Many _ own_obj (fresh_obj 11) Flat _ _ _ (obj_init_ok 11) (ainfo_parse_ok 10) obj_free_ok _); reflexivity ];
    intros [] o x G; norm; subst; occs; lia|]).
  apply wp_bind.
  apply (set_many_ok _ own_obj (fresh_obj 2) Flat _ _ _ (obj_init_ok 2) header_fill_ok obj_free_ok (fun y => eq_refl) g d f m _ H S).
  clear m H One Many. intros r m H. apply wp_ret, K. exact H.
Qed.
Ltac hcall := match goal with H : holds ?d ?f ?m |- wp (set_header ?g) ?Q ?m => apply (set_header_ok g d f m Q H); [clear H; count|clear m H; let r := fresh "r" in intros [[] r] m H]; norm end.
Lemma comma_round_ok : keeps own_msg comma_round.
Proof. intro g. apply keeps_intro. intros d F m H. unfold comma_round. steps; try done; hcall; steps; done. Qed.
Lemma set_multiple_ok : keeps own_msg set_multiple.
Proof. intro g. apply keeps_intro. intros d F m H. unfold set_multiple. steps; [hcall; done|]. kcall (keeps_loop _ own_msg _ comma_round_ok n); done. Qed.
Lemma line_round_ok : keeps own_msg line_round.
Proof. intro g. apply keeps_intro. intros d F m H. unfold line_round. steps; try done; kcall set_multiple_ok; steps; done. Qed.

Definition fresh_msg (g : msgo) : Prop := g = mkMsgo (g_self g) [None; None; None; None] None None None None None None None None [] [].
Lemma msg_init_ok : makes own_msg fresh_msg msg_init.
Proof. intros d f m Q H N K. unfold msg_init. steps; [apply N, H|]. apply K; [reflexivity|]. done. Qed.
Lemma start_request_ok : keeps_fresh own_msg fresh_msg start_request.
Proof.
  intros [] E. unfold fresh_msg in E. cbn in E. injection E as -> -> -> -> -> -> -> -> -> -> ->. apply keeps_intro. intros d F m H.
  unfold start_request, drop_method, drop_uri. norm. steps; try done.
  apply (obj_init_ok 6 _ _ m _ H); clear m H; [intros m H|intros y m Y H]; steps; try done.
  apply (uri_parse_ok y Y _ _ m _ H); [clear H; count|clear m H; intros [[] r] m H]; steps; try done; cbn [opt_free];
   (apply (obj_free_ok r d _ m _ H); [count|clear m H; intros m H; steps; done]).
Qed.
Lemma start_answer_ok : keeps_fresh own_msg fresh_msg start_answer.
Proof.
  intros [] E. unfold fresh_msg in E. cbn in E. injection E as -> -> -> -> -> -> -> -> -> -> ->. apply keeps_intro. intros d F m H.
  unfold start_answer, drop_version. norm. steps; done.
Qed.
Lemma set_clen_ok : keeps own_msg set_clen.
Proof.
  unfold set_clen. apply (set_single_ok _ own_obj (fresh_obj 1) g_length set_length clen_init clen_parse obj_free (obj_init_ok 1) clen_parse_ok obj_free_ok).
  intros [] o x G. norm. subst. occs. lia.
Qed.
Lemma set_body_ok parse : keeps_fresh own_body fresh_body parse -> keeps own_msg (set_body parse).
Proof.
  intros P g. apply keeps_intro. intros d F m H. unfold set_body. steps.
  apply (body_init_ok d _ m _ H); clear m H; [intros m H|intros y m Y H]; steps; [done|].
  apply (P y Y d _ m _ H); [clear H; count|clear m H; intros [[] r] m H; steps].
  - destruct g as [s a b c e f g h i j k l]. norm. apply (wp_list_add _ own_body l r d _ m _ H); [count|].
    clear m H. intros k' m H. steps. done.
  - apply (body_free_ok r d _ m _ H); [count|]. clear m H. intros m H. steps. done.
Qed.
Lemma parts_round_ok : keeps own_msg parts_round.
Proof. intro g. apply keeps_intro. intros d F m H. unfold parts_round. steps; try done. kcall (set_body_ok _ body_parse_mime_ok); steps; done. Qed.
Lemma msg_body_ok : keeps own_msg msg_body.
Proof.
  intro g. apply keeps_intro. intros d F m H. unfold msg_body. steps; try done.
  - kcall (keeps_loop _ own_msg _ parts_round_ok (S n)); steps; done.
  - opt; steps; try done.
    + kcall (set_body_ok _ body_parse_ok); steps; done.
    + kcall set_clen_ok; steps; try done. kcall (set_body_ok _ body_parse_ok); steps; done.
Qed.
Lemma msg_parse_ok frag : keeps_fresh own_msg fresh_msg (msg_parse frag).
Proof.
  intros g Fg. apply keeps_intro. intros d F m H. unfold msg_parse.
  assert (forall beg g m, holds d (fun x => one x beg + occ x (own_msg g) + F x) m ->
    wp (r <~ (match g_length g with Some _ => ret (true, g) | None => set_clen g end) ;; _ <~ free (Some beg) ;; ret (true, snd r))
      (fun (r : bool * msgo) m' => holds d (fun x => occ x (own_msg (snd r)) + F x) m') m) as Tail.
  { clear. intros beg g m H. steps. opt; steps; try done. kcall set_clen_ok; steps; done. }
  assert (forall beg g m, holds d (fun x => one x beg + occ x (own_msg g) + F x) m ->
    wp (r <~ msg_body g ;; _ <~ free (Some beg) ;; (if negb (fst r) then ret r else
      match g_length (snd r) with Some _ => ret r | None => q <~ set_clen (snd r) ;; ret (true, snd q) end))
      (fun (r : bool * msgo) m' => holds d (fun x => occ x (own_msg (snd r)) + F x) m') m) as Body.
  { clear. intros beg g m H. steps. kcall msg_body_ok; steps; try done. opt; steps; try done. kcall set_clen_ok; steps; done. }
  assert (forall beg g m, holds d (fun x => one x beg + occ x (own_msg g) + F x) m ->
    wp (n <~ ask ;; r <~ loop n line_round g ;; bad <~ test ;;
        if negb (fst r) || bad then _ <~ free (Some beg) ;; ret (false, snd r) else
        let g := snd r in
        empty <~ test ;;
        g <~ (if empty : bool then _ <~ opt_free obj_free (g_length g) ;; ret (set_length None g) else ret g) ;;
        has_body <~ test ;;
        if has_body : bool then
          r <~ msg_body g ;; _ <~ free (Some beg) ;;
          if negb (fst r) then ret r else
          match g_length (snd r) with Some _ => ret r | None => q <~ set_clen (snd r) ;; ret (true, snd q) end
        else
          r <~ (match g_length g with Some _ => ret (true, g) | None => set_clen g end) ;; _ <~ free (Some beg) ;; ret (true, snd r))
      (fun (r : bool * msgo) m' => holds d (fun x => occ x (own_msg (snd r)) + F x) m') m) as Rest.
  { clear - Tail Body. intros beg g m H. apply wp_bind, (wp_ask d _ m _ H). clear m H. intros n m H.
    apply wp_bind. apply (keeps_loop _ own_msg _ line_round_ok n g d _ m _ H); [clear H; count|]. clear m H. intros [[] r] m H; cbn [fst snd negb orb];
      apply wp_bind, (wp_test d _ m _ H); clear m H; intros [] m H; try (steps; done).
    assert (forall g m, holds d (fun x => one x beg + occ x (own_msg g) + F x) m ->
      wp (has_body <~ test ;; if has_body : bool then
          r <~ msg_body g ;; _ <~ free (Some beg) ;;
          if negb (fst r) then ret r else
          match g_length (snd r) with Some _ => ret r | None => q <~ set_clen (snd r) ;; ret (true, snd q) end
        else
          r <~ (match g_length g with Some _ => ret (true, g) | None => set_clen g end) ;; _ <~ free (Some beg) ;; ret (true, snd r))
      (fun (r : bool * msgo) m' => holds d (fun x => occ x (own_msg (snd r)) + F x) m') m) as End.
    { clear - Tail Body. intros g m H. apply wp_bind, (wp_test d _ m _ H). clear m H. intros [] m H; [apply Body, H|apply Tail, H]. }
    apply wp_bind, (wp_test d _ m _ H). clear m H. intros [] m H; apply wp_bind; [|apply wp_ret, End; done].
    destruct r as [s a b c e f h i j k l p]. cbn [g_length]. apply wp_bind, (frees_opt _ own_obj _ obj_free_ok h d _ m _ H); [count|]. clear m H. intros m H.
    apply wp_ret, End. done. }
  apply wp_bind, (wp_new d _ m _ H); clear m H; [intros m H; steps; done|]. intros beg m H.
  apply wp_bind, (wp_test d _ m _ H). clear m H. intros [] m H; apply wp_bind.
  - apply (start_answer_ok g Fg d _ m _ H); [clear H; count|]. clear m H. intros [a r] m H.
    match goal with |- wp (if ?c then _ else _) _ _ => destruct c end; [cbn [fst snd]; steps; done|]. apply Rest. done.
  - apply (start_request_ok g Fg d _ m _ H); [clear H; count|]. clear m H. intros [a r] m H.
    match goal with |- wp (if ?c then _ else _) _ _ => destruct c end; [cbn [fst snd]; steps; done|]. apply Rest. done.
Qed.

(** *** The life of a structure *)
Lemma life_ok A (own : A -> list block) (fresh : A -> Prop) init parse fr : makes own fresh init -> keeps_fresh own fresh parse -> frees own fr ->
  forall m, exists m', life init parse fr m = Some (tt, m') /\ holds m (fun x => occ x (live m)) m'.
Proof.
  intros I P Fr m. cut (wp (life init parse fr) (fun _ m' => holds m (fun x => occ x (live m)) m') m).
  { intros ([] & m' & E & H). exists m'. split; [exact E|exact H]. }
  assert (holds m (fun x => occ x (live m)) m) as H. { exists []. split; [intro x; rewrite occ_nil; lia|]. split; [lia|]. split; [reflexivity|lia]. }
  set (F := fun x => occ x (live m)) in *. revert H. generalize m at 1 3. intros d H. clearbody F.
  unfold life. steps. apply (I d F m _ H); clear m H; [intros m H; steps; exact H|]. intros y m Y H. steps.
  apply (P y Y d _ m _ H); [clear H; count|]. clear m H. intros r m H. apply (Fr (snd r) d _ m _ H); [clear H; intro x; lia|]. clear m H. intros m H.
  apply (holds_eq _ _ _ _ H). intro x. lia.
Qed.

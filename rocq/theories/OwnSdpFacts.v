(** Facts about the memory that an SDP description owns: which blocks are allocated before and after each function of OwnSdp.v *)
From Coq Require Import Bool List Arith Lia Permutation.
From Verif Require Import OwnModel OwnFacts OwnMsg OwnSdp.
Import ListNotations.

Definition own_text (b : block) : list block := [b].
Definition own_timed (t : timed) : list block := own_obj (t_obj t) ++ own_list own_text (t_repeats t).
Definition own_media (d : media) : list block :=
  own_obj (d_obj d) ++ own_b (d_info d) ++ own_list own_text (d_payloads d) ++ own_opt own_obj (d_key d) ++ own_list own_obj (d_flats d).
Definition own_sdp (s : sdpo) : list block :=
  own_obj (z_obj s) ++ own_list own_text (z_texts s) ++ own_opt own_obj (z_conn s) ++ own_opt own_obj (z_key s) ++ own_list own_obj (z_flats s) ++
  own_list own_timed (z_times s) ++ own_list own_media (z_medias s).
Lemma occ_text x b : occ x (own_text b) = one x b.
Proof. unfold own_text. rewrite occ_cons, occ_nil. lia. Qed.
Lemma occ_timed x o l : occ x (own_timed (mkTimed o l)) = occ x (own_obj o) + occ x (own_list own_text l).
Proof. unfold own_timed. cbn [t_obj t_repeats]. apply occ_app. Qed.
Lemma occ_media x o i p k l : occ x (own_media (mkMedia o i p k l)) =
  occ x (own_obj o) + occ x (own_b i) + occ x (own_list own_text p) + occ x (own_opt own_obj k) + occ x (own_list own_obj l).
Proof. unfold own_media. cbn [d_obj d_info d_payloads d_key d_flats]. rewrite !occ_app. lia. Qed.
Lemma occ_sdp x o a b c l t e : occ x (own_sdp (mkSdpo o a b c l t e)) =
  occ x (own_obj o) + occ x (own_list own_text a) + occ x (own_opt own_obj b) + occ x (own_opt own_obj c) + occ x (own_list own_obj l) +
  occ x (own_list own_timed t) + occ x (own_list own_media e).
Proof. unfold own_sdp. cbn [z_obj z_texts z_conn z_key z_flats z_times z_medias]. rewrite !occ_app. lia. Qed.
Ltac snorm := norm; cbv beta iota zeta delta [t_obj t_repeats d_obj d_info d_payloads d_key d_flats z_obj z_texts z_conn z_key z_flats z_times z_medias
  with_obj with_texts with_conn with_key with_flats with_times with_medias] in *.
Ltac soccs := snorm; rewrite ?occ_sdp, ?occ_media, ?occ_timed, ?occ_text in *; occs; rewrite ?occ_text in *.
Ltac scount := let x := fresh "x" in intro x; soccs; try lia.
Ltac sclose H := apply (holds_eq _ _ _ _ H); scount.
Ltac sdone := match goal with H : holds _ _ ?m |- holds _ _ ?m => sclose H end.

(** *** Free functions *)
Lemma text_free_ok : frees own_text text_free.
Proof. apply frees_intro. intros b d F m H. unfold text_free. steps; [rewrite occ_text; lia|]. sdone. Qed.
Ltac sfr L := (match goal with |- wp (bind _ _) _ _ => apply wp_bind | _ => idtac end;
  match goal with H : holds ?d ?f ?m |- wp (_ ?y) ?Q ?m => apply (L y d f m Q H); [clear H; scount|clear m H; intros m H] end; snorm).
Lemma timed_free_ok : frees own_timed timed_free.
Proof. apply frees_intro. intros [o l] d F m H. unfold timed_free. snorm. sfr (frees_list _ own_text _ text_free_ok). sfr obj_free_ok. sdone. Qed.
Lemma free_b_ok : frees own_b free.
Proof. intros o d f m Q H S K. apply (wp_free d f o m Q H S K). Qed.
Lemma media_free_ok : frees own_media media_free.
Proof.
  apply frees_intro. intros [o i p k l] d F m H. unfold media_free. snorm. sfr (frees_list _ own_text _ text_free_ok). sfr free_b_ok.
  sfr (frees_list _ own_obj _ obj_free_ok). sfr (frees_opt _ own_obj _ obj_free_ok). sfr obj_free_ok. sdone.
Qed.
Lemma sdp_free_ok : frees own_sdp sdp_free.
Proof.
  apply frees_intro. intros [o a b c l t e] d F m H. unfold sdp_free. snorm. sfr (frees_list _ own_text _ text_free_ok). sfr (frees_opt _ own_obj _ obj_free_ok).
  sfr (frees_list _ own_timed _ timed_free_ok). sfr (frees_opt _ own_obj _ obj_free_ok). sfr (frees_list _ own_obj _ obj_free_ok).
  sfr (frees_list _ own_media _ media_free_ok). sfr obj_free_ok. sdone.
Qed.

(** *** Structures of their own *)
(** each of these is filled when it is new *)
Ltac tsteps := repeat (step || match goal with
  | |- wp (token _ _) _ _ => unfold token
  | |- wp (token2 _ _) _ _ => unfold token2
  | |- wp (both_tokens _ _ _) _ _ => unfold both_tokens
  end).
Lemma conn_parse_ok : keeps_fresh own_obj (fresh_obj 5) conn_parse.
Proof. obj_start. unfold conn_parse. tsteps. all: done. Qed.
Lemma band_parse_ok : keeps_fresh own_obj (fresh_obj 2) (both_tokens (token 0) (token2 1)).
Proof. obj_start. tsteps. all: done. Qed.
Lemma pair_parse_ok : keeps_fresh own_obj (fresh_obj 2) pair_parse.
Proof. obj_start. unfold pair_parse. tsteps. all: done. Qed.
Lemma media_tokens_ok : keeps_fresh own_obj (fresh_obj 4) media_tokens.
Proof. obj_start. unfold media_tokens. tsteps. all: done. Qed.
Definition fresh_timed (t : timed) : Prop := fresh_obj 2 (t_obj t) /\ t_repeats t = [].
Lemma timed_init_ok : makes own_timed fresh_timed timed_init.
Proof.
  intros d f m Q H N K. unfold timed_init. apply wp_bind, (obj_init_ok 2 d f m _ H); clear m H; [intros m H|intros y m Y H]; steps; [apply N, H|].
  apply K; [split; [exact Y|reflexivity]|]. sdone.
Qed.
Lemma timed_parse_ok : keeps_fresh own_timed fresh_timed timed_parse.
Proof.
  intros [o l] [E _]. cbn in E. apply keeps_intro. intros d F m H. unfold timed_parse. snorm. apply wp_bind.
  apply (band_parse_ok o E d _ m _ H); [clear H; scount|]. clear m H. intros [b r] m H. apply wp_ret. sdone.
Qed.
Definition fresh_media (d : media) : Prop := fresh_obj 4 (d_obj d).
Lemma media_init_ok : makes own_media fresh_media media_init.
Proof.
  intros d f m Q H N K. unfold media_init. apply wp_bind, (obj_init_ok 4 d f m _ H); clear m H; [intros m H|intros y m Y H]; steps; [apply N, H|].
  apply K; [exact Y|]. sdone.
Qed.
Lemma payload_ok : keeps own_media payload.
Proof.
  intros [o i p k l]. apply keeps_intro. intros d F m H. unfold payload. snorm. steps; snorm; try sdone.
  apply (wp_list_add _ own_text p b d _ m _ H); [scount|]. clear m H. intros p' m H. apply wp_ret. sdone.
Qed.
Lemma last_payload_ok : keeps own_media last_payload.
Proof.
  intros [o i p k l]. apply keeps_intro. intros d F m H. unfold last_payload. snorm. steps; snorm; try sdone.
  - apply (payload_ok _ d _ m _ H); [clear H; scount|]. clear m H. intros [c r] m H. apply (holds_eq _ _ _ _ H). intro x. cbn [snd]. lia.
  - apply (payload_ok _ d _ m _ H); [clear H; scount|]. clear m H. intros [c r] m H. apply (holds_eq _ _ _ _ H). intro x. cbn [snd]. lia.
  - apply (wp_list_add _ own_text p b d _ m _ H); [scount|]. clear m H. intros p' m H. apply wp_ret. sdone.
Qed.
Lemma media_parse_ok : keeps_fresh own_media fresh_media media_parse.
Proof.
  intros [o i p k l] E. unfold fresh_media in E. cbn in E. apply keeps_intro. intros d F m H. unfold media_parse. snorm. apply wp_bind.
  apply (media_tokens_ok o E d _ m _ H); [clear H; scount|]. clear m H. intros [[] r] m H; snorm; steps; [|sdone].
  apply (keeps_loop _ own_media _ payload_ok n _ d _ m _ H); [clear H; scount|]. clear m H. intros [[] q] m H; snorm; steps; try sdone.
  apply (last_payload_ok q d _ m _ H); [clear H; scount|]. clear m H. intros [c t] m H. sdone.
Qed.

(** *** The description *)
(** a description with its eleven texts *)
Definition whole (s : sdpo) : Prop := length (fs (z_obj s)) = 11.
(** [p] turns what the description owns into what the answer owns *)
Definition turns {R} (p : sdpo -> prog (R * sdpo)) : Prop := forall s, whole s -> forall d F m, holds d (fun x => occ x (own_sdp s) + F x) m ->
  wp (p s) (fun r m' => whole (snd r) /\ holds d (fun x => occ x (own_sdp (snd r)) + F x) m') m.
(** the same for a description that is given [g] more *)
Definition takes (g : block -> nat) (s : sdpo) (p : prog sdpo) : Prop := forall d F m, holds d (fun x => occ x (own_sdp s) + g x + F x) m ->
  wp p (fun s' m' => whole s' /\ holds d (fun x => occ x (own_sdp s') + F x) m') m.
Lemma set_nth_length i o l : length (set_nth i o l) = length l.
Proof. revert i. induction l as [|y l IH]; intros [|i]; cbn; try reflexivity. f_equal. apply IH. Qed.
Lemma set_nth_occ i o l x : i < length l -> occ x (own_fs (set_nth i o l)) + occ x (own_b (nth i l None)) = occ x (own_fs l) + occ x (own_b o).
Proof.
  revert i. induction l as [|y l IH]; intros [|i] H; cbn [set_nth nth length] in *; try lia; rewrite !occ_fs_cons; [lia|]. specialize (IH i ltac:(lia)). lia.
Qed.
Lemma wp_forget (A : Type) (own : A -> list block) (o : option A) d f m (Q : unit -> mem -> Prop) : holds d f m -> (forall x, occ x (own_opt own o) <= f x) ->
  (forall m', holds d (fun x => f x - occ x (own_opt own o)) m' -> Q tt m') -> wp (forget o) Q m.
Proof.
  intros H S K. destruct o as [y|]; cbn [forget].
  - apply (wp_lose_type d f (own y) m Q H S K).
  - apply wp_ret, K. close H.
Qed.
Lemma own_b_opt (o : option block) : own_b o = own_opt own_text o. Proof. destruct o; reflexivity. Qed.
Lemma over_ok i o s : whole s -> i < 11 -> takes (fun x => occ x (own_b o)) s (over i o s).
Proof.
  intros W I d F m H. destruct s as [[u a p h] tx c k l t e]. unfold whole in W. unfold over. snorm.
  assert (forall x, occ x (own_fs (set_nth i o a)) + occ x (own_opt own_text (nth i a None)) = occ x (own_fs a) + occ x (own_b o)) as N.
  { intro x. rewrite <- own_b_opt. apply set_nth_occ. rewrite W. exact I. }
  apply wp_bind, (wp_forget _ own_text (nth i a None) d _ m _ H).
  - intro x. specialize (N x). soccs. lia.
  - clear m H. intros m H. apply wp_ret. split; [unfold whole; cbn [z_obj fs]; rewrite set_nth_length; exact W|]. apply (holds_eq _ _ _ _ H). intro x. specialize (N x). soccs. lia.
Qed.
Lemma on_last_ok A (own : A -> list block) (g : block -> nat) p :
  (forall y d F m, holds d (fun x => occ x (own y) + g x + F x) m -> wp (p y) (fun z m' => holds d (fun x => occ x (own z) + F x) m') m) ->
  forall l d F m, l <> [] -> holds d (fun x => occ x (own_list own l) + g x + F x) m ->
  wp (on_last p l) (fun l' m' => holds d (fun x => occ x (own_list own l') + F x) m') m.
Proof.
  intros P l. induction l as [|[b y] l IH]; intros d F m N H; [congruence|]. destruct l as [|e l].
  - cbn [on_last]. apply wp_bind. eapply wp_mono; [apply (P y d (fun x => one x b + F x) m); close H|]. clear m H. intros z m H. apply wp_ret. close H.
  - change (on_last p ((b, y) :: e :: l)) with (l' <~ on_last p (e :: l) ;; ret ((b, y) :: l')). apply wp_bind.
    eapply wp_mono; [apply (IH d (fun x => one x b + occ x (own y) + F x) m); [discriminate|]|].
    + apply (holds_eq _ _ _ _ H). intro x. rewrite (own_list_cons _ own b y (e :: l)). lia.
    + clear m H. intros l' m H. apply wp_ret. apply (holds_eq _ _ _ _ H). intro x. rewrite own_list_cons. lia.
Qed.
Lemma media_info_ok b : forall y d F m, holds d (fun x => occ x (own_media y) + one x b + F x) m -> wp (media_info b y) (fun z m' => holds d (fun x => occ x (own_media z) + F x) m') m.
Proof.
  intros [o i p k l] d F m H. unfold media_info. snorm. apply wp_bind, (wp_forget _ own_text i d _ m _ H); [intro x; rewrite <- own_b_opt; soccs; lia|].
  clear m H. intros m H. apply wp_ret. apply (holds_eq _ _ _ _ H). intro x. rewrite <- own_b_opt. soccs. lia.
Qed.
Lemma media_flat_ok o : forall y d F m, holds d (fun x => occ x (own_media y) + occ x (own_obj o) + F x) m -> wp (media_flat o y) (fun z m' => holds d (fun x => occ x (own_media z) + F x) m') m.
Proof.
  intros [u i p k l] d F m H. unfold media_flat. snorm. apply wp_bind, (wp_list_add _ own_obj l o d _ m _ H); [scount|]. clear m H. intros l' m H. apply wp_ret. sdone.
Qed.
Lemma media_key_ok o : forall y d F m, holds d (fun x => occ x (own_media y) + occ x (own_obj o) + F x) m -> wp (media_key o y) (fun z m' => holds d (fun x => occ x (own_media z) + F x) m') m.
Proof.
  intros [u i p k l] d F m H. unfold media_key. snorm. apply wp_bind, (wp_forget _ own_obj k d _ m _ H); [scount|]. clear m H. intros m H. apply wp_ret. sdone.
Qed.
Lemma time_repeat_ok b : forall y d F m, holds d (fun x => occ x (own_timed y) + one x b + F x) m -> wp (time_repeat b y) (fun z m' => holds d (fun x => occ x (own_timed z) + F x) m') m.
Proof.
  intros [o l] d F m H. unfold time_repeat. snorm. apply wp_bind, (wp_list_add _ own_text l b d _ m _ H); [scount|]. clear m H. intros l' m H. apply wp_ret. sdone.
Qed.
(** give something to the last media *)
Lemma last_media_ok g p s : whole s -> z_medias s <> [] ->
  (forall y d F m, holds d (fun x => occ x (own_media y) + g x + F x) m -> wp (p y) (fun z m' => holds d (fun x => occ x (own_media z) + F x) m') m) ->
  takes g s (l <~ on_last p (z_medias s) ;; ret (with_medias l s)).
Proof.
  intros W N P d F m H. destruct s as [o a b c l t e]. snorm. apply wp_bind.
  eapply wp_mono; [apply (on_last_ok _ own_media g p P e d (fun x => occ x (own_obj o) + occ x (own_list own_text a) + occ x (own_opt own_obj b) + occ x (own_opt own_obj c) + occ x (own_list own_obj l) + occ x (own_list own_timed t) + F x) m N)|].
  - apply (holds_eq _ _ _ _ H). intro x. rewrite occ_sdp. lia.
  - clear m H. intros e' m H. apply wp_ret. split; [exact W|]. apply (holds_eq _ _ _ _ H). intro x. rewrite occ_sdp. lia.
Qed.
Lemma give_conn_ok s c : whole s -> takes (fun x => occ x (own_obj c)) s (give_conn s c).
Proof.
  intros W. unfold give_conn. destruct (z_medias s) as [|e l] eqn:M.
  - intros d F m H. destruct s as [o a b k f t e]. snorm. apply wp_bind, (wp_forget _ own_obj b d _ m _ H); [scount|]. clear m H. intros m H. apply wp_ret. split; [exact W|sdone].
  - rewrite <- M. apply last_media_ok; [exact W|congruence|]. apply media_flat_ok.
Qed.
Lemma give_key_ok s c : whole s -> takes (fun x => occ x (own_obj c)) s (give_key s c).
Proof.
  intros W. unfold give_key. destruct (z_medias s) as [|e l] eqn:M.
  - intros d F m H. destruct s as [o a b k f t e]. snorm. apply wp_bind, (wp_forget _ own_obj k d _ m _ H); [scount|]. clear m H. intros m H. apply wp_ret. split; [exact W|sdone].
  - rewrite <- M. apply last_media_ok; [exact W|congruence|]. apply media_key_ok.
Qed.
Lemma give_flat_ok s c : whole s -> takes (fun x => occ x (own_obj c)) s (give_flat s c).
Proof.
  intros W. unfold give_flat. destruct (z_medias s) as [|e l] eqn:M.
  - intros d F m H. destruct s as [o a b k f t e]. snorm. apply wp_bind, (wp_list_add _ own_obj f c d _ m _ H); [scount|]. clear m H. intros f' m H. apply wp_ret. split; [exact W|sdone].
  - rewrite <- M. apply last_media_ok; [exact W|congruence|]. apply media_flat_ok.
Qed.

(** *** Lines *)
Lemma line_ok (k : sdpo -> prog (outcome * sdpo)) : turns k -> turns (fun s => line s (k s)).
Proof.
  intros K s W d F m H. unfold line. steps; try (split; [exact W|exact H]). apply (K s W d F m H).
Qed.
Lemma made_ok A (own : A -> list block) (fresh : A -> Prop) init parse fr (give : sdpo -> A -> prog sdpo) :
  makes own fresh init -> keeps_fresh own fresh parse -> frees own fr -> (forall s y, whole s -> takes (fun x => occ x (own y)) s (give s y)) ->
  turns (fun s => made s init parse fr (give s)).
Proof.
  intros I P Fr G s W d F m H. unfold made. apply wp_bind, (I d _ m _ H); clear m H; [intros m H|intros y m Y H]; steps; [split; [exact W|exact H]|].
  apply (P y Y d _ m _ H); [clear H; intro x; lia|]. clear m H. intros [[] r] m H; snorm.
  - apply wp_bind. eapply wp_mono; [apply (G s r W d F m); apply (holds_eq _ _ _ _ H); intro x; lia|]. clear m H. intros s' m [W' H]. apply wp_ret. split; [exact W'|exact H].
  - apply wp_bind, (Fr r d _ m _ H); [intro x; lia|]. clear m H. intros m H. apply wp_ret. split; [exact W|]. apply (holds_eq _ _ _ _ H). intro x. cbn [snd]. lia.
Qed.
Ltac newb H := match type of H with holds ?d ?f ?m => apply wp_bind, (wp_new d f m _ H); clear m H; [intros m H|let b := fresh "b" in intros b m H] end.
Lemma direct_line_ok i : i < 11 -> turns (direct_line i).
Proof.
  intro I. unfold direct_line. apply (line_ok (fun s => o <~ new ;; s <~ over i o s ;; ret (match o with Some _ => Good | None => Short end, s))).
  intros s W d F m H. newb H; apply wp_bind; (eapply wp_mono; [apply (over_ok i _ s W I d F m); close H|]); clear m H; intros s' m [W' H]; apply wp_ret; (split; [exact W'|exact H]).
Qed.
Lemma token_at_ok i : i < 11 -> turns (token_at i).
Proof.
  intros I s W d F m H. unfold token_at. apply wp_bind, (wp_test d _ m _ H). clear m H. intros [] m H; [apply wp_ret; split; [exact W|exact H]|].
  newb H; apply wp_bind; (eapply wp_mono; [apply (over_ok i _ s W I d F m); close H|]); clear m H; intros s' m [W' H]; apply wp_ret; (split; [exact W'|exact H]).
Qed.
Lemma tokens_at_ok is : (forall i, In i is -> i < 11) -> turns (tokens_at is).
Proof.
  induction is as [|i is IH]; intros I s W d F m H; cbn [tokens_at]; [apply wp_ret; split; [exact W|exact H]|]. apply wp_bind.
  eapply wp_mono; [apply (token_at_ok i (I i (or_introl eq_refl)) s W d F m H)|]. clear m H. intros [[] s'] m [W' H]; cbn [fst snd] in *.
  - apply (IH (fun j J => I j (or_intror J)) s' W' d F m H).
  - apply wp_ret. split; [exact W'|exact H].
Qed.
Ltac turn T H := eapply wp_mono; [eapply T; [|exact H]; assumption|]; clear H; intros [? ?] ? [? H]; cbn [fst snd] in *.
Lemma o_line_ok : turns o_line.
Proof.
  unfold o_line. match goal with |- turns (fun s => line s (@?k s)) => apply (line_ok k) end. intros s W d F m H. apply wp_bind.
  eapply wp_mono; [apply (tokens_at_ok [1; 2; 3; 4; 5]) with (d := d) (F := F); [cbn; intros; lia|exact W|exact H]|]. clear m H. intros [[] s1] m [W1 H]; cbn [fst snd negb] in *; [|apply wp_ret; split; assumption].
  apply wp_bind. eapply wp_mono; [apply (token_at_ok 6 ltac:(lia) s1 W1 d F m H)|]. clear m H. intros [[] s2] m [W2 H]; cbn [fst snd] in *; [apply wp_ret; split; assumption|].
  apply wp_bind. eapply wp_mono; [apply (token_at_ok 6 ltac:(lia) s2 W2 d F m H)|]. clear m H. intros [[] s3] m [W3 H]; cbn [fst snd] in *; apply wp_ret; split; assumption.
Qed.
Lemma z_line_ok : turns z_line.
Proof.
  unfold z_line. match goal with |- turns (fun s => line s (@?k s)) => apply (line_ok k) end. intros s W d F m H. newb H; [apply wp_ret; split; assumption|].
  apply wp_bind. eapply wp_mono; [apply (over_ok 10 (Some b) s W ltac:(lia) d F m); close H|]. clear m H. intros s' m [W' H]. apply wp_ret. split; assumption.
Qed.
Lemma i_line_ok : turns i_line.
Proof.
  unfold i_line. match goal with |- turns (fun s => line s (@?k s)) => apply (line_ok k) end. intros s W d F m H. newb H; [apply wp_ret; split; assumption|].
  destruct (z_medias s) as [|e l] eqn:M.
  - apply wp_bind. eapply wp_mono; [apply (over_ok 8 (Some b) s W ltac:(lia) d F m); close H|]. clear m H. intros s' m [W' H]. apply wp_ret. split; assumption.
  - rewrite <- M. pose proof (last_media_ok (fun x => one x b) (media_info b) s W ltac:(congruence) (media_info_ok b)) as T.
    specialize (T d F m ltac:(close H)). destruct T as (s' & m' & E & W' & H'). unfold bind in E. 
    destruct (on_last (media_info b) (z_medias s) m) as [[l' m1]|] eqn:L; [|discriminate]. injection E as <- <-.
    exists (Good, with_medias l' s), m1. split; [unfold bind; rewrite L; reflexivity|split; assumption].
Qed.
Lemma text_line_ok : turns text_line.
Proof.
  unfold text_line. match goal with |- turns (fun s => line s (@?k s)) => apply (line_ok k) end. intros s W d F m H. newb H; [apply wp_ret; split; assumption|].
  destruct s as [o a b' k f t e]. snorm. apply wp_bind, (wp_list_add _ own_text a b d _ m _ H); [scount|]. clear m H. intros a' m H. apply wp_ret. split; [exact W|sdone].
Qed.
Lemma r_line_ok : turns r_line.
Proof.
  unfold r_line. match goal with |- turns (fun s => line s (@?k s)) => apply (line_ok k) end. intros s W d F m H. destruct (z_times s) as [|e0 l0] eqn:M; [apply wp_ret; split; assumption|].
  newb H; [apply wp_ret; split; assumption|]. rewrite <- M. destruct s as [o a b' c l t e]. snorm. apply wp_bind.
  eapply wp_mono; [apply (on_last_ok _ own_timed (fun x => one x b) _ (time_repeat_ok b) t d (fun x => occ x (own_obj o) + occ x (own_list own_text a) + occ x (own_opt own_obj b') + occ x (own_opt own_obj c) + occ x (own_list own_obj l) + occ x (own_list own_media e) + F x) m)|].
  - congruence.
  - apply (holds_eq _ _ _ _ H). intro x. rewrite occ_sdp. lia.
  - clear m H. intros e' m H. apply wp_ret. split; [exact W|]. apply (holds_eq _ _ _ _ H). intro x. cbn [snd]. rewrite occ_sdp. lia.
Qed.
Lemma c_line_ok : turns c_line.
Proof. unfold c_line. match goal with |- turns (fun s => line s (@?k s)) => apply (line_ok k) end. apply (made_ok _ own_obj (fresh_obj 5) _ _ _ give_conn (obj_init_ok 5) conn_parse_ok obj_free_ok give_conn_ok). Qed.
Lemma b_line_ok : turns b_line.
Proof. unfold b_line. match goal with |- turns (fun s => line s (@?k s)) => apply (line_ok k) end. apply (made_ok _ own_obj (fresh_obj 2) _ _ _ give_flat (obj_init_ok 2) band_parse_ok obj_free_ok give_flat_ok). Qed.
Lemma a_line_ok : turns a_line.
Proof. unfold a_line. match goal with |- turns (fun s => line s (@?k s)) => apply (line_ok k) end. apply (made_ok _ own_obj (fresh_obj 2) _ _ _ give_flat (obj_init_ok 2) pair_parse_ok obj_free_ok give_flat_ok). Qed.
Lemma k_line_ok : turns k_line.
Proof. unfold k_line. match goal with |- turns (fun s => line s (@?k s)) => apply (line_ok k) end. apply (made_ok _ own_obj (fresh_obj 2) _ _ _ give_key (obj_init_ok 2) pair_parse_ok obj_free_ok give_key_ok). Qed.
Lemma t_line_ok : turns t_line.
Proof.
  unfold t_line. match goal with |- turns (fun s => line s (@?k s)) => apply (line_ok k) end.
  apply (made_ok _ own_timed fresh_timed _ _ _ (fun s t => l <~ list_add (z_times s) t ;; ret (with_times l s)) timed_init_ok timed_parse_ok timed_free_ok).
  intros s y W d F m H. destruct s as [o a b k f t e]. snorm. apply wp_bind, (wp_list_add _ own_timed t y d _ m _ H); [scount|]. clear m H. intros t' m H. apply wp_ret. split; [exact W|sdone].
Qed.
Lemma m_line_ok : turns m_line.
Proof.
  unfold m_line. match goal with |- turns (fun s => line s (@?k s)) => apply (line_ok k) end.
  apply (made_ok _ own_media fresh_media _ _ _ (fun s t => l <~ list_add (z_medias s) t ;; ret (with_medias l s)) media_init_ok media_parse_ok media_free_ok).
  intros s y W d F m H. destruct s as [o a b k f t e]. snorm. apply wp_bind, (wp_list_add _ own_media e y d _ m _ H); [scount|]. clear m H. intros t' m H. apply wp_ret. split; [exact W|sdone].
Qed.

(** *** The whole parser *)
Lemma maybe_test (fin : bool) d f m (Q : bool -> mem -> Prop) : holds d f m -> (forall b m', holds d f m' -> Q b m') -> wp (if fin then test else ret false) Q m.
Proof. intros H K. destruct fin; [apply (wp_test d f m Q H K)|apply wp_ret, K, H]. Qed.
Lemma once_ok need fin p : turns p -> turns (once need fin p).
Proof.
  intros P s W d F m H. unfold once. apply wp_bind. eapply wp_mono; [apply (P s W d F m H)|]. clear m H. intros [o r] m [W' H]; cbn [fst snd] in *.
  assert (forall m, holds d (fun x => occ x (own_sdp r) + F x) m ->
    wp (over <~ (if fin then test else ret false) ;; ret (if over : bool then Some true else None, r)) (fun r0 m' => whole (snd r0) /\ holds d (fun x => occ x (own_sdp (snd r0)) + F x) m') m) as E.
  { clear m H. intros m H. apply wp_bind, (maybe_test fin d _ m _ H). clear m H. intros b m H. apply wp_ret. split; assumption. }
  destruct o; [apply wp_ret; split; assumption| | |]; rewrite ?andb_false_r, ?andb_true_r; [destruct need; [apply wp_ret; split; assumption|]|idtac|idtac]; apply E, H.
Qed.
Lemma many_lines_ok n fin p : turns p -> turns (many_lines n fin p).
Proof.
  intro P. induction n as [|n IH]; intros s W d F m H; cbn [many_lines]; [apply wp_ret; split; assumption|].
  apply wp_bind. eapply wp_mono; [apply (P s W d F m H)|]. clear m H. intros [o r] m [W' H]; cbn [fst snd] in *.
  destruct o; [apply wp_ret; split; assumption| | |]; (apply wp_bind, (maybe_test fin d _ m _ H); clear m H; intros [] m H; [apply wp_ret; split; assumption|]);
    [apply wp_ret; split; assumption|apply (IH r W' d F m H)|apply wp_ret; split; assumption].
Qed.
Lemma many_ok fin p : turns p -> turns (many fin p).
Proof. intros P s W d F m H. unfold many. apply wp_bind, (wp_ask d _ m _ H). clear m H. intros n m H. apply (many_lines_ok n fin p P s W d F m H). Qed.
Lemma stages_ok l : Forall turns l -> turns (stages l).
Proof.
  induction 1 as [|p l P L IH]; intros s W d F m H; cbn [stages]; [apply wp_ret; split; assumption|].
  apply wp_bind. eapply wp_mono; [apply (P s W d F m H)|]. clear m H. intros [[b|] r] m [W' H]; cbn [fst snd] in *; [apply wp_ret; split; assumption|apply (IH r W' d F m H)].
Qed.
Lemma time_blocks_ok n : turns (time_blocks n).
Proof.
  induction n as [|n IH]; intros s W d F m H; cbn [time_blocks]; [apply wp_ret; split; assumption|].
  apply wp_bind. eapply wp_mono; [apply (many_ok true r_line r_line_ok s W d F m H)|]. clear m H. intros [[b|] r] m [W' H]; cbn [fst snd] in *; [apply wp_ret; split; assumption|].
  apply wp_bind. eapply wp_mono; [apply (t_line_ok r W' d F m H)|]. clear m H. intros [o q] m [W'' H]; cbn [fst snd] in *.
  destruct o; [apply wp_ret; split; assumption| | |]; (apply wp_bind, (wp_test d _ m _ H); clear m H; intros [] m H; [apply wp_ret; split; assumption|]);
    [apply wp_ret; split; assumption|apply (IH q W'' d F m H)|apply (IH q W'' d F m H)].
Qed.
Lemma media_blocks_ok n : turns (media_blocks n).
Proof.
  induction n as [|n IH]; intros s W d F m H; cbn [media_blocks]; [apply wp_ret; split; assumption|].
  apply wp_bind. eapply wp_mono; [apply (m_line_ok s W d F m H)|]. clear m H. intros [o q] m [W' H]. cbn [fst snd] in *.
  assert (turns (stages [once false true i_line; many true c_line; many true b_line; once false true k_line; many true a_line])) as S.
  { apply stages_ok. repeat constructor; first [apply once_ok|apply many_ok]; [apply i_line_ok|apply c_line_ok|apply b_line_ok|apply k_line_ok|apply a_line_ok]. }
  destruct o; [apply wp_ret; split; assumption| | |]; (apply wp_bind, (wp_test d _ m _ H); clear m H; intros [] m H; [apply wp_ret; split; assumption|]);
    apply wp_bind; (eapply wp_mono; [apply (S q W' d F m H)|]); clear m H; intros [[b|] r] m [W'' H]; cbn [fst snd] in *; try (apply wp_ret; split; assumption); apply (IH r W'' d F m H).
Qed.
Lemma sdp_init_ok : makes own_sdp whole sdp_init.
Proof.
  intros d f m Q H N K. unfold sdp_init. apply wp_bind, (obj_init_ok 11 d f m _ H); clear m H; [intros m H|intros y m Y H]; steps; [apply N, H|].
  apply K; [|sdone]. unfold fresh_obj in Y. unfold whole. cbn [z_obj]. rewrite Y. reflexivity.
Qed.
Lemma sdp_parse_ok : keeps_fresh own_sdp whole sdp_parse.
Proof.
  intros s W. apply keeps_intro. intros d F m H. unfold sdp_parse. apply wp_bind. eapply wp_mono; [apply stages_ok with (d := d) (F := F); [|exact W|exact H]|].
  - repeat (apply Forall_cons; [first [apply once_ok|apply many_ok|idtac]; first [apply direct_line_ok; lia|apply o_line_ok|apply i_line_ok|apply text_line_ok|apply c_line_ok|apply b_line_ok|apply t_line_ok|apply r_line_ok|apply z_line_ok|apply k_line_ok|apply a_line_ok|idtac]|]); [| |constructor].
    + clear. intros s W d F m H. apply wp_bind, (wp_ask d _ m _ H). clear m H. intros n m H. apply (time_blocks_ok n s W d F m H).
    + clear. intros s W d F m H. apply wp_bind, (wp_ask d _ m _ H). clear m H. intros n m H. apply (media_blocks_ok n s W d F m H).
  - clear m H. intros [b r] m [W' H]. apply wp_ret. exact H.
Qed.

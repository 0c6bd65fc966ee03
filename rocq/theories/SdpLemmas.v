(** Lemmas on the scanning functions and lines of SdpModel. *)
From Coq Require Import String ZArith NArith Ascii Bool List Lia ZifyBool ZifyNat.
From Verif Require Import Base Str SdpModel SdpSpec.
Import ListNotations.

Lemma eqb_eq' : forall a b, Ascii.eqb a b = true <-> a = b.
Proof. exact Ascii.eqb_eq. Qed.
Lemma eqb_neq' : forall a b, Ascii.eqb a b = false <-> a <> b.
Proof. exact Ascii.eqb_neq. Qed.

Lemma scan_app : forall stop p r, (forall c, In c p -> stop c = false) ->
  (match r with [] => True | c :: _ => stop c = true end) -> scan stop (p ++ r) = (p, r).
Proof.
  induction p as [|c p IH]; intros r Hp Hr; cbn.
  - destruct r; cbn; auto. now rewrite Hr.
  - rewrite (Hp c (or_introl eq_refl)). rewrite IH; auto. intros; apply Hp; now right.
Qed.

Lemma scan_spec : forall stop s p r, scan stop s = (p, r) ->
  s = p ++ r /\ (forall c, In c p -> stop c = false) /\ (match r with [] => True | c :: _ => stop c = true end).
Proof.
  induction s as [|c s IH]; intros p r H; cbn in H.
  - injection H as <- <-. cbn. intuition.
  - destruct (stop c) eqn:E.
    + injection H as <- <-. cbn. intuition.
    + destruct (scan stop s) as [p' r'] eqn:E'. injection H as <- <-.
      destruct (IH _ _ eq_refl) as (-> & A & B). cbn. repeat split; auto.
      intros x [->|Hx]; auto.
Qed.

Lemma is_eol_iff : forall c, is_eol c = true <-> c = cr \/ c = lf.
Proof. intros. unfold is_eol. rewrite orb_true_iff, !eqb_eq'. tauto. Qed.
Lemma is_eol_niff : forall c, is_eol c = false <-> c <> cr /\ c <> lf.
Proof. intros. unfold is_eol. rewrite orb_false_iff, !eqb_neq'. tauto. Qed.

Lemma line_text_no : forall s c, line_text s -> In c s -> is_eol c = false.
Proof. intros s c (_ & A & B) Hin. apply is_eol_niff. split; intros ->; auto. Qed.
Lemma line_text_intro : forall s, s <> [] -> (forall c, In c s -> is_eol c = false) -> line_text s.
Proof.
  intros s Hn H. split; auto. split; intros Hin; apply H in Hin; apply is_eol_niff in Hin; tauto.
Qed.

Lemma token_inv : forall s sep tok r, set_next_token s sep = Some (tok, r) ->
  s = tok ++ sep :: r /\ word [sep] tok.
Proof.
  unfold set_next_token. intros s sep tok r H.
  destruct (scan _ s) as [p q] eqn:E. destruct (scan_spec _ _ _ _ E) as (-> & A & B).
  destruct q as [|c q]; [discriminate|].
  destruct (is_eol c && negb (Ascii.eqb c sep)) eqn:F; [discriminate|].
  destruct p as [|x p]; [discriminate|]. injection H as <- <-.
  assert (Hc : c = sep).
  { apply orb_true_iff in B. destruct B as [B|B]; [now apply eqb_eq'|].
    rewrite B in F. cbn in F. apply negb_false_iff in F. now apply eqb_eq'. }
  subst c. split; auto. split.
  - apply line_text_intro; [discriminate|]. intros c Hc. apply A in Hc. now apply orb_false_iff in Hc.
  - intros c [->|[]] Hc. apply A in Hc. apply orb_false_iff in Hc. destruct Hc as [Hc _].
    apply eqb_neq' in Hc. congruence.
Qed.

Lemma token_ok : forall sep tok r, word [sep] tok -> set_next_token (tok ++ sep :: r) sep = Some (tok, r).
Proof.
  intros sep tok r [Hl Hs]. unfold set_next_token. rewrite scan_app.
  - rewrite Ascii.eqb_refl, andb_false_r. destruct tok; auto. now destruct Hl.
  - intros c Hc. apply orb_false_iff. split; [|eapply line_text_no; eauto].
    apply eqb_neq'. intros ->. exact (Hs sep (or_introl eq_refl) Hc).
  - now rewrite Ascii.eqb_refl.
Qed.

(** on a line that ends (with something else) before the separator *)
Lemma token_none : forall sep v e r, (forall c, In c v -> is_eol c = false) -> ~ In sep v ->
  is_eol e = true -> e <> sep -> set_next_token (v ++ e :: r) sep = None.
Proof.
  intros. unfold set_next_token. rewrite scan_app.
  - rewrite H1. cbn. apply eqb_neq' in H2. now rewrite H2.
  - intros c Hc. rewrite (H c Hc), orb_false_r. apply eqb_neq'. intros ->; auto.
  - now rewrite H1, orb_true_r.
Qed.

Lemma word_eol : forall e s, (e = cr \/ e = lf) -> line_text s -> word [e] s.
Proof. intros e s He Hs. split; auto. intros c [<-|[]]. destruct Hs as (_ & A & B), He; subst; auto. Qed.

Lemma last_inv : forall s tok r, last_token s = Some (tok, r) ->
  line_text tok /\ exists e, is_eol e = true /\ s = tok ++ e :: r.
Proof.
  unfold last_token. intros s tok r H. destruct (set_next_token s cr) as [[a b]|] eqn:E.
  - injection H as -> ->. apply token_inv in E. destruct E as [-> [A _]]. split; auto. exists cr. auto.
  - apply token_inv in H. destruct H as [-> [A _]]. split; auto. exists lf. auto.
Qed.
Lemma last_ok : forall tok r, line_text tok -> last_token (tok ++ cr :: r) = Some (tok, r).
Proof. intros. unfold last_token. rewrite token_ok; auto using word_eol. Qed.

Lemma last_CRLF : forall tok r, line_text tok -> last_token (tok ++ CRLF ++ r) = Some (tok, lf :: r).
Proof. intros. change (CRLF ++ r) with (cr :: lf :: r). now apply last_ok. Qed.

Lemma crlf_inv : forall v x q, find_crlf v = Some (x, q) ->
  v = x ++ q /\ line_text x /\ exists e t, q = e :: t /\ is_eol e = true.
Proof.
  unfold find_crlf. intros v x q H. destruct (scan is_eol v) as [a b] eqn:E.
  destruct (scan_spec _ _ _ _ E) as (-> & A & B).
  destruct b as [|e t]; [discriminate|]. destruct a as [|y a]; [discriminate|].
  injection H as <- <-. repeat split; eauto.
  - discriminate.
  - intros Hin. apply A in Hin. now apply is_eol_niff in Hin.
  - intros Hin. apply A in Hin. now apply is_eol_niff in Hin.
Qed.
Lemma crlf_ok : forall v r, line_text v -> find_crlf (v ++ CRLF ++ r) = Some (v, CRLF ++ r).
Proof.
  intros v r Hv. unfold find_crlf. rewrite scan_app; [|intros; eapply line_text_no; eauto|reflexivity].
  destruct v; auto. now destruct Hv.
Qed.

Lemma strchr_p_spec : forall s c, match strchr_p s c with
  | None => ~ In c s
  | Some q => exists p t, s = p ++ c :: t /\ ~ In c p /\ q = c :: t end.
Proof.
  induction s as [|x s IH]; intros c; cbn; auto.
  destruct (Ascii.eqb x c) eqn:E.
  - apply eqb_eq' in E. subst. exists [], s. auto.
  - apply eqb_neq' in E. specialize (IH c). destruct (strchr_p s c).
    + destruct IH as (p & t & -> & A & ->). exists (x :: p), t. cbn. intuition.
    + intuition.
Qed.
Lemma strchr_p_ok : forall p c t, ~ In c p -> strchr_p (p ++ c :: t) c = Some (c :: t).
Proof.
  induction p as [|x p IH]; intros c t H; cbn.
  - now rewrite Ascii.eqb_refl.
  - destruct (Ascii.eqb x c) eqn:E; [apply eqb_eq' in E; subst; exfalso; apply H; now left|].
    apply IH. intros Hx. apply H. now right.
Qed.
(** the character is not in [p]: it is found in [q] or nowhere *)
Lemma strchr_p_app : forall p q c, ~ In c p -> strchr_p (p ++ q) c = strchr_p q c.
Proof.
  induction p as [|x p IH]; intros q c H; cbn; auto.
  destruct (Ascii.eqb x c) eqn:E; [apply eqb_eq' in E; subst; exfalso; apply H; now left|].
  apply IH. intros Hx. apply H. now right.
Qed.
Lemma strchr_p_suffix : forall s c q, strchr_p s c = Some q -> exists p, s = p ++ q.
Proof. intros s c q H. pose proof (strchr_p_spec s c) as X. rewrite H in X.
  destruct X as (p & t & -> & _ & ->). eauto. Qed.
(** nothing found in the line: either not found at all, or found after its end *)
Lemma strchr_p_late : forall p c crlf, ~ In c p ->
  match strchr_p (p ++ crlf) c with Some q => ptr_lt q crlf = false | None => True end.
Proof.
  intros. rewrite strchr_p_app by auto. destruct (strchr_p crlf c) eqn:E; auto.
  apply strchr_p_suffix in E. destruct E as [p' ->]. unfold ptr_lt. rewrite app_length.
  apply Nat.ltb_ge. lia.
Qed.

(** *** Reading a line that was written *)
(** just after a line end *)
Definition at_line (s : str) : cursor := mkCur (Some lf) s.

Lemma found_ok : forall l v, l <> "="%char -> forall b, find_equal l (mkCur b (l :: "="%char :: v)) = HFound v.
Proof.
  intros l v Hl b. unfold find_equal. cbn [ahead].
  change (l :: "="%char :: v) with ([l] ++ ("="%char :: v)). rewrite scan_app.
  - cbn. now rewrite Ascii.eqb_refl.
  - intros c [<-|[]]. now apply eqb_neq'.
  - reflexivity.
Qed.
Lemma found_other : forall l y v b, l <> y -> y <> "="%char ->
  find_equal l (mkCur b (y :: "="%char :: v)) = HDiscard.
Proof.
  intros l y v b Hl Hy. unfold find_equal. cbn [ahead].
  change (y :: "="%char :: v) with ([y] ++ ("="%char :: v)). rewrite scan_app.
  - cbn. destruct (Ascii.eqb y l) eqn:E; auto. apply eqb_eq' in E. congruence.
  - intros c [<-|[]]. now apply eqb_neq'.
  - reflexivity.
Qed.

Lemma after_CRLF : forall r, after_crlf (CRLF ++ r) = at_line r.
Proof. reflexivity. Qed.

(** reading one written line *)
Lemma with_line_ok : forall l v r b k, l <> "="%char -> line_text v ->
  with_line (find_equal l (mkCur b (line l v ++ r))) k = k (v ++ CRLF ++ r) v (CRLF ++ r).
Proof.
  intros. unfold line. cbn [app]. rewrite found_ok by auto. cbn [with_line].
  rewrite <- app_assoc. rewrite crlf_ok; auto.
Qed.

Lemma line_text_app : forall a b, line_text a -> (forall c, In c b -> is_eol c = false) -> line_text (a ++ b).
Proof.
  intros a b Ha Hb. apply line_text_intro.
  - destruct Ha as (Hn & _). destruct a; [now destruct Hn|discriminate].
  - intros c Hc. apply in_app_or in Hc. destruct Hc; auto. eapply line_text_no; eauto.
Qed.
Lemma noeol_app : forall a b, (forall c, In c a -> is_eol c = false) ->
  (forall c, In c b -> is_eol c = false) -> (forall c, In c (a ++ b) -> is_eol c = false).
Proof. intros a b A B c H. apply in_app_or in H. destruct H; auto. Qed.
Lemma noeol_cons : forall x b, is_eol x = false ->
  (forall c, In c b -> is_eol c = false) -> (forall c, In c (x :: b) -> is_eol c = false).
Proof. intros x b A B c [<-|H]; auto. Qed.
Lemma noeol_line : forall s, line_text s -> (forall c, In c s -> is_eol c = false).
Proof. intros. eapply line_text_no; eauto. Qed.
Lemma word_line : forall l s, word l s -> line_text s.
Proof. now intros l s [A _]. Qed.
Lemma noeol_nil : forall c : ascii, In c [] -> is_eol c = false.
Proof. intros c []. Qed.
Lemma noeol_opt : forall (x : option str) sep, optional line_text x -> is_eol sep = false ->
  forall c, In c (opt_text (fun s => sep :: s) x) -> is_eol c = false.
Proof.
  intros [s|] sep H Hs c Hc; cbn in *; [|now destruct Hc].
  revert c Hc. apply noeol_cons; auto. apply noeol_line. now apply H.
Qed.
Lemma optional_word : forall l x, optional (word l) x -> optional line_text x.
Proof. intros l x H s Hs. eapply word_line; eauto. Qed.
#[export] Hint Resolve noeol_app noeol_cons noeol_line word_line noeol_nil optional_word line_text_app : sdp.
Ltac noeol := repeat first
  [ apply line_text_app | apply noeol_app | apply noeol_cons; [reflexivity|]
  | apply noeol_opt; [|reflexivity]
  | solve [eauto 4 with sdp] ].

Lemma run_v : forall d v r b, line_text v ->
  parse_v d (mkCur b (line "v" v ++ r)) = LWF (with_v (Some v) d) (at_line r).
Proof.
  intros. unfold parse_v, find_equal_v, line. cbn [ahead app].
  change ("v"%char :: "="%char :: (v ++ CRLF) ++ r) with (["v"%char] ++ ("="%char :: (v ++ CRLF) ++ r)).
  rewrite scan_app; [|intros c [<-|[]]; reflexivity|reflexivity].
  cbn [rev app]. change (Ascii.eqb "v" "v") with true. cbn iota. cbn [with_line].
  rewrite <- app_assoc, crlf_ok; auto.
Qed.

Lemma run_o : forall d u i n t y a r, word [sp] u -> word [sp] i -> word [sp] n -> word [sp] t ->
  word [sp] y -> line_text a ->
  parse_o d (at_line (line "o" (u ++ sp :: i ++ sp :: n ++ sp :: t ++ sp :: y ++ sp :: a) ++ r))
  = LWF (with_o (Some u) (Some i) (Some n) (Some t) (Some y) (Some a) d) (at_line r).
Proof.
  intros. unfold parse_o, at_line. rewrite with_line_ok; [|discriminate|noeol].
  rewrite <- !app_assoc. cbn [app]. rewrite token_ok by auto.
  rewrite <- !app_assoc. cbn [app]. rewrite token_ok by auto.
  rewrite <- !app_assoc. cbn [app]. rewrite token_ok by auto.
  rewrite <- !app_assoc. cbn [app]. rewrite token_ok by auto.
  rewrite <- !app_assoc. cbn [app]. rewrite token_ok by auto.
  rewrite last_CRLF by auto. reflexivity.
Qed.

Ltac simple_line := intros; unfold at_line; cbv delta [parse_s parse_i parse_u parse_e parse_p parse_z] beta;
  rewrite with_line_ok; [reflexivity|discriminate|auto].
Lemma run_s : forall d v r, line_text v ->
  parse_s d (at_line (line "s" v ++ r)) = LWF (with_s (Some v) d) (at_line r).
Proof. simple_line. Qed.
Lemma run_i : forall d v r, line_text v -> parse_i d (at_line (line "i" v ++ r))
  = LWF (on_place d (with_i (Some v)) (media_i (Some v))) (at_line r).
Proof. simple_line. Qed.
Lemma run_u : forall d v r, line_text v ->
  parse_u d (at_line (line "u" v ++ r)) = LWF (with_u (Some v) d) (at_line r).
Proof. simple_line. Qed.
Lemma run_e : forall d v r, line_text v ->
  parse_e d (at_line (line "e" v ++ r)) = LWF (with_e (e_emails d ++ [v]) d) (at_line r).
Proof. simple_line. Qed.
Lemma run_p : forall d v r, line_text v ->
  parse_p d (at_line (line "p" v ++ r)) = LWF (with_p (p_phones d ++ [v]) d) (at_line r).
Proof. simple_line. Qed.
Lemma run_z : forall d v r, line_text v ->
  parse_z d (at_line (line "z" v ++ r)) = LWF (with_z (Some v) d) (at_line r).
Proof. simple_line. Qed.

(** a first character before the end of the line *)
Lemma ptr_lt_true : forall p q, (length q < length p)%nat -> ptr_lt p q = true.
Proof. intros. unfold ptr_lt. now apply Nat.ltb_lt. Qed.
Lemma ptr_lt_false : forall p q, (length p <= length q)%nat -> ptr_lt p q = false.
Proof. intros. unfold ptr_lt. now apply Nat.ltb_ge. Qed.
Ltac lens := repeat (rewrite app_length || cbn [length]); try lia.
Ltac earlier := match goal with |- context [ptr_lt ?p ?q] =>
  rewrite (ptr_lt_true p q) by lens end.

Lemma conn_addr_ok : forall net typ c r, connection_ok c ->
  c_nettype c = Some net -> c_addrtype c = Some typ ->
  parse_c_addr net typ (val (c_addr c) ++ slash (c_ttl c) ++ slash (c_int c) ++ CRLF ++ r) (CRLF ++ r) = Some c.
Proof.
  intros net typ [n t a ttl int] r (Hn & Ht & Ha & Httl & Hint & Hti) E1 E2. cbn in Hn, Ht, Ha, Httl, Hint, Hti, E1, E2.
  subst n t. destruct Ha as (ad & -> & Wa). cbn [val c_addr c_ttl c_int]. unfold parse_c_addr.
  destruct ttl as [tt|].
  - specialize (Httl _ eq_refl). cbn [slash opt_text app].
    rewrite strchr_p_ok by (apply Wa; now left).
    earlier.
    rewrite token_ok by auto. cbn [tl].
    destruct int as [ii|]; cbn [slash opt_text app].
    + specialize (Hint _ eq_refl).
      rewrite strchr_p_ok by (apply Httl; now left).
      earlier. rewrite token_ok by auto.
      rewrite last_CRLF by auto. reflexivity.
    + pose proof (strchr_p_late tt "/"%char (CRLF ++ r)) as L.
      specialize (L (proj2 Httl _ (or_introl eq_refl))).
      rewrite last_CRLF by eauto with sdp.
      destruct (strchr_p (tt ++ CRLF ++ r) "/"); [rewrite L|]; reflexivity.
  - rewrite Hti by auto. cbn [slash opt_text app].
    pose proof (strchr_p_late ad "/"%char (CRLF ++ r)) as L.
    specialize (L (proj2 Wa _ (or_introl eq_refl))).
    rewrite last_CRLF by eauto with sdp.
    destruct (strchr_p (ad ++ CRLF ++ r) "/"); [rewrite L|]; reflexivity.
Qed.

Lemma run_c : forall d c r, connection_ok c -> parse_c d (at_line (connection_text c ++ r))
  = LWF (on_place d (with_c (Some c)) (fun m => media_c (m_connections m ++ [c]) m)) (at_line r).
Proof.
  intros d c r Hc. pose proof Hc as ((net & En & Wn) & (typ & Et & Wt) & (ad & Ea & Wa) & Httl & Hint & Hti).
  unfold parse_c, at_line, connection_text. rewrite with_line_ok; [|discriminate|].
  2: { rewrite En, Et, Ea. cbn [val]. noeol. }
  rewrite En, Et. cbn [val]. rewrite <- !app_assoc. cbn [app]. rewrite token_ok by auto.
  rewrite <- !app_assoc. cbn [app]. rewrite token_ok by auto.
  rewrite <- !app_assoc. rewrite conn_addr_ok by auto. reflexivity.
Qed.

Lemma run_b : forall d b r, bandwidth_ok b -> parse_b d (at_line (bandwidth_text b ++ r))
  = LWF (on_place d (fun d => with_b (b_bandwidths d ++ [b]) d)
                    (fun m => media_b (m_bandwidths m ++ [b]) m)) (at_line r).
Proof.
  intros d [t w] r ((a & Ea & Wa) & (x & Ex & Wx)). cbn in Ea, Ex. subst.
  unfold parse_b, at_line, bandwidth_text. cbn [val b_bwtype SdpModel.b_bandwidth].
  rewrite with_line_ok; [|discriminate|noeol].
  rewrite <- !app_assoc. cbn [app]. rewrite token_ok by auto. rewrite last_CRLF by auto. reflexivity.
Qed.

Lemma run_t : forall d a b r, word [sp] a -> line_text b -> parse_t d (at_line (line "t" (a ++ sp :: b) ++ r))
  = LWF (with_t (t_descrs d ++ [mkTime (Some a) (Some b) []]) d) (at_line r).
Proof.
  intros. unfold parse_t, at_line. rewrite with_line_ok; [|discriminate|noeol].
  rewrite <- !app_assoc. cbn [app]. rewrite token_ok by auto. rewrite last_CRLF by auto. reflexivity.
Qed.

Lemma run_r : forall d v r ts t, line_text v -> t_descrs d = ts ++ [t] ->
  parse_r d (at_line (line "r" v ++ r))
  = LWF (with_t (ts ++ [mkTime (t_start t) (t_stop t) (t_repeats t ++ [v])]) d) (at_line r).
Proof.
  intros d v r ts t Hv Ht. unfold parse_r, at_line, line. cbn [app]. rewrite found_ok by discriminate.
  rewrite Ht, rev_app_distr. cbn [rev app]. rewrite <- app_assoc, crlf_ok, rev_involutive by auto. reflexivity.
Qed.

Lemma pair_ok : forall f v r, word [":"%char] f -> optional line_text v ->
  parse_pair (f ++ colon v ++ CRLF ++ r) (CRLF ++ r) = Some (f, v).
Proof.
  intros f v r Hf Hv. unfold parse_pair. destruct v as [v|]; cbn [colon opt_text app].
  - rewrite strchr_p_ok by (apply Hf; now left). earlier. rewrite token_ok by auto.
    rewrite last_CRLF by auto. reflexivity.
  - pose proof (strchr_p_late f ":"%char (CRLF ++ r)) as L.
    specialize (L (proj2 Hf _ (or_introl eq_refl))).
    rewrite last_CRLF by eauto with sdp.
    destruct (strchr_p (f ++ CRLF ++ r) ":"); [rewrite L|]; reflexivity.
Qed.

Lemma run_k : forall d k r, key_ok k -> parse_k d (at_line (key_text k ++ r))
  = LWF (on_place d (with_k (Some k)) (media_k (Some k))) (at_line r).
Proof.
  intros d [t v] r ((a & Ea & Wa) & Hv). cbn in Ea, Hv. subst. unfold parse_k, at_line, key_text.
  cbn [val k_keytype k_keydata]. rewrite with_line_ok; [|discriminate|noeol].
  rewrite <- !app_assoc. rewrite pair_ok by auto. reflexivity.
Qed.
Lemma run_a : forall d k r, attribute_ok k -> parse_a d (at_line (attribute_text k ++ r))
  = LWF (on_place d (fun d => with_a (a_attributes d ++ [k]) d)
                    (fun m => media_a (m_attributes m ++ [k]) m)) (at_line r).
Proof.
  intros d [t v] r ((a & Ea & Wa) & Hv). cbn in Ea, Hv. subst. unfold parse_a, at_line, attribute_text.
  cbn [val a_field a_value]. rewrite with_line_ok; [|discriminate|noeol].
  rewrite <- !app_assoc. rewrite pair_ok by auto. reflexivity.
Qed.

(** the payloads: [p0] is the first one, already behind its space *)
Lemma payloads_run : forall ps p0 r fuel acc, payloads_ok (p0 :: ps) -> (length ps < fuel)%nat ->
  parse_payloads fuel (p0 ++ flat_map (fun p => sp :: p) ps ++ CRLF ++ r) (CRLF ++ r) acc
  = Ok (acc ++ p0 :: ps).
Proof.
  induction ps as [|p1 ps IH]; intros p0 r fuel acc Hok Hf; (destruct fuel as [|fuel]; [inversion Hf|]).
  - destruct (Hok [] p0 eq_refl) as (_ & Hl & Hs). cbn [flat_map app].
    destruct p0 as [|x p0]; [now destruct Hl|]. cbn [parse_payloads app].
    pose proof (strchr_p_late p0 sp (CRLF ++ r) Hs) as L.
    assert (E : match strchr_p (p0 ++ CRLF ++ r) sp with
      | Some space => negb (ptr_lt (CRLF ++ r) space) | None => false end = false).
    { destruct (strchr_p (p0 ++ CRLF ++ r) sp) as [q|] eqn:Eq; auto.
      rewrite strchr_p_app in Eq by auto. pose proof (strchr_p_spec (CRLF ++ r) sp) as S.
      rewrite Eq in S. destruct S as (a & t & Ea & _ & ->). destruct a as [|y a]; [discriminate Ea|].
      rewrite ptr_lt_true; auto. rewrite Ea. cbn [length app]. rewrite app_length. cbn [length]. lia. }
    rewrite E. earlier.
    change (x :: p0 ++ CRLF ++ r) with ((x :: p0) ++ CRLF ++ r). rewrite last_CRLF by auto. reflexivity.
  - assert (W : word [sp] p0 /\ payloads_ok (p1 :: ps)).
    { split.
      - destruct (exists_last (l := p1 :: ps) ltac:(discriminate)) as (f & l & El).
        destruct (Hok (p0 :: f) l) as (A & _); [cbn; now rewrite <- El|]. now inversion A.
      - intros f l El. destruct (Hok (p0 :: f) l) as (A & B); [cbn; now rewrite El|].
        inversion A; auto. }
    destruct W as [W Hok']. cbn [flat_map]. rewrite <- app_assoc. cbn [app].
    destruct p0 as [|x p0]; [now destruct W as [[W _] _]|]. cbn [parse_payloads app].
    rewrite strchr_p_ok by (intros Hi; apply (proj2 W sp (or_introl eq_refl)); now right).
    rewrite ptr_lt_false by lens. cbn [negb].
    change (x :: p0 ++ sp :: p1 ++ flat_map (fun p => sp :: p) ps ++ CRLF ++ r)
      with ((x :: p0) ++ sp :: p1 ++ flat_map (fun p => sp :: p) ps ++ CRLF ++ r).
    rewrite token_ok by auto. rewrite IH; auto.
    + now rewrite <- app_assoc.
    + cbn in Hf. lia.
Qed.
Lemma payloads_none : forall r fuel, (0 < fuel)%nat -> parse_payloads fuel (lf :: r) (CRLF ++ r) [] = Ok [].
Proof.
  intros r [|fuel] H; [inversion H|]. cbn [parse_payloads].
  assert (E : match strchr_p r sp with
      | Some space => negb (ptr_lt (CRLF ++ r) space) | None => false end = false).
  { destruct (strchr_p r sp) as [q|] eqn:Eq; auto. apply strchr_p_suffix in Eq. destruct Eq as [p ->].
    rewrite ptr_lt_true; auto. change (CRLF ++ p ++ q) with (cr :: lf :: p ++ q). lens. }
  rewrite E. rewrite ptr_lt_false; auto. change (CRLF ++ r) with (cr :: lf :: r). cbn. lia.
Qed.

Lemma word2_l : forall a b s, word [a; b] s -> word [a] s.
Proof. intros a b s [H1 H2]. split; auto. intros c [<-|[]]. apply H2. now left. Qed.
Lemma word2_r : forall a b s, word [a; b] s -> word [b] s.
Proof. intros a b s [H1 H2]. split; auto. intros c [<-|[]]. apply H2. right. now left. Qed.

Lemma port_ok : forall port number rest, word [sp; "/"%char] port -> optional (word [sp]) number ->
  parse_m_port (port ++ slash number ++ sp :: rest) = Some (port, number, rest).
Proof.
  intros port number rest Hp Hn. pose proof (word2_l _ _ _ Hp) as Hl. pose proof (word2_r _ _ _ Hp) as Hr.
  unfold parse_m_port. destruct number as [n|]; cbn [slash opt_text app].
  - specialize (Hn _ eq_refl).
    replace (port ++ "/"%char :: n ++ sp :: rest) with ((port ++ "/"%char :: n) ++ sp :: rest)
      by (rewrite <- app_assoc; reflexivity).
    rewrite strchr_p_ok.
    2: { intros Hi. apply in_app_or in Hi. destruct Hi as [Hi|[Hi|Hi]]; [|discriminate Hi|].
         - exact (proj2 Hl sp (or_introl eq_refl) Hi). - exact (proj2 Hn sp (or_introl eq_refl) Hi). }
    rewrite <- app_assoc. cbn [app]. rewrite strchr_p_ok by (apply Hr; now left).
    earlier. rewrite token_ok by auto. rewrite token_ok by auto. reflexivity.
  - rewrite strchr_p_ok by (apply Hl; now left).
    assert (L : match strchr_p (port ++ sp :: rest) "/" with
                | Some s => ptr_lt s (sp :: rest) | None => false end = false).
    { pose proof (strchr_p_late port "/"%char (sp :: rest) (proj2 Hr _ (or_introl eq_refl))) as L.
      destruct (strchr_p (port ++ sp :: rest) "/"); auto. }
    rewrite L. rewrite token_ok by auto. reflexivity.
Qed.

Lemma noeol_payloads : forall ps, payloads_ok ps ->
  forall c, In c (flat_map (fun p => sp :: p) ps) -> is_eol c = false.
Proof.
  intros ps H c Hc. apply in_flat_map in Hc. destruct Hc as (p & Hp & Hc).
  destruct ps as [|q ps]; [destruct Hp|].
  destruct (exists_last (l := q :: ps) ltac:(discriminate)) as (f & l & El). rewrite El in *.
  destruct (H f l eq_refl) as (A & B & _). destruct Hc as [<-|Hc]; [reflexivity|].
  apply in_app_or in Hp. destruct Hp as [Hp|[<-|[]]].
  - rewrite Forall_forall in A. apply A in Hp. exact (line_text_no p c (word_line _ _ Hp) Hc).
  - eapply line_text_no; eauto.
Qed.

Lemma run_m : forall d m r media port proto, media_ok m ->
  m_media m = Some media -> m_port m = Some port -> m_proto m = Some proto ->
  parse_m d (at_line (line "m" (val (m_media m) ++ sp :: val (m_port m) ++ slash (m_number m)
            ++ sp :: val (m_proto m) ++ flat_map (fun p => sp :: p) (m_payloads m)) ++ r))
  = LWF (with_m (m_medias d ++ [mkMedia (Some media) (Some port) (m_number m) (Some proto) (m_payloads m)
                                        None [] [] [] None]) d) (at_line r).
Proof.
  intros d m r media port proto (Hm & Hp & Hn & Hpr & Hps & _) Em Ep Epr.
  destruct Hm as (? & E1 & Wm). destruct Hp as (? & E2 & Wp).
  assert (x = media) by congruence. assert (x0 = port) by congruence. subst x x0.
  assert (Lpr : line_text proto).
  { destruct Hpr as [(q & Eq & Wq)|((q & Eq & Wq) & _)]; assert (q = proto) by congruence; subst q; eauto with sdp. }
  rewrite Em, Ep, Epr. cbn [val]. unfold parse_m, at_line. rewrite with_line_ok; [|discriminate|].
  2: { noeol. now apply noeol_payloads. }
  rewrite <- !app_assoc. cbn [app]. rewrite token_ok by auto.
  rewrite <- !app_assoc. cbn [app]. rewrite port_ok by auto.
  rewrite <- !app_assoc. unfold parse_m_proto.
  destruct Hpr as [(q & Eq & Wpr)|(_ & (q & Eq) & Eps)].
  - assert (q = proto) by congruence. subst q. destruct (m_payloads m) as [|p0 ps].
    + cbn [flat_map app]. change (CRLF ++ r) with (cr :: lf :: r) at 1.
      rewrite token_none; [|apply noeol_line; eauto with sdp|apply Wpr; now left|reflexivity|discriminate].
      rewrite last_CRLF by eauto with sdp. rewrite payloads_none by lia. reflexivity.
    + cbn [flat_map]. rewrite <- app_assoc. cbn [app]. rewrite token_ok by auto.
      rewrite payloads_run; auto.
      cut (length ps <= length (flat_map (fun p => sp :: p) ps))%nat; [lens|].
      clear. induction ps; cbn; lens.
  - rewrite Eps. cbn [flat_map app]. assert (proto = sp :: q) by congruence. subst proto.
    assert (T : set_next_token ((sp :: q) ++ CRLF ++ r) sp = None) by reflexivity. rewrite T.
    rewrite last_CRLF by auto. rewrite payloads_none by lia. reflexivity.
Qed.

(** What the session description parser builds, and when it stays inside its buffer. *)
From Coq Require Import String ZArith NArith Ascii Bool List Lia ZifyBool ZifyNat.
From Verif Require Import Base Str SdpModel SdpSpec SdpLemmas.
Import ListNotations.

(** lines found keep what was found before *)
Definition origin_set (d : sdp) : Prop :=
  o_username d <> None /\ o_sess_id d <> None /\ o_sess_version d <> None
  /\ o_nettype d <> None /\ o_addrtype d <> None /\ o_addr d <> None.
Definition keep (d d' : sdp) : Prop :=
  (v_version d <> None -> v_version d' <> None) /\ (origin_set d -> origin_set d')
  /\ (t_descrs d <> [] -> t_descrs d' <> []).
Definition good (d d' : sdp) : Prop := parts_ok d -> parts_ok d' /\ keep d d'.

Lemma keep_refl : forall d, keep d d.
Proof. intros. unfold keep. tauto. Qed.
Lemma keep_trans : forall a b c, keep a b -> keep b c -> keep a c.
Proof. unfold keep. intros. intuition. Qed.
Lemma good_refl : forall d, good d d.
Proof. intros d H. split; auto using keep_refl. Qed.
Lemma good_trans : forall a b c, good a b -> good b c -> good a c.
Proof.
  intros a b c H1 H2 H. destruct (H1 H) as [A B]. destruct (H2 A) as [C D]. split; eauto using keep_trans.
Qed.

Lemma opt_some : forall A (P : A -> Prop) a, P a -> optional P (Some a).
Proof. intros A P a H s E. injection E as <-. auto. Qed.
Lemma opt_none : forall A (P : A -> Prop), optional P None.
Proof. intros A P s E. discriminate. Qed.
Lemma req_some : forall (P : str -> Prop) a, P a -> required P (Some a).
Proof. intros. exists a. auto. Qed.
Lemma forall_snoc : forall A (P : A -> Prop) l a, Forall P l -> P a -> Forall P (l ++ [a]).
Proof. intros. apply Forall_app. auto. Qed.
Ltac parts := repeat (split; [cbn; solve [auto with sdpw]|]); cbn; auto with sdpw.
#[export] Hint Resolve opt_some opt_none req_some forall_snoc : sdpw.

Ltac good_field :=
  intros; intros (P1 & P2 & P3 & P4 & P5 & P6 & P7 & P8 & P9 & P10 & P11 & P12 & P13 & P14 & P15 & P16 & P17 & P18 & P19);
  split; [ unfold parts_ok; repeat (split; [cbn; solve [eauto with sdpw]|]); cbn; solve [eauto with sdpw]
         | unfold keep, origin_set; cbn; repeat split; try tauto; try (intros; discriminate) ].

Lemma good_v : forall d x, line_text x -> good d (with_v (Some x) d).
Proof. good_field. Qed.
Lemma good_o : forall d a b c e f g, word [sp] a -> word [sp] b -> word [sp] c -> word [sp] e -> word [sp] f ->
  line_text g -> good d (with_o (Some a) (Some b) (Some c) (Some e) (Some f) (Some g) d).
Proof. good_field. Qed.
Lemma good_s : forall d x, line_text x -> good d (with_s (Some x) d).
Proof. good_field. Qed.
Lemma good_i : forall d x, line_text x -> good d (with_i (Some x) d).
Proof. good_field. Qed.
Lemma good_u : forall d x, line_text x -> good d (with_u (Some x) d).
Proof. good_field. Qed.
Lemma good_e : forall d x, line_text x -> good d (with_e (e_emails d ++ [x]) d).
Proof. good_field. Qed.
Lemma good_p : forall d x, line_text x -> good d (with_p (p_phones d ++ [x]) d).
Proof. good_field. Qed.
Lemma good_c : forall d x, connection_ok x -> good d (with_c (Some x) d).
Proof. good_field. Qed.
Lemma good_b : forall d x, bandwidth_ok x -> good d (with_b (b_bandwidths d ++ [x]) d).
Proof. good_field. Qed.
Lemma good_t : forall d x, time_ok x -> good d (with_t (t_descrs d ++ [x]) d).
Proof. good_field. intros _ E. apply app_eq_nil in E. destruct E as [_ E]. discriminate E. Qed.
Lemma good_z : forall d x, line_text x -> good d (with_z (Some x) d).
Proof. good_field. Qed.
Lemma good_k : forall d x, key_ok x -> good d (with_k (Some x) d).
Proof. good_field. Qed.
Lemma good_a : forall d x, attribute_ok x -> good d (with_a (a_attributes d ++ [x]) d).
Proof. good_field. Qed.
Lemma good_m : forall d x, media_ok x -> good d (with_m (m_medias d ++ [x]) d).
Proof. good_field. Qed.
Lemma good_place : forall d s g, good d (s d) -> (forall m, media_ok m -> media_ok (g m)) -> good d (on_place d s g).
Proof.
  intros d s g Hs Hg. unfold on_place. destruct (rev (m_medias d)) as [|m ms] eqn:E; auto.
  assert (E' : m_medias d = rev ms ++ [m]) by (rewrite <- (rev_involutive (m_medias d)), E; reflexivity).
  intros (P1 & P2 & P3 & P4 & P5 & P6 & P7 & P8 & P9 & P10 & P11 & P12 & P13 & P14 & P15 & P16 & P17 & P18 & P19).
  rewrite E' in P19. apply Forall_app in P19. destruct P19 as [PA PB]. inversion PB; subst.
  split; [ unfold parts_ok; repeat (split; [cbn; solve [eauto with sdpw]|]); cbn; solve [eauto with sdpw]
         | unfold keep, origin_set; cbn; repeat split; tauto ].
Qed.
Lemma good_r : forall d x ts t, t_descrs d = ts ++ [t] -> line_text x ->
  good d (with_t (ts ++ [mkTime (t_start t) (t_stop t) (t_repeats t ++ [x])]) d).
Proof.
  intros d x ts t E Hx (P1 & P2 & P3 & P4 & P5 & P6 & P7 & P8 & P9 & P10 & P11 & P12 & P13 & P14 & P15 & P16 & P17 & P18 & P19).
  rewrite E in P15. apply Forall_app in P15. destruct P15 as [PA PB]. inversion PB as [|? ? (T1 & T2 & T3)]; subst.
  assert (T : time_ok (mkTime (t_start t) (t_stop t) (t_repeats t ++ [x]))) by (repeat split; cbn; eauto with sdpw).
  split; [ unfold parts_ok; repeat (split; [cbn; solve [eauto with sdpw]|]); cbn; solve [eauto with sdpw]
         | unfold keep, origin_set; cbn; repeat split; try tauto ].
  intros _ E'. apply app_eq_nil in E'. destruct E' as [_ E']. discriminate E'.
Qed.

(** *** Lines and where they end *)
Definition line_end_at (inl crlf : str) : Prop :=
  (forall c, In c inl -> is_eol c = false) /\ exists e t, crlf = e :: t /\ is_eol e = true.

Lemma eol_split : forall a b e t e' t', (forall c, In c a -> is_eol c = false) -> (forall c, In c b -> is_eol c = false) ->
  is_eol e = true -> is_eol e' = true -> a ++ e :: t = b ++ e' :: t' -> a = b /\ e = e' /\ t = t'.
Proof.
  induction a as [|x a IH]; intros b e t e' t' Ha Hb He He' E.
  - destruct b as [|y b]; cbn in E; injection E as -> ->; auto.
    rewrite (Hb y (or_introl eq_refl)) in He. discriminate.
  - destruct b as [|y b]; cbn in E.
    + injection E as -> _. rewrite (Ha e' (or_introl eq_refl)) in He'. discriminate.
    + injection E as -> E. apply IH in E; auto.
      * destruct E as (-> & -> & ->). auto.
      * intros c Hc. apply Ha. now right.
      * intros c Hc. apply Hb. now right.
Qed.
Lemma last_inl : forall inl crlf tok r, line_end_at inl crlf -> last_token (inl ++ crlf) = Some (tok, r) ->
  tok = inl /\ line_text inl /\ r = tl crlf.
Proof.
  intros inl crlf tok r (A & e & t & -> & He) H. apply last_inv in H. destruct H as (L & e' & He' & E).
  apply eol_split in E; auto. destruct E as (-> & -> & ->). auto. eapply noeol_line; eauto.
Qed.
(** a token that is not ended by the line end lies in the line *)
Lemma token_inl : forall inl crlf sep tok r, line_end_at inl crlf ->
  set_next_token (inl ++ crlf) sep = Some (tok, r) -> is_eol sep = false ->
  word [sep] tok /\ exists inl', inl = tok ++ sep :: inl' /\ r = inl' ++ crlf /\ line_end_at inl' crlf.
Proof.
  intros inl crlf sep tok r (A & e & t & -> & He) H Hs. apply token_inv in H. destruct H as [E W].
  split; auto.
  assert (T : forall c, In c tok -> is_eol c = false) by (apply noeol_line, (word_line _ _ W)).
  assert (G : exists inl', inl = tok ++ sep :: inl' /\ r = inl' ++ e :: t).
  { clear W. revert inl A E T. induction tok as [|x tok IH]; intros inl A E T; cbn in E.
    - destruct inl as [|y inl]; cbn in E; injection E as -> <-; [congruence|]. exists inl. auto.
    - destruct inl as [|y inl]; cbn in E; injection E as -> E.
      + rewrite (T x (or_introl eq_refl)) in He. discriminate.
      + destruct (IH inl) as (inl' & -> & ->); auto.
        * intros c Hc. apply A. now right.
        * intros c Hc. apply T. now right.
        * exists inl'. auto. }
  destruct G as (inl' & -> & ->). exists inl'. repeat split; auto.
  - intros c Hc. apply A. apply in_or_app. right. now right.
  - eauto.
Qed.
(** a character found before the line end is found in the line *)
Lemma strchr_inl : forall inl crlf c q, line_end_at inl crlf -> strchr_p (inl ++ crlf) c = Some q ->
  ptr_lt q crlf = true -> exists p t, inl = p ++ c :: t /\ ~ In c p /\ q = c :: t ++ crlf.
Proof.
  intros inl crlf c q (A & e & t & -> & He) H L. destruct (in_dec Ascii.ascii_dec c inl) as [I|N].
  - clear L. pose proof (strchr_p_spec inl c) as S. destruct (strchr_p inl c) as [q'|]; [|tauto].
    destruct S as (p & u & -> & Np & _). exists p, u. repeat split; auto.
    rewrite <- app_assoc in H. cbn [app] in H. rewrite strchr_p_ok in H by auto. now injection H as <-.
  - pose proof (strchr_p_late inl c (e :: t) N) as S. rewrite H in S. congruence.
Qed.
Lemma strchr_none_inl : forall inl crlf c, strchr_p (inl ++ crlf) c = None -> ~ In c inl.
Proof.
  intros inl crlf c H Hi. pose proof (strchr_p_spec (inl ++ crlf) c) as S. rewrite H in S.
  apply S. apply in_or_app. auto.
Qed.
(** the first occurrence is not after another one *)
Lemma first_le : forall (c : ascii) p t a u, ~ In c p -> a ++ c :: u = p ++ c :: t -> (length p <= length a)%nat.
Proof.
  intros c p. induction p as [|y p IH]; intros t a u Np E; cbn; [lia|].
  destruct a as [|z a]; cbn in E; injection E as E1 E2.
  - exfalso. apply Np. now left.
  - apply IH in E2; [cbn; lia|]. intros X; apply Np; now right.
Qed.
Lemma strchr_late_inl : forall inl crlf c q, strchr_p (inl ++ crlf) c = Some q -> ptr_lt q crlf = false ->
  ~ In c inl.
Proof.
  intros inl crlf c q H L Hi. apply in_split in Hi. destruct Hi as (a & b & ->).
  pose proof (strchr_p_spec ((a ++ c :: b) ++ crlf) c) as S. rewrite H in S. destruct S as (p & t & E & Np & ->).
  unfold ptr_lt in L. apply Nat.ltb_ge in L. rewrite <- app_assoc in E.
  pose proof (first_le c p t a (b ++ crlf) Np E) as Hl.
  apply (f_equal (@length ascii)) in E. rewrite !app_length in E. cbn [length] in E, L. lia.
Qed.

Lemma first_sep : forall (c : ascii) p t a b, ~ In c p -> ~ In c a -> p ++ c :: t = a ++ c :: b -> p = a /\ t = b.
Proof.
  intros c p. induction p as [|y p IH]; intros t [|z a] b Np Na E; cbn in E.
  - injection E as ->. auto.
  - injection E as -> _. exfalso. apply Na. now left.
  - injection E as -> _. exfalso. apply Np. now left.
  - injection E as -> E. apply IH in E.
    + destruct E; subst; auto.
    + intros X; apply Np; now right.
    + intros X; apply Na; now right.
Qed.

Lemma addr_inv : forall net typ inl crlf x, line_end_at inl crlf -> word [sp] net -> word [sp] typ ->
  parse_c_addr net typ (inl ++ crlf) crlf = Some x -> connection_ok x.
Proof.
  intros net typ inl crlf x L Wn Wt H. unfold parse_c_addr in H.
  assert (U : forall inl, line_end_at inl crlf -> ~ In "/"%char inl -> match last_token (inl ++ crlf) with
      | None => True | Some (a, _) => word ["/"%char] a end).
  { intros i Li Ni. destruct (last_token (i ++ crlf)) as [[a b]|] eqn:E; auto.
    destruct (last_inl _ _ _ _ Li E) as (-> & W & _). split; auto. intros c [<-|[]]; auto. }
  assert (U0 : ~ In "/"%char inl -> match last_token (inl ++ crlf) with
      | None => None | Some (a, _) => Some (mkConn (Some net) (Some typ) (Some a) None None) end = Some x -> connection_ok x).
  { intros Ni E. specialize (U _ L Ni). destruct (last_token (inl ++ crlf)) as [[a b]|]; [|discriminate].
    injection E as <-. parts. }
  destruct (strchr_p (inl ++ crlf) "/") as [q|] eqn:E.
  2: { apply U0; auto. eapply strchr_none_inl; eauto. }
  destruct (ptr_lt q crlf) eqn:E'.
  2: { apply U0; auto. eapply strchr_late_inl; eauto. }
  clear U0. destruct (strchr_inl _ _ _ _ L E E') as (p & t & Einl & Np & ->).
  destruct (set_next_token (inl ++ crlf) "/") as [[a tmp]|] eqn:T; [|discriminate].
  destruct (token_inl _ _ _ _ _ L T eq_refl) as (Wa & inl' & Einl' & -> & L').
  assert (inl' = t).
  { rewrite Einl in Einl'. apply first_sep in Einl'; auto; [now destruct Einl'|]. apply Wa. now left. }
  subst inl'. cbn [tl] in H.
  assert (U1 : ~ In "/"%char t -> match last_token (t ++ crlf) with
      | None => None | Some (u, _) => Some (mkConn (Some net) (Some typ) (Some a) (Some u) None) end = Some x -> connection_ok x).
  { intros Ni E1. specialize (U _ L' Ni). destruct (last_token (t ++ crlf)) as [[u b]|]; [|discriminate].
    injection E1 as <-. parts. }
  destruct (strchr_p (t ++ crlf) "/") as [q|] eqn:F.
  2: { apply U1; auto. eapply strchr_none_inl; eauto. }
  destruct (ptr_lt q crlf) eqn:F'.
  2: { apply U1; auto. eapply strchr_late_inl; eauto. }
  destruct (set_next_token (t ++ crlf) "/") as [[u tmp]|] eqn:T2; [|discriminate].
  destruct (token_inl _ _ _ _ _ L' T2 eq_refl) as (Wu & inl2 & _ & -> & L2).
  destruct (last_token (inl2 ++ crlf)) as [[n b]|] eqn:T3; [|discriminate].
  destruct (last_inl _ _ _ _ L2 T3) as (-> & Wi & _). injection H as <-.
  parts. discriminate.
Qed.

Lemma pair_inv : forall inl crlf f v, line_end_at inl crlf -> parse_pair (inl ++ crlf) crlf = Some (f, v) ->
  word [":"%char] f /\ optional line_text v.
Proof.
  intros inl crlf f v L H. unfold parse_pair in H.
  assert (U0 : ~ In ":"%char inl -> match last_token (inl ++ crlf) with
      | None => None | Some (a, _) => Some (a, None) end = Some (f, v) -> word [":"%char] f /\ optional line_text v).
  { intros Ni E. destruct (last_token (inl ++ crlf)) as [[a b]|] eqn:T; [|discriminate].
    destruct (last_inl _ _ _ _ L T) as (-> & W & _). injection E as <- <-. split; auto with sdpw.
    split; auto. intros c [<-|[]]; auto. }
  destruct (strchr_p (inl ++ crlf) ":") as [q|] eqn:E.
  2: { apply U0; auto. eapply strchr_none_inl; eauto. }
  destruct (ptr_lt q crlf) eqn:E'.
  2: { apply U0; auto. eapply strchr_late_inl; eauto. }
  destruct (set_next_token (inl ++ crlf) ":") as [[a tmp]|] eqn:T; [|discriminate].
  destruct (token_inl _ _ _ _ _ L T eq_refl) as (Wa & inl' & _ & -> & L').
  destruct (last_token (inl' ++ crlf)) as [[n b]|] eqn:T3; [|discriminate].
  destruct (last_inl _ _ _ _ L' T3) as (-> & Wi & _). injection H as <- <-. auto with sdpw.
Qed.

Lemma port_inv : forall inl crlf port number r, line_end_at inl crlf ->
  parse_m_port (inl ++ crlf) = Some (port, number, r) ->
  word [sp; "/"%char] port /\ optional (word [sp]) number /\ exists inl', r = inl' ++ crlf /\ line_end_at inl' crlf.
Proof.
  intros inl crlf port number r L H. unfold parse_m_port in H.
  destruct (strchr_p (inl ++ crlf) sp) as [space|] eqn:S; [|discriminate].
  destruct (match strchr_p (inl ++ crlf) "/" with Some slash => ptr_lt slash space | None => false end) eqn:C.
  - destruct (strchr_p (inl ++ crlf) "/") as [slash|] eqn:F; [|discriminate].
    destruct (set_next_token (inl ++ crlf) "/") as [[a tmp]|] eqn:T; [|discriminate].
    destruct (token_inl _ _ _ _ _ L T eq_refl) as (Wa & inl' & Ei & -> & L').
    destruct (set_next_token (inl' ++ crlf) sp) as [[n tmp]|] eqn:T2; [|discriminate].
    destruct (token_inl _ _ _ _ _ L' T2 eq_refl) as (Wn & inl2 & Ei2 & -> & L2).
    injection H as <- <- <-. split; [|split; eauto with sdpw].
    split; [apply Wa|]. intros c [<-|[<-|[]]]; [|apply Wa; now left].
    intros Hin. apply in_split in Hin. destruct Hin as (x & y & ->).
    pose proof (strchr_p_spec (inl ++ crlf) "/") as X. rewrite F in X. destruct X as (p & t & E1 & Np & ->).
    rewrite Ei, <- app_assoc in E1. cbn [app] in E1.
    apply first_sep in E1; auto. 2: { apply Wa. now left. } destruct E1 as [<- <-].
    pose proof (strchr_p_spec (inl ++ crlf) sp) as X. rewrite S in X. destruct X as (p & t & E2 & Nsp & ->).
    apply Nat.ltb_lt in C. rewrite Ei in E2. rewrite <- !app_assoc in E2. cbn [app] in E2.
    pose proof (first_le sp p t x _ Nsp E2) as Hl.
    apply (f_equal (@length ascii)) in E2. rewrite !app_length in E2. cbn [length] in E2, C. rewrite !app_length in E2, C.
    cbn [length] in E2. rewrite app_length in E2. lia.
  - destruct (set_next_token (inl ++ crlf) sp) as [[a tmp]|] eqn:T; [|discriminate].
    destruct (token_inl _ _ _ _ _ L T eq_refl) as (Wa & inl' & Ei & -> & L').
    injection H as <- <- <-. split; [|split; eauto with sdpw].
    split; [apply Wa|]. intros c [<-|[<-|[]]]; [apply Wa; now left|].
    intros Hin. apply in_split in Hin. destruct Hin as (x & y & ->).
    pose proof (strchr_p_spec (inl ++ crlf) sp) as X. rewrite S in X. destruct X as (p & t & E1 & Np & ->).
    rewrite Ei, <- app_assoc in E1. cbn [app] in E1.
    apply first_sep in E1; auto. 2: { apply Wa. now left. } destruct E1 as [<- <-].
    destruct (strchr_p (inl ++ crlf) "/") as [slash|] eqn:F.
    + assert (Q : ~ In "/"%char (x ++ "/"%char :: y)).
      { apply (strchr_late_inl (x ++ "/"%char :: y) (sp :: inl' ++ crlf) _ slash).
        - rewrite <- F, Ei. f_equal. rewrite <- !app_assoc. reflexivity.
        - auto. }
      apply Q. apply in_or_app. right. now left.
    + apply (strchr_none_inl (x ++ "/"%char :: y) (sp :: inl' ++ crlf) "/").
      * rewrite <- F, Ei. f_equal. rewrite <- !app_assoc. reflexivity.
      * apply in_or_app. right. now left.
Qed.

(** nothing found in the line *)
Lemma none_before : forall s crlf c x, crlf = c :: s -> c <> x ->
  match strchr_p s x with None => false | Some space => negb (ptr_lt crlf space) end = false.
Proof.
  intros s crlf c x -> N. destruct (strchr_p s x) as [q|] eqn:E; auto. apply strchr_p_suffix in E. destruct E as [p ->].
  rewrite ptr_lt_true; auto. cbn [length]. rewrite app_length. lia.
Qed.
Lemma none_tail : forall s crlf x, (exists p c, crlf = p ++ c :: s) ->
  match strchr_p s x with None => false | Some space => negb (ptr_lt crlf space) end = false.
Proof.
  intros s crlf x (p & c & ->). destruct (strchr_p s x) as [q|] eqn:E; auto. apply strchr_p_suffix in E. destruct E as [p' ->].
  rewrite ptr_lt_true; auto. lens.
Qed.

Lemma payloads_inv : forall fuel inl crlf acc, line_end_at inl crlf -> Forall (word [sp]) acc ->
  (length inl < fuel)%nat ->
  match parse_payloads fuel (inl ++ crlf) crlf acc with
  | Ok ps => payloads_ok ps
  | Err _ => True
  | UB => False end.
Proof.
  induction fuel as [|fuel IH]; intros inl crlf acc L HA Hf; [lia|]. cbn [parse_payloads].
  assert (PA : payloads_ok acc).
  { intros front final ->. apply Forall_app in HA. destruct HA as [A B]. inversion B as [|? ? W _]; subst.
    split; auto. split; [apply W|]. intros Hi. destruct final as [|y final]; [destruct Hi|]. apply (proj2 W sp (or_introl eq_refl)). now right. }
  pose proof L as (A & e & t & Ec & He).
  destruct inl as [|x inl].
  - subst crlf. cbn [app]. rewrite (none_tail t (e :: t) sp) by (exists [], e; auto).
    rewrite (ptr_lt_false (e :: t) (e :: t)) by lia. auto.
  - cbn [app].
    destruct (match strchr_p (inl ++ crlf) sp with None => false | Some space => negb (ptr_lt crlf space) end) eqn:M.
    + change (x :: inl ++ crlf) with ((x :: inl) ++ crlf).
      destruct (set_next_token ((x :: inl) ++ crlf) sp) as [[p tmp]|] eqn:T; auto.
      destruct (token_inl _ _ _ _ _ L T eq_refl) as (Wa & inl' & Ei & -> & L').
      apply IH; auto using forall_snoc.
      apply (f_equal (@length ascii)) in Ei. rewrite app_length in Ei. cbn [length] in Ei, Hf. lia.
    + rewrite ptr_lt_true by lens.
      change (x :: inl ++ crlf) with ((x :: inl) ++ crlf).
      destruct (last_token ((x :: inl) ++ crlf)) as [[p b]|] eqn:T; auto.
      destruct (last_inl _ _ _ _ L T) as (-> & Wi & _).
      intros front final E. apply app_inj_tail in E. destruct E as [<- <-]. repeat split; auto; try apply Wi.
      cbn [tl]. destruct (strchr_p (inl ++ crlf) sp) as [q|] eqn:F.
      * destruct (ptr_lt q crlf) eqn:G; [|eapply strchr_late_inl; eauto].
        apply negb_false_iff in M. apply Nat.ltb_lt in M, G. lia.
      * eapply strchr_none_inl; eauto.
Qed.

(** *** One line *)
Definition cur_ok (buf : str) (c : cursor) : Prop := before c <> None /\ exists p, buf = p ++ ahead c.
Definition line_good (buf : str) (d : sdp) (c : cursor) (r : line_res) : Prop :=
  match r with
  | LWF d' c' => good d d' /\ cur_ok buf c' /\ (length (ahead c') < length (ahead c))%nat
  | LUB => ~ last_line_whole buf
  | _ => True end.

Lemma after_good : forall val crlf buf p, line_end_at val crlf -> buf = p ++ val ++ crlf ->
  cur_ok buf (after_crlf crlf) /\ (length (ahead (after_crlf crlf)) < length crlf)%nat.
Proof.
  intros val crlf buf p (A & e & t & -> & He) ->. destruct t as [|x t]; cbn [after_crlf].
  - split; [|cbn; lia]. split; [discriminate|]. cbn. exists (p ++ val ++ [e]). now rewrite app_nil_r.
  - destruct (Ascii.eqb x lf); (split; [|cbn; lia]; split; [discriminate|]); cbn.
    + exists (p ++ val ++ [e; x]). now rewrite <- !app_assoc.
    + exists (p ++ val ++ [e]). now rewrite <- !app_assoc.
Qed.

Definition line_body (buf : str) (d : sdp) (k : str -> str -> str -> line_res) : Prop :=
  forall p val crlf, buf = p ++ val ++ crlf -> line_text val -> line_end_at val crlf ->
  match k (val ++ crlf) val crlf with
  | LWF d' c' => good d d' /\ c' = after_crlf crlf
  | LUB => ~ last_line_whole buf
  | _ => True end.

Lemma head_inv : forall l c v, find_equal l c = HFound v -> exists p, ahead c = p ++ "="%char :: v.
Proof.
  intros l c v H. unfold find_equal in H.
  destruct (scan (fun x => Ascii.eqb x "="%char) (ahead c)) as [pre eq] eqn:E.
  destruct (scan_spec _ _ _ _ E) as (Ea & A & B). destruct eq as [|e eq]; [discriminate|].
  cbn beta in B. apply eqb_eq' in B. subst e. exists pre.
  destruct (rev pre), (before c); try discriminate;
  match goal with H : context [if Ascii.eqb ?x ?l then _ else _] |- _ => destruct (Ascii.eqb x l) end;
  try discriminate; injection H as <-; auto.
Qed.
Lemma head_v_inv : forall c v, find_equal_v c = HFound v -> exists p, ahead c = p ++ "="%char :: v.
Proof.
  intros c v H. unfold find_equal_v in H.
  destruct (scan (fun x => Ascii.eqb x "="%char) (ahead c)) as [pre eq] eqn:E.
  destruct (scan_spec _ _ _ _ E) as (Ea & A & B). destruct eq as [|e eq]; [discriminate|].
  cbn beta in B. apply eqb_eq' in B. subst e. exists pre.
  destruct (rev pre); try discriminate;
  match goal with H : context [if Ascii.eqb ?x ?l then _ else _] |- _ => destruct (Ascii.eqb x l) end;
  try discriminate; injection H as <-; auto.
Qed.
Lemma head_safe : forall l c, before c <> None -> find_equal l c <> HUB.
Proof.
  intros l c H. unfold find_equal. destruct (scan _ (ahead c)) as [pre [|e eq]]; [discriminate|].
  destruct (rev pre), (before c); try congruence;
  match goal with |- context [if Ascii.eqb ?x ?l then _ else _] => destruct (Ascii.eqb x l) end; discriminate.
Qed.
Lemma head_v_safe : forall c, find_equal_v c <> HUB.
Proof.
  intros c. unfold find_equal_v. destruct (scan _ (ahead c)) as [pre [|e eq]]; [discriminate|].
  destruct (rev pre); try congruence;
  match goal with |- context [if Ascii.eqb ?x ?l then _ else _] => destruct (Ascii.eqb x l) end; discriminate.
Qed.
Lemma body_good : forall buf d c h k, h <> HUB -> (forall v, h = HFound v -> exists p, ahead c = p ++ "="%char :: v) ->
  (exists p, buf = p ++ ahead c) -> line_body buf d k -> line_good buf d c (with_line h k).
Proof.
  intros buf d c h k Hs Hv (p0 & Hb) Hk. unfold line_good, with_line. destruct h as [| |v|]; auto.
  destruct (Hv v eq_refl) as (p & Ea).
  destruct (find_crlf v) as [[val crlf]|] eqn:E; auto. destruct (crlf_inv _ _ _ E) as (-> & Wl & e & t & Ec & He).
  assert (L : line_end_at val crlf) by (split; [apply noeol_line; auto|eauto]).
  assert (Eb : buf = (p0 ++ p ++ ["="%char]) ++ val ++ crlf) by (rewrite Hb, Ea, <- !app_assoc; reflexivity).
  specialize (Hk _ _ _ Eb Wl L). destruct (k (val ++ crlf) val crlf) as [| |d' c'|]; auto.
  destruct Hk as [G ->]. destruct (after_good _ _ _ _ L Eb) as [C S]. split; [auto|]. split; [auto|].
  rewrite Ea. revert S. lens.
Qed.
Lemma find_good : forall l buf d c k, cur_ok buf c -> line_body buf d k -> line_good buf d c (with_line (find_equal l c) k).
Proof. intros l buf d c k [A B] Hk. apply body_good; auto using head_safe. intros; eapply head_inv; eauto. Qed.

Lemma media_i_ok : forall x m, line_text x -> media_ok m -> media_ok (media_i (Some x) m).
Proof. intros x m H (A & B & C & D & E & F & G & I & J & K). repeat (split; [cbn; solve [auto with sdpw]|]). cbn; auto with sdpw. Qed.
Lemma media_c_ok : forall x m, connection_ok x -> media_ok m -> media_ok (media_c (m_connections m ++ [x]) m).
Proof. intros x m H (A & B & C & D & E & F & G & I & J & K). repeat (split; [cbn; solve [auto with sdpw]|]). cbn; auto with sdpw. Qed.
Lemma media_b_ok : forall x m, bandwidth_ok x -> media_ok m -> media_ok (media_b (m_bandwidths m ++ [x]) m).
Proof. intros x m H (A & B & C & D & E & F & G & I & J & K). repeat (split; [cbn; solve [auto with sdpw]|]). cbn; auto with sdpw. Qed.
Lemma media_a_ok : forall x m, attribute_ok x -> media_ok m -> media_ok (media_a (m_attributes m ++ [x]) m).
Proof. intros x m H (A & B & C & D & E & F & G & I & J & K). repeat (split; [cbn; solve [auto with sdpw]|]). cbn; auto with sdpw. Qed.
Lemma media_k_ok : forall x m, key_ok x -> media_ok m -> media_ok (media_k (Some x) m).
Proof. intros x m H (A & B & C & D & E & F & G & I & J & K). repeat (split; [cbn; solve [auto with sdpw]|]). cbn; auto with sdpw. Qed.

Lemma v_good : forall buf d c, (exists p, buf = p ++ ahead c) -> line_good buf d c (parse_v d c).
Proof. intros. apply body_good; auto using head_v_safe. intros; apply head_v_inv; auto. intros p val crlf _ W _. auto using good_v. Qed.
Ltac token H := match goal with L : line_end_at ?i ?c |- context [set_next_token (?i ++ ?c) ?s] =>
  let E := fresh "T" in destruct (set_next_token (i ++ c) s) as [[? ?]|] eqn:E; [|exact I];
  let i' := fresh "inl" in let L' := fresh "L" in
  destruct (token_inl _ _ _ _ _ L E eq_refl) as (H & i' & ? & -> & L'); clear E end.
Ltac ending H := match goal with L : line_end_at ?i ?c |- context [last_token (?i ++ ?c)] =>
  let E := fresh "T" in destruct (last_token (i ++ c)) as [[? ?]|] eqn:E; [|exact I];
  destruct (last_inl _ _ _ _ L E) as (-> & H & _); clear E end.
Lemma o_good : forall buf d c, cur_ok buf c -> line_good buf d c (parse_o d c).
Proof.
  intros. apply find_good; auto. intros p val crlf _ W L. token W1. token W2. token W3. token W4. token W5. ending W6.
  split; auto. now apply good_o.
Qed.
Lemma s_good : forall buf d c, cur_ok buf c -> line_good buf d c (parse_s d c).
Proof. intros. apply find_good; auto. intros p val crlf _ W L. auto using good_s. Qed.
Lemma u_good : forall buf d c, cur_ok buf c -> line_good buf d c (parse_u d c).
Proof. intros. apply find_good; auto. intros p val crlf _ W L. auto using good_u. Qed.
Lemma e_good : forall buf d c, cur_ok buf c -> line_good buf d c (parse_e d c).
Proof. intros. apply find_good; auto. intros p val crlf _ W L. auto using good_e. Qed.
Lemma p_good : forall buf d c, cur_ok buf c -> line_good buf d c (parse_p d c).
Proof. intros. apply find_good; auto. intros p val crlf _ W L. auto using good_p. Qed.
Lemma z_good : forall buf d c, cur_ok buf c -> line_good buf d c (parse_z d c).
Proof. intros. apply find_good; auto. intros p val crlf _ W L. auto using good_z. Qed.
Lemma i_good : forall buf d c, cur_ok buf c -> line_good buf d c (parse_i d c).
Proof.
  intros. apply find_good; auto. intros p val crlf _ W L. split; auto. apply good_place; auto using good_i, media_i_ok.
Qed.
Lemma c_good : forall buf d c, cur_ok buf c -> line_good buf d c (parse_c d c).
Proof.
  intros. apply find_good; auto. intros p val crlf _ W L. token W1. token W2.
  match goal with |- context [parse_c_addr ?a ?b ?e ?f] => destruct (parse_c_addr a b e f) as [x|] eqn:E; [|exact I] end.
  apply addr_inv in E; auto. split; auto. apply good_place; auto using good_c, media_c_ok.
Qed.
Lemma b_good : forall buf d c, cur_ok buf c -> line_good buf d c (parse_b d c).
Proof.
  intros. apply find_good; auto. intros p val crlf _ W L. token W1. ending W2. cbv zeta.
  assert (bandwidth_ok (mkBand (Some s) (Some inl))) by (split; cbn; auto with sdpw).
  split; auto. apply good_place; auto using good_b, media_b_ok.
Qed.
Lemma t_good : forall buf d c, cur_ok buf c -> line_good buf d c (parse_t d c).
Proof.
  intros. apply find_good; auto. intros p val crlf _ W L. token W1. ending W2.
  split; auto. apply good_t. parts.
Qed.
Lemma k_good : forall buf d c, cur_ok buf c -> line_good buf d c (parse_k d c).
Proof.
  intros. apply find_good; auto. intros p val crlf _ W L.
  match goal with |- context [parse_pair ?a ?b] => destruct (parse_pair a b) as [[f v]|] eqn:E; [|exact I] end.
  apply pair_inv in E; auto. destruct E as [Wf Wv]. cbv zeta.
  assert (key_ok (mkKey (Some f) v)) by (split; cbn; auto with sdpw).
  split; auto. apply good_place; auto using good_k, media_k_ok.
Qed.
Lemma a_good : forall buf d c, cur_ok buf c -> line_good buf d c (parse_a d c).
Proof.
  intros. apply find_good; auto. intros p val crlf _ W L.
  match goal with |- context [parse_pair ?a ?b] => destruct (parse_pair a b) as [[f v]|] eqn:E; [|exact I] end.
  apply pair_inv in E; auto. destruct E as [Wf Wv]. cbv zeta.
  assert (attribute_ok (mkAttr (Some f) v)) by (split; cbn; auto with sdpw).
  split; auto. apply good_place; auto using good_a, media_a_ok.
Qed.
Lemma r_good : forall buf d c, cur_ok buf c -> line_good buf d c (parse_r d c).
Proof.
  intros buf d c H. unfold parse_r.
  destruct (rev (t_descrs d)) as [|t ts] eqn:E.
  - destruct (find_equal "r" c) eqn:F; cbn; auto. destruct H as [H _]. now apply (head_safe "r") in H.
  - assert (E' : t_descrs d = rev ts ++ [t]) by (rewrite <- (rev_involutive (t_descrs d)), E; reflexivity).
    apply (find_good "r" buf d c (fun _ val crlf =>
      LWF (with_t (rev ts ++ [mkTime (t_start t) (t_stop t) (t_repeats t ++ [val])]) d) (after_crlf crlf))); auto.
    intros p val crlf _ W L. auto using good_r.
Qed.

Lemma cut_line : forall p val e, line_text val -> is_eol e = true -> ~ last_line_whole (p ++ val ++ [e]).
Proof.
  intros p val e W He H. destruct (H (p ++ val) e) as (q & E).
  - now rewrite <- app_assoc.
  - now apply is_eol_iff.
  - destruct (exists_last (proj1 W)) as (v & x & ->).
    change CRLF with ([cr] ++ [lf]) in E. rewrite !app_assoc in E. apply app_inj_tail in E. destruct E as [E _].
    apply app_inj_tail in E. destruct E as [_ ->]. apply (proj1 (proj2 W)). apply in_or_app. right. now left.
Qed.
Lemma proto_line : forall inl crlf, line_end_at inl crlf ->
  match parse_m_proto (inl ++ crlf) with
  | None => True
  | Some (proto, tmp) =>
      (word [sp] proto /\ exists inl', tmp = inl' ++ crlf /\ line_end_at inl' crlf)
      \/ (proto = inl /\ line_text inl /\ (In sp inl -> exists s, inl = sp :: s) /\ tmp = tl crlf) end.
Proof.
  intros inl crlf L. unfold parse_m_proto. destruct (set_next_token (inl ++ crlf) sp) as [[a b]|] eqn:T.
  - left. destruct (token_inl _ _ _ _ _ L T eq_refl) as (W & inl' & _ & -> & L'). eauto.
  - destruct (last_token (inl ++ crlf)) as [[a b]|] eqn:T2; auto. right.
    destruct (last_inl _ _ _ _ L T2) as (-> & W & ->). repeat split; auto; try apply W.
    intros Hi. pose proof (strchr_p_spec inl sp) as S. destruct (strchr_p inl sp); [|tauto].
    destruct S as (p & t & -> & Np & _). destruct p as [|y p]; [exists t; reflexivity|]. exfalso.
    rewrite <- app_assoc in T. cbn [app] in T. change (y :: p ++ sp :: t ++ crlf) with ((y :: p) ++ sp :: t ++ crlf) in T.
    rewrite token_ok in T; [discriminate|]. split.
    + apply line_text_intro; [discriminate|]. intros c Hc. apply (noeol_line _ W). apply in_or_app. auto.
    + intros c [<-|[]]. auto.
Qed.
Lemma m_good : forall buf d c, cur_ok buf c -> line_good buf d c (parse_m d c).
Proof.
  intros. apply find_good; auto. intros p val crlf Eb W L. token W1.
  match goal with |- context [parse_m_port ?a] => destruct (parse_m_port a) as [[[port number] tmp]|] eqn:E; [|exact I] end.
  apply port_inv in E; auto. destruct E as (Wp & Wn & inl' & -> & L').
  pose proof (proto_line _ _ L') as P. destruct (parse_m_proto (inl' ++ crlf)) as [[proto tmp]|]; [|exact I].
  destruct P as [(Wx & i2 & -> & L2)|(-> & Wx & Hx & ->)].
  - pose proof (payloads_inv (S (length (i2 ++ crlf))) i2 crlf [] L2 (Forall_nil _)) as Q.
    rewrite app_length in Q at 1. specialize (Q ltac:(lia)).
    destruct (parse_payloads _ (i2 ++ crlf) crlf []) as [ps| |]; [|exact I|destruct Q].
    split; auto. apply good_m. repeat (split; [cbn; solve [auto with sdpw]|]).
    split; [cbn; left; auto with sdpw|]. repeat (split; [cbn; solve [auto with sdpw]|]). cbn. auto.
  - pose proof L as (A & e & t & -> & He). cbn [tl].
    destruct t as [|y t].
    + cbn. subst buf. now apply cut_line.
    + cbn [parse_payloads]. rewrite (none_tail t _ sp) by (exists [e], y; auto).
      rewrite ptr_lt_false by (cbn; lia). split; auto. apply good_m.
      repeat (split; [cbn; solve [auto with sdpw]|]).
      split.
      { cbn. destruct (in_dec Ascii.ascii_dec sp inl') as [I|N].
        - right. destruct (Hx I) as (s0 & ->). split; [auto with sdpw|]. split; eauto.
        - left. exists inl'. split; auto. split; auto. intros c0 [<-|[]]; auto. }
      split; [intros front final X; destruct front; discriminate X|].
      repeat (split; [cbn; solve [auto with sdpw]|]). cbn. auto.
Qed.

(** *** The whole parser *)
Definition flow_good (may : bool) (buf : str) (d : sdp) (c : cursor) (r : res flow) : Prop :=
  match r with
  | Ok (Return d') => may = true /\ good d d'
  | Ok (Continue i d' c') => good d d' /\ cur_ok buf c' /\ (length (ahead c') <= length (ahead c))%nat
      /\ (i = true -> (length (ahead c') < length (ahead c))%nat)
  | Err _ => True
  | UB => ~ last_line_whole buf end.

Lemma step_good : forall buf f d c, cur_ok buf c -> line_good buf d c (f d c) -> flow_good false buf d c (line_step f d c).
Proof.
  intros buf f d c C H. unfold line_step, line_good in *. destruct (f d c); cbn; auto.
  - split; [apply good_refl|]. split; [auto|]. split; [lia|discriminate].
  - destruct H as (A & B & D). split; [auto|]. split; [auto|]. split; [lia|auto].
Qed.
Lemma endc_good : forall buf d c r, flow_good false buf d c r ->
  flow_good true buf d c (do r <- r ; match r with Return d => Ok (Return d) | Continue i d c => Ok (end_check i d c) end).
Proof.
  intros buf d c [[d'|i d' c']| |] H; cbn in *; auto; [intuition|]. unfold end_check.
  destruct (ahead c') as [|x s] eqn:E; [intuition|]. destruct (is_eol x); cbn; [intuition|]. rewrite E. auto.
Qed.
Lemma lend_good : forall buf f d c, cur_ok buf c -> line_good buf d c (f d c) -> flow_good true buf d c (line_end f d c).
Proof. intros. unfold line_end. apply endc_good, step_good; auto. Qed.

Lemma andthen_good : forall may buf d c r k, flow_good may buf d c r ->
  (forall i d' c', cur_ok buf c' -> (length (ahead c') <= length (ahead c))%nat ->
     (i = true -> (length (ahead c') < length (ahead c))%nat) -> flow_good may buf d' c' (k i d' c')) ->
  flow_good may buf d c (andthen r k).
Proof.
  intros may buf d c [[d'|i d' c']| |] k H Hk; cbn in *; auto. destruct H as (A & B & C & D).
  specialize (Hk i d' c' B C D). destruct (k i d' c') as [[d2|i2 d2 c2]| |]; cbn in *; auto.
  - destruct Hk. split; eauto using good_trans.
  - destruct Hk as (A' & B' & C' & D'). split; [eauto using good_trans|]. split; [auto|]. split; [lia|]. intros X. specialize (D' X). lia.
Qed.
Lemma repeat_good : forall may buf step, (forall d c, cur_ok buf c -> flow_good may buf d c (step d c)) ->
  forall fuel d c, cur_ok buf c -> (length (ahead c) < fuel)%nat -> flow_good may buf d c (repeat_line step fuel d c).
Proof.
  intros may buf step H. induction fuel as [|fuel IH]; intros d c C Hf; [lia|]. cbn [repeat_line].
  apply andthen_good; auto. intros [] d' c' C' L1 L2.
  - apply IH; auto. specialize (L2 eq_refl). lia.
  - cbn. split; [apply good_refl|]. split; [auto|]. split; [lia|discriminate].
Qed.
Lemma loop_good : forall may buf step, (forall d c, cur_ok buf c -> flow_good may buf d c (step d c)) ->
  forall d c, cur_ok buf c -> flow_good may buf d c (loop step d c).
Proof. intros. unfold loop. apply repeat_good; auto. Qed.
Lemma done_good : forall may buf d c, cur_ok buf c -> flow_good may buf d c (Ok (Continue false d c)).
Proof. intros. cbn. split; [apply good_refl|]. split; [auto|]. split; [lia|discriminate]. Qed.

Ltac ends := first [ apply lend_good; [assumption|]; auto using t_good, r_good, z_good, k_good, a_good, m_good, i_good, c_good, b_good
  | apply loop_good; [|assumption]; intros; ends ].
Ltac stage := apply andthen_good; [ends|]; intros.
Lemma repeat_t_good : forall buf fuel d c, cur_ok buf c -> (length (ahead c) < fuel)%nat ->
  flow_good true buf d c (repeat_t fuel d c).
Proof.
  intros buf. induction fuel as [|fuel IH]; intros d c C Hf; [lia|]. cbn [repeat_t].
  stage. stage. destruct i0; [|now apply done_good].
  apply IH; auto. specialize (H4 eq_refl). lia.
Qed.
Lemma repeat_m_good : forall buf fuel d c, cur_ok buf c -> (length (ahead c) < fuel)%nat ->
  flow_good true buf d c (repeat_m fuel d c).
Proof.
  intros buf. induction fuel as [|fuel IH]; intros d c C Hf; [lia|]. cbn [repeat_m].
  apply andthen_good; [ends|]; intros more d1 c1 C1 L1 S1.
  apply andthen_good; [ends|]; intros i2 d2 c2 C2 L2 _.
  apply andthen_good; [ends|]; intros i3 d3 c3 C3 L3 _.
  apply andthen_good; [ends|]; intros i4 d4 c4 C4 L4 _.
  apply andthen_good; [ends|]; intros i5 d5 c5 C5 L5 _.
  apply andthen_good; [ends|]; intros i6 d6 c6 C6 L6 _.
  destruct more; [|now apply done_good]. specialize (S1 eq_refl). apply IH; auto. lia.
Qed.

Lemma v_sets : forall d c d' c', parse_v d c = LWF d' c' -> v_version d' <> None.
Proof.
  intros d c d' c' H. unfold parse_v, with_line in H. destruct (find_equal_v c); try discriminate.
  destruct (find_crlf _) as [[x y]|]; [|discriminate]. injection H as <- _. discriminate.
Qed.
Lemma o_sets : forall d c d' c', parse_o d c = LWF d' c' -> origin_set d'.
Proof.
  intros d c d' c' H. unfold parse_o, with_line in H. destruct (find_equal _ c); try discriminate.
  destruct (find_crlf _) as [[x y]|]; [|discriminate].
  repeat (match type of H with context [set_next_token ?a ?b] => destruct (set_next_token a b) as [[? ?]|]; [|discriminate] end).
  match type of H with context [last_token ?a] => destruct (last_token a) as [[? ?]|]; [|discriminate] end.
  injection H as <- _. repeat split; discriminate.
Qed.
Lemma t_sets : forall d c d' c', parse_t d c = LWF d' c' -> t_descrs d' <> [].
Proof.
  intros d c d' c' H. unfold parse_t, with_line in H. destruct (find_equal _ c); try discriminate.
  destruct (find_crlf _) as [[x y]|]; [|discriminate].
  repeat (match type of H with context [set_next_token ?a ?b] => destruct (set_next_token a b) as [[? ?]|]; [|discriminate] end).
  match type of H with context [last_token ?a] => destruct (last_token a) as [[? ?]|]; [|discriminate] end.
  injection H as <- _. cbn. intros E. apply app_eq_nil in E. destruct E. discriminate.
Qed.

(** the result of the parser: a whole description *)
Definition final (buf : str) (r : res flow) : Prop :=
  match r with
  | Ok (Return d') | Ok (Continue _ d' _) => sdp_ok d'
  | Err _ => True
  | UB => ~ last_line_whole buf end.
(** a stage that cannot return *)
Lemma andthen_final : forall buf d c r k, parts_ok d -> flow_good false buf d c r ->
  (forall i d' c', parts_ok d' -> keep d d' -> cur_ok buf c' -> final buf (k i d' c')) ->
  final buf (andthen r k).
Proof.
  intros buf d c [[d'|i d' c']| |] k P H Hk; cbn in *; auto; [destruct H; discriminate|]. destruct H as (A & B & C & D).
  apply Hk; auto; apply A; auto.
Qed.
(** a line that must be there *)
Lemma must_final : forall buf f d c k, parts_ok d -> line_good buf d c (f d c) ->
  (forall d' c', f d c = LWF d' c' -> parts_ok d' -> keep d d' -> cur_ok buf c' -> final buf (k true d' c')) ->
  final buf (andthen (must_line f d c) k).
Proof.
  intros buf f d c k P H Hk. unfold must_line, line_good in *. destruct (f d c) as [| |d' c'|]; cbn; auto.
  destruct H as (A & B & C). apply Hk; auto; apply A; auto.
Qed.
Lemma good_final : forall may buf d c r, sdp_ok d -> flow_good may buf d c r -> final buf r.
Proof.
  intros may buf d c r [[C1 [C2 [C3 [C4 [C5 [C6 [C7 C8]]]]]]] P] H.
  assert (G : forall d', good d d' -> sdp_ok d').
  { intros d' G. destruct (G P) as (P' & K1 & K2 & K3). split; auto.
    destruct K2 as (O1 & O2 & O3 & O4 & O5 & O6); [repeat split; auto|]. repeat split; auto. }
  destruct r as [[d'|i d' c']| |]; cbn in *; auto; apply G; tauto.
Qed.

Lemma parse_final : forall d buf, parts_ok d ->
  match sdp_parse d buf with Ok d' => sdp_ok d' | Err _ => True | UB => ~ last_line_whole buf end.
Proof.
  intros d buf P0. unfold sdp_parse.
  match goal with |- context [res_bind ?r _] => assert (F : final buf r); [|
    destruct r as [[d'|i d' c']| |]; cbn in F |- *; auto] end.
  apply must_final; auto. { apply v_good. exists []. reflexivity. }
  intros d1 c1 V1 P1 K1 C1. apply v_sets in V1.
  apply (andthen_final buf d1 c1); auto. { apply step_good; auto using s_good. }
  intros _ d2 c2 P2 K2 C2.
  apply must_final; auto. { apply o_good; auto. }
  intros d3 c3 O3 P3 K3 C3. apply o_sets in O3.
  apply (andthen_final buf d3 c3); auto. { apply step_good; auto using s_good. }
  intros _ d4 c4 P4 K4 C4.
  apply (andthen_final buf d4 c4); auto. { apply step_good; auto using i_good. }
  intros _ d5 c5 P5 K5 C5.
  apply (andthen_final buf d5 c5); auto. { apply step_good; auto using u_good. }
  intros _ d6 c6 P6 K6 C6.
  apply (andthen_final buf d6 c6); auto. { apply loop_good; auto. intros; apply step_good; auto using e_good. }
  intros _ d7 c7 P7 K7 C7.
  apply (andthen_final buf d7 c7); auto. { apply loop_good; auto. intros; apply step_good; auto using p_good. }
  intros _ d8 c8 P8 K8 C8.
  apply (andthen_final buf d8 c8); auto. { apply step_good; auto using c_good. }
  intros _ d9 c9 P9 K9 C9.
  apply (andthen_final buf d9 c9); auto. { apply loop_good; auto. intros; apply step_good; auto using b_good. }
  intros _ d10 c10 P10 K10 C10.
  apply must_final; auto. { apply t_good; auto. }
  intros d11 c11 T11 P11 K11 C11. apply t_sets in T11.
  assert (K : keep d1 d11) by eauto 12 using keep_trans.
  assert (K' : keep d3 d11) by eauto 12 using keep_trans.
  destruct K as (Kv & _ & _). destruct K' as (_ & Ko & _). specialize (Kv V1).
  destruct (Ko O3) as (O1 & O2 & O3' & O4 & O5 & O6).
  apply (good_final true buf d11 c11). { repeat (split; auto). }
  clear - C11. unfold end_check.
  destruct (ahead c11) as [|x s] eqn:E; [cbn; auto using good_refl|].
  destruct (is_eol x); [cbn; auto using good_refl|]. cbn [andthen res_bind].
  stage. stage. apply andthen_good; [apply repeat_t_good; auto; lia|]. intros. stage. stage. stage.
  apply repeat_m_good; auto.
Qed.

(** the parser does not leave its buffer if the last line is whole *)
Theorem sdp_parse_safe : forall buf, last_line_whole buf -> sdp_parse sdp_init buf <> UB.
Proof.
  intros buf H E. pose proof (parse_final sdp_init buf) as F. rewrite E in F. apply F; auto.
  repeat (split; [cbn; auto with sdpw|]). cbn. auto.
Qed.
(** what it builds can be written down and read again *)
Theorem sdp_parse_ok : forall buf d, sdp_parse sdp_init buf = Ok d -> sdp_ok d.
Proof.
  intros buf d E. pose proof (parse_final sdp_init buf) as F. rewrite E in F. apply F.
  repeat (split; [cbn; auto with sdpw|]). cbn. auto.
Qed.

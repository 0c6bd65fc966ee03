(** Every well formed session description is read back from its text. *)
From Coq Require Import String ZArith NArith Ascii Bool List Lia ZifyBool ZifyNat.
From Verif Require Import Base Str SdpModel SdpSpec SdpLemmas.
Import ListNotations.

Definition finish (r : res flow) : res sdp :=
  do f <- r ; match f with Return d => Ok d | Continue _ d _ => Ok d end.

(** the text is empty, or starts with a line whose letter is in [cs] *)
Definition leads1 (cs : list ascii) (s : str) : Prop := exists y r, s = y :: "="%char :: r /\ In y cs.
Definition leads (cs : list ascii) (s : str) : Prop := s = [] \/ leads1 cs s.
(** a line function which discards the lines with another letter *)
Definition discards (l : ascii) (f : sdp -> cursor -> line_res) : Prop :=
  forall d y r, y <> l -> y <> "="%char -> f d (at_line (y :: "="%char :: r)) = LDiscard.

Definition letters : list ascii := ["v"; "o"; "s"; "i"; "u"; "e"; "p"; "c"; "b"; "t"; "r"; "z"; "k"; "a"; "m"]%char.
Definition letters_ok (cs : list ascii) : Prop := incl cs letters.
Lemma letters_not : forall y cs, letters_ok cs -> In y cs -> y <> "="%char /\ is_eol y = false.
Proof.
  intros y cs H Hy. apply H in Hy. cbn in Hy.
  repeat (destruct Hy as [<-|Hy]; [split; [discriminate|reflexivity]|]). destruct Hy.
Qed.
Ltac letters := intros ? Hin; cbn in Hin |- *; tauto.
Ltac notin := let H := fresh in intros H; cbn in H; repeat (destruct H as [H|H]; [discriminate H|]); exact H.

Lemma discards_gen : forall l k, discards l (fun d c => with_line (find_equal l c) (k d)).
Proof.
  intros l k d y r H1 H2. unfold at_line. rewrite found_other; auto.
Qed.
Lemma disc_o : discards "o" parse_o. Proof. apply discards_gen. Qed.
Lemma disc_s : discards "s" parse_s. Proof. apply (discards_gen "s"). Qed.
Lemma disc_i : discards "i" parse_i. Proof. apply (discards_gen "i"). Qed.
Lemma disc_u : discards "u" parse_u. Proof. apply (discards_gen "u"). Qed.
Lemma disc_e : discards "e" parse_e. Proof. apply (discards_gen "e"). Qed.
Lemma disc_p : discards "p" parse_p. Proof. apply (discards_gen "p"). Qed.
Lemma disc_c : discards "c" parse_c. Proof. apply (discards_gen "c"). Qed.
Lemma disc_b : discards "b" parse_b. Proof. apply (discards_gen "b"). Qed.
Lemma disc_t : discards "t" parse_t. Proof. apply (discards_gen "t"). Qed.
Lemma disc_z : discards "z" parse_z. Proof. apply (discards_gen "z"). Qed.
Lemma disc_k : discards "k" parse_k. Proof. apply (discards_gen "k"). Qed.
Lemma disc_a : discards "a" parse_a. Proof. apply (discards_gen "a"). Qed.
Lemma disc_m : discards "m" parse_m. Proof. apply (discards_gen "m"). Qed.
Lemma disc_r : discards "r" parse_r.
Proof. intros d y r H1 H2. unfold parse_r, at_line. rewrite found_other; auto. Qed.

Lemma leads1_other : forall cs s l f d, leads1 cs s -> letters_ok cs -> ~ In l cs -> discards l f ->
  f d (at_line s) = LDiscard.
Proof.
  intros cs s l f d (y & r & -> & Hy) Hc Hl Hf. apply Hf; [congruence|]. eapply letters_not; eauto.
Qed.

Lemma end_check_go : forall cs s i d, leads1 cs s -> letters_ok cs ->
  end_check i d (at_line s) = Continue i d (at_line s).
Proof.
  intros cs s i d (y & r & -> & Hy) Hc. unfold end_check. cbn [ahead at_line].
  now rewrite (proj2 (letters_not _ _ Hc Hy)).
Qed.
Lemma end_check_nil : forall i d, end_check i d (at_line []) = Return d.
Proof. reflexivity. Qed.

Lemma flat_len : forall (A : Type) (tx : A -> str) (l : ascii), (forall a, exists r, tx a = l :: "="%char :: r) ->
  forall xs rest, (length xs < S (length (flat_map tx xs ++ rest)))%nat.
Proof.
  intros A tx l Htx. induction xs as [|a xs IH]; intros rest; cbn [flat_map length]; [lia|].
  destruct (Htx a) as [r ->]. specialize (IH rest). rewrite app_length in *. cbn [length].
  rewrite app_length. cbn [length]. lia.
Qed.

Section Stage.
Variable l : ascii.
Variable f : sdp -> cursor -> line_res.
Variable A : Type.
Variable tx : A -> str.
Variable up : A -> sdp -> sdp.
Variable P : A -> Prop.
Variable I : sdp -> Prop.
Hypothesis Hl : In l letters.
Hypothesis Hdisc : discards l f.
Hypothesis Htx : forall a, exists r, tx a = l :: "="%char :: r.
Hypothesis Hrun : forall d a r, I d -> P a -> f d (at_line (tx a ++ r)) = LWF (up a d) (at_line r).
Hypothesis HI : forall d a, I d -> P a -> I (up a d).

Definition opt_up (x : option A) (d : sdp) : sdp := match x with Some a => up a d | None => d end.

Lemma step_opt : forall cs x d rest K res, I d -> optional P x -> leads1 cs rest -> letters_ok cs -> ~ In l cs ->
  (forall i, finish (K i (opt_up x d) (at_line rest)) = res) ->
  finish (andthen (line_step f d (at_line (opt_text tx x ++ rest))) K) = res.
Proof.
  intros cs x d rest K res HId Hx Hlead Hcs Hn HK. unfold line_step. destruct x as [a|]; cbn [opt_text].
  - rewrite Hrun by auto. apply HK.
  - cbn [app]. rewrite (leads1_other cs rest l f d); auto. apply HK.
Qed.

Lemma leads_tx : forall xs rest, (exists cs, leads1 cs rest /\ letters_ok cs) ->
  exists cs, leads1 cs (flat_map tx xs ++ rest) /\ letters_ok cs.
Proof.
  intros [|a xs] rest H; auto. destruct (Htx a) as [r Hr]. exists [l]. split.
  - exists l. cbn [flat_map]. rewrite Hr. cbn [app]. eexists. split; [reflexivity|now left].
  - intros y [<-|[]]; auto.
Qed.

Lemma repeat_step : forall xs fuel cs d rest K res, (length xs < fuel)%nat -> I d -> Forall P xs ->
  leads1 cs rest -> letters_ok cs -> ~ In l cs ->
  (forall i, finish (K i (fold_left (fun d a => up a d) xs d) (at_line rest)) = res) ->
  finish (andthen (repeat_line (line_step f) fuel d (at_line (flat_map tx xs ++ rest))) K) = res.
Proof.
  induction xs as [|a xs IH]; intros fuel cs d rest K res Hf HId HP Hlead Hcs Hn HK;
    (destruct fuel as [|fuel]; [inversion Hf|]).
  - cbn [flat_map app repeat_line]. unfold line_step.
    rewrite (leads1_other cs rest l f d); auto. apply HK.
  - cbn [flat_map repeat_line]. rewrite <- app_assoc. unfold line_step at 1.
    inversion HP; subst. rewrite Hrun by auto. cbn [andthen res_bind].
    apply (IH fuel cs); auto. cbn in Hf. lia.
Qed.

Lemma loop_step : forall xs cs d rest K res, I d -> Forall P xs ->
  leads1 cs rest -> letters_ok cs -> ~ In l cs ->
  (forall i, finish (K i (fold_left (fun d a => up a d) xs d) (at_line rest)) = res) ->
  finish (andthen (loop (line_step f) d (at_line (flat_map tx xs ++ rest))) K) = res.
Proof. intros. unfold loop. eapply repeat_step; eauto. eapply flat_len; eauto. Qed.

(** the same where the end of the text is checked after the line *)
Lemma end_opt : forall cs x d rest K res i, I d -> optional P x -> leads cs rest -> letters_ok cs -> ~ In l cs ->
  (forall i, finish (andthen (Ok (end_check i (opt_up x d) (at_line rest))) K) = res) ->
  finish (andthen (Ok (end_check i d (at_line (opt_text tx x ++ rest)))) (fun _ d c =>
    andthen (line_end f d c) K)) = res.
Proof.
  intros cs x d rest K res i HId Hx Hlead Hcs Hn HK. destruct x as [a|]; cbn [opt_text opt_up] in *.
  - destruct (Htx a) as [r Hr].
    rewrite (end_check_go [l]); [| exists l; rewrite Hr; cbn [app]; eexists; split; [reflexivity|now left]
                                 | intros y [<-|[]]; auto].
    cbn [andthen res_bind]. unfold line_end, line_step. rewrite Hrun by auto. cbn [res_bind]. apply HK.
  - cbn [app]. destruct Hlead as [->|Hlead].
    + rewrite end_check_nil. cbn. specialize (HK true). rewrite end_check_nil in HK. exact HK.
    + rewrite (end_check_go cs) by auto. cbn [andthen res_bind]. unfold line_end, line_step.
      rewrite (leads1_other cs rest l f d) by auto. cbn [res_bind]. apply HK.
Qed.

Lemma repeat_end : forall xs fuel cs d rest K res, (length xs < fuel)%nat -> I d -> Forall P xs ->
  leads cs rest -> letters_ok cs -> ~ In l cs -> flat_map tx xs ++ rest <> [] ->
  (forall i, finish (andthen (Ok (end_check i (fold_left (fun d a => up a d) xs d) (at_line rest))) K) = res) ->
  finish (andthen (repeat_line (line_end f) fuel d (at_line (flat_map tx xs ++ rest))) K) = res.
Proof.
  induction xs as [|a xs IH]; intros fuel cs d rest K res Hf HId HP Hlead Hcs Hn Hne HK;
    (destruct fuel as [|fuel]; [inversion Hf|]).
  - cbn [flat_map app repeat_line fold_left] in *. destruct Hlead as [->|Hlead]; [now destruct Hne|].
    unfold line_end, line_step. rewrite (leads1_other cs rest l f d) by auto. cbn [res_bind].
    specialize (HK false). rewrite (end_check_go cs) in * by auto. exact HK.
  - cbn [flat_map repeat_line]. rewrite <- app_assoc. unfold line_end at 1, line_step.
    inversion HP; subst. rewrite Hrun by auto. cbn [res_bind].
    destruct (flat_map tx xs ++ rest) as [|y z] eqn:Et.
    + rewrite end_check_nil. cbn. assert (xs = []) as ->.
      { destruct xs as [|b xs]; auto. destruct (Htx b) as [q Hq]. cbn [flat_map] in Et. rewrite Hq in Et. discriminate Et. }
      cbn [flat_map app] in Et. subst rest. specialize (HK true). cbn [fold_left] in HK.
      rewrite end_check_nil in HK. exact HK.
    + assert (L : leads1 (l :: cs) (flat_map tx xs ++ rest) /\ letters_ok (l :: cs)).
      { split.
        - destruct xs as [|b xs].
          + cbn [flat_map app] in *. destruct Hlead as [->|Hlead]; [discriminate Et|].
            destruct Hlead as (y' & r' & E' & Hi). exists y', r'. split; auto. now right.
          + cbn [flat_map]. destruct (Htx b) as [q ->]. cbn [app]. exists l. eexists. split; [reflexivity|now left].
        - intros x [<-|Hx]; auto. }
      rewrite <- Et. rewrite (end_check_go (l :: cs)) by tauto. cbn [andthen res_bind].
      apply (IH fuel cs); auto.
      * cbn in Hf. lia.
      * congruence.
Qed.

Lemma end_loop : forall xs cs d rest K res i, I d -> Forall P xs ->
  leads cs rest -> letters_ok cs -> ~ In l cs ->
  (forall i, finish (andthen (Ok (end_check i (fold_left (fun d a => up a d) xs d) (at_line rest))) K) = res) ->
  finish (andthen (Ok (end_check i d (at_line (flat_map tx xs ++ rest)))) (fun _ d c =>
    andthen (loop (line_end f) d c) K)) = res.
Proof.
  intros xs cs d rest K res i HId HP Hlead Hcs Hn HK.
  destruct (flat_map tx xs ++ rest) as [|y z] eqn:Et.
  - rewrite end_check_nil. cbn. assert (xs = []) as ->.
    { destruct xs as [|b xs]; auto. destruct (Htx b) as [q Hq]. cbn [flat_map] in Et. rewrite Hq in Et. discriminate Et. }
    cbn [flat_map app] in Et. subst rest. specialize (HK true). cbn [fold_left] in HK.
    rewrite end_check_nil in HK. exact HK.
  - rewrite <- Et. assert (L : leads1 (l :: cs) (flat_map tx xs ++ rest) /\ letters_ok (l :: cs)).
    { split.
      - destruct xs as [|b xs].
        + cbn [flat_map app] in *. destruct Hlead as [->|Hlead]; [discriminate Et|].
          destruct Hlead as (y' & r' & E' & Hi). exists y', r'. split; auto. now right.
        + cbn [flat_map]. destruct (Htx b) as [q ->]. cbn [app]. exists l. eexists. split; [reflexivity|now left].
      - intros x [<-|Hx]; auto. }
    rewrite (end_check_go (l :: cs)) by tauto. cbn [andthen res_bind].
    eapply repeat_end; eauto; [eapply flat_len; eauto|congruence].
Qed.
End Stage.

Lemma leads_cons : forall l (A : Type) (tx : A -> str) (xs : list A) cs rest,
  (forall a, exists r, tx a = l :: "="%char :: r) -> leads cs rest -> leads (l :: cs) (flat_map tx xs ++ rest).
Proof.
  intros l A tx [|a xs] cs rest Htx H; cbn [flat_map app].
  - destruct H as [->|(y & r & -> & Hy)]; [now left|right]. exists y, r. split; auto. now right.
  - right. destruct (Htx a) as [r ->]. cbn [app]. exists l. eexists. split; [reflexivity|now left].
Qed.
Lemma leads1_cons : forall l (A : Type) (tx : A -> str) (xs : list A) cs rest,
  (forall a, exists r, tx a = l :: "="%char :: r) -> leads1 cs rest -> leads1 (l :: cs) (flat_map tx xs ++ rest).
Proof.
  intros l A tx [|a xs] cs rest Htx H; cbn [flat_map app].
  - destruct H as (y & r & -> & Hy). exists y, r. split; auto. now right.
  - destruct (Htx a) as [r ->]. cbn [app]. exists l. eexists. split; [reflexivity|now left].
Qed.
Lemma leads_opt : forall l (A : Type) (tx : A -> str) (x : option A) cs rest,
  (forall a, exists r, tx a = l :: "="%char :: r) -> leads cs rest -> leads (l :: cs) (opt_text tx x ++ rest).
Proof.
  intros l A tx [a|] cs rest Htx H; cbn [opt_text app].
  - right. destruct (Htx a) as [r ->]. cbn [app]. exists l. eexists. split; [reflexivity|now left].
  - destruct H as [->|(y & r & -> & Hy)]; [now left|right]. exists y, r. split; auto. now right.
Qed.
Lemma leads1_opt : forall l (A : Type) (tx : A -> str) (x : option A) cs rest,
  (forall a, exists r, tx a = l :: "="%char :: r) -> leads1 cs rest -> leads1 (l :: cs) (opt_text tx x ++ rest).
Proof.
  intros l A tx [a|] cs rest Htx H; cbn [opt_text app].
  - destruct (Htx a) as [r ->]. cbn [app]. exists l. eexists. split; [reflexivity|now left].
  - destruct H as (y & r & -> & Hy). exists y, r. split; auto. now right.
Qed.
Lemma opt_line_text : forall l x, opt_line l x = opt_text (line l) x.
Proof. now intros l [|]. Qed.

(** *** What the loops build *)
Definition up_list {A} (get : sdp -> list A) (put : list A -> sdp -> sdp) (a : A) (d : sdp) : sdp :=
  put (get d ++ [a]) d.
Lemma fold_list : forall A (get : sdp -> list A) put,
  (forall x d, get (put x d) = x) -> (forall x y d, put x (put y d) = put x d) -> (forall d, put (get d) d = d) ->
  forall xs d, fold_left (fun d a => up_list get put a d) xs d = put (get d ++ xs) d.
Proof.
  intros A get put H1 H2 H3. induction xs as [|a xs IH]; intros d; cbn [fold_left].
  - now rewrite app_nil_r, H3.
  - rewrite IH. unfold up_list. now rewrite H1, H2, <- app_assoc.
Qed.
Lemma fold_e : forall xs d, fold_left (fun d a => with_e (e_emails d ++ [a]) d) xs d = with_e (e_emails d ++ xs) d.
Proof. apply (fold_list _ e_emails with_e); now destruct d. Qed.
Lemma fold_p : forall xs d, fold_left (fun d a => with_p (p_phones d ++ [a]) d) xs d = with_p (p_phones d ++ xs) d.
Proof. apply (fold_list _ p_phones with_p); now destruct d. Qed.

(** in the session part *)
Lemma on_session : forall d s m, m_medias d = [] -> on_place d s m = s d.
Proof. intros d s m H. unfold on_place. now rewrite H. Qed.
(** in a media *)
Lemma on_media : forall d0 ms m s g, on_place (with_m (ms ++ [m]) d0) s g = with_m (ms ++ [g m]) d0.
Proof.
  intros. unfold on_place. cbn [m_medias with_m]. rewrite rev_app_distr. cbn [rev app].
  rewrite rev_involutive. reflexivity.
Qed.
Definition up_b (b : sdp_bandwidth) (d : sdp) := on_place d (fun d => with_b (b_bandwidths d ++ [b]) d)
                    (fun m => media_b (m_bandwidths m ++ [b]) m).
Definition up_a (k : sdp_attribute) (d : sdp) := on_place d (fun d => with_a (a_attributes d ++ [k]) d)
                    (fun m => media_a (m_attributes m ++ [k]) m).
Definition up_c (c : sdp_connection) (d : sdp) :=
  on_place d (with_c (Some c)) (fun m => media_c (m_connections m ++ [c]) m).
Definition up_k (k : sdp_key) (d : sdp) := on_place d (with_k (Some k)) (media_k (Some k)).
Definition up_i (v : str) (d : sdp) := on_place d (with_i (Some v)) (media_i (Some v)).

Lemma fold_b : forall xs d, m_medias d = [] -> fold_left (fun d a => up_b a d) xs d = with_b (b_bandwidths d ++ xs) d.
Proof.
  induction xs as [|x xs IH]; intros d H; cbn [fold_left].
  - rewrite app_nil_r. now destruct d.
  - unfold up_b at 2. rewrite on_session by auto. rewrite IH by (now destruct d). destruct d. unfold with_b. cbn.
    now rewrite <- app_assoc.
Qed.
Lemma fold_a : forall xs d, m_medias d = [] -> fold_left (fun d a => up_a a d) xs d = with_a (a_attributes d ++ xs) d.
Proof.
  induction xs as [|x xs IH]; intros d H; cbn [fold_left].
  - rewrite app_nil_r. now destruct d.
  - unfold up_a at 2. rewrite on_session by auto. rewrite IH by (now destruct d). destruct d. unfold with_a. cbn.
    now rewrite <- app_assoc.
Qed.
Lemma fold_mc : forall xs d ms m, fold_left (fun d a => up_c a d) xs (with_m (ms ++ [m]) d)
  = with_m (ms ++ [media_c (m_connections m ++ xs) m]) d.
Proof.
  induction xs as [|x xs IH]; intros d ms m; cbn [fold_left].
  - rewrite app_nil_r. now destruct m.
  - unfold up_c at 2. rewrite on_media, IH. destruct m. unfold media_c. cbn. now rewrite <- app_assoc.
Qed.
Lemma fold_mb : forall xs d ms m, fold_left (fun d a => up_b a d) xs (with_m (ms ++ [m]) d)
  = with_m (ms ++ [media_b (m_bandwidths m ++ xs) m]) d.
Proof.
  induction xs as [|x xs IH]; intros d ms m; cbn [fold_left].
  - rewrite app_nil_r. now destruct m.
  - unfold up_b at 2. rewrite on_media, IH. destruct m. unfold media_b. cbn. now rewrite <- app_assoc.
Qed.
Lemma fold_ma : forall xs d ms m, fold_left (fun d a => up_a a d) xs (with_m (ms ++ [m]) d)
  = with_m (ms ++ [media_a (m_attributes m ++ xs) m]) d.
Proof.
  induction xs as [|x xs IH]; intros d ms m; cbn [fold_left].
  - rewrite app_nil_r. now destruct m.
  - unfold up_a at 2. rewrite on_media, IH. destruct m. unfold media_a. cbn. now rewrite <- app_assoc.
Qed.

(** "r=" lines *)
Definition add_r (v : str) (t : sdp_time) := mkTime (t_start t) (t_stop t) (t_repeats t ++ [v]).
Definition up_r (v : str) (d : sdp) : sdp :=
  match rev (t_descrs d) with [] => d | t :: ts => with_t (rev ts ++ [add_r v t]) d end.
Lemma up_r_run : forall d v r, t_descrs d <> [] -> line_text v ->
  parse_r d (at_line (line "r" v ++ r)) = LWF (up_r v d) (at_line r).
Proof.
  intros d v r H Hv. destruct (exists_last H) as (ts & t & E). erewrite run_r by eauto.
  unfold up_r. rewrite E, rev_app_distr. cbn [rev app]. now rewrite rev_involutive.
Qed.
Lemma up_r_inv : forall d v, t_descrs d <> [] -> t_descrs (up_r v d) <> [].
Proof.
  intros d v H. destruct (exists_last H) as (ts & t & E). unfold up_r. rewrite E, rev_app_distr. cbn.
  destruct (rev (rev ts)); discriminate.
Qed.
Lemma fold_r : forall xs d ts t, fold_left (fun d a => up_r a d) xs (with_t (ts ++ [t]) d)
  = with_t (ts ++ [mkTime (t_start t) (t_stop t) (t_repeats t ++ xs)]) d.
Proof.
  induction xs as [|x xs IH]; intros d ts t; cbn [fold_left].
  - rewrite app_nil_r. now destruct t.
  - unfold up_r at 2. cbn [t_descrs with_t]. rewrite rev_app_distr. cbn [rev app]. rewrite rev_involutive.
    change (with_t (ts ++ [add_r x t]) (with_t (ts ++ [t]) d)) with (with_t (ts ++ [add_r x t]) d).
    rewrite IH. cbn. now rewrite <- app_assoc.
Qed.

Ltac shape := intros; unfold connection_text, bandwidth_text, key_text, attribute_text, time_text, line; cbn [app]; eauto.

(** *** The "t=" lines after the first *)
Lemma times_run : forall ts reps d0 pre t fuel rest cs K res, (length ts < fuel)%nat ->
  Forall line_text reps -> Forall time_ok ts -> leads cs rest -> letters_ok cs -> ~ In "r"%char cs -> ~ In "t"%char cs ->
  flat_map (line "r") reps ++ flat_map time_text ts ++ rest <> [] ->
  (forall i, finish (andthen (Ok (end_check i (with_t (pre ++ mkTime (t_start t) (t_stop t) (t_repeats t ++ reps) :: ts) d0)
                                            (at_line rest))) K) = res) ->
  finish (andthen (repeat_t fuel (with_t (pre ++ [t]) d0)
                    (at_line (flat_map (line "r") reps ++ flat_map time_text ts ++ rest))) K) = res.
Proof.
  induction ts as [|[a b rr] ts IH]; intros reps d0 pre t fuel rest cs K res Hf Hr Ht Hlead Hcs Hnr Hnt Hne HK;
    (destruct fuel as [|fuel]; [inversion Hf|]); cbn [repeat_t].
  - cbn [flat_map app] in *.
    assert (As : forall r k1 k2, andthen (andthen r k1) k2 = andthen r (fun i d c => andthen (k1 i d c) k2)).
    { intros [f|c|] k1 k2; auto. destruct f; auto. }
    rewrite As. unfold loop. eapply (repeat_end "r" parse_r str (line "r") up_r line_text (fun d => t_descrs d <> []));
      [cbn; tauto|apply disc_r|shape|apply up_r_run|intros; now apply up_r_inv|apply (flat_len _ (line "r") "r"); shape
      |cbn; destruct pre; discriminate|auto|apply Hlead|auto|auto|auto|].
    intros i. rewrite fold_r. destruct Hlead as [->|Hlead].
    + rewrite end_check_nil. cbn. specialize (HK true). rewrite end_check_nil in HK. cbn in HK. exact HK.
    + specialize (HK false). rewrite (end_check_go cs) in * by auto. cbn [andthen res_bind].
      unfold line_end, line_step. rewrite (leads1_other cs rest "t" parse_t) by auto using disc_t. cbn [res_bind].
      rewrite (end_check_go cs) by auto. cbn [andthen res_bind]. cbn [andthen res_bind] in HK. exact HK.
  - assert (As : forall r k1 k2, andthen (andthen r k1) k2 = andthen r (fun i d c => andthen (k1 i d c) k2)).
    { intros [f|c|] k1 k2; auto. destruct f; auto. }
    rewrite As. unfold loop.
    inversion Ht as [|? ? ((a' & Ea & Wa) & (b' & Eb & Wb) & Wr) Ht']; subst. cbn in Ea, Eb, Wr. subst a b.
    assert (Hlead1 : leads ["t"%char] (flat_map time_text (mkTime (Some a') (Some b') rr :: ts) ++ rest)).
    { right. cbn [flat_map]. exists "t"%char. eexists. split; [reflexivity|now left]. }
    eapply (repeat_end "r" parse_r str (line "r") up_r line_text (fun d => t_descrs d <> []));
      [cbn; tauto|apply disc_r|shape|apply up_r_run|intros; now apply up_r_inv|apply (flat_len _ (line "r") "r"); shape
      |cbn; destruct pre; discriminate|auto|apply Hlead1|letters|notin|auto|].
    intros i. rewrite fold_r. rewrite (end_check_go ["t"%char]); [|now destruct Hlead1|letters].
    cbn [andthen res_bind]. cbn [flat_map]. unfold time_text at 1. cbn [t_start t_stop val SdpModel.t_repeats].
    unfold line_end at 1, line_step. rewrite <- !app_assoc. rewrite run_t by auto. cbn [res_bind].
    cbn [t_descrs with_t].
    assert (E : forall x d, with_t x (with_t (pre ++ [{| t_start := t_start t; t_stop := t_stop t; t_repeats := t_repeats t ++ reps |}]) d) = with_t x d) by reflexivity.
    rewrite E. rewrite As.
    assert (HK' : forall i, finish (andthen (Ok (end_check i
       (with_t ((pre ++ [mkTime (t_start t) (t_stop t) (t_repeats t ++ reps)]) ++ mkTime (Some a') (Some b') rr :: ts) d0) (at_line rest))) K) = res).
    { intros i0. rewrite <- app_assoc. apply HK. }
    destruct (flat_map (line "r") rr ++ flat_map time_text ts ++ rest) as [|y z] eqn:Et.
    + rewrite end_check_nil. cbn.
      assert (rr = [] /\ ts = [] /\ rest = []) as (-> & -> & ->).
      { destruct rr; [|discriminate Et]. destruct ts; [|discriminate Et]. auto. }
      specialize (HK' true). rewrite end_check_nil in HK'. cbn in HK'. exact HK'.
    + rewrite <- Et.
      assert (L : leads1 ("r"%char :: "t"%char :: cs) (flat_map (line "r") rr ++ flat_map time_text ts ++ rest)).
      { assert (L0 : leads ("r"%char :: "t"%char :: cs) (flat_map (line "r") rr ++ flat_map time_text ts ++ rest)).
        { apply leads_cons; [shape|]. apply leads_cons; [shape|]. auto. }
        destruct L0 as [L0|L0]; auto. rewrite L0 in Et. discriminate Et. }
      rewrite (end_check_go ("r"%char :: "t"%char :: cs)); auto.
      2: { intros x [<-|[<-|Hx]]; [cbn; tauto|cbn; tauto|auto]. }
      cbn [andthen res_bind]. eapply IH; eauto.
      * cbn in Hf. lia.
      * rewrite Et. discriminate.
Qed.

(** *** The media *)
Lemma end_more : forall cs d s K res, leads cs s -> letters_ok cs ->
  (forall i, finish (andthen (Ok (end_check i d (at_line s))) (fun _ => K true)) = res) ->
  finish (andthen (Ok (end_check true d (at_line s))) K) = res.
Proof.
  intros cs d s K res [->|Hl] Hcs H; specialize (H true).
  - rewrite end_check_nil in *. exact H.
  - rewrite (end_check_go cs) in * by auto. exact H.
Qed.

Lemma media_shape : forall m, exists r, media_text m = "m"%char :: "="%char :: r.
Proof. intros. unfold media_text, line. cbn [app]. eauto. Qed.
Lemma leads_media : forall ms, leads ["m"%char] (flat_map media_text ms).
Proof.
  intros ms. rewrite <- (app_nil_r (flat_map media_text ms)). apply leads_cons; [apply media_shape|now left].
Qed.

Lemma media_run : forall ms fuel d0 done i, (length ms < fuel)%nat -> Forall media_ok ms ->
  finish (andthen (Ok (end_check i (with_m done d0) (at_line (flat_map media_text ms))))
                  (fun _ d c => repeat_m fuel d c))
  = Ok (with_m (done ++ ms) d0).
Proof.
  induction ms as [|m ms IH]; intros fuel d0 done i Hf HP; (destruct fuel as [|fuel]; [inversion Hf|]).
  - cbn [flat_map]. rewrite end_check_nil, app_nil_r. reflexivity.
  - rewrite (end_check_go ["m"%char]); [| |letters].
    2: { cbn [flat_map]. destruct (media_shape m) as [r ->]. exists "m"%char. eexists. split; [reflexivity|now left]. }
    cbn [andthen res_bind repeat_m]. cbn [flat_map]. inversion HP as [|? ? Hm HP']; subst.
    pose proof Hm as ((media & Em & _) & (port & Ep & _) & Hn & Hproto & Hps & Hi & Hc & Hb & Hk & Ha).
    assert (Epr : exists proto, m_proto m = Some proto).
    { destruct Hproto as [(q & Eq & _)|(_ & (q & Eq) & _)]; eauto. }
    destruct Epr as (proto & Epr).
    unfold line_end at 1, line_step. unfold media_text at 1. rewrite <- !app_assoc.
    rewrite (run_m _ m _ media port proto) by auto. cbn [res_bind]. cbn [SdpModel.m_medias with_m].
    set (m0 := mkMedia _ _ _ _ _ _ _ _ _ _).
    change (with_m (done ++ [m0]) (with_m done d0)) with (with_m (done ++ [m0]) d0).
    pose proof (leads_media ms) as L0.
    assert (L1 := leads_cons "a" _ attribute_text (m_attributes m) _ _ ltac:(shape) L0).
    assert (L2 := leads_opt "k" _ key_text (m_key m) _ _ ltac:(shape) L1).
    assert (L3 := leads_cons "b" _ bandwidth_text (m_bandwidths m) _ _ ltac:(shape) L2).
    assert (L4 := leads_cons "c" _ connection_text (m_connections m) _ _ ltac:(shape) L3).
    assert (L5 := leads_opt "i" _ (line "i") (m_info m) _ _ ltac:(shape) L4).
    rewrite opt_line_text.
    eapply end_more; [exact L5|letters|]. intros i1. cbv beta.
    eapply (end_opt "i" parse_i str (line "i") up_i line_text (fun _ => True));
      [cbn; tauto|apply disc_i|shape|intros; apply run_i; auto|auto|auto|exact L4|letters|notin|].
    clear i1. intros i1.
    set (m1 := match m_info m with Some v => media_i (Some v) m0 | None => m0 end).
    replace (opt_up str up_i (m_info m) (with_m (done ++ [m0]) d0)) with (with_m (done ++ [m1]) d0).
    2: { subst m1. destruct (m_info m); cbn [opt_up]; auto. unfold up_i. now rewrite on_media. }
    eapply (end_loop "c" parse_c _ connection_text up_c connection_ok (fun _ => True));
      [cbn; tauto|apply disc_c|shape|intros; apply run_c; auto|auto|auto|auto|exact L3|letters|notin|].
    clear i1. intros i1. rewrite fold_mc. set (m2 := media_c _ m1).
    eapply (end_loop "b" parse_b _ bandwidth_text up_b bandwidth_ok (fun _ => True));
      [cbn; tauto|apply disc_b|shape|intros; apply run_b; auto|auto|auto|auto|exact L2|letters|notin|].
    clear i1. intros i1. rewrite fold_mb. set (m3 := media_b _ m2).
    eapply (end_opt "k" parse_k _ key_text up_k key_ok (fun _ => True));
      [cbn; tauto|apply disc_k|shape|intros; apply run_k; auto|auto|auto|exact L1|letters|notin|].
    clear i1. intros i1.
    set (m4 := match m_key m with Some v => media_k (Some v) m3 | None => m3 end).
    replace (opt_up sdp_key up_k (m_key m) (with_m (done ++ [m3]) d0)) with (with_m (done ++ [m4]) d0).
    2: { subst m4. destruct (m_key m); cbn [opt_up]; auto. unfold up_k. now rewrite on_media. }
    eapply (end_loop "a" parse_a _ attribute_text up_a attribute_ok (fun _ => True));
      [cbn; tauto|apply disc_a|shape|intros; apply run_a; auto|auto|auto|auto|exact L0|letters|notin|].
    clear i1. intros i1. rewrite fold_ma.
    assert (Em4 : media_a (m_attributes m4 ++ m_attributes m) m4 = m).
    { subst m4 m3 m2 m1 m0. destruct m as [a b c e f g h j k l]. cbn in *. subst. destruct g, l; reflexivity. }
    rewrite Em4, (IH fuel d0 (done ++ [m]) i1); auto.
    + now rewrite <- app_assoc.
    + cbn in Hf. lia.
Qed.

Lemma media_run0 : forall ms d i, m_medias d = [] -> Forall media_ok ms ->
  finish (andthen (Ok (end_check i d (at_line (flat_map media_text ms))))
                  (fun _ d c => repeat_m (S (length (ahead c))) d c)) = Ok (with_m ms d).
Proof.
  intros ms d i Hd Hm.
  pose proof (media_run ms (S (length (flat_map media_text ms))) d [] i) as H.
  replace (with_m [] d) with d in H by (destruct d; cbn in Hd; now subst).
  cbn [app] in H. rewrite <- H; auto.
  - destruct ms as [|m ms]; [reflexivity|].
    rewrite (end_check_go ["m"%char]); [reflexivity| |letters].
    cbn [flat_map]. destruct (media_shape m) as [r ->]. exists "m"%char. eexists. split; [reflexivity|now left].
  - rewrite <- (app_nil_r (flat_map media_text ms)). apply (flat_len _ media_text "m"). apply media_shape.
Qed.

Lemma second_t : forall ts d0 pre t rest cs K res i, Forall time_ok ts -> leads cs rest -> letters_ok cs ->
  ~ In "r"%char cs -> ~ In "t"%char cs ->
  (forall i, finish (andthen (Ok (end_check i (with_t (pre ++ t :: ts) d0) (at_line rest))) K) = res) ->
  finish (andthen (Ok (end_check i (with_t (pre ++ [t]) d0) (at_line (flat_map time_text ts ++ rest))))
    (fun _ d c => andthen (line_end parse_t d c) (fun _ d c => andthen (repeat_t (S (length (ahead c))) d c) K))) = res.
Proof.
  intros ts d0 pre t rest cs K res i Ht Hlead Hcs Hr Hnt HK.
  assert (E0 : mkTime (t_start t) (t_stop t) (t_repeats t ++ []) = t) by (rewrite app_nil_r; now destruct t).
  destruct ts as [|[a b rr] ts].
  - cbn [flat_map app]. destruct Hlead as [->|Hlead].
    + rewrite end_check_nil. specialize (HK true). rewrite end_check_nil in HK. exact HK.
    + rewrite (end_check_go cs) by auto. cbn [andthen res_bind]. unfold line_end at 1, line_step.
      rewrite (leads1_other cs rest "t" parse_t) by auto using disc_t. cbn [res_bind].
      rewrite (end_check_go cs) by auto. cbn [andthen res_bind].
      apply (times_run [] [] d0 pre t _ rest cs); auto.
      * cbn. lia.
      * now right.
      * destruct Hlead as (y & r & -> & _). discriminate.
      * intros j. rewrite E0. apply HK.
  - inversion Ht as [|? ? ((a' & Ea & Wa) & (b' & Eb & Wb) & Wr) Ht']; subst. cbn in Ea, Eb, Wr. subst a b.
    rewrite (end_check_go ["t"%char]); [| |letters].
    2: { cbn [flat_map]. exists "t"%char. eexists. split; [reflexivity|now left]. }
    cbn [andthen res_bind flat_map]. unfold time_text at 1. cbn [t_start t_stop val SdpModel.t_repeats].
    unfold line_end at 1, line_step. rewrite <- !app_assoc. rewrite run_t by auto. cbn [res_bind].
    cbn [t_descrs with_t].
    match goal with |- context [with_t ?x (with_t ?y ?d)] => change (with_t x (with_t y d)) with (with_t x d) end.
    destruct (flat_map (line "r") rr ++ flat_map time_text ts ++ rest) as [|y z] eqn:Et.
    + rewrite end_check_nil. cbn.
      assert (rr = [] /\ ts = [] /\ rest = []) as (-> & -> & ->).
      { destruct rr; [|discriminate Et]. destruct ts; [|discriminate Et]. auto. }
      specialize (HK true). rewrite end_check_nil in HK. cbn in HK. rewrite <- app_assoc. exact HK.
    + rewrite <- Et.
      assert (L : leads1 ("r"%char :: "t"%char :: cs) (flat_map (line "r") rr ++ flat_map time_text ts ++ rest)).
      { assert (L0 : leads ("r"%char :: "t"%char :: cs) (flat_map (line "r") rr ++ flat_map time_text ts ++ rest)).
        { apply leads_cons; [shape|]. apply leads_cons; [shape|]. auto. }
        destruct L0 as [L0|L0]; auto. rewrite L0 in Et. discriminate Et. }
      rewrite (end_check_go ("r"%char :: "t"%char :: cs)); auto.
      2: { intros x [<-|[<-|Hx]]; [cbn; tauto|cbn; tauto|auto]. }
      cbn [andthen res_bind]. eapply times_run; eauto.
      * cbn [ahead at_line]. rewrite app_length.
        assert (H := flat_len _ time_text "t" ltac:(shape) ts rest). lia.
      * rewrite Et. discriminate.
      * intros j. rewrite <- app_assoc. apply HK.
Qed.

Lemma required_some : forall (P : str -> Prop) x, x <> None -> optional P x -> exists s, x = Some s /\ P s.
Proof. intros P [s|] H Ho; [eauto|congruence]. Qed.

Theorem sdp_round : forall d, sdp_ok d -> sdp_parse sdp_init (sdp_text d) = Ok d.
Proof.
  intros d [(C1 & C2 & C3 & C4 & C5 & C6 & C7 & C8)
            (P1 & P2 & P3 & P4 & P5 & P6 & P7 & P8 & P9 & P10 & P11 & P12 & P13 & P14 & P15 & P16 & P17 & P18 & P19)].
  destruct d as [v o1 o2 o3 o4 o5 o6 s i u es ps c bs ts z k ats ms]. cbn in C1, C2, C3, C4, C5, C6, C7, C8.
  cbn in P1, P2, P3, P4, P5, P6, P7, P8, P9, P10, P11, P12, P13, P14, P15, P16, P17, P18, P19.
  destruct (required_some _ _ C1 P1) as (v' & -> & Wv). destruct (required_some _ _ C2 P2) as (o1' & -> & W1).
  destruct (required_some _ _ C3 P3) as (o2' & -> & W2). destruct (required_some _ _ C4 P4) as (o3' & -> & W3).
  destruct (required_some _ _ C5 P5) as (o4' & -> & W4). destruct (required_some _ _ C6 P6) as (o5' & -> & W5).
  destruct (required_some _ _ C7 P7) as (o6' & -> & W6).
  destruct ts as [|[t1 t2 rr] ts]; [congruence|]. inversion P15 as [|? ? ((a' & Ea & Wa) & (b' & Eb & Wb) & Wr) Pts]; subst.
  cbn in Ea, Eb, Wr. subst t1 t2.
  set (dfin := mkSdp _ _ _ _ _ _ _ _ _ _ _ _ _ _ _ _ _ _ _).
  unfold sdp_text. subst dfin.
  cbn [v_version s_name i_info u_uri e_emails p_phones c_connection SdpModel.b_bandwidths t_descrs z_adjustments k_key a_attributes m_medias].
  unfold origin_text. cbn [o_username o_sess_id o_sess_version o_nettype o_addrtype o_addr val].
  set (dfin := mkSdp _ _ _ _ _ _ _ _ _ _ _ _ _ _ _ _ _ _ _).
  cbn [flat_map]. unfold time_text at 1. cbn [val t_start t_stop SdpModel.t_repeats]. rewrite <- !app_assoc.
  rewrite !opt_line_text.
  pose proof (leads_media ms) as L0.
  assert (L1 := leads_cons "a" _ attribute_text ats _ _ ltac:(shape) L0).
  assert (L2 := leads_opt "k" _ key_text k _ _ ltac:(shape) L1).
  assert (L3 := leads_opt "z" _ (line "z") z _ _ ltac:(shape) L2).
  assert (L4 := leads_cons "t" _ time_text ts _ _ ltac:(shape) L3).
  assert (L5 := leads_cons "r" _ (line "r") rr _ _ ltac:(shape) L4).
  set (R := flat_map (line "r") rr ++ _) in *.
  assert (L6 : leads1 ["t"%char] (line "t" (a' ++ sp :: b') ++ R)).
  { exists "t"%char. eexists. split; [reflexivity|now left]. }
  assert (L7 := leads1_cons "b" _ bandwidth_text bs _ _ ltac:(shape) L6).
  assert (L8 := leads1_opt "c" _ connection_text c _ _ ltac:(shape) L7).
  assert (L9 := leads1_cons "p" _ (line "p") ps _ _ ltac:(shape) L8).
  assert (L10 := leads1_cons "e" _ (line "e") es _ _ ltac:(shape) L9).
  assert (L11 := leads1_opt "u" _ (line "u") u _ _ ltac:(shape) L10).
  assert (L12 := leads1_opt "i" _ (line "i") i _ _ ltac:(shape) L11).
  assert (L13 := leads1_opt "s" _ (line "s") s _ _ ltac:(shape) L12).
  unfold sdp_parse. change (res_bind ?a (fun r => match r with Return d => Ok d | Continue _ d _ => Ok d end))
    with (finish a).
  unfold must_line at 1. rewrite run_v by auto. cbn [andthen res_bind].
  unfold line_step at 1.
  rewrite (leads1_other ["o"%char] _ "s" parse_s); [|eexists; eexists; split; [reflexivity|now left]|letters|notin|apply disc_s].
  cbn [andthen res_bind]. unfold must_line at 1. rewrite run_o by auto. cbn [andthen res_bind].
  set (d1 := with_o _ _ _ _ _ _ _).
  assert (M1 : m_medias d1 = []) by reflexivity.
  eapply (step_opt "s" parse_s str (line "s") (fun x => with_s (Some x)) line_text (fun d => m_medias d = []));
    [apply disc_s|intros; apply run_s; auto|exact M1|auto|exact L12|letters|notin|].
  intros _. set (d2 := opt_up _ _ _ _). assert (M2 : m_medias d2 = []) by (subst d2; now destruct s).
  eapply (step_opt "i" parse_i str (line "i") up_i line_text (fun d => m_medias d = []));
    [apply disc_i|intros; apply run_i; auto|exact M2|auto|exact L11|letters|notin|].
  intros _. set (d3 := opt_up _ _ _ _). assert (M3 : m_medias d3 = []) by (subst d3; destruct i; auto; cbn [opt_up]; unfold up_i; rewrite on_session; auto).
  eapply (step_opt "u" parse_u str (line "u") (fun x => with_u (Some x)) line_text (fun d => m_medias d = []));
    [apply disc_u|intros; apply run_u; auto|exact M3|auto|exact L10|letters|notin|].
  intros _. set (d4 := opt_up _ _ _ _). assert (M4 : m_medias d4 = []) by (subst d4; destruct u; auto).
  eapply (loop_step "e" parse_e str (line "e") (fun x d => with_e (e_emails d ++ [x]) d) line_text (fun d => m_medias d = []));
    [apply disc_e|shape|intros; apply run_e; auto|intros; auto|exact M4|auto|exact L9|letters|notin|].
  intros _. rewrite fold_e. set (d5 := with_e _ _). assert (M5 : m_medias d5 = []) by auto.
  eapply (loop_step "p" parse_p str (line "p") (fun x d => with_p (p_phones d ++ [x]) d) line_text (fun d => m_medias d = []));
    [apply disc_p|shape|intros; apply run_p; auto|intros; auto|exact M5|auto|exact L8|letters|notin|].
  intros _. rewrite fold_p. set (d6 := with_p _ _). assert (M6 : m_medias d6 = []) by auto.
  eapply (step_opt "c" parse_c _ connection_text up_c connection_ok (fun d => m_medias d = []));
    [apply disc_c|intros; apply run_c; auto|exact M6|auto|exact L7|letters|notin|].
  intros _. set (d7 := opt_up _ _ _ _). assert (M7 : m_medias d7 = []) by (subst d7; destruct c; auto; cbn [opt_up]; unfold up_c; rewrite on_session; auto).
  eapply (loop_step "b" parse_b _ bandwidth_text up_b bandwidth_ok (fun d => m_medias d = []));
    [apply disc_b|shape|intros; apply run_b; auto|intros; unfold up_b; rewrite on_session; auto|exact M7|auto|exact L6|letters|notin|].
  intros _. rewrite fold_b by auto. set (d8 := with_b _ _). assert (M8 : m_medias d8 = []) by auto.
  unfold must_line at 1. rewrite run_t by auto. cbn [andthen res_bind].
  change (do f <- Ok (end_check true ?d ?c); match f with Return d => Ok (Return d) | Continue i d c => ?K i d c end)
    with (andthen (Ok (end_check true d c)) K).
  subst R.
  eapply (end_loop "r" parse_r str (line "r") up_r line_text (fun d => t_descrs d <> []));
    [cbn; tauto|apply disc_r|shape|intros; apply up_r_run; auto|intros; now apply up_r_inv
    |cbn [t_descrs with_t]; intros HH; apply app_eq_nil in HH; destruct HH as [_ HH]; discriminate HH|auto|exact L4|letters|notin|].
  intros j. rewrite fold_r. cbn [t_start t_stop SdpModel.t_repeats app].
  apply (second_t ts d8 (t_descrs d8) _ _ _ _ _ j Pts L3); [letters|notin|notin|].
  clear j. intros j. set (d9 := with_t _ _). assert (M9 : m_medias d9 = []) by auto.
  eapply (end_opt "z" parse_z str (line "z") (fun x => with_z (Some x)) line_text (fun d => m_medias d = []));
    [cbn; tauto|apply disc_z|shape|intros; apply run_z; auto|exact M9|auto|exact L2|letters|notin|].
  clear j. intros j. set (d10 := opt_up _ _ _ _). assert (M10 : m_medias d10 = []) by (subst d10; destruct z; auto).
  eapply (end_opt "k" parse_k _ key_text up_k key_ok (fun d => m_medias d = []));
    [cbn; tauto|apply disc_k|shape|intros; apply run_k; auto|exact M10|auto|exact L1|letters|notin|].
  clear j. intros j. set (d11 := opt_up _ _ _ _). assert (M11 : m_medias d11 = []) by (subst d11; destruct k; auto; cbn [opt_up]; unfold up_k; rewrite on_session; auto).
  eapply (end_loop "a" parse_a _ attribute_text up_a attribute_ok (fun d => m_medias d = []));
    [cbn; tauto|apply disc_a|shape|intros; apply run_a; auto|intros; unfold up_a; rewrite on_session; auto|exact M11|auto|exact L0|letters|notin|].
  clear j. intros j. rewrite fold_a by auto. rewrite media_run0 by auto.
  f_equal. subst d11 d10 d9 d8 d7 d6 d5 d4 d3 d2 d1 dfin. destruct s, i, u, c, z, k; reflexivity.
Qed.

(** Line folding (C42): each folded line break of the header part becomes blanks, and nothing else changes. *)
From Coq Require Import String ZArith NArith Ascii Bool List Lia ZifyBool ZifyNat.
From Verif Require Import Base Str StrLemmas Types MemModel MemLemmas CString CStringLemmas SafeLemmas PortModel UriModel HdrModel AuthModel MsgFields MsgModel MsgSafe.
Import ListNotations.
Open Scope Z_scope.

(** RFC 3261 7.3.1 and 25.1: a line break (CRLF, or a lone CR or LF) followed by white space
    continues the line; an empty line ends the headers. *)
Definition line_break (nl : str) : Prop := nl = [cr; lf] \/ nl = [cr] \/ nl = [lf].
Definition blank_line (s : str) : Prop := exists r, s = [cr; lf; cr; lf] ++ r \/ s = [cr; cr] ++ r \/ s = [lf; lf] ++ r.
Definition wsp (c : ascii) : Prop := c = sp \/ c = tab.
Definition fold_at (s : str) : Prop := exists nl w r, line_break nl /\ wsp w /\ s = nl ++ w :: r.
Definition blanks (n : nat) : str := repeat sp n.

(** [unfolded raw s]: [s] is [raw] with every fold before the empty line replaced by as many
    spaces.  Continuation lines are not empty. *)
Inductive unfolded : str -> str -> Prop :=
| uf_end : forall s, blank_line s -> unfolded s s
| uf_char : forall c s s', c <> NUL -> ~ fold_at (c :: s) -> ~ blank_line (c :: s) -> unfolded s s' -> unfolded (c :: s) (c :: s')
| uf_fold : forall nl w c s s', line_break nl -> w <> [] -> Forall wsp w -> ~ wsp c -> c <> cr -> c <> lf -> c <> NUL ->
    unfolded s s' -> unfolded (nl ++ w ++ c :: s) (blanks (length nl + length w) ++ c :: s').

Lemma wsp_iff : forall c, is_wsp c = true <-> wsp c.
Proof.
  intros c. unfold is_wsp, wsp, is_ch. rewrite orb_true_iff. rewrite !Ascii.eqb_eq. tauto.
Qed.
Lemma blank_out_run : forall w a c r fuel p, Forall wsp w -> ~ wsp c -> p = slen a -> (length w < fuel)%nat ->
  blank_out fuel (a ++ w ++ c :: r) p = Ok (a ++ blanks (length w) ++ c :: r, p + slen w).
Proof.
  induction w as [|x w IH]; intros a c r fuel p F N -> L; (destruct fuel as [|fuel]; [cbn in L; lia|]); cbn [blank_out app].
  - rewrite rd_at by reflexivity. cbn [res_bind]. replace (is_ch c tab || is_ch c sp) with false.
    + cbn [length blanks repeat app]. rewrite slen_nil, Z.add_0_r. reflexivity.
    + symmetry. apply not_true_is_false. intros H. apply N. apply wsp_iff. unfold is_wsp. rewrite orb_comm. exact H.
  - inversion F as [|? ? F1 F2]; subst. rewrite rd_at by reflexivity. cbn [res_bind].
    apply wsp_iff in F1. unfold is_wsp in F1. rewrite orb_comm in F1. rewrite F1. rewrite (wr_at a x) by reflexivity. cbn [res_bind].
    replace (a ++ sp :: w ++ c :: r) with ((a ++ [sp]) ++ w ++ c :: r) by (rewrite <- app_assoc; reflexivity).
    rewrite IH; [|exact F2|exact N|sl|cbn [length] in L; lia]. rewrite <- app_assoc. cbn [app length]. unfold blanks. cbn [repeat app]. f_equal. f_equal. sl.
Qed.

Definition nth4 (s : str) : Prop := exists a b c d r, s = a :: b :: c :: d :: r /\ a <> NUL /\ b <> NUL /\ c <> NUL /\ d <> NUL.
Lemma blank_line_head : forall s, blank_line s -> exists c r, s = c :: r /\ c <> NUL.
Proof. intros s (r & [->|[->| ->]]); cbn; eexists; eexists; (split; [reflexivity|discriminate]). Qed.
Lemma wsp_nul : forall c, wsp c -> c <> NUL. Proof. intros c [->| ->]; discriminate. Qed.
Lemma unfolded_head : forall s s', unfolded s s' -> exists c r, s = c :: r /\ c <> NUL.
Proof.
  intros s s' [s0 H|c s0 s0' H|nl w c s0 s0' H]; [apply blank_line_head, H|eauto|].
  destruct H as [->|[->| ->]]; cbn; eexists; eexists; (split; [reflexivity|discriminate]).
Qed.
Lemma unfolded_long : forall s s', unfolded s s' -> s = s' \/ nth4 s.
Proof.
  induction 1 as [s H|c s s' C H1 H2 H IH|nl w c s s' L W FW C1 C2 C3 C4 H IH]; [left; reflexivity| |].
  - destruct IH as [->|(a & b & d & e & r & -> & N)]; [left; reflexivity|right]. exists c, a, b, d, (e :: r). split; [reflexivity|]. tauto.
  - right. destruct (unfolded_head _ _ H) as (h & r & -> & NH). destruct w as [|x w]; [congruence|]. inversion FW as [|? ? X FW']; subst. apply wsp_nul in X.
    assert (Forall (fun c => c <> NUL) w) as FN by (eapply Forall_impl; [|exact FW']; apply wsp_nul).
    destruct L as [->|[->| ->]]; cbn [app].
    + exists cr, lf, x. destruct w as [|y w]; cbn [app]; eexists; eexists; (split; [reflexivity|]); repeat split; try discriminate; try assumption. inversion FN; assumption.
    + exists cr, x. destruct w as [|y [|z w]]; cbn [app]; eexists; eexists; eexists; (split; [reflexivity|]); repeat split; try discriminate; try assumption; try (inversion FN; assumption).
      inversion FN as [|? ? ? FN']; inversion FN'; assumption.
    + exists lf, x. destruct w as [|y [|z w]]; cbn [app]; eexists; eexists; eexists; (split; [reflexivity|]); repeat split; try discriminate; try assumption; try (inversion FN; assumption).
      inversion FN as [|? ? ? FN']; inversion FN'; assumption.
Qed.

(** The two tests of the loop, on the four characters *)
Definition stop4 (c0 c1 c2 c3 : ascii) : bool :=
  is_ch c0 cr && is_ch c1 lf && is_ch c2 cr && is_ch c3 lf || is_ch c0 cr && is_ch c1 cr || is_ch c0 lf && is_ch c1 lf.
Definition fold3 (c0 c1 c2 : ascii) : bool :=
  is_ch c0 cr && is_ch c1 lf && is_wsp c2 || is_ch c0 cr && is_wsp c1 || is_ch c0 lf && is_wsp c1.
Lemma stop4_iff : forall c0 c1 c2 c3 r, stop4 c0 c1 c2 c3 = true <-> blank_line (c0 :: c1 :: c2 :: c3 :: r).
Proof.
  intros. unfold stop4, is_ch. rewrite !orb_true_iff, !andb_true_iff, !Ascii.eqb_eq. unfold blank_line. split.
  - intros [[[[[-> ->] ->] ->]|[-> ->]]|[-> ->]]; [exists r|exists (c2 :: c3 :: r)|exists (c2 :: c3 :: r)]; cbn; auto.
  - intros (k & [H|[H|H]]); cbn in H; inversion H; subst; tauto.
Qed.
Lemma fold3_iff : forall c0 c1 c2 r, fold3 c0 c1 c2 = true <-> fold_at (c0 :: c1 :: c2 :: r).
Proof.
  intros. unfold fold3, is_ch. rewrite !orb_true_iff, !andb_true_iff, !Ascii.eqb_eq, !wsp_iff. unfold fold_at, line_break. split.
  - intros [[[[-> ->] H]|[-> H]]|[-> H]].
    + exists [cr; lf], c2, r. auto. + exists [cr], c1, (c2 :: r). auto. + exists [lf], c1, (c2 :: r). auto.
  - intros (nl & w & k & [->|[->| ->]] & W & H); cbn in H; inversion H; subst; tauto.
Qed.

Lemma rd_next : forall a p x y i, p = slen a -> i = slen x -> rd (a ++ x ++ y) (p + i) = match y with [] => UB | c :: _ => Ok c end.
Proof.
  intros a p x y i -> ->. rewrite app_assoc. destruct y as [|c y].
  - unfold rd. replace (slen a + slen x <? 0) with false by sl.
    replace (nth_error ((a ++ x) ++ []) (Z.to_nat (slen a + slen x))) with (@None ascii); [reflexivity|].
    symmetry. apply nth_error_None. rewrite app_nil_r, app_length. unfold slen. lia.
  - apply rd_at. rewrite len_app. reflexivity.
Qed.

Lemma lws_steps : forall fuel a c0 c1 c2 c3 r p, p = slen a -> c0 <> NUL -> c1 <> NUL -> c2 <> NUL -> c3 <> NUL ->
  lws_loop (S fuel) (a ++ c0 :: c1 :: c2 :: c3 :: r) p =
    (let b := a ++ c0 :: c1 :: c2 :: c3 :: r in
     if stop4 c0 c1 c2 c3 then Ok b else
     if fold3 c0 c1 c2 then
      do b1 <- wr b p sp ; do b2 <- wr b1 (p + 1) sp ; do r <- blank_out (S (length b)) b2 (p + 2) ;
      let (b3, q) := r in lws_loop fuel b3 (q + 1)
     else lws_loop fuel b (p + 1)).
Proof.
  intros fuel a c0 c1 c2 c3 r p -> N0 N1 N2 N3. cbn [lws_loop].
  rewrite rd_at by reflexivity. cbn [res_bind].
  rewrite (rd_next a _ [c0] (c1 :: c2 :: c3 :: r)) by reflexivity. cbn [res_bind].
  rewrite (rd_next a _ [c0; c1] (c2 :: c3 :: r)) by reflexivity. cbn [res_bind].
  rewrite (rd_next a _ [c0; c1; c2] (c3 :: r)) by reflexivity. cbn [res_bind].
  unfold is_ch at 1 2 3 4. rewrite (proj2 (Ascii.eqb_neq c0 NUL) N0), (proj2 (Ascii.eqb_neq c1 NUL) N1), (proj2 (Ascii.eqb_neq c2 NUL) N2), (proj2 (Ascii.eqb_neq c3 NUL) N3).
  reflexivity.
Qed.

(** Near the end, or when one of the four characters is a NUL, nothing is changed *)
Lemma lws_short : forall fuel a s t p, p = slen a -> ~ nth4 s -> cstr s \/ t = [] ->
  In NUL (firstn 4 (s ++ [NUL] ++ t)) -> lws_loop (S fuel) (a ++ s ++ [NUL] ++ t) p = Ok (a ++ s ++ [NUL] ++ t).
Proof.
  intros fuel a s t p -> _ _ H. cbn [lws_loop].
  set (y := s ++ [NUL] ++ t) in *. destruct y as [|c0 [|c1 [|c2 [|c3 r]]]] eqn:Y; cbn [firstn In] in H.
  - contradiction.
  - rewrite rd_at by reflexivity. cbn [res_bind]. destruct H as [->|[]]. reflexivity.
  - rewrite rd_at by reflexivity. cbn [res_bind]. destruct (is_ch c0 NUL) eqn:E0; [reflexivity|].
    rewrite (rd_next a _ [c0] [c1]) by reflexivity. cbn [res_bind]. destruct H as [->|[->|[]]]; [discriminate|reflexivity].
  - rewrite rd_at by reflexivity. cbn [res_bind]. destruct (is_ch c0 NUL) eqn:E0; [reflexivity|].
    rewrite (rd_next a _ [c0] [c1; c2]) by reflexivity. cbn [res_bind]. destruct (is_ch c1 NUL) eqn:E1; [reflexivity|].
    rewrite (rd_next a _ [c0; c1] [c2]) by reflexivity. cbn [res_bind]. destruct H as [->|[->|[->|[]]]]; [discriminate|discriminate|reflexivity].
  - rewrite rd_at by reflexivity. cbn [res_bind]. destruct (is_ch c0 NUL) eqn:E0; [reflexivity|].
    rewrite (rd_next a _ [c0] (c1 :: c2 :: c3 :: r)) by reflexivity. cbn [res_bind]. destruct (is_ch c1 NUL) eqn:E1; [reflexivity|].
    rewrite (rd_next a _ [c0; c1] (c2 :: c3 :: r)) by reflexivity. cbn [res_bind]. destruct (is_ch c2 NUL) eqn:E2; [reflexivity|].
    rewrite (rd_next a _ [c0; c1; c2] (c3 :: r)) by reflexivity. cbn [res_bind]. destruct H as [->|[->|[->|[->|[]]]]]; [discriminate|discriminate|discriminate|reflexivity].
Qed.

Lemma lws_unfolded : forall s s', unfolded s s' -> forall a p fuel, p = slen a -> (length s < fuel)%nat ->
  lws_loop fuel (a ++ s ++ [NUL]) p = Ok (a ++ s' ++ [NUL]).
Proof.
  assert (forall y, In NUL (firstn 4 y) \/ nth4 y \/ (length y < 4)%nat) as CASES.
  { intros [|a [|b [|c [|d r]]]]; try (right; right; cbn; lia). cbn [firstn In].
    destruct (Ascii.ascii_dec a NUL); [left; auto|]. destruct (Ascii.ascii_dec b NUL); [left; auto|].
    destruct (Ascii.ascii_dec c NUL); [left; auto|]. destruct (Ascii.ascii_dec d NUL); [left; tauto|].
    right. left. exists a, b, c, d, r. tauto. }
  assert (forall fuel a s, In NUL (firstn 4 (s ++ [NUL])) -> lws_loop (S fuel) (a ++ s ++ [NUL]) (slen a) = Ok (a ++ s ++ [NUL])) as SH.
  { intros fuel a s H. apply (lws_short fuel a s [] (slen a)); auto. intros X. destruct X as (c0 & c1 & c2 & c3 & r & -> & X). cbn in H. tauto. }
  assert (forall s, (length (s ++ [NUL]) < 4)%nat -> In NUL (firstn 4 (s ++ [NUL]))) as SL.
  { intros s H. rewrite firstn_all2 by lia. apply in_or_app. right. left. reflexivity. }
  induction 1 as [s H|c s s' C H1 H2 H IH|nl w c s s' L W FW C1 C2 C3 C4 H IH]; intros a p fuel -> F; (destruct fuel as [|fuel]; [lia|]).
  - destruct (CASES (s ++ [NUL])) as [K|[K|K]]; [apply SH, K| |apply SH, SL, K].
    destruct K as (c0 & c1 & c2 & c3 & r & E & N0 & N1 & N2 & N3). rewrite E. rewrite lws_steps by auto. cbv zeta.
    replace (stop4 c0 c1 c2 c3) with true; [reflexivity|]. symmetry. apply (stop4_iff c0 c1 c2 c3 r). rewrite <- E.
    destruct H as (k & [->|[->| ->]]); exists (k ++ [NUL]); auto.
  - destruct (CASES ((c :: s) ++ [NUL])) as [K|[K|K]].
    + destruct (unfolded_long _ _ (uf_char c s s' C H1 H2 H)) as [<-|K2]; [apply SH, K|]. exfalso.
      destruct K2 as (c0 & c1 & c2 & c3 & r & E & N). rewrite E in K. cbn in K. tauto.
    + destruct K as (c0 & c1 & c2 & c3 & r & E & N0 & N1 & N2 & N3). rewrite E. rewrite lws_steps by auto. cbv zeta.
      cbn [app] in E. inversion E; subst c0.
      replace (stop4 c c1 c2 c3) with false.
      2: { symmetry. apply not_true_is_false. intros X. apply H2. unfold blank_line.
           destruct s as [|s0 [|s1 [|s2 s]]]; cbn [app] in H4; inversion H4; subst; try congruence.
           apply (stop4_iff c c1 c2 c3 s) in X. exact X. }
      replace (fold3 c c1 c2) with false.
      2: { symmetry. apply not_true_is_false. intros X. apply H1.
           destruct s as [|s0 [|s1 s]]; cbn [app] in H4; inversion H4; subst; try congruence.
           apply (fold3_iff c c1 c2 s). exact X. }
      replace (a ++ c :: s ++ [NUL]) with ((a ++ [c]) ++ s ++ [NUL]) by (rewrite <- app_assoc; reflexivity).
      rewrite IH; [rewrite <- app_assoc; reflexivity|sl|cbn [length] in F; lia].
    + destruct (unfolded_long _ _ (uf_char c s s' C H1 H2 H)) as [<-|K2]; [apply SH, SL, K|]. exfalso.
      destruct K2 as (c0 & c1 & c2 & c3 & r & E & N). rewrite E in K. cbn in K. lia.
  - pose proof (uf_fold nl w c s s' L W FW C1 C2 C3 C4 H) as U. destruct (unfolded_long _ _ U) as [E|K].
    { exfalso. destruct L as [->|[->| ->]]; discriminate. }
    destruct K as (c0 & c1 & c2 & c3 & r & E & N0 & N1 & N2 & N3).
    replace (a ++ (nl ++ w ++ c :: s) ++ [NUL]) with (a ++ c0 :: c1 :: c2 :: c3 :: r ++ [NUL]) by (rewrite E; reflexivity).
    rewrite lws_steps by auto. cbv zeta.
    assert (fold_at (c0 :: c1 :: c2 :: c3 :: r)) as FA.
    { rewrite <- E. destruct w as [|x w]; [congruence|]. inversion FW; subst. exists nl, x, (w ++ c :: s). auto. }
    assert (~ blank_line (c0 :: c1 :: c2 :: c3 :: r)) as NB.
    { rewrite <- E. destruct w as [|x w]; [congruence|]. inversion FW as [|? ? X FW']; subst.
      intros (k & B). destruct L as [->|[->| ->]]; cbn [app] in B;
        destruct B as [B|[B|B]]; inversion B; subst; destruct X; discriminate. }
    replace (stop4 c0 c1 c2 c3) with false by (symmetry; apply not_true_is_false; intros X; apply NB, (stop4_iff c0 c1 c2 c3 r), X).
    apply fold3_iff in FA. rewrite FA.
    replace (a ++ c0 :: c1 :: c2 :: c3 :: r ++ [NUL]) with (a ++ (nl ++ w ++ c :: s) ++ [NUL]) by (rewrite E; reflexivity).
    assert (forall n1 n2 y, wr (a ++ n1 :: n2 :: y) (slen a) sp = Ok (a ++ sp :: n2 :: y) /\
        wr (a ++ sp :: n2 :: y) (slen a + 1) sp = Ok (a ++ sp :: sp :: y)) as WR.
    { intros n1 n2 y. split; [apply wr_at; reflexivity|]. change (sp :: n2 :: y) with ([sp] ++ n2 :: y). rewrite app_assoc.
      rewrite wr_at; [rewrite <- app_assoc; reflexivity|rewrite len_app; reflexivity]. }
    assert (forall ww y, Forall wsp ww -> y = (a ++ [sp; sp]) ++ ww ++ c :: s ++ [NUL] -> (length ww < S (length (a ++ (nl ++ w ++ c :: s) ++ [NUL])))%nat ->
       (length ww + 2 = length nl + length w)%nat ->
       (do r0 <- blank_out (S (length (a ++ (nl ++ w ++ c :: s) ++ [NUL]))) y (slen a + 2); let (b3, q) := r0 in lws_loop fuel b3 (q + 1))
       = Ok (a ++ (blanks (length nl + length w) ++ c :: s') ++ [NUL])) as FIN.
    { intros ww y FWW -> LW LEN. rewrite blank_out_run; [|exact FWW|exact C1|sl|exact LW]. cbn [res_bind].
      replace ((a ++ [sp; sp]) ++ blanks (length ww) ++ c :: s ++ [NUL]) with ((a ++ blanks (length ww + 2) ++ [c]) ++ s ++ [NUL])
        by (rewrite Nat.add_comm; unfold blanks; cbn [repeat plus]; rewrite <- !app_assoc; reflexivity).
      rewrite IH.
      - rewrite LEN. rewrite <- !app_assoc. reflexivity.
      - unfold blanks. rewrite !slen_app. unfold slen at 4. rewrite repeat_length. unfold slen. cbn [length]. lia.
      - rewrite !app_length in F. cbn [length] in F. destruct L as [->|[->| ->]]; cbn [length] in F; lia. }
    destruct L as [->|[->| ->]]; cbn [app].
    + destruct (WR cr lf ((w ++ c :: s) ++ [NUL])) as [-> W2]. cbn [res_bind]. rewrite W2. cbn [res_bind].
      apply (FIN w); [exact FW| | |reflexivity || (cbn [length]; lia)].
      * rewrite <- !app_assoc. reflexivity.
      * rewrite !app_length. cbn [length]. lia.
    + destruct w as [|x w]; [congruence|]. inversion FW as [|? ? X FW']; subst. cbn [app].
      destruct (WR cr x ((w ++ c :: s) ++ [NUL])) as [-> W2]. cbn [res_bind]. rewrite W2. cbn [res_bind].
      apply (FIN w); [exact FW'| | |].
      * rewrite <- !app_assoc. reflexivity.
      * rewrite !app_length. cbn [length]. lia.
      * cbn [length]. lia.
    + destruct w as [|x w]; [congruence|]. inversion FW as [|? ? X FW']; subst. cbn [app].
      destruct (WR lf x ((w ++ c :: s) ++ [NUL])) as [-> W2]. cbn [res_bind]. rewrite W2. cbn [res_bind].
      apply (FIN w); [exact FW'| | |].
      * rewrite <- !app_assoc. reflexivity.
      * rewrite !app_length. cbn [length]. lia.
      * cbn [length]. lia.
Qed.

(** The received message [skip ++ raw] (leading line breaks skipped) is rewritten to its unfolding;
    everything from the empty line on, body included, is untouched. *)
Theorem C42_unfold_partial : forall skip raw s, unfolded raw s ->
  replace_all_lws (skip ++ raw ++ [NUL]) (slen skip) = Ok (skip ++ s ++ [NUL]).
Proof. intros skip raw s U. apply lws_unfolded; [exact U|reflexivity|]. rewrite !app_length. cbn [length]. lia. Qed.
Print Assumptions C42_unfold_partial.

Lemma unfolded_length : forall s s', unfolded s s' -> length s = length s'.
Proof.
  induction 1 as [s H|c s s' C H1 H2 H IH|nl w c s s' L W FW C1 C2 C3 C4 H IH]; [reflexivity|cbn [length]; lia|].
  rewrite !app_length. cbn [length]. unfold blanks. rewrite repeat_length. lia.
Qed.

Lemma skip_eols_run : forall k a c r fuel p, Forall (fun x => x = cr \/ x = lf) k -> is_eol c = false -> p = slen a -> (length k < fuel)%nat ->
  skip_eols fuel (a ++ k ++ c :: r) p = Ok (p + slen k).
Proof.
  induction k as [|x k IH]; intros a c r fuel p F N -> L; (destruct fuel as [|fuel]; [cbn in L; lia|]); cbn [skip_eols app].
  - rewrite rd_at by reflexivity. cbn [res_bind]. rewrite N. rewrite slen_nil. f_equal. lia.
  - inversion F as [|? ? F1 F2]; subst. rewrite rd_at by reflexivity. cbn [res_bind]. replace (is_eol x) with true by (destruct F1; subst; reflexivity).
    replace (a ++ x :: k ++ c :: r) with ((a ++ [x]) ++ k ++ c :: r) by (rewrite <- app_assoc; reflexivity).
    rewrite IH; [f_equal; sl|exact F2|exact N|sl|cbn [length] in L; lia].
Qed.

(** A message with folded header lines is parsed as the message with the folds replaced by spaces. *)
Theorem C42_message_partial : forall skip c raw s, Forall (fun x => x = cr \/ x = lf) skip -> c <> cr -> c <> lf ->
  unfolded (c :: raw) (c :: s) -> unfolded (c :: s) (c :: s) ->
  message_parse (skip ++ c :: raw) = message_parse (skip ++ c :: s).
Proof.
  intros skip c raw s F C1 C2 U U'. rewrite !message_parse_eq. unfold parse_head, parse_tail.
  assert (is_eol c = false) as N by (unfold is_eol, is_ch; rewrite (proj2 (Ascii.eqb_neq c cr) C1), (proj2 (Ascii.eqb_neq c lf) C2); reflexivity).
  pose proof (unfolded_length _ _ U) as L. cbn [length] in L.
  assert (forall x, skip_eols (S (length ((skip ++ c :: x) ++ [NUL]))) ((skip ++ c :: x) ++ [NUL]) 0 = Ok (slen skip)) as SK.
  { intros x. replace ((skip ++ c :: x) ++ [NUL]) with ([] ++ skip ++ c :: x ++ [NUL]) at 2 by (rewrite <- app_assoc; reflexivity).
    rewrite skip_eols_run; [f_equal; lia|exact F|exact N|reflexivity|]. rewrite !app_length. lia. }
  rewrite !SK. cbn [res_bind]. rewrite <- !app_assoc. rewrite !(C42_unfold_partial _ _ _ U), !(C42_unfold_partial _ _ _ U'). cbn [res_bind].
  replace (slen (skip ++ c :: raw)) with (slen (skip ++ c :: s)) by (unfold slen; rewrite !app_length; cbn [length]; lia). reflexivity.
Qed.
Print Assumptions C42_message_partial.

Lemma uf_plain : forall t s s', forallb (fun c => negb (is_eol c || is_ch c NUL)) t = true -> unfolded s s' -> unfolded (t ++ s) (t ++ s').
Proof.
  induction t as [|c t IH]; intros s s' H U; [exact U|]. cbn [forallb] in H. apply andb_prop in H. destruct H as [H1 H2]. cbn [app].
  assert (c <> cr /\ c <> lf /\ c <> NUL) as (A & B & D) by (repeat split; intros ->; discriminate).
  apply uf_char; [exact D| | |apply IH; assumption].
  - intros (nl & w & r & [->|[->| ->]] & _ & E); cbn [app] in E; inversion E; congruence.
  - intros (r & [E|[E|E]]); cbn [app] in E; inversion E; congruence.
Qed.
Lemma uf_line : forall c s s', is_wsp c = false -> c <> cr -> c <> lf -> c <> NUL -> unfolded (c :: s) (c :: s') ->
  unfolded (cr :: lf :: c :: s) (cr :: lf :: c :: s').
Proof.
  intros c s s' W A B D U.
  assert (~ wsp c) as W' by (intros X; apply wsp_iff in X; congruence).
  apply uf_char; [discriminate| | |apply uf_char; [discriminate| | |exact U]].
  - intros (nl & w & r & [->|[->| ->]] & X & E); cbn [app] in E; inversion E; subst; try contradiction. destruct X; discriminate.
  - intros (r & [E|[E|E]]); cbn [app] in E; inversion E; congruence.
  - intros (nl & w & r & [->|[->| ->]] & X & E); cbn [app] in E; inversion E; subst; contradiction.
  - intros (r & [E|[E|E]]); cbn [app] in E; inversion E; congruence.
Qed.

Example C42_example :
  unfolded ($"A: b" ++ [cr; lf; tab] ++ $" c" ++ [cr; lf; cr; lf] ++ $"body" ++ [cr; lf] ++ $" x")
           ($"A: b" ++ [sp; sp; sp] ++ $" c" ++ [cr; lf; cr; lf] ++ $"body" ++ [cr; lf] ++ $" x").
Proof.
  apply uf_plain; [reflexivity|].
  apply (uf_fold [cr; lf] [tab; sp] "c"%char); [left; reflexivity|discriminate|repeat constructor; (left; reflexivity) || (right; reflexivity)| | | | |].
  - intros [E|E]; discriminate.
  - discriminate.
  - discriminate.
  - discriminate.
  - apply uf_end. eexists. left. reflexivity.
Qed.

(** A continuation line made of white space only hides the empty line after it: the body is
    rewritten (here its line break and blank, byte 12 on, become spaces). *)
Theorem C42_blank_continuation_refuted :
  let body := $"x" ++ [cr; lf] ++ $" y" in
  replace_all_lws (($"a: b" ++ [cr; lf; sp] ++ [cr; lf; cr; lf] ++ body) ++ [NUL]) 0
  = Ok (($"a: b" ++ [sp; sp; sp] ++ [cr; lf; cr; lf] ++ $"x   y") ++ [NUL]).
Proof. vm_compute. reflexivity. Qed.
Print Assumptions C42_blank_continuation_refuted.

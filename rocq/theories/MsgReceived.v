(** The body of a message, in terms of the bytes received (C45): the lines of the head, the empty line, the rest. *)
From Coq Require Import String ZArith NArith Ascii Bool List Lia ZifyBool ZifyNat.
From Verif Require Import Base Str StrLemmas Types MemModel MemLemmas CString CStringLemmas SafeLemmas PortModel PortProps UriModel UriRound HdrModel MsgFields MsgModel MsgProps MsgSafe MsgFold MsgBody MsgPrint MsgStart MsgRound.
Import ListNotations.
Open Scope Z_scope.

(** *** Specification *)
(** a line of the head: no line break or NUL inside, and something to see on it *)
Definition text_line (l : str) : Prop := without [cr; lf; NUL] l /\ exists c, In c l /\ ~ wsp c.
Definition lines_text (lines : list str) : str := flat_map (fun l => l ++ CRLF) lines.
(** the start line has two spaces with something between them *)
Definition start_words (l : str) : Prop := exists a b c, l = a ++ sp :: b ++ sp :: c /\ ~ In sp a /\ b <> [] /\ ~ In sp b.
(** a received message: lines ended by CR LF, an empty line, the rest *)
Definition received (l0 : str) (lines : list str) (tail : list ascii) : list ascii := lines_text (l0 :: lines) ++ CRLF ++ tail.

(** *** The unfolded head *)
Definition plain_line (l : str) : Prop := l <> [] /\ without [cr; lf; NUL] l.
Lemma without_app : forall cs a b, without cs a -> without cs b -> without cs (a ++ b).
Proof. intros cs a b A B c I J. apply in_app_or in J. destruct J as [J|J]; [exact (A c I J)|exact (B c I J)]. Qed.
Lemma without_part : forall cs a b, without cs (a ++ b) -> without cs a /\ without cs b.
Proof. intros cs a b W. split; intros c I J; apply (W c I), in_or_app; [left|right]; exact J. Qed.
Lemma blanks_without : forall n, without [cr; lf; NUL] (blanks n).
Proof. intros n c I J. unfold blanks in J. apply repeat_spec in J. subst c. cbn in I. destruct I as [I|[I|[I|[]]]]; discriminate. Qed.
Lemma wsp_dec : forall c, wsp c \/ ~ wsp c.
Proof. intros c. destruct (is_wsp c) eqn:E; [left; apply wsp_iff, E|right; intros H; apply wsp_iff in H; congruence]. Qed.
Lemma split_blanks : forall l : str, (exists c, In c l /\ ~ wsp c) -> exists w c d, l = w ++ c :: d /\ Forall wsp w /\ ~ wsp c.
Proof.
  induction l as [|x l IH]; intros (c & I & N); [destruct I|]. destruct (wsp_dec x) as [W|W].
  - destruct IH as (w & c' & d & -> & F & N'); [destruct I as [->|I]; [contradiction|eauto]|]. exists (x :: w), c', d. split; [reflexivity|]. split; [constructor; assumption|exact N'].
  - exists [], x, l. split; [reflexivity|]. split; [constructor|exact W].
Qed.
Lemma lines_unfolded : forall tail lines, Forall text_line lines -> exists l' lines',
  unfolded (CRLF ++ lines_text lines ++ CRLF ++ tail) (l' ++ CRLF ++ lines_text lines' ++ CRLF ++ tail) /\
  without [cr; lf; NUL] l' /\ Forall plain_line lines'.
Proof.
  intros tail. induction lines as [|l lines IH]; intros F.
  - exists [], []. split; [apply uf_end; eexists; left; reflexivity|]. split; [intros c _ []|constructor].
  - inversion F as [|? ? (W & V) F']; subst. destruct (IH F') as (l' & lines' & U & W' & P').
    destruct (split_blanks l V) as (w & c & d & -> & FW & NC).
    destruct (without_part _ _ _ W) as [_ Wcd]. assert (without [cr; lf; NUL] d) as Wd by (intros x I J; apply (Wcd x I); right; exact J).
    assert (c <> cr /\ c <> lf /\ c <> NUL) as (C1 & C2 & C3) by (assert (forall x, In x [cr; lf; NUL] -> c <> x) as Q by (intros x I ->; exact (Wcd x I (or_introl eq_refl))); split; [apply Q; cbn; tauto|split; apply Q; cbn; tauto]).
    assert (unfolded (d ++ CRLF ++ lines_text lines ++ CRLF ++ tail) (d ++ l' ++ CRLF ++ lines_text lines' ++ CRLF ++ tail)) as U1 by (apply uf_plain; [apply plain_forallb, Wd|exact U]).
    cbn [lines_text flat_map]. fold (lines_text lines).
    destruct w as [|w0 w].
    + exists [], ((c :: d ++ l') :: lines'). cbn [app lines_text flat_map]. fold (lines_text lines'). split.
      * replace ((d ++ CRLF) ++ lines_text lines) with (d ++ CRLF ++ lines_text lines) by cat.
        replace (CRLF ++ c :: (d ++ CRLF ++ lines_text lines) ++ CRLF ++ tail) with (cr :: lf :: c :: d ++ CRLF ++ lines_text lines ++ CRLF ++ tail) by (cbn [app CRLF]; cat).
        replace (CRLF ++ c :: (((d ++ l') ++ CRLF) ++ lines_text lines') ++ CRLF ++ tail) with (cr :: lf :: c :: d ++ l' ++ CRLF ++ lines_text lines' ++ CRLF ++ tail) by (cbn [app CRLF]; cat).
        apply uf_line; [destruct (is_wsp c) eqn:E; [apply wsp_iff in E; contradiction|reflexivity]|exact C1|exact C2|exact C3|].
        apply (uf_plain [c]); [|exact U1]. cbn [forallb]. unfold is_eol, is_ch. rewrite (proj2 (Ascii.eqb_neq c cr)), (proj2 (Ascii.eqb_neq c lf)), (proj2 (Ascii.eqb_neq c NUL)) by assumption. reflexivity.
      * split; [intros x _ []|]. constructor; [|exact P']. split; [discriminate|]. apply (without_app _ [c] (d ++ l')); [intros x I [<-|[]]; exact (Wcd c I (or_introl eq_refl))|apply without_app; assumption].
    + exists (blanks (length CRLF + length (w0 :: w)) ++ c :: d ++ l'), lines'. split; [|split; [|exact P']].
      * replace (CRLF ++ (((w0 :: w) ++ c :: d) ++ CRLF) ++ lines_text lines) with (CRLF ++ (w0 :: w) ++ c :: d ++ CRLF ++ lines_text lines) by cat.
        replace ((((w0 :: w) ++ c :: d) ++ CRLF) ++ lines_text lines) with ((w0 :: w) ++ c :: d ++ CRLF ++ lines_text lines) by cat.
        replace (CRLF ++ ((w0 :: w) ++ c :: d ++ CRLF ++ lines_text lines) ++ CRLF ++ tail) with (CRLF ++ (w0 :: w) ++ c :: (d ++ CRLF ++ lines_text lines ++ CRLF ++ tail)) by cat.
        replace ((blanks (length CRLF + length (w0 :: w)) ++ c :: d ++ l') ++ CRLF ++ lines_text lines' ++ CRLF ++ tail)
          with (blanks (length CRLF + length (w0 :: w)) ++ c :: (d ++ l' ++ CRLF ++ lines_text lines' ++ CRLF ++ tail)) by cat.
        apply uf_fold; [left; reflexivity|discriminate|exact FW|exact NC|exact C1|exact C2|exact C3|exact U1].
      * apply without_app; [apply blanks_without|]. apply (without_app _ [c] (d ++ l')); [intros x I [<-|[]]; exact (Wcd c I (or_introl eq_refl))|apply without_app; assumption].
Qed.

(** *** Where the headers end *)
Lemma next_crlf_line : forall s pre l y, s = pre ++ l ++ CRLF ++ y -> without [cr; lf; NUL] l ->
  next_crlf s (slen pre) = Ok Folded \/ next_crlf s (slen pre) = Ok (Found (slen pre + slen l + 2)).
Proof.
  intros s pre l y E W. unfold next_crlf.
  rewrite (scan_fwd_to is_eol l pre cr (lf :: y) s); [|exact E|intros d I; apply (not_eol l); [eapply without_incl; [exact W|intros x; cbn; tauto]|exact I]|reflexivity|rewrite E, !app_length; lia|rewrite E; pose proof (slen_nonneg _ y); sln|reflexivity].
  cbn [res_bind]. replace (slen pre + slen l =? slen s) with false by (rewrite E; pose proof (slen_nonneg _ y); sln).
  rewrite (ch_at s (pre ++ l) cr (lf :: y)); [|rewrite E; cat|sln]. cbn [res_bind].
  rewrite (ch_at s (pre ++ l ++ [cr]) lf y); [|rewrite E; cat|sln]. cbn [res_bind]. change (is_ch cr cr && is_ch lf lf) with true. cbv iota zeta.
  destruct (ch s (slen pre + slen l + 1 + 1)) as [d| |] eqn:D.
  - cbn [res_bind]. destruct (is_ch d sp || is_ch d tab); [left; reflexivity|right; f_equal; f_equal; lia].
  - exfalso. unfold ch in D. destruct (in_range s _); discriminate.
  - exfalso. unfold ch, in_range in D. rewrite E in D. replace (0 <=? slen pre + slen l + 1 + 1) with true in D by (pose proof (slen_nonneg _ pre); pose proof (slen_nonneg _ l); lia).
    replace (slen pre + slen l + 1 + 1 <=? slen (pre ++ l ++ CRLF ++ y)) with true in D by (pose proof (slen_nonneg _ y); sln). discriminate.
Qed.
Lemma headers_end : forall fuel s body m m' k pre lines rest, s = pre ++ lines_text lines ++ CRLF ++ rest -> Forall plain_line lines ->
  headers_loop fuel s (slen pre) body m = Ok (m', k) -> k = slen (pre ++ lines_text lines).
Proof.
  induction fuel as [|fuel IH]; intros s body m m' k pre lines rest E F H; [discriminate|]. cbn [headers_loop] in H.
  destruct lines as [|l lines].
  - cbn [lines_text flat_map app] in *. rewrite (ch_at s pre cr (lf :: rest)) in H by (auto; rewrite E; reflexivity). cbn [res_bind] in H. change (is_ch cr NUL) with false in H. change (is_eol cr) with true in H. cbv iota in H.
    destruct (next_crlf s (slen pre)) as [[e| |]| |]; cbn [res_bind] in H; inversion H; subst; rewrite app_nil_r; reflexivity.
  - inversion F as [|? ? (N & W) F']; subst x l0. cbn [lines_text flat_map] in E |- *. fold (lines_text lines) in E |- *. destruct l as [|c l]; [congruence|].
    assert (is_eol c = false) as NE by (apply (not_eol (c :: l)); [eapply without_incl; [exact W|intros x; cbn; tauto]|left; reflexivity]).
    assert (is_ch c NUL = false) as NN by (unfold is_ch; apply Ascii.eqb_neq; intros ->; exact (W NUL ltac:(cbn; tauto) (or_introl eq_refl))).
    rewrite (ch_at s pre c (l ++ CRLF ++ lines_text lines ++ CRLF ++ rest)) in H by (auto; rewrite E; cat). cbn [res_bind] in H. rewrite NN, NE in H.
    destruct (next_crlf_line s pre (c :: l) (lines_text lines ++ CRLF ++ rest)) as [X|X]; [rewrite E; cat|exact W| |]; rewrite X in H; cbn [res_bind] in H.
    + destruct (strchr_at s (slen pre) ":") as [[co|]| |]; cbn [res_bind] in H; try discriminate. destruct (_ <? 2) in H; discriminate.
    + destruct (strchr_at s (slen pre) ":") as [[co|]| |]; cbn [res_bind] in H; try discriminate. destruct (_ <? 2) in H; try discriminate. destruct (_ <=? _) in H; [discriminate|].
      destruct (clrncpy_at s (slen pre) _ _) as [hn| |]; cbn [res_bind] in H; try discriminate.
      destruct (ch s (slen pre + slen (c :: l) + 2 - 2)) as [d| |]; cbn [res_bind] in H; try discriminate. cbv zeta in H.
      match type of H with (do _ <- ?r ; _) = _ => destruct r end; cbn [res_bind] in H; try discriminate.
      match type of H with match ?r with _ => _ end = _ => destruct r as [m2| |] end; try discriminate.
      replace (slen pre + slen (c :: l) + 2) with (slen (pre ++ (c :: l) ++ CRLF)) in H by sln.
      apply (IH s body m2 m' k (pre ++ (c :: l) ++ CRLF) lines rest) in H; [rewrite H; f_equal; cat|rewrite E; cat|exact F'].
Qed.

(** *** Where the start line ends *)
Lemma first_stop : forall (stop : ascii -> bool) s, (forall d, In d s -> stop d = false) \/
  exists x c y, s = x ++ c :: y /\ stop c = true /\ forall d, In d x -> stop d = false.
Proof.
  intros stop. induction s as [|c s IH]; [left; intros d []|]. destruct (stop c) eqn:E.
  - right. exists [], c, s. split; [reflexivity|]. split; [exact E|intros d []].
  - destruct IH as [H|(x & c' & y & -> & S & N)]; [left; intros d [<-|I]; [exact E|exact (H d I)]|].
    right. exists (c :: x), c', y. split; [reflexivity|]. split; [exact S|]. intros d [<-|I]; [exact E|exact (N d I)].
Qed.
Lemma sip_word : forall c y, strncaseeq 4 (c ++ CRLF ++ y) ($"SIP/") = true -> without [cr; lf; NUL] c -> exists p d, c = p ++ d /\ slen p = 4.
Proof.
  intros c y H W. unfold strncaseeq in H. destruct c as [|c0 [|c1 [|c2 [|c3 c]]]]; [| | | |exists [c0; c1; c2; c3], c; split; reflexivity]; exfalso; cbn in H.
  all: repeat match type of H with context [Ascii.eqb ?a ?b] => destruct (Ascii.eqb a b) end; try discriminate.
Qed.
Lemma startline_end : forall l y m m' h, start_words l -> without [cr; lf; NUL] l -> startline_parse (l ++ CRLF ++ y) m = Ok (m', h) -> h = slen l + 2.
Proof.
  intros l y m m' h (a & b & c & E & NA & NB & NSB) W H. set (s := l ++ CRLF ++ y) in *.
  assert (s = a ++ sp :: b ++ sp :: c ++ CRLF ++ y) as ES by (unfold s; rewrite E; cat).
  assert (without [cr; lf; NUL] c) as WC by (intros x I J; apply (W x I); rewrite E; apply in_or_app; right; right; apply in_or_app; right; right; exact J).
  assert (slen l = slen a + slen b + slen c + 2) as SL by (rewrite E; sln).
  assert (forall d, In d (sp :: c) -> is_eol d = false) as NE.
  { intros d [<-|I]; [reflexivity|]. apply (not_eol c); [eapply without_incl; [exact WC|intros x; cbn; tauto]|exact I]. }
  assert (after_eol s (slen l) = Ok (slen l + 2)) as AE by (apply (after_crlf s l y); reflexivity).
  pose proof (slen_nonneg _ a). pose proof (slen_nonneg _ b). pose proof (slen_nonneg _ c). pose proof (slen_nonneg _ y).
  assert (slen s = slen l + 2 + slen y) as SS by (unfold s; sln).
  unfold startline_parse in H. destruct (strneq 4 s ($"SIP/")).
  - unfold parseresp in H. rewrite (strchr_at_some s [] a sp (b ++ sp :: c ++ CRLF ++ y)) in H by auto. change (slen [] + slen a) with (slen a) in H. cbn [res_bind] in H.
    destruct (copy_at s 0 (slen a) (slen a + 1)) as [v| |]; cbn [res_bind] in H; try discriminate.
    rewrite (strchr_at_some s (a ++ [sp]) b sp (c ++ CRLF ++ y)) in H; [|rewrite ES; cat|sln|exact NSB]. cbn [res_bind] in H.
    replace (slen (a ++ [sp]) + slen b) with (slen (a ++ sp :: b)) in H by sln.
    destruct (tail_at s (slen a + 1)) as [t| |]; cbn [res_bind] in H; try discriminate. cbv zeta in H. destruct (_ =? 0) in H; [discriminate|].
    rewrite (scan_fwd_to is_eol (sp :: c) (a ++ sp :: b) cr (lf :: y) s) in H; [|rewrite ES; cat|exact NE|reflexivity|rewrite ES, !app_length; cbn [length]; rewrite !app_length; cbn [length]; rewrite !app_length; lia|sln|reflexivity].
    cbn [res_bind] in H. destruct (_ =? _) in H; [discriminate|]. destruct (copy_at s _ _ _) as [r| |] in H; cbn [res_bind] in H; try discriminate.
    replace (slen (a ++ sp :: b) + slen (sp :: c)) with (slen l) in H by sln. rewrite AE in H. cbn [res_bind] in H. inversion H. reflexivity.
  - unfold parsereq in H. rewrite (strchr_at_some s [] a sp (b ++ sp :: c ++ CRLF ++ y)) in H by auto. change (slen [] + slen a) with (slen a) in H. cbn [res_bind] in H.
    destruct (no_nul s (slen a + 1) 2) as [ok| |]; cbn [res_bind] in H; try discriminate. destruct (negb ok); [discriminate|]. destruct (_ =? 0) in H; [discriminate|].
    destruct (copy_at s 0 (slen a) (slen a + 1)) as [v| |]; cbn [res_bind] in H; try discriminate.
    destruct b as [|b0 b]; [congruence|].
    rewrite (strchr_at_some s (a ++ [sp; b0]) b sp (c ++ CRLF ++ y)) in H; [|rewrite ES; cat|sln|intros I; apply NSB; right; exact I]. cbn [res_bind] in H.
    replace (slen (a ++ [sp; b0]) + slen b) with (slen (a ++ sp :: b0 :: b)) in H by sln. set (p1 := slen (a ++ sp :: b0 :: b)) in *.
    destruct (_ <? 2) in H; [discriminate|]. destruct (clrncpy_at s _ _ _) as [ut| |] in H; cbn [res_bind] in H; try discriminate.
    destruct (uri_parse ut) as [u| |]; try discriminate. destruct (no_nul s (p1 + 1) 7) as [ok2| |]; cbn [res_bind] in H; try discriminate. destruct (negb ok2); [discriminate|].
    assert (tail_at s (p1 + 1) = Ok (c ++ CRLF ++ y)) as TA.
    { rewrite (tail_at_app s (a ++ sp :: b0 :: b ++ [sp]) (c ++ CRLF ++ y)); [reflexivity|rewrite ES; cat|unfold p1; sln]. }
    rewrite TA in H. cbn [res_bind] in H. destruct (strncaseeq 4 (c ++ CRLF ++ y) ($"SIP/")) eqn:SW; cbn [negb] in H; [|discriminate].
    destruct (sip_word c y SW WC) as (p & d & EC & LP).
    destruct (first_stop (fun c => negb (is_digit c || is_ch c ".")) d) as [ND|(x & c1 & y1 & ED & S1 & ND)].
    + rewrite (scan_fwd_to _ d (a ++ sp :: b0 :: b ++ sp :: p) cr (lf :: y) s) in H; [|rewrite ES, EC; cat|exact ND|unfold p1; sln|rewrite ES, EC, !app_length; cbn [length]; rewrite !app_length; cbn [length]; rewrite !app_length; lia|rewrite SS, SL, EC; sln|reflexivity].
      cbn [res_bind] in H. replace (slen (a ++ sp :: b0 :: b ++ sp :: p) + slen d) with (slen l) in H by (rewrite SL, EC; sln).
      destruct (ch s (slen l)) as [e| |]; cbn [res_bind] in H; try discriminate. destruct (is_eol e); cbn [negb] in H; [|discriminate].
      destruct (copy_at s _ _ _) as [vv| |] in H; cbn [res_bind] in H; try discriminate. rewrite AE in H. cbn [res_bind] in H. inversion H. reflexivity.
    + rewrite (scan_fwd_to _ x (a ++ sp :: b0 :: b ++ sp :: p) c1 (y1 ++ CRLF ++ y) s) in H; [|rewrite ES, EC, ED; cat|exact ND|unfold p1; sln|rewrite ES, EC, ED, !app_length; cbn [length]; rewrite !app_length; cbn [length]; rewrite !app_length; lia|rewrite SS, SL, EC, ED; pose proof (slen_nonneg _ y1); sln|exact S1].
      cbn [res_bind] in H. rewrite (ch_at s (a ++ sp :: b0 :: b ++ sp :: p ++ x) c1 (y1 ++ CRLF ++ y)) in H; [|rewrite ES, EC, ED; cat|sln]. cbn [res_bind] in H.
      assert (is_eol c1 = false) as N1 by (apply NE; right; rewrite EC, ED; apply in_or_app; right; apply in_or_app; right; left; reflexivity).
      rewrite N1 in H. discriminate.
Qed.

(** *** The whole message *)
Lemma received_head : forall l0 lines tail h b t, Forall text_line (l0 :: lines) -> start_words l0 ->
  parse_head (received l0 lines tail) = Ok (h, b, t) ->
  exists pre, b = pre ++ CRLF ++ tail ++ [NUL] /\ slen pre = t /\ slen pre = slen (lines_text (l0 :: lines)).
Proof.
  intros l0 lines tail h b t F SW H. inversion F as [|? ? (W0 & V0) F']; subst x l.
  destruct (lines_unfolded tail lines F') as (l' & lines' & U & W' & P').
  assert (unfolded (received l0 lines tail) ((l0 ++ l') ++ CRLF ++ lines_text lines' ++ CRLF ++ tail)) as U0.
  { unfold received. cbn [lines_text flat_map]. fold (lines_text lines). rewrite <- !app_assoc. apply uf_plain; [apply plain_forallb, W0|exact U]. }
  set (msg := received l0 lines tail) in *.
  assert (exists c r, msg = c :: r /\ is_eol c = false) as (c & r & EM & NE).
  { destruct V0 as (x & I & _). destruct l0 as [|c l0]; [destruct I|]. exists c. unfold msg, received. cbn [lines_text flat_map app]. eexists. split; [reflexivity|].
    apply (not_eol (c :: l0)); [eapply without_incl; [exact W0|intros y; cbn; tauto]|left; reflexivity]. }
  unfold parse_head in H.
  assert (skip_eols (S (length (msg ++ [NUL]))) (msg ++ [NUL]) 0 = Ok 0) as SK.
  { cbn [skip_eols]. rewrite EM. cbn [app]. rewrite (rd_at [] c (r ++ [NUL])) by reflexivity. cbn [res_bind]. rewrite NE. reflexivity. }
  rewrite SK in H. cbn [res_bind] in H. pose proof (C42_unfold_partial [] _ _ U0) as X. cbn [app] in X. change (slen []) with 0 in X. rewrite X in H. clear X SK. cbn [res_bind] in H.
  set (s0 := l0 ++ l') in *. assert (without [cr; lf; NUL] s0) as WS by (apply without_app; assumption).
  assert (cstr (s0 ++ CRLF ++ lines_text lines' ++ CRLF)) as CS.
  { intros I. rewrite !in_app_iff in I. destruct I as [I|[I|[I|I]]]; [exact (WS NUL ltac:(cbn; tauto) I)|destruct I as [I|[I|[]]]; discriminate| |destruct I as [I|[I|[]]]; discriminate].
    unfold lines_text in I. apply in_flat_map in I. destruct I as (l & I & J). apply in_app_or in J. destruct J as [J|[J|[J|[]]]]; try discriminate.
    rewrite Forall_forall in P'. destruct (P' l I) as [_ W]. exact (W NUL ltac:(cbn; tauto) J). }
  assert (cstr_from ((s0 ++ CRLF ++ lines_text lines' ++ CRLF ++ tail) ++ [NUL]) 0 = Ok (s0 ++ CRLF ++ lines_text lines' ++ CRLF ++ until_nul tail)) as CF.
  { unfold cstr_from. replace ((0 <? 0) || (slen ((s0 ++ CRLF ++ lines_text lines' ++ CRLF ++ tail) ++ [NUL]) <=? 0)) with false by (pose proof (slen_nonneg _ (s0 ++ CRLF ++ lines_text lines' ++ CRLF ++ tail)); sl).
    change (Z.to_nat 0) with 0%nat. cbn [skipn].
    replace ((s0 ++ CRLF ++ lines_text lines' ++ CRLF ++ tail) ++ [NUL]) with ((s0 ++ CRLF ++ lines_text lines' ++ CRLF) ++ tail ++ [NUL]) by cat.
    rewrite c_string_until by exact CS. f_equal. cat. }
  replace (s0 ++ CRLF ++ lines_text lines' ++ CRLF ++ tail ++ [NUL]) with ((s0 ++ CRLF ++ lines_text lines' ++ CRLF ++ tail) ++ [NUL]) in H by cat.
  rewrite CF in H. cbn [res_bind] in H. set (s := s0 ++ CRLF ++ lines_text lines' ++ CRLF ++ until_nul tail) in *.
  destruct (startline_parse s msg_init) as [[m1 h1]| |] eqn:SP; cbn [res_bind] in H; try discriminate.
  assert (h1 = slen s0 + 2) as ->.
  { apply (startline_end s0 (lines_text lines' ++ CRLF ++ until_nul tail) msg_init m1 h1); [|exact WS|exact SP].
    destruct SW as (a & x & y & E & N1 & N2 & N3). exists a, x, (y ++ l'). split; [unfold s0; rewrite E; cat|auto]. }
  unfold headers_parse in H. destruct (headers_loop _ s (slen s0 + 2) _ m1) as [[m2 k]| |] eqn:HL; cbn [res_bind] in H; try discriminate.
  replace (slen s0 + 2) with (slen (s0 ++ CRLF)) in HL at 1 by sln.
  apply (headers_end _ s _ m1 m2 k (s0 ++ CRLF) lines' (until_nul tail)) in HL; [|unfold s; cat|exact P'].
  inversion H; subst. exists ((s0 ++ CRLF) ++ lines_text lines'). split; [cat|]. split; [lia|].
  apply unfolded_length in U0. unfold msg, received in U0. assert (slen (lines_text (l0 :: lines) ++ CRLF ++ tail) = slen (s0 ++ CRLF ++ lines_text lines' ++ CRLF ++ tail)) as Q by (unfold slen; rewrite U0; reflexivity).
  clear - Q. clearbody s0. rewrite !slen_app in Q. rewrite !slen_app. lia.
Qed.

Lemma parts_loop_type : forall fuel sep b p e m m', parts_loop fuel sep b p e m = Ok m' -> m_content_type m' = m_content_type m.
Proof.
  induction fuel as [|fuel IH]; intros sep b p e m m' H; [discriminate|]. cbn [parts_loop] in H.
  destruct (find_next_occurence sep b p e) as [[s0|]| |]; cbn [res_bind] in H; try discriminate.
  destruct (find_next_occurence sep b (s0 + slen sep) e) as [[e0|]| |]; cbn [res_bind] in H; try discriminate. cbv zeta in H.
  destruct (rd b (s0 + slen sep + 1)) as [c| |]; cbn [res_bind] in H; try discriminate.
  destruct (rd b (e0 - 1)) as [d| |]; cbn [res_bind] in H; try discriminate.
  destruct (rd_range b _ _) as [part| |] in H; cbn [res_bind] in H; try discriminate. unfold set_body_mime in H.
  destruct (body_parse_mime part) as [bd| |]; cbn [res_bind] in H; try discriminate.
  destruct (cstr_from b _) as [t| |] in H; cbn [res_bind] in H; try discriminate.
  destruct (strneq 2 t ($"--")); [inversion H; reflexivity|]. apply IH in H. exact H.
Qed.
Lemma set_length_type : forall m v m', set_content_length m v = Ok m' -> m_content_type m' = m_content_type m.
Proof.
  intros m v m' H. unfold set_content_length, if_value, if_unset in H. destruct v as [[|c v]|]; [inversion H; reflexivity| |inversion H; reflexivity].
  destruct (m_content_length m); [discriminate|]. destruct (clen_parse (c :: v)); cbn [res_bind] in H; inversion H. reflexivity.
Qed.
Lemma body_parse_type : forall m b p n m', body_parse m b p n = Ok m' -> m_content_type m' = m_content_type m.
Proof.
  intros m b p n m' H. unfold body_parse in H. destruct (m_content_type m) as [[[ty|] [su|] ps]|] eqn:CT; try (inversion H; subst; exact CT).
  destruct (negb (strcaseeq ty ($"multipart"))).
  - destruct (rd b p) as [c| |]; cbn [res_bind] in H; try discriminate. destruct (is_ch c NUL); [discriminate|].
    match type of H with (do _ <- ?r ; _) = _ => destruct r as [st| |] end; cbn [res_bind] in H; try discriminate. cbv zeta in H. destruct (_ =? 0) in H; [discriminate|].
    destruct (m_content_length m) as [[v|]|]; cbn [res_bind] in H; try discriminate.
    + destruct (_ <? _) in H; [discriminate|]. destruct (rd_range b _ _) in H; cbn [res_bind] in H; inversion H. exact CT.
    + destruct (set_content_length m _) as [m2| |] eqn:SC in H; cbn [res_bind] in H; try discriminate. apply set_length_type in SC.
      destruct (_ <? _) in H; [discriminate|]. destruct (rd_range b _ _) in H; cbn [res_bind] in H; inversion H. cbn. congruence.
  - destruct (param_get ps ($"boundary")) as [[? [g|]]|]; try discriminate. apply parts_loop_type in H. congruence.
Qed.
Lemma zero_length_type : forall m m', zero_length m = Ok m' -> m_content_type m' = m_content_type m.
Proof. intros m m' H. unfold zero_length in H. destruct (m_content_length m); [inversion H; reflexivity|]. apply set_length_type in H. exact H. Qed.

Lemma head_length : forall msg h b t, parse_head msg = Ok (h, b, t) -> m_content_length h <> Some None.
Proof.
  intros msg h b t H. unfold parse_head in H.
  destruct (skip_eols _ _ _) as [p| |]; cbn [res_bind] in H; try discriminate. destruct (replace_all_lws _ _) as [b1| |]; cbn [res_bind] in H; try discriminate.
  destruct (cstr_from b1 p) as [s| |]; cbn [res_bind] in H; try discriminate. destruct (startline_parse s msg_init) as [[m1 h1]| |]; cbn [res_bind] in H; try discriminate.
  destruct (headers_parse s h1 m1) as [[m0 k]| |]; cbn [res_bind] in H; try discriminate.
  inversion H; subst. destruct (m_content_length m0) as [[v|]|] eqn:E; cbn; congruence.
Qed.
Lemma atoi_int : forall v, osip_atoi v = int32 (strtol v).
Proof.
  intros v. unfold osip_atoi. cbv zeta. pose proof (int32_range (strtol v)). replace (int32 (strtol v) =? LONG_MIN) with false by (unfold LONG_MIN; lia).
  replace (int32 (strtol v) =? LONG_MAX) with false by (unfold LONG_MAX; lia). reflexivity.
Qed.
Lemma single_type : forall m m', m_content_type m' = m_content_type m -> single m <-> single m'.
Proof. intros m m' E. unfold single. rewrite E. tauto. Qed.
Lemma not_single : forall h b t n, ~ single h -> ~ multipart h -> body_parse h b t n = Ok h.
Proof.
  intros h b t n NS NM. unfold body_parse. destruct (m_content_type h) as [[[ty|] [su|] ps]|] eqn:CT; try reflexivity. exfalso. apply NS. exists (mkCT (Some ty) (Some su) ps), ty.
  split; [exact CT|]. split; [reflexivity|]. split; [discriminate|]. intros Q. apply NM. exists (mkCT (Some ty) (Some su) ps), ty. auto.
Qed.
Lemma single_dec : forall m, single m \/ ~ single m.
Proof.
  intros m. unfold single. destruct (m_content_type m) as [[[ty|] [su|] ps]|] eqn:CT.
  - destruct (strcaseeq ty ($"multipart")) eqn:E; [right|left].
    + intros (c & y & H1 & H2 & _ & H4). inversion H1; subst c. cbn in H2. inversion H2; subst y. apply H4. apply strcaseeq_true in E. rewrite E. reflexivity.
    + exists (mkCT (Some ty) (Some su) ps), ty. split; [reflexivity|]. split; [reflexivity|]. split; [discriminate|]. intros Q. apply not_true_iff_false in E. apply E. unfold strcaseeq. rewrite Q. reflexivity.
  - right. intros (c & y & H1 & H2 & H3 & _). inversion H1; subst c. apply H3. reflexivity.
  - right. intros (c & y & H1 & H2 & _). inversion H1; subst c. discriminate.
  - right. intros (c & y & H1 & H2 & _). inversion H1; subst c. discriminate.
  - right. intros (c & y & H1 & _). discriminate.
Qed.

(** An accepted message that is not multipart has no body, because it has no complete Content-Type
    or no positive Content-Length, or it has one: the first Content-Length bytes received after the
    empty line, all bytes allowed. *)
Theorem C45_received_partial : forall l0 lines tail m, slen (received l0 lines tail) <= 2147483647 ->
  Forall text_line (l0 :: lines) -> start_words l0 ->
  message_parse (received l0 lines tail) = Ok m -> ~ multipart m ->
  (m_bodies m = [] /\ (~ single m \/ exists v, m_content_length m = Some (Some v) /\ osip_atoi v <= 0)) \/
  (exists body rest v, tail = body ++ rest /\ body <> [] /\ m_bodies m = [mkBody body [] None] /\
     m_content_length m = Some (Some v) /\ osip_atoi v = slen body).
Proof.
  intros l0 lines tail m SM F SW H NM. rewrite message_parse_eq in H. destruct (parse_head (received l0 lines tail)) as [[[h b] t]| |] eqn:PH; cbn [res_bind] in H; try discriminate.
  pose proof (head_bodies _ _ _ _ PH) as HB. pose proof (head_length _ _ _ _ PH) as CLN. destruct (received_head l0 lines tail h b t F SW PH) as (pre & EB & EP & EL). clear PH.
  assert (slen (received l0 lines tail) = slen pre + 2 + slen tail) as LM by (unfold received; rewrite EL; sln).
  assert (rd b (slen pre) = Ok cr) as R0 by (rewrite EB; apply (rd_at pre cr (lf :: tail ++ [NUL])); reflexivity).
  assert (rd b (slen pre + 1) = Ok lf) as R1 by (rewrite EB; apply (rd_next pre (slen pre) [cr] (lf :: tail ++ [NUL])); reflexivity).
  unfold parse_tail in H. rewrite <- EP in H. rewrite R0 in H. cbn [res_bind] in H. change (is_ch cr cr) with true in H. cbv iota in H.
  rewrite R1 in H. cbn [res_bind] in H. cbv zeta in H.
  change (is_ch cr cr && is_ch lf lf) with true in H. change (is_ch cr lf) with false in H. cbn [andb orb] in H. rewrite LM in H.
  replace (slen pre + 2 + slen tail - slen pre) with (2 + slen tail) in H by lia. replace (2 + slen tail - 2) with (slen tail) in H by lia. rewrite orb_false_r in H.
  pose proof (slen_nonneg _ tail) as PT. pose proof (slen_nonneg _ pre) as PP.
  assert (forall n : Z, single h -> body_parse h b (slen pre) (2 + slen tail) =
    (if slen tail =? 0 then Err OSIP_SYNTAXERROR else
     do r <- match m_content_length h with
             | Some (Some v) => Ok (h, (osip_atoi v) mod 18446744073709551616)
             | Some None => UB
             | None => do m' <- set_content_length h (Some (sprintf_i (int32 (slen tail)))) ; Ok (m', slen tail)
             end ;
     let (m', len) := r : message * Z in
     if slen tail <? len then Err OSIP_SYNTAXERROR else do l <- rd_range b (slen pre + 2) len ; Ok (set_body m' l))) as BP.
  { intros _ SI. rewrite single_eq by exact SI. destruct (break_eq pre CRLF tail) as (c & Q1 & R2 & R3); [split; [left; reflexivity|discriminate]|].
    rewrite <- EB in Q1, R3. rewrite Q1. cbn [res_bind]. rewrite R2, R3. cbn [res_bind]. cbv zeta. change (slen CRLF) with 2.
    replace (2 + slen tail - (slen pre + 2 - slen pre)) with (slen tail) by lia. reflexivity. }
  assert (forall n : Z, 0 <= n <= slen tail -> exists body rest, tail = body ++ rest /\ slen body = n /\ rd_range b (slen pre + 2) n = Ok body) as RR.
  { intros n N. destruct (cut _ tail (Z.to_nat n)) as (x & y & E & L); [unfold slen in *; lia|]. exists x, y. split; [exact E|]. assert (slen x = n) as LX by (unfold slen; lia). split; [exact LX|].
    rewrite EB, E. replace (pre ++ CRLF ++ (x ++ y) ++ [NUL]) with ((pre ++ CRLF) ++ x ++ (y ++ [NUL])) by cat. apply rd_range_at; [|unfold len; fold (slen x); lia].
    rewrite len_app. reflexivity. }
  destruct (m_content_length h) as [[v|]|] eqn:CL; [|congruence|].
  - destruct (int32 (strtol v) >? 0) eqn:PV.
    + destruct (body_parse h b (slen pre) (2 + slen tail)) as [m2| |] eqn:B; cbn [res_bind] in H; try discriminate.
      pose proof (body_parse_type _ _ _ _ _ B) as T1. pose proof (zero_length_type _ _ H) as T2.
      assert (~ multipart h) as NMH by (intros (c & y & X); apply NM; exists c, y; rewrite T2, T1; exact X).
      destruct (single_dec h) as [SI|NS].
      * clear B. pose proof (BP 0 SI) as B. symmetry in B. clear BP. destruct (slen tail =? 0); [discriminate|]. cbn [res_bind] in B. pose proof (int32_range (strtol v)). rewrite atoi_int in B. rewrite Z.mod_small in B by lia.
        destruct (slen tail <? int32 (strtol v)) eqn:LT; [discriminate|]. destruct (RR (int32 (strtol v))) as (body & rest & ET & LB & R); [lia|]. rewrite R in B. cbn [res_bind] in B. inversion B; subst m2.
        unfold zero_length in H. cbn [set_body with_bodies m_content_length] in H. rewrite CL in H. inversion H; subst m. right. exists body, rest, v.
        split; [exact ET|]. split; [intros ->; rewrite slen_nil in LB; lia|]. split; [cbn; rewrite HB; reflexivity|]. split; [exact CL|]. rewrite atoi_int. lia.
      * left. rewrite not_single in B by assumption. inversion B; subst m2. unfold zero_length in H. rewrite CL in H. inversion H; subst m. split; [exact HB|left; exact NS].
    + left. unfold zero_length in H. rewrite CL in H. inversion H; subst m. split; [exact HB|]. right. exists v. split; [exact CL|]. rewrite atoi_int. lia.
  - destruct (slen tail =? 0) eqn:T0; cbn [negb] in H.
    + left. unfold zero_length in H. rewrite CL in H. rewrite clen_of_digits in H; [|split; [discriminate|repeat constructor; cbn; lia]|exact CL]. inversion H; subst m.
      split; [exact HB|]. right. exists ($"0"). split; [reflexivity|]. vm_compute. discriminate.
    + destruct (body_parse h b (slen pre) (2 + slen tail)) as [m2| |] eqn:B; cbn [res_bind] in H; try discriminate.
      pose proof (body_parse_type _ _ _ _ _ B) as T1. pose proof (zero_length_type _ _ H) as T2.
      assert (~ multipart h) as NMH by (intros (c & y & X); apply NM; exists c, y; rewrite T2, T1; exact X).
      destruct (single_dec h) as [SI|NS].
      * clear B. pose proof (BP 0 SI) as B. symmetry in B. clear BP.
        assert (int32 (slen tail) = slen tail) as I by (unfold int32; rewrite Z.mod_small by lia; replace (slen tail <? 2147483648) with true by lia; reflexivity).
        destruct (sprintf_i_spec (slen tail)) as [D1 D2]; [lia|]. rewrite I in B. rewrite clen_of_digits in B by auto. cbn [res_bind] in B. rewrite Z.ltb_irrefl in B.
        destruct (RR (slen tail)) as (body & rest & ET & LB & R); [lia|]. rewrite R in B. cbn [res_bind] in B. inversion B; subst m2.
        unfold zero_length in H. cbn [set_body with_bodies with_content_length m_content_length] in H. inversion H; subst m. right. exists body, rest, (sprintf_i (slen tail)).
        split; [exact ET|]. split; [intros ->; rewrite slen_nil in LB; lia|]. split; [cbn; rewrite HB; reflexivity|]. split; [reflexivity|]. rewrite C50_partial by (auto; lia). lia.
      * left. rewrite not_single in B by assumption. inversion B; subst m2. unfold zero_length in H. rewrite CL in H. rewrite clen_of_digits in H; [|split; [discriminate|repeat constructor; cbn; lia]|exact CL].
        inversion H; subst m. split; [exact HB|]. left. intros SI. apply NS. exact SI.
Qed.
Print Assumptions C45_received_partial.

(** *** A case, with a folded header and bytes of all kinds after the empty line *)
Definition ex_lines : list str := [$"Content-Type:"; $"  text/plain"; $"l: 5"].
Definition ex_tail : list ascii := $"he" ++ [cr; lf; sp; NUL] ++ $"more".
Example C45_received_example :
  slen (received ($"MESSAGE sip:a@b SIP/2.0") ex_lines ex_tail) <= 2147483647 /\
  Forall text_line ($"MESSAGE sip:a@b SIP/2.0" :: ex_lines) /\ start_words ($"MESSAGE sip:a@b SIP/2.0") /\
  exists m, message_parse (received ($"MESSAGE sip:a@b SIP/2.0") ex_lines ex_tail) = Ok m /\ ~ multipart m /\
    m_bodies m = [mkBody ($"he" ++ [cr; lf; sp]) [] None].
Proof.
  split; [vm_compute; discriminate|]. split.
  { assert (forall l c, without [cr; lf; NUL] l -> In c l -> ~ wsp c -> text_line l) as M by (intros l c W I N; split; [exact W|exists c; auto]).
    assert (forall l : str, forallb (fun c => negb (is_eol c || is_ch c NUL)) l = true -> without [cr; lf; NUL] l) as PW.
    { intros l H c I J. rewrite forallb_forall in H. specialize (H c J). destruct I as [<-|[<-|[<-|[]]]]; discriminate. }
    unfold ex_lines. repeat apply Forall_cons; [apply (M _ "M"%char)|apply (M _ "C"%char)|apply (M _ "t"%char)|apply (M _ "l"%char)|constructor].
    all: try (apply PW; reflexivity). all: try (intros [Q|Q]; discriminate). all: cbn; tauto. }
  split; [exists ($"MESSAGE"), ($"sip:a@b"), ($"SIP/2.0"); split; [reflexivity|]; split; [cbn; intuition discriminate|]; split; [discriminate|cbn; intuition discriminate]|].
  destruct (message_parse (received ($"MESSAGE sip:a@b SIP/2.0") ex_lines ex_tail)) as [m| |] eqn:E; [|exfalso; vm_compute in E; discriminate E|exfalso; vm_compute in E; discriminate E].
  exists m. split; [reflexivity|].
  assert (match message_parse (received ($"MESSAGE sip:a@b SIP/2.0") ex_lines ex_tail) with Ok m => option_map ct_type (m_content_type m) = Some (Some ($"text")) /\ m_bodies m = [mkBody ($"he" ++ [cr; lf; sp]) [] None] | _ => False end) as X by (vm_compute; split; reflexivity).
  rewrite E in X. destruct X as [X1 X2]. split; [|exact X2].
  intros (c & ty & H1 & H2 & H3). rewrite H1 in X1. cbn in X1. rewrite H2 in X1. inversion X1; subst ty. discriminate.
Qed.

(** The line before the empty line ends with LF alone: the end of the headers is not seen by the
    unfolding, which rewrites a line break inside the body. *)
Theorem C45_mixed_breaks_refuted : exists head body m,
  message_parse (head ++ [lf] ++ [cr; lf] ++ body) = Ok m /\ ~ multipart m /\
  option_map (option_map osip_atoi) (m_content_length m) = Some (Some (slen body)) /\
  exists other, m_bodies m = [mkBody other [] None] /\ other <> body.
Proof.
  set (head := $"MESSAGE sip:a@b SIP/2.0" ++ [cr; lf] ++ $"c: text/plain" ++ [cr; lf] ++ $"l: 5"). set (body := $"x" ++ [cr; lf] ++ $" y").
  destruct (message_parse (head ++ [lf] ++ [cr; lf] ++ body)) as [m| |] eqn:E; [|exfalso; vm_compute in E; discriminate E|exfalso; vm_compute in E; discriminate E].
  exists head, body, m. split; [exact E|].
  assert (match message_parse (head ++ [lf] ++ [cr; lf] ++ body) with Ok m => option_map ct_type (m_content_type m) = Some (Some ($"text")) /\
     option_map (option_map osip_atoi) (m_content_length m) = Some (Some 5) /\ m_bodies m = [mkBody ($"x   y") [] None] | _ => False end) as X by (vm_compute; repeat split; reflexivity).
  rewrite E in X. destruct X as (X1 & X2 & X3). split; [|split; [exact X2|exists ($"x   y"); split; [exact X3|discriminate]]].
  intros (c & ty & H1 & H2 & H3). rewrite H1 in X1. cbn in X1. rewrite H2 in X1. inversion X1; subst ty. discriminate.
Qed.
Print Assumptions C45_mixed_breaks_refuted.

(** A start line without spaces: the method is taken up to the first space, here behind the empty
    line; headers and body are then looked for in what follows, and the method holds line breaks. *)
Theorem C45_start_line_refuted : exists line tail m,
  message_parse (received line [] tail) = Ok m /\ text_line line /\ ~ multipart m /\
  exists body, m_bodies m = [mkBody body [] None] /\ forall rest, tail <> body ++ rest.
Proof.
  set (line := $"A:b"). set (tail := $"x sip:a@b SIP/2.0" ++ [cr; lf] ++ $"c: text/plain" ++ [cr; lf] ++ $"l: 2" ++ [cr; lf; cr; lf] ++ $"hi").
  destruct (message_parse (received line [] tail)) as [m| |] eqn:E; [|exfalso; vm_compute in E; discriminate E|exfalso; vm_compute in E; discriminate E].
  exists line, tail, m. split; [exact E|]. split.
  { split; [intros c I J; cbn in I, J; repeat (destruct I as [<-|I]; [repeat (destruct J as [J|J]; [discriminate|]); contradiction|]); contradiction|]. exists "A"%char. split; [left; reflexivity|intros [Q|Q]; discriminate]. }
  assert (match message_parse (received line [] tail) with Ok m => option_map ct_type (m_content_type m) = Some (Some ($"text")) /\ m_bodies m = [mkBody ($"hi") [] None] | _ => False end) as X by (vm_compute; repeat split; reflexivity).
  rewrite E in X. destruct X as (X1 & X3). split; [|exists ($"hi"); split; [exact X3|discriminate]].
  intros (c & ty & H1 & H2 & H3). rewrite H1 in X1. cbn in X1. rewrite H2 in X1. inversion X1; subst ty. discriminate.
Qed.
Print Assumptions C45_start_line_refuted.

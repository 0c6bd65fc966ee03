(** The start line (C44): what is printed is parsed back. *)
From Coq Require Import String ZArith NArith Ascii Bool List Lia ZifyBool ZifyNat.
From Verif Require Import Base Str StrLemmas Types MemModel MemLemmas CString CStringLemmas SafeLemmas PortModel PortProps ViaModel UriModel EscapeProps UriProps UriRound HdrModel HdrProps AuthModel AuthSafe MsgFields MsgModel MsgProps MsgSafe MsgBody MsgPrint MsgText.
Import ListNotations.
Open Scope Z_scope.

(** *** Specification *)
(** a word of a start line *)
Definition word (s : str) : Prop := s <> [] /\ ~ In sp s /\ cstr s.
(** "SIP/" followed by digits and dots, three characters at least *)
Definition version_ok (v : str) : Prop := exists d, v = $"SIP/" ++ d /\ 3 <= slen d /\ forall c, In c d -> is_digit c = true \/ c = "."%char.
(** a method is a word that does not start like a status line *)
Definition method_ok (s : str) : Prop := word s /\ forall t, s <> $"SIP/" ++ t.
(** a reason phrase stays on its line *)
Definition reason_ok (s : str) : Prop := ~ In cr s /\ ~ In lf s /\ cstr s.

(** *** Proofs *)
Lemma no_nul_app : forall x a b, cstr x -> no_nul (a ++ x ++ b) (slen a) (length x) = Ok true.
Proof.
  induction x as [|c x IH]; intros a b C; cbn [no_nul length]; [reflexivity|].
  rewrite (ch_at _ a c (x ++ b)) by auto. cbn [res_bind]. destruct (is_ch c NUL) eqn:E.
  - exfalso. apply C. left. unfold is_ch in E. apply Ascii.eqb_eq in E. symmetry. auto.
  - replace (slen a + 1) with (slen (a ++ [c])) by sl. replace (a ++ (c :: x) ++ b) with ((a ++ [c]) ++ x ++ b) by cat.
    apply IH. intros I. apply C. right. exact I.
Qed.

Lemma digits_val_stop : forall ds acc c r, Forall (fun c => (48 <= code c <= 57)%N) ds -> is_digit c = false ->
  digits_val acc (ds ++ c :: r) = digits_val acc ds.
Proof.
  induction ds as [|d ds IH]; intros acc c r H D; cbn [app digits_val]; [rewrite D; reflexivity|].
  inversion H as [|? ? H1 H2]; subst. rewrite digit_is by auto. apply IH; auto.
Qed.
Lemma strtol_stop : forall ds c r, digit_string ds -> is_digit c = false -> strtol (ds ++ c :: r) = Z.min LONG_MAX (decimal ds).
Proof.
  intros ds c r H D. rewrite <- strtol_digits by exact H. destruct H as [N H]. destruct ds as [|d ds]; [contradiction|].
  inversion H as [|? ? H1 H2]; subst. unfold strtol. cbn [app skip_space].
  assert (isspace d = false) as ->.
  { unfold isspace. rewrite (code_neq d sp) by (intros E; rewrite E in H1; revert H1; vm_compute; intros [X _]; apply X; reflexivity).
    replace ((9 <=? code d)%N && (code d <=? 13)%N) with false by (symmetry; apply andb_false_iff; right; apply N.leb_gt; lia). reflexivity. }
  rewrite (code_neq d "-"%char) by (intros E; rewrite E in H1; revert H1; vm_compute; intros [X _]; apply X; reflexivity).
  rewrite (code_neq d "+"%char) by (intros E; rewrite E in H1; revert H1; vm_compute; intros [X _]; apply X; reflexivity).
  change (d :: ds ++ c :: r) with ((d :: ds) ++ c :: r). rewrite digits_val_stop by auto. reflexivity.
Qed.

Lemma after_crlf : forall s a r, s = a ++ CRLF ++ r -> after_eol s (slen a) = Ok (slen a + 2).
Proof.
  intros s a r E. unfold after_eol. rewrite (ch_at s a cr (lf :: r)) by (auto; exact E). cbn [res_bind].
  rewrite (ch_at s (a ++ [cr]) lf r) by (first [rewrite E; cat | sl]). cbn [res_bind]. reflexivity.
Qed.
Lemma sip_prefix : forall s x, strneq 4 (s ++ sp :: x) ($"SIP/") = true -> ~ In sp s -> exists t, s = $"SIP/" ++ t.
Proof.
  intros s x H N. change ($"SIP/") with ["S"; "I"; "P"; "/"]%char in *.
  destruct s as [|c1 [|c2 [|c3 [|c4 t]]]]; cbn [app strneq] in H.
  all: repeat match type of H with context [Ascii.eqb ?a ?b] => destruct (Ascii.eqb_spec a b); [subst|cbn in H; discriminate H] end.
  all: try discriminate. exists t. reflexivity.
Qed.

Theorem C44_request : forall m meth u t m0 rest,
  m_method m = Some meth -> m_uri m = Some u -> method_ok meth ->
  uri_to_str u = Ok t -> uri_parse t = Ok u -> word t -> trimmed t -> 2 <= slen t -> version_ok (version_text m) ->
  exists l, startline_to_str m = Ok l /\
  startline_parse (l ++ CRLF ++ rest) m0 =
    Ok (with_reason None (with_status 0 (with_version (Some (version_text m)) (with_uri (Some u) (with_method (Some meth) m0)))), slen l + 2).
Proof.
  intros m meth u t m0 rest HM HU ((M1 & M2 & M3) & M4) UT UP (T1 & T2 & T3) TT TL (d & VE & VL & VD).
  rewrite C40_startline. unfold startline_text. rewrite HM, HU, UT. cbn [res_bind]. set (v := version_text m) in *. clearbody v.
  eexists. split; [reflexivity|]. set (s := (meth ++ $" " ++ t ++ $" " ++ v) ++ CRLF ++ rest).
  assert (s = meth ++ sp :: t ++ sp :: v ++ CRLF ++ rest) as ES by (unfold s; change ($" ") with [sp]; cat).
  unfold startline_parse. destruct (strneq 4 s ($"SIP/")) eqn:SP.
  { exfalso. rewrite ES in SP. destruct (sip_prefix meth _ SP M2) as (x & E). exact (M4 x E). }
  unfold parsereq. rewrite (strchr_at_some s [] meth sp (t ++ sp :: v ++ CRLF ++ rest)); [|exact ES|reflexivity|exact M2].
  cbn [res_bind]. rewrite slen_nil, Z.add_0_l.
  destruct t as [|t0 [|t1 t']]; [congruence|exfalso; change (slen [t0]) with 1 in TL; lia|]. 
  assert (no_nul s (slen meth + 1) 2 = Ok true) as ->.
  { replace (slen meth + 1) with (slen (meth ++ [sp])) by sl. replace s with ((meth ++ [sp]) ++ [t0; t1] ++ t' ++ sp :: v ++ CRLF ++ rest) by (rewrite ES; cat).
    apply (no_nul_app [t0; t1]). intros I. apply T3. destruct I as [I|[I|[]]]; [left|right; left]; exact I. }
  cbn [res_bind negb]. pose proof (slen_pos _ meth M1). replace (slen meth =? 0) with false by lia.
  rewrite (copy_at_app s [] meth (sp :: (t0 :: t1 :: t') ++ sp :: v ++ CRLF ++ rest)); [|exact ES|reflexivity|reflexivity|lia]. cbn [res_bind].
  rewrite (strchr_at_some s (meth ++ [sp; t0]) (t1 :: t') sp (v ++ CRLF ++ rest)); [|rewrite ES; cat|sl|intros I; apply T2; right; exact I].
  cbn [res_bind]. replace (slen (meth ++ [sp; t0]) + slen (t1 :: t')) with (slen meth + 1 + slen (t0 :: t1 :: t')) by sl. set (T := t0 :: t1 :: t') in *.
  assert (2 <= slen T) as TL' by exact TL. clearbody T.
  replace (_ <? 2) with false by lia.
  rewrite (clrncpy_at_app s (meth ++ [sp]) T (sp :: v ++ CRLF ++ rest)); [|rewrite ES; cat|sl|lia|lia]. cbn [res_bind].
  rewrite TT, UP.
  assert (no_nul s (slen meth + 1 + slen T + 1) 7 = Ok true) as ->.
  { destruct d as [|d1 [|d2 [|d3 d']]]; try (exfalso; revert VL; unfold slen; cbn; lia).
    replace (slen meth + 1 + slen T + 1) with (slen (meth ++ sp :: T ++ [sp])) by sl.
    replace s with ((meth ++ sp :: T ++ [sp]) ++ ($"SIP/" ++ [d1; d2; d3]) ++ d' ++ CRLF ++ rest) by (rewrite ES, VE; cat).
    apply (no_nul_app ($"SIP/" ++ [d1; d2; d3])). intros I. apply in_app_or in I. destruct I as [I|I].
    - revert I. change ($"SIP/") with ["S"; "I"; "P"; "/"]%char. cbn [In]. intros [I|[I|[I|[I|[]]]]]; discriminate I.
    - assert (In NUL (d1 :: d2 :: d3 :: d')) as J by (destruct I as [I|[I|[I|[]]]]; cbn; auto). destruct (VD _ J) as [X|X]; discriminate X. }
  cbn [res_bind negb].
  rewrite (tail_at_app s (meth ++ sp :: T ++ [sp]) (v ++ CRLF ++ rest)); [|rewrite ES; cat|sl]. cbn [res_bind].
  assert (strncaseeq 4 (v ++ CRLF ++ rest) ($"SIP/") = true) as -> by (rewrite VE; reflexivity). cbn [negb].
  rewrite (scan_fwd_to _ d (meth ++ sp :: T ++ [sp] ++ $"SIP/") cr (lf :: rest) s).
  2:{ rewrite ES, VE. cat. } 2:{ intros c I. destruct (VD c I) as [X| ->]; [rewrite X; reflexivity|reflexivity]. }
  2:{ rewrite !slen_app, !slen_cons, !slen_app. change (slen ($"SIP/")) with 4. change (slen [sp]) with 1. lia. } 2:{ rewrite ES, VE. rewrite !app_length. cbn [length]. rewrite !app_length. cbn [length]. rewrite !app_length. lia. }
  2:{ rewrite ES, VE. change (slen s) with (slen s). assert (slen ($"SIP/") = 4) as L4 by reflexivity. revert L4. generalize ($"SIP/"). intros sip L4.
      repeat (rewrite !slen_app || rewrite !slen_cons || rewrite !slen_nil). change (slen CRLF) with 2. pose proof (slen_nonneg _ rest). lia. } 2:{ reflexivity. }
  cbn [res_bind]. set (hp := slen (meth ++ sp :: T ++ [sp] ++ $"SIP/") + slen d).
  assert (hp = slen (meth ++ sp :: T ++ sp :: v)) as EH.
  { unfold hp. rewrite VE. generalize ($"SIP/"). intros sip. repeat (rewrite !slen_app || rewrite !slen_cons || rewrite !slen_nil). lia. }
  clearbody hp. subst hp.
  rewrite (ch_at s (meth ++ sp :: T ++ sp :: v) cr (lf :: rest)); [|rewrite ES; cat|reflexivity]. cbn [res_bind]. change (is_eol cr) with true. cbn [negb].
  rewrite (copy_at_app s (meth ++ sp :: T ++ [sp]) v (CRLF ++ rest)); [|rewrite ES; cat|sl|sl|sl]. cbn [res_bind].
  rewrite (after_crlf s (meth ++ sp :: T ++ sp :: v) rest); [|rewrite ES; cat]. cbn [res_bind]. reflexivity.
Qed.

Theorem C44_response : forall m reason m0 rest,
  m_method m = None -> m_reason m = Some reason -> 100 <= m_status m <= 699 -> reason_ok reason ->
  word (version_text m) -> (exists t, version_text m = $"SIP/" ++ t) ->
  exists l, startline_to_str m = Ok l /\
  startline_parse (l ++ CRLF ++ rest) m0 =
    Ok (with_reason (Some reason) (with_status (m_status m) (with_version (Some (version_text m)) m0)), slen l + 2).
Proof.
  intros m reason m0 rest HM HR HS (R1 & R2 & R3) (V1 & V2 & V3) (tv & VE).
  rewrite C40_startline. unfold startline_text. rewrite HM, HR. replace ((100 <=? m_status m) && (m_status m <=? 699)) with true by lia.
  set (v := version_text m) in *. clearbody v. set (n := m_status m) in *. clearbody n. destruct (sprintf_i_spec n) as [DS DV]; [lia|].
  pose proof (sprintf3 n HS) as L3. set (ds := sprintf_i n) in *. clearbody ds. assert (~ In sp ds) as DN.
  { intros I. destruct DS as [_ F]. rewrite Forall_forall in F. specialize (F sp I). revert F. vm_compute. intros [X _]. apply X. reflexivity. }
  eexists. split; [reflexivity|]. set (s := (v ++ $" " ++ ds ++ $" " ++ reason) ++ CRLF ++ rest).
  assert (s = v ++ sp :: ds ++ sp :: reason ++ CRLF ++ rest) as ES by (unfold s; change ($" ") with [sp]; cat).
  unfold startline_parse. assert (strneq 4 s ($"SIP/") = true) as -> by (rewrite ES, VE; reflexivity).
  unfold parseresp. rewrite (strchr_at_some s [] v sp (ds ++ sp :: reason ++ CRLF ++ rest)); [|exact ES|reflexivity|exact V2].
  cbn [res_bind]. rewrite slen_nil, Z.add_0_l.
  rewrite (copy_at_app s [] v (sp :: ds ++ sp :: reason ++ CRLF ++ rest)); [|exact ES|reflexivity|reflexivity|lia]. cbn [res_bind].
  rewrite (strchr_at_some s (v ++ [sp]) ds sp (reason ++ CRLF ++ rest)); [|rewrite ES; cat|sl|exact DN]. cbn [res_bind].
  rewrite (tail_at_app s (v ++ [sp]) (ds ++ sp :: reason ++ CRLF ++ rest)); [|rewrite ES; cat|sl]. cbn [res_bind].
  rewrite strtol_stop by (auto; reflexivity). rewrite DV. replace (Z.min LONG_MAX n) with n by (unfold LONG_MAX; lia).
  assert (int32 n = n) as ->. { unfold int32. rewrite Z.mod_small by lia. replace (n <? 2147483648) with true by lia. reflexivity. }
  replace (n =? 0) with false by lia.
  rewrite (scan_fwd_to _ (sp :: reason) (v ++ sp :: ds) cr (lf :: rest) s).
  2:{ rewrite ES. cat. }
  2:{ intros c [<-|I]; [reflexivity|]. unfold is_eol, is_ch. destruct (Ascii.eqb_spec c cr) as [->|]; [contradiction|]. destruct (Ascii.eqb_spec c lf) as [->|]; [contradiction|reflexivity]. }
  2:{ sl. } 2:{ rewrite ES. rewrite !app_length. cbn [length]. rewrite !app_length. cbn [length]. rewrite !app_length. lia. }
  2:{ rewrite ES. rewrite !slen_app, !slen_cons, !slen_app, !slen_cons, !slen_app. change (slen CRLF) with 2. pose proof (slen_nonneg _ rest). lia. } 2:{ reflexivity. }
  cbn [res_bind]. set (hp := slen (v ++ sp :: ds) + slen (sp :: reason)).
  assert (hp = slen (v ++ sp :: ds ++ sp :: reason)) as EH by (unfold hp; sl). clearbody hp. subst hp.
  assert (slen (v ++ sp :: ds ++ sp :: reason) =? slen s = false) as ->.
  { rewrite ES. rewrite !slen_app, !slen_cons, !slen_app, !slen_cons, !slen_app. change (slen CRLF) with 2. pose proof (slen_nonneg _ rest). lia. }
  rewrite (copy_at_app s (v ++ sp :: ds ++ [sp]) reason (CRLF ++ rest)); [|rewrite ES; cat|sl|sl|sl]. cbn [res_bind].
  rewrite (after_crlf s (v ++ sp :: ds ++ sp :: reason) rest); [|rewrite ES; cat]. cbn [res_bind]. reflexivity.
Qed.

(** *** SIP URIs in the request line *)
(** white space, terminator, quotes and angle brackets: none of them is in a printed SIP URI *)
Definition unquoted_specials : str := [sp; tab; cr; lf; NUL; dquote; "<"%char; ">"%char].
Lemma uri_text_without : forall u scheme host, uri_wf u scheme host -> without unquoted_specials host ->
  match u_port u with None => True | Some p => without unquoted_specials p end -> without unquoted_specials (uri_text u scheme host).
Proof.
  intros u scheme host W H P c C. destruct W as [W1 W2 W3 W5 W6 W7 W10 W11 W12 W13].
  assert (forall def, In def [userinfo_def; password_def; uri_param_def; header_param_def] -> allowed def c = false) as A.
  { intros def D. cbn [In] in D. unfold unquoted_specials in C. cbn [In] in C.
    repeat (destruct D as [D|D]; [subst def; repeat (destruct C as [C|C]; [subst c; reflexivity|]); contradiction|]). contradiction. }
  assert (forall x, existsb (Ascii.eqb x) unquoted_specials = false -> c <> x) as N.
  { intros x E ->. assert (existsb (Ascii.eqb x) unquoted_specials = true) as F; [|congruence]. apply existsb_exists. exists x. split; [exact C|apply Ascii.eqb_refl]. }
  assert (forall def s, In def [userinfo_def; password_def; uri_param_def; header_param_def] -> ~ In c (esc def s)) as EN.
  { intros def s D. apply esc_notin; [apply A, D|apply N; reflexivity]. }
  assert (is_alpha c = false) as AL by (unfold unquoted_specials in C; cbn [In] in C; repeat (destruct C as [C|C]; [subst c; reflexivity|]); contradiction).
  unfold uri_text. rewrite in_app_iff. intros [I|[I|I]]; [exact (alpha_notin _ _ W2 AL I)|revert I; apply not_eq_sym, N; reflexivity|].
  rewrite !in_app_iff in I. destruct I as [I|[I|[I|[I|I]]]].
  - unfold user_text in I. destruct (u_username u) as [n|]; [|contradiction]. rewrite !in_app_iff in I. destruct I as [I|[I|I]].
    + revert I. apply EN. cbn; auto.
    + destruct (u_password u) as [p|]; [|contradiction]. destruct I as [I|I]; [revert I; apply not_eq_sym, N; reflexivity|revert I; apply EN; cbn; auto].
    + destruct I as [I|[]]. revert I. apply not_eq_sym, N. reflexivity.
  - unfold host_text in I. destruct (strchr host _); [|exact (H c C I)]. destruct I as [I|I]; [revert I; apply not_eq_sym, N; reflexivity|].
    apply in_app_or in I. destruct I as [I|[I|[]]]; [exact (H c C I)|revert I; apply not_eq_sym, N; reflexivity].
  - unfold port_text in I. destruct (u_port u) as [p|]; [|contradiction]. destruct I as [I|I]; [revert I; apply not_eq_sym, N; reflexivity|exact (P c C I)].
  - revert I. rewrite (shown_all _ W11). apply ptext_notin; [exact W11|apply A; cbn; auto|apply N; reflexivity|apply N; reflexivity|apply N; reflexivity].
  - revert I. apply htext_notin; [apply A; cbn; auto|apply N; reflexivity|apply N; reflexivity|apply N; reflexivity|apply N; reflexivity].
Qed.
Lemma without_blank : forall s, without unquoted_specials s -> no_blank s.
Proof.
  intros s H. apply Forall_forall. intros c I. destruct (is_blank c) eqn:B; [exfalso|reflexivity]. revert I. apply H. revert B. clear.
  unfold is_blank. intros B. repeat (apply orb_prop in B; destruct B as [B|B]); apply Ascii.eqb_eq in B; subst c; cbn; auto 10.
Qed.
Lemma without_word : forall s, s <> [] -> without unquoted_specials s -> word s.
Proof. intros s N W. split; [exact N|]. split; [apply W; cbn; auto|]. intros I. revert I. apply W. cbn. auto 10. Qed.
Theorem C44_request_sip : forall m meth u scheme host m0 rest,
  m_method m = Some meth -> m_uri m = Some u -> method_ok meth -> version_ok (version_text m) ->
  uri_wf u scheme host -> without unquoted_specials host ->
  match u_port u with None => True | Some p => without unquoted_specials p end ->
  exists l, startline_to_str m = Ok l /\
  startline_parse (l ++ CRLF ++ rest) m0 =
    Ok (with_reason None (with_status 0 (with_version (Some (version_text m)) (with_uri (Some u) (with_method (Some meth) m0)))), slen l + 2).
Proof.
  intros m meth u scheme host m0 rest HM HU M V W H P. destruct (C33_round_trip u scheme host W) as (t & T1 & T2).
  pose proof (uri_text_without u scheme host W H P) as TW.
  assert (t = uri_text u scheme host) as ->.
  { destruct W as [W1 W2 W3 W5 W6 W7 W10 W11 W12 W13]. rewrite (uri_to_str_ok u host W6 W13) in T1.
    - rewrite W1 in T1. cbn [default_scheme] in T1. congruence.
    - eapply Forall_impl; [|exact W12]. intros [n v] (_ & _ & X). destruct v; [discriminate|contradiction]. }
  assert (2 <= slen (uri_text u scheme host)) as L2.
  { destruct W as [_ _ [W3 _] _ _ _ _ _ _ _]. unfold uri_text. rewrite slen_app, slen_cons. pose proof (slen_nonneg _ (user_text u ++ host_text host ++ port_text (u_port u) ++ flat_map uparam_text (shown (u_params u)) ++ uheaders_text (u_headers u))). lia. }
  apply (C44_request m meth u (uri_text u scheme host)); auto.
  - apply without_word; [|exact TW]. intros E. rewrite E in L2. change (slen []) with 0 in L2. lia.
  - apply no_blank_trimmed, without_blank, TW.
Qed.

(** *** Concrete cases *)
Definition ex_request : message := with_version (Some ($"SIP/2.0")) (with_uri (Some ex_uri) (with_method (Some ($"INVITE")) msg_init)).
Definition ex_response : message := with_reason (Some ($"Moved  Temporarily")) (with_status 302 (with_version (Some ($"SIP/2.0")) msg_init)).
Example C44_request_example : method_ok ($"INVITE") /\ version_ok ($"SIP/2.0") /\ uri_wf ex_uri ($"sips") ($"2001:db8::1")
  /\ without unquoted_specials ($"2001:db8::1") /\ without unquoted_specials ($"5061")
  /\ startline_to_str ex_request = Ok ($"INVITE sips:al%20ice;x%40y:p%3Aw@[2001:db8::1]:5061;transport=tcp;lr;a%20b=%3D%3B%3F?Subject=hello%20world&x=%26%3D SIP/2.0").
Proof.
  assert (forall cs s, forallb (fun c => negb (existsb (Ascii.eqb c) s)) cs = true -> without cs s) as D.
  { intros cs s H c I J. rewrite forallb_forall in H. specialize (H _ I). apply negb_true_iff in H.
    assert (existsb (Ascii.eqb c) s = true) by (apply existsb_exists; exists c; split; [exact J|apply Ascii.eqb_refl]). congruence. }
  split; [|split; [|split; [apply C33_witness|split; [apply D; reflexivity|split; [apply D; reflexivity|vm_compute; reflexivity]]]]].
  - split; [|intros t E; discriminate E]. split; [discriminate|]. split; intros I; vm_compute in I; repeat (destruct I as [I|I]; [discriminate I|]); exact I.
  - exists ($"2.0"). split; [reflexivity|]. split; [vm_compute; discriminate|]. intros c I. vm_compute in I.
    destruct I as [<-|[<-|[<-|[]]]]; [left; reflexivity|right; reflexivity|left; reflexivity].
Qed.
Example C44_response_example : reason_ok ($"Moved  Temporarily") /\ word ($"SIP/2.0") /\ startline_to_str ex_response = Ok ($"SIP/2.0 302 Moved  Temporarily").
Proof.
  split; [|split; [|vm_compute; reflexivity]].
  - split; [|split]; intros I; vm_compute in I; repeat (destruct I as [I|I]; [discriminate I|]); exact I.
  - split; [discriminate|]. split; intros I; vm_compute in I; repeat (destruct I as [I|I]; [discriminate I|]); exact I.
Qed.
(** Finding: in a status line without the space before the reason, the reason is taken from the
    next line *)
Example startline_crosses_line : exists m k,
  startline_parse ($"SIP/2.0 200" ++ CRLF ++ $"Via: SIP/2.0/UDP h" ++ CRLF ++ CRLF) msg_init = Ok (m, k) /\ m_reason m = Some ($"SIP/2.0/UDP h").
Proof. eexists. eexists. split; [vm_compute; reflexivity|reflexivity]. Qed.
Print Assumptions C44_request.
Print Assumptions C44_request_sip.
Print Assumptions C44_response.

(** C35: From, To, Contact, Route and Record-Route: what is printed is parsed back. *)
From Coq Require Import String ZArith NArith Ascii Bool List Lia ZifyBool ZifyNat.
From Verif Require Import Base Str StrLemmas MemModel MemLemmas Types PortModel PortBuf PortProps QuoteProps CString CStringLemmas SafeLemmas
  UriModel EscapeProps UriProps UriRound ViaModel HdrModel HdrProps HdrSafe HdrRound.
Import ListNotations.
Open Scope Z_scope.

(** * Specification *)

(** A display name: a quoted string, or words of the characters a token may have, without white
    space at the ends *)
Definition display_wf (d : str) : Prop :=
  quoted_string d \/ (d <> [] /\ trimmed d /\ forallb name_char d = true).
Definition odisplay_wf (d : option str) : Prop := match d with None => True | Some d => display_wf d end.

(** The text of a URI that can stand between '<' and '>' *)
Definition bracketed (url : str) : Prop := 6 <= slen url /\ cstr url /\ ~ In ">"%char url /\ last url NUL <> ";"%char.

(** * Lemmas *)
Lemma name_char_out : forall d c, forallb name_char d = true -> name_char c = false -> ~ In c d.
Proof. intros d c H N I. rewrite forallb_forall in H. rewrite (H c I) in N. discriminate. Qed.

Lemma scan_all : forall x s a c r fuel stop, s = a ++ x ++ c :: r -> (forall d, In d x -> stop d = false) -> stop c = true -> (length x < fuel)%nat ->
  scan_fwd fuel s (slen a) (slen s) stop = Ok (slen a + slen x).
Proof.
  induction x as [|d x IH]; intros s a c r fuel stop E N S F; (destruct fuel as [|fuel]; [lia|]).
  - rewrite (scan_here _ _ _ _ _ c); [f_equal; sl|rewrite E; sl|apply (ch_at s a c r); [exact E|reflexivity]|exact S].
  - cbn [scan_fwd]. replace (slen a <? slen s) with true by (rewrite E; sl).
    rewrite (ch_at s a d (x ++ c :: r)); [|rewrite E; cat|reflexivity]. cbn [res_bind]. rewrite N by (left; reflexivity).
    replace (slen a + 1) with (slen (a ++ [d])) by sl. rewrite (IH s (a ++ [d]) c r); [f_equal; sl|rewrite E; cat|intros; apply N; right; assumption|exact S|cbn in F; lia].
Qed.

Definition opening (d : option str) : str := match d with None => [] | Some d => d ++ [" "%char] end.

Lemma from_head_ok : forall d s c r, odisplay_wf d -> s = opening d ++ "<"%char :: c :: r -> c <> NUL -> cstr s ->
  exists e, s <> [] /\ ch s 0 = Ok e /\ e <> " "%char /\ e <> NUL /\ from_head s 0 = Ok (d, slen (opening d)).
Proof.
  intros d s c r W E NC C. assert (s <> []) as NS by (rewrite E; destruct (opening d); discriminate).
  assert (ch s (slen (opening d)) = Ok "<"%char) as H1 by (apply (ch_at s (opening d) "<"%char (c :: r)); [exact E|reflexivity]).
  assert (ch s (slen (opening d) + 1) = Ok c) as H2 by (apply (ch_at s (opening d ++ ["<"%char]) c r); [rewrite E; cat|sl]).
  unfold from_head. destruct d as [d|]; cbn [opening] in *.
  2:{ exists "<"%char. change (slen (@nil ascii)) with 0 in *. rewrite H1. cbn [res_bind]. repeat (split; [first [reflexivity|assumption|discriminate]|]).
      change (is_ch "<"%char dquote) with false. cbn iota.
      rewrite (scan_here _ _ _ _ _ "<"%char); [|rewrite E; sl|exact H1|reflexivity]. cbn [res_bind]. rewrite H1. cbn [res_bind].
      change (is_ch "<"%char NUL) with false. change (is_ch "<"%char "<"%char) with true. cbn iota. cbn [Z.add] in H2. change (0 + 1) with 1. rewrite H2. cbn [res_bind].
      unfold is_ch. destruct (Ascii.eqb_spec c NUL); [contradiction|]. reflexivity. }
  destruct W as [(t & -> & Q)|(ND & T & NM)].
  - exists dquote. assert (ch s 0 = Ok dquote) as H0 by (apply (ch_at s [] dquote (t ++ [dquote] ++ " "%char :: "<"%char :: c :: r)); [rewrite E; cat|reflexivity]).
    repeat (split; [first [assumption|discriminate]|]). rewrite H0. cbn [res_bind]. change (is_ch dquote dquote) with true. cbn iota.
    rewrite (quote_at_q s [dquote] t (" "%char :: "<"%char :: c :: r)); [|rewrite E; cat|reflexivity|exact C|exact Q]. cbn [res_bind].
    replace (_ >=? 2) with true by sl. rewrite (copy_at_app s [] (dquote :: t ++ [dquote]) (" "%char :: "<"%char :: c :: r)); [|rewrite E; cat|reflexivity|sl|sl]. cbn [res_bind].
    replace (slen [dquote] + slen t + 1) with (slen (dquote :: t ++ [dquote])) by sl.
    rewrite (scan_all [" "%char] s (dquote :: t ++ [dquote]) "<"%char (c :: r)); [|rewrite E; cat|intros d [<-|[]]; reflexivity|reflexivity|destruct s; [contradiction|cbn; lia]]. cbn [res_bind].
    replace (slen (dquote :: t ++ [dquote]) + slen [" "%char]) with (slen ((dquote :: t ++ [dquote]) ++ [" "%char])) by sl.
    rewrite H1. cbn [res_bind]. change (is_ch "<"%char "<"%char) with true. cbn [negb]. rewrite H2. cbn [res_bind].
    unfold is_ch. destruct (Ascii.eqb_spec c NUL); [contradiction|]. reflexivity.
  - destruct d as [|e d']; [contradiction|]. exists e.
    assert (ch s 0 = Ok e) as H0 by (apply (ch_at s [] e (d' ++ " "%char :: "<"%char :: c :: r)); [rewrite E; cat|reflexivity]).
    assert (is_blank e = false) as Be by (apply trimmed_iff in T; destruct T as [T|[T _]]; [discriminate|exact T]). destruct (blank_space e Be) as [B1 B2].
    assert (name_char e = true) as Ne by (cbn [forallb] in NM; apply andb_true_iff in NM; tauto).
    assert (e <> NUL) as N0 by (intros ->; discriminate Ne). assert (e <> dquote) as N1 by (intros ->; discriminate Ne).
    repeat (split; [assumption|]). rewrite H0. cbn [res_bind]. unfold is_ch at 1. destruct (Ascii.eqb_spec e dquote); [contradiction|].
    change 0 with (slen (@nil ascii)) at 1. rewrite (scan_all ((e :: d') ++ [" "%char]) s [] "<"%char (c :: r)); [|rewrite E; cat| |reflexivity|rewrite E; rewrite !app_length; cbn; lia].
    2:{ intros x I. apply negb_false_iff. apply in_app_iff in I. destruct I as [I|[<-|[]]]; [|reflexivity]. rewrite forallb_forall in NM. auto. }
    cbn [res_bind]. rewrite slen_nil, Z.add_0_l. rewrite H1. cbn [res_bind]. change (is_ch "<"%char NUL) with false. change (is_ch "<"%char "<"%char) with true. cbn iota. rewrite H2. cbn [res_bind].
    unfold is_ch. destruct (Ascii.eqb_spec c NUL); [contradiction|]. replace (_ >? 0) with true by sl.
    rewrite (clrncpy_at_app s [] ((e :: d') ++ [" "%char]) ("<"%char :: c :: r)); [|rewrite E; cat|reflexivity|sl|sl]. cbn [res_bind].
    replace (trim ((e :: d') ++ [" "%char])) with (trim (e :: d')); [rewrite (trim_id _ T); reflexivity|].
    unfold trim, rtrim. cbn [app ltrim]. rewrite Be. rewrite (app_comm_cons d' [" "%char] e), rev_app_distr. reflexivity.
Qed.

Lemma from_tail_ok : forall s hd url ps d u, s = hd ++ "<"%char :: url ++ ">"%char :: print_params ps -> bracketed url -> uri_parse url = Ok u ->
  Forall gparam_wf ps -> from_tail s d (slen hd) = Ok (mkNA d (Some u) ps).
Proof.
  intros s hd url ps d u E (L & C & NG & NS) U W. unfold from_tail.
  rewrite (ch_at s hd "<"%char (url ++ ">"%char :: print_params ps)); [|exact E|reflexivity]. cbn [res_bind]. change (is_ch "<"%char "<"%char) with true. cbn iota.
  rewrite (strchr_at_some s (hd ++ ["<"%char]) url ">"%char (print_params ps)); [|rewrite E; cat|sl|exact NG]. cbn [res_bind].
  assert (exists u0 c, url = u0 ++ [c] /\ c <> ";"%char) as (u0 & c & Eu & Nc).
  { destruct url as [|x url'] using rev_ind; [cbn in L; lia|]. exists url', x. split; [reflexivity|]. rewrite last_last in NS. exact NS. }
  assert (strchr_at s (slen (hd ++ ["<"%char]) + slen url - 1) ";"%char = Ok (comma_of (slen hd + 2 + slen url) (print_params ps))) as SC.
  { pose proof (params_end ps) as PE. destruct PE as [Ep|(tl & Ep)]; rewrite Ep in *.
    - rewrite (strchr_at_none s (hd ++ "<"%char :: u0) [c; ">"%char]); [reflexivity|rewrite E, Eu; cat|rewrite Eu; sl|notin].
    - rewrite (strchr_at_some s (hd ++ "<"%char :: u0) [c; ">"%char] ";"%char tl); [cbn [comma_of]; f_equal; f_equal; rewrite Eu; sl|rewrite E, Eu; cat|rewrite Eu; sl|notin]. }
  rewrite SC. cbn [res_bind].
  assert ((match comma_of (slen hd + 2 + slen url) (print_params ps) with None => Ok [] | Some g => do t <- tail_at s g ; gparams_parse t end) = Ok ps) as GP.
  { destruct (print_params ps) as [|p0 pt] eqn:Ep; cbn [comma_of]; [apply params_nil in Ep; subst; reflexivity|]. rewrite <- Ep in *.
    rewrite (tail_at_app s (hd ++ "<"%char :: url ++ [">"%char]) (print_params ps)); [|rewrite E; cat|sl]. cbn [res_bind]. apply C37_round_trip; [|exact W].
    intros ->. discriminate Ep. }
  rewrite GP. cbn [res_bind]. replace (_ <? 7) with false by sl.
  rewrite (copy_at_app s (hd ++ ["<"%char]) url (">"%char :: print_params ps)); [|rewrite E; cat|sl|sl|sl]. cbn [res_bind]. rewrite U. reflexivity.
Qed.

Lemma from_round : forall f u url, odisplay_wf (na_display f) -> na_url f = Some u -> uri_to_str u = Ok url -> uri_parse url = Ok u -> bracketed url ->
  Forall gparam_wf (na_params f) -> from_to_str f = Ok (name_text (na_display f) url (na_params f)) /\ from_parse (name_text (na_display f) url (na_params f)) = Ok f.
Proof.
  intros f u url WD EU EP UP B WP. split; [apply (from_to_str_ok f u url EU EP)|]. unfold from_parse.
  remember (name_text (na_display f) url (na_params f)) as s eqn:Es. destruct B as (L & C & NG & NS).
  assert (s = opening (na_display f) ++ "<"%char :: url ++ ">"%char :: print_params (na_params f)) as E.
  { rewrite Es. unfold name_text, opening. change ($" ") with [" "%char]. change ($"<") with ["<"%char]. change ($">") with [">"%char]. destruct (na_display f); cat. }
  assert (cstr s) as Cs.
  { rewrite E. apply cstr_app. split; [|apply cstr_cons; split; [discriminate|apply cstr_app; split; [exact C|apply cstr_cons; split; [discriminate|apply gparams_cstr, WP]]]].
    destruct (na_display f) as [d|]; [|intros []]. cbn [opening]. apply cstr_app. split; [|intros [X|[]]; discriminate X].
    destruct WD as [WD|(_ & _ & NM)]; [apply (value_trimmed d); right; exact WD|]. apply name_char_out; [exact NM|reflexivity]. }
  destruct url as [|c url']; [cbn in L; lia|].
  destruct (from_head_ok (na_display f) s c (url' ++ ">"%char :: print_params (na_params f)) WD E) as (e & NE & H0 & N1 & N2 & FH).
  { intros ->. apply C. left. reflexivity. }
  { exact Cs. }
  rewrite (scan_here _ _ _ _ _ e); [|unfold slen; destruct s; [contradiction|cbn; lia]|exact H0|unfold is_ch; destruct (Ascii.eqb_spec e " "%char); [contradiction|reflexivity]].
  cbn [res_bind]. rewrite H0. cbn [res_bind]. unfold is_ch. destruct (Ascii.eqb_spec e NUL); [contradiction|].
  rewrite FH. cbn [res_bind fst snd]. rewrite (from_tail_ok s _ (c :: url') (na_params f) (na_display f) u E); [|repeat split; assumption|exact UP|exact WP].
  rewrite <- EU. destruct f; reflexivity.
Qed.

(** The text of a well formed SIP URI can stand between angle brackets *)
Lemma last_in : forall A (b : list A) a d, b <> [] -> In (last (a ++ b) d) b.
Proof.
  intros A b a d N. destruct b as [|x b] using rev_ind; [contradiction|]. rewrite app_assoc, last_last. apply in_app_iff. right. left. reflexivity.
Qed.

Lemma host_text_in : forall h c, In c (host_text h) -> In c h \/ c = "["%char \/ c = "]"%char.
Proof. intros h c. unfold host_text. destruct (strchr h ":"%char); [|auto]. cbn [In]. rewrite in_app_iff. cbn [In]. intuition. Qed.
Lemma host_text_nonempty : forall h, h <> [] -> host_text h <> [].
Proof. intros h N. unfold host_text. destruct (strchr h ":"%char); [discriminate|exact N]. Qed.

Lemma uparam_last : forall p, uparam_wf p -> exists b, b <> [] /\ ~ In ";"%char b /\ exists a, uparam_text p = a ++ b.
Proof.
  intros [n v] (N & _ & _ & _ & V). cbn [fst snd] in *. pose proof (esc_nonempty uri_param_def n N) as L.
  exists (esc uri_param_def n ++ match v with None => [] | Some v => "="%char :: esc uri_param_def v end). split; [intros X; apply app_eq_nil in X as [X _]; rewrite X in L; cbn in L; lia|].
  split; [destruct v; notin|]. exists [";"%char]. unfold uparam_text. cbn [fst snd]. destruct v; reflexivity.
Qed.

Lemma uheaders_notin : forall hs c, allowed header_param_def c = false -> c <> "%"%char -> c <> "="%char -> c <> "?"%char -> c <> "&"%char -> ~ In c (uheaders_text hs).
Proof.
  intros hs c A B N1 N2 N3. assert (forall sep h, c <> sep -> ~ In c (uheader_text sep h)) as H.
  { intros sep h N I. unfold uheader_text in I. destruct I as [I|I]; [congruence|]. apply in_app_iff in I. destruct I as [I|[I|I]]; [|congruence|]; revert I; apply esc_notin; auto. }
  destruct hs as [|h hs]; [intros []|]. cbn [uheaders_text]. rewrite in_app_iff. intros [I|I]; [exact (H _ _ N2 I)|]. apply in_flat_map in I. destruct I as (x & _ & I). exact (H _ _ N3 I).
Qed.
Lemma uparams_notin : forall ps c, allowed uri_param_def c = false -> c <> "%"%char -> c <> "="%char -> c <> ";"%char -> ~ In c (flat_map uparam_text ps).
Proof.
  intros ps c A B N1 N2 I. apply in_flat_map in I. destruct I as ([n v] & _ & I). unfold uparam_text in I. cbn [fst snd] in I. destruct I as [I|I]; [congruence|].
  apply in_app_iff in I. destruct I as [I|I]; [revert I; apply esc_notin; auto|]. destruct v as [v|]; [|destruct I]. destruct I as [I|I]; [congruence|]. revert I. apply esc_notin; auto.
Qed.
Lemma user_notin : forall u c, allowed userinfo_def c = false -> allowed password_def c = false -> c <> "%"%char -> c <> ":"%char -> c <> "@"%char -> ~ In c (user_text u).
Proof.
  intros u c A A' B N1 N2 I. unfold user_text in I. destruct (u_username u) as [n|]; [|destruct I]. rewrite !in_app_iff in I. destruct I as [I|[I|I]].
  - revert I. apply esc_notin; auto.
  - destruct (u_password u) as [p|]; [|destruct I]. destruct I as [I|I]; [congruence|]. revert I. apply esc_notin; auto.
  - destruct I as [I|[]]. congruence.
Qed.

Lemma uri_bracketed : forall u scheme host, uri_wf u scheme host -> cstr host -> ~ In ">"%char host ->
  (forall p, u_port u = Some p -> cstr p /\ ~ In ">"%char p) -> 6 <= slen (uri_text u scheme host) -> bracketed (uri_text u scheme host).
Proof.
  intros u scheme host [W1 W2 W3 W5 W6 (W7 & W8 & W9) W10 W11 W12 W13] CH NH PH L.
  assert (forall c, c = NUL \/ c = ">"%char -> ~ In c (uri_text u scheme host)) as NI.
  { intros c Hc I. unfold uri_text in I. rewrite in_app_iff in I. cbn [In] in I. rewrite !in_app_iff in I.
    destruct I as [I|[I|[I|[I|[I|[I|I]]]]]].
    - revert I. apply alpha_notin; [exact W2|]. destruct Hc as [->| ->]; reflexivity.
    - destruct Hc as [->| ->]; discriminate I.
    - revert I. destruct Hc as [->| ->]; apply user_notin; first [reflexivity|discriminate].
    - apply host_text_in in I. destruct Hc as [->| ->]; destruct I as [I|[I|I]]; first [discriminate I|exact (CH I)|exact (NH I)].
    - unfold port_text in I. destruct (u_port u) as [p|]; [|destruct I]. destruct (PH p eq_refl) as [P1 P2].
      destruct I as [I|I]; [destruct Hc as [->| ->]; discriminate I|]. destruct Hc as [->| ->]; [exact (P1 I)|exact (P2 I)].
    - revert I. destruct Hc as [->| ->]; apply uparams_notin; first [reflexivity|discriminate].
    - revert I. destruct Hc as [->| ->]; apply uheaders_notin; first [reflexivity|discriminate]. }
  split; [exact L|]. split; [apply NI; auto|]. split; [apply NI; auto|].
  unfold uri_text. rewrite (shown_all _ W11). set (Q := uheaders_text (u_headers u)).
  assert (forall a b, b <> [] -> ~ In ";"%char b -> last (a ++ b) NUL <> ";"%char) as LA.
  { intros a b N X Y. pose proof (last_in _ b a NUL N) as I. rewrite Y in I. contradiction. }
  destruct Q as [|q Q'] eqn:EQ.
  - rewrite app_nil_r. destruct (u_params u) as [|p ps] using rev_ind.
    + cbn [flat_map]. rewrite app_nil_r.
      replace (scheme ++ ":"%char :: user_text u ++ host_text host ++ port_text (u_port u)) with ((scheme ++ ":"%char :: user_text u) ++ host_text host ++ port_text (u_port u)) by cat.
      apply LA.
      * intros X. apply app_eq_nil in X as [X _]. exact (host_text_nonempty _ W7 X).
      * rewrite in_app_iff. intros [I|I]; [apply host_text_in in I; destruct I as [I|[I|I]]; [revert I; wo|discriminate I|discriminate I]|].
        unfold port_text in I. destruct (u_port u) as [p|]; [|destruct I]. destruct W10 as (_ & _ & W10). destruct I as [I|I]; [discriminate I|]. revert I. wo.
    + clear IHps. rewrite flat_map_app. cbn [flat_map]. rewrite app_nil_r. apply Forall_app in W11 as [_ W11]. inversion W11 as [|? ? Wp _]; subst.
      destruct (uparam_last p Wp) as (b & Nb & Sb & a & ->).
      match goal with |- last ?x _ <> _ => replace x with ((scheme ++ ":"%char :: user_text u ++ host_text host ++ port_text (u_port u) ++ flat_map uparam_text ps ++ a) ++ b) by cat end.
      apply LA; assumption.
  - rewrite <- EQ. match goal with |- last ?x _ <> _ => replace x with ((scheme ++ ":"%char :: user_text u ++ host_text host ++ port_text (u_port u) ++ flat_map uparam_text (u_params u)) ++ Q) by cat end.
    apply LA; [rewrite EQ; discriminate|]. apply uheaders_notin; first [reflexivity|discriminate].
Qed.

(** A name-addr with a SIP URI *)
Record nameaddr_wf (f : nameaddr) (u : uri) (scheme host : str) : Prop := {
  nw_display : odisplay_wf (na_display f);
  nw_url : na_url f = Some u;
  nw_uri : uri_wf u scheme host;
  nw_host : cstr host /\ ~ In ">"%char host;
  nw_port : forall p, u_port u = Some p -> cstr p /\ ~ In ">"%char p;
  nw_length : 6 <= slen (uri_text u scheme host);
  nw_params : Forall gparam_wf (na_params f) }.

Theorem C35_round_trip : forall f u scheme host, nameaddr_wf f u scheme host ->
  exists t, from_to_str f = Ok t /\ from_parse t = Ok f.
Proof.
  intros f u scheme host [WD EU WU [CH NH] WPo L WP]. destruct (C33_round_trip u scheme host WU) as (url & E1 & E2).
  assert (url = uri_text u scheme host) as ->.
  { pose proof WU as [W1 W2 W3 W5 W6 W7 W10 W11 W12 W13]. rewrite (uri_to_str_ok u host W6 W13) in E1.
    - rewrite W1 in E1. injection E1 as <-. reflexivity.
    - eapply Forall_impl; [|exact W12]. intros [n v] (_ & _ & V). destruct v; [discriminate|contradiction]. }
  eexists. eapply from_round; eauto. apply uri_bracketed; assumption.
Qed.

(** The same with a URI of another scheme *)
Theorem C35_other_scheme : forall d scheme txt ps, odisplay_wf d -> letters scheme -> 2 <= slen scheme -> 2 <= slen txt -> 5 <= slen scheme + slen txt ->
  (slen scheme = 2 \/ strncaseeq 3 scheme ($"sip") = false) -> cstr txt -> ~ In ">"%char txt -> last txt NUL <> ";"%char -> Forall gparam_wf ps ->
  let f := mkNA d (Some (mkUri (Some scheme) None None None None [] [] (Some txt))) ps in
  exists t, from_to_str f = Ok t /\ from_parse t = Ok f.
Proof.
  intros d scheme txt ps WD LS L1 L2 L3 NS C NG NL WP f. destruct (C33_other_scheme scheme txt LS L1 L2 NS) as (url & E1 & E2).
  assert (url = scheme ++ ":"%char :: txt) as Eu.
  { unfold uri_to_str in E1. cbn [u_host u_string u_scheme] in E1. unfold out_new in E1. replace (_ <? 1) with false in E1 by sl. cbn [res_bind] in E1.
    change ($":") with [":"%char] in E1. rewrite emit_ok in E1 by sl. cbn [res_bind] in E1. rewrite emit_ok in E1 by sl. cbn [res_bind o_text] in E1. injection E1 as <-. cat. }
  eexists. eapply from_round; unfold f; cbn [na_display na_url na_params]; eauto. rewrite Eu. split; [sl|]. split.
  - apply cstr_app. split; [apply alpha_notin; [exact LS|reflexivity]|]. apply cstr_cons. split; [discriminate|exact C].
  - split; [rewrite in_app_iff; intros [I|[I|I]]; [revert I; apply alpha_notin; [exact LS|reflexivity]|discriminate I|contradiction]|].
    replace (scheme ++ ":"%char :: txt) with ((scheme ++ [":"%char]) ++ txt) by cat. destruct txt as [|x t] using rev_ind; [cbn in L2; lia|].
    rewrite app_assoc, last_last. rewrite last_last in NL. exact NL.
Qed.

(** Contact: as From, and "*" alone is kept as it is *)
Theorem C35_contact : forall f u scheme host, nameaddr_wf f u scheme host -> (forall d, na_display f = Some d -> hd NUL d <> "*"%char) ->
  exists t, contact_to_str f = Ok t /\ contact_parse t = Ok f.
Proof.
  intros f u scheme host W ND. destruct (C35_round_trip f u scheme host W) as (t & E1 & E2). exists t. split.
  - unfold contact_to_str. destruct (na_display f) as [[|c d]|] eqn:ED; auto. specialize (ND _ eq_refl). cbn [hd] in ND. unfold is_ch. destruct (Ascii.eqb_spec c "*"%char); [contradiction|exact E1].
  - unfold contact_parse. destruct t as [|c t]; [exact E2|]. unfold is_ch. destruct (Ascii.eqb_spec c "*"%char) as [->|]; [|exact E2]. exfalso.
    destruct W as [WD EU WU _ _ _ _]. destruct (uri_to_str u) as [url|e|] eqn:EP.
    + rewrite (from_to_str_ok f u url EU EP) in E1. injection E1 as E1. unfold name_text in E1. change ($"<") with ["<"%char] in E1. destruct (na_display f) as [[|x d]|].
      * destruct WD as [(q & X & _)|(X & _)]; [discriminate X|apply X; reflexivity].
      * cbn [app] in E1. injection E1 as -> _. apply (ND _ eq_refl). reflexivity.
      * discriminate E1.
    + unfold from_to_str in E1. rewrite EU, EP in E1. discriminate.
    + unfold from_to_str in E1. rewrite EU, EP in E1. discriminate.
Qed.
Theorem C35_contact_star : contact_parse ($"*") = Ok (mkNA (Some ($"*")) None []) /\ contact_to_str (mkNA (Some ($"*")) None []) = Ok ($"*").
Proof. split; reflexivity. Qed.

(** Findings.  White space before the display name is counted in its length but not skipped. *)
Theorem C35_leading_space_refuted : exists f, from_parse ($"  Bob <sip:bob@host>") = Ok f /\ na_display f = Some ($"Bo").
Proof. eexists. split; vm_compute; reflexivity. Qed.
(** A ';' just before '>' belongs to the URI, but is taken as the start of the parameters. *)
Theorem C35_semicolon_refuted : exists f, from_parse ($"<tel:12345;>;tag=1") = Ok f /\ na_params f = [($">", None); ($"tag", Some ($"1"))].
Proof. eexists. split; vm_compute; reflexivity. Qed.

Definition ex_na : nameaddr := mkNA (Some ($"""A \""B\"" <x>; y""")) (Some ex_uri) [($"tag", Some ($"a6c")); ($"q", None)].
Definition ex_na2 : nameaddr := mkNA (Some ($"Bob van Dam")) (Some ex_uri) [].
Example C35_witness : nameaddr_wf ex_na ex_uri ($"sips") ($"2001:db8::1") /\ nameaddr_wf ex_na2 ex_uri ($"sips") ($"2001:db8::1").
Proof.
  assert (forall s, existsb (Ascii.eqb NUL) s = false -> cstr s) as CS.
  { intros s H I. rewrite <- not_true_iff_false in H. apply H. apply existsb_exists. exists NUL. auto. }
  assert (forall cs s, forallb (fun c => negb (existsb (Ascii.eqb c) s)) cs = true -> without cs s) as W.
  { intros cs s H c I J. rewrite forallb_forall in H. specialize (H c I). apply negb_true_iff in H. rewrite <- not_true_iff_false in H. apply H. apply existsb_exists. exists c. split; [exact J|apply Ascii.eqb_refl]. }
  destruct C33_witness as [U _].
  assert (forall c, existsb (Ascii.eqb c) ($"2001:db8::15061") = false -> ~ In c ($"2001:db8::15061")) as NI.
  { intros c H I. rewrite <- not_true_iff_false in H. apply H. apply existsb_exists. exists c. split; [exact I|apply Ascii.eqb_refl]. }
  assert (cstr ($"2001:db8::1") /\ ~ In ">"%char ($"2001:db8::1")) as HH by (split; [apply CS; reflexivity|apply (W [">"%char]); [reflexivity|left; reflexivity]]).
  assert (forall p, u_port ex_uri = Some p -> cstr p /\ ~ In ">"%char p) as HP by (intros p [= <-]; split; [apply CS; reflexivity|apply (W [">"%char]); [reflexivity|left; reflexivity]]).
  split; constructor; try exact U; try exact HH; try exact HP; try reflexivity; try (vm_compute; discriminate).
  - left. exists ($"A \""B\"" <x>; y"). split; [reflexivity|]. cbn [list_ascii_of_string].
    repeat first [apply q_nil | apply q_pair; [discriminate|] | apply q_char; [discriminate|discriminate|discriminate|]].
  - constructor; [|constructor; [|constructor]]; (split; [discriminate|]); (split; [reflexivity|]); (split; [apply CS; reflexivity|]); (split; [apply W; reflexivity|]); cbn [snd]; auto.
    left. split; [reflexivity|]. split; [apply CS; reflexivity|]. split; [apply W; reflexivity|]. eexists _, _. split; [reflexivity|]. split; discriminate.
  - right. split; [discriminate|]. split; reflexivity.
  - constructor.
Qed.
Print Assumptions C35_round_trip.
Print Assumptions C35_contact.

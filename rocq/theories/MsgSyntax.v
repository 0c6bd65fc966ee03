(** Well formed header values survive the printing of the message: C57 with conditions on the
    fields of the message instead of on the texts printed. *)
From Coq Require Import String ZArith NArith Ascii Bool List Lia ZifyBool ZifyNat.
From Verif Require Import Base Str StrLemmas Types MemModel MemLemmas CString CStringLemmas SafeLemmas PortModel PortProps ViaModel UriModel EscapeProps UriProps UriRound HdrModel HdrProps HdrRound FromRound AuthModel AuthSafe ViaRound AuthRound MsgFields MsgModel MsgProps MsgSplit MsgSafe MsgFold MsgBody MsgPrint MsgText MsgStart MsgRound MsgWhole MsgMulti.
Import ListNotations.
Open Scope Z_scope.

(** *** Specification *)
(** text without line breaks, terminator, comma, '<' and double quote *)
Definition quiet (s : str) : Prop := without [cr; lf; NUL; ","%char; "<"%char; dquote] s.
(** quoted string on one line, without escapes *)
Definition quoted_line (v : str) : Prop := quoted_string v /\ without [cr; lf; bslash] v.
Definition param_line (p : param) : Prop :=
  gparam_wf p /\ quiet (fst p) /\ match snd p with None => True | Some v => quiet v \/ quoted_line v end.

Record via_line (v : via) : Prop := {
  vl_wf : exists ver pr h, via_wf v ver pr h /\ quiet ver /\ quiet pr /\ quiet h;
  vl_port : match v_port v with None => True | Some p => quiet p end;
  vl_comment : match v_comment v with None => True | Some c => quiet c end;
  vl_params : Forall param_line (v_params v) }.
Record nameaddr_line (f : nameaddr) : Prop := {
  nl_wf : exists u scheme host, nameaddr_wf f u scheme host /\ known_scheme scheme /\ without unquoted_specials host /\
            match u_port u with None => True | Some p => without unquoted_specials p end;
  nl_display : match na_display f with None => True | Some d => without [cr; lf; bslash] d end;
  nl_params : Forall param_line (na_params f) }.
Definition call_id_line (c : call_id) : Prop :=
  exists n, ci_number c = Some n /\ ViaRound.field ($"@") n /\ without [cr; lf; NUL] n /\
    match ci_host c with None => True | Some h => h <> [] /\ trimmed h /\ without [cr; lf; NUL] h end.
Definition cseq_line (c : cseq) : Prop :=
  exists n me, cs_number c = Some n /\ cs_method c = Some me /\ ViaRound.field ($" ") n /\ without [cr; lf; NUL] n /\
    me <> [] /\ trimmed me /\ without [cr; lf; NUL] me.
Definition ctype_line (c : content_type) : Prop :=
  exists t u, ctype_wf c t u /\ quiet t /\ quiet u /\ Forall param_line (ct_params c).

(** the authentication headers: fields as in C49, auth-scheme and values on one line *)
Definition scheme_line (o : option str) : Prop := opt (without [tab; cr; lf]) o.
Definition value_line (o : option str) : Prop := opt (without [cr; lf]) o.
Definition www_line (w : www_auth) : Prop :=
  www_wf w /\ scheme_line (w_auth_type w) /\ value_line (w_realm w) /\ value_line (w_domain w) /\ value_line (w_nonce w) /\ value_line (w_opaque w) /\
  value_line (w_stale w) /\ value_line (w_algorithm w) /\ value_line (w_qop w) /\ value_line (w_version w) /\ value_line (w_targetname w) /\ value_line (w_gssapi w).
Definition authz_line (a : authz) : Prop :=
  authz_wf a /\ scheme_line (a_auth_type a) /\ value_line (a_username a) /\ value_line (a_realm a) /\ value_line (a_nonce a) /\ value_line (a_uri a) /\
  value_line (a_response a) /\ value_line (a_digest a) /\ value_line (a_algorithm a) /\ value_line (a_cnonce a) /\ value_line (a_opaque a) /\
  value_line (a_message_qop a) /\ value_line (a_nonce_count a) /\ value_line (a_version a) /\ value_line (a_targetname a) /\ value_line (a_gssapi a) /\
  value_line (a_crand a) /\ value_line (a_cnum a).
(* not both a nextnonce and an opaque: C40_authentication_info_refuted *)
Definition ainfo_line (a : authinfo) : Prop :=
  ainfo_wf a /\ (ai_nextnonce a = None \/ ai_opaque a = None) /\ scheme_line (ai_auth_type a) /\ value_line (ai_nextnonce a) /\ value_line (ai_cnonce a) /\
  value_line (ai_rspauth a) /\ value_line (ai_nonce_count a) /\ value_line (ai_qop a) /\ value_line (ai_snum a) /\ value_line (ai_srand a) /\
  value_line (ai_targetname a) /\ value_line (ai_realm a) /\ value_line (ai_opaque a).

(** *** Proofs *)
Definition piece (t : str) : Prop := element t /\ without [cr; lf; NUL] t.
Definition starts (t : str) : Prop := t <> [] /\ is_blank (hd NUL t) = false.
Definition ends (t : str) : Prop := t <> [] /\ is_blank (last t NUL) = false.
Lemma element_app : forall a b, element a -> element b -> element (a ++ b).
Proof.
  intros a b A B. induction A as [|c e N1 N2 N3 A IH|q e N A IH|sch u e K U A IH]; cbn [app]; auto.
  - constructor; auto.
  - rewrite <- app_assoc. cbn [app]. apply el_quoted; auto.
  - rewrite <- !app_assoc. cbn [app]. rewrite <- !app_assoc. cbn [app]. apply el_uri; auto.
Qed.
Lemma piece_app : forall a b, piece a -> piece b -> piece (a ++ b).
Proof. intros a b [A1 A2] [B1 B2]. split; [apply element_app; assumption|apply without_app; assumption]. Qed.
Lemma piece_nil : piece [].
Proof. split; [constructor|intros c _ []]. Qed.
Lemma quiet_piece : forall s, quiet s -> piece s.
Proof.
  intros s Q. split; [|eapply without_incl; [exact Q|intros x; cbn; tauto]]. induction s as [|c s IH]; [constructor|].
  assert (forall d, In d [cr; lf; NUL; ","%char; "<"%char; dquote] -> c <> d) as N by (intros d D ->; apply (Q d D); left; reflexivity).
  constructor; [apply N; cbn; tauto|apply N; cbn; tauto|apply N; cbn; tauto|]. apply IH. intros d D I. apply (Q d D). right. exact I.
Qed.
Lemma piece_cons : forall c s, existsb (Ascii.eqb c) [cr; lf; NUL; ","%char; "<"%char; dquote] = false -> piece s -> piece (c :: s).
Proof.
  intros c s N P. apply (piece_app [c] s); [|exact P]. apply quiet_piece. intros d D [I|[]]. subst d. rewrite <- not_true_iff_false in N. apply N. apply existsb_exists. exists c. split; [exact D|apply Ascii.eqb_refl].
Qed.
Lemma piece_quoted : forall v, quoted_line v -> piece v.
Proof.
  intros v [(t & -> & Q) W].
  assert (cstr t) as CT by (apply qtext_cstr; exact Q).
  assert (~ In dquote t) as ND.
  { assert (~ In bslash t) as NB by (intros I; apply (W bslash); [cbn; tauto|right; apply in_or_app; left; exact I]). clear W CT.
    induction Q as [|c t N1 N2 N3 Q IH|c t N1 Q IH]; [intros []| |exfalso; apply NB; left; reflexivity].
    intros [I|I]; [congruence|apply IH; [intros J; apply NB; right; exact J|exact I]]. }
  split; [apply (el_quoted t []); [exact ND|constructor]|].
  intros c C I. assert (c = NUL \/ In c [cr; lf; bslash]) as [->|C2]; [cbn in C |- *; intuition auto| |exact (W c C2 I)].
  destruct I as [I|I]; [discriminate|]. apply in_app_or in I. destruct I as [I|[I|[]]]; [exact (CT I)|discriminate].
Qed.
Lemma starts_app : forall a b, starts a -> starts (a ++ b).
Proof. intros [|c a] b [N B]; [congruence|]. split; [discriminate|exact B]. Qed.
Lemma ends_app : forall a b, ends b -> ends (a ++ b).
Proof. intros a b [N B]. split; [destruct a; [exact N|discriminate]|]. destruct b as [|x b] using rev_ind; [congruence|]. rewrite app_assoc, last_last. rewrite last_last in B. exact B. Qed.
Lemma ends_opt : forall a b, ends a -> b = [] \/ ends b -> ends (a ++ b).
Proof. intros a b A [->|B]; [rewrite app_nil_r; exact A|apply ends_app, B]. Qed.
Lemma trimmed_starts : forall s, s <> [] -> trimmed s -> starts s.
Proof. intros s N T. apply trimmed_iff in T. destruct T as [T|[T _]]; [congruence|]. split; assumption. Qed.
Lemma trimmed_ends : forall s, s <> [] -> trimmed s -> ends s.
Proof. intros s N T. apply trimmed_iff in T. destruct T as [T|[_ T]]; [congruence|]. split; assumption. Qed.
Lemma value_text_of : forall t, without [cr; lf; NUL] t -> starts t -> ends t -> value_text t.
Proof. intros t W [N S] [_ E]. split; [exact N|]. split; [apply trimmed_iff; right; split; assumption|exact W]. Qed.
Lemma ends_cons : forall c s, ends s -> ends (c :: s).
Proof. intros c s H. apply (ends_app [c] s H). Qed.
Lemma value_ends : forall v, plain_value v \/ quoted_string v -> ends v.
Proof.
  intros v [(T & _ & _ & c & v' & -> & _)|(t & -> & _)]; [apply trimmed_ends; [discriminate|exact T]|].
  split; [discriminate|]. change (dquote :: t ++ [dquote]) with ((dquote :: t) ++ [dquote]). rewrite last_last. reflexivity.
Qed.
Lemma param_piece : forall p, param_line p -> piece (print_param p) /\ ends (print_param p).
Proof.
  intros [n v] ((N & T & C & _ & V) & Q & L). cbn [fst snd] in *. unfold print_param. cbn [fst snd]. destruct v as [v|]; cbn [snd] in *.
  - split; [|apply ends_cons, ends_app, ends_cons, value_ends, V]. apply piece_cons; [reflexivity|]. apply piece_app; [apply quiet_piece, Q|]. apply piece_cons; [reflexivity|].
    destruct L as [L|L]; [apply quiet_piece, L|apply piece_quoted, L].
  - split; [apply piece_cons; [reflexivity|apply quiet_piece, Q]|apply ends_cons, trimmed_ends; assumption].
Qed.
Lemma params_piece : forall ps, Forall param_line ps -> piece (print_params ps) /\ (print_params ps = [] \/ ends (print_params ps)).
Proof.
  intros ps H. induction H as [|p ps P _ [I1 I2]]; [split; [apply piece_nil|left; reflexivity]|]. destruct (param_piece p P) as [P1 P2].
  unfold print_params in *. cbn [flat_map]. split; [apply piece_app; assumption|right; apply ends_opt; assumption].
Qed.
Lemma ctparams_piece : forall ps, Forall (fun p => gparam_wf p /\ snd p <> None) ps -> Forall param_line ps -> piece (flat_map ctparam_text ps) /\ (flat_map ctparam_text ps = [] \/ ends (flat_map ctparam_text ps)).
Proof.
  intros ps H L. induction L as [|p ps P L IH]; [split; [apply piece_nil|left; reflexivity]|]. inversion H as [|? ? [_ NV] H2]; subst. destruct (IH H2) as [I1 I2]. cbn [flat_map].
  destruct p as [n [v|]]; [|cbn in NV; congruence]. destruct P as ((N & T & C & _ & V) & Q & LL). cbn [fst snd] in *. unfold ctparam_text. cbn [fst snd].
  assert (piece ($"; " ++ n ++ $"=" ++ v) /\ ends ($"; " ++ n ++ $"=" ++ v)) as [P1 P2].
  { split; [|apply ends_app, ends_app, ends_app, value_ends, V]. apply piece_cons; [reflexivity|]. apply piece_cons; [reflexivity|]. cbn [app]. apply piece_app; [apply quiet_piece, Q|]. apply piece_cons; [reflexivity|]. cbn [app].
    destruct LL as [LL|LL]; [apply quiet_piece, LL|apply piece_quoted, LL]. }
  split; [apply piece_app; assumption|right; apply ends_opt; assumption].
Qed.

Lemma survives_piece : forall A name (f : A -> res str) (p : str -> res A) x t, f x = Ok t -> p t = Ok x -> piece t -> starts t -> ends t -> survives name f p x.
Proof. intros A name f p x t F P [E W] S N. exists t. split; [exact F|]. split; [exact P|]. split; [apply value_text_of; assumption|right; right; exact E]. Qed.

Theorem C57_via : forall v, via_line v -> survives ($"via") via_print via_parse v.
Proof.
  intros v [(ver & pr & h & W & Q1 & Q2 & Q3) QP QC QL]. destruct (C34_round_trip v ver pr h W) as (t & T1 & T2).
  destruct (params_piece _ QL) as [PP PE]. pose proof W as [[E1 (N1 & R1 & _)] [E2 _] [E3 (N3 & R3 & _)] WP _ WC].
  assert (t = $"SIP/" ++ ver ++ $"/" ++ pr ++ $" " ++ (host_text h ++ port_text (v_port v)) ++ print_params (v_params v) ++ match v_comment v with None => [] | Some c => " "%char :: "("%char :: c ++ [")"%char] end) as ->.
  { rewrite C40_via in T1. unfold via_to_str in T1. rewrite E1, E2, E3 in T1. unfold host_text, port_text, has_colon in *. 
    destruct (strchr h ":"%char); destruct (v_port v); destruct (v_comment v); injection T1 as <-; rewrite ?app_nil_r; repeat (cbn [app]; rewrite <- ?app_assoc); reflexivity. }
  assert (piece (host_text h ++ port_text (v_port v)) /\ ends (host_text h ++ port_text (v_port v))) as [HP HE].
  { split.
    - apply piece_app; [unfold host_text; destruct (strchr h ":"%char); [apply piece_cons; [reflexivity|]; apply piece_app; [apply quiet_piece, Q3|apply piece_cons; [reflexivity|apply piece_nil]]|apply quiet_piece, Q3]|].
      unfold port_text. destruct (v_port v) as [p|]; [apply piece_cons; [reflexivity|apply quiet_piece, QP]|apply piece_nil].
    - apply ends_opt; [unfold host_text; destruct (strchr h ":"%char); [apply ends_cons, ends_app; split; [discriminate|reflexivity]|apply trimmed_ends; assumption]|].
      unfold port_text. destruct (v_port v) as [p|]; [right|left; reflexivity]. destruct (WP p eq_refl) as ((NP & TP & _) & _). apply ends_cons, trimmed_ends; assumption. }
  apply (survives_piece _ _ _ _ _ _ T1 T2).
  - apply piece_app; [apply quiet_piece, chk_without; reflexivity|]. apply piece_app; [apply quiet_piece, Q1|]. apply piece_app; [apply quiet_piece, chk_without; reflexivity|]. apply piece_app; [apply quiet_piece, Q2|].
    apply piece_app; [apply quiet_piece, chk_without; reflexivity|]. apply piece_app; [exact HP|]. apply piece_app; [exact PP|].
    destruct (v_comment v) as [c|]; [|apply piece_nil]. apply piece_cons; [reflexivity|]. apply piece_cons; [reflexivity|]. apply piece_app; [apply quiet_piece, QC|apply piece_cons; [reflexivity|apply piece_nil]].
  - split; [discriminate|reflexivity].
  - do 5 apply ends_app. apply ends_opt; [exact HE|].
    destruct (v_comment v) as [c|]; [right; apply ends_app, ends_cons, ends_cons, ends_app; split; [discriminate|reflexivity]|rewrite app_nil_r; exact PE].
Qed.

Lemma nameaddr_text : forall f, nameaddr_line f -> exists t, from_to_str f = Ok t /\ from_parse t = Ok f /\ piece t /\ starts t /\ ends t.
Proof.
  intros f [(u & scheme & host & W & K & H & P) QD QL]. destruct (C35_round_trip f u scheme host W) as (t & T1 & T2). destruct (params_piece _ QL) as [PP PE].
  pose proof W as [WD EU WU _ _ _ _]. destruct (C33_round_trip u scheme host WU) as (url & U1 & _).
  assert (url = UriProps.uri_text u scheme host) as ->.
  { destruct WU as [W1 W2 W3 W5 W6 W7 W10 W11 W12 W13]. rewrite (uri_to_str_ok u host W6 W13) in U1.
    - rewrite W1 in U1. cbn [default_scheme] in U1. congruence.
    - eapply Forall_impl; [|exact W12]. intros [n v] (_ & _ & V). destruct v; [discriminate|contradiction]. }
  rewrite (from_to_str_ok f u _ EU U1) in T1. pose proof (uri_text_without u scheme host WU H P) as UW.
  assert (t = match na_display f with None => [] | Some d => d ++ $" " end ++ $"<" ++ UriProps.uri_text u scheme host ++ $">" ++ print_params (na_params f)) as -> by (unfold name_text in T1; congruence).
  assert (piece ($"<" ++ UriProps.uri_text u scheme host ++ $">")) as PU.
  { unfold UriProps.uri_text in UW |- *. set (r := user_text u ++ _) in *. split.
    - change ($"<") with ["<"%char]. change ($">") with [">"%char]. rewrite <- app_assoc. cbn [app]. apply el_uri; [exact K| |constructor].
      assert (without unquoted_specials r) as R by (intros c C I; apply (UW c C); apply in_or_app; right; right; exact I). clear - R.
      induction r as [|c r IH]; [constructor|]. constructor; [intros ->; apply (R ">"%char); [cbn; tauto|left; reflexivity]|intros ->; apply (R dquote); [cbn; tauto|left; reflexivity]|].
      apply IH. intros d D I. apply (R d D). right. exact I.
    - apply without_app; [apply chk_without; reflexivity|]. apply without_app; [|apply chk_without; reflexivity]. eapply without_incl; [exact UW|intros x; cbn; tauto]. }
  eexists. split; [eapply from_to_str_ok; eassumption|]. split; [exact T2|]. split; [|split].
  - unfold name_text. apply piece_app.
    + destruct (na_display f) as [d|]; [|apply piece_nil]. apply piece_app; [|apply piece_cons; [reflexivity|apply piece_nil]].
      destruct WD as [WD|(_ & _ & WD)]; [apply piece_quoted; split; assumption|]. apply quiet_piece. intros c C I. rewrite forallb_forall in WD. specialize (WD c I). cbn [In] in C.
      repeat (destruct C as [C|C]; [subst c; discriminate WD|]). contradiction.
    + replace ($"<" ++ UriProps.uri_text u scheme host ++ $">" ++ print_params (na_params f)) with (($"<" ++ UriProps.uri_text u scheme host ++ $">") ++ print_params (na_params f)) by (rewrite <- !app_assoc; reflexivity).
      apply piece_app; assumption.
  - unfold name_text. destruct (na_display f) as [d|]; [|split; [discriminate|reflexivity]]. rewrite <- app_assoc. apply starts_app.
    destruct WD as [(q & -> & _)|(N & T & _)]; [split; [discriminate|reflexivity]|apply trimmed_starts; assumption].
  - unfold name_text. do 3 apply ends_app. apply ends_opt; [split; [discriminate|reflexivity]|exact PE].
Qed.
Theorem C57_from : forall name f, nameaddr_line f -> survives name from_to_str from_parse f.
Proof. intros name f L. destruct (nameaddr_text f L) as (t & T1 & T2 & P & S & E). apply (survives_piece _ _ _ _ _ _ T1 T2 P S E). Qed.
Theorem C57_contact : forall f, nameaddr_line f -> (forall d, na_display f = Some d -> hd NUL d <> "*"%char) -> survives ($"contact") contact_to_str contact_parse f.
Proof.
  intros f L ND. destruct (nameaddr_text f L) as (t & T1 & T2 & P & S & E). destruct L as [(u & scheme & host & W & _) _ _].
  destruct (C35_contact f u scheme host W ND) as (t' & T3 & T4). apply (survives_piece _ _ _ _ _ t); try assumption.
  - unfold contact_to_str. destruct (na_display f) as [[|c d]|] eqn:ED; auto. specialize (ND _ eq_refl). cbn [hd] in ND. unfold is_ch. destruct (Ascii.eqb_spec c "*"%char); [contradiction|exact T1].
  - assert (t' = t) as ->; [|exact T4]. enough (contact_to_str f = Ok t) by congruence.
    unfold contact_to_str. destruct (na_display f) as [[|c d]|] eqn:ED; auto. specialize (ND _ eq_refl). cbn [hd] in ND. unfold is_ch. destruct (Ascii.eqb_spec c "*"%char); [contradiction|exact T1].
Qed.
Theorem C57_call_id : forall c, call_id_line c -> survives ($"call-id") call_id_to_str call_id_parse c.
Proof.
  intros c (n & E & F & W & H). destruct (C36_call_id_round_trip c n E F) as (t & T1 & T2); [intros h EH; rewrite EH in H; tauto|]. destruct F as (N & T & _).
  exists t. split; [exact T1|]. split; [exact T2|]. rewrite (C40_call_id c n E) in T1. assert (n ++ match ci_host c with None => [] | Some h => $"@" ++ h end = t) as <- by congruence.
  split; [|right; left; cbn; tauto]. apply value_text_of.
  - apply without_app; [exact W|]. destruct (ci_host c) as [h|]; [|intros x _ []]. apply without_app; [apply chk_without; reflexivity|tauto].
  - apply starts_app, trimmed_starts; assumption.
  - apply ends_opt; [apply trimmed_ends; assumption|]. destruct (ci_host c) as [h|]; [right; apply ends_app, trimmed_ends; tauto|left; reflexivity].
Qed.
Theorem C57_cseq : forall c, cseq_line c -> survives ($"cseq") cseq_to_str cseq_parse c.
Proof.
  intros c (n & me & E1 & E2 & F & W & N2 & T2 & W2). assert (ltrim me = me) as LT.
  { destruct (trimmed_starts _ N2 T2) as [_ S]. destruct me as [|x me]; [reflexivity|]. cbn [hd] in S. cbn [ltrim]. rewrite S. reflexivity. }
  destruct (C36_cseq_round_trip c n me E1 E2 F LT) as (t & T1 & T3). destruct F as (N & T & _). exists t. split; [exact T1|]. split; [exact T3|].
  rewrite (C40_cseq c n me E1 E2) in T1. assert (n ++ $" " ++ me = t) as <- by congruence. split; [|right; left; cbn; tauto]. apply value_text_of.
  - apply without_app; [exact W|]. apply without_app; [apply chk_without; reflexivity|exact W2].
  - apply starts_app, trimmed_starts; assumption.
  - do 2 apply ends_app. apply trimmed_ends; assumption.
Qed.
Theorem C57_content_type : forall name c, ctype_line c -> survives name ctype_to_str ctype_parse c /\ survives name accept_to_str ctype_parse c.
Proof.
  intros name c (t & u & W & Q1 & Q2 & L). destruct (C38_content_type c t u W) as (x & X1 & X2). destruct (C38_accept c t u W) as (y & Y1 & Y2).
  pose proof W as [[E1 (N1 & T1 & _)] [E2 (N2 & T2 & _)] F]. destruct (ctparams_piece _ F L) as [PP PE].
  assert (Forall (fun p => snd p <> None) (ct_params c)) as F2 by (eapply Forall_impl; [|exact F]; cbn; tauto).
  pose proof (proj2 (C40_content_type c) t u E1 E2 F2) as X3. destruct (C40_accept c) as (_ & _ & Y3); [rewrite E1, E2; split; discriminate|]. specialize (Y3 t u E1 E2 ltac:(destruct t; [congruence|discriminate]) F2).
  assert (x = t ++ $"/" ++ u ++ flat_map ctparam_text (ct_params c)) as -> by congruence. assert (y = t ++ $"/" ++ u ++ flat_map ctparam_text (ct_params c)) as -> by congruence.
  assert (piece (t ++ $"/" ++ u ++ flat_map ctparam_text (ct_params c))) as P by (apply piece_app; [apply quiet_piece, Q1|]; apply piece_cons; [reflexivity|]; apply piece_app; [apply quiet_piece, Q2|exact PP]).
  assert (starts (t ++ $"/" ++ u ++ flat_map ctparam_text (ct_params c))) as S by (apply starts_app, trimmed_starts; assumption).
  assert (ends (t ++ $"/" ++ u ++ flat_map ctparam_text (ct_params c))) as E by (do 2 apply ends_app; apply ends_opt; [apply trimmed_ends; assumption|exact PE]).
  split; eapply survives_piece; eassumption.
Qed.
Theorem C57_text : forall name x, (exists v, x = Some v /\ v <> [] /\ trimmed v /\ quiet v) -> survives name clen_to_str text_parse x.
Proof.
  intros name x (v & -> & N & T & Q). destruct (quiet_piece v Q) as [E W]. exists v. split; [reflexivity|]. split; [|split; [split; [exact N|split; [exact T|exact W]]|right; right; exact E]].
  unfold text_parse, clen_parse. pose proof (slen_pos _ _ N). replace (_ <? 2) with false by lia. rewrite (copy_at_app v [] v []); [reflexivity|rewrite app_nil_r; reflexivity|reflexivity|lia|lia].
Qed.
Theorem C57_accept_encoding : forall name e, (exists t, el_element e = Some t /\ ViaRound.field ($";") t /\ quiet t /\ Forall param_line (el_params e)) ->
  survives name (elem_to_str emit_n) aenc_parse e.
Proof.
  intros name e (t & E & F & Q & L). assert (Forall gparam_wf (el_params e)) as G by (eapply Forall_impl; [|exact L]; intros p (G & _); exact G).
  destruct (C38_accept_encoding e t E F G) as (x & X1 & X2). pose proof (C40_accept_encoding e t E) as X3. assert (x = t ++ print_params (el_params e)) as -> by congruence.
  destruct (params_piece _ L) as [PP PE]. destruct F as (N & T & _). eapply survives_piece; [exact X1|exact X2| | |].
  - apply piece_app; [apply quiet_piece, Q|exact PP].
  - apply starts_app, trimmed_starts; assumption.
  - apply ends_opt; [apply trimmed_ends; assumption|exact PE].
Qed.
Theorem C57_info : forall name e, (exists sch u, el_element e = Some ($"<" ++ (sch ++ $":" ++ u) ++ $">") /\ known_scheme sch /\ without [cr; lf; NUL] sch /\
    ~ In ">"%char (sch ++ $":" ++ u) /\ without [cr; lf; NUL; dquote] u /\ Forall param_line (el_params e)) ->
  survives name (elem_to_str em_s) cinfo_parse e.
Proof.
  intros name e (sch & u & E & K & WS & NG & WU & L). assert (Forall gparam_wf (el_params e)) as G by (eapply Forall_impl; [|exact L]; intros p (G & _); exact G).
  destruct (C38_call_info e _ E NG G) as (x & X1 & X2). pose proof (C40_call_info e _ E) as X3.
  assert (x = ($"<" ++ (sch ++ $":" ++ u) ++ $">") ++ print_params (el_params e)) as -> by congruence.
  destruct (params_piece _ L) as [PP PE]. eapply survives_piece; [exact X1|exact X2| | |].
  - apply piece_app; [|exact PP]. split.
    + change ($"<") with ["<"%char]. change ($">") with [">"%char]. change ($":") with [":"%char]. rewrite <- !app_assoc. cbn [app]. apply el_uri; [exact K| |constructor].
      assert (~ In ">"%char u) as NU by (intros I; apply NG; apply in_or_app; right; right; exact I). clear - NU WU. induction u as [|c u IH]; [constructor|].
      apply ut_char; [intros ->; apply NU; left; reflexivity|intros ->; apply (WU dquote); [cbn; tauto|left; reflexivity]|].
      apply IH; [intros d D I; apply (WU d D); right; exact I|intros I; apply NU; right; exact I].
    + apply without_app; [apply chk_without; reflexivity|]. apply without_app; [|apply chk_without; reflexivity]. apply without_app; [exact WS|]. apply without_app; [apply chk_without; reflexivity|].
      eapply without_incl; [exact WU|intros y; cbn; tauto].
  - split; [discriminate|reflexivity].
  - apply ends_opt; [|exact PE]. do 2 apply ends_app. split; [discriminate|reflexivity].
Qed.
(** The text of an authentication header stands on one line *)
Lemma field_value : forall specs f, AuthRound.field_ok specs f -> ends (snd f) /\ cstr (snd f).
Proof.
  intros specs f (q & _ & Q & _). destruct q.
  - destruct Q as (t & -> & QT & _). split; [split; [discriminate|]|].
    + change (dquote :: t ++ [dquote]) with ((dquote :: t) ++ [dquote]). rewrite last_last. reflexivity.
    + intros [I|I]; [discriminate|]. apply in_app_or in I. destruct I as [I|[I|[]]]; [exact (qtext_cstr _ QT I)|discriminate].
  - destruct Q as (T & C & _ & L). split; [|exact C]. apply trimmed_ends; [intros E; rewrite E in L; cbn in L; lia|exact T].
Qed.
Lemma field_text_line : forall specs f, names_ok specs = true -> AuthRound.field_ok specs f -> without [cr; lf] (snd f) ->
  starts (AuthRound.field_text f) /\ ends (AuthRound.field_text f) /\ without [cr; lf; NUL] (AuthRound.field_text f).
Proof.
  intros specs [n v] NOK F W. pose proof (field_value _ _ F) as [E C]. destruct F as (q & I & _). destruct (spec_name specs NOK _ _ I) as (c & n' & EN & CN). cbn [fst snd] in *.
  unfold AuthRound.field_text. cbn [fst snd]. split; [|split].
  - apply starts_app. split; [rewrite EN; discriminate|]. rewrite EN in *. cbn [hd forallb] in *. apply andb_prop in CN. destruct CN as [CN _].
    destruct (is_blank c) eqn:B; [|reflexivity]. exfalso. revert CN B. clear. unfold name_char, is_blank. destruct c as [[] [] [] [] [] [] [] []]; vm_compute; discriminate.
  - apply ends_app. change ("="%char :: v) with (["="%char] ++ v). apply ends_app. exact E.
  - apply without_app; [|change ("="%char :: v) with (["="%char] ++ v); apply without_app].
    + intros d D. apply name_char_notin; [exact CN|]. cbn [In] in D. destruct D as [<-|[<-|[<-|[]]]]; reflexivity.
    + intros d D [I'|[]]. subst d. cbn [In] in D. destruct D as [D|[D|[D|[]]]]; discriminate.
    + intros d D I'. cbn [In] in D. destruct D as [<-|[<-|[<-|[]]]]; [apply (W cr)|apply (W lf)|exact (C I')]; cbn [In]; auto.
Qed.
Lemma shaped_line : forall ty specs vals text, names_ok specs = true -> shaped ty specs vals text -> opt scheme_wf ty -> scheme_line ty -> Forall value_line vals -> value_text text.
Proof.
  intros ty specs vals text NOK (sp & F & -> & SP & NE & FOK & FV) ST SL VL.
  assert (Forall (fun f => starts (AuthRound.field_text f) /\ ends (AuthRound.field_text f) /\ without [cr; lf; NUL] (AuthRound.field_text f)) F) as FL.
  { rewrite Forall_forall in FOK, FV, VL |- *. intros f I. apply (field_text_line specs f NOK (FOK f I)). exact (VL _ (FV f I)). }
  assert (starts (render F) /\ ends (render F) /\ without [cr; lf; NUL] (render F)) as (RS & RE & RW).
  { destruct F as [|f F]; [congruence|]. cbn [render]. inversion FL as [|? ? (S1 & E1 & W1) FL']; subst.
    assert ((render_tail F = [] \/ ends (render_tail F)) /\ without [cr; lf; NUL] (render_tail F)) as [TE TW].
    { clear - FL'. induction FL' as [|g F (S1 & E1 & W1) FL' [IH1 IH2]]; cbn [render_tail]; [split; [left; reflexivity|intros d _ []]|]. split.
      - right. apply ends_app. apply ends_opt; assumption.
      - apply without_app; [apply chk_without; reflexivity|apply without_app; assumption]. }
    split; [apply starts_app; exact S1|]. split; [apply ends_opt; assumption|apply without_app; assumption]. }
  destruct ty as [t|]; cbn [app] in *; [|apply value_text_of; assumption]. cbn [opt] in ST. unfold scheme_line in SL. cbn [opt] in SL. destruct ST as (NT & CT & WT).
  apply value_text_of.
  - apply without_app; [apply without_app|exact RW].
    + intros d D I. cbn [In] in D. destruct D as [<-|[<-|[<-|[]]]]; [apply (SL cr)|apply (SL lf)|exact (CT I)]; cbn [In]; auto.
    + destruct SP as [-> | ->]; apply chk_without; reflexivity.
  - apply starts_app, starts_app. split; [exact NT|]. destruct t as [|c t]; [congruence|]. cbn [hd].
    destruct (is_blank c) eqn:B; [|reflexivity]. exfalso.
    assert (c = " "%char \/ c = tab \/ c = cr \/ c = lf) as [-> | [-> | [-> | ->]]].
    { revert B. clear. unfold is_blank. destruct c as [[] [] [] [] [] [] [] []]; vm_compute; intros; try discriminate; auto. }
    + apply (WT " "%char); left; reflexivity.
    + apply (SL tab); [cbn [In]; auto|left; reflexivity].
    + apply (SL cr); [cbn [In]; auto|left; reflexivity].
    + apply (SL lf); [cbn [In]; auto|left; reflexivity].
  - apply ends_app. exact RE.
Qed.
Ltac lines := repeat (apply Forall_cons; [assumption|]); apply Forall_nil.
Theorem C57_www_authenticate : forall name w, In name unsplit_names -> www_line w -> survives name www_to_str www_parse w.
Proof.
  intros name w N (W & S & L). destruct (www_round w W) as (t & A & B & SH). exists t. split; [exact A|]. split; [exact B|]. split; [|right; left; exact N].
  apply (shaped_line _ www_specs _ _ (eq_refl : names_ok www_specs = true) SH); [|exact S|].
  - destruct W as [(ty & -> & SW) _]. exact SW.
  - decompose [and] L. unfold www_rows. cbn [map snd]. lines.
Qed.
Theorem C57_authorization : forall name a, In name unsplit_names -> authz_line a -> survives name authz_to_str authz_parse a.
Proof.
  intros name w N (W & S & L). destruct (authz_round w W) as (t & A & B & SH). exists t. split; [exact A|]. split; [exact B|]. split; [|right; left; exact N].
  apply (shaped_line _ authz_specs _ _ (eq_refl : names_ok authz_specs = true) SH); [|exact S|].
  - destruct W as [(ty & -> & SW) _]. exact SW.
  - decompose [and] L. unfold authz_rows. cbn [map snd]. lines.
Qed.
Theorem C57_authentication_info : forall name a, In name unsplit_names -> ainfo_line a -> survives name ainfo_to_str ainfo_parse a.
Proof.
  intros name w N (W & NB & S & L). destruct (ainfo_round w W NB) as (t & A & B & SH). exists t. split; [exact A|]. split; [exact B|]. split; [|right; left; exact N].
  apply (shaped_line _ ainfo_specs _ _ (eq_refl : names_ok ainfo_specs = true) SH); [|exact S|].
  - exact (proj1 W).
  - decompose [and] L. unfold ainfo_rows. cbn [map snd]. lines.
Qed.


(** *** Messages, with conditions on their fields only *)
Definition olift {A} (P : A -> Prop) (o : option A) : Prop := match o with None => True | Some x => P x end.
Definition text_line (x : option str) : Prop := exists v, x = Some v /\ v <> [] /\ trimmed v /\ quiet v.
Definition elem_line (e : elem) : Prop := exists t, el_element e = Some t /\ ViaRound.field ($";") t /\ quiet t /\ Forall param_line (el_params e).
Definition info_line (e : elem) : Prop :=
  exists sch u, el_element e = Some ($"<" ++ (sch ++ $":" ++ u) ++ $">") /\ known_scheme sch /\ without [cr; lf; NUL] sch /\
    ~ In ">"%char (sch ++ $":" ++ u) /\ without [cr; lf; NUL; dquote] u /\ Forall param_line (el_params e).
(** request line or status line *)
Definition start_line (m : message) : Prop :=
  (exists meth u scheme host v, m_method m = Some meth /\ m_uri m = Some u /\ m_version m = Some v /\ m_status m = 0 /\ m_reason m = None /\
     method_ok meth /\ without [cr; lf; NUL] meth /\ version_ok v /\ uri_wf u scheme host /\ without unquoted_specials host /\
     match u_port u with None => True | Some p => without unquoted_specials p end)
  \/ (exists v r, m_method m = None /\ m_uri m = None /\ m_version m = Some v /\ m_reason m = Some r /\ 100 <= m_status m <= 699 /\
     without [sp; cr; lf; NUL] v /\ (exists t, v = $"SIP/" ++ t) /\ without [cr; lf; NUL] r).
Record head_line (m : message) : Prop := {
  ml_start : start_line m;
  ml_via : Forall via_line (m_vias m);
  ml_record_route : Forall nameaddr_line (m_record_routes m);
  ml_route : Forall nameaddr_line (m_routes m);
  ml_from : olift nameaddr_line (m_from m);
  ml_to : olift nameaddr_line (m_to m);
  ml_call_id : olift call_id_line (m_call_id m);
  ml_cseq : olift cseq_line (m_cseq m);
  ml_contact : Forall (fun f => nameaddr_line f /\ forall d, na_display f = Some d -> hd NUL d <> "*"%char) (m_contacts m);
  ml_call_info : Forall info_line (m_call_infos m);
  ml_alert_info : Forall info_line (m_alert_infos m);
  ml_error_info : Forall info_line (m_error_infos m);
  ml_content_type : olift ctype_line (m_content_type m);
  ml_mime_version : olift text_line (m_mime_version m);
  ml_allow : Forall text_line (m_allows m);
  ml_content_encoding : Forall text_line (m_content_encodings m);
  ml_accept : Forall ctype_line (m_accepts m);
  ml_accept_encoding : Forall elem_line (m_accept_encodings m);
  ml_accept_language : Forall elem_line (m_accept_languages m);
  ml_authorization : Forall authz_line (m_authorizations m);
  ml_www : Forall www_line (m_www_authenticates m);
  ml_proxy_authenticate : Forall www_line (m_proxy_authenticates m);
  ml_proxy_authorization : Forall authz_line (m_proxy_authorizations m);
  ml_auth_info : Forall ainfo_line (m_auth_infos m);
  ml_proxy_auth_info : Forall ainfo_line (m_proxy_auth_infos m);
  ml_others : Forall other_wf (m_headers m) }.
(** start line and headers as above, and no body or one that is not multipart *)
Definition message_line (m : message) : Prop := head_line m /\ body_wf m.
(** start line and headers as above, and a multipart body; the Content-Type of a part as above *)
Record part_line (g : str) (bd : body) : Prop := {
  pl_body : b_body bd <> [];
  pl_some : b_headers bd <> [] \/ b_ctype bd <> None;
  pl_headers : Forall part_header (b_headers bd);
  pl_ctype : forall c, b_ctype bd = Some c -> ctype_line c;
  pl_boundary : forall t, body_to_str bd = Ok t -> ~ contains (lf :: $"--" ++ g) (lf :: t);
  pl_zeros : (count_occ Ascii.ascii_dec (b_body bd) NUL < 1000)%nat }.
Definition multipart_line (m : message) : Prop :=
  head_line m /\ m_mime_version m <> None /\ m_bodies m <> [] /\ exists g, boundary_is g m /\ Forall (part_line g) (m_bodies m).
Ltac in_names := unfold unsplit_names; cbn [In]; tauto.
Lemma head_line_wf : forall m, head_line m -> start_wf m /\ headers_wf m /\ Forall other_wf (m_headers m).
Proof.
  intros m L. destruct L. split; [|split; [|assumption]].
  - destruct ml_start0 as [(meth & u & scheme & host & v & E1 & E2 & E3 & E4 & E5 & M1 & M2 & V & W & H & P)|R]; [left|right; exact R].
    destruct (C33_round_trip u scheme host W) as (t & T1 & T2). pose proof (uri_text_without u scheme host W H P) as TW.
    assert (t = UriProps.uri_text u scheme host) as ->.
    { destruct W as [W1 W2 W3 W5 W6 W7 W10 W11 W12 W13]. rewrite (uri_to_str_ok u host W6 W13) in T1.
      - rewrite W1 in T1. cbn [default_scheme] in T1. congruence.
      - eapply Forall_impl; [|exact W12]. intros [n w] (_ & _ & VV). destruct w; [discriminate|contradiction]. }
    exists meth, u, (UriProps.uri_text u scheme host), v. repeat (split; [assumption|]). split; [|eapply without_incl; [exact TW|intros y; cbn; tauto]].
    destruct W as [_ _ [W3 _] _ _ _ _ _ _ _]. unfold UriProps.uri_text. rewrite slen_app. match goal with |- _ <= _ + ?x => pose proof (slen_nonneg _ ($"")); assert (0 <= x) by apply slen_nonneg end. lia.
  - constructor; try assumption.
    all: match goal with
         | |- survives_opt _ _ _ ?o => destruct o; [cbn [olift survives_opt] in *|exact I]
         | |- Forall _ ?l => eapply Forall_impl; [|eassumption]
         end; try (intros e LE).
    all: first [apply C57_via; assumption|apply C57_from; assumption|match goal with H : _ |- _ => apply C57_contact; [exact (proj1 H)|exact (proj2 H)] end|apply C57_call_id; assumption|apply C57_cseq; assumption|apply C57_content_type; assumption
               |apply C57_text; assumption|apply C57_accept_encoding; assumption|apply C57_info; assumption
               |apply C57_www_authenticate; [in_names|assumption]|apply C57_authorization; [in_names|assumption]|apply C57_authentication_info; [in_names|assumption]].
Qed.
Theorem C57_syntax : forall m, message_line m -> exists s, message_to_str false m = Ok s /\
  (slen s <= 999999 -> exists d, digit_string d /\ decimal d = slen (flat_map b_body (m_bodies m)) /\
     message_parse s = Ok (with_content_length (Some (Some d)) m)).
Proof. intros m [L B]. apply C57_round_trip. destruct (head_line_wf m L) as (S & H & O). constructor; assumption. Qed.
Theorem C57_multipart_syntax : forall m, multipart_line m -> exists s, message_to_str false m = Ok s /\
  (slen s <= 999999 -> exists head d b, s = head ++ CRLF ++ CRLF ++ b /\ digit_string d /\ decimal d = slen b /\
     message_parse s = Ok (with_content_length (Some (Some d)) m)).
Proof.
  intros m (L & MV & NB & g & BI & PL). destruct (head_line_wf m L) as (S & H & O). apply C57_multipart; auto. split; [exact MV|]. split; [exact NB|]. exists g. split; [exact BI|].
  eapply Forall_impl; [|exact PL]. intros bd []. constructor; auto. intros c E. apply C57_content_type. auto.
Qed.
Print Assumptions C57_syntax.
Print Assumptions C57_multipart_syntax.

Lemma chk_cstr : forall s, existsb (Ascii.eqb NUL) s = false -> cstr s.
Proof. intros s H I. rewrite <- not_true_iff_false in H. apply H. apply existsb_exists. exists NUL. auto. Qed.
Lemma chk_notin : forall c s, existsb (Ascii.eqb c) s = false -> ~ In c s.
Proof. intros c s H I. rewrite <- not_true_iff_false in H. apply H. apply existsb_exists. exists c. split; [exact I|apply Ascii.eqb_refl]. Qed.
Lemma ex_uri_wf : forall h, h <> [] -> trim h = h -> forallb (fun c => negb (existsb (Ascii.eqb c) h)) ($"@?;[]") = true ->
  uri_wf (mkUri (Some ($"sip")) (Some ($"bob")) None (Some h) None [] [] None) ($"sip") h.
Proof.
  intros h N T W. constructor; cbn [u_scheme u_username u_password u_host u_port u_params u_headers u_string]; try reflexivity; try constructor; try (vm_compute; discriminate); try reflexivity.
  - split; [apply chk_cstr; reflexivity|exact I].
  - exact N.
  - split; [exact T|apply chk_without; exact W].
Qed.
Lemma ex_param : forall n v, negb (streq n []) && streq (trim n) n && forallb (fun c => negb (existsb (Ascii.eqb c) n)) ($";=" ++ [cr; lf; NUL; ","%char; "<"%char; dquote]) = true ->
  match v with None => True | Some v => streq (trim v) v && negb (streq v []) && forallb (fun c => negb (existsb (Ascii.eqb c) v)) ($";" ++ [cr; lf; NUL; ","%char; "<"%char; dquote]) = true end -> param_line (n, v).
Proof.
  intros n v N V. apply andb_prop in N. destruct N as [N N3]. apply andb_prop in N. destruct N as [N1 N2]. apply chk_without in N3. apply streq_eq in N2.
  split; [split; [intros E; cbn [fst] in E; subst n; discriminate|]|].
  - split; [exact N2|]. split; [intros I; apply (N3 NUL); [cbn; tauto|exact I]|]. split; [eapply without_incl; [exact N3|intros y; cbn; tauto]|]. cbn [snd]. destruct v as [v|]; [|exact I]. left.
    apply andb_prop in V. destruct V as [V V3]. apply andb_prop in V. destruct V as [V1 V2]. apply streq_eq in V1. apply chk_without in V3.
    split; [exact V1|]. split; [intros I; apply (V3 NUL); [cbn; tauto|exact I]|]. split; [eapply without_incl; [exact V3|intros y; cbn; tauto]|]. destruct v as [|c v]; [discriminate|]. exists c, v. split; [reflexivity|].
    split; intros ->; [apply (V3 dquote)|apply (V3 ","%char)]; cbn; tauto.
  - split; [eapply without_incl; [exact N3|intros y; cbn; tauto]|]. cbn [snd]. destruct v as [v|]; [left|exact I]. apply andb_prop in V. destruct V as [_ V]. apply chk_without in V. eapply without_incl; [exact V|intros y; cbn; tauto].
Qed.
Lemma ex_na_line : forall d h ps, 2 <= slen h -> trim h = h -> forallb (fun c => negb (existsb (Ascii.eqb c) h)) ($"@?;[]:" ++ unquoted_specials) = true ->
  odisplay_wf d -> match d with None => True | Some d => without [cr; lf; bslash] d end -> Forall param_line ps ->
  nameaddr_line (mkNA d (Some (mkUri (Some ($"sip")) (Some ($"bob")) None (Some h) None [] [] None)) ps).
Proof.
  intros d h ps N T W D1 D2 P. apply chk_without in W. constructor; [|exact D2|exact P].
  assert (without unquoted_specials h) as W2 by (eapply without_incl; [exact W|intros y I; apply in_or_app; right; exact I]).
  exists (mkUri (Some ($"sip")) (Some ($"bob")) None (Some h) None [] [] None), ($"sip"), h. split; [|split; [left; reflexivity|split; [exact W2|exact I]]]. constructor; try reflexivity; try exact D1.
  - apply ex_uri_wf; [intros ->; change (slen []) with 0 in N; lia|exact T|]. apply forallb_forall. intros c C. apply negb_true_iff. apply not_true_iff_false. intros X. apply existsb_exists in X. destruct X as (y & Y & E). apply Ascii.eqb_eq in E. subst y.
    apply (W c); [apply in_or_app; left; cbn in C |- *; tauto|exact Y].
  - split; [intros I; apply (W2 NUL); [cbn; tauto|exact I]|intros I; apply (W2 ">"%char); [cbn; tauto|exact I]].
  - intros p [=].
  - unfold UriProps.uri_text, host_text, user_text. cbn [u_username u_password u_port u_params u_headers].
    assert (slen h <= slen match strchr h ":"%char with Some _ => "["%char :: h ++ ["]"%char] | None => h end) by (destruct (strchr h ":"%char); sl).
    match goal with |- _ <= slen (_ ++ _ :: ?a ++ ?b ++ ?c) => rewrite (slen_app _ ($"sip")), slen_cons, (slen_app _ a), (slen_app _ b); assert (0 <= slen a) by apply slen_nonneg; assert (0 <= slen c) by apply slen_nonneg end.
    assert (slen ($"sip") = 3) as -> by reflexivity.
    match goal with |- _ <= 3 + (1 + (?a + (?b + ?c))) => revert N; assert (0 <= a) by apply slen_nonneg; assert (0 <= c) by apply slen_nonneg; assert (slen h <= b) by assumption; generalize dependent a; generalize dependent b; generalize dependent c; clear end.
    intros; lia.
  - eapply Forall_impl; [|exact P]. intros p (G & _). exact G.
Qed.
Ltac ql := apply chk_without; vm_compute; reflexivity.
Lemma ex_via_line : forall ver pr h p ps, via_wf (mkVia (Some ver) (Some pr) (Some h) p None ps) ver pr h -> quiet ver -> quiet pr -> quiet h ->
  match p with None => True | Some p => quiet p end -> Forall param_line ps -> via_line (mkVia (Some ver) (Some pr) (Some h) p None ps).
Proof. intros ver pr h p ps W Q1 Q2 Q3 Q4 L. constructor; [exists ver, pr, h; auto|exact Q4|exact I|exact L]. Qed.
Ltac fld := split; [discriminate|split; [reflexivity|ql]].
Example C57_syntax_example : message_line ex_message.
Proof.
  assert (Forall param_line [($"branch", Some ($"z9hG4bK77")); ($"rport", None)]) as PL by (constructor; [|constructor; [|constructor]]; apply ex_param; [reflexivity|reflexivity|reflexivity|exact I]).
  split; [|exact (mw_body _ (proj1 C57_example))]. constructor; try solve [constructor].
  - left. eexists _, _, ($"sip"), ($"b.example"), _. split; [reflexivity|]. split; [reflexivity|]. split; [reflexivity|]. split; [reflexivity|]. split; [reflexivity|].
    pose proof (mw_start _ (proj1 C57_example)) as [(meth & u & t & v & E1 & E2 & E3 & _ & _ & M1 & M2 & V & _)|(v & r & E & _)]; [|discriminate E].
    assert (meth = $"INVITE") as -> by (injection E1 as <-; reflexivity). assert (v = $"SIP/2.0") as -> by (injection E3 as <-; reflexivity).
    split; [exact M1|]. split; [exact M2|]. split; [exact V|]. split; [apply ex_uri_wf; [discriminate|reflexivity|reflexivity]|]. split; [ql|exact I].
  - constructor; [|constructor; [|constructor]]; apply ex_via_line; try ql; try exact I; try constructor; cbn [v_version v_protocol v_host v_port v_params v_comment].
    all: try (split; [reflexivity|fld]).
    all: try (intros p [=]).
    all: try (subst p; split; [fld|vm_compute; discriminate]).
    all: try (split; [|ql]).
    all: try (apply ex_param; [reflexivity|first [reflexivity|exact I]]).
    all: try (repeat constructor; fail).
    all: try (eapply Forall_impl; [|exact PL]; intros q (G & _); exact G).
    all: try (constructor; [apply ex_param; [reflexivity|exact I]|constructor]).
  - apply ex_na_line; [vm_compute; discriminate|reflexivity|reflexivity| |ql|].
    + left. exists ($"A, B"). split; [reflexivity|]. cbn [list_ascii_of_string]. repeat first [apply q_nil | apply q_char; [discriminate|discriminate|discriminate|]].
    + constructor; [apply ex_param; reflexivity|constructor].
  - apply ex_na_line; [vm_compute; discriminate|reflexivity|reflexivity|exact I|exact I|constructor].
  - exists ($"77"). split; [reflexivity|]. split; [fld|]. split; [ql|]. split; [discriminate|]. split; [reflexivity|ql].
  - exists ($"12"), ($"INVITE"). split; [reflexivity|]. split; [reflexivity|]. split; [fld|]. split; [ql|]. split; [discriminate|]. split; [reflexivity|ql].
  - constructor; [|constructor]. split; [|intros d [= <-]; discriminate]. apply ex_na_line; [vm_compute; discriminate|reflexivity|reflexivity| |ql|constructor].
    left. exists ($"C, D"). split; [reflexivity|]. cbn [list_ascii_of_string]. repeat first [apply q_nil | apply q_char; [discriminate|discriminate|discriminate|]].
  - exists ($"text"), ($"plain"). split; [|split; [ql|split; [ql|constructor]]]. constructor; [split; [reflexivity|fld]|split; [reflexivity|fld]|constructor].
  - exact (mw_others _ (proj1 C57_example)).
Qed.

(** The same request with authentication headers *)
Definition ex_auth_message : message :=
  with_authorizations [mkAuthz (Some ($"Digest")) (Some (dq ($"bob"))) (Some (dq ($"r"))) (Some (dq ($"n"))) (Some (dq ($"sip:a@b"))) (Some (dq ($"0123"))) None (Some ($"MD5")) (Some (dq ($"c"))) None (Some ($"auth")) (Some ($"00000001")) None None None None None]
  (with_proxy_authenticates [mkWww (Some ($"Digest")) (Some (dq ($"example.org, x"))) None (Some (dq ($"abc="))) (Some (dq ($"o"))) (Some ($"FALSE")) (Some ($"MD5")) (Some (dq ($"auth,auth-int"))) None None None]
  (with_auth_infos [mkAI None (Some (dq ($"n1"))) (Some ($"auth")) (Some (dq ($"abc"))) (Some (dq ($"c"))) (Some ($"00000001")) None None None None None] ex_message)).
Ltac line_now := repeat (split; [first [exact I|apply chk_without; reflexivity]|]); first [exact I|apply chk_without; reflexivity].
Lemma message_line_auth : forall m a w i, message_line m -> Forall authz_line a -> Forall www_line w -> Forall ainfo_line i ->
  message_line (with_authorizations a (with_proxy_authenticates w (with_auth_infos i m))).
Proof. intros m a w i [L B] A W N. destruct m. split; [|exact B]. destruct L. constructor; assumption. Qed.
Example C57_syntax_auth_example : message_line ex_auth_message.
Proof.
  apply message_line_auth; [exact C57_syntax_example| | |].
  - constructor; [|constructor]. split; [exact C49_authz_case|line_now].
  - constructor; [|constructor]. split; [exact C49_www_case|line_now].
  - constructor; [|constructor]. split; [exact C49_ainfo_case|]. split; [right; reflexivity|line_now].
Qed.
Print Assumptions C57_www_authenticate.
Print Assumptions C57_authorization.
Print Assumptions C57_authentication_info.

Lemma head_line_multi : forall m v c l, head_line m -> text_line (Some v) -> ctype_line c ->
  head_line (with_mime_version (Some (Some v)) (with_content_type (Some c) (with_bodies l m))).
Proof. intros m v c l L V C. destruct m. destruct L. constructor; assumption. Qed.
Example C57_multipart_syntax_example : multipart_line (ex_multipart (Some (Some ($"1.0"))) ex_two_parts).
Proof.
  destruct C57_multipart_example as [(MV & NB & g & BI & PW) _]. assert (ctype_line (mkCT (Some ($"text")) (Some ($"plain")) [])) as TP.
  { exists ($"text"), ($"plain"). split; [|split; [ql|split; [ql|constructor]]]. constructor; [split; [reflexivity|fld]|split; [reflexivity|fld]|constructor]. }
  split; [|split; [exact MV|split; [exact NB|exists g; split; [exact BI|]]]].
  - apply head_line_multi; [exact (proj1 C57_syntax_example)| |].
    + eexists. split; [reflexivity|]. split; [discriminate|]. split; [reflexivity|ql].
    + exists ($"multipart"), ($"mixed"). split; [|split; [ql|split; [ql|]]]; [|constructor; [apply ex_param; reflexivity|constructor]].
      constructor; [split; [reflexivity|fld]|split; [reflexivity|fld]|].
      constructor; [|constructor]. assert (param_line ($"boundary", Some ($"xyz"))) as (G & _) by (apply ex_param; reflexivity). split; [exact G|discriminate].
  - inversion PW as [|? ? P1 PW']; subst. inversion PW' as [|? ? P2 _]; subst. constructor; [|constructor; [|constructor]].
    + destruct P1. constructor; auto. intros c [= <-]. exact TP.
    + destruct P2. constructor; auto. intros c [=].
Qed.

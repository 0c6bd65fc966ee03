(** C86: a message that is accepted is a request or a response; a fragment has a whole start line or none *)
From Coq Require Import String ZArith NArith Ascii Bool List Lia.
From Verif Require Import Base Str StrLemmas Types MemModel MemLemmas CString CStringLemmas SafeLemmas PortModel PortProps UriModel HdrModel AuthModel MsgFields MsgModel MsgSafe MsgPrint FragModel FragProps.
Import ListNotations.
Open Scope Z_scope.

(** *** Specification *)
(** all that a request line sets, and nothing of a status line *)
Definition request_line (m : message) : Prop :=
  (exists x, m_method m = Some x /\ x <> []) /\ (exists u, m_uri m = Some u) /\ (exists v, m_version m = Some v) /\ m_status m = 0 /\ m_reason m = None.
(** all that a status line sets, and nothing of a request line *)
Definition status_line (m : message) : Prop :=
  m_method m = None /\ m_uri m = None /\ (exists v, m_version m = Some v) /\ m_status m <> 0 /\ (exists r, m_reason m = Some r).
(** no start line at all *)
Definition no_line (m : message) : Prop :=
  m_method m = None /\ m_uri m = None /\ m_version m = None /\ m_status m = 0 /\ m_reason m = None.
(** the text begins with "SIP/", empty lines left out *)
Definition sip_text (msg : list ascii) : Prop := exists e r, msg = e ++ $"SIP/" ++ r /\ Forall (fun c => c = cr \/ c = lf) e.

(** *** Headers and bodies leave the start line alone *)
Definition line (m : message) := (m_method m, m_uri m, m_version m, m_status m, m_reason m).
Definition keeps (f : setter) : Prop := forall m hv m', f m hv = Ok m' -> line m' = line m.
Ltac setter_keeps := intros m hv m' H;
  unfold set_accept, set_accept_encoding, set_accept_language, set_alert_info, set_call_info, set_error_info, set_allow, set_content_encoding,
    set_authentication_info, set_proxy_authentication_info, set_authorization, set_proxy_authorization, set_www_authenticate, set_proxy_authenticate,
    set_contact, set_via, set_route, set_record_route, set_call_id, set_content_length, set_mime_version, set_content_type, set_cseq, set_from, set_to,
    if_value, if_unset in H;
  repeat match type of H with
    | match ?x with _ => _ end = Ok _ => destruct x; try discriminate H
    | res_bind ?x _ = Ok _ => destruct x; cbn [res_bind] in H; try discriminate H
    end; injection H as <-; destruct m; reflexivity.
Lemma pconfig_keeps : Forall (fun e => keeps (snd e)) pconfig.
Proof. unfold pconfig. repeat (apply Forall_cons; [cbn [snd]; setter_keeps|]). apply Forall_nil. Qed.
Lemma content_length_keeps : keeps set_content_length. Proof. setter_keeps. Qed.
Lemma set_known_line m n hv m' : set_known_header m n hv = Ok m' -> line m' = line m.
Proof.
  unfold set_known_header, call_method. destruct (is_known_header _ _) as [i|]; [|intros [= <-]; destruct m; reflexivity].
  destruct (nth_error pconfig i) as [[[nm ig] f]|] eqn:E; [|discriminate].
  apply nth_error_In in E. pose proof pconfig_keeps as P. rewrite Forall_forall in P. specialize (P _ E). cbn [snd] in P.
  destruct (f m hv) as [x| |] eqn:F; [intros [= <-]; exact (P _ _ _ F)| |discriminate]. destruct ig; [intros [= <-]; reflexivity|discriminate].
Qed.
Lemma set_pieces_line n l : forall m m', set_pieces m n l = Ok m' -> line m' = line m.
Proof.
  induction l as [|[|c p] l IH]; intros m m' H; cbn [set_pieces] in H; [injection H as <-; reflexivity|auto|].
  destruct (set_known_header _ _ _) as [x| |] eqn:E; cbn [res_bind] in H; [|discriminate|discriminate]. apply set_known_line in E. apply IH in H. congruence.
Qed.
Lemma set_multiple_line m n hv m' : set_multiple_header m n hv = Ok m' -> line m' = line m.
Proof.
  unfold set_multiple_header. destruct hv as [v|]; [|apply set_known_line]. destruct (_ || _); [apply set_known_line|apply set_pieces_line].
Qed.
Lemma headers_line : forall f s p b m m' k, headers_loop f s p b m = Ok (m', k) -> line m' = line m.
Proof.
  induction f as [|f IH]; intros s p b m m' k H; cbn [headers_loop] in H; [discriminate|].
  repeat match type of H with
    | res_bind ?x _ = Ok _ => destruct x; cbn [res_bind] in H; try discriminate H
    | (if ?x then _ else _) = Ok _ => destruct x; try discriminate H
    | Ok _ = Ok _ => injection H as <- <-; reflexivity
    | match set_multiple_header ?a ?b ?c with _ => _ end = Ok _ => destruct (set_multiple_header a b c) eqn:E; try discriminate H; apply set_multiple_line in E; apply IH in H; congruence
    | match ?x with _ => _ end = Ok _ => destruct x; try discriminate H
    end.
Qed.
Lemma parts_line : forall f sep b p e m m', parts_loop f sep b p e m = Ok m' -> line m' = line m.
Proof.
  induction f as [|f IH]; intros sep b p e m m' H; cbn [parts_loop] in H; [discriminate|].
  destruct (find_next_occurence _ _ _ _) as [[s0|]| |]; cbn [res_bind] in H; try discriminate.
  destruct (find_next_occurence _ _ _ _) as [[e0|]| |]; cbn [res_bind] in H; try discriminate.
  destruct (rd b _) as [c| |]; cbn [res_bind] in H; try discriminate. destruct (rd b (e0 - 1)) as [d| |]; cbn [res_bind] in H; try discriminate.
  destruct (rd_range _ _ _) as [part| |]; cbn [res_bind] in H; try discriminate.
  unfold set_body_mime in H. destruct (body_parse_mime part) as [bd| |]; cbn [res_bind] in H; try discriminate.
  destruct (cstr_from _ _) as [t| |]; cbn [res_bind] in H; try discriminate.
  destruct (strneq _ _ _); [injection H as <-; destruct m; reflexivity|]. apply IH in H. rewrite H. destruct m; reflexivity.
Qed.
Lemma body_line m b p n m' : body_parse m b p n = Ok m' -> line m' = line m.
Proof.
  unfold body_parse. destruct (m_content_type m) as [[[ty|] [st|] ps]|]; try (intros [= <-]; reflexivity).
  destruct (negb _).
  - intros H. destruct (rd b p) as [c| |]; cbn [res_bind] in H; try discriminate. destruct (is_ch c NUL); try discriminate.
    match type of H with res_bind ?x _ = _ => destruct x as [q| |]; cbn [res_bind] in H; try discriminate end.
    destruct (_ =? 0); try discriminate.
    match type of H with res_bind ?x _ = _ => assert (K : forall r, x = Ok r -> line (fst r) = line m) end.
    { intros [x l]. cbn [fst]. destruct (m_content_length m) as [[v|]|]; [intros [= <- _]; reflexivity|discriminate|].
      destruct (set_content_length _ _) as [y| |] eqn:E; cbn [res_bind]; try discriminate. intros [= <- _]. exact (content_length_keeps _ _ _ E). }
    match type of H with res_bind ?w _ = _ => destruct w as [[x l]| |]; cbn [res_bind] in H; try discriminate end.
    specialize (K _ eq_refl). cbn [fst] in K. destruct (_ <? _); try discriminate. destruct (rd_range _ _ _); cbn [res_bind] in H; try discriminate.
    injection H as <-. rewrite <- K. destruct x; reflexivity.
  - destruct (param_get _ _) as [[g [h|]]|]; try discriminate. apply parts_line.
Qed.
Lemma zero_line m m' : zero_length m = Ok m' -> line m' = line m.
Proof. unfold zero_length. destruct (m_content_length m); [intros [= <-]; reflexivity|apply content_length_keeps]. Qed.
Lemma tail_line msg m b t m' : parse_tail msg m b t = Ok m' -> line m' = line m.
Proof.
  unfold parse_tail. intros H. destruct (rd b t) as [c| |]; cbn [res_bind] in H; try discriminate.
  match type of H with res_bind ?x _ = _ => destruct x as [d| |]; cbn [res_bind] in H; try discriminate end.
  match type of H with (if ?x then _ else _) = _ => destruct x end; [|apply zero_line, H].
  destruct (body_parse _ _ _ _) as [x| |] eqn:E; cbn [res_bind] in H; try discriminate. apply zero_line in H. apply body_line in E. congruence.
Qed.

(** *** Start lines *)
Definition whole (m : message) : Prop := request_line m \/ status_line m.
Lemma line_eq m m' : line m' = line m -> m_method m' = m_method m /\ m_uri m' = m_uri m /\ m_version m' = m_version m /\ m_status m' = m_status m /\ m_reason m' = m_reason m.
Proof. unfold line. intros H. injection H as -> -> -> -> ->. auto. Qed.
Lemma whole_eq m m' : line m' = line m -> whole m -> whole m'.
Proof. intros H. destruct (line_eq _ _ H) as (A & B & C & D & E). unfold whole, request_line, status_line. now rewrite A, B, C, D, E. Qed.
Lemma no_line_eq m m' : line m' = line m -> no_line m -> no_line m'.
Proof. intros H. destruct (line_eq _ _ H) as (A & B & C & D & E). unfold no_line. now rewrite A, B, C, D, E. Qed.
Lemma start_whole s m h : startline_parse s msg_init = Ok (m, h) -> whole m.
Proof.
  unfold startline_parse. destruct (strneq _ _ _); intros H.
  - right. unfold parseresp in H.
    destruct (strchr_at s 0 _) as [[sc|]| |]; cbn [res_bind] in H; try discriminate. destruct (copy_at s 0 _ _) as [v| |]; cbn [res_bind] in H; try discriminate.
    destruct (strchr_at s _ _) as [[rp|]| |]; cbn [res_bind] in H; try discriminate. destruct (tail_at _ _) as [t| |]; cbn [res_bind] in H; try discriminate.
    destruct (Z.eqb_spec (int32 (strtol t)) 0); try discriminate. destruct (scan_fwd _ _ _ _ _) as [hp| |]; cbn [res_bind] in H; try discriminate.
    destruct (_ =? _); try discriminate. destruct (copy_at s _ _ _) as [r| |]; cbn [res_bind] in H; try discriminate.
    destruct (after_eol _ _) as [k| |]; cbn [res_bind] in H; try discriminate. injection H as <- <-.
    repeat split; [exists v; reflexivity|exact n|exists r; reflexivity].
  - left. unfold parsereq in H.
    destruct (strchr_at s 0 _) as [[p2|]| |] eqn:E2; cbn [res_bind] in H; try discriminate. destruct (no_nul _ _ 2) as [ok| |]; cbn [res_bind] in H; try discriminate.
    destruct (negb ok); try discriminate. destruct (Z.eqb_spec p2 0) as [|NZ]; try discriminate.
    destruct (copy_at s 0 p2 _) as [meth| |] eqn:M; cbn [res_bind] in H; try discriminate.
    destruct (strchr_at s (p2 + 2) _) as [[p1|]| |]; cbn [res_bind] in H; try discriminate. destruct (_ <? 2); try discriminate.
    destruct (clrncpy_at _ _ _ _) as [u| |]; cbn [res_bind] in H; try discriminate. destruct (uri_parse u) as [x| |]; try discriminate.
    destruct (no_nul _ _ 7) as [ok7| |]; cbn [res_bind] in H; try discriminate. destruct (negb ok7); try discriminate.
    destruct (tail_at _ _) as [t| |]; cbn [res_bind] in H; try discriminate. destruct (negb _); try discriminate.
    destruct (scan_fwd _ _ _ _ _) as [hp| |]; cbn [res_bind] in H; try discriminate. destruct (ch s hp) as [c| |]; cbn [res_bind] in H; try discriminate.
    destruct (negb _); try discriminate. destruct (copy_at s (p1 + 1) _ _) as [v| |]; cbn [res_bind] in H; try discriminate.
    destruct (after_eol _ _) as [k| |]; cbn [res_bind] in H; try discriminate. injection H as <- <-.
    split; [|split; [exists x; reflexivity|split; [exists v; reflexivity|split; reflexivity]]].
    exists meth. split; [reflexivity|]. intros ->.
    destruct (strchr_at_cases s 0 " "%char) as [[E _]|(q & E & Q & _)]; [pose proof (slen_nonneg _ s); lia|congruence|].
    assert (q = p2) as -> by congruence. unfold copy_at in M. destruct (_ && _); [|discriminate]. injection M as M.
    apply (f_equal (@List.length _)) in M. rewrite firstn_length in M. cbn [Z.to_nat skipn] in M. unfold slen in Q. cbn [List.length] in M. lia.
Qed.
Lemma clear_line (m : message) : line (match m_content_length m with Some None => with_content_length None m | _ => m end) = line m.
Proof. destruct (m_content_length m) as [[v|]|]; [reflexivity| |reflexivity]. destruct m; reflexivity. Qed.

(** A text that osip_message_parse accepts is a request or a response: all parts of its start line are there, and none of the other kind *)
Theorem C86_message : forall msg m, message_parse msg = Ok m -> request_line m \/ status_line m.
Proof.
  intros msg m H. rewrite message_parse_eq in H. unfold parse_head in H.
  destruct (skip_eols _ _ _) as [p| |]; cbn [res_bind] in H; try discriminate. destruct (replace_all_lws _ _) as [b| |]; cbn [res_bind] in H; try discriminate.
  destruct (cstr_from _ _) as [s| |]; cbn [res_bind] in H; try discriminate. destruct (startline_parse _ _) as [[m1 h]| |] eqn:S; cbn [res_bind] in H; try discriminate.
  destruct (headers_parse _ _ _) as [[m2 k]| |] eqn:P; cbn [res_bind] in H; try discriminate.
  apply tail_line in H. rewrite clear_line in H. apply headers_line in P. rewrite P in H. exact (whole_eq _ _ H (start_whole _ _ _ S)).
Qed.
Print Assumptions C86_message.

(** *** Fragments *)
(** joining lines writes only spaces *)
Definition spaced (a b : buffer) : Prop := Forall2 (fun x y => y = x \/ y = sp) a b.
Lemma spaced_refl a : spaced a a. Proof. induction a; constructor; auto. Qed.
Lemma spaced_trans a b : spaced a b -> forall c, spaced b c -> spaced a c.
Proof. induction 1 as [|x y a b E S IH]; intros c T; inversion T as [|? z ? d F T']; subst; constructor; [|now apply IH]. destruct F as [-> | ->]; auto. Qed.
Lemma spaced_set a : forall n, (n < List.length a)%nat -> spaced a (firstn n a ++ sp :: skipn (S n) a).
Proof.
  induction a as [|x a IH]; intros n L; cbn [List.length] in L; [lia|]. destruct n as [|n]; cbn [firstn app].
  - constructor; [now right|apply spaced_refl].
  - constructor; [now left|]. apply IH. lia.
Qed.
Lemma wr_spaced b i b' : wr b i sp = Ok b' -> spaced b b'.
Proof.
  unfold wr. destruct (i <? 0) eqn:A; [discriminate|]. destruct (_ <=? i) eqn:B; [discriminate|]. cbn [orb]. intros [= <-].
  apply Z.ltb_ge in A. apply Z.leb_gt in B. apply spaced_set. lia.
Qed.
Lemma blank_spaced : forall f b p b' q, blank_out f b p = Ok (b', q) -> spaced b b'.
Proof.
  induction f as [|f IH]; intros b p b' q H; cbn [blank_out] in H; [discriminate|].
  destruct (rd b p) as [c| |]; cbn [res_bind] in H; try discriminate. destruct (_ || _); [|injection H as <- <-; apply spaced_refl].
  destruct (wr b p sp) as [b1| |] eqn:W; cbn [res_bind] in H; try discriminate. apply wr_spaced in W. apply IH in H. exact (spaced_trans _ _ W _ H).
Qed.
Lemma lws_spaced : forall f b p b', lws_loop f b p = Ok b' -> spaced b b'.
Proof.
  induction f as [|f IH]; intros b p b' H; cbn [lws_loop] in H; [discriminate|].
  do 4 (match type of H with res_bind ?x _ = _ => destruct x as [?c| |]; cbn [res_bind] in H; try discriminate H end;
        match type of H with (if ?x then _ else _) = _ => destruct x; [injection H as <-; apply spaced_refl|] end).
  match type of H with (if ?x then _ else _) = _ => destruct x; [injection H as <-; apply spaced_refl|] end.
  match type of H with (if ?x then _ else _) = _ => destruct x; [|exact (IH _ _ _ H)] end.
  destruct (wr b p sp) as [b1| |] eqn:W1; cbn [res_bind] in H; try discriminate. destruct (wr b1 (p + 1) sp) as [b2| |] eqn:W2; cbn [res_bind] in H; try discriminate.
  destruct (blank_out _ _ _) as [[b3 q]| |] eqn:K; cbn [res_bind] in H; try discriminate.
  apply wr_spaced in W1, W2. apply blank_spaced in K. apply IH in H. exact (spaced_trans _ _ W1 _ (spaced_trans _ _ W2 _ (spaced_trans _ _ K _ H))).
Qed.
(** what is skipped at the beginning *)
Lemma skip_spec : forall f b p q, 0 <= p -> skip_eols f b p = Ok q ->
  exists e r, skipn (Z.to_nat p) b = e ++ r /\ q = p + slen e /\ Forall (fun c => c = cr \/ c = lf) e.
Proof.
  induction f as [|f IH]; intros b p q P H; cbn [skip_eols] in H; [discriminate|].
  destruct (rd b p) as [c| |] eqn:R; cbn [res_bind] in H; try discriminate. destruct (is_eol c) eqn:E.
  - destruct (IH b (p + 1) q ltac:(lia) H) as (e & r & SK & Q & F). exists (c :: e), r.
    unfold rd in R. destruct (p <? 0); [discriminate|]. destruct (nth_error b (Z.to_nat p)) as [x|] eqn:N; [|discriminate]. injection R as ->.
    replace (Z.to_nat (p + 1)) with (S (Z.to_nat p)) in SK by lia.
    split; [|split; [rewrite slen_cons; lia|constructor; [|exact F]]].
    + cbn [app]. rewrite <- SK. clear - N. revert b N. induction (Z.to_nat p) as [|n IH]; intros [|y b] N; try discriminate; [injection N as ->; reflexivity|]. cbn [nth_error] in N. cbn [skipn]. apply IH, N.
    + unfold is_eol, is_ch in E. apply orb_true_iff in E. destruct E as [E|E]; apply Ascii.eqb_eq in E; auto.
  - injection H as <-. exists [], (skipn (Z.to_nat p) b). split; [reflexivity|]. split; [rewrite slen_nil; lia|constructor].
Qed.
Lemma spaced_skip : forall n a b, spaced a b -> spaced (skipn n a) (skipn n b).
Proof. induction n as [|n IH]; intros a b S; [exact S|]. inversion S; subst; [constructor|]. cbn [skipn]. now apply IH. Qed.
Lemma spaced_word w : ~ In sp w -> forall a r, spaced a (w ++ r) -> exists t, a = w ++ t.
Proof.
  induction w as [|c w IH]; intros N a r S; [now exists a|]. cbn [app] in S. inversion S as [|x y a' b' E S']; subst.
  destruct (IH (fun I => N (or_intror I)) a' r S') as (t & ->). destruct E as [->| ->]; [now exists t|]. elim N. now left.
Qed.
Lemma c_string_prefix : forall b s, c_string b = Ok s -> exists r, b = s ++ r.
Proof.
  induction b as [|c b IH]; intros s H; cbn [c_string] in H; [discriminate|].
  destruct (Ascii.eqb c NUL); [injection H as <-; now exists (c :: b)|].
  destruct (c_string b) as [t| |]; cbn [res_bind] in H; try discriminate. injection H as <-. destruct (IH t eq_refl) as (r & ->). now exists r.
Qed.
Lemma text_begins msg p b s : skip_eols (S (List.length (msg ++ [NUL]))) (msg ++ [NUL]) 0 = Ok p -> replace_all_lws (msg ++ [NUL]) p = Ok b ->
  cstr_from b p = Ok s -> strneq 4 s ($"SIP/") = true -> sip_text msg.
Proof.
  intros K L C T. destruct (skip_spec _ _ _ _ (Z.le_refl 0) K) as (e & r & S & P & F). cbn [Z.to_nat skipn] in S.
  apply lws_spaced in L. unfold cstr_from in C. destruct (_ || _); [discriminate|]. destruct (c_string_prefix _ _ C) as (x & X).
  pose proof (strneq_firstn 4 s ($"SIP/") eq_refl T) as W. pose proof (firstn_skipn 4 s) as V. rewrite W in V.
  pose proof (spaced_skip (Z.to_nat p) _ _ L) as Q. rewrite X, <- V, <- app_assoc in Q.
  destruct (spaced_word ($"SIP/") ltac:(cbn; intuition discriminate) _ _ Q) as (t & E).
  assert (Z.to_nat p = List.length e) as PE by (unfold slen in P; lia). rewrite S, PE, skipn_app, skipn_all, Nat.sub_diag in E. cbn [skipn app] in E.
  destruct (snoc_case _ t) as [->|(a & z & ->)].
  - rewrite app_nil_r in E. subst r. assert (last (msg ++ [NUL]) NUL = last (e ++ $"SIP/") NUL) as Y by now rewrite S.
    rewrite last_last in Y. change ($"SIP/") with ($"SIP" ++ ["/"%char]) in Y. rewrite app_assoc, last_last in Y. discriminate.
  - cbn [list_ascii_of_string app] in E. rewrite E in S. exists e, a. split; [|exact F].
    change (e ++ _) with (e ++ $"SIP/" ++ a ++ [z]) in S. rewrite !app_assoc in S. apply app_inj_tail in S. rewrite !app_assoc. exact (proj1 S).
Qed.

(** A fragment that is accepted has a whole start line or nothing of one, unless it begins with "SIP/" *)
Theorem C86_fragment_partial : forall msg m, message_parse_frag msg = Ok m -> ~ sip_text msg -> request_line m \/ status_line m \/ no_line m.
Proof.
  intros msg m H N. rewrite message_frag_eq in H. unfold frag_head in H.
  destruct (skip_eols _ _ _) as [p| |] eqn:K; cbn [res_bind] in H; try discriminate. destruct (replace_all_lws _ _) as [b| |] eqn:L; cbn [res_bind] in H; try discriminate.
  destruct (cstr_from _ _) as [s| |] eqn:C; cbn [res_bind] in H; try discriminate. unfold startline_frag in H.
  destruct (startline_parse s msg_init) as [[m1 h]|c|] eqn:S; cbn [res_bind] in H; try discriminate.
  - destruct (headers_parse _ _ _) as [[m2 k]| |] eqn:P; cbn [res_bind] in H; try discriminate.
    apply tail_line in H. rewrite clear_line in H. apply headers_line in P. rewrite P in H. destruct (whole_eq _ _ H (start_whole _ _ _ S)); auto.
  - unfold startline_left in H. destruct (strneq 4 s ($"SIP/")) eqn:T; [elim N; exact (text_begins _ _ _ _ K L C T)|]. cbn [negb res_bind] in H.
    destruct (headers_parse _ _ _) as [[m2 k]| |] eqn:P; cbn [res_bind] in H; try discriminate.
    apply tail_line in H. rewrite clear_line in H. apply headers_line in P. rewrite P in H. right. right. apply (no_line_eq _ _ H). repeat split.
Qed.
Print Assumptions C86_fragment_partial.
(** Finding.  A fragment whose first header is named "SIP/2.0 x" keeps the version of the refused status line: neither request nor
    response, and not without a start line *)
Theorem C86_fragment_refuted : exists m, message_parse_frag ($"SIP/2.0 x: z" ++ [cr; lf; cr; lf]) = Ok m /\
  m_version m = Some ($"SIP/2.0") /\ ~ request_line m /\ ~ status_line m /\ ~ no_line m.
Proof.
  eexists. split; [vm_compute; reflexivity|]. split; [reflexivity|].
  split; [intros ((x & E & _) & _); discriminate E|]. split; [intros (_ & _ & _ & E & _); apply E; reflexivity|intros (_ & _ & E & _); discriminate E].
Qed.
Print Assumptions C86_fragment_refuted.
Example C86_example : exists m, message_parse ($"OPTIONS sip:a@b SIP/2.0" ++ [cr; lf] ++ $"Subject: x" ++ [cr; lf; cr; lf]) = Ok m /\ m_method m = Some ($"OPTIONS").
Proof. eexists. split; vm_compute; reflexivity. Qed.
Example C86_status_example : exists m, message_parse ($"SIP/2.0 200 OK" ++ [cr; lf; cr; lf]) = Ok m /\ m_status m = 200 /\ m_reason m = Some ($"OK").
Proof. eexists. split; [vm_compute; reflexivity|split; reflexivity]. Qed.
Example C86_fragment_example : exists m, message_parse_frag ($"Subject: x" ++ [cr; lf; cr; lf]) = Ok m /\ ~ sip_text ($"Subject: x" ++ [cr; lf; cr; lf]).
Proof.
  eexists. split; [vm_compute; reflexivity|]. intros (e & r & E & F). destruct e as [|c e]; [discriminate|]. injection E as <- _.
  inversion F as [|? ? [A|A] ?]; discriminate.
Qed.

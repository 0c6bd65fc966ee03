(** C76: message fragments (message/sipfrag, RFC 3420) survive printing and parsing; the parser of
    fragments stays inside the text. *)
From Coq Require Import String ZArith NArith Ascii Bool List Lia ZifyBool ZifyNat.
From Verif Require Import Base Str StrLemmas Types MemModel MemLemmas CString CStringLemmas SafeLemmas PortModel PortProps ViaModel UriModel EscapeProps UriProps UriRound HdrModel HdrProps HdrRound FromRound AuthModel AuthSafe ViaRound AuthRound MsgFields MsgModel MsgProps MsgSplit MsgSafe MsgFold MsgBody MsgPrint MsgText MsgStart MsgRound MsgWhole MsgMulti MsgSyntax FragModel.
Import ListNotations.
Open Scope Z_scope.

(** *** Specification *)
(** The text begins like a start line: with "SIP/", or its third word begins with "SIP/" in any
    case.  Words are separated by single spaces; a line break is no separator for the parser. *)
Definition start_like (s : list ascii) : Prop :=
  (exists r, s = $"SIP/" ++ r) \/
  (exists a c b v r, s = a ++ sp :: c :: b ++ sp :: v ++ r /\ ~ In sp a /\ ~ In sp b /\ strcaseeq v ($"SIP/") = true).
(** a fragment without start line, its headers and body well formed as in C57 *)
Record fragment (m : message) : Prop := {
  fr_method : m_method m = None; fr_uri : m_uri m = None; fr_version : m_version m = None;
  fr_status : m_status m = 0; fr_reason : m_reason m = None;
  fr_headers : headers_wf m; fr_others : Forall other_wf (m_headers m); fr_body : body_wf m }.

(** *** Memory safety *)
Definition frag_head (msg : list ascii) : res (message * buffer * Z) :=
  let b := msg ++ [NUL] in
  do p <- skip_eols (S (length b)) b 0 ;
  do b <- replace_all_lws b p ;
  do s <- cstr_from b p ;
  do r <- startline_frag s msg_init ;
  let (m, h) := r : message * Z in
  do r <- headers_parse s h m ;
  let (m, k) := r : message * Z in
  Ok (match m_content_length m with Some None => with_content_length None m | _ => m end, b, p + k).
Lemma message_frag_eq : forall msg, message_parse_frag msg = do x <- frag_head msg ; let '(m, b, t) := x in parse_tail msg m b t.
Proof.
  intros msg. unfold message_parse_frag, frag_head, parse_tail.
  destruct (skip_eols _ _ _) as [p| |]; [|reflexivity|reflexivity]. cbn [res_bind].
  destruct (replace_all_lws _ _) as [b| |]; [|reflexivity|reflexivity]. cbn [res_bind].
  destruct (cstr_from _ _) as [s| |]; [|reflexivity|reflexivity]. cbn [res_bind].
  destruct (startline_frag _ _) as [[m h]| |]; [|reflexivity|reflexivity]. cbn [res_bind].
  destruct (headers_parse _ _ _) as [[m' k]| |]; reflexivity.
Qed.
Lemma frag_ok : forall s m, cstr s -> exists m' k, startline_frag s m = Ok (m', k) /\ 0 <= k <= slen s.
Proof.
  intros s m C. unfold startline_frag. destruct (startline_ok s m C) as [U R]. destruct (startline_parse s m) as [[m' k]|c|]; [eauto| |congruence].
  assert (0 <= 0 <= slen s) as Z0 by (pose proof (slen_nonneg _ s); lia).
  assert (exists m', startline_left s m = Ok m') as (m' & ->).
  { unfold startline_left. destruct (negb _); [eauto|]. destruct (strchr_at_cases s 0 " "%char Z0) as [[-> _]|(sc & -> & SC & _)]; cbn [res_bind]; [eauto|].
    destruct (copy_at_ok s 0 sc (sc + 1)) as (v & ->); [lia|lia|lia|]. cbn [res_bind].
    destruct (strchr_at_cases s (sc + 1) " "%char) as [[-> _]|(rp & -> & R2 & _)]; [lia| |]; cbn [res_bind]; [eauto|].
    destruct (tail_at_ok s (sc + 1)) as (t & -> & _); [lia|]. cbn [res_bind]. eauto. }
  cbn [res_bind]. eauto.
Qed.
Lemma frag_head_ok : forall msg, is_wsp (last msg NUL) = false -> frag_head msg <> UB /\
  forall m b t, frag_head msg = Ok (m, b, t) -> slen b = slen msg + 1 /\ byte b (slen msg) = NUL /\ 0 <= t <= slen msg /\ m_content_length m <> Some None.
Proof.
  intros msg L. unfold frag_head. assert (slen (msg ++ [NUL]) = slen msg + 1) as B1 by sl.
  assert (byte (msg ++ [NUL]) (slen msg) = NUL) as B2 by (apply (byte_at _ msg NUL []); reflexivity).
  pose proof (slen_nonneg _ msg) as NN.
  destruct (skip_eols_ok (S (length (msg ++ [NUL]))) (msg ++ [NUL]) 0 (slen msg)) as (p & -> & P); [lia|exact B1|exact B2|rewrite app_length; cbn [length]; unfold slen; lia|].
  cbn [res_bind]. destruct (C42_safe_partial msg p) as (b & -> & LB); [lia|exact L|]. cbn [res_bind].
  assert (slen (b ++ [NUL]) = slen msg + 1) as C1 by (rewrite slen_app, slen_cons, slen_nil; unfold slen; lia).
  assert (byte (b ++ [NUL]) (slen msg) = NUL) as C2 by (apply (byte_at _ b NUL []); [reflexivity|unfold slen; lia]).
  destruct (cstr_from_ok (b ++ [NUL]) p (slen msg)) as (s & -> & CS & LS); [lia|lia|exact C2|]. cbn [res_bind].
  destruct (frag_ok s msg_init CS) as (m & h & -> & R1). cbn [res_bind].
  destruct (headers_loop_ok (S (length s)) s h h m CS) as [U2 R2]; [exact R1|exact R1|unfold slen in *; lia|]. unfold headers_parse.
  destruct (headers_loop (S (length s)) s h h m) as [[m' k]|c|]; cbn [res_bind]; [|split; discriminate|congruence].
  specialize (R2 m' k eq_refl). split; [discriminate|]. intros m0 b0 t0 H. inversion H; subst. split; [exact C1|]. split; [exact C2|]. split; [lia|].
  destruct (m_content_length m') as [[v|]|] eqn:E; rewrite ?E; [discriminate|discriminate|discriminate].
Qed.
(** osip_message_parse_sipfrag: no byte outside the text is used when the last byte is not a blank
    and no multipart body is announced.  The rest is C76_safe_refuted. *)
Theorem C76_safe_partial : forall msg, is_wsp (last msg NUL) = false ->
  (forall m b t, frag_head msg = Ok (m, b, t) -> ~ multipart m) -> message_parse_frag msg <> UB.
Proof.
  intros msg L NM. rewrite message_frag_eq. destruct (frag_head_ok msg L) as [U R].
  destruct (frag_head msg) as [[[m b] t]|c|]; cbn [res_bind]; [|discriminate|congruence].
  destruct (R m b t eq_refl) as (B1 & B2 & T & CL). specialize (NM m b t eq_refl). clear R U. unfold parse_tail.
  rewrite rd_ok by lia. cbn [res_bind].
  assert (exists d, (if is_ch (byte b t) cr then rd b (t + 1) else Ok NUL) = Ok d) as (d & ->).
  { destruct (is_ch (byte b t) cr) eqn:E; [|eauto]. assert (t <> slen msg) by (intros ->; rewrite B2 in E; discriminate). rewrite rd_ok by lia. eauto. }
  cbn [res_bind]. match goal with |- (if ?h then _ else _) <> UB => destruct h end; [|apply zero_length_safe].
  pose proof (body_parse_safe m (slen msg) b t B1 B2 T CL NM) as S. destruct (body_parse m b t (slen msg - t)); cbn [res_bind]; [apply zero_length_safe|discriminate|congruence].
Qed.

(** A message that is accepted is accepted as a fragment, with the same result. *)
Theorem C76_whole_message : forall msg m, message_parse msg = Ok m -> message_parse_frag msg = Ok m.
Proof.
  intros msg m H. rewrite message_parse_eq in H. rewrite message_frag_eq. unfold parse_head in H. unfold frag_head, startline_frag.
  destruct (skip_eols _ _ _) as [p| |]; cbn [res_bind] in *; try discriminate. destruct (replace_all_lws _ _) as [b| |]; cbn [res_bind] in *; try discriminate.
  destruct (cstr_from _ _) as [s| |]; cbn [res_bind] in *; try discriminate. destruct (startline_parse _ _) as [[m1 h]| |]; cbn [res_bind] in *; try discriminate. exact H.
Qed.

(** *** Round trip *)
Lemma strneq_firstn : forall n a b, length b = n -> strneq n a b = true -> firstn n a = b.
Proof.
  induction n as [|n IH]; intros a b L H; [destruct b; [reflexivity|discriminate]|]. destruct b as [|y b]; [discriminate|]. destruct a as [|x a]; [discriminate|].
  cbn [strneq] in H. apply andb_true_iff in H. destruct H as [H1 H2]. apply Ascii.eqb_eq in H1. cbn [firstn]. f_equal; [exact H1|]. apply IH; [cbn in L; lia|exact H2].
Qed.
Lemma sip_word : forall r, strncaseeq 4 r ($"SIP/") = true -> exists v r', r = v ++ r' /\ strcaseeq v ($"SIP/") = true.
Proof.
  intros r H. unfold strncaseeq in H. apply strneq_firstn in H; [|reflexivity]. exists (firstn 4 r), (skipn 4 r). split; [symmetry; apply firstn_skipn|].
  unfold strcaseeq. rewrite <- firstn_map. rewrite H. apply streq_eq. reflexivity.
Qed.
Lemma not_start : forall s m, cstr s -> ~ start_like s -> startline_frag s m = Ok (m, 0).
Proof.
  intros s m C N. unfold startline_frag, startline_left. destruct (startline_ok s m C) as [U _].
  assert (strneq 4 s ($"SIP/") = false) as SP.
  { destruct (strneq 4 s ($"SIP/")) eqn:E; [|reflexivity]. exfalso. apply N. left. exact (strneq_prefix ($"SIP/") s E). }
  rewrite SP. cbn [negb]. destruct (startline_parse s m) as [[m' k]|c|] eqn:E; [|reflexivity|congruence]. exfalso. apply N. right.
  unfold startline_parse in E. rewrite SP in E. unfold parsereq in E.
  destruct (strchr_at s 0 " "%char) as [[p2|]| |] eqn:P2; cbn [res_bind] in E; try discriminate.
  apply strchr_at_inv in P2. destruct P2 as (_ & B2 & a0 & a & y & ES & LA0 & LA & NA). assert (a0 = []) as -> by (destruct a0; [reflexivity|cbn in LA0; unfold slen in LA0; cbn in LA0; lia]). cbn [app] in ES.
  destruct (no_nul s (p2 + 1) 2) as [[|]| |]; cbn [res_bind negb] in E; try discriminate. destruct (p2 =? 0); [discriminate|].
  destruct (copy_at s 0 p2 (p2 + 1)) as [meth| |]; cbn [res_bind] in E; try discriminate.
  destruct (strchr_at s (p2 + 2) " "%char) as [[p1|]| |] eqn:P1; cbn [res_bind] in E; try discriminate.
  apply strchr_at_inv in P1. destruct P1 as (_ & B1 & b0 & b & z & ES2 & LB0 & LB & NB).
  destruct (p1 - p2 <? 2); [discriminate|]. destruct (clrncpy_at s (p2 + 1) (p1 - p2 - 1) (p1 - p2)) as [ut| |]; cbn [res_bind] in E; try discriminate.
  destruct (uri_parse ut); try discriminate. destruct (no_nul s (p1 + 1) 7) as [[|]| |]; cbn [res_bind negb] in E; try discriminate.
  assert (exists c, b0 = a ++ [sp; c]) as (c & ->).
  { assert (b0 = firstn (length a + 2) s) as E0. { rewrite ES2. replace (length a + 2)%nat with (length b0) by (unfold slen in *; lia). rewrite firstn_app, Nat.sub_diag, firstn_all. cbn. rewrite app_nil_r. reflexivity. }
    rewrite ES in E0. rewrite firstn_app, firstn_all2 in E0 by lia. replace (length a + 2 - length a)%nat with 2%nat in E0 by lia.
    destruct y as [|c y]; [|exists c; exact E0]. exfalso. cbn in E0. assert (length b0 = length a + 1)%nat by (rewrite E0, app_length; reflexivity). unfold slen in *. lia. }
  destruct (tail_at s (p1 + 1)) as [v| |] eqn:TV; cbn [res_bind] in E; try discriminate.
  rewrite (tail_at_app s ((a ++ [sp; c]) ++ b ++ [sp]) z) in TV.
  2:{ rewrite ES2, <- !app_assoc. reflexivity. }
  2:{ rewrite slen_app in LB0. rewrite !slen_app. change (slen [sp]) with 1. change (slen [sp; c]) with 2 in *. lia. }
  injection TV as <-. destruct (strncaseeq 4 z ($"SIP/")) eqn:SW; [|discriminate]. destruct (sip_word z SW) as (v & r' & -> & SV).
  exists a, c, b, v, r'. split; [rewrite ES2, <- !app_assoc; reflexivity|]. auto.
Qed.
Lemma start_like_app : forall s r, start_like s -> start_like (s ++ r).
Proof.
  intros s r [(x & ->)|(a & c & b & v & x & -> & NA & NB & S)]; [left; exists (x ++ r); rewrite <- app_assoc; reflexivity|].
  right. exists a, c, b, v, (x ++ r). split; [|auto]. rewrite <- !app_assoc. cbn [app]. rewrite <- !app_assoc. cbn [app]. rewrite <- app_assoc. reflexivity.
Qed.

(** the head of a fragment: [pre] is nothing or a start line *)
Lemma frag_head_text : forall pre l rest m1 m2,
  pre = [] /\ l <> [] \/ (exists st, pre = st ++ CRLF /\ st <> [] /\ without [cr; lf; NUL] st) ->
  startline_frag (pre ++ fields_text l ++ CRLF ++ until_nul rest) msg_init = Ok (m1, slen pre) ->
  Forall field_ok l -> store m1 l = Ok m2 -> m_content_length m2 <> Some None ->
  frag_head (pre ++ fields_text l ++ CRLF ++ rest) =
  Ok (m2, (pre ++ fields_text l) ++ CRLF ++ rest ++ [NUL], slen (pre ++ fields_text l)).
Proof.
  intros pre l rest m1 m2 N SP F ST CL. unfold frag_head.
  assert (exists c x, pre ++ fields_text l ++ CRLF ++ rest = c :: x /\ is_eol c = false) as (c & x & EX & NE).
  { destruct N as [(-> & NL)|(st & -> & NS & W)].
    - destruct l as [|[n v] l]; [congruence|]. inversion F as [|? ? H _]; subst. destruct H as (H1 & H2 & H3 & _). cbn [fst] in *. destruct (name_head n H1 H2 H3) as (c & n' & -> & _ & W2 & _). eexists c, _. split; [reflexivity|exact W2].
    - destruct st as [|c st]; [congruence|]. eexists c, _. split; [reflexivity|]. apply (not_eol (c :: st)); [eapply without_incl; [exact W|intros y; cbn; tauto]|left; reflexivity]. }
  assert (unfolded (pre ++ fields_text l ++ CRLF ++ rest) (pre ++ fields_text l ++ CRLF ++ rest)) as UF.
  { destruct N as [(-> & NL)|(st & -> & NS & W)].
    - destruct l as [|[n v] l]; [congruence|]. inversion F as [|? ? H F']; subst. destruct H as (H1 & H2 & H3 & H4 & H5). cbn [fst snd] in *. cbn [app fields_text flat_map]. fold (fields_text l). unfold field_text. cbn [fst snd].
      replace ((n ++ ":"%char :: v ++ CRLF) ++ fields_text l) with (n ++ (":"%char :: v) ++ CRLF ++ fields_text l) by cat.
      rewrite <- !app_assoc. apply uf_plain; [apply plain_forallb; eapply without_incl; [exact H3|intros y; cbn; tauto]|]. apply uf_plain; [cbn [forallb]; rewrite plain_forallb by exact H5; reflexivity|]. apply fields_unfolded, F'.
    - rewrite <- app_assoc. apply uf_plain; [apply plain_forallb, W|]. apply fields_unfolded, F. }
  assert (cstr pre) as CP.
  { destruct N as [(-> & _)|(st & -> & _ & W)]; [intros []|]. intros I. apply in_app_or in I. destruct I as [I|[I|[I|[]]]]; [exact (W NUL ltac:(cbn; tauto) I)|discriminate|discriminate]. }
  assert (skip_eols (S (length ((pre ++ fields_text l ++ CRLF ++ rest) ++ [NUL]))) ((pre ++ fields_text l ++ CRLF ++ rest) ++ [NUL]) 0 = Ok 0) as ->.
  { rewrite EX. cbn [skip_eols app]. match goal with |- context [rd (c :: ?r) 0] => change (rd (c :: r) 0) with (rd ([] ++ c :: r) 0); rewrite (rd_at [] c r) by reflexivity end. cbn [res_bind]. rewrite NE. reflexivity. }
  cbn [res_bind]. pose proof (C42_unfold_partial [] _ _ UF) as U. cbn [app] in U. change (slen []) with 0 in U. rewrite U.
  clear U. cbn [res_bind]. unfold cstr_from. replace ((0 <? 0) || (slen ((pre ++ fields_text l ++ CRLF ++ rest) ++ [NUL]) <=? 0)) with false by (pose proof (slen_nonneg _ (pre ++ fields_text l ++ CRLF ++ rest)); sl).
  change (Z.to_nat 0) with 0%nat. cbn [skipn].
  replace ((pre ++ fields_text l ++ CRLF ++ rest) ++ [NUL]) with ((pre ++ fields_text l ++ CRLF) ++ rest ++ [NUL]) by cat.
  rewrite c_string_until.
  2:{ intros I. rewrite !in_app_iff in I. destruct I as [I|[I|I]]; [exact (CP I)|exact (fields_cstr l F I)|destruct I as [I|[I|[]]]; discriminate]. }
  cbn [res_bind]. replace ((pre ++ fields_text l ++ CRLF) ++ until_nul rest) with (pre ++ fields_text l ++ CRLF ++ until_nul rest) by cat.
  rewrite SP. cbn [res_bind]. unfold headers_parse.
  rewrite (headers_run l _ (pre ++ fields_text l ++ CRLF ++ until_nul rest) pre (until_nul rest) _ m1 m2); [|exact F|reflexivity| |exact ST].
  2:{ rewrite !app_length. assert (length l <= length (fields_text l))%nat; [|lia]. clear. induction l as [|[n v] l IH]; [cbn; lia|]. cbn [fields_text flat_map]. fold (fields_text l). rewrite app_length. unfold field_text. cbn [fst snd]. rewrite app_length. cbn [length]. lia. }
  cbn [res_bind]. f_equal. f_equal; [f_equal|].
  - destruct (m_content_length m2) as [[v|]|]; [reflexivity|congruence|reflexivity].
  - cat.
  - sln.
Qed.

Lemma frag_layout : forall m pre h x b, (match startline_text m with Ok t => Ok (line [] t) | Err c => Ok [] | UB => UB end) = Ok pre ->
  headers_text m = Ok h -> others_text (m_headers m) = Ok x -> m_bodies m <> [] -> boundary_of m = Ok None -> bodies_text None (m_bodies m) = Ok b -> 
  exists s, message_to_str true m = Ok s /\ (slen s <= 999999 -> exists pad digits, s = pre ++ h ++ x ++ $"Content-Length:" ++ pad ++ digits ++ CRLF ++ CRLF ++ b /\
    all_blank pad /\ digit_string digits /\ decimal digits = slen b).
Proof.
  intros m pre h x b E1 E2 E3 NB E4 E5. rewrite C40_message. unfold message_text. rewrite E1, E2, E3. cbn [res_bind]. destruct (m_bodies m) as [|bd l]; [congruence|]. rewrite E4. cbn [res_bind]. rewrite E5. cbn [res_bind]. cbv zeta.
  pose proof (sprintf_len_any (slen b)) as DL. pose proof (slen_nonneg _ pre). pose proof (slen_nonneg _ h). pose proof (slen_nonneg _ x). pose proof (slen_nonneg _ b).
  match goal with |- exists s, ?r = Ok s /\ _ => destruct r as [s|c|] eqn:Q end.
  - exists s. split; [reflexivity|]. intros SM.
    assert (slen s = slen ((pre ++ h ++ x ++ $"Content-Length:      ") ++ CRLF ++ CRLF ++ b)) as LS by (apply wr_range_len in Q; unfold slen; rewrite Q; reflexivity).
    rewrite !slen_app in LS. change (slen CRLF) with 2 in LS. change (slen ($"Content-Length:      ")) with 21 in LS.
    assert (int32 (slen b) = slen b) as I. { unfold int32. rewrite Z.mod_small by lia. replace (slen b <? 2147483648) with true by lia. reflexivity. }
    rewrite I in Q. destruct (sprintf_i_spec (slen b)) as [D1 D2]; [lia|]. pose proof (sprintf_len_le (slen b) 5 ltac:(change (10 ^ (5 + 1)) with 1000000; lia) ltac:(lia)) as DL2.
    exists (repeat sp (6 - length (sprintf_i (slen b)))), (sprintf_i (slen b)).
    split; [|split; [apply Forall_forall; intros c C; apply repeat_spec in C; exact C|split; [exact D1|exact D2]]].
    replace (pre ++ h ++ x ++ $"Content-Length:      ") with (((pre ++ h ++ x ++ $"Content-Length:") ++ repeat sp (6 - length (sprintf_i (slen b)))) ++ repeat sp (length (sprintf_i (slen b)))) in Q.
    + rewrite overwrite_end in Q by apply repeat_length. injection Q as <-. rewrite <- !app_assoc. reflexivity.
    + rewrite <- app_assoc, <- repeat_app. replace (6 - _ + _)%nat with 6%nat by (unfold slen at 1 in DL2; lia). cbn [repeat]. rewrite <- !app_assoc. reflexivity.
  - exfalso. unfold wr_range in Q. destruct (_ || _) in Q; discriminate.
  - exfalso. revert Q. revert DL. generalize (sprintf_i (int32 (slen b))). intros dd DD. unfold wr_range.
    rewrite (proj2 (orb_false_iff _ _)); [discriminate|]. change (Z.of_nat (length dd)) with (slen dd). match goal with |- context [Z.of_nat (length ?x)] => change (Z.of_nat (length x)) with (slen x) end.
    pose proof (slen_nonneg _ dd). rewrite !slen_app. change (slen ($"Content-Length:      ")) with 21. change (slen CRLF) with 2. split; lia.
Qed.
Lemma body_shape : forall m, body_wf m -> exists b, bodies_text None (m_bodies m) = Ok b /\ b = flat_map b_body (m_bodies m) /\ (m_bodies m <> [] -> boundary_of m = Ok None) /\
  (b = [] /\ m_bodies m = [] \/ b <> [] /\ m_bodies m = [mkBody b [] None] /\ single m).
Proof.
  intros m [->|(b & -> & NB & SI)]; [exists []; split; [reflexivity|]; split; [reflexivity|]; split; [congruence|left; auto]|].
  exists b. assert (part_text (mkBody b [] None) = Ok b) as PT. { unfold part_text. cbn [b_body b_ctype b_headers]. destruct b; [congruence|]. cbn. rewrite app_nil_r. reflexivity. }
  split; [cbn [bodies_text map cat_all]; rewrite PT; cbn [res_bind]; rewrite app_nil_r; reflexivity|]. split; [cbn; rewrite app_nil_r; reflexivity|]. split; [|right; auto].
  intros _. unfold boundary_of. destruct SI as (c & ty & C1 & C2 & C3 & C4). rewrite C1. destruct (m_mime_version m); [|reflexivity]. destruct c as [ct cs cp]. cbn [ct_type] in C2. rewrite C2.
  replace (strcaseeq ty ($"multipart")) with false; [reflexivity|]. symmetry. destruct (strcaseeq ty ($"multipart")) eqn:Q; [|reflexivity]. exfalso. apply C4.
  unfold strcaseeq in Q. apply streq_eq in Q. rewrite Q. reflexivity.
Qed.

Lemma frag_parse_none : forall pre l m1 m2,
  pre = [] /\ l <> [] \/ (exists st, pre = st ++ CRLF /\ st <> [] /\ without [cr; lf; NUL] st) ->
  startline_frag (pre ++ fields_text l ++ CRLF) msg_init = Ok (m1, slen pre) -> Forall field_ok l -> store m1 l = Ok m2 -> m_content_length m2 = None ->
  message_parse_frag (pre ++ fields_text l ++ CRLF) = Ok (with_content_length (Some (Some ($"0"))) m2).
Proof.
  intros pre l m1 m2 N SP F ST CL. rewrite message_frag_eq. pose proof (frag_head_text pre l [] m1 m2 N) as H. cbn [until_nul] in H. rewrite !app_nil_r in H.
  rewrite (H SP F ST) by congruence. cbn [res_bind app]. unfold parse_tail. set (q := pre ++ fields_text l). rewrite (rd_at q cr [lf; NUL]) by reflexivity. cbn [res_bind]. change (is_ch cr cr) with true. cbv iota.
  rewrite (rd_next q (slen q) [cr] [lf; NUL]) by reflexivity. cbn [res_bind]. rewrite CL. change (is_ch cr lf) with false. change (is_ch lf lf) with true. rewrite app_assoc. fold q. rewrite slen_app. change (slen CRLF) with 2. replace (slen q + 2 - slen q - 2 =? 0) with true by lia.
  cbn [andb orb negb]. unfold zero_length. rewrite CL. unfold set_content_length. cbn. rewrite CL. reflexivity.
Qed.
Lemma frag_parse_body : forall pre l b m1 m2 d,
  pre = [] /\ l <> [] \/ (exists st, pre = st ++ CRLF /\ st <> [] /\ without [cr; lf; NUL] st) ->
  startline_frag (pre ++ fields_text l ++ CRLF ++ until_nul b) msg_init = Ok (m1, slen pre) -> Forall field_ok l -> store m1 l = Ok m2 ->
  m_content_length m2 = Some (Some d) -> digit_string d -> decimal d = slen b -> slen b <= 2147483647 -> b <> [] -> single m2 ->
  message_parse_frag (pre ++ fields_text l ++ CRLF ++ b) = Ok (with_bodies (m_bodies m2 ++ [mkBody b [] None]) m2).
Proof.
  intros pre l b m1 m2 d N SP F ST CL DD DE LB NB SI. rewrite message_frag_eq. rewrite (frag_head_text pre l b m1 m2 N SP F ST) by congruence. cbn [res_bind].
  unfold parse_tail. set (q := pre ++ fields_text l). rewrite (rd_at q cr (lf :: b ++ [NUL])) by reflexivity. cbn [res_bind]. change (is_ch cr cr) with true. cbv iota.
  rewrite (rd_next q (slen q) [cr] (lf :: b ++ [NUL])) by reflexivity. cbn [res_bind]. rewrite CL, strtol_small by (auto; lia). rewrite DE. cbv zeta.
  destruct b as [|b0 b']; [congruence|]. set (b := b0 :: b') in *. replace (slen b >? 0) with true by (unfold b; sl).
  pose proof (C45_body m2 q CRLF b [] d SI) as B. rewrite app_nil_r in B. cbn [app] in B.
  replace (slen (pre ++ fields_text l ++ CRLF ++ b) - slen q) with (slen (CRLF ++ b)) by (unfold q; sln). rewrite B; [|split; [left; reflexivity|discriminate]|discriminate|exact CL|exact DD|exact DE|exact LB].
  cbn [res_bind]. unfold zero_length. cbn [with_bodies m_content_length]. rewrite CL. reflexivity.
Qed.

(** the start lines of the two cases *)
Definition no_start (m : message) : Prop := m_method m = None /\ m_uri m = None /\ m_version m = None /\ m_status m = 0 /\ m_reason m = None.
Lemma no_start_text : forall m, no_start m -> exists c, startline_text m = Err c.
Proof. intros m (A & B & C & D & E). unfold startline_text. rewrite A, E. eauto. Qed.

Lemma until_nul_prefix : forall b, exists r, b = until_nul b ++ r.
Proof. induction b as [|c b (r & IH)]; [exists []; reflexivity|]. cbn [until_nul]. destruct (Ascii.eqb c NUL); [exists (c :: b); reflexivity|]. exists r. cbn. f_equal. exact IH. Qed.
Lemma frag_run : forall m pre, headers_wf m -> Forall other_wf (m_headers m) -> body_wf m ->
  (match startline_text m with Ok t => Ok (line [] t) | Err c => Ok [] | UB => UB end) = Ok pre ->
  pre = [] /\ no_start m \/ (exists st, pre = st ++ CRLF /\ st <> [] /\ without [cr; lf; NUL] st) ->
  exists s, message_to_str true m = Ok s /\ (slen s <= 999999 ->
    (forall y r, s = (pre ++ y) ++ r -> cstr (pre ++ y) -> startline_frag (pre ++ y) msg_init = Ok (with_startline m msg_init, slen pre)) ->
    exists d, digit_string d /\ decimal d = slen (flat_map b_body (m_bodies m)) /\ message_parse_frag s = Ok (with_content_length (Some (Some d)) m)).
Proof.
  intros m pre HW OW BW TP PP. destruct (body_shape m BW) as (b & B1 & B2 & B3 & B4).
  assert (start_only (with_startline m msg_init)) as SO by (repeat eexists).
  destruct (headers_run_all m _ HW SO) as (l1 & H1 & H2 & H3). destruct (others_run _ OW) as (l2 & O1 & O2 & O3).
  assert (cstr pre) as CP.
  { destruct PP as [[-> _]|(st & -> & _ & W)]; [intros []|]. intros I. apply in_app_or in I. destruct I as [I|[I|[I|[]]]]; [exact (W NUL ltac:(cbn; tauto) I)|discriminate|discriminate]. }
  assert (forall l b, Forall field_ok l -> cstr (pre ++ fields_text l ++ CRLF ++ until_nul b)) as CS.
  { intros l b' F I. rewrite !in_app_iff in I. destruct I as [I|[I|[I|I]]]; [exact (CP I)|exact (fields_cstr l F I)|destruct I as [I|[I|[]]]; discriminate|]. revert I. clear. induction b' as [|c b' IH]; cbn; [tauto|]. destruct (Ascii.eqb c NUL) eqn:E; [intros []|]. intros [->|I]; [discriminate|exact (IH I)]. }
  assert (Forall field_ok (l1 ++ l2)) as FL by (apply Forall_app; split; assumption).
  assert (store (with_startline m msg_init) (l1 ++ l2) = Ok (with_headers (m_headers m) (with_known m (with_startline m msg_init)))) as SL0 by (rewrite store_app, H3; cbn [res_bind]; rewrite O3 by exact I; reflexivity).
  destruct B4 as [(-> & MB)|(NB & MB & SI)].
  - exists (pre ++ fields_text (l1 ++ l2) ++ CRLF). split. { rewrite C40_message. unfold message_text. rewrite TP, H1, O1. cbn [res_bind]. rewrite MB. f_equal. rewrite fields_app. cat. }
    intros SM SP. exists ($"0"). split; [split; [discriminate|repeat constructor; cbn; lia]|]. split; [rewrite <- B2; reflexivity|].
    assert (pre = [] /\ l1 ++ l2 = [] \/ (pre = [] /\ l1 ++ l2 <> [] \/ (exists st, pre = st ++ CRLF /\ st <> [] /\ without [cr; lf; NUL] st))) as [(-> & E)|PQ].
    { destruct PP as [[-> _]|PP]; [|auto]. destruct (l1 ++ l2); [left; auto|right; left; split; [reflexivity|discriminate]]. }
    { rewrite E in SL0 |- *. cbn [store] in SL0. injection SL0 as S1. destruct PP as [(_ & NS)|(st & X & NST & _)]; [|destruct st; [congruence|discriminate]]. destruct NS as (N1 & N2 & N3 & N4 & N5).
      change ([] ++ fields_text [] ++ CRLF) with CRLF. assert (message_parse_frag CRLF = Ok (with_content_length (Some (Some ($"0"))) msg_init)) as -> by (vm_compute; reflexivity). f_equal.
      unfold with_startline, with_known in *. destruct m. cbn in *. subst. reflexivity. }
    rewrite (frag_parse_none pre (l1 ++ l2) (with_startline m msg_init) (with_headers (m_headers m) (with_known m (with_startline m msg_init)))); [| | |exact FL|exact SL0|reflexivity].
    + f_equal. destruct m. cbn in MB |- *. rewrite MB. reflexivity.
    + exact PQ.
    + apply (SP _ []); [rewrite app_nil_r; reflexivity|]. pose proof (CS (l1 ++ l2) [] FL) as C. cbn [until_nul] in C. rewrite app_nil_r in C. exact C.
  - assert (m_bodies m <> []) as NM by (rewrite MB; discriminate). destruct (frag_layout m pre _ _ b TP H1 O1 NM (B3 NM) B1) as (s & PS & K). exists s. split; [exact PS|]. intros SM SP. destruct (K SM) as (pad & digits & ES & AB & DS & DV).
    exists digits. split; [exact DS|]. split; [rewrite <- B2; exact DV|].
    set (fl := (l1 ++ l2) ++ [($"Content-Length", pad ++ digits)]).
    assert (s = pre ++ fields_text fl ++ CRLF ++ b) as ES2.
    { rewrite ES. unfold fl. rewrite !fields_app. change (fields_text [($"Content-Length", pad ++ digits)]) with (($"Content-Length:" ++ (pad ++ digits) ++ CRLF) ++ []). rewrite app_nil_r, <- !app_assoc. reflexivity. }
    clear ES K. subst s.
    assert (trim (pad ++ digits) = digits) as TR.
    { pose proof (trim_app_blanks pad digits []) as TA. rewrite app_nil_r in TA. apply TA; [|reflexivity|].
      - apply forallb_forall. intros c I. unfold all_blank in AB. rewrite Forall_forall in AB. rewrite (AB c I). reflexivity.
      - apply no_blank_trimmed. apply Forall_forall. intros c I. destruct (is_blank c) eqn:Q; [exfalso|reflexivity]. apply (digits_without digits DS c); [|exact I]. revert Q. clear.
        unfold is_blank. intros B. repeat (apply orb_prop in B; destruct B as [B|B]); apply Ascii.eqb_eq in B; subst c; cbn; tauto. }
    assert (store (with_startline m msg_init) fl = Ok (with_content_length (Some (Some digits)) (with_headers (m_headers m) (with_known m (with_startline m msg_init))))) as SL.
    { unfold fl. rewrite store_app, SL0. cbn [res_bind store]. rewrite TR.
      rewrite set_one. 2:{ rewrite <- TR. apply trim_trimmed. }
      2:{ left. intros IC. destruct DS as [_ D]. rewrite Forall_forall in D. specialize (D _ IC). revert D. vm_compute. intros [X _]. apply X. reflexivity. }
      rewrite (C39_known [$"content-length"; $"l"] false set_content_length); [|in_known|left; reflexivity].
      rewrite clen_of_digits; [reflexivity|exact DS|reflexivity]. }
    assert (Forall field_ok fl) as FF.
    { unfold fl. apply Forall_app. split; [exact FL|]. constructor; [|constructor]. destruct (name_lit ($"Content-Length") eq_refl) as (N1 & N2 & N3).
      split; [exact N1|]. split; [exact N2|]. split; [exact N3|]. cbn [snd]. split; [destruct DS as [D _]; destruct pad; [exact D|discriminate]|].
      apply MsgWhole.without_app; [|eapply without_incl; [apply digits_without, DS|intros x; cbn; tauto]]. intros c I J. unfold all_blank in AB. rewrite Forall_forall in AB. rewrite (AB c J) in I. cbn in I. destruct I as [I|[I|[I|[]]]]; discriminate. }
    match type of SL with store ?a _ = Ok ?c => rewrite (frag_parse_body pre fl b a c digits) end; [| | |exact FF|exact SL|reflexivity|exact DS|exact DV| |exact NB|].
    + f_equal. destruct m. cbn in MB |- *. rewrite MB. reflexivity.
    + destruct PP as [[-> _]|PP]; [left; split; [reflexivity|]|right; exact PP]. unfold fl. destruct (l1 ++ l2); discriminate.
    + destruct (until_nul_prefix b) as (r & UR). apply (SP _ r); [rewrite <- !app_assoc; rewrite UR at 1; reflexivity|apply CS, FF].
    + rewrite !slen_app in SM. pose proof (slen_nonneg _ pre). pose proof (slen_nonneg _ CRLF). pose proof (slen_nonneg _ (fields_text fl)). lia.
    + exact SI.
Qed.

(** A fragment without start line is printed; if the text has less than a million bytes and does not
    begin like a start line, parsing it as a fragment gives the same fragment, its Content-Length
    being the size of its body. *)
Theorem C76_round_trip_partial : forall m, fragment m -> exists s, message_to_str true m = Ok s /\
  (slen s <= 999999 -> ~ start_like s -> exists d, digit_string d /\ decimal d = slen (flat_map b_body (m_bodies m)) /\
     message_parse_frag s = Ok (with_content_length (Some (Some d)) m)).
Proof.
  intros m [F1 F2 F3 F4 F5 HW OW BW]. assert (no_start m) as NS by (repeat split; assumption). destruct (no_start_text m NS) as (c & ST).
  destruct (frag_run m [] HW OW BW) as (s & PS & K); [rewrite ST; reflexivity|left; auto|]. exists s. split; [exact PS|]. intros SM NL. apply K; [exact SM|].
  intros y r E C. cbn [app] in *. rewrite not_start; [|exact C|intros SL; apply NL; rewrite E; apply start_like_app, SL]. do 2 f_equal.
  unfold with_startline. rewrite F1, F2, F3, F4, F5. reflexivity.
Qed.
(** A message with a start line is printed as a fragment and read back as a fragment, whatever its
    text looks like. *)
Theorem C76_start_line : forall m, message_wf m -> exists s, message_to_str true m = Ok s /\
  (slen s <= 999999 -> exists d, digit_string d /\ decimal d = slen (flat_map b_body (m_bodies m)) /\
     message_parse_frag s = Ok (with_content_length (Some (Some d)) m)).
Proof.
  intros m [ST HW OW BW]. destruct (start_run m ST) as (st & S1 & S2 & S3 & S4).
  destruct (frag_run m (st ++ CRLF) HW OW BW) as (s & PS & K); [rewrite S1; reflexivity|right; exists st; auto|]. exists s. split; [exact PS|]. intros SM. apply K; [exact SM|].
  intros y r _ _. unfold startline_frag. rewrite <- app_assoc, S4. rewrite slen_app. reflexivity.
Qed.
Print Assumptions C76_safe_partial.
Print Assumptions C76_whole_message.
Print Assumptions C76_round_trip_partial.
Print Assumptions C76_start_line.

(** *** Examples *)
Definition ex_frag_text : list ascii := $"To: <sip:bob@b.example>" ++ CRLF ++ $"Subject: lunch" ++ CRLF ++ CRLF ++ $"at noon".
Example C76_safe_example : is_wsp (last ex_frag_text NUL) = false /\ (forall m b t, frag_head ex_frag_text = Ok (m, b, t) -> ~ multipart m) /\
  exists m, message_parse_frag ex_frag_text = Ok m /\ m_method m = None /\ m_headers m = [mkHeader (Some ($"subject")) (Some ($"lunch"))].
Proof.
  split; [reflexivity|]. split.
  - intros m b t H (c & ty & H1 & H2 & H3). assert (match frag_head ex_frag_text with Ok (m, _, _) => m_content_type m | _ => None end = None) as E by (vm_compute; reflexivity). rewrite H in E. congruence.
  - eexists. split; [vm_compute; reflexivity|]. split; reflexivity.
Qed.
(** The findings of C56: a text that ends with blanks, and a part without headers *)
Theorem C76_safe_refuted :
  message_parse_frag ($"a: b" ++ crlf ++ $"  ") = UB /\
  message_parse_frag ($"Content-Type: multipart/mixed;boundary=b" ++ crlf ++ crlf ++ crlf ++ $"--b" ++ crlf ++ $"--b--" ++ crlf) = UB.
Proof. split; vm_compute; reflexivity. Qed.
Print Assumptions C76_safe_refuted.
Fixpoint after_space (s : str) : option str := match s with [] => None | c :: s => if Ascii.eqb c sp then Some s else after_space s end.
Lemma after_space_app : forall a r, ~ In sp a -> after_space (a ++ sp :: r) = Some r.
Proof. induction a as [|c a IH]; intros r N; [reflexivity|]. cbn [app after_space]. destruct (Ascii.eqb c sp) eqn:E; [exfalso; apply N; left; apply Ascii.eqb_eq; exact E|]. apply IH. intros I. apply N. right. exact I. Qed.
Definition start_likeb (s : str) : bool := strneq 4 s ($"SIP/") ||
  match after_space s with Some (_ :: y) => match after_space y with Some z => strcaseeq (firstn 4 z) ($"SIP/") | None => false end | _ => false end.
Lemma start_like_dec : forall s, start_likeb s = false -> ~ start_like s.
Proof.
  intros s H [(r & ->)|(a & c & b & v & r & -> & NA & NB & SV)]; unfold start_likeb in H; apply orb_false_iff in H; destruct H as [H1 H2]; [discriminate|].
  rewrite after_space_app in H2 by exact NA. rewrite after_space_app in H2 by exact NB. assert (length v = 4%nat) as L. { unfold strcaseeq in SV. apply streq_eq in SV. rewrite <- (map_length tolower v), SV. reflexivity. }
  rewrite firstn_app, <- L, firstn_all, Nat.sub_diag in H2. cbn [firstn] in H2. rewrite app_nil_r in H2. congruence.
Qed.
(** a To header, another header, and a body *)
Definition ex_fragment : message :=
  with_bodies [mkBody ($"all of
it") [] None]
  (with_headers [mkHeader (Some ($"subject")) (Some ($"lunch"))]
  (with_content_type (Some (mkCT (Some ($"text")) (Some ($"plain")) []))
  (with_to (Some (mkNA None (Some (mkUri (Some ($"sip")) (Some ($"bob")) None (Some ($"b.example")) None [] [] None)) [])) msg_init))).
Example C76_example : fragment ex_fragment /\ exists s, message_to_str true ex_fragment = Ok s /\ slen s <= 999999 /\ ~ start_like s.
Proof.
  split; [|eexists; split; [vm_compute; reflexivity|split; [vm_compute; discriminate|apply start_like_dec; vm_compute; reflexivity]]]. constructor; try reflexivity.
  - constructor; try solve [constructor]; now_survives; apply no_comma; reflexivity.
  - constructor; [apply other_now; vm_compute; reflexivity|constructor].
  - right. eexists. split; [reflexivity|]. split; [discriminate|]. eexists _, _. split; [reflexivity|]. split; [reflexivity|]. split; [discriminate|]. vm_compute. discriminate.
Qed.
Example C76_start_example : message_wf ex_message /\ exists s, message_to_str true ex_message = Ok s /\ slen s <= 999999.
Proof. split; [exact (proj1 C57_example)|]. eexists; split; [vm_compute; reflexivity|vm_compute; discriminate]. Qed.

(** Finding.  A fragment without start line whose first header is "Subject: sip:a SIP/2.0" is printed
    and read back as a request of the method "Subject:" without any header. *)
Definition ex_subject : message := with_headers [mkHeader (Some ($"subject")) (Some ($"sip:a SIP/2.0"))] msg_init.
Theorem C76_refuted : fragment ex_subject /\ exists s m, message_to_str true ex_subject = Ok s /\ slen s <= 999999 /\ message_parse_frag s = Ok m /\
  m_method m = Some ($"Subject:") /\ m_headers m = [].
Proof.
  split.
  - constructor; try reflexivity; [constructor; constructor| |left; reflexivity]. constructor; [apply other_now; vm_compute; reflexivity|constructor].
  - eexists _, _. split; [vm_compute; reflexivity|]. split; [vm_compute; discriminate|]. split; [vm_compute; reflexivity|]. split; reflexivity.
Qed.
Print Assumptions C76_refuted.

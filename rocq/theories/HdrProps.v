(** C40 for the headers of HdrModel: printing writes inside its buffer, and what it writes. *)
From Coq Require Import String ZArith NArith Ascii Bool List Lia ZifyBool ZifyNat.
From Verif Require Import Base Str StrLemmas MemModel MemLemmas Types PortModel PortBuf CString CStringLemmas UriModel UriProps ViaModel HdrModel.
Import ListNotations.
Open Scope Z_scope.

(** How an [em] writes when there is room *)
Definition writes (em : out -> Z -> str -> res out) : Prop :=
  forall t len s, slen t + slen s + 1 <= len -> em (mkOut t len) len s = Ok (mkOut (t ++ s) len).
Lemma em_s_writes : writes em_s.
Proof. intros t len s H. apply emit_ok. exact H. Qed.
Lemma emit_n_writes : writes emit_n.
Proof. intros t len s H. apply emit_n_ok. exact H. Qed.

Lemma print_gparams_ok : forall em, writes em -> forall ps t len, slen t + 1 <= len ->
  exists len', print_gparams em ps (mkOut t len) len = Ok (mkOut (t ++ print_params ps) len', len') /\ slen (t ++ print_params ps) + 1 <= len'.
Proof.
  intros em W. induction ps as [|[n v] ps IH]; intros t len H; cbn [print_gparams].
  - exists len. cbn [print_params flat_map]. rewrite app_nil_r. auto.
  - cbn [fst snd]. change (print_params ((n, v) :: ps)) with (print_param (n, v) ++ print_params ps). unfold print_param. cbn [fst snd]. destruct v as [v|].
    + rewrite grow_ok by sl. cbn [res_bind]. rewrite W by sl. cbn [res_bind].
      destruct (IH (t ++ ";"%char :: n ++ "="%char :: v) (len + (slen n + slen v + 3))) as (l & E & L); [sl|].
      exists l. rewrite E, <- !app_assoc. split; [reflexivity|]. rewrite <- !app_assoc in L. exact L.
    + rewrite grow_ok by sl. cbn [res_bind]. rewrite W by sl. cbn [res_bind].
      destruct (IH (t ++ ";"%char :: n) (len + (slen n + 2))) as (l & E & L); [sl|].
      exists l. rewrite E, <- !app_assoc. split; [reflexivity|]. rewrite <- !app_assoc in L. exact L.
Qed.

(** * From, To, Contact, Route, Record-Route *)

(** The text of a name-addr: the display name if any, the URI in angle brackets, the parameters *)
Definition name_text (d : option str) (url : str) (ps : list param) : str :=
  match d with None => [] | Some d => d ++ $" " end ++ $"<" ++ url ++ $">" ++ print_params ps.

Lemma from_to_str_ok : forall f u url, na_url f = Some u -> uri_to_str u = Ok url ->
  from_to_str f = Ok (name_text (na_display f) url (na_params f)).
Proof.
  intros f u url E1 E2. unfold from_to_str. rewrite E1, E2. cbn [res_bind]. unfold name_text.
  change ($" <") with [" "%char; "<"%char]. change ($">") with [">"%char]. change ($"<") with ["<"%char]. change ($" ") with [" "%char].
  unfold out_new. destruct (na_display f) as [d|].
  - replace (_ <? 1) with false by sl. cbn [res_bind]. rewrite emit_ok by sl. cbn [res_bind].
    match goal with |- context [print_gparams _ _ (mkOut ?t ?l) _] => destruct (print_gparams_ok emit_n emit_n_writes (na_params f) t l) as (l' & -> & _); [sl|] end.
    cbn [res_bind fst o_text]. f_equal. cat.
  - replace (_ <? 1) with false by sl. cbn [res_bind]. rewrite emit_ok by sl. cbn [res_bind].
    match goal with |- context [print_gparams _ _ (mkOut ?t ?l) _] => destruct (print_gparams_ok emit_n emit_n_writes (na_params f) t l) as (l' & -> & _); [sl|] end.
    cbn [res_bind fst o_text]. f_equal. cat.
Qed.

Theorem C40_from : forall f, (forall u, na_url f = Some u -> Forall (fun h => snd h <> None) (u_headers u)) ->
  from_to_str f <> UB /\
  forall u url, na_url f = Some u -> uri_to_str u = Ok url -> from_to_str f = Ok (name_text (na_display f) url (na_params f)).
Proof.
  intros f H. split; [|intros; eapply from_to_str_ok; eauto].
  destruct (na_url f) as [u|] eqn:E; [|unfold from_to_str; rewrite E; discriminate].
  specialize (H u eq_refl). destruct (C40_uri u H) as [N _]. destruct (uri_to_str u) as [url|e|] eqn:U; [|unfold from_to_str; rewrite E, U; discriminate|contradiction].
  rewrite (from_to_str_ok f u url E U). discriminate.
Qed.
Example C40_from_witness : from_to_str (mkNA (Some ($"Bob")) (Some (mkUri (Some ($"sip")) (Some ($"b")) None (Some ($"h")) None [] [] None)) [($"tag", Some ($"1")); ($"x", None)])
  = Ok ($"Bob <sip:b@h>;tag=1;x").
Proof. vm_compute. reflexivity. Qed.

(** * Via *)
Theorem C40_via : forall v, via_print v = via_to_str v.
Proof.
  intros v. unfold via_print, via_to_str. destruct (v_host v) as [h|]; [|reflexivity]. destruct (v_version v) as [ver|]; [|reflexivity]. destruct (v_protocol v) as [pr|]; [|reflexivity].
  change ($"SIP/") with ["S"%char; "I"%char; "P"%char; "/"%char]. change ($"/") with ["/"%char]. change ($" ") with [" "%char].
  change ($" (") with [" "%char; "("%char]. change ($")") with [")"%char]. change ($"[") with ["["%char]. change ($"]:") with ["]"%char; ":"%char]. change ($"]") with ["]"%char]. change ($":") with [":"%char].
  unfold has_colon, out_new. destruct (strchr h ":"%char); destruct (v_port v) as [p|].
  all: replace (_ <? 1) with false by sl; cbn [res_bind]; rewrite emit_ok by sl; cbn [res_bind].
  all: match goal with |- context [print_gparams _ _ (mkOut ?t ?l) _] => destruct (print_gparams_ok em_s em_s_writes (v_params v) t l) as (l' & -> & L); [sl|] end; cbn [res_bind fst snd o_text].
  all: destruct (v_comment v) as [c|]; [rewrite grow_ok by sl; cbn [res_bind]; rewrite emit_n_ok by sl; cbn [res_bind o_text]|]; f_equal; cbn [app]; rewrite ?app_nil_r; cat.
Qed.
Example C40_via_witness : via_print (mkVia (Some ($"2.0")) (Some ($"UDP")) (Some ($"::1")) (Some ($"5060")) (Some ($"c")) [($"branch", Some ($"z9")); ($"rport", None)])
  = Ok ($"SIP/2.0/UDP [::1]:5060;branch=z9;rport (c)").
Proof. vm_compute. reflexivity. Qed.

(** * CSeq, Call-ID *)
Theorem C40_cseq : forall c n m, cs_number c = Some n -> cs_method c = Some m -> cseq_to_str c = Ok (n ++ $" " ++ m).
Proof.
  intros c n m E1 E2. unfold cseq_to_str. rewrite E1, E2. change ($" ") with [" "%char]. unfold out_new. replace (_ <? 1) with false by sl. cbn [res_bind].
  rewrite emit_n_ok by sl. reflexivity.
Qed.
Theorem C40_call_id : forall c n, ci_number c = Some n ->
  call_id_to_str c = Ok (n ++ match ci_host c with None => [] | Some h => $"@" ++ h end).
Proof.
  intros c n E. unfold call_id_to_str. rewrite E. change ($"@") with ["@"%char]. unfold out_new. destruct (ci_host c) as [h|]; (replace (_ <? 1) with false by sl); cbn [res_bind];
    rewrite emit_ok by sl; cbn [res_bind o_text]; [reflexivity|]. rewrite app_nil_r. reflexivity.
Qed.

(** * Content-Type and Accept *)
Definition ctparam_text (p : param) : str := match snd p with None => [] | Some v => $"; " ++ fst p ++ $"=" ++ v end.
Lemma print_ctparams_ok : forall ps t len, slen t + 1 <= len ->
  (print_ctparams ps (mkOut t len) len = Err OSIP_SYNTAXERROR /\ ~ Forall (fun p => snd p <> None) ps) \/
  exists len', print_ctparams ps (mkOut t len) len = Ok (mkOut (t ++ flat_map ctparam_text ps) len').
Proof.
  induction ps as [|[n v] ps IH]; intros t len H; cbn [print_ctparams].
  - right. exists len. cbn [flat_map]. rewrite app_nil_r. reflexivity.
  - cbn [fst snd]. destruct v as [v|].
    2:{ left. split; [reflexivity|]. intros F. inversion F as [|? ? X _]. apply X. reflexivity. }
    change ($"; ") with [";"%char; " "%char]. change ($"=") with ["="%char]. cbn [o_text flat_map]. unfold ctparam_text at 1. cbn [fst snd].
    change ($"; ") with [";"%char; " "%char]. change ($"=") with ["="%char].
    destruct (Z.ltb_spec len (slen t + 4 + slen n + slen v + 1)) as [L|L].
    + rewrite grow_ok by sl. cbn [res_bind]. rewrite emit_n_ok by sl. cbn [res_bind].
      match goal with |- context [print_ctparams ps (mkOut ?t' ?l') _] => destruct (IH t' l') as [[E F]|(l & E)]; [sl| |] end; rewrite E.
      * left. split; [reflexivity|]. intros X. inversion X; auto.
      * right. exists l. f_equal. f_equal. cat.
    + cbn [res_bind]. rewrite emit_n_ok by sl. cbn [res_bind].
      match goal with |- context [print_ctparams ps (mkOut ?t' ?l') _] => destruct (IH t' l') as [[E F]|(l & E)]; [sl| |] end; rewrite E.
      * left. split; [reflexivity|]. intros X. inversion X; auto.
      * right. exists l. f_equal. f_equal. cat.
Qed.

Theorem C40_content_type : forall c, ctype_to_str c <> UB /\
  forall t u, ct_type c = Some t -> ct_subtype c = Some u -> Forall (fun p => snd p <> None) (ct_params c) ->
    ctype_to_str c = Ok (t ++ $"/" ++ u ++ flat_map ctparam_text (ct_params c)).
Proof.
  intros c. unfold ctype_to_str. destruct (ct_type c) as [t|]; [|split; [discriminate|intros ? ? [=]]]. destruct (ct_subtype c) as [u|]; [|split; [discriminate|intros ? ? _ [=]]].
  change ($"/") with ["/"%char]. unfold out_new. replace (_ <? 1) with false by sl. cbn [res_bind]. rewrite emit_ok by sl. cbn [res_bind app].
  match goal with |- context [print_ctparams _ (mkOut ?t' ?l') _] => destruct (print_ctparams_ok (ct_params c) t' l') as [[-> F]|(l & ->)]; [sl| |] end; cbn [res_bind o_text].
  - split; [discriminate|]. intros. contradiction.
  - split; [discriminate|]. intros ? ? [= <-] [= <-] _. f_equal. cat.
Qed.
(** An empty Accept prints as one space; the parameters of any other as for Content-Type.  An
    Accept with only one of type and subtype (which no parser makes) is outside. *)
Theorem C40_accept : forall c, (ct_type c = None <-> ct_subtype c = None) -> accept_to_str c <> UB /\
  (ct_type c = None -> accept_to_str c = Ok ($" ")) /\
  forall t u, ct_type c = Some t -> ct_subtype c = Some u -> t ++ u <> [] -> Forall (fun p => snd p <> None) (ct_params c) ->
    accept_to_str c = Ok (t ++ $"/" ++ u ++ flat_map ctparam_text (ct_params c)).
Proof.
  intros c I. assert ((do o <- out_new 2 ; do o <- emit o ($" ") ; Ok (o_text o)) = Ok ($" ")) as SP by reflexivity.
  unfold accept_to_str. rewrite SP. destruct (ct_type c) as [t|]; destruct (ct_subtype c) as [u|]; try (exfalso; destruct I as [I1 I2]; try discriminate (I1 eq_refl); discriminate (I2 eq_refl)).
  2:{ cbn [opt_len]. cbn [Z.add Z.eqb]. split; [discriminate|]. split; [reflexivity|]. intros ? ? [=]. }
  cbn [opt_len]. destruct (Z.eqb_spec (slen t + slen u) 0) as [Z0|Z0].
  { split; [discriminate|]. split; [discriminate|]. intros ? ? [= <-] [= <-] N. exfalso. pose proof (slen_pos _ _ N). sl. }
  change ($"/") with ["/"%char]. unfold out_new. replace (_ <? 1) with false by sl. cbn [res_bind]. rewrite emit_ok by sl. cbn [res_bind app].
  match goal with |- context [print_ctparams _ (mkOut ?t' ?l') _] => destruct (print_ctparams_ok (ct_params c) t' l') as [[-> F]|(l & ->)]; [sl| |] end; cbn [res_bind o_text].
  - split; [discriminate|]. split; [discriminate|]. intros. contradiction.
  - split; [discriminate|]. split; [discriminate|]. intros ? ? [= <-] [= <-] _ _. f_equal. cat.
Qed.

(** * Accept-Encoding, Accept-Language, Call-Info, Alert-Info, Error-Info *)
Lemma elem_to_str_ok : forall em e t, writes em -> el_element e = Some t -> elem_to_str em e = Ok (t ++ print_params (el_params e)).
Proof.
  intros em e t W E. unfold elem_to_str. rewrite E. unfold out_new. replace (_ <? 1) with false by sl. cbn [res_bind]. rewrite emit_ok by sl. cbn [res_bind app].
  match goal with |- context [print_gparams _ _ (mkOut ?t ?l) _] => destruct (print_gparams_ok em W (el_params e) t l) as (l' & -> & L); [sl|] end. reflexivity.
Qed.
Theorem C40_accept_encoding : forall e t, el_element e = Some t -> elem_to_str emit_n e = Ok (t ++ print_params (el_params e)).
Proof. intros. apply elem_to_str_ok; auto. exact emit_n_writes. Qed.
Theorem C40_call_info : forall e t, el_element e = Some t -> elem_to_str em_s e = Ok (t ++ print_params (el_params e)).
Proof. intros. apply elem_to_str_ok; auto. exact em_s_writes. Qed.
Example C40_small_witness : ctype_to_str (mkCT (Some ($"text")) (Some ($"plain")) [($"charset", Some ($"u")); ($"a", Some ($"b"))]) = Ok ($"text/plain; charset=u; a=b") /\
  elem_to_str em_s (mkElem (Some ($"<sip:a>")) [($"purpose", Some ($"icon"))]) = Ok ($"<sip:a>;purpose=icon") /\
  cseq_to_str (mkCSeq (Some ($"INVITE")) (Some ($"7"))) = Ok ($"7 INVITE") /\ call_id_to_str (mkCid (Some ($"1")) (Some ($"h"))) = Ok ($"1@h").
Proof. repeat split; vm_compute; reflexivity. Qed.
Print Assumptions C40_from.
Print Assumptions C40_via.
Print Assumptions C40_accept.

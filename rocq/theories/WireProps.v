(** C75: a message keeps its place in its transaction on the wire.  The printer and the parser on
    one side, the transaction matching on the other. *)
From Coq Require Import String ZArith NArith Ascii Bool List Lia ZifyBool ZifyNat.
From Verif Require Import Base Str StrLemmas Types MemModel MemLemmas CString CStringLemmas SafeLemmas PortModel PortProps ViaModel UriModel EscapeProps UriProps UriRound HdrModel HdrProps HdrRound FromRound AuthModel AuthSafe ViaRound AuthRound MsgFields MsgModel MsgProps MsgSplit MsgSafe MsgFold MsgBody MsgPrint MsgText MsgStart MsgRound MsgWhole MsgMulti MsgSyntax.
From Verif Require TimeModel CloneModel CloneProofs TransModel TransSpec MatchModel StackModel TransProofs TransSteps TransProps TransProps2 StackProps StackReach StackProps2 StackMatch.
Import ListNotations.
Import CloneModel CloneProofs TransModel TransSpec MatchModel StackModel TransSteps StackMatch StackProps2.
Open Scope Z_scope.

(** *** Specification *)
(** well formed fields, with no body, a single one, or a multipart one (C57) *)
Definition sendable (m : message) : Prop := message_line m \/ multipart_line m.
(** the text is accepted by the parser's length limit (osip_message_parse.c: 999999 for a body) *)
Definition short (m : message) : Prop := forall s, message_to_str false m = Ok s -> slen s <= 999999.
(** [m'] is what the other side reads when [m] is sent *)
Definition sent_as (m m' : message) : Prop := exists s, message_to_str false m = Ok s /\ message_parse s = Ok m'.

Definition request_headers (m : message) : Prop :=
  m_status m = 0 /\ m_vias m <> [] /\ m_from m <> None /\ m_to m <> None /\ m_call_id m <> None /\ m_cseq m <> None.
Definition response_headers (m : message) : Prop :=
  m_status m <> 0 /\ m_from m <> None /\ m_to m <> None /\ m_call_id m <> None /\ m_cseq m <> None.

(** *** Proofs *)
Lemma sendable_head : forall m, sendable m -> head_line m.
Proof. intros m [[L _]|(L & _)]; exact L. Qed.
Lemma to_str_length : forall c m, message_to_str false (with_content_length c m) = message_to_str false m.
Proof. intros c m. destruct m. reflexivity. Qed.

(** What is read is what was sent, with the length filled in; once read, it is sent and read
    without further change. *)
Theorem C75_read_back : forall m, sendable m -> short m ->
  exists m', sent_as m m' /\ m' = with_content_length (m_content_length m') m /\ sent_as m' m' /\ (forall x, sent_as m x -> x = m').
Proof.
  intros m S F.
  assert (exists s d, message_to_str false m = Ok s /\ message_parse s = Ok (with_content_length (Some (Some d)) m)) as (s & d & E1 & E2).
  { destruct S as [S|S].
    - destruct (C57_syntax m S) as (s & E1 & E2). destruct (E2 (F s E1)) as (d & _ & _ & E3). eauto.
    - destruct (C57_multipart_syntax m S) as (s & E1 & E2). destruct (E2 (F s E1)) as (_ & d & _ & _ & _ & _ & E3). eauto. }
  exists (with_content_length (Some (Some d)) m). split; [exists s; auto|]. split; [destruct m; reflexivity|]. split.
  - exists s. split; [rewrite to_str_length; exact E1|exact E2].
  - intros x (s' & H1 & H2). congruence.
Qed.
Lemma sent_same : forall m m', sendable m -> short m -> sent_as m m' -> exists c, m' = with_content_length c m.
Proof. intros m m' S F H. destruct (C75_read_back m S F) as (x & _ & E & _ & U). rewrite (U m' H). eauto. Qed.

Lemma line_na_ok : forall f, nameaddr_line f -> na_ok f.
Proof.
  intros f [(u & sch & host & W & _) _ _] u' E. rewrite (nw_url _ _ _ _ W) in E. injection E as <-. left. rewrite (wf_host _ _ _ (nw_uri _ _ _ _ W)). discriminate.
Qed.
Lemma line_via : forall v, via_line v -> via_complete v.
Proof. intros v [(ver & pr & h & [[E1 _] [E2 _] [E3 _] _ _ _] & _) _ _ _]. unfold via_complete. rewrite E1, E2, E3. split; [discriminate|split; discriminate]. Qed.
Lemma line_request : forall m, head_line m -> m_status m = 0 -> exists meth u scheme host v, m_method m = Some meth /\ m_uri m = Some u /\ m_version m = Some v /\
  method_ok meth /\ version_ok v /\ uri_wf u scheme host /\ without unquoted_specials host /\ match u_port u with None => True | Some p => without unquoted_specials p end.
Proof.
  intros m L S. destruct (ml_start m L) as [(meth & u & scheme & host & v & H)|(v & r & _ & _ & _ & _ & R & _)]; [|lia].
  exists meth, u, scheme, host, v. tauto.
Qed.

(** The request that is read opens a server transaction when the Request-Line and the CSeq name
    the same method, other than ACK; so does the request that is sent open one at the client. *)
Lemma sendable_creatable : forall m meth, sendable m -> request_headers m -> m_method m = Some meth -> has_cseq_method m meth -> meth <> $"ACK" -> creatable m meth.
Proof.
  intros m meth S (R & V & F & T & I & C) M (cs & C1 & C2) N. pose proof (sendable_head m S) as L. destruct (line_request m L R) as (meth' & u & scheme & host & v & E1 & E2 & E3 & _ & _ & W & _).
  destruct L. split; [exact R|]. split; [exact M|]. split; [exact N|]. split; [|split; [|split; [|split]]].
  - split; [congruence|]. split; [exists u; split; [exact E2|left; rewrite (wf_host _ _ _ W); discriminate]|]. split.
    + destruct (m_vias m) as [|w vs]; [congruence|]. exists w, vs. split; [reflexivity|]. inversion ml_via. apply line_via. assumption.
    + eapply Forall_impl; [|exact ml_route]. apply line_na_ok.
  - destruct (m_from m) as [f|]; [|congruence]. exists f. split; [reflexivity|apply line_na_ok, ml_from].
  - destruct (m_to m) as [f|]; [|congruence]. exists f. split; [reflexivity|apply line_na_ok, ml_to].
  - destruct (m_call_id m) as [c|]; [|congruence]. exists c. split; [reflexivity|]. destruct ml_call_id as (n & E & _). congruence.
  - exists cs. split; [exact C1|]. split; [exact C2|]. rewrite C1 in ml_cseq. destruct ml_cseq as (n & me & E & _). congruence.
Qed.
Lemma creatable_length : forall c m meth, creatable m meth -> creatable (with_content_length c m) meth.
Proof. intros c m meth H. destruct m. exact H. Qed.

Lemma parsed_sip : forall x ev, parsed_event x = Some ev -> ev_sip ev = Some x.
Proof.
  intros x ev E. unfold parsed_event in E. destruct (is_request (mc x)); [|injection E as <-; reflexivity].
  destruct (m_method (mc x)); [|discriminate]. destruct (m_uri (mc x)); [|discriminate]. injection E as <-. reflexivity.
Qed.
Theorem C75_opens : forall m m' meth, sendable m -> short m -> request_headers m -> m_method m = Some meth -> has_cseq_method m meth -> meth <> $"ACK" ->
  sent_as m m' -> forall i now s, exists ev t s', parsed_event (Msg i m') = Some ev /\ create_transaction now ev s = Ok (Some t, s') /\
    t_type t = (if str_dec meth ($"INVITE") then IST else NIST).
Proof.
  intros m m' meth S F R M C N H i now s. destruct (sent_same m m' S F H) as (c & ->).
  pose proof (creatable_length c m meth (sendable_creatable m meth S R M C N)) as K.
  destruct (C21_created now (Msg i (with_content_length c m)) meth s K) as (O & P & _).
  destruct (parsed_event (Msg i (with_content_length c m))) as [ev|] eqn:E; [|congruence].
  destruct (O ev (or_introl eq_refl)) as (t & s' & T). exists ev, t, s'. split; [reflexivity|]. split; [exact T|].
  assert (api_event ev) as A by (left; exists (Msg i (with_content_length c m)); exact E).
  destruct (C21_typed now ev s t s' A T) as (x & meth2 & X1 & X2 & X3 & _ & _ & _ & X4 & _).
  assert (x = Msg i (with_content_length c m)) as ->.
  { apply parsed_sip in E. congruence. }
  assert (meth2 = meth) as -> by (destruct K as (_ & K & _); cbn [mc] in X3; congruence).
  apply X4. eauto.
Qed.

(** The ACK made for a final answer other than 2xx is well formed when the request and the answer are *)
Theorem C75_ack_sendable : forall q r, sendable q -> sendable r -> request_headers q -> response_headers r ->
  exists a, create_ack q r = Some a /\ sendable a.
Proof.
  intros q r SQ SR (Q & QV & _) (R & RF & RT & RI & RC). apply sendable_head in SQ, SR.
  destruct (line_request q SQ Q) as (meth & u & scheme & host & v & E1 & E2 & E3 & M & V & W & H & P). destruct SQ, SR.
  destruct (m_from r) as [f|] eqn:EF; [|congruence]. destruct (m_to r) as [t|] eqn:ET; [|congruence]. destruct (m_call_id r) as [ci|] eqn:EI; [|congruence].
  destruct (m_cseq r) as [cs|] eqn:EC; [|congruence]. destruct (m_vias q) as [|w vs] eqn:EV; [congruence|].
  cbn [olift] in *. assert (via_line w) as VW by (inversion ml_via; assumption).
  assert (exists a, create_ack q r = Some a) as (a & A).
  { unfold create_ack. rewrite EF, ET, EI, EC, E2, E3, EV. cbn [top].
    rewrite (from_clone_total f) by (apply line_na_ok; assumption). rewrite (from_clone_total t) by (apply line_na_ok; assumption).
    destruct ml_call_id0 as (n & N1 & _). destruct ml_cseq0 as (k & me & K1 & K2 & _).
    unfold call_id_clone, cseq_clone. rewrite N1, K1, K2. 
    rewrite uri_clone_total by (left; rewrite (wf_host _ _ _ W); discriminate).
    destruct (line_via w VW) as (V1 & V2 & V3). rewrite (via_clone_total w V1 V2 V3).
    assert (forall l acc, Forall nameaddr_line l -> exists x, list_clone (fun r => from_clone (Some r)) acc l = Ok x) as LC.
    { induction l as [|y l IH]; intros acc FL; [eexists; reflexivity|]. inversion FL; subst. cbn [list_clone]. rewrite (from_clone_total y) by (apply line_na_ok; assumption). cbn [res_bind]. apply IH. assumption. }
    destruct (LC (m_routes q) [] ml_route) as (x & ->).
    destruct (negb (m_status r =? 401) && negb (m_status r =? 407)); rewrite ?authz_list_clone; eexists; reflexivity. }
  exists a. split; [exact A|]. left. destruct (create_ack_inv q r a A) as (f' & t' & ci' & cs' & u' & v' & A1 & A2 & A3 & A4 & A5 & A6 & A7 & ->).
  rewrite EF in A1. rewrite ET in A2. rewrite EI in A3. rewrite EC in A4. rewrite E2 in A5. rewrite EV in A6. injection A1 as <-. injection A2 as <-. injection A3 as <-. injection A4 as <-. injection A5 as <-. injection A6 as <-.
  split; [|left; reflexivity]. constructor; cbn; try (constructor; fail); try assumption; try exact I.
  - left. exists ($"ACK"), u, scheme, host, v. repeat (split; [first [reflexivity|assumption]|]).
    split; [split; [split; [discriminate|split; [apply chk_notin; reflexivity|apply chk_cstr; reflexivity]]|intros x; discriminate]|].
    split; [ql|]. split; [assumption|]. split; [assumption|]. split; assumption.
  - constructor; [assumption|constructor].
  - destruct ml_cseq0 as (k & me & K1 & K2 & K3 & K4 & _). exists k, ($"ACK"). split; [assumption|]. split; [reflexivity|]. split; [assumption|]. split; [assumption|].
    split; [discriminate|]. split; [reflexivity|ql].
  - destruct (negb (m_status r =? 401) && negb (m_status r =? 407)); [assumption|constructor].
  - destruct (negb (m_status r =? 401) && negb (m_status r =? 407)); [assumption|constructor].
Qed.

Lemma rfc3261_length : forall c m, rfc3261 (with_content_length c m) <-> rfc3261 m.
Proof. intros c m. destruct m. reflexivity. Qed.
Lemma cseq_length : forall c m meth, has_cseq_method (with_content_length c m) meth <-> has_cseq_method m meth.
Proof. intros c m meth. destruct m. reflexivity. Qed.
Lemma same_length : forall c d q m, same_transaction (with_content_length c q) (with_content_length d m) <-> same_transaction q m.
Proof. intros c d q m. destruct q, m. reflexivity. Qed.
Lemma answers_length : forall c d q m, answers (with_content_length c q) (with_content_length d m) <-> answers q m.
Proof. intros c d q m. destruct q, m. reflexivity. Qed.
Lemma vias_length : forall c m, m_vias (with_content_length c m) = m_vias m.
Proof. intros c m. destruct m. reflexivity. Qed.
Lemma status_length : forall c m, m_status (with_content_length c m) = m_status m.
Proof. intros c m. destruct m. reflexivity. Qed.
(** A request [q] was sent, read as [q'] and has opened the server transaction [en].  A copy of
    [q], or the ACK the client makes for any well formed answer, is sent and read as [x'].  It is
    handed to a transaction it belongs to; that is [en] unless an older one has the same branch,
    sent-by and method. *)
Theorem C75_reaches_server : forall l rs s k en q q' x x' i txid,
  steps osip_init l = Ok (rs, s) -> all_rfc3261 (combine l rs) s ->
  sendable q -> short q -> request_headers q -> rfc3261 q -> sent_as q q' ->
  k = IST \/ k = NIST -> In en (o_tab s k) -> created (combine l rs) (en_t en) q' ->
  x = q \/ has_cseq_method q ($"INVITE") /\ (exists r, sendable r /\ response_headers r /\ create_ack q r = Some x) ->
  short x -> sent_as x x' ->
  exists ev s' k' l1 en' l2 q0, parsed_event (Msg i x') = Some ev /\ find_and_add ev txid s = Ok (OSIP_SUCCESS, s') /\
    (k' = IST \/ k' = NIST) /\ queued_at s s' ev k' l1 en' l2 /\ created (combine l rs) (en_t en') q0 /\ same_transaction q0 x' /\
    ((forall j e2 q2, (j = IST \/ j = NIST) -> In e2 (o_tab s j) -> created (combine l rs) (en_t e2) q2 -> same_transaction q2 x' -> e2 = en) -> en' = en).
Proof.
  intros l rs s k en q q' x x' i txid ST AR SQ FQ RQ RF HQ Hk Hin Hc Hx FX HX.
  destruct (sent_same q q' SQ FQ HQ) as (c & ->).
  assert (exists meth, has_cseq_method q meth) as (meth & HM).
  { destruct RQ as (_ & _ & _ & _ & _ & C). pose proof (ml_cseq q (sendable_head q SQ)) as CL. destruct (m_cseq q) as [cs|] eqn:E; [|congruence]. destruct CL as (n & me & _ & E2 & _). exists me, cs. auto. }
  assert (exists v vs, m_vias q = v :: vs /\ v_host v <> None) as VH.
  { destruct RF as (v & vs & b & E & _). exists v, vs. split; [exact E|]. pose proof (ml_via q (sendable_head q SQ)) as VL. rewrite E in VL. inversion VL as [|? ? V1 _]; subst. apply line_via in V1. apply V1. }
  destruct (C20_copy_and_ack q RF VH (ex_intro _ meth HM)) as (CP & CA).
  assert (sendable x /\ same_transaction q x /\ m_status x = 0 /\ m_method x <> None /\ m_uri x <> None /\ rfc3261 x /\ exists me, has_cseq_method x me) as (SX & SM & X1 & X2 & X3 & X4 & X5).
  { destruct Hx as [->|(HI & r & SR & RR & AX)].
    - split; [exact SQ|]. split; [exact CP|]. split; [apply RQ|]. destruct (line_request q (sendable_head q SQ) (proj1 RQ)) as (a & b & _ & _ & _ & E1 & E2 & _). split; [congruence|]. split; [congruence|]. eauto.
    - split. { destruct (C75_ack_sendable q r SQ SR RQ RR) as (a & A1 & A2). congruence. }
      pose proof (CA q r x HI eq_refl AX) as SM. split; [exact SM|].
      destruct (create_ack_inv q r x AX) as (f & t & ci & cs & u & v & _ & _ & _ & _ & _ & A6 & _ & E). cbv zeta in E.
      destruct SM as (v0 & vs0 & v1 & vs1 & b & m0 & m1 & _ & V1 & _ & B1 & _ & _ & _ & _ & C1 & _).
      rewrite E. cbn [m_status m_method m_uri]. split; [reflexivity|]. split; [discriminate|]. split; [discriminate|]. rewrite <- E. split; [exists v1, vs1, b; auto|eauto]. }
  destruct (sent_same x x' SX FX HX) as (d & ->).
  assert (exists ev, parsed_event (Msg i (with_content_length d x)) = Some ev) as (ev & EV).
  { unfold parsed_event, is_request. cbn [mc]. rewrite status_length, X1. change (0 =? 0) with true. cbn iota.
    destruct x; cbn in X2, X3 |- *. destruct m_method; [|congruence]. destruct m_uri; [|congruence]. eauto. }
  destruct (C20_delivered l rs s (Msg i (with_content_length d x)) ev txid ST AR) as (co & s' & FA & R).
  { cbn [mc]. rewrite status_length. exact X1. }
  { exact EV. }
  { apply rfc3261_length. exact X4. }
  { destruct X5 as (me & X5). exists me. apply cseq_length. exact X5. }
  cbn [mc] in R. destruct R as [(-> & k' & l1 & en' & l2 & q0 & K1 & K2 & K3 & K4 & _)|(_ & _ & R)].
  - exists ev, s', k', l1, en', l2, q0. split; [exact EV|]. split; [exact FA|]. split; [exact K1|]. split; [exact K2|]. split; [exact K3|]. split; [exact K4|].
    intros U. apply (U k' en' q0 K1); [|exact K3|exact K4]. destruct K2 as (E & _). rewrite E. apply in_elt.
  - exfalso. apply (R k en (with_content_length c q) Hk Hin Hc). apply same_length. exact SM.
Qed.

(** A request [q] has opened the client transaction [en]; it was sent and read as [q'].  An answer
    to [q'] is sent and read as [r'].  It is handed to a transaction whose request it answers; that
    is [en] unless an older one has the same branch and method. *)
Theorem C75_reaches_client : forall l rs s k en q q' r r' i txid,
  steps osip_init l = Ok (rs, s) -> k = ICT \/ k = NICT -> In en (o_tab s k) -> created (combine l rs) (en_t en) q ->
  sendable q -> short q -> sent_as q q' -> answers q' r -> m_status r <> 0 -> sendable r -> short r -> sent_as r r' ->
  exists ev s' k' l1 en' l2 q0, parsed_event (Msg i r') = Some ev /\ find_and_add ev txid s = Ok (OSIP_SUCCESS, s') /\
    (k' = ICT \/ k' = NICT) /\ queued_at s s' ev k' l1 en' l2 /\ created (combine l rs) (en_t en') q0 /\ answers q0 r' /\
    ((forall j e2 q2, (j = ICT \/ j = NICT) -> In e2 (o_tab s j) -> created (combine l rs) (en_t e2) q2 -> answers q2 r' -> e2 = en) -> en' = en).
Proof.
  intros l rs s k en q q' r r' i txid ST Hk Hin Hc SQ FQ HQ HA HS SR FR HR.
  destruct (sent_same q q' SQ FQ HQ) as (c & ->). destruct (sent_same r r' SR FR HR) as (d & ->).
  assert (answers q (with_content_length d r)) as AN by (destruct q, r; exact HA).
  assert (m_status (mc (Msg i (with_content_length d r))) <> 0) as HS2 by (cbn [mc]; rewrite status_length; exact HS).
  assert (exists ev, parsed_event (Msg i (with_content_length d r)) = Some ev) as (ev & EV).
  { unfold parsed_event, is_request. destruct (m_status _ =? 0) eqn:E; [lia|]. eauto. }
  destruct (C19_no_crash s (Msg i (with_content_length d r)) ev txid HS2 EV) as ([co s'] & FA).
  { cbn [mc]. pose proof (ml_cseq r (sendable_head r SR)) as CL. intros cs E. assert (m_cseq r = Some cs) as E2 by (destruct r; exact E). rewrite E2 in CL. destruct CL as (n & me & _ & E3 & _). congruence. }
  destruct (C19_delivered l rs s _ ev txid co s' ST HS2 EV FA) as [(-> & k' & l1 & en' & l2 & q0 & K1 & K2 & K3 & K4 & _)|(_ & _ & R)].
  - exists ev, s', k', l1, en', l2, q0. split; [exact EV|]. split; [exact FA|]. split; [exact K1|]. split; [exact K2|]. split; [exact K3|]. split; [exact K4|].
    intros U. apply (U k' en' q0 K1); [|exact K3|exact K4]. destruct K2 as (E & _). rewrite E. apply in_elt.
  - exfalso. exact (R k en q Hk Hin Hc AN).
Qed.

(** *** An INVITE with a body, a 486 answer, and the ACK *)
Definition ex_busy : message :=
  with_method None (with_uri None (with_status 486 (with_reason (Some ($"Busy Here")) (with_bodies [] ex_message)))).
Definition ex_ack : message := match create_ack ex_message ex_busy with Some a => a | None => ex_message end.
Lemma ex_sendable : sendable ex_message /\ sendable ex_busy.
Proof.
  pose proof C57_syntax_example as S. split; [left; exact S|]. left. destruct S as [L _]. split; [|left; reflexivity].
  destruct L. constructor; try assumption. right. exists ($"SIP/2.0"), ($"Busy Here"). repeat (split; [first [reflexivity|vm_compute; split; discriminate|ql]|]).
  split; [exists ($"2.0"); reflexivity|ql].
Qed.
Ltac ex_short := intros ? H; vm_compute in H; injection H as <-; vm_compute; discriminate.
Lemma ex_branch : forall r x, first_param (($"branch", Some x) :: r) ($"branch") (Some x).
Proof. intros r x. exists [], ($"branch", Some x), r. split; [reflexivity|]. split; [reflexivity|]. split; [reflexivity|intros ? []]. Qed.
Lemma ex_rfc3261 : rfc3261 ex_message.
Proof. eexists _, _, ($"z9hG4bK77"). split; [reflexivity|]. split; [apply ex_branch|exists ($"77"); reflexivity]. Qed.
Lemma ex_request : request_headers ex_message /\ short ex_message /\ has_cseq_method ex_message ($"INVITE").
Proof. split; [repeat (split; [first [reflexivity|discriminate]|]); discriminate|]. split; [ex_short|]. eexists. split; reflexivity. Qed.
Lemma ex_response : response_headers ex_busy /\ short ex_busy /\ answers ex_message ex_busy.
Proof.
  split; [split; [discriminate|]; repeat (split; [discriminate|]); discriminate|]. split; [ex_short|].
  exists ($"z9hG4bK77"), ($"INVITE"). split; [eexists _, _; split; [reflexivity|apply ex_branch]|]. split; [eexists _, _; split; [reflexivity|apply ex_branch]|]. split; eexists; split; reflexivity.
Qed.
Lemma ex_acked : create_ack ex_message ex_busy = Some ex_ack /\ short ex_ack.
Proof. split; [vm_compute; reflexivity|ex_short]. Qed.
(** stacks that hold the transaction opened by the INVITE *)
Definition ex_opened (ty : etype) (m : message) : list op := [OpCreate (TimeModel.TV 100 0) (Ev ty (Some (Msg 1 m)))].
Lemma ex_server : forall c, exists rs s en, steps osip_init (ex_opened RCV_REQINVITE (with_content_length c ex_message)) = Ok (rs, s) /\
  all_rfc3261 (combine (ex_opened RCV_REQINVITE (with_content_length c ex_message)) rs) s /\ In en (o_tab s IST) /\
  created (combine (ex_opened RCV_REQINVITE (with_content_length c ex_message)) rs) (en_t en) (with_content_length c ex_message).
Proof.
  intros c. eexists [RCreate (Some _)], _, (En _ []). split; [cbv; reflexivity|]. split; [|split; [left; reflexivity|]].
  - intros k en q0 Hk Hin (now & ev & x & t0 & [H1|[]] & H2 & <- & _). injection H1 as <- <- <-. injection H2 as <-. split; [reflexivity|]. apply (rfc3261_length c ex_message). exact ex_rfc3261.
  - eexists _, _, _, _. split; [left; reflexivity|]. split; [reflexivity|]. split; reflexivity.
Qed.
Lemma ex_client : exists rs s en, steps osip_init (ex_opened SND_REQINVITE ex_message) = Ok (rs, s) /\ In en (o_tab s ICT) /\
  created (combine (ex_opened SND_REQINVITE ex_message) rs) (en_t en) ex_message.
Proof.
  eexists [RCreate (Some _)], _, (En _ []). split; [cbv; reflexivity|]. split; [left; reflexivity|].
  eexists _, _, _, _. split; [left; reflexivity|]. split; [reflexivity|]. split; reflexivity.
Qed.
(** all hypotheses of the theorems above hold together, and so do their conclusions *)
Example C75_example : exists q' r' a',
  sent_as ex_message q' /\ sent_as ex_busy r' /\ sent_as ex_ack a' /\
  (exists rs s en ev s', steps osip_init (ex_opened RCV_REQINVITE q') = Ok (rs, s) /\ In en (o_tab s IST) /\
     created (combine (ex_opened RCV_REQINVITE q') rs) (en_t en) q' /\
     parsed_event (Msg 2 a') = Some ev /\ find_and_add ev (-1) s = Ok (OSIP_SUCCESS, s')) /\
  (exists rs s en ev s', steps osip_init (ex_opened SND_REQINVITE ex_message) = Ok (rs, s) /\ In en (o_tab s ICT) /\
     created (combine (ex_opened SND_REQINVITE ex_message) rs) (en_t en) ex_message /\
     parsed_event (Msg 2 r') = Some ev /\ find_and_add ev (-1) s = Ok (OSIP_SUCCESS, s')).
Proof.
  destruct ex_sendable as (SQ & SR). destruct ex_request as (RQ & FQ & CQ). destruct ex_response as (RR & FR & AN). destruct ex_acked as (AK & FA).
  assert (sendable ex_ack) as SA by (destruct (C75_ack_sendable ex_message ex_busy SQ SR RQ RR) as (a & A1 & A2); congruence).
  destruct (C75_read_back ex_message SQ FQ) as (q' & HQ & EQ & _). destruct (C75_read_back ex_busy SR FR) as (r' & HR & _). destruct (C75_read_back ex_ack SA FA) as (a' & HA & _).
  exists q', r', a'. split; [exact HQ|]. split; [exact HR|]. split; [exact HA|]. split.
  - destruct (ex_server (m_content_length q')) as (rs & s & en & E1 & E2 & E3 & E4). rewrite <- EQ in E1, E2, E4.
    destruct (C75_reaches_server _ rs s IST en ex_message q' ex_ack a' 2 (-1) E1 E2 SQ FQ RQ ex_rfc3261 HQ (or_introl eq_refl) E3 E4) as (ev & s' & _ & _ & _ & _ & _ & P & F & _).
    + right. split; [exact CQ|]. exists ex_busy. auto.
    + exact FA.
    + exact HA.
    + exists rs, s, en, ev, s'. auto.
  - destruct ex_client as (rs & s & en & E1 & E3 & E4).
    assert (answers q' ex_busy) as AN2 by (rewrite EQ; destruct ex_message, ex_busy; exact AN).
    assert (m_status ex_busy <> 0) as NS by (destruct RR; assumption).
    destruct (C75_reaches_client _ rs s ICT en ex_message q' ex_busy r' 2 (-1) E1 (or_introl eq_refl) E3 E4 SQ FQ HQ AN2 NS SR FR HR) as (ev & s' & _ & _ & _ & _ & _ & P & F & _).
    exists rs, s, en, ev, s'. auto.
Qed.
Print Assumptions C75_read_back.
Print Assumptions C75_opens.
Print Assumptions C75_ack_sendable.
Print Assumptions C75_reaches_server.
Print Assumptions C75_reaches_client.

(** The text of a printed message (C40, C44, C46): what the printers write, without buffers. *)
From Coq Require Import String ZArith NArith Ascii Bool List Lia ZifyBool ZifyNat.
From Verif Require Import Base Str StrLemmas Types MemModel MemLemmas CString CStringLemmas SafeLemmas PortModel PortProps ViaModel UriModel UriProps HdrModel HdrProps AuthModel AuthSafe MsgFields MsgModel MsgProps MsgSafe MsgBody MsgPrint.
Import ListNotations.
Open Scope Z_scope.

(** *** The text, independently of the buffers *)
(** one line: the name with ": ", the value *)
Definition line (name value : str) : str := name ++ value ++ CRLF.
(** the texts one after the other; the first value that cannot be printed decides *)
Fixpoint cat_all (l : list (res str)) : res str :=
  match l with
  | [] => Ok []
  | r :: l' => do a <- r ; do b <- cat_all l' ; Ok (a ++ b)
  end.
Definition many {A} (name : str) (f : A -> res str) (l : list A) : res str :=
  cat_all (map (fun x => do t <- f x ; Ok (line name t)) l).
(** a single-valued header; when its value cannot be printed its name is left alone (finding) *)
Definition one {A} (name : str) (f : A -> res str) (x : option A) : res str :=
  match x with
  | None => Ok []
  | Some x => match f x with Ok t => Ok (line name t) | Err _ => Ok name | UB => UB end
  end.
Definition headers_text (m : message) : res str := cat_all
  [ many ($"Via: ") via_print (m_vias m); many ($"Record-Route: ") from_to_str (m_record_routes m);
    many ($"Route: ") from_to_str (m_routes m); one ($"From: ") from_to_str (m_from m);
    one ($"To: ") from_to_str (m_to m); one ($"Call-ID: ") call_id_to_str (m_call_id m);
    one ($"CSeq: ") cseq_to_str (m_cseq m); many ($"Contact: ") contact_to_str (m_contacts m);
    many ($"Authorization: ") authz_to_str (m_authorizations m);
    many ($"WWW-Authenticate: ") www_to_str (m_www_authenticates m);
    many ($"Proxy-Authenticate: ") www_to_str (m_proxy_authenticates m);
    many ($"Proxy-Authorization: ") authz_to_str (m_proxy_authorizations m);
    many ($"Call-Info: ") (elem_to_str em_s) (m_call_infos m);
    one ($"Content-Type: ") ctype_to_str (m_content_type m);
    one ($"Mime-Version: ") clen_to_str (m_mime_version m);
    many ($"Allow: ") clen_to_str (m_allows m); many ($"Content-Encoding: ") clen_to_str (m_content_encodings m);
    many ($"Alert-Info: ") (elem_to_str em_s) (m_alert_infos m);
    many ($"Error-Info: ") (elem_to_str em_s) (m_error_infos m);
    many ($"Accept: ") accept_to_str (m_accepts m);
    many ($"Accept-Encoding: ") (elem_to_str emit_n) (m_accept_encodings m);
    many ($"Accept-Language: ") (elem_to_str emit_n) (m_accept_languages m);
    many ($"Authentication-Info: ") ainfo_to_str (m_auth_infos m);
    many ($"Proxy-Authentication-Info: ") ainfo_to_str (m_proxy_auth_infos m) ].
(** "Name: value", the first letter in upper case *)
Definition header_text (h : header) : res str :=
  match h_name h with
  | None => Err OSIP_BADPARAMETER
  | Some n => Ok (upcase_first (n ++ $": " ++ match h_value h with None => [] | Some v => v end))
  end.
Definition others_text (l : list header) : res str := many [] header_text l.
(** request line or status line *)
Definition version_text (m : message) : str := match m_version m with None => $"SIP/2.0" | Some v => v end.
Definition startline_text (m : message) : res str :=
  match m_method m with
  | Some meth => match m_uri m with
                 | Some u => do t <- uri_to_str u ; Ok (meth ++ $" " ++ t ++ $" " ++ version_text m)
                 | None => Err OSIP_BADPARAMETER
                 end
  | None => match m_reason m with
            | Some r => if (100 <=? m_status m) && (m_status m <=? 699)
                        then Ok (version_text m ++ $" " ++ sprintf_i (m_status m) ++ $" " ++ r)
                        else Err OSIP_BADPARAMETER
            | None => Err OSIP_BADPARAMETER
            end
  end.
(** the parts of a body: its headers, an empty line if there are any, its bytes *)
Definition part_text (bd : body) : res str :=
  if match b_body bd with [] => true | _ => false end then Err OSIP_BADPARAMETER else
  cat_all [ match b_ctype bd with None => Ok [] | Some c => do t <- ctype_to_str c ; Ok (line ($"content-type: ") t) end;
            others_text (b_headers bd);
            Ok (if match b_headers bd, b_ctype bd with [], None => true | _, _ => false end then [] else CRLF);
            Ok (b_body bd) ].
(** all bodies: each one, after a boundary line if there is a boundary, and the closing line *)
Definition bodies_text (boundary : option str) (l : list body) : res str :=
  match boundary with
  | None => cat_all (map part_text l)
  | Some b => do t <- cat_all (map (fun bd => do t <- part_text bd ; Ok (b ++ CRLF ++ t)) l) ; Ok (t ++ b ++ $"--" ++ CRLF)
  end.

(** *** Buffers *)
Definition fits (o : out) : Prop := slen (o_text o) + 1 <= o_cap o.
Definition prints (r : res out) (o : out) (t : res str) : Prop :=
  match t with
  | Ok t => exists o', r = Ok o' /\ o_text o' = o_text o ++ t /\ fits o'
  | Err c => r = Err c
  | UB => r = UB
  end.
Lemma prints_bind : forall r o k a b, prints r o a -> (forall o1, fits o1 -> prints (k o1) o1 b) ->
  prints (do o1 <- r ; k o1) o (do x <- a ; do y <- b ; Ok (x ++ y)).
Proof.
  intros r o k a b H1 H2. destruct a as [x|c|]; cbn [prints res_bind] in *; [|rewrite H1; reflexivity|rewrite H1; reflexivity].
  destruct H1 as (o' & -> & E & F). cbn [res_bind]. specialize (H2 o' F). destruct b as [y|c|]; cbn [prints res_bind] in *; [|exact H2|exact H2].
  destruct H2 as (o2 & -> & E2 & F2). exists o2. split; [reflexivity|]. split; [|exact F2]. rewrite E2, E, app_assoc. reflexivity.
Qed.
Lemma prints_nil : forall o, fits o -> prints (Ok o) o (Ok []).
Proof. intros o F. exists o. rewrite app_nil_r. auto. Qed.
Lemma grow_fits : forall o n, fits o -> 0 <= n -> exists o', grow o n = Ok o' /\ o_text o' = o_text o /\ slen (o_text o) + n + 100 <= o_cap o'.
Proof.
  intros o n F N. unfold grow. destruct (_ <? _) eqn:E; [|exists o; split; [reflexivity|split; [reflexivity|lia]]].
  unfold out_grow. replace (_ <? slen (o_text o) + 1) with false by lia. eexists. split; [reflexivity|]. cbn [o_text o_cap]. split; [reflexivity|lia].
Qed.
Lemma emit_room : forall o t, slen (o_text o) + slen t + 1 <= o_cap o -> emit o t = Ok (mkOut (o_text o ++ t) (o_cap o)).
Proof. intros o t H. unfold emit. replace (_ <? _) with false by lia. reflexivity. Qed.
Ltac room := rewrite emit_room by (cbn [o_text o_cap]; rewrite ?slen_app; change (slen CRLF) with 2; lia); cbn [res_bind o_text o_cap].

Lemma many_ok : forall A name (f : A -> res str) l o, slen name <= 90 -> fits o -> prints (headers_one_per_line name f l o) o (many name f l).
Proof.
  intros A name f l. unfold many. induction l as [|x l IH]; intros o N F; cbn [headers_one_per_line map cat_all]; [apply prints_nil, F|].
  pose proof (slen_nonneg _ name). destruct (grow_fits o (slen name)) as (o1 & -> & T1 & C1); [exact F|lia|]. cbn [res_bind].
  rewrite emit_room by (rewrite T1; lia). cbn [res_bind]. destruct (f x) as [t|c|]; cbn [res_bind]; [|reflexivity|reflexivity].
  pose proof (slen_nonneg _ t). destruct (grow_fits (mkOut (o_text o1 ++ name) (o_cap o1)) (slen t)) as (o2 & -> & T2 & C2); [unfold fits; cbn [o_text o_cap]; rewrite slen_app, T1; lia|lia|].
  cbn [res_bind o_text o_cap] in *. rewrite slen_app in C2. rewrite emit_room by (rewrite T2, slen_app; lia). cbn [res_bind].
  rewrite emit_room by (cbn [o_text o_cap]; rewrite T2, !slen_app; change (slen CRLF) with 2; lia). cbn [res_bind o_text o_cap].
  specialize (IH (mkOut ((o_text o2 ++ t) ++ CRLF) (o_cap o2)) N).
  destruct (cat_all _) as [b|c|]; cbn [prints res_bind] in *.
  - destruct IH as (o' & -> & E & F'); [unfold fits; cbn [o_text o_cap]; rewrite T2, !slen_app; change (slen CRLF) with 2; lia|]. exists o'. split; [reflexivity|]. split; [|exact F'].
    rewrite E. cbn [o_text]. rewrite T2, T1. unfold line. rewrite <- !app_assoc. reflexivity.
  - apply IH. unfold fits; cbn [o_text o_cap]; rewrite T2, !slen_app; change (slen CRLF) with 2; lia.
  - apply IH. unfold fits; cbn [o_text o_cap]; rewrite T2, !slen_app; change (slen CRLF) with 2; lia.
Qed.
Lemma one_ok : forall A name (f : A -> res str) x o, slen name <= 90 -> fits o -> prints (simple_header name f x o) o (one name f x).
Proof.
  intros A name f [x|] o N F; cbn [simple_header one]; [|apply prints_nil, F].
  pose proof (slen_nonneg _ name). destruct (grow_fits o (slen name)) as (o1 & -> & T1 & C1); [exact F|lia|]. cbn [res_bind].
  rewrite emit_room by (rewrite T1; lia). cbn [res_bind]. destruct (f x) as [t|c|]; [| |reflexivity].
  - pose proof (slen_nonneg _ t). destruct (grow_fits (mkOut (o_text o1 ++ name) (o_cap o1)) (slen t)) as (o2 & -> & T2 & C2); [unfold fits; cbn [o_text o_cap]; rewrite slen_app, T1; lia|lia|].
    cbn [res_bind o_text o_cap] in *. rewrite slen_app in C2. rewrite emit_room by (rewrite T2, slen_app; lia). cbn [res_bind].
    rewrite emit_room by (cbn [o_text o_cap]; rewrite T2, !slen_app; change (slen CRLF) with 2; lia). cbn [prints].
    eexists. split; [reflexivity|]. cbn [o_text o_cap]. split; [rewrite T2, T1; unfold line; rewrite <- !app_assoc; reflexivity|].
    unfold fits; cbn [o_text o_cap]; rewrite T2, !slen_app; change (slen CRLF) with 2; lia.
  - eexists. split; [reflexivity|]. cbn [o_text]. split; [rewrite T1; reflexivity|]. unfold fits. cbn [o_text o_cap]. rewrite slen_app, T1. lia.
Qed.
Lemma header_to_str_eq : forall h, header_to_str h = header_text h.
Proof.
  intros h. unfold header_to_str, header_text. destruct (h_name h) as [n|]; [|reflexivity].
  remember (match h_value h with Some v => v | None => [] end) as v. pose proof (slen_nonneg _ n). pose proof (slen_nonneg _ v).
  unfold out_new. replace (_ <? 1) with false by lia. cbn [res_bind]. rewrite emit_room; [subst v; reflexivity|].
  cbn [o_text o_cap]. rewrite !slen_app. change (slen ($": ")) with 2. rewrite slen_nil. lia.
Qed.
Lemma others_ok : forall l o, fits o -> prints (other_headers_to_str l o) o (others_text l).
Proof.
  unfold others_text, many. induction l as [|h l IH]; intros o F; cbn [other_headers_to_str map cat_all]; [apply prints_nil, F|].
  rewrite header_to_str_eq. destruct (header_text h) as [t|c|]; cbn [res_bind]; [|reflexivity|reflexivity].
  pose proof (slen_nonneg _ t). destruct (grow_fits o (slen t + 3)) as (o1 & -> & T1 & C1); [exact F|lia|]. cbn [res_bind].
  rewrite emit_room by (rewrite T1; lia). cbn [res_bind]. rewrite emit_room by (cbn [o_text o_cap]; rewrite T1, slen_app; change (slen CRLF) with 2; lia). cbn [res_bind o_text o_cap].
  specialize (IH (mkOut ((o_text o1 ++ t) ++ CRLF) (o_cap o1))).
  assert (fits (mkOut ((o_text o1 ++ t) ++ CRLF) (o_cap o1))) as F1 by (unfold fits; cbn [o_text o_cap]; rewrite T1, !slen_app; change (slen CRLF) with 2; lia). specialize (IH F1).
  destruct (cat_all _) as [b|c|]; cbn [prints res_bind] in *; [|exact IH|exact IH].
  destruct IH as (o' & -> & E & F'). exists o'. split; [reflexivity|]. split; [|exact F']. rewrite E. cbn [o_text]. rewrite T1. unfold line. cbn [app]. rewrite <- !app_assoc. reflexivity.
Qed.
Lemma known_ok : forall m o, fits o -> prints (known_headers_to_str m o) o (headers_text m).
Proof.
  intros m o F. unfold known_headers_to_str, headers_text. cbn [cat_all].
  repeat (apply prints_bind; [first [apply many_ok|apply one_ok]; [vm_compute; discriminate|assumption]|]; clear o F; intros o F).
  pose proof (many_ok _ ($"Proxy-Authentication-Info: ") ainfo_to_str (m_proxy_auth_infos m) o ltac:(vm_compute; discriminate) F) as H.
  destruct (many _ _ _); cbn [res_bind prints] in *; [rewrite app_nil_r|..]; exact H.
Qed.

(** *** Start line *)
Lemma sprintf3 : forall n, 100 <= n <= 699 -> slen (sprintf_i n) = 3.
Proof.
  assert (forallb (fun k => slen (sprintf_i (100 + Z.of_nat k)) =? 3) (seq 0 600) = true) as H by (vm_compute; reflexivity).
  intros n N. rewrite forallb_forall in H. specialize (H (Z.to_nat (n - 100))). rewrite Z2Nat.id in H by lia. replace (100 + (n - 100)) with n in H by lia.
  apply Z.eqb_eq, H, in_seq. lia.
Qed.
Theorem C40_startline : forall m, startline_to_str m = startline_text m.
Proof.
  intros m. unfold startline_to_str, startline_text, startline_to_strreq, startline_to_strresp. fold (version_text m).
  change (match m_version m with Some v => v | None => osip_protocol_version end) with (version_text m).
  destruct (m_method m) as [meth|].
  - destruct (m_uri m) as [u|]; [|reflexivity]. destruct (uri_to_str u) as [t|c|]; cbn [res_bind]; [|reflexivity|reflexivity].
    pose proof (slen_nonneg _ meth). pose proof (slen_nonneg _ t). pose proof (slen_nonneg _ (version_text m)).
    unfold out_new. replace (_ <? 1) with false by lia. cbn [res_bind].
    do 5 (rewrite emit_room by (cbn [o_text o_cap]; rewrite ?slen_app, ?slen_nil; change (slen ($" ")) with 1; lia); cbn [res_bind o_text o_cap]).
    cbn [app]. rewrite <- !app_assoc. reflexivity.
  - destruct (m_status m =? 0) eqn:Z0; cbn [negb].
    { destruct (m_reason m); [|reflexivity]. replace (100 <=? m_status m) with false by lia. reflexivity. }
    destruct (m_reason m) as [r|]; [|reflexivity].
    destruct ((m_status m <? 100) || (m_status m >? 699)) eqn:E.
    { replace ((100 <=? m_status m) && (m_status m <=? 699)) with false by lia. reflexivity. }
    replace ((100 <=? m_status m) && (m_status m <=? 699)) with true by lia.
    assert (slen (sprintf_i (m_status m)) = 3) as L3 by (apply sprintf3; lia).
    assert (firstn 3 (sprintf_i (m_status m)) = sprintf_i (m_status m)) as -> by (apply firstn_all2; unfold slen in L3; lia).
    pose proof (slen_nonneg _ r). pose proof (slen_nonneg _ (version_text m)).
    unfold out_new. replace (_ <? 1) with false by lia. cbn [res_bind].
    do 5 (rewrite emit_room by (cbn [o_text o_cap]; rewrite ?slen_app, ?slen_nil, ?L3; change (slen ($" ")) with 1; lia); cbn [res_bind o_text o_cap]).
    cbn [app]. rewrite <- !app_assoc. reflexivity.
Qed.

(** *** Bodies *)
Lemma body_grow_fits : forall o need more, fits o -> 0 <= more -> need <= more + 1 ->
  exists o', body_grow o need more = Ok o' /\ o_text o' = o_text o /\ slen (o_text o) + need <= o_cap o' /\ fits o'.
Proof.
  intros o need more F M N. unfold body_grow, fits in *. destruct (_ <? _) eqn:E; [|exists o; repeat split; lia].
  unfold out_grow. replace (_ <? slen (o_text o) + 1) with false by lia. eexists. split; [reflexivity|]. cbn [o_text o_cap]. repeat split; lia.
Qed.
Lemma body_hdrs_ok : forall l o, fits o -> prints (body_hdrs l o) o (others_text l).
Proof.
  unfold others_text, many. induction l as [|h l IH]; intros o F; cbn [body_hdrs map cat_all]; [apply prints_nil, F|].
  rewrite header_to_str_eq. destruct (header_text h) as [t|c|]; cbn [res_bind]; [|reflexivity|reflexivity].
  pose proof (slen_nonneg _ t). destruct (body_grow_fits o (slen t + 4) (slen t + 4)) as (o1 & -> & T1 & C1 & _); [exact F|lia|lia|]. cbn [res_bind].
  rewrite emit_room by (rewrite T1; lia). cbn [res_bind]. rewrite emit_room by (cbn [o_text o_cap]; rewrite T1, slen_app; change (slen CRLF) with 2; lia). cbn [res_bind o_text o_cap].
  specialize (IH (mkOut ((o_text o1 ++ t) ++ CRLF) (o_cap o1))).
  assert (fits (mkOut ((o_text o1 ++ t) ++ CRLF) (o_cap o1))) as F1 by (unfold fits; cbn [o_text o_cap]; rewrite T1, !slen_app; change (slen CRLF) with 2; lia). specialize (IH F1).
  destruct (cat_all _) as [b|c|]; cbn [prints res_bind] in *; [|exact IH|exact IH].
  destruct IH as (o' & -> & E & F'). exists o'. split; [reflexivity|]. split; [|exact F']. rewrite E. cbn [o_text]. rewrite T1. unfold line. cbn [app]. rewrite <- !app_assoc. reflexivity.
Qed.
Theorem C40_body : forall bd, body_to_str bd = part_text bd.
Proof.
  intros bd. unfold body_to_str, part_text. destruct (b_body bd) as [|c0 l0] eqn:EB; [reflexivity|]. rewrite <- EB.
  assert (0 < slen (b_body bd)) as P by (rewrite EB; sl). replace (slen (b_body bd) <=? 0) with false by lia.
  pose proof (slen_nonneg _ (b_headers bd)) as PH. unfold out_new. replace (_ <? 1) with false by lia. cbn [res_bind].
  set (o0 := mkOut [] (15 + slen (b_body bd) + slen (b_headers bd) * 40)).
  assert (fits o0) as F0 by (unfold fits, o0; cbn [o_text o_cap]; rewrite slen_nil; lia).
  match goal with |- ?lhs = ?rhs => assert (match rhs with Ok t => exists o, lhs = Ok t /\ o_text o = t | Err c => lhs = Err c | UB => lhs = UB end) as K end.
  2:{ destruct (cat_all _); [destruct K as (? & K & _)|..]; exact K. }
  cbn [cat_all].
  assert (prints (match b_ctype bd with
          | None => Ok o0
          | Some c => do o <- emit o0 ($"content-type: ") ; do t <- ctype_to_str c ; do o <- body_grow o (slen t + 4) (slen t + 4) ; do o <- emit o t ; emit o CRLF
          end) o0 (match b_ctype bd with None => Ok [] | Some c => do t <- ctype_to_str c ; Ok (line ($"content-type: ") t) end)) as K1.
  { destruct (b_ctype bd) as [c|]; [|apply prints_nil, F0]. rewrite emit_room by (unfold o0; cbn [o_text o_cap]; rewrite slen_nil; change (slen ($"content-type: ")) with 14; lia). cbn [res_bind].
    destruct (ctype_to_str c) as [t|e|]; cbn [res_bind prints]; [|reflexivity|reflexivity]. pose proof (slen_nonneg _ t).
    destruct (body_grow_fits (mkOut (o_text o0 ++ $"content-type: ") (o_cap o0)) (slen t + 4) (slen t + 4)) as (o1 & -> & T1 & C1 & _);
      [unfold fits, o0; cbn [o_text o_cap app]; change (slen ($"content-type: ")) with 14; lia|lia|lia|]. cbn [res_bind o_text] in *.
    rewrite emit_room by (rewrite T1; lia). cbn [res_bind]. rewrite emit_room by (cbn [o_text o_cap]; rewrite T1, slen_app; change (slen CRLF) with 2; lia).
    eexists. split; [reflexivity|]. cbn [o_text o_cap]. split; [rewrite T1; unfold line; rewrite <- !app_assoc; reflexivity|].
    unfold fits; cbn [o_text o_cap]; rewrite T1, !slen_app; rewrite slen_app in C1; change (slen CRLF) with 2; lia. }
  destruct (match b_ctype bd with None => Ok [] | Some c => do t <- ctype_to_str c ; Ok (line ($"content-type: ") t) end) as [t1|e|]; cbn [prints res_bind] in *; [|rewrite K1; reflexivity|rewrite K1; reflexivity].
  destruct K1 as (o1 & -> & T1 & F1). cbn [res_bind]. pose proof (body_hdrs_ok (b_headers bd) o1 F1) as K2.
  destruct (others_text (b_headers bd)) as [t2|e|]; cbn [prints res_bind] in *; [|rewrite K2; reflexivity|rewrite K2; reflexivity].
  destruct K2 as (o2 & -> & T2 & F2). cbn [res_bind].
  assert (exists o3, (if (slen (b_headers bd) >? 0) || match b_ctype bd with None => false | Some _ => true end
           then do o <- body_grow o2 3 (3 + slen (b_body bd)) ; emit o CRLF else Ok o2) = Ok o3 /\ fits o3 /\
           o_text o3 = o_text o2 ++ (if match b_headers bd, b_ctype bd with [], None => true | _, _ => false end then [] else CRLF)) as (o3 & -> & F3 & T3).
  { assert ((slen (b_headers bd) >? 0) || match b_ctype bd with None => false | Some _ => true end = negb (match b_headers bd, b_ctype bd with [], None => true | _, _ => false end)) as ->.
    { destruct (b_headers bd) as [|h l]; [destruct (b_ctype bd); reflexivity|]. replace (slen (h :: l) >? 0) with true by sl. reflexivity. }
    destruct (match b_headers bd, b_ctype bd with [], None => true | _, _ => false end); cbn [negb].
    - exists o2. rewrite app_nil_r. auto.
    - destruct (body_grow_fits o2 3 (3 + slen (b_body bd))) as (o3 & -> & X1 & X2 & _); [exact F2|lia|lia|]. cbn [res_bind].
      rewrite emit_room by (rewrite X1; change (slen CRLF) with 2; lia). eexists. split; [reflexivity|]. cbn [o_text o_cap]. rewrite X1. split; [|reflexivity].
      unfold fits. cbn [o_text o_cap]. rewrite slen_app. change (slen CRLF) with 2. lia. }
  cbn [res_bind]. destruct (body_grow_fits o3 (slen (b_body bd) + 4) (slen (b_body bd) + 4)) as (o4 & -> & T4 & C4 & _); [exact F3|lia|lia|]. cbn [res_bind].
  unfold emit_raw. replace (o_cap o4 <? slen (o_text o4) + slen (b_body bd)) with false by (rewrite T4; lia). cbn [res_bind o_text].
  eexists. split; [|instantiate (1 := mkOut _ 0); cbn [o_text]; reflexivity]. f_equal. rewrite T4, T3, T2, T1. unfold o0. cbn [o_text app]. rewrite app_nil_r, <- !app_assoc. reflexivity.
Qed.

(** *** The whole message *)
(** the digits of [n], right-aligned in the place kept for them (the last of [len] characters is at
    the position [e]) *)
Definition message_text (frag : bool) (m : message) : res str :=
  do s <- match startline_text m with Ok t => Ok (line [] t) | Err c => if frag then Ok [] else Err c | UB => UB end ;
  do h <- headers_text m ;
  do x <- others_text (m_headers m) ;
  match m_bodies m with
  | [] => Ok (s ++ h ++ x ++ (if frag then CRLF else $"Content-Length: 0" ++ CRLF ++ CRLF))
  | _ =>
    do bo <- boundary_of m ;
    do b <- bodies_text bo (m_bodies m) ;
    let digits := sprintf_i (int32 (slen b)) in
    let before := s ++ h ++ x ++ $"Content-Length:      " in
    wr_range (before ++ CRLF ++ CRLF ++ b) (slen before - slen digits) digits
  end.

Definition roomy (o : out) : Prop := slen (o_text o) + 91 <= o_cap o.
Definition boundary_small (bo : option str) : Prop := match bo with None => True | Some b => slen b <= 74 end.
Lemma boundary_of_small : forall m bo, boundary_of m = Ok bo -> boundary_small bo.
Proof.
  intros m bo H. unfold boundary_of in H. destruct (m_mime_version m); [|inversion H; exact I].
  destruct (m_content_type m) as [[[ty|] su ps]|]; try (inversion H; exact I). destruct (strcaseeq ty _); [|inversion H; exact I].
  destruct (param_get ps _) as [[n [g|]]|]; try (inversion H; exact I). destruct (slen g >? MIME_MAX_BOUNDARY_LEN) eqn:G; [discriminate|]. unfold MIME_MAX_BOUNDARY_LEN in G.
  pose proof (slen_nonneg _ g). destruct (_ && _).
  - destruct (slen g <? 2); [discriminate|]. assert (Some (CRLF ++ $"--" ++ firstn (length g - 2) (skipn 1 g)) = bo) as <- by congruence. clear H. cbn [boundary_small]. rewrite !slen_app. change (slen CRLF) with 2. change (slen ($"--")) with 2.
    assert (slen (firstn (length g - 2) (skipn 1 g)) <= slen g) by (unfold slen; rewrite firstn_length, skipn_length; lia). lia.
  - assert (Some (CRLF ++ $"--" ++ g) = bo) as <- by congruence. clear H. cbn [boundary_small]. rewrite !slen_app. change (slen CRLF) with 2. change (slen ($"--")) with 2. lia.
Qed.
Lemma bodies_ok : forall bo l o, boundary_small bo -> roomy o ->
  match cat_all (map (fun bd => do t <- part_text bd ; Ok (match bo with None => [] | Some b => b ++ CRLF end ++ t)) l) with
  | Ok t => exists o', bodies_to_str bo l o = Ok o' /\ o_text o' = o_text o ++ t /\ roomy o'
  | Err c => bodies_to_str bo l o = Err c
  | UB => bodies_to_str bo l o = UB
  end.
Proof.
  intros bo. induction l as [|bd l IH]; intros o BS R; cbn [map cat_all bodies_to_str]; [exists o; rewrite app_nil_r; auto|].
  unfold roomy in *.
  assert (exists o1, match bo with None => Ok o | Some b => do o <- emit o b ; emit o CRLF end = Ok o1 /\
    o_text o1 = o_text o ++ match bo with None => [] | Some b => b ++ CRLF end /\ fits o1) as (o1 & -> & T1 & F1).
  { destruct bo as [b|]; [|exists o; rewrite app_nil_r; unfold fits; repeat split; lia]. cbn [boundary_small] in BS.
    pose proof (slen_nonneg _ b). rewrite emit_room by lia. cbn [res_bind]. rewrite emit_room by (cbn [o_text o_cap]; rewrite slen_app; change (slen CRLF) with 2; lia).
    eexists. split; [reflexivity|]. cbn [o_text]. split; [rewrite app_assoc; reflexivity|]. unfold fits. cbn [o_text o_cap]. rewrite !slen_app. change (slen CRLF) with 2. lia. }
  cbn [res_bind]. rewrite C40_body. destruct (part_text bd) as [t|c|]; cbn [res_bind]; [|reflexivity|reflexivity]. pose proof (slen_nonneg _ t).
  destruct (grow_fits o1 (slen t)) as (o2 & -> & T2 & C2); [exact F1|lia|]. cbn [res_bind]. rewrite emit_room by (rewrite T2; lia). cbn [res_bind].
  specialize (IH (mkOut (o_text o2 ++ t) (o_cap o2)) BS). cbn [o_text o_cap] in IH.
  assert (slen (o_text o2 ++ t) + 91 <= o_cap o2) as RR by (rewrite slen_app, T2; lia). specialize (IH RR).
  destruct (cat_all _) as [b|c|]; cbn [res_bind]; [|exact IH|exact IH].
  destruct IH as (o' & -> & E & R'). exists o'. split; [reflexivity|]. split; [|exact R']. rewrite E, T2, T1. rewrite <- !app_assoc. reflexivity.
Qed.

(** C40 for osip_message_to_str and osip_message_to_str_sipfrag: whatever the sizes, the buffer is
    never overrun and the text is exactly [message_text], which knows no buffer *)
Theorem C40_message : forall frag m, message_to_str frag m = message_text frag m.
Proof.
  intros frag m. unfold message_to_str, message_text, out_new. change (SIP_MESSAGE_MAX_LENGTH <? 1) with false. cbn [res_bind]. rewrite C40_startline.
  set (o0 := mkOut [] SIP_MESSAGE_MAX_LENGTH). assert (fits o0) as F0 by (vm_compute; discriminate).
  assert (prints match startline_text m with UB => UB | Err c => if frag then Ok o0 else Err c | Ok t => do o <- grow o0 (slen t + 3) ; do o <- emit o t ; emit o CRLF end o0
    match startline_text m with Ok t => Ok (line [] t) | Err c => if frag then Ok [] else Err c | UB => UB end) as K.
  { destruct (startline_text m) as [t|c|]; [|destruct frag; [apply prints_nil, F0|reflexivity]|reflexivity]. pose proof (slen_nonneg _ t).
    destruct (grow_fits o0 (slen t + 3)) as (o1 & -> & T1 & C1); [exact F0|lia|]. cbn [res_bind]. rewrite emit_room by (rewrite T1; lia). cbn [res_bind].
    rewrite emit_room by (cbn [o_text o_cap]; rewrite T1, slen_app; change (slen CRLF) with 2; lia). eexists. split; [reflexivity|]. cbn [o_text]. split; [rewrite T1, <- app_assoc; reflexivity|].
    unfold fits. cbn [o_text o_cap]. rewrite T1, !slen_app. change (slen CRLF) with 2. lia. }
  destruct (match startline_text m with Ok t => Ok (line [] t) | Err c => if frag then Ok [] else Err c | UB => UB end) as [s|c|]; cbn [prints res_bind] in *; [|rewrite K; reflexivity|rewrite K; reflexivity].
  destruct K as (o1 & -> & T1 & F1). cbn [res_bind]. pose proof (known_ok m o1 F1) as K. destruct (headers_text m) as [h|c|]; cbn [prints res_bind] in *; [|rewrite K; reflexivity|rewrite K; reflexivity].
  destruct K as (o2 & -> & T2 & F2). cbn [res_bind]. pose proof (others_ok (m_headers m) o2 F2) as K. destruct (others_text (m_headers m)) as [x|c|]; cbn [prints res_bind] in *; [|rewrite K; reflexivity|rewrite K; reflexivity].
  destruct K as (o3 & -> & T3 & F3). cbn [res_bind]. destruct (grow_fits o3 16) as (o4 & -> & T4 & C4); [exact F3|lia|]. cbn [res_bind].
  assert (o_text o4 = s ++ h ++ x) as T by (rewrite T4, T3, T2, T1; unfold o0; cbn [o_text app]; rewrite <- app_assoc; reflexivity).
  rewrite <- T4 in C4. clear F0 F1 F2 F3 T1 T2 T3 T4 o1 o2 o3. clear o0. destruct (m_bodies m) as [|bd l].
  - destruct frag.
    + rewrite emit_room by (change (slen CRLF) with 2; lia). cbn [res_bind o_text]. rewrite T. rewrite <- !app_assoc. reflexivity.
    + rewrite emit_room by (change (slen ($"Content-Length: ")) with 16; lia). cbn [res_bind].
      do 3 (rewrite emit_room by (cbn [o_text o_cap]; rewrite !slen_app; change (slen CRLF) with 2; change (slen ($"Content-Length: ")) with 16; change (slen ($"0")) with 1; lia); cbn [res_bind o_text o_cap]).
      rewrite T. rewrite <- !app_assoc. reflexivity.
  - rewrite emit_room by (change (slen ($"Content-Length: ")) with 16; lia). cbn [res_bind].
    do 3 (rewrite emit_room by (cbn [o_text o_cap]; rewrite !slen_app; change (slen CRLF) with 2; change (slen ($"Content-Length: ")) with 16; change (slen ($"     ")) with 5; lia); cbn [res_bind o_text o_cap]).
    destruct (boundary_of m) as [bo|c|] eqn:EB; cbn [res_bind]; [|reflexivity|reflexivity]. apply boundary_of_small in EB.
    remember (mkOut ((((o_text o4 ++ $"Content-Length: ") ++ $"     ") ++ CRLF) ++ CRLF) (o_cap o4)) as o5 eqn:E5.
    assert (roomy o5) as R5 by (subst o5; unfold roomy; cbn [o_text o_cap]; rewrite !slen_app; change (slen CRLF) with 2; change (slen ($"Content-Length: ")) with 16; change (slen ($"     ")) with 5; lia).
    assert (o_text o5 = (s ++ h ++ x ++ $"Content-Length:      ") ++ CRLF ++ CRLF) as T5.
    { subst o5. cbn [o_text]. rewrite T. rewrite <- !app_assoc. reflexivity. }
    assert (slen ((o_text o4) ++ $"Content-Length: ") + 5 = slen (s ++ h ++ x ++ $"Content-Length:      ")) as SL.
    { rewrite T, !slen_app. change (slen ($"Content-Length: ")) with 16. change (slen ($"Content-Length:      ")) with 21. lia. }
    pose proof (bodies_ok bo (bd :: l) o5 EB R5) as K.
    assert (slen ((((o_text o4 ++ $"Content-Length: ") ++ $"     ") ++ CRLF) ++ CRLF) = slen (o_text o5)) as S5 by (subst o5; reflexivity).
    rewrite S5. clear E5 S5 T C4 R5.
    assert (match bodies_text bo (bd :: l) with
      | Ok t => exists o6, (do o <- bodies_to_str bo (bd :: l) o5 ; match bo with None => Ok o | Some b => do o <- emit o b ; do o <- emit o ($"--") ; emit o CRLF end) = Ok o6 /\ o_text o6 = o_text o5 ++ t
      | Err c => (do o <- bodies_to_str bo (bd :: l) o5 ; match bo with None => Ok o | Some b => do o <- emit o b ; do o <- emit o ($"--") ; emit o CRLF end) = Err c
      | UB => (do o <- bodies_to_str bo (bd :: l) o5 ; match bo with None => Ok o | Some b => do o <- emit o b ; do o <- emit o ($"--") ; emit o CRLF end) = UB end) as K2.
    { destruct bo as [b|]; unfold bodies_text.
      - replace (map (fun bd => do t <- part_text bd ; Ok (b ++ CRLF ++ t)) (bd :: l)) with (map (fun bd => do t <- part_text bd ; Ok ((b ++ CRLF) ++ t)) (bd :: l)).
        2:{ apply map_ext. intros a. destruct (part_text a); cbn [res_bind]; [rewrite <- app_assoc|..]; reflexivity. }
        destruct (cat_all _) as [t|c|]; cbn [res_bind]; [|rewrite K; reflexivity|rewrite K; reflexivity]. destruct K as (o6 & -> & T6 & R6). cbn [res_bind]. cbn [boundary_small] in EB. unfold roomy in R6. pose proof (slen_nonneg _ b).
        do 3 (rewrite emit_room by (cbn [o_text o_cap]; rewrite ?slen_app; change (slen CRLF) with 2; change (slen ($"--")) with 2; lia); cbn [res_bind o_text o_cap]).
        eexists. split; [reflexivity|]. cbn [o_text]. rewrite T6, <- !app_assoc. reflexivity.
      - replace (map part_text (bd :: l)) with (map (fun bd => do t <- part_text bd ; Ok ([] ++ t)) (bd :: l)) by (apply map_ext; intros a; destruct (part_text a); reflexivity).
        destruct (cat_all _) as [t|c|]; cbn [res_bind]; [|rewrite K; reflexivity|rewrite K; reflexivity]. destruct K as (o6 & -> & T6 & R6). cbn [res_bind]. exists o6. auto. }
    clear K. destruct (bodies_text bo (bd :: l)) as [t|c|]; cbn [res_bind].
    + destruct K2 as (o6 & K2 & T6). destruct (bodies_to_str bo (bd :: l) o5) as [o|c|]; cbn [res_bind] in *; [|discriminate|discriminate]. rewrite K2. cbn [res_bind]. rewrite T6, T5.
      replace (slen (((s ++ h ++ x ++ $"Content-Length:      ") ++ CRLF ++ CRLF) ++ t) - slen ((s ++ h ++ x ++ $"Content-Length:      ") ++ CRLF ++ CRLF)) with (slen t) by (rewrite !slen_app; lia).
      rewrite SL. rewrite <- !app_assoc. reflexivity.
    + destruct (bodies_to_str bo (bd :: l) o5) as [o|e|]; cbn [res_bind] in *; [rewrite K2; reflexivity|congruence|congruence].
    + destruct (bodies_to_str bo (bd :: l) o5) as [o|e|]; cbn [res_bind] in *; [rewrite K2; reflexivity|congruence|congruence].
Qed.

(** *** Content-Length *)
Lemma dec_digits_len : forall fuel n acc k, 0 <= k -> (n < 10 ^ Z.to_N (k + 1))%N -> slen (dec_digits fuel n acc) <= k + 1 + slen acc.
Proof.
  induction fuel as [|fuel IH]; intros n acc k K L; cbn [dec_digits]; [lia|]. destruct (n <? 10)%N eqn:E; [rewrite slen_cons; lia|].
  destruct (Z.eq_dec k 0) as [->|]; [cbn in L; lia|]. specialize (IH (n / 10)%N (chr (48 + n mod 10) :: acc) (k - 1) ltac:(lia)).
  assert (n / 10 < 10 ^ Z.to_N (k - 1 + 1))%N as X.
  { apply N.div_lt_upper_bound; [lia|]. rewrite <- (N.pow_succ_r' 10). replace (N.succ (Z.to_N (k - 1 + 1))) with (Z.to_N (k + 1)) by lia. exact L. }
  specialize (IH X). rewrite slen_cons in IH. lia.
Qed.
Lemma decimal_lt : forall d, Forall (fun c => (48 <= code c <= 57)%N) d -> decimal d < 10 ^ slen d.
Proof.
  induction d as [|c d IH] using rev_ind; intros F; [vm_compute; reflexivity|]. apply Forall_app in F as [F1 F2]. inversion F2 as [|? ? C _]; subst. specialize (IH F1).
  unfold decimal in *. rewrite fold_left_app. cbn [fold_left]. rewrite slen_app, Z.pow_add_r by (pose proof (slen_nonneg _ d); rewrite ?slen_cons, ?slen_nil; lia). change (slen [c]) with 1. change (10 ^ 1) with 10. lia.
Qed.
Lemma sprintf_len_le : forall n k, 0 <= n < 10 ^ (k + 1) -> 0 <= k -> slen (sprintf_i n) <= k + 1.
Proof.
  intros n k N K. unfold sprintf_i. replace (n <? 0) with false by lia. pose proof (dec_digits_len (S (N.size_nat (Z.to_N (Z.abs n)))) (Z.to_N (Z.abs n)) [] k K) as H.
  rewrite slen_nil in H. assert (Z.to_N (Z.abs n) < 10 ^ Z.to_N (k + 1))%N as X; [|specialize (H X); lia].
  apply N2Z.inj_lt. rewrite N2Z.inj_pow, !Z2N.id by lia. change (Z.of_N 10) with 10. rewrite Z.abs_eq by lia. lia.
Qed.
Lemma sprintf_len_ge : forall n k, 0 <= k -> 10 ^ k <= n -> k < slen (sprintf_i n).
Proof.
  intros n k K N. pose proof (Z.pow_nonneg 10 k ltac:(lia)). destruct (sprintf_i_spec n ltac:(lia)) as [[_ D] E]. pose proof (decimal_lt _ D) as L. rewrite E in L.
  assert (10 ^ k < 10 ^ slen (sprintf_i n)) as X by lia. apply Z.pow_lt_mono_r_iff in X; [exact X|lia|apply slen_nonneg].
Qed.
Lemma wr_range_len : forall b i l b', wr_range b i l = Ok b' -> length b' = length b.
Proof.
  intros b i l b' H. unfold wr_range in H. destruct ((i <? 0) || (Z.of_nat (length b) <? i + Z.of_nat (length l))) eqn:C; [discriminate|]. injection H as <-.
  rewrite !app_length, firstn_length, skipn_length. lia.
Qed.
Definition all_blank (s : str) : Prop := Forall (fun c => c = sp) s.
Lemma overwrite_end : forall before pad d rest, length pad = length d ->
  wr_range ((before ++ pad) ++ rest) (slen (before ++ pad) - slen d) d = Ok ((before ++ d) ++ rest).
Proof.
  intros before pad d rest L. rewrite <- app_assoc. rewrite (wr_range_at before pad d rest); [rewrite <- app_assoc; reflexivity| |symmetry; exact L].
  rewrite slen_app. unfold slen, len. lia.
Qed.

(** C46: up to 999999 bytes of body, the printed message is some lines, "Content-Length:", blanks,
    the size of the rest in decimal, an empty line and the rest; the rest is the text of the bodies *)
Theorem C46_partial : forall m s, message_to_str false m = Ok s -> slen s <= 999999 ->
  exists head pad digits b, s = head ++ $"Content-Length:" ++ pad ++ digits ++ CRLF ++ CRLF ++ b /\
    all_blank pad /\ digit_string digits /\ decimal digits = slen b /\
    (exists st h x, startline_text m = Ok st /\ headers_text m = Ok h /\ others_text (m_headers m) = Ok x /\ head = (st ++ CRLF) ++ h ++ x) /\
    match m_bodies m with [] => b = [] | l => exists bo, boundary_of m = Ok bo /\ bodies_text bo l = Ok b end.
Proof.
  intros m s H SM. rewrite C40_message in H. unfold message_text in H.
  destruct (startline_text m) as [st|c|] eqn:E1; cbn [res_bind] in H; [|discriminate|discriminate]. destruct (headers_text m) as [h|c|] eqn:E2; cbn [res_bind] in H; [|discriminate|discriminate].
  destruct (others_text (m_headers m)) as [x|c|] eqn:E3; cbn [res_bind] in H; [|discriminate|discriminate]. change (line [] st) with (st ++ CRLF) in H.
  destruct (m_bodies m) as [|bd l].
  - exists ((st ++ CRLF) ++ h ++ x), [sp], ($"0"), []. split.
    { assert (s = (st ++ CRLF) ++ h ++ x ++ $"Content-Length: 0" ++ CRLF ++ CRLF) as -> by congruence. rewrite <- !app_assoc. reflexivity. }
    split; [repeat constructor|]. split; [split; [discriminate|repeat constructor; cbn; lia]|]. split; [reflexivity|]. split; [exists st, h, x; auto|reflexivity].
  - destruct (boundary_of m) as [bo|c|] eqn:E4; cbn [res_bind] in H; [|discriminate|discriminate]. destruct (bodies_text bo (bd :: l)) as [b|c|] eqn:E5; cbn [res_bind] in H; [|discriminate|discriminate]. cbv zeta in H.
    assert (slen s = slen (((st ++ CRLF) ++ h ++ x ++ $"Content-Length:      ") ++ CRLF ++ CRLF ++ b)) as LS.
    { apply wr_range_len in H. unfold slen. rewrite H. reflexivity. }
    rewrite !slen_app in LS. change (slen CRLF) with 2 in LS. pose proof (slen_nonneg _ st). pose proof (slen_nonneg _ h). pose proof (slen_nonneg _ x). pose proof (slen_nonneg _ b). change (slen ($"Content-Length:      ")) with 21 in LS.
    assert (int32 (slen b) = slen b) as I. { unfold int32. rewrite Z.mod_small by lia. replace (slen b <? 2147483648) with true by lia. reflexivity. }
    rewrite I in H. destruct (sprintf_i_spec (slen b)) as [D1 D2]; [lia|]. pose proof (sprintf_len_le (slen b) 5 ltac:(change (10 ^ (5 + 1)) with 1000000; lia) ltac:(lia)) as DL.
    exists ((st ++ CRLF) ++ h ++ x), (repeat sp (6 - length (sprintf_i (slen b)))), (sprintf_i (slen b)), b.
    split; [|split; [apply Forall_forall; intros c C; apply repeat_spec in C; exact C|split; [exact D1|split; [exact D2|split; [exists st, h, x; auto|exists bo; auto]]]]].
    replace ((st ++ CRLF) ++ h ++ x ++ $"Content-Length:      ") with ((((st ++ CRLF) ++ h ++ x ++ $"Content-Length:") ++ repeat sp (6 - length (sprintf_i (slen b)))) ++ repeat sp (length (sprintf_i (slen b)))) in H.
    + rewrite overwrite_end in H by apply repeat_length. injection H as <-. rewrite <- !app_assoc. reflexivity.
    + rewrite <- app_assoc, <- repeat_app. replace (6 - _ + _)%nat with 6%nat by (unfold slen at 1 in DL; lia). cbn [repeat]. rewrite <- !app_assoc. reflexivity.
Qed.

(** Finding: with seven digits the colon after "Content-Length" is overwritten: the text has no
    Content-Length header at all *)
Theorem C46_refuted : exists m s b, message_to_str false m = Ok s /\ slen b = 1000000 /\ m_bodies m = [mkBody b [] None] /\
  s = $"SIP/2.0 200 OK" ++ CRLF ++ $"Content-Length1000000" ++ CRLF ++ CRLF ++ b.
Proof.
  pose (b := repeat "a"%char (Z.to_nat 1000000)). assert (slen b = 1000000) as LB by (unfold b, slen; rewrite repeat_length, Z2Nat.id by lia; reflexivity).
  exists (with_bodies [mkBody b [] None] (with_status 200 (with_reason (Some ($"OK")) msg_init))).
  exists ($"SIP/2.0 200 OK" ++ CRLF ++ $"Content-Length1000000" ++ CRLF ++ CRLF ++ b), b. split; [|split; [exact LB|split; reflexivity]].
  rewrite C40_message. generalize dependent b. intros b LB. unfold message_text. cbn [m_bodies with_bodies]. 
  change (startline_text _) with (Ok ($"SIP/2.0 200 OK")). cbn [res_bind]. change (headers_text _) with (Ok ([] : str)). cbn [res_bind]. change (others_text _) with (Ok ([] : str)). cbn [res_bind].
  change (boundary_of _) with (Ok (@None str)). cbn [res_bind bodies_text map cat_all]. unfold part_text. cbn [b_body b_headers b_ctype others_text many map cat_all res_bind].
  replace (match b with [] => true | _ => false end) with false by (destruct b; [rewrite slen_nil in LB; lia|reflexivity]). cbn [res_bind app]. rewrite !app_nil_r. cbn [res_bind]. rewrite LB.
  change (sprintf_i (int32 1000000)) with ($"1000000"). change (line [] ($"SIP/2.0 200 OK")) with ($"SIP/2.0 200 OK" ++ CRLF).
  replace (($"SIP/2.0 200 OK" ++ CRLF) ++ $"Content-Length:      ") with (($"SIP/2.0 200 OK" ++ CRLF ++ $"Content-Length") ++ $":      ") by reflexivity.
  change (slen ($"1000000")) with (slen ($"1000000")). rewrite overwrite_end by reflexivity. rewrite <- !app_assoc. reflexivity.
Qed.

(** *** Memory safety *)
(** the values of the message can be printed without undefined behaviour: URI headers have
    values, Accept has both type and subtype or none, and the two defects of the
    Authentication-Info printer (C40_authentication_info_refuted) are avoided *)
Definition uri_safe (u : uri) : Prop := Forall (fun h => snd h <> None) (u_headers u).
Definition name_safe (f : nameaddr) : Prop := forall u, na_url f = Some u -> uri_safe u.
Definition ainfo_safe (a : authinfo) : Prop := (exists n k v, In (n, k, Some v) (ainfo_rows a)) /\ (ai_nextnonce a = None \/ ai_opaque a = None).
Record printable (m : message) : Prop := {
  pr_uri : forall u, m_uri m = Some u -> uri_safe u;
  pr_rr : Forall name_safe (m_record_routes m); pr_routes : Forall name_safe (m_routes m);
  pr_from : forall f, m_from m = Some f -> name_safe f; pr_to : forall f, m_to m = Some f -> name_safe f;
  pr_contacts : Forall name_safe (m_contacts m);
  pr_accepts : Forall (fun c => ct_type c = None <-> ct_subtype c = None) (m_accepts m);
  pr_ainfo : Forall ainfo_safe (m_auth_infos m); pr_painfo : Forall ainfo_safe (m_proxy_auth_infos m);
  pr_boundary : boundary_of m <> UB }.
Lemma cat_all_safe : forall l, Forall (fun r => r <> UB) l -> cat_all l <> UB.
Proof.
  induction l as [|r l IH]; intros F; cbn [cat_all]; [discriminate|]. inversion F as [|? ? R F']; subst. specialize (IH F').
  destruct r; cbn [res_bind]; [|discriminate|congruence]. destruct (cat_all l); cbn [res_bind]; [discriminate|discriminate|congruence].
Qed.
Lemma many_safe : forall A name (f : A -> res str) l, Forall (fun x => f x <> UB) l -> many name f l <> UB.
Proof.
  intros A name f l F. apply cat_all_safe. apply Forall_map. eapply Forall_impl; [|exact F]. intros x X. cbv beta in X |- *. destruct (f x); cbn [res_bind]; [discriminate|discriminate|congruence].
Qed.
Lemma one_safe : forall A name (f : A -> res str) x, (forall y, x = Some y -> f y <> UB) -> one name f x <> UB.
Proof. intros A name f [y|] H; cbn [one]; [|discriminate]. specialize (H y eq_refl). destruct (f y); [discriminate|discriminate|congruence]. Qed.
Lemma all_forall : forall A (P : A -> Prop) l, (forall x, P x) -> Forall P l.
Proof. intros. apply Forall_forall. auto. Qed.
Lemma sprintf_len_any : forall z, slen (sprintf_i (int32 z)) <= 11.
Proof.
  intros z. pose proof (int32_range z) as R. unfold sprintf_i. pose proof (dec_digits_len (S (N.size_nat (Z.to_N (Z.abs (int32 z))))) (Z.to_N (Z.abs (int32 z))) [] 9 ltac:(lia)) as H.
  rewrite slen_nil in H. assert (Z.to_N (Z.abs (int32 z)) < 10 ^ Z.to_N (9 + 1))%N as X by (change (10 ^ Z.to_N (9 + 1))%N with 10000000000%N; lia). specialize (H X).
  destruct (int32 z <? 0); [rewrite slen_cons|]; lia.
Qed.
Theorem C40_message_safe : forall frag m, printable m -> message_to_str frag m <> UB.
Proof.
  intros frag m P. rewrite C40_message. unfold message_text.
  assert (startline_text m <> UB) as S1.
  { unfold startline_text. destruct (m_method m); [|destruct (m_reason m); [destruct (_ && _); discriminate|discriminate]]. destruct (m_uri m) as [u|] eqn:U; [|discriminate].
    destruct (C40_uri u (pr_uri m P u U)) as [N _]. destruct (uri_to_str u); cbn [res_bind]; [discriminate|discriminate|congruence]. }
  assert (forall l, others_text l <> UB) as S3.
  { intros l. apply many_safe, all_forall. intros h. unfold header_text. destruct (h_name h); discriminate. }
  assert (headers_text m <> UB) as S2.
  { assert (forall f, name_safe f -> from_to_str f <> UB) as N by (intros f F; apply C40_from; exact F).
    assert (forall e, elem_to_str em_s e <> UB) as EI by (intros e; destruct (el_element e) as [t|] eqn:E; [rewrite (C40_call_info e t E); discriminate|unfold elem_to_str; rewrite E; discriminate]).
    assert (forall e, elem_to_str emit_n e <> UB) as EN by (intros e; destruct (el_element e) as [t|] eqn:E; [rewrite (C40_accept_encoding e t E); discriminate|unfold elem_to_str; rewrite E; discriminate]).
    assert (forall v, via_print v <> UB) as V by (intros v; rewrite C40_via; unfold via_to_str; destruct (v_host v), (v_version v), (v_protocol v); discriminate).
    assert (forall v, clen_to_str v <> UB) as CL by (intros [v|]; discriminate).
    unfold headers_text. apply cat_all_safe. repeat apply Forall_cons; [..|apply Forall_nil]; try (apply many_safe); try apply one_safe; try (apply all_forall; assumption); try (intros y _; apply CL).
    - eapply Forall_impl; [exact N|]. apply (pr_rr m P).
    - eapply Forall_impl; [exact N|]. apply (pr_routes m P).
    - intros f F. apply N, (pr_from m P f F).
    - intros f F. apply N, (pr_to m P f F).
    - intros c _. destruct (ci_number c) as [n|] eqn:E; [rewrite (C40_call_id c n E); discriminate|unfold call_id_to_str; rewrite E; discriminate].
    - intros c _. destruct (cs_number c) as [n|] eqn:E1; [destruct (cs_method c) as [k|] eqn:E2; [rewrite (C40_cseq c n k E1 E2); discriminate|]|]; unfold cseq_to_str; rewrite E1, ?E2; discriminate.
    - eapply Forall_impl; [|exact (pr_contacts m P)]. intros f F. unfold contact_to_str. destruct (na_display f) as [[|c d]|]; try (apply N, F). destruct (is_ch c "*"); [discriminate|apply N, F].
    - apply all_forall, C40_authorization.
    - apply all_forall, C40_www_authenticate.
    - apply all_forall, C40_www_authenticate.
    - apply all_forall, C40_authorization.
    - intros c _. apply C40_content_type.
    - eapply Forall_impl; [|exact (pr_accepts m P)]. intros c C. apply C40_accept, C.
    - eapply Forall_impl; [|exact (pr_ainfo m P)]. intros a [A1 A2]. apply C40_authentication_info_partial; assumption.
    - eapply Forall_impl; [|exact (pr_painfo m P)]. intros a [A1 A2]. apply C40_authentication_info_partial; assumption. }
  destruct (startline_text m) as [st|c|]; [| |congruence]; [|destruct frag; [|discriminate]]; cbn [res_bind];
  (destruct (headers_text m) as [h|c2|]; cbn [res_bind]; [|discriminate|congruence]); specialize (S3 (m_headers m)) as S4;
  (destruct (others_text (m_headers m)) as [x|c3|]; cbn [res_bind]; [|discriminate|congruence]); (destruct (m_bodies m) as [|bd l]; [discriminate|]);
  pose proof (pr_boundary m P) as PB; (destruct (boundary_of m) as [bo|c4|]; cbn [res_bind]; [|discriminate|congruence]).
  all: assert (forall b, part_text b <> UB) as PT by (intros b; unfold part_text; destruct (b_body b); [discriminate|]; apply cat_all_safe; repeat apply Forall_cons;
    [destruct (b_ctype b) as [c'|]; [destruct (C40_content_type c') as [N _]; destruct (ctype_to_str c'); cbn [res_bind]; [discriminate|discriminate|congruence]|discriminate]|apply S3|discriminate|discriminate|apply Forall_nil]).
  all: assert (bodies_text bo (bd :: l) <> UB) as BT by (unfold bodies_text; destruct bo as [b0|];
    [assert (cat_all (map (fun bd => do t <- part_text bd ; Ok (b0 ++ CRLF ++ t)) (bd :: l)) <> UB) as CA by (apply cat_all_safe, Forall_map, all_forall; intros b; specialize (PT b); destruct (part_text b); cbn [res_bind]; [discriminate|discriminate|congruence]);
     destruct (cat_all _); cbn [res_bind]; [discriminate|discriminate|congruence]
    |apply cat_all_safe, Forall_map, all_forall; exact PT]).
  all: destruct (bodies_text bo (bd :: l)) as [b|c5|]; cbn [res_bind]; [|discriminate|congruence].
  all: pose proof (sprintf_len_any (slen b)) as DL.
  all: match goal with |- wr_range ?t _ ?d <> UB => generalize dependent d; intros dd DD; unfold wr_range end.
  all: match goal with |- (if ?c then _ else _) <> UB => replace c with false; [discriminate|] end.
  all: symmetry; apply orb_false_iff; rewrite !app_length; unfold slen in *; rewrite !app_length; change (length ($"Content-Length:      ")) with 21%nat; split; lia.
Qed.

(** Finding: a Content-Type whose boundary is one double quote is accepted from the network;
    printing the message then copies SIZE_MAX bytes *)
Definition ex_boundary : str :=
  $"INVITE sip:a@b.c SIP/2.0" ++ CRLF ++ $"Mime-Version: 1.0" ++ CRLF ++ $"Content-Type: multipart/mixed; boundary=""" ++ CRLF ++ CRLF ++
  CRLF ++ $"--" ++ CRLF ++ $"a: b" ++ CRLF ++ CRLF ++ $"text" ++ CRLF ++ $"----" ++ CRLF.
Theorem C40_message_boundary_refuted : exists m, message_parse ex_boundary = Ok m /\ message_to_str false m = UB.
Proof.
  assert (match message_parse ex_boundary with Ok m => message_to_str false m | _ => Ok [] end = UB) as H by (vm_compute; reflexivity).
  destruct (message_parse ex_boundary) as [m| |]; [|discriminate|discriminate]. exists m. split; [reflexivity|exact H].
Qed.

(** The sample message is printable; printing it gives its text with the Content-Length aligned *)
Lemma printable_sample : forall m, message_parse sample = Ok m -> printable m.
Proof.
  intros m H. assert (exists x, message_parse sample = Ok x /\ m_uri x = Some (mkUri (Some ($"sip")) (Some ($"bob")) None (Some ($"b.example")) None [] [] None) /\
    m_record_routes x = [] /\ m_routes x = [] /\ m_contacts x = [] /\ m_accepts x = [] /\ m_auth_infos x = [] /\ m_proxy_auth_infos x = [] /\ m_mime_version x = None /\
    option_map na_url (m_from x) = Some (Some (mkUri (Some ($"sip")) (Some ($"al")) None (Some ($"a.example")) None [] [] None)) /\
    option_map na_url (m_to x) = Some (Some (mkUri (Some ($"sip")) (Some ($"bob")) None (Some ($"b.example")) None [] [] None))) as (x & E & Q).
  { destruct (message_parse sample) as [x| |] eqn:E; [|vm_compute in E; discriminate|vm_compute in E; discriminate]. exists x. split; [reflexivity|].
    assert (match message_parse sample with Ok x => x | _ => msg_init end = x) as <- by (rewrite E; reflexivity). vm_compute. repeat split. }
  rewrite E in H. injection H as <-. destruct Q as (Q1 & Q2 & Q3 & Q4 & Q5 & Q6 & Q7 & Q8 & Q9 & Q10). constructor.
  - intros u U. rewrite Q1 in U. injection U as <-. constructor.
  - rewrite Q2. constructor. - rewrite Q3. constructor.
  - intros f F. rewrite F in Q9. cbn [option_map] in Q9. intros u U. rewrite U in Q9. injection Q9 as ->. constructor.
  - intros f F. rewrite F in Q10. cbn [option_map] in Q10. intros u U. rewrite U in Q10. injection Q10 as ->. constructor.
  - rewrite Q4. constructor. - rewrite Q5. constructor. - rewrite Q6. constructor. - rewrite Q7. constructor.
  - unfold boundary_of. rewrite Q8. discriminate.
Qed.
Example C46_example : exists m s, message_parse sample = Ok m /\ printable m /\ message_to_str false m = Ok s /\ slen s <= 999999 /\
  exists head, s = head ++ $"Content-Length:     2" ++ CRLF ++ CRLF ++ $"he".
Proof.
  destruct (message_parse sample) as [m| |] eqn:E; [|vm_compute in E; discriminate|vm_compute in E; discriminate].
  pose proof (printable_sample m E) as P. assert (match message_parse sample with Ok x => x | _ => msg_init end = m) as <- by (rewrite E; reflexivity).
  eexists. eexists. split; [reflexivity|]. split; [exact P|]. split; [vm_compute; reflexivity|]. split; [vm_compute; discriminate|].
  match goal with |- exists h, ?s = _ => exists (firstn (length s - 27) s) end. vm_compute. reflexivity.
Qed.
Print Assumptions C40_startline.
Print Assumptions C40_body.
Print Assumptions C40_message.
Print Assumptions C46_partial.
Print Assumptions C46_refuted.
Print Assumptions C40_message_safe.
Print Assumptions C40_message_boundary_refuted.

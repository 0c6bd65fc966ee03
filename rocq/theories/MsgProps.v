(** Header name dispatch (C39), unknown header accessors (C41) and comma separated values (C43). *)
From Coq Require Import String ZArith NArith Ascii Bool List Lia ZifyBool ZifyNat.
From Verif Require Import Base Str StrLemmas Types MemModel CString CStringLemmas PortModel UriModel HdrModel AuthModel ViaRound MsgFields MsgModel.
Import ListNotations.
Open Scope Z_scope.

(** * C39: dispatch on the header name *)

(** RFC 3261 20 and 7.3.3: the headers with a parser of their own, under their full and compact
    names; the boolean says that an invalid value is ignored instead of failing the message. *)
Definition known_headers : list (list str * bool * setter) :=
  [ ([$"via"; $"v"], false, set_via); ([$"from"; $"f"], false, set_from); ([$"to"; $"t"], false, set_to);
    ([$"call-id"; $"i"], false, set_call_id); ([$"cseq"], false, set_cseq);
    ([$"contact"; $"m"], false, set_contact); ([$"content-type"; $"c"], false, set_content_type);
    ([$"content-length"; $"l"], false, set_content_length);
    ([$"route"], true, set_route); ([$"record-route"], true, set_record_route);
    ([$"accept"], true, set_accept); ([$"accept-encoding"], true, set_accept_encoding);
    ([$"accept-language"], true, set_accept_language); ([$"alert-info"], true, set_alert_info);
    ([$"call-info"], true, set_call_info); ([$"error-info"], true, set_error_info);
    ([$"allow"], true, set_allow); ([$"content-encoding"; $"e"], true, set_content_encoding);
    ([$"mime-version"], true, set_mime_version);
    ([$"authorization"], true, set_authorization); ([$"proxy-authorization"], true, set_proxy_authorization);
    ([$"www-authenticate"], true, set_www_authenticate); ([$"proxy-authenticate"], true, set_proxy_authenticate);
    ([$"authentication-info"], true, set_authentication_info);
    ([$"proxy-authentication-info"], true, set_proxy_authentication_info) ].

Lemma fill_table_spec : forall names i t t', fill_table names i t = Ok t' ->
  forall h j, t' h = Some j <->
    (t h = Some j \/ exists k n, j = (i + k)%nat /\ nth_error names k = Some n /\ osip_hash n mod HASH_TABLE_SIZE = h).
Proof.
  induction names as [|n names IH]; intros i t t' H h j; cbn [fill_table] in H.
  - inversion H; subst. split; [auto|]. intros [H1|(k & n & _ & H1 & _)]; [auto|]. destruct k; discriminate.
  - destruct (t (osip_hash n mod HASH_TABLE_SIZE)) eqn:E; [discriminate|].
    rewrite (IH _ _ _ H). clear IH H. cbv beta. split.
    + intros [H1|(k & x & -> & H2 & H3)].
      * destruct (h =? osip_hash n mod HASH_TABLE_SIZE) eqn:Eh; [|auto].
        right. exists 0%nat, n. inversion H1; subst. repeat split; [lia|]. symmetry. apply Z.eqb_eq. exact Eh.
      * right. exists (S k), x. repeat split; auto; lia.
    + intros [H1|(k & x & -> & H2 & H3)].
      * left. destruct (h =? osip_hash n mod HASH_TABLE_SIZE) eqn:Eh; [|auto].
        apply Z.eqb_eq in Eh. congruence.
      * destruct k as [|k]; cbn [nth_error] in H2.
        -- left. inversion H2; subst. rewrite Z.eqb_refl. f_equal. lia.
        -- right. exists k, x. repeat split; auto; lia.
Qed.

Lemma parser_init_ok : parser_init = Ok hdr_ref_table.
Proof.
  assert (match parser_init with Ok _ => true | _ => false end = true) as H by (vm_compute; reflexivity).
  unfold hdr_ref_table. destruct parser_init; [reflexivity|discriminate|discriminate].
Qed.

Lemma known_index : forall n i, is_known_header hdr_ref_table n = Some i <-> nth_error pnames i = Some n.
Proof.
  intros n i. unfold is_known_header.
  assert (forall j, hdr_ref_table (osip_hash n mod HASH_TABLE_SIZE) = Some j <->
            exists x, nth_error pnames j = Some x /\ osip_hash x mod HASH_TABLE_SIZE = osip_hash n mod HASH_TABLE_SIZE) as T.
  { intros j. rewrite (fill_table_spec _ _ _ _ parser_init_ok). split.
    - intros [H|(k & x & -> & H)]; [discriminate|]. exists x. exact H.
    - intros (x & H). right. exists j, x. split; [reflexivity|exact H]. }
  destruct (hdr_ref_table (osip_hash n mod HASH_TABLE_SIZE)) as [j|] eqn:E.
  - destruct (proj1 (T j) eq_refl) as (x & Hx & Hh). replace (nth j pnames []) with x by (symmetry; apply nth_error_nth; exact Hx).
    destruct (streq x n) eqn:Es.
    + apply streq_eq in Es. subst x. split; [intros H; inversion H; subst; exact Hx|].
      intros H. assert (Some j = Some i) as R by (apply T; eexists; split; [exact H|reflexivity]). exact R.
    + split; [discriminate|]. intros H.
      assert (Some j = Some i) as R by (apply T; eexists; split; [exact H|reflexivity]).
      inversion R; subst j. rewrite H in Hx. inversion Hx; subst. rewrite (proj2 (streq_eq _ _) eq_refl) in Es. discriminate.
  - split; [discriminate|]. intros H. assert (None = Some i) as R by (apply T; eexists; split; [exact H|reflexivity]). exact R.
Qed.

(** The table is built without a collision, and a name is found exactly when it is one of the 33
    known ones. *)
Theorem C39_init : parser_init = Ok hdr_ref_table /\
  forall n, is_known_header hdr_ref_table n <> None <-> exists e, In e known_headers /\ In n (fst (fst e)).
Proof.
  split; [exact parser_init_ok|].
  assert (forallb (fun n => existsb (fun e => existsb (streq n) (fst (fst e))) known_headers) pnames = true) as A by (vm_compute; reflexivity).
  assert (forallb (fun e => forallb (fun n => existsb (streq n) pnames) (fst (fst e))) known_headers = true) as B by (vm_compute; reflexivity).
  rewrite forallb_forall in A. rewrite forallb_forall in B. intros n. split.
  - intros H. destruct (is_known_header hdr_ref_table n) as [i|] eqn:E; [|congruence].
    apply known_index in E. apply nth_error_In in E. apply A in E. apply existsb_exists in E. destruct E as (e & I & E).
    apply existsb_exists in E. destruct E as (x & I2 & E). apply streq_eq in E. subst x. exists e. split; assumption.
  - intros (e & I & I2). specialize (B e I). rewrite forallb_forall in B. specialize (B n I2).
    apply existsb_exists in B. destruct B as (x & I3 & E). apply streq_eq in E. subst x.
    apply In_nth_error in I3. destruct I3 as (i & I3). apply known_index in I3. rewrite I3. discriminate.
Qed.
Print Assumptions C39_init.

(** A known name, full or compact, is handled by the parser of that header and by no other. *)
Theorem C39_known : forall ns opt f n m hv, In (ns, opt, f) known_headers -> In n ns ->
  set_known_header m n hv = match f m hv with
                            | Ok m' => Ok m'
                            | Err c => if opt : bool then Ok m else Err c
                            | UB => UB
                            end.
Proof.
  intros ns opt f n m hv H Hn. unfold set_known_header.
  assert (forall i e, nth_error pnames i = Some n -> nth_error pconfig i = Some e -> snd (fst e) = opt -> snd e = f ->
    match is_known_header hdr_ref_table n with Some i => call_method i m hv | None => Ok (set_header m n hv) end =
    match f m hv with Ok m' => Ok m' | Err c => if opt : bool then Ok m else Err c | UB => UB end) as K.
  { intros i e H1 H2 H3 H4. apply known_index in H1. rewrite H1. unfold call_method. rewrite H2.
    destruct e as [[x o] g]. cbn [fst snd] in H3, H4. subst o g. reflexivity. }
  unfold known_headers in H. cbn [In] in H.
  repeat (destruct H as [H|H]; [inversion H; subst ns opt f; clear H; cbn [In] in Hn; repeat (destruct Hn as [Hn|Hn])|]);
    try contradiction; subst n.
  all: let rec go k := (solve [eapply (K k); reflexivity] || go constr:(S k)) in go constr:(0%nat).
Qed.
Print Assumptions C39_known.

(** Any other name is stored, with its value, at the end of the list of unknown headers. *)
Theorem C39_unknown : forall n m hv, (forall e, In e known_headers -> ~ In n (fst (fst e))) ->
  set_known_header m n hv = Ok (with_headers (m_headers m ++ [mkHeader (Some (trim n)) (option_map trim hv)]) m).
Proof.
  intros n m hv H. unfold set_known_header.
  destruct (is_known_header hdr_ref_table n) as [i|] eqn:E; [|reflexivity].
  exfalso. destruct (proj1 (proj2 C39_init n)) as (e & I & I2); [congruence|]. exact (H e I I2).
Qed.
Print Assumptions C39_unknown.

Lemma tolower_idem : forall c, tolower (tolower c) = tolower c.
Proof. intros [[] [] [] [] [] [] [] []]; reflexivity. Qed.
(** Case does not matter in the name of a header field. *)
Theorem C39_case : forall m n n' hv, map tolower n = map tolower n' -> set_multiple_header m n hv = set_multiple_header m n' hv.
Proof. intros m n n' hv H. unfold set_multiple_header. rewrite H. reflexivity. Qed.
Print Assumptions C39_case.

Example C39_example : set_multiple_header msg_init ($"CSEQ") (Some ($"7 INVITE"))
    = Ok (with_cseq (Some (mkCSeq (Some ($"INVITE")) (Some ($"7")))) msg_init)
  /\ set_multiple_header msg_init ($"Cseqq") (Some ($"7 INVITE"))
    = Ok (with_headers [mkHeader (Some ($"cseqq")) (Some ($"7 INVITE"))] msg_init).
Proof. split; vm_compute; reflexivity. Qed.

(** * C41: unknown headers *)

(** Every header in the list has a name (osip_message_set_header and osip_body_set_header always
    store one). *)
Definition named (m : message) : Prop := Forall (fun h => h_name h <> None) (m_headers m).
Definition matches (h : header) (name : str) : Prop := exists n, h_name h = Some n /\ map tolower n = map tolower name.

Lemma strcaseeq_true : forall a b, strcaseeq a b = true <-> map tolower a = map tolower b.
Proof. intros. unfold strcaseeq. apply (streq_eq (map tolower a) (map tolower b)). Qed.

Lemma byname_spec : forall l name pos, Forall (fun h => h_name h <> None) l ->
  (exists l1 h l2, l = l1 ++ h :: l2 /\ byname_from l name pos = Ok (Some (pos + slen l1, h)) /\ matches h name
     /\ Forall (fun x => ~ matches x name) l1)
  \/ (byname_from l name pos = Ok None /\ Forall (fun x => ~ matches x name) l).
Proof.
  induction l as [|h l IH]; intros name pos H; [right; split; [reflexivity|constructor]|].
  inversion H as [|? ? H1 H2]; subst. cbn [byname_from]. destruct (h_name h) as [n|] eqn:E; [|congruence].
  destruct (strcaseeq n name) eqn:C.
  - left. exists [], h, l. repeat split; [f_equal; f_equal; f_equal; unfold slen; cbn; lia| |constructor].
    exists n. split; [exact E|]. apply strcaseeq_true. exact C.
  - assert (~ matches h name) as N.
    { intros (x & E1 & E2). rewrite E in E1. inversion E1; subst x. apply strcaseeq_true in E2. congruence. }
    destruct (IH name (pos + 1) H2) as [(l1 & g & l2 & -> & Q & M & F)|(Q & F)].
    + left. exists (h :: l1), g, l2. repeat split; [|exact M|constructor; assumption].
      rewrite Q. f_equal. f_equal. f_equal. unfold slen. cbn [length]. lia.
    + right. split; [exact Q|constructor; assumption].
Qed.

(** osip_message_header_get_byname answers the first match at or after the position. *)
Theorem C41_get_byname : forall m name pos i h, named m -> 0 <= pos ->
  (get_byname m name pos = Ok (Some (i, h)) <->
   pos <= i /\ nth_error (m_headers m) (Z.to_nat i) = Some h /\ matches h name /\
   forall j g, pos <= j < i -> nth_error (m_headers m) (Z.to_nat j) = Some g -> ~ matches g name).
Proof.
  intros m name pos i h N P. unfold get_byname.
  destruct (slen (m_headers m) <=? pos) eqn:L.
  { split; [discriminate|]. intros (A & B & _). apply Z.leb_le in L.
    assert (Z.to_nat i < length (m_headers m))%nat by (apply nth_error_Some; congruence). unfold slen in L. lia. }
  replace (pos <? 0) with false by lia. apply Z.leb_gt in L. unfold slen in L.
  assert (Forall (fun h => h_name h <> None) (skipn (Z.to_nat pos) (m_headers m))) as N'.
  { unfold named in N. rewrite <- (firstn_skipn (Z.to_nat pos) (m_headers m)) in N. apply Forall_app in N. apply N. }
  assert (forall j, pos <= j -> nth_error (m_headers m) (Z.to_nat j) = nth_error (skipn (Z.to_nat pos) (m_headers m)) (Z.to_nat (j - pos))) as T.
  { intros j J. rewrite <- (firstn_skipn (Z.to_nat pos) (m_headers m)) at 1.
    rewrite nth_error_app2; rewrite firstn_length; [|lia]. f_equal. lia. }
  destruct (byname_spec _ name pos N') as [(l1 & g & l2 & E & Q & M & F)|(Q & F)]; rewrite Q.
  - split.
    + intros H. inversion H; subst i h. clear H. unfold slen in *. repeat split; [lia| |exact M|].
      * rewrite T by lia. rewrite E. rewrite nth_error_app2 by lia.
        replace (Z.to_nat (pos + Z.of_nat (length l1) - pos) - length l1)%nat with 0%nat by lia. reflexivity.
      * intros j x J X. rewrite T in X by lia. rewrite E in X. rewrite nth_error_app1 in X by lia.
        rewrite Forall_forall in F. apply F. eapply nth_error_In; eauto.
    + intros (A & B & C & D). rewrite T in B by lia. rewrite E in B.
      destruct (Z.lt_trichotomy (i - pos) (slen l1)) as [K|[K|K]].
      * unfold slen in K. rewrite nth_error_app1 in B by lia. rewrite Forall_forall in F. exfalso.
        apply (F h); [eapply nth_error_In; eauto|exact C].
      * unfold slen in *. rewrite nth_error_app2 in B by lia.
        replace (Z.to_nat (i - pos) - length l1)%nat with 0%nat in B by lia. cbn in B. inversion B; subst.
        f_equal. f_equal. f_equal. lia.
      * exfalso. apply (D (pos + slen l1) g); [unfold slen in *; lia| |exact M].
        unfold slen in *. rewrite T by lia. rewrite E. rewrite nth_error_app2 by lia.
        replace (Z.to_nat (pos + Z.of_nat (length l1) - pos) - length l1)%nat with 0%nat by lia. reflexivity.
  - split; [discriminate|]. intros (A & B & C & _). rewrite T in B by lia. rewrite Forall_forall in F. exfalso.
    apply (F h); [eapply nth_error_In; eauto|exact C].
Qed.
Print Assumptions C41_get_byname.

(** and it answers that there is none exactly when no later header has that name *)
Theorem C41_get_byname_none : forall m name pos, named m -> 0 <= pos ->
  (get_byname m name pos = Ok None <->
   forall j g, pos <= j -> nth_error (m_headers m) (Z.to_nat j) = Some g -> ~ matches g name).
Proof.
  intros m name pos N P. split.
  - intros H j g J X M.
    (* the first match at or after pos *)
    destruct (get_byname m name pos) as [[[i h]|]| |] eqn:E; try discriminate. clear H.
    unfold get_byname in E. destruct (slen (m_headers m) <=? pos) eqn:L.
    { apply Z.leb_le in L. assert (Z.to_nat j < length (m_headers m))%nat by (apply nth_error_Some; congruence). unfold slen in L. lia. }
    replace (pos <? 0) with false in E by lia. apply Z.leb_gt in L. unfold slen in L.
    assert (Forall (fun h => h_name h <> None) (skipn (Z.to_nat pos) (m_headers m))) as N'.
    { unfold named in N. rewrite <- (firstn_skipn (Z.to_nat pos) (m_headers m)) in N. apply Forall_app in N. apply N. }
    destruct (byname_spec _ name pos N') as [(l1 & h & l2 & _ & Q & _)|(_ & F)]; [congruence|].
    rewrite Forall_forall in F. apply (F g); [|exact M].
    rewrite <- (firstn_skipn (Z.to_nat pos) (m_headers m)) in X.
    rewrite nth_error_app2 in X; rewrite firstn_length in *; [|lia]. eapply nth_error_In; eauto.
  - intros H. destruct (get_byname m name pos) as [[[i h]|]| |] eqn:E; [|reflexivity| |].
    + apply C41_get_byname in E; auto. destruct E as (A & B & C & _). exfalso. exact (H i h A B C).
    + exfalso. unfold get_byname in E. destruct (slen (m_headers m) <=? pos); [discriminate|].
      destruct (pos <? 0); [discriminate|].
      assert (Forall (fun h => h_name h <> None) (skipn (Z.to_nat pos) (m_headers m))) as N'.
      { unfold named in N. rewrite <- (firstn_skipn (Z.to_nat pos) (m_headers m)) in N. apply Forall_app in N. apply N. }
      destruct (byname_spec _ name pos N') as [(l1 & h & l2 & _ & Q & _)|(Q & _)]; congruence.
    + exfalso. unfold get_byname in E. destruct (slen (m_headers m) <=? pos); [discriminate|].
      destruct (pos <? 0) eqn:Z0; [lia|].
      assert (Forall (fun h => h_name h <> None) (skipn (Z.to_nat pos) (m_headers m))) as N'.
      { unfold named in N. rewrite <- (firstn_skipn (Z.to_nat pos) (m_headers m)) in N. apply Forall_app in N. apply N. }
      destruct (byname_spec _ name pos N') as [(l1 & h & l2 & _ & Q & _)|(Q & _)]; congruence.
Qed.
Print Assumptions C41_get_byname_none.

Lemma remove_mid : forall {A} (l1 l2 : list A) h,
  firstn (length l1) (l1 ++ h :: l2) ++ skipn (S (length l1)) (l1 ++ h :: l2) = l1 ++ l2.
Proof. intros A l1 l2 h. induction l1 as [|x l1 IH]; [reflexivity|]. cbn [length firstn skipn app]. f_equal. exact IH. Qed.
(** osip_message_replace_header: the first header of that name leaves its place, the new one is
    last, the others keep their order; the rest of the message is untouched. *)
Theorem C41_replace : forall m name hv, named m ->
  let new := mkHeader (Some (trim name)) (option_map trim hv) in
  (exists l1 h l2, m_headers m = l1 ++ h :: l2 /\ matches h name /\ Forall (fun x => ~ matches x name) l1
     /\ replace_header m name hv = Ok (with_headers (l1 ++ l2 ++ [new]) m))
  \/ (Forall (fun x => ~ matches x name) (m_headers m) /\ replace_header m name hv = Ok (with_headers (m_headers m ++ [new]) m)).
Proof.
  intros m name hv N new. unfold replace_header, get_byname.
  destruct (slen (m_headers m) <=? 0) eqn:L.
  - right. cbn [res_bind]. apply Z.leb_le in L. destruct (m_headers m); [|unfold slen in L; cbn in L; lia].
    split; [constructor|reflexivity].
  - change (0 <? 0) with false. change (skipn (Z.to_nat 0) (m_headers m)) with (m_headers m). cbv iota.
    destruct (byname_spec (m_headers m) name 0 N) as [(l1 & h & l2 & E & Q & M & F)|(Q & F)]; rewrite Q; cbn [res_bind].
    + left. exists l1, h, l2. repeat split; auto. f_equal. f_equal. rewrite E.
      replace (Z.to_nat (0 + slen l1)) with (length l1) by (unfold slen; lia).
      rewrite remove_mid. rewrite <- app_assoc. reflexivity.
    + right. split; [exact F|reflexivity].
Qed.
Print Assumptions C41_replace.

(** The setters keep every header named, so the hypothesis above holds in every message built
    through them. *)
Theorem C41_named : forall m name hv, named m ->
  named (set_header m name hv) /\ named (set_topheader m name hv)
  /\ exists m', replace_header m name hv = Ok m' /\ named m'.
Proof.
  intros m name hv N. unfold named in *. repeat split.
  - cbn. apply Forall_app. split; [exact N|]. constructor; [discriminate|constructor].
  - cbn. constructor; [discriminate|exact N].
  - destruct (C41_replace m name hv N) as [(l1 & h & l2 & E & _ & _ & R)|(_ & R)]; rewrite R; eexists; (split; [reflexivity|]); cbn.
    + rewrite E in N. apply Forall_app in N. destruct N as [N1 N2]. inversion N2; subst.
      apply Forall_app. split; [exact N1|]. apply Forall_app. split; [assumption|]. constructor; [discriminate|constructor].
    + apply Forall_app. split; [exact N|]. constructor; [discriminate|constructor].
Qed.
Print Assumptions C41_named.

(** A negative position reaches past the start of the list: osip_list_get answers NULL, which is
    dereferenced (osip_header.c 189-190). *)
Theorem C41_negative_position_ub : forall m name pos, pos < 0 -> get_byname m name pos = UB.
Proof. intros. unfold get_byname. replace (slen (m_headers m) <=? pos) with false by (unfold slen; lia). replace (pos <? 0) with true by lia. reflexivity. Qed.

Example C41_example :
  let m := with_headers [mkHeader (Some ($"x")) None; mkHeader (Some ($"Subject")) (Some ($"a")); mkHeader (Some ($"subject")) (Some ($"b"))] msg_init in
  named m /\ get_byname m ($"SUBJECT") 0 = Ok (Some (1, mkHeader (Some ($"Subject")) (Some ($"a"))))
  /\ get_byname m ($"SUBJECT") 2 = Ok (Some (2, mkHeader (Some ($"subject")) (Some ($"b"))))
  /\ get_byname m ($"y") 0 = Ok None
  /\ replace_header m ($"suBject") (Some ($" c")) = Ok (with_headers [mkHeader (Some ($"x")) None; mkHeader (Some ($"subject")) (Some ($"b")); mkHeader (Some ($"suBject")) (Some ($"c"))] msg_init).
Proof. cbn zeta. split; [repeat constructor; discriminate|]. repeat split; vm_compute; reflexivity. Qed.

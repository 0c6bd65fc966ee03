(** The print/parse round trip of whole messages (C57). *)
From Coq Require Import String ZArith NArith Ascii Bool List Lia ZifyBool ZifyNat.
From Verif Require Import Base Str StrLemmas Types MemModel MemLemmas CString CStringLemmas SafeLemmas PortModel PortProps ViaModel UriModel EscapeProps UriProps UriRound HdrModel HdrProps AuthModel AuthSafe ViaRound MsgFields MsgModel MsgProps MsgSplit MsgSafe MsgFold MsgBody MsgPrint MsgText MsgStart MsgRound.
Import ListNotations.
Open Scope Z_scope.

(** a header of another name, in lower case as the parser stores it *)
Definition other_wf (h : header) : Prop :=
  exists n v, h = mkHeader (Some n) (Some v) /\ plain_name n /\ map tolower n = n /\
    (forall e, In e known_headers -> ~ In n (fst (fst e))) /\ trimmed v /\ without [cr; lf; NUL] v /\ comma_ok n v.
Lemma lower_upcase : forall c, tolower (if (97 <=? code c)%N && (code c <=? 122)%N then chr (code c - 32) else c) = tolower c.
Proof. intros [[] [] [] [] [] [] [] []]; reflexivity. Qed.
Lemma upcase_special : forall c d, In d [":"%char; cr; lf; NUL; sp; tab] -> (if (97 <=? code c)%N && (code c <=? 122)%N then chr (code c - 32) else c) = d -> c = d.
Proof.
  intros c d I E. destruct ((97 <=? code c)%N && (code c <=? 122)%N) eqn:L; [exfalso|exact E].
  assert (65 <= code d <= 90)%N as R by (subst d; unfold code, chr in *; rewrite N_ascii_embedding by lia; lia). revert R. cbn [In] in I.
  repeat (destruct I as [<-|I]; [vm_compute; intros [X Y]; first [apply X; reflexivity|apply Y; reflexivity]|]). contradiction.
Qed.
Lemma upcase_blank : forall c, is_blank (if (97 <=? code c)%N && (code c <=? 122)%N then chr (code c - 32) else c) = is_blank c.
Proof. intros [[] [] [] [] [] [] [] []]; reflexivity. Qed.
Lemma upcase_name : forall n, plain_name n -> plain_name (upcase_first n) /\ map tolower (upcase_first n) = map tolower n.
Proof.
  intros [|c n] (N1 & N2 & N3); [congruence|]. cbn [upcase_first]. split; [|cbn [map]; rewrite lower_upcase; reflexivity]. split; [discriminate|]. split.
  - apply trimmed_iff in N2. destruct N2 as [N2|[N2 N4]]; [discriminate|]. apply trimmed_iff. right. cbn [hd] in N2 |- *. split; [rewrite upcase_blank; exact N2|].
    destruct n as [|d n]; [cbn [last] in N4 |- *; rewrite upcase_blank; exact N4|exact N4].
  - intros d I [J|J]; [|apply (N3 d I); right; exact J]. apply (N3 d I). left. apply (upcase_special c d); [cbn in I |- *; tauto|exact J].
Qed.
Lemma others_run : forall l, Forall other_wf l -> runs (others_text l) (fun _ => True) (fun m => with_headers (m_headers m ++ l) m).
Proof.
  intros l H. induction H as [|x l (n & v & -> & N & LO & KN & T & W & CO) H (fs & R1 & R2 & R3)].
  - exists []. split; [reflexivity|]. split; [constructor|]. intros m _. cbn [store]. rewrite app_nil_r. destruct m. reflexivity.
  - destruct (upcase_name n N) as [UN UL]. exists ((upcase_first n, sp :: v) :: fs). split; [|split; [constructor; [|exact R2]|]].
    + unfold others_text, many in *. cbn [map cat_all header_text h_name h_value res_bind]. rewrite R1. cbn [res_bind fields_text flat_map field_text fst snd]. f_equal. f_equal.
      unfold line, field_text. cbn [fst snd]. destruct N as (N & _). destruct n as [|c n]; [congruence|]. cbn [app upcase_first]. f_equal. rewrite <- !app_assoc. reflexivity.
    + destruct UN as (U1 & U2 & U3). split; [exact U1|]. split; [exact U2|]. split; [exact U3|]. cbn [fst snd]. split; [discriminate|].
      intros c I [J|J]; [subst c; cbn in I; destruct I as [I|[I|[I|[]]]]; discriminate|exact (W c I J)].
    + intros m _. cbn [store]. rewrite trim_value by exact T. rewrite set_one by (auto; rewrite UL, LO; exact CO). rewrite UL, LO. rewrite C39_unknown by exact KN. cbn [res_bind option_map].
      destruct N as (_ & NT & _). rewrite NT, T. rewrite R3 by exact I. apply (f_equal Ok). destruct m. unfold with_headers. cbn. rewrite <- app_assoc. reflexivity.
Qed.

(** *** Whole messages *)
(** the start line: see C44 *)
Definition start_wf (m : message) : Prop :=
  (exists meth u t v, m_method m = Some meth /\ m_uri m = Some u /\ m_version m = Some v /\ m_status m = 0 /\ m_reason m = None /\
     method_ok meth /\ without [cr; lf; NUL] meth /\ version_ok v /\
     uri_to_str u = Ok t /\ uri_parse t = Ok u /\ 2 <= slen t /\ without [sp; tab; cr; lf; NUL] t)
  \/ (exists v r, m_method m = None /\ m_uri m = None /\ m_version m = Some v /\ m_reason m = Some r /\ 100 <= m_status m <= 699 /\
     without [sp; cr; lf; NUL] v /\ (exists t, v = $"SIP/" ++ t) /\ without [cr; lf; NUL] r).
(** no body, or one body, and then a Content-Type that is not multipart *)
Definition body_wf (m : message) : Prop :=
  m_bodies m = [] \/ exists b, m_bodies m = [mkBody b [] None] /\ b <> [] /\ single m.
Record message_wf (m : message) : Prop := {
  mw_start : start_wf m; mw_headers : headers_wf m; mw_others : Forall other_wf (m_headers m); mw_body : body_wf m }.

Definition with_startline (m m0 : message) : message :=
  with_reason (m_reason m) (with_status (m_status m) (with_version (m_version m) (with_uri (m_uri m) (with_method (m_method m) m0)))).
Lemma version_without : forall v, version_ok v -> without [cr; lf; NUL] v.
Proof.
  intros v (d & -> & _ & D) c I J. apply in_app_or in J. destruct J as [J|J].
  - revert J. change ($"SIP/") with ["S"; "I"; "P"; "/"]%char. cbn [In] in *. intuition (subst; discriminate).
  - destruct (D c J) as [X|X]; cbn [In] in I; intuition (subst; discriminate).
Qed.
Lemma without_app : forall cs a b, without cs a -> without cs b -> without cs (a ++ b).
Proof. intros cs a b A B c I J. apply in_app_or in J. destruct J as [J|J]; [exact (A c I J)|exact (B c I J)]. Qed.
Lemma digits_without : forall d, digit_string d -> without [cr; lf; NUL; sp; tab] d.
Proof. intros d [_ D] c I J. rewrite Forall_forall in D. specialize (D c J). revert D. cbn [In] in I. repeat (destruct I as [<-|I]; [vm_compute; intros [X Y]; first [apply X; reflexivity|apply Y; reflexivity]|]). contradiction. Qed.
Lemma start_run : forall m, start_wf m -> exists st, startline_text m = Ok st /\ st <> [] /\ without [cr; lf; NUL] st /\
  forall x, startline_parse (st ++ CRLF ++ x) msg_init = Ok (with_startline m msg_init, slen st + 2).
Proof.
  intros m [(meth & u & t & v & E1 & E2 & E3 & E4 & E5 & M1 & M2 & V & T1 & T2 & T3 & T4)|(v & r & E1 & E2 & E3 & E4 & S & V1 & V2 & R)].
  - assert (version_text m = v) as EV by (unfold version_text; rewrite E3; reflexivity).
    assert (forall x, exists l, startline_to_str m = Ok l /\ startline_parse (l ++ CRLF ++ x) msg_init = Ok (with_startline m msg_init, slen l + 2)) as K.
    { intros x. destruct (C44_request m meth u t msg_init x) as (l & L1 & L2); auto.
      - split; [intros ->; change (slen []) with 0 in T3; lia|]. split; [apply T4; cbn; tauto|]. intros I. exact (T4 NUL ltac:(cbn; tauto) I).
      - apply no_blank_trimmed. apply Forall_forall. intros c I. destruct (is_blank c) eqn:B; [exfalso|reflexivity]. apply (T4 c); [|exact I]. revert B. clear.
        unfold is_blank. intros B. repeat (apply orb_prop in B; destruct B as [B|B]); apply Ascii.eqb_eq in B; subst c; cbn; tauto.
      - rewrite EV. exact V.
      - exists l. split; [exact L1|]. rewrite L2. unfold with_startline. rewrite E1, E2, E3, E4, E5, EV. reflexivity. }
    destruct (K []) as (st & ST & _). exists st. rewrite C40_startline in ST. split; [exact ST|]. split; [|split].
    + unfold startline_text in ST. rewrite E1, E2, T1 in ST. cbn [res_bind] in ST. destruct M1 as ((M1 & _) & _). intros ->. destruct meth; [congruence|discriminate].
    + unfold startline_text in ST. rewrite E1, E2, T1, EV in ST. cbn [res_bind] in ST. assert (meth ++ $" " ++ t ++ $" " ++ v = st) as <- by congruence.
      assert (without [cr; lf; NUL] ($" ")) as SPW by (intros c I [J|[]]; subst c; cbn in I; destruct I as [I|[I|[I|[]]]]; discriminate).
      repeat apply without_app; auto; [|apply version_without, V]. eapply without_incl; [exact T4|intros x; cbn; tauto].
    + intros x. destruct (K x) as (l & L1 & L2). rewrite C40_startline in L1. assert (l = st) as -> by congruence. exact L2.
  - assert (version_text m = v) as EV by (unfold version_text; rewrite E3; reflexivity).
    assert (forall x, exists l, startline_to_str m = Ok l /\ startline_parse (l ++ CRLF ++ x) msg_init = Ok (with_startline m msg_init, slen l + 2)) as K.
    { intros x. destruct (C44_response m r msg_init x) as (l & L1 & L2); auto.
      - split; [apply R; cbn; tauto|]. split; [apply R; cbn; tauto|]. intros I. exact (R NUL ltac:(cbn; tauto) I).
      - rewrite EV. split; [destruct V2 as (y & ->); discriminate|]. split; [apply V1; cbn; tauto|]. intros I. exact (V1 NUL ltac:(cbn; tauto) I).
      - rewrite EV. exact V2.
      - exists l. split; [exact L1|]. rewrite L2. unfold with_startline. rewrite E1, E2, E3, E4, EV. reflexivity. }
    destruct (K []) as (st & ST & _). exists st. rewrite C40_startline in ST. split; [exact ST|]. split; [|split].
    + unfold startline_text in ST. rewrite E1, E4, EV in ST. destruct (_ && _); [|discriminate]. destruct V2 as (y & V2). rewrite V2 in ST. intros ->. discriminate.
    + unfold startline_text in ST. rewrite E1, E4, EV in ST. destruct (_ && _); [|discriminate]. assert (v ++ $" " ++ sprintf_i (m_status m) ++ $" " ++ r = st) as <- by congruence.
      assert (without [cr; lf; NUL] ($" ")) as SPW by (intros c I [J|[]]; subst c; cbn in I; destruct I as [I|[I|[I|[]]]]; discriminate).
      repeat apply without_app; auto; [eapply without_incl; [exact V1|intros x; cbn; tauto]|].
      eapply without_incl; [apply digits_without, sprintf_i_spec; lia|intros x; cbn; tauto].
    + intros x. destruct (K x) as (l & L1 & L2). rewrite C40_startline in L1. assert (l = st) as -> by congruence. exact L2.
Qed.

(** A well formed message is printed, and if the text has less than a million bytes, parsing it
    gives the same message, its Content-Length being the size of its body. *)
Theorem C57_round_trip : forall m, message_wf m -> exists s, message_to_str false m = Ok s /\
  (slen s <= 999999 -> exists d, digit_string d /\ decimal d = slen (flat_map b_body (m_bodies m)) /\
     message_parse s = Ok (with_content_length (Some (Some d)) m)).
Proof.
  intros m [ST HW OW BW]. destruct (start_run m ST) as (st & S1 & S2 & S3 & S4).
  assert (start_only (with_startline m msg_init)) as SO by (repeat eexists).
  destruct (headers_run_all m _ HW SO) as (l1 & H1 & H2 & H3). destruct (others_run _ OW) as (l2 & O1 & O2 & O3).
  assert (exists b, bodies_text None (m_bodies m) = Ok b /\ b = flat_map b_body (m_bodies m) /\ (m_bodies m <> [] -> boundary_of m = Ok None) /\ (b = [] /\ m_bodies m = [] \/ b <> [] /\ m_bodies m = [mkBody b [] None] /\ single m)) as (b & B1 & B2 & B3 & B4).
  { destruct BW as [->|(b & -> & NB & SI)]; [exists []; split; [reflexivity|]; split; [reflexivity|]; split; [congruence|left; auto]|].
    exists b. assert (part_text (mkBody b [] None) = Ok b) as PT. { unfold part_text. cbn [b_body b_ctype b_headers]. destruct b; [congruence|]. cbn. rewrite app_nil_r. reflexivity. }
    split; [cbn [bodies_text map cat_all]; rewrite PT; cbn [res_bind]; rewrite app_nil_r; reflexivity|]. split; [cbn; rewrite app_nil_r; reflexivity|]. split; [|right; auto].
    intros _. unfold boundary_of. destruct SI as (c & ty & C1 & C2 & C3 & C4). rewrite C1. destruct (m_mime_version m); [|reflexivity]. destruct c as [ct cs cp]. cbn [ct_type] in C2. rewrite C2.
    replace (strcaseeq ty ($"multipart")) with false; [reflexivity|]. symmetry. destruct (strcaseeq ty ($"multipart")) eqn:Q; [|reflexivity]. exfalso. apply C4.
    unfold strcaseeq in Q. apply streq_eq in Q. rewrite Q. reflexivity. }
  assert (exists s, message_to_str false m = Ok s) as (s & PS).
  { rewrite C40_message. unfold message_text. rewrite S1, H1, O1. cbn [res_bind]. destruct (m_bodies m) as [|bd l] eqn:MB; [eexists; reflexivity|]. rewrite B3 by discriminate. cbn [res_bind]. rewrite B1. cbn [res_bind].
    match goal with |- exists s, ?r = Ok s => destruct r as [s|c|] eqn:Q end; [eauto| |].
    - exfalso. unfold wr_range in Q. destruct (_ || _) in Q; discriminate.
    - exfalso. revert Q. pose proof (sprintf_len_any (slen b)) as DL. revert DL. generalize (sprintf_i (int32 (slen b))). intros dd DD. unfold wr_range.
      rewrite (proj2 (orb_false_iff _ _)); [discriminate|]. change (Z.of_nat (length dd)) with (slen dd). match goal with |- context [Z.of_nat (length ?x)] => change (Z.of_nat (length x)) with (slen x) end.
      pose proof (slen_nonneg _ dd). pose proof (slen_nonneg _ b). pose proof (slen_nonneg _ (line [] st)). pose proof (slen_nonneg _ (fields_text l1)). pose proof (slen_nonneg _ (fields_text l2)).
      rewrite !slen_app. change (slen ($"Content-Length:      ")) with 21. change (slen CRLF) with 2. split; lia. }
  exists s. split; [exact PS|]. intros SM. destruct (C46_partial m s PS SM) as (head & pad & digits & b' & ES & AB & DS & DV & (st' & h' & x' & X1 & X2 & X3 & X4) & XB).
  assert (st' = st) as -> by congruence. assert (h' = fields_text l1) as -> by congruence. assert (x' = fields_text l2) as -> by congruence.
  assert (b' = b) as ->. { destruct (m_bodies m) as [|bd l] eqn:MB; [cbn in B2; congruence|]. destruct XB as (bo & Y1 & Y2). rewrite B3 in Y1 by discriminate. injection Y1 as <-. congruence. }
  exists digits. split; [exact DS|]. split; [rewrite <- B2; exact DV|].
  set (fl := (l1 ++ l2) ++ [($"Content-Length", pad ++ digits)]).
  assert (s = st ++ CRLF ++ fields_text fl ++ CRLF ++ b) as ->.
  { rewrite ES, X4. unfold fl. rewrite !fields_app. change (fields_text [($"Content-Length", pad ++ digits)]) with (($"Content-Length:" ++ (pad ++ digits) ++ CRLF) ++ []). rewrite app_nil_r, <- !app_assoc. reflexivity. }
  assert (trim (pad ++ digits) = digits) as TR.
  { pose proof (trim_app_blanks pad digits []) as TA. rewrite app_nil_r in TA. apply TA; [|reflexivity|].
    - apply forallb_forall. intros c I. unfold all_blank in AB. rewrite Forall_forall in AB. rewrite (AB c I). reflexivity.
    - apply no_blank_trimmed. apply Forall_forall. intros c I. destruct (is_blank c) eqn:Q; [exfalso|reflexivity]. apply (digits_without digits DS c); [|exact I]. revert Q. clear.
      unfold is_blank. intros B. repeat (apply orb_prop in B; destruct B as [B|B]); apply Ascii.eqb_eq in B; subst c; cbn; tauto. }
  assert (store (with_startline m msg_init) fl = Ok (with_content_length (Some (Some digits)) (with_headers (m_headers m) (with_known m (with_startline m msg_init))))) as SL.
  { unfold fl. rewrite !store_app, H3. cbn [res_bind]. rewrite O3 by exact I. cbn [res_bind store]. rewrite TR.
    rewrite set_one. 2:{ rewrite <- TR. apply trim_trimmed. }
    2:{ left. intros IC. destruct DS as [_ D]. rewrite Forall_forall in D. specialize (D _ IC). revert D. vm_compute. intros [X _]. apply X. reflexivity. }
    rewrite (C39_known [$"content-length"; $"l"] false set_content_length); [|in_known|left; reflexivity].
    rewrite clen_of_digits; [reflexivity|exact DS|reflexivity]. }
  match type of SL with store ?a _ = Ok ?c => rewrite (parse_text st fl b a c digits S2 S3 S4) end; [|  |exact SL|reflexivity|exact DS|exact DV| |].
  - f_equal. destruct B4 as [(-> & MB)|(NB & MB & SI)].
    + destruct m. cbn in MB |- *. rewrite MB. reflexivity.
    + destruct b as [|b0 b1]; [congruence|]. destruct m. cbn in MB |- *. rewrite MB. reflexivity.
  - unfold fl. apply Forall_app. split; [apply Forall_app; split; assumption|]. constructor; [|constructor]. destruct (name_lit ($"Content-Length") eq_refl) as (N1 & N2 & N3).
    split; [exact N1|]. split; [exact N2|]. split; [exact N3|]. cbn [snd]. split; [destruct DS as [D _]; destruct pad; [exact D|discriminate]|].
    apply without_app; [|eapply without_incl; [apply digits_without, DS|intros x; cbn; tauto]]. intros c I J. unfold all_blank in AB. rewrite Forall_forall in AB. rewrite (AB c J) in I. cbn in I. destruct I as [I|[I|[I|[]]]]; discriminate.
  - rewrite !slen_app in SM. pose proof (slen_nonneg _ st). pose proof (slen_nonneg _ CRLF). pose proof (slen_nonneg _ (fields_text fl)). lia.
  - destruct B4 as [(-> & _)|(_ & _ & SI)]; [left; reflexivity|right]. exact SI.
Qed.
Print Assumptions C57_round_trip.

(** A request with several headers and a body *)
Definition ex_message : message :=
  let na d h ps := mkNA d (Some (mkUri (Some ($"sip")) (Some ($"bob")) None (Some h) None [] [] None)) ps in
  with_bodies [mkBody ($"hello
world") [] None]
  (with_headers [mkHeader (Some ($"subject")) (Some ($"lunch; soon")); mkHeader (Some ($"max-forwards")) (Some ($"70"))]
  (with_content_type (Some (mkCT (Some ($"text")) (Some ($"plain")) []))
  (with_vias [mkVia (Some ($"2.0")) (Some ($"UDP")) (Some ($"h.example")) (Some ($"5062")) None [($"branch", Some ($"z9hG4bK77")); ($"rport", None)];
              mkVia (Some ($"2.0")) (Some ($"TCP")) (Some ($"g.example")) None None []]
  (with_from (Some (na (Some ($"""A, B""")) ($"a.example") [($"tag", Some ($"1"))]))
  (with_to (Some (na None ($"b.example") []))
  (with_contacts [na (Some ($"""C, D""")) ($"c.example") []]
  (with_call_id (Some (mkCid (Some ($"77")) (Some ($"h.example"))))
  (with_cseq (Some (mkCSeq (Some ($"INVITE")) (Some ($"12"))))
  (with_version (Some ($"SIP/2.0"))
  (with_uri (Some (mkUri (Some ($"sip")) (Some ($"bob")) None (Some ($"b.example")) None [] [] None))
  (with_method (Some ($"INVITE")) msg_init))))))))))).
Lemma survive_now : forall A name (f : A -> res str) (p : str -> res A) x t, f x = Ok t -> p t = Ok x ->
  negb (streq t []) && streq (trim t) t && forallb (fun c => negb (existsb (Ascii.eqb c) t)) [cr; lf; NUL] = true -> comma_ok name t -> survives name f p x.
Proof.
  intros A name f p x t F P V C. apply andb_prop in V. destruct V as [V V3]. apply andb_prop in V. destruct V as [V1 V2]. exists t. split; [exact F|]. split; [exact P|]. split; [|exact C].
  split; [intros ->; discriminate|]. split; [apply streq_eq; exact V2|apply chk_without; exact V3].
Qed.
Lemma no_comma : forall name t, existsb (Ascii.eqb ",") t = false -> comma_ok name t.
Proof. intros name t H. left. intros I. rewrite <- not_true_iff_false in H. apply H. apply existsb_exists. exists ","%char. auto. Qed.
Lemma other_now : forall n v, negb (streq n []) && streq (trim n) n && forallb (fun c => negb (existsb (Ascii.eqb c) n)) [":"%char; cr; lf; NUL] = true -> map tolower n = n ->
  forallb (fun e => negb (existsb (streq n) (fst (fst e)))) known_headers = true -> trim v = v -> forallb (fun c => negb (existsb (Ascii.eqb c) v)) [cr; lf; NUL] = true ->
  existsb (Ascii.eqb ",") v = false -> other_wf (mkHeader (Some n) (Some v)).
Proof.
  intros n v V L N T W C. apply andb_prop in V. destruct V as [V V3]. apply andb_prop in V. destruct V as [V1 V2]. exists n, v. split; [reflexivity|].
      split; [split; [intros ->; discriminate|]; split; [apply streq_eq; exact V2|apply chk_without; exact V3]|]. split; [exact L|].
      split; [|split; [exact T|]; split; [apply chk_without; exact W|apply no_comma; exact C]].
      intros e I J. rewrite forallb_forall in N. specialize (N e I). apply negb_true_iff in N. rewrite <- not_true_iff_false in N. apply N. apply existsb_exists. exists n. split; [exact J|apply streq_refl].
Qed.
Ltac now_survives := eapply survive_now; [vm_compute; reflexivity|vm_compute; reflexivity|vm_compute; reflexivity|].
Example C57_example : message_wf ex_message /\ exists s, message_to_str false ex_message = Ok s /\ slen s <= 999999.
Proof.
  split; [|eexists; split; [vm_compute; reflexivity|vm_compute; discriminate]]. constructor.
  - left. eexists _, _, _, _. split; [reflexivity|]. split; [reflexivity|]. split; [reflexivity|]. split; [reflexivity|]. split; [reflexivity|].
    split; [|split; [apply chk_without; reflexivity|split; [|split; [vm_compute; reflexivity|split; [vm_compute; reflexivity|split; [vm_compute; discriminate|apply chk_without; reflexivity]]]]]].
    + split; [split; [discriminate|]; split; [intros I; vm_compute in I; intuition discriminate|intros I; vm_compute in I; intuition discriminate]|]. intros t E. discriminate E.
    + exists ($"2.0"). split; [reflexivity|]. split; [vm_compute; discriminate|]. intros c [<-|[<-|[<-|[]]]]; [left|right|left]; reflexivity.
  - constructor; try solve [constructor].
    + constructor; [now_survives; apply no_comma; reflexivity|]. constructor; [now_survives; apply no_comma; reflexivity|constructor].
    + now_survives. right. left. vm_compute. tauto.
    + now_survives. apply no_comma. reflexivity.
    + now_survives. apply no_comma. reflexivity.
    + now_survives. apply no_comma. reflexivity.
    + constructor; [|constructor]. now_survives. right. right.
      change (element ($"""C, D"" <sip:bob@c.example>")). apply (el_quoted ($"C, D") ($" <sip:bob@c.example>")); [intros I; vm_compute in I; intuition discriminate|].
      apply (el_char " "%char); [discriminate|discriminate|discriminate|]. apply (el_uri ($"sip") ($"bob@c.example") []); [| |constructor].
      * left. reflexivity.
      * repeat (apply ut_char; [discriminate|discriminate|]). apply ut_nil.
    + now_survives. apply no_comma. reflexivity.
  - constructor; [apply other_now; vm_compute; reflexivity|]. constructor; [apply other_now; vm_compute; reflexivity|constructor].
  - right. eexists. split; [reflexivity|]. split; [discriminate|]. eexists _, _. split; [reflexivity|]. split; [reflexivity|]. split; [discriminate|]. vm_compute. discriminate.
Qed.

(** Findings.  The boundary lines of a multipart message are printed only if the message has a
    Mime-Version header; without it the parts are put one after the other, and the parser refuses
    the text.  A part without headers is printed without the empty line that ends its headers, and
    the parser refuses the text too.  *)
Definition ex_multipart (mime : option (option str)) (parts : list body) : message :=
  with_mime_version mime
  (with_content_type (Some (mkCT (Some ($"multipart")) (Some ($"mixed")) [($"boundary", Some ($"xyz"))]))
  (with_bodies parts ex_message)).
Definition ex_parts (c : option content_type) : list body := [mkBody ($"one") [] c; mkBody ($"two") [] c].
Theorem C57_multipart_refuted : let ct := Some (mkCT (Some ($"text")) (Some ($"plain")) []) in
  (exists s m, message_to_str false (ex_multipart (Some (Some ($"1.0"))) (ex_parts ct)) = Ok s /\ message_parse s = Ok m /\ m_bodies m = ex_parts ct) /\
  (exists s, message_to_str false (ex_multipart None (ex_parts None)) = Ok s /\ (exists head, s = head ++ CRLF ++ CRLF ++ $"onetwo") /\ exists c, message_parse s = Err c) /\
  (exists s, message_to_str false (ex_multipart (Some (Some ($"1.0"))) (ex_parts None)) = Ok s /\ exists c, message_parse s = Err c).
Proof.
  split; [|split].
  - eexists _, _. split; [vm_compute; reflexivity|]. split; vm_compute; reflexivity.
  - eexists. split; [vm_compute; reflexivity|]. split; [|eexists; vm_compute; reflexivity].
    match goal with |- exists h, ?s = _ => exists (firstn (length s - 10) s) end. vm_compute. reflexivity.
  - eexists. split; [vm_compute; reflexivity|]. eexists. vm_compute. reflexivity.
Qed.
Print Assumptions C57_multipart_refuted.

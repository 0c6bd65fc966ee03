(** Session descriptions: what users of sdp_message.h rely on. *)
From Coq Require Import String ZArith NArith Ascii Bool List Lia ZifyBool ZifyNat.
From Verif Require Import Base Str SdpModel SdpSpec SdpLemmas SdpRound SdpSafe SdpPrint SdpAcc SdpAccSpec.
Import ListNotations.
Open Scope Z_scope.

(** A description with most of the lines, used as an example *)
Definition ex_lines : list string :=
  ["v=0"; "o=alice 2890844526 2890844526 IN IP4 host.example.com"; "s=talk"; "i=about"; "e=a@b.c";
   "p=+1 2"; "c=IN IP4 224.2.1.1/127/3"; "b=AS:64"; "t=0 0"; "r=7d 1h 0 25h"; "t=5 6"; "z=0 1h";
   "k=clear:key"; "a=recvonly"; "a=tool:x:y"; "m=audio 49170/2 RTP/AVP 0 8"; "i=voice";
   "c=IN IP4 1.2.3.4"; "b=CT:1"; "a=rtpmap:0 PCMU/8000"; "m=video 51372 RTP/AVP 31"]%string.
Definition ex_text : str := flat_map (fun l => $l ++ CRLF) ex_lines.

(** *** C58: reading a description *)
(** Whatever the bytes are, if the text does not end in the middle of a CR LF the parser answers
    with a description or an error, having read inside the text only, in a bounded number of steps *)
Theorem C58_parse_safe_partial : forall buf, last_line_whole buf -> sdp_parse sdp_init buf <> UB.
Proof. exact sdp_parse_safe. Qed.
Example C58_ex : last_line_whole ex_text /\ exists d, sdp_parse sdp_init ex_text = Ok d /\ length (m_medias d) = 2%nat.
Proof.
  split.
  - intros p e _ _. exists (firstn (length ex_text - 2) ex_text). vm_compute. reflexivity.
  - eexists. split; [vm_compute; reflexivity|]. reflexivity.
Qed.
(** Otherwise it may read past the end: the last line is an "m=" without payload ended by a single
    LF *)
Theorem C58_parse_safe_refuted : exists buf, cstr buf /\ sdp_parse sdp_init buf = UB.
Proof.
  exists (flat_map (fun l => $l ++ CRLF) ["v=0"; "o=- 1 1 IN IP4 h"; "t=0 0"]%string ++ $"m=audio 0 RTP/AVP" ++ [lf]).
  split; [|vm_compute; reflexivity].
  intros H. vm_compute in H. repeat (destruct H as [H|H]; [discriminate H|]). exact H.
Qed.

(** *** C59: what an accepted text gives *)
(** An accepted text gives a description with a version, an origin and a time, every value of which
    is one that can be written on a line of its own *)
Theorem C59_accepted_complete : forall buf d, sdp_parse sdp_init buf = Ok d -> sdp_ok d.
Proof. exact sdp_parse_ok. Qed.
Lemma ok_writable : forall d, sdp_ok d -> writable d = true.
Proof.
  assert (R : forall P x, required P x -> set x = true) by (intros P x (s & -> & _); reflexivity).
  assert (N : forall x : option str, x <> None -> set x = true) by (intros [x|] H; [reflexivity|congruence]).
  assert (C : forall c, connection_ok c -> connection_set c = true).
  { intros c (A & B & D & _). unfold connection_set. rewrite (R _ _ A), (R _ _ B), (R _ _ D). reflexivity. }
  assert (B : forall c, bandwidth_ok c -> bandwidth_set c = true).
  { intros c (A & D). unfold bandwidth_set. rewrite (R _ _ A), (R _ _ D). reflexivity. }
  assert (T : forall c, time_ok c -> time_set c = true).
  { intros c (A & D & _). unfold time_set. rewrite (R _ _ A), (R _ _ D). reflexivity. }
  assert (K : forall c, key_ok c -> key_set c = true).
  { intros c (A & _). unfold key_set. rewrite (R _ _ A). reflexivity. }
  assert (A : forall c, attribute_ok c -> attribute_set c = true).
  { intros c (A & _). unfold attribute_set. rewrite (R _ _ A). reflexivity. }
  assert (FB : forall X (P : X -> Prop) b, (forall x, P x -> b x = true) -> forall l, Forall P l -> forallb b l = true).
  { intros X P b H l F. induction F; cbn; auto. rewrite H, IHF; auto. }
  assert (FO : forall X (P : X -> Prop) b, (forall x, P x -> b x = true) -> forall l, optional P l -> opt_set b l = true).
  { intros X P b H [x|] F; cbn; auto. }
  assert (M : forall c, media_ok c -> media_set c = true).
  { intros c (M1 & M2 & M3 & M4 & M5 & M6 & M7 & M8 & M9 & M10). unfold media_set.
    rewrite (R _ _ M1), (R _ _ M2). destruct M4 as [M4|[M4 _]]; rewrite (R _ _ M4);
    rewrite (FB _ _ _ C _ M7), (FB _ _ _ B _ M8), (FO _ _ _ K _ M9), (FB _ _ _ A _ M10); reflexivity. }
  intros d [(C1 & C2 & C3 & C4 & C5 & C6 & C7 & C8) (P1 & P2 & P3 & P4 & P5 & P6 & P7 & P8 & P9 & P10 & P11 & P12 & P13 & P14 & P15 & P16 & P17 & P18 & P19)].
  unfold writable. rewrite (N _ C1), (N _ C2), (N _ C3), (N _ C4), (N _ C5), (N _ C6), (N _ C7).
  rewrite (FO _ _ _ C _ P13), (FB _ _ _ B _ P14), (FB _ _ _ T _ P15), (FO _ _ _ K _ P17), (FB _ _ _ A _ P18), (FB _ _ _ M _ P19).
  reflexivity.
Qed.

(** *** C60: writing a description *)
(** For every description whose text is short enough for [int] sizes, the printer writes exactly
    the lines of the description, or fails because something that must be on a line is missing *)
Theorem C60_print : forall d, short (sdp_text d) ->
  (writable d = true -> sdp_to_str d = Ok (sdp_text d))
  /\ (writable d = false -> sdp_to_str d = Err OSIP_UNDEFINED_ERROR).
Proof. intros d H. rewrite sdp_print by auto. split; intros ->; reflexivity. Qed.
Example C60_ex : exists d, sdp_parse sdp_init ex_text = Ok d /\ writable d = true /\ short (sdp_text d) /\ sdp_text d = ex_text.
Proof. eexists. split; [vm_compute; reflexivity|]. split; [vm_compute; reflexivity|]. split; vm_compute; [discriminate|reflexivity]. Qed.
Example C60_ex_missing : sdp_to_str (with_v (Some $"0") sdp_init) = Err OSIP_UNDEFINED_ERROR.
Proof. reflexivity. Qed.

(** *** C61: reading what was written *)
(** A description made of writable values is read back from its text unchanged *)
Theorem C61_round_trip : forall d t, sdp_ok d -> short (sdp_text d) ->
  sdp_to_str d = Ok t -> sdp_parse sdp_init t = Ok d.
Proof.
  intros d t H S E. rewrite sdp_print in E by auto. rewrite ok_writable in E by auto. injection E as <-.
  now apply sdp_round.
Qed.
(** and such a description can be written *)
Theorem C61_can_write : forall d, sdp_ok d -> short (sdp_text d) -> sdp_to_str d = Ok (sdp_text d).
Proof. intros d H S. rewrite sdp_print, ok_writable by auto. reflexivity. Qed.
(** So a received text can be read, written and read again without loss, and writing again gives
    the same text *)
Theorem C61_received : forall buf d, sdp_parse sdp_init buf = Ok d -> short (sdp_text d) ->
  exists t, sdp_to_str d = Ok t /\ sdp_parse sdp_init t = Ok d.
Proof.
  intros buf d H S. apply sdp_parse_ok in H. exists (sdp_text d). split.
  - now apply C61_can_write. - now apply sdp_round.
Qed.
Example C61_ex : exists d, sdp_parse sdp_init ex_text = Ok d /\ sdp_ok d /\ short (sdp_text d).
Proof.
  assert (E : exists d, sdp_parse sdp_init ex_text = Ok d /\ (2 * Z.of_nat (length (sdp_text d)) + 501 <=? 2147483647) = true).
  { eexists. split; [vm_compute; reflexivity|]. vm_compute. reflexivity. }
  destruct E as (d & E & S). exists d. split; [auto|]. split; [now apply sdp_parse_ok in E|]. unfold short. lia.
Qed.

(** *** C62: copies *)
(** The copy of a description made of writable values (in particular of one that was parsed) is
    equal to it *)
Theorem C62_clone_partial : forall d, sdp_ok d -> short (sdp_text d) -> sdp_clone d = Ok d.
Proof.
  intros d H S. unfold sdp_clone. rewrite C61_can_write, sdp_round by auto. reflexivity.
Qed.
Theorem C62_clone_received : forall buf d, sdp_parse sdp_init buf = Ok d -> short (sdp_text d) -> sdp_clone d = Ok d.
Proof. intros buf d H. apply C62_clone_partial. now apply sdp_parse_ok in H. Qed.
(** A description that can be written is not always copied: without a time there is no copy, and
    a copy may differ *)
Theorem C62_clone_no_time_refuted : exists d t, sdp_to_str d = Ok t /\ sdp_clone d = Err OSIP_UNDEFINED_ERROR.
Proof.
  exists (with_v (Some $"0") (with_o (Some $"-") (Some $"1") (Some $"1") (Some $"IN") (Some $"IP4") (Some $"h") sdp_init)).
  eexists. split; [vm_compute; reflexivity|]. vm_compute. reflexivity.
Qed.
Theorem C62_clone_ttl_refuted : exists d d', sdp_clone d = Ok d' /\ writable d = true /\ c_connection d <> c_connection d'.
Proof.
  exists (with_t [mkTime (Some $"0") (Some $"0") []] (with_c (Some (mkConn (Some $"IN") (Some $"IP4") (Some $"h") None (Some $"3")))
    (with_v (Some $"0") (with_o (Some $"-") (Some $"1") (Some $"1") (Some $"IN") (Some $"IP4") (Some $"h") sdp_init)))).
  eexists. split; [vm_compute; reflexivity|]. split; [reflexivity|]. vm_compute. discriminate.
Qed.

(** *** C63: nothing of an accepted text is lost *)
(** For texts in the order and form the printer uses *)
Theorem C63_nothing_lost_partial : forall d, sdp_ok d -> short (sdp_text d) ->
  exists d', sdp_parse sdp_init (sdp_text d) = Ok d' /\ sdp_to_str d' = Ok (sdp_text d).
Proof. intros d H S. exists d. split; [now apply sdp_round|now apply C61_can_write]. Qed.
(** But a line of an unknown kind, or one out of order, makes the rest of the text disappear, and
    the parser reports success *)
Theorem C63_nothing_lost_refuted : exists head d d',
  sdp_parse sdp_init (head ++ $"m=audio 9 RTP/AVP 0" ++ CRLF) = Ok d /\ length (m_medias d) = 1%nat
  /\ sdp_parse sdp_init (head ++ $"x=1" ++ CRLF ++ $"m=audio 9 RTP/AVP 0" ++ CRLF) = Ok d' /\ m_medias d' = [].
Proof.
  exists (flat_map (fun l => $l ++ CRLF) ["v=0"; "o=- 1 1 IN IP4 h"; "t=0 0"]%string).
  eexists. eexists. split; [vm_compute; reflexivity|]. split; [vm_compute; reflexivity|]. split; [vm_compute; reflexivity|]. reflexivity.
Qed.

(** *** C64: the access functions *)
Ltac at_place H := rewrite add_at_ok by (auto; lia); eexists; split; [reflexivity|].
Ltac same_part := split; [reflexivity|]; cbn [m_medias with_m change_media]; symmetry; apply change_map; intros; reflexivity.
(** Adding an attribute to the session or to a media: it is the last one there, and nothing else
    changes *)
Theorem C64_attribute_add : forall d pos a, place d pos -> pos < INT_MAX ->
  exists d', a_attribute_add d pos a = Ok d'
  /\ one_more (attribute_get d pos) (attribute_get d' pos) a
  /\ (forall p i, p <> pos -> attribute_get d' p i = attribute_get d p i)
  /\ same_but_attributes d d'.
Proof.
  intros d pos a H Hi. unfold a_attribute_add. at_place H. unfold attribute_get. destruct (pos =? -1) eqn:E.
  - split; [cbn; apply snoc_more|]. split; [|split; reflexivity].
    intros p i Hp. replace (p =? -1) with false by lia. reflexivity.
  - destruct H as [->|H]; [discriminate|]. destruct (get_some _ (m_medias d) pos H) as (m & Em).
    unfold change_media. cbn [m_medias with_m a_attributes].
    split; [|split].
    + rewrite get_change. replace (pos =? pos) with true by lia. rewrite Em. apply snoc_more.
    + intros p i Hp. destruct (p =? -1); auto. rewrite get_change. replace (p =? pos) with false by lia. reflexivity.
    + same_part.
Qed.
Theorem C64_bandwidth_add : forall d pos a, place d pos -> pos < INT_MAX ->
  exists d', b_bandwidth_add d pos a = Ok d'
  /\ one_more (bandwidth_get d pos) (bandwidth_get d' pos) a
  /\ (forall p i, p <> pos -> bandwidth_get d' p i = bandwidth_get d p i)
  /\ same_but_bandwidths d d'.
Proof.
  intros d pos a H Hi. unfold b_bandwidth_add. at_place H. unfold bandwidth_get. destruct (pos =? -1) eqn:E.
  - split; [cbn; apply snoc_more|]. split; [|split; reflexivity].
    intros p i Hp. replace (p =? -1) with false by lia. reflexivity.
  - destruct H as [->|H]; [discriminate|]. destruct (get_some _ (m_medias d) pos H) as (m & Em).
    unfold change_media. cbn [m_medias with_m b_bandwidths].
    split; [|split].
    + rewrite get_change. replace (pos =? pos) with true by lia. rewrite Em. apply snoc_more.
    + intros p i Hp. destruct (p =? -1); auto. rewrite get_change. replace (p =? pos) with false by lia. reflexivity.
    + same_part.
Qed.
(** The connection of the session is replaced; a media can have several *)
Theorem C64_connection_add : forall d pos a, place d pos -> pos < INT_MAX ->
  exists d', c_connection_add d pos a = Ok d'
  /\ (if pos =? -1 then forall i, connection_get d' pos i = Some a
      else one_more (connection_get d pos) (connection_get d' pos) a)
  /\ (forall p i, p <> pos -> connection_get d' p i = connection_get d p i)
  /\ same_but_connections d d'.
Proof.
  intros d pos a H Hi. unfold c_connection_add. at_place H. unfold connection_get. destruct (pos =? -1) eqn:E.
  - split; [reflexivity|]. split; [|split; reflexivity].
    intros p i Hp. replace (p =? -1) with false by lia. reflexivity.
  - destruct H as [->|H]; [discriminate|]. destruct (get_some _ (m_medias d) pos H) as (m & Em).
    unfold change_media. cbn [m_medias with_m c_connection].
    split; [|split].
    + rewrite get_change. replace (pos =? pos) with true by lia. rewrite Em. apply snoc_more.
    + intros p i Hp. destruct (p =? -1); auto. rewrite get_change. replace (p =? pos) with false by lia. reflexivity.
    + same_part.
Qed.
Theorem C64_key_set : forall d pos k, place d pos -> pos < INT_MAX ->
  exists d', k_key_set d pos k = Ok d'
  /\ k_keytype_get d' pos = Ok (k_keytype k) /\ k_keydata_get d' pos = Ok (k_keydata k)
  /\ (forall p, p <> pos -> k_keytype_get d' p = k_keytype_get d p /\ k_keydata_get d' p = k_keydata_get d p)
  /\ same_but_keys d d'.
Proof.
  intros d pos k H Hi. unfold k_key_set. at_place H. unfold k_keytype_get, k_keydata_get, k_get. destruct (pos =? -1) eqn:E.
  - split; [reflexivity|]. split; [reflexivity|]. split; [|split; reflexivity].
    intros p Hp. replace (p =? -1) with false by lia. split; reflexivity.
  - destruct H as [->|H]; [discriminate|]. destruct (get_some _ (m_medias d) pos H) as (m & Em).
    unfold no_such_media, change_media. cbn [m_medias with_m k_key]. rewrite E.
    assert (X : (INT_MAX <? pos + 1) = false) by lia. rewrite X. rewrite !change_size.
    assert (Y : (size (m_medias d) <? pos + 1) = false) by (unfold size; lia). rewrite Y.
    rewrite !get_change. replace (pos =? pos) with true by lia. rewrite Em.
    split; [reflexivity|]. split; [reflexivity|]. split; [|same_part].
    intros p Hp. rewrite !get_change. replace (p =? pos) with false by lia. split; reflexivity.
Qed.
Theorem C64_info_set : forall d pos x, place d pos ->
  exists d', i_info_set d pos x = Ok d' /\ i_info_get d' pos = x
  /\ (forall p, p <> pos -> i_info_get d' p = i_info_get d p) /\ same_but_infos d d'.
Proof.
  intros d pos x H. unfold i_info_set, i_info_get. destruct (pos =? -1) eqn:E.
  - eexists. split; [reflexivity|]. split; [reflexivity|]. split; [|split; reflexivity].
    intros p Hp. replace (p =? -1) with false by lia. reflexivity.
  - destruct H as [->|H]; [discriminate|]. destruct (get_some _ (m_medias d) pos H) as (m & Em). rewrite Em.
    eexists. split; [reflexivity|]. unfold change_media. cbn [m_medias with_m i_info].
    rewrite get_change. replace (pos =? pos) with true by lia. rewrite Em. split; [reflexivity|]. split; [|same_part].
    intros p Hp. rewrite get_change. replace (p =? pos) with false by lia. reflexivity.
Qed.
Theorem C64_payload_add : forall d pos x, 0 <= pos < Z.of_nat (length (m_medias d)) ->
  exists d', m_payload_add d pos x = Ok d' /\ one_more (m_payload_get d pos) (m_payload_get d' pos) x
  /\ (forall p i, p <> pos -> m_payload_get d' p i = m_payload_get d p i) /\ same_but_payloads d d'.
Proof.
  intros d pos x H. unfold m_payload_add, m_payload_get. destruct (get_some _ (m_medias d) pos H) as (m & Em). rewrite Em.
  eexists. split; [reflexivity|]. unfold change_media. cbn [m_medias with_m].
  rewrite get_change. replace (pos =? pos) with true by lia. rewrite Em. split; [apply snoc_more|]. split; [|same_part].
  intros p i Hp. rewrite get_change. replace (p =? pos) with false by lia. reflexivity.
Qed.
Theorem C64_port_set : forall d pos x, 0 <= pos < Z.of_nat (length (m_medias d)) ->
  exists d', m_port_set d pos x = Ok d' /\ m_get d' pos m_port = x
  /\ (forall p, p <> pos -> m_get d' p m_port = m_get d p m_port) /\ same_but_ports d d'.
Proof.
  intros d pos x H. unfold m_port_set, m_get. destruct (get_some _ (m_medias d) pos H) as (m & Em). rewrite Em.
  eexists. split; [reflexivity|]. unfold change_media. cbn [m_medias with_m].
  rewrite get_change. replace (pos =? pos) with true by lia. rewrite Em. split; [reflexivity|]. split; [|same_part].
  intros p Hp. rewrite get_change. replace (p =? pos) with false by lia. reflexivity.
Qed.
(** A media is added after the others, with the given fields and nothing else; the loop
    "for (i = 0; !sdp_message_endof_media (sdp, i); i++)" sees the media and no more *)
Theorem C64_media_add : forall d media port number proto,
  let d' := m_media_add d media port number proto in
  let n := Z.of_nat (length (m_medias d)) in
  m_get d' n m_media = media /\ m_get d' n m_port = port /\ m_get d' n m_number = number /\ m_get d' n m_proto = proto
  /\ (forall i, attribute_get d' n i = None /\ m_payload_get d' n i = None)
  /\ (forall p f, p <> n -> m_get d' p f = m_get d p f)
  /\ (forall i, 0 <= i -> (endof_media d' i = OSIP_SUCCESS <-> i <= n))
  /\ with_m [] d' = with_m [] d.
Proof.
  intros d media port number proto d' n. subst d' n. unfold m_media_add, m_get, attribute_get, m_payload_get, endof_media.
  cbn [m_medias with_m]. rewrite !get_snoc. fold (size (m_medias d)). replace (size (m_medias d) =? size (m_medias d)) with true by lia.
  repeat split; auto.
  - assert (X : 0 <= size (m_medias d)) by (unfold size; lia).
    replace (size (m_medias d) =? -1) with false by lia. apply get_nil.
  - apply get_nil.
  - intros p f Hp. rewrite get_snoc. replace (p =? size (m_medias d)) with false by lia. reflexivity.
  - replace (i =? -1) with false by lia. unfold size. rewrite app_length. cbn [length].
    destruct (i <? Z.of_nat (length (m_medias d) + 1)) eqn:E; unfold OSIP_SUCCESS, OSIP_UNDEFINED_ERROR; lia.
  - replace (i =? -1) with false by lia. unfold size. rewrite app_length. cbn [length]. intros Hi.
    replace (i <? Z.of_nat (length (m_medias d) + 1)) with true by lia. reflexivity.
Qed.
Theorem C64_lists_add : forall d email phone start stop,
  one_more (e_email_get d) (e_email_get (e_email_add d email)) email
  /\ one_more (p_phone_get d) (p_phone_get (p_phone_add d phone)) phone
  /\ (let d' := t_time_descr_add d start stop in let n := Z.of_nat (length (t_descrs d)) in
      t_start_time_get d' n = start /\ t_stop_time_get d' n = stop /\ (forall i, r_repeat_get d' n i = None)
      /\ forall p i, p <> n -> t_start_time_get d' p = t_start_time_get d p /\ t_stop_time_get d' p = t_stop_time_get d p
           /\ r_repeat_get d' p i = r_repeat_get d p i).
Proof.
  assert (G : forall (l : list str) i, (if i <? size l then get l i else None) = get l i).
  { intros l i. destruct (i <? size l) eqn:E; auto. destruct (get l i) eqn:F; auto.
    assert (get l i <> None) by congruence. apply get_holds in H. lia. }
  assert (M : forall (l : list str) x, one_more (fun i => if i <? size l then get l i else None)
     (fun i => if i <? size (l ++ [x]) then get (l ++ [x]) i else None) x).
  { intros l x. destruct (snoc_more _ l x) as (n & Hn & Pn & Eq). exists n. split; [|split; auto].
    - intros i. rewrite G. apply Hn. - intros i. rewrite !G. apply Eq. }
  intros d email phone start stop. split; [apply M|]. split; [apply M|]. cbv zeta.
  unfold t_start_time_get, t_stop_time_get, r_repeat_get, t_time_descr_add. cbn [t_descrs with_t]. fold (size (t_descrs d)).
  rewrite !get_snoc. replace (size (t_descrs d) =? size (t_descrs d)) with true by lia.
  split; [reflexivity|]. split; [reflexivity|]. split.
  - intros i. apply get_nil.
  - intros p i Hp. rewrite !get_snoc. replace (p =? size (t_descrs d)) with false by lia. auto.
Qed.
Theorem C64_repeat_add : forall d pos x, 0 <= pos < Z.of_nat (length (t_descrs d)) ->
  exists d', r_repeat_add d pos x = Ok d' /\ one_more (r_repeat_get d pos) (r_repeat_get d' pos) x
  /\ (forall p i, p <> pos -> r_repeat_get d' p i = r_repeat_get d p i)
  /\ (forall p, t_start_time_get d' p = t_start_time_get d p /\ t_stop_time_get d' p = t_stop_time_get d p)
  /\ with_t [] d' = with_t [] d.
Proof.
  intros d pos x H. unfold r_repeat_add, r_repeat_get, t_start_time_get, t_stop_time_get.
  destruct (get_some _ (t_descrs d) pos H) as (m & Em). rewrite Em.
  eexists. split; [reflexivity|]. cbn [t_descrs with_t].
  rewrite get_change. replace (pos =? pos) with true by lia. rewrite Em. split; [apply snoc_more|]. split; [|split; [|reflexivity]].
  - intros p i Hp. rewrite get_change. replace (p =? pos) with false by lia. reflexivity.
  - intros p. rewrite !get_change. destruct (p =? pos); [|auto]. destruct (get (t_descrs d) p); auto.
Qed.
(** A media that is not there is an error *)
Theorem C64_no_media_partial : forall d pos a b c k, Z.of_nat (length (m_medias d)) <= pos < INT_MAX ->
  a_attribute_add d pos a = Err OSIP_UNDEFINED_ERROR /\ b_bandwidth_add d pos b = Err OSIP_UNDEFINED_ERROR
  /\ c_connection_add d pos c = Err OSIP_UNDEFINED_ERROR /\ k_key_set d pos k = Err OSIP_UNDEFINED_ERROR
  /\ k_keytype_get d pos = Ok None /\ k_keydata_get d pos = Ok None.
Proof.
  intros d pos a b c k H.
  assert (N : no_such_media d pos = Some true).
  { unfold no_such_media. replace (pos =? -1) with false by lia. replace (INT_MAX <? pos + 1) with false by lia.
    f_equal. unfold size. lia. }
  unfold a_attribute_add, b_bandwidth_add, c_connection_add, k_key_set, k_keytype_get, k_keydata_get, k_get, add_at.
  rewrite N. replace (pos =? -1) with false by lia. auto 10.
Qed.
(** But a position below -1, or the largest [int], is not checked *)
Theorem C64_no_media_refuted : forall d pos a b c k, pos < -1 \/ pos = INT_MAX ->
  a_attribute_add d pos a = UB /\ b_bandwidth_add d pos b = UB
  /\ c_connection_add d pos c = UB /\ k_key_set d pos k = UB /\ k_keytype_get d pos = UB /\ k_keydata_get d pos = UB.
Proof.
  intros d pos a b c k H.
  assert (N : no_such_media d pos = None \/ no_such_media d pos = Some false /\ get (m_medias d) pos = None).
  { unfold no_such_media. destruct H as [H| ->]; [right|left; reflexivity].
    replace (pos =? -1) with false by lia. replace (INT_MAX <? pos + 1) with false by (unfold INT_MAX; lia). split.
    - f_equal. unfold size. lia. - apply get_neg. lia. }
  unfold a_attribute_add, b_bandwidth_add, c_connection_add, k_key_set, k_keytype_get, k_keydata_get, k_get, add_at.
  assert (E : pos =? -1 = false) by (unfold INT_MAX in H; lia). rewrite E.
  destruct N as [->|[-> ->]]; auto 10.
Qed.
Example C64_ex : exists d, sdp_parse sdp_init ex_text = Ok d /\ place d 1 /\ place d (-1)
  /\ exists d', a_attribute_add d 0 (mkAttr (Some $"x") None) = Ok d'
     /\ attribute_get d' 0 1 = Some (mkAttr (Some $"x") None) /\ attribute_get d 0 1 = None.
Proof.
  eexists. split; [vm_compute; reflexivity|]. split; [right; cbn; lia|]. split; [left; reflexivity|].
  eexists. split; [vm_compute; reflexivity|]. split; vm_compute; reflexivity.
Qed.

(** *** C65: deleting attributes *)
(** the attributes of a place *)
Definition attributes_at (d : sdp) (pos : Z) : list sdp_attribute :=
  if pos =? -1 then a_attributes d
  else match nth_error (m_medias d) (Z.to_nat pos) with Some m => m_attributes m | None => [] end.
(** deleting by name: the attributes of that name go, the others stay, in order; the rest of the
    description does not change *)
Definition name_is (field : str) (a : sdp_attribute) : bool :=
  match a_field a with Some f => streq f field | None => false end.
Theorem C65_del_by_name : forall d pos field, place d pos -> pos < INT_MAX ->
  Forall (fun a => a_field a <> None) (attributes_at d pos) ->
  exists d', (forall fuel, (length (attributes_at d pos) < fuel)%nat -> a_attribute_del fuel d pos field = Ended (Ok d'))
  /\ attributes_at d' pos = filter (fun a => negb (name_is field a)) (attributes_at d pos)
  /\ (forall p, p <> pos -> attributes_at d' p = attributes_at d p \/ p < -1)
  /\ same_but_attributes d d'.
Proof.
  intros d pos field H Hi HA. unfold a_attribute_del.
  assert (FE : forall l, filter (fun x => match a_field x with Some f => negb (streq f field) | None => true end) l
    = filter (fun a => negb (name_is field a)) l).
  { induction l as [|x l IH]; auto. cbn [filter]. unfold name_is at 1. rewrite IH. destruct (a_field x); auto. }
  assert (N : no_such_media d pos = Some false).
  { unfold no_such_media. destruct (pos =? -1) eqn:E; auto. destruct H as [->|H]; [discriminate|].
    replace (INT_MAX <? pos + 1) with false by lia. f_equal. unfold size. lia. }
  rewrite N. unfold attributes_at in *. destruct (pos =? -1) eqn:E.
  - eexists. split.
    + intros fuel Hf. change (a_attributes d) with ([] ++ a_attributes d). change 0 with (size (@nil sdp_attribute)).
      rewrite del_field_run by auto. cbn [on_run app]. reflexivity.
    + split; [cbn; apply FE|]. split; [|split; reflexivity].
      intros p Hp. left. replace (p =? -1) with false by lia. reflexivity.
  - destruct H as [->|H]; [discriminate|]. destruct (get_some _ (m_medias d) pos H) as (m & Em). rewrite Em.
    rewrite get_nth in Em by lia. rewrite Em in *.
    eexists. split.
    + intros fuel Hf. change (m_attributes m) with ([] ++ m_attributes m). change 0 with (size (@nil sdp_attribute)).
      rewrite del_field_run by auto. cbn [on_run app]. reflexivity.
    + unfold change_media. cbn [m_medias with_m a_attributes]. split; [|split; [|same_part]].
      * rewrite <- get_nth by lia. rewrite get_change. replace (pos =? pos) with true by lia. rewrite get_nth, Em by lia.
        cbn. apply FE.
      * intros p Hp. destruct (p =? -1) eqn:Ep; auto. destruct (Z.ltb_spec p 0); [right; lia|left].
        rewrite <- !get_nth by lia. rewrite get_change. replace (p =? pos) with false by lia. reflexivity.
Qed.
(** deleting the attribute number [i] of the session *)
Theorem C65_del_at_index_session : forall d field i fuel, 0 <= i ->
  exists d', a_attribute_del_at_index fuel d (-1) field i = Ended (Ok d')
  /\ a_attributes d' = firstn (Z.to_nat i) (a_attributes d) ++ skipn (S (Z.to_nat i)) (a_attributes d)
  /\ same_but_attributes d d'.
Proof.
  intros d field i fuel H. unfold a_attribute_del_at_index. cbn [no_such_media Z.eqb Pos.eqb]. replace (i =? -1) with false by lia.
  destruct (get (a_attributes d) i) as [x|] eqn:E.
  - assert (B : 0 <= i < size (a_attributes d)) by (apply get_holds; congruence).
    eexists. split; [reflexivity|]. split; [|split; reflexivity]. cbn [a_attributes with_a]. unfold remove.
    replace ((i <? 0) || (size (a_attributes d) <=? i)) with false by lia. reflexivity.
  - eexists. split; [reflexivity|]. split; [|split; reflexivity]. rewrite get_nth in E by lia. apply nth_error_None in E.
    rewrite firstn_all2 by lia. rewrite skipn_all2 by lia. now rewrite app_nil_r.
Qed.
(** of a media: with any other position than 0 and -1, the call never ends as soon as the media has
    an attribute *)
Theorem C65_del_at_index_media_refuted : forall d pos m field i, 0 <= pos < INT_MAX ->
  nth_error (m_medias d) (Z.to_nat pos) = Some m -> m_attributes m <> [] -> i <> 0 -> i <> -1 ->
  forall fuel, a_attribute_del_at_index fuel d pos field i = Running.
Proof.
  intros d pos m field i Hp Em Hm H0 H1 fuel. unfold a_attribute_del_at_index.
  assert (G : get (m_medias d) pos = Some m) by (rewrite get_nth by lia; auto).
  assert (B : 0 <= pos < size (m_medias d)) by (apply get_holds; congruence).
  unfold no_such_media. replace (pos =? -1) with false by lia. replace (INT_MAX <? pos + 1) with false by lia.
  replace (size (m_medias d) <? pos + 1) with false by lia. rewrite G. replace (i =? -1) with false by lia.
  rewrite del_index_hangs by auto. reflexivity.
Qed.
(** and with position 0 all the attributes of the media go *)
Theorem C65_del_first_media_refuted : forall d pos m field, 0 <= pos < INT_MAX ->
  nth_error (m_medias d) (Z.to_nat pos) = Some m ->
  forall fuel, (length (m_attributes m) < fuel)%nat ->
  a_attribute_del_at_index fuel d pos field 0 = Ended (Ok (change_media d pos (media_a []))).
Proof.
  intros d pos m field Hp Em fuel Hf. unfold a_attribute_del_at_index.
  assert (G : get (m_medias d) pos = Some m) by (rewrite get_nth by lia; auto).
  assert (B : 0 <= pos < size (m_medias d)) by (apply get_holds; congruence).
  unfold no_such_media. replace (pos =? -1) with false by lia. replace (INT_MAX <? pos + 1) with false by lia.
  replace (size (m_medias d) <? pos + 1) with false by lia. rewrite G. cbn [Z.eqb].
  rewrite del_index_all by auto. reflexivity.
Qed.
Example C65_ex : exists d, sdp_parse sdp_init ex_text = Ok d
  /\ Forall (fun a => a_field a <> None) (attributes_at d (-1)) /\ length (attributes_at d (-1)) = 2%nat
  /\ exists d', a_attribute_del 3 d (-1) $"tool" = Ended (Ok d') /\ length (attributes_at d' (-1)) = 1%nat.
Proof.
  eexists. split; [vm_compute; reflexivity|]. split; [repeat constructor; discriminate|]. split; [reflexivity|].
  eexists. split; [vm_compute; reflexivity|]. reflexivity.
Qed.
(** deleting the payload number [i] of a media *)
Theorem C65_payload_del : forall d pos m i, 0 <= pos -> nth_error (m_medias d) (Z.to_nat pos) = Some m ->
  0 <= i < Z.of_nat (length (m_payloads m)) ->
  exists d' m', m_payload_del d pos i = Ok d' /\ nth_error (m_medias d') (Z.to_nat pos) = Some m'
  /\ m_payloads m' = firstn (Z.to_nat i) (m_payloads m) ++ skipn (S (Z.to_nat i)) (m_payloads m)
  /\ (forall p j, p <> pos -> m_payload_get d' p j = m_payload_get d p j) /\ same_but_payloads d d'.
Proof.
  intros d pos m i Hp Em Hi. unfold m_payload_del, m_payload_get.
  assert (G : get (m_medias d) pos = Some m) by (rewrite get_nth by lia; auto). rewrite G.
  destruct (get_some _ (m_payloads m) i Hi) as (x & ->). eexists. eexists. split; [reflexivity|].
  unfold change_media. cbn [m_medias with_m]. split; [|split; [|split]].
  - rewrite <- get_nth by lia. rewrite get_change, G. replace (pos =? pos) with true by lia. reflexivity.
  - cbn. unfold remove. unfold size. replace ((i <? 0) || (Z.of_nat (length (m_payloads m)) <=? i)) with false by lia. reflexivity.
  - intros p j Hpp. rewrite get_change. replace (p =? pos) with false by lia. reflexivity.
  - same_part.
Qed.

Print Assumptions C58_parse_safe_partial.
Print Assumptions C58_parse_safe_refuted.
Print Assumptions C59_accepted_complete.
Print Assumptions C60_print.
Print Assumptions C61_round_trip.
Print Assumptions C61_can_write.
Print Assumptions C61_received.
Print Assumptions C62_clone_partial.
Print Assumptions C62_clone_received.
Print Assumptions C62_clone_no_time_refuted.
Print Assumptions C62_clone_ttl_refuted.
Print Assumptions C63_nothing_lost_partial.
Print Assumptions C63_nothing_lost_refuted.
Print Assumptions C64_attribute_add.
Print Assumptions C64_bandwidth_add.
Print Assumptions C64_connection_add.
Print Assumptions C64_key_set.
Print Assumptions C64_info_set.
Print Assumptions C64_payload_add.
Print Assumptions C64_port_set.
Print Assumptions C64_media_add.
Print Assumptions C64_lists_add.
Print Assumptions C64_repeat_add.
Print Assumptions C64_no_media_partial.
Print Assumptions C64_no_media_refuted.
Print Assumptions C65_del_by_name.
Print Assumptions C65_del_at_index_session.
Print Assumptions C65_del_at_index_media_refuted.
Print Assumptions C65_del_first_media_refuted.
Print Assumptions C65_payload_del.

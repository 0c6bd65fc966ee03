(** What a session description is and how it is written, independently of the code. *)
From Coq Require Import String ZArith NArith Ascii Bool List.
From Verif Require Import Base Str SdpModel.
Import ListNotations.

(** *** Which values can be written on a line and read back *)
(** text that fits on one line: not empty, no CR, no LF *)
Definition line_text (s : str) : Prop := s <> [] /\ ~ In cr s /\ ~ In lf s.
(** such text without any of the given separators *)
Definition word (seps : list ascii) (s : str) : Prop :=
  line_text s /\ forall c, In c seps -> ~ In c s.
Definition required (P : str -> Prop) (x : option str) : Prop := exists s, x = Some s /\ P s.
Definition optional {A} (P : A -> Prop) (x : option A) : Prop := forall s, x = Some s -> P s.

Definition connection_ok (c : sdp_connection) : Prop :=
  required (word [sp]) (c_nettype c) /\ required (word [sp]) (c_addrtype c)
  /\ required (word ["/"%char]) (c_addr c)
  /\ optional (word ["/"%char]) (c_ttl c) /\ optional line_text (c_int c)
  /\ (c_ttl c = None -> c_int c = None).
Definition bandwidth_ok (b : sdp_bandwidth) : Prop :=
  required (word [":"%char]) (b_bwtype b) /\ required line_text (b_bandwidth b).
Definition time_ok (t : sdp_time) : Prop :=
  required (word [sp]) (t_start t) /\ required line_text (t_stop t) /\ Forall line_text (t_repeats t).
Definition key_ok (k : sdp_key) : Prop :=
  required (word [":"%char]) (k_keytype k) /\ optional line_text (k_keydata k).
Definition attribute_ok (a : sdp_attribute) : Prop :=
  required (word [":"%char]) (a_field a) /\ optional line_text (a_value a).
(** no space in the payloads, except in front of the last one *)
Definition payloads_ok (ps : list str) : Prop :=
  forall front final, ps = front ++ [final] ->
    Forall (word [sp]) front /\ line_text final /\ ~ In sp (tl final).
(** the protocol has no space, unless it starts with one and takes the rest of the line (what
    the parser makes of a line with two spaces before the protocol) *)
Definition proto_ok (proto : option str) (payloads : list str) : Prop :=
  required (word [sp]) proto \/ (required line_text proto /\ (exists s, proto = Some (sp :: s)) /\ payloads = []).
Definition media_ok (m : sdp_media) : Prop :=
  required (word [sp]) (m_media m) /\ required (word [sp; "/"%char]) (m_port m)
  /\ optional (word [sp]) (m_number m) /\ proto_ok (m_proto m) (m_payloads m)
  /\ payloads_ok (m_payloads m) /\ optional line_text (m_info m)
  /\ Forall connection_ok (m_connections m) /\ Forall bandwidth_ok (m_bandwidths m)
  /\ optional key_ok (m_key m) /\ Forall attribute_ok (m_attributes m).
(** the parts of a description, present or not *)
Definition parts_ok (d : sdp) : Prop :=
  optional line_text (v_version d)
  /\ optional (word [sp]) (o_username d) /\ optional (word [sp]) (o_sess_id d)
  /\ optional (word [sp]) (o_sess_version d) /\ optional (word [sp]) (o_nettype d)
  /\ optional (word [sp]) (o_addrtype d) /\ optional line_text (o_addr d)
  /\ optional line_text (s_name d) /\ optional line_text (i_info d) /\ optional line_text (u_uri d)
  /\ Forall line_text (e_emails d) /\ Forall line_text (p_phones d)
  /\ optional connection_ok (c_connection d) /\ Forall bandwidth_ok (b_bandwidths d)
  /\ Forall time_ok (t_descrs d) /\ optional line_text (z_adjustments d)
  /\ optional key_ok (k_key d) /\ Forall attribute_ok (a_attributes d)
  /\ Forall media_ok (m_medias d).
(** the parts without which a description is incomplete: v=, o= and one t= *)
Definition complete (d : sdp) : Prop :=
  v_version d <> None /\ o_username d <> None /\ o_sess_id d <> None /\ o_sess_version d <> None
  /\ o_nettype d <> None /\ o_addrtype d <> None /\ o_addr d <> None /\ t_descrs d <> [].
Definition sdp_ok (d : sdp) : Prop := complete d /\ parts_ok d.

(** *** The text of a description: one line per item, in the order of RFC 2327 *)
Definition val (x : option str) : str := match x with Some s => s | None => [] end.
Definition line (letter : ascii) (s : str) : str := letter :: "="%char :: s ++ CRLF.
Definition opt_line (letter : ascii) (x : option str) : str :=
  match x with Some s => line letter s | None => [] end.
Definition opt_text {A} (f : A -> str) (x : option A) : str :=
  match x with Some a => f a | None => [] end.
Definition slash (x : option str) : str := opt_text (fun s => "/"%char :: s) x.
Definition colon (x : option str) : str := opt_text (fun s => ":"%char :: s) x.

Definition connection_text (c : sdp_connection) : str :=
  line "c" (val (c_nettype c) ++ sp :: val (c_addrtype c) ++ sp :: val (c_addr c)
            ++ slash (c_ttl c) ++ slash (c_int c)).
Definition bandwidth_text (b : sdp_bandwidth) : str :=
  line "b" (val (b_bwtype b) ++ ":"%char :: val (b_bandwidth b)).
Definition time_text (t : sdp_time) : str :=
  line "t" (val (t_start t) ++ sp :: val (t_stop t)) ++ flat_map (line "r") (t_repeats t).
Definition key_text (k : sdp_key) : str := line "k" (val (k_keytype k) ++ colon (k_keydata k)).
Definition attribute_text (a : sdp_attribute) : str := line "a" (val (a_field a) ++ colon (a_value a)).
Definition media_text (m : sdp_media) : str :=
  line "m" (val (m_media m) ++ sp :: val (m_port m) ++ slash (m_number m)
            ++ sp :: val (m_proto m) ++ flat_map (fun p => sp :: p) (m_payloads m))
  ++ opt_line "i" (m_info m) ++ flat_map connection_text (m_connections m)
  ++ flat_map bandwidth_text (m_bandwidths m) ++ opt_text key_text (m_key m)
  ++ flat_map attribute_text (m_attributes m).
Definition origin_text (d : sdp) : str :=
  val (o_username d) ++ sp :: val (o_sess_id d) ++ sp :: val (o_sess_version d)
  ++ sp :: val (o_nettype d) ++ sp :: val (o_addrtype d) ++ sp :: val (o_addr d).
Definition sdp_text (d : sdp) : str :=
  line "v" (val (v_version d)) ++ line "o" (origin_text d)
  ++ opt_line "s" (s_name d) ++ opt_line "i" (i_info d) ++ opt_line "u" (u_uri d)
  ++ flat_map (line "e") (e_emails d) ++ flat_map (line "p") (p_phones d)
  ++ opt_text connection_text (c_connection d) ++ flat_map bandwidth_text (b_bandwidths d)
  ++ flat_map time_text (t_descrs d) ++ opt_line "z" (z_adjustments d)
  ++ opt_text key_text (k_key d) ++ flat_map attribute_text (a_attributes d)
  ++ flat_map media_text (m_medias d).

(** *** Texts whose last line is not cut short: the text ends with CR LF, or with something that
    is not a line end at all *)
Definition last_line_whole (s : str) : Prop :=
  forall p e, s = p ++ [e] -> e = cr \/ e = lf -> exists q, s = q ++ CRLF.

(** *** Which descriptions can be written at all: nothing that must be on a line is missing *)
Definition set (x : option str) : bool := match x with Some _ => true | None => false end.
Definition connection_set (c : sdp_connection) : bool := set (c_nettype c) && set (c_addrtype c) && set (c_addr c).
Definition bandwidth_set (b : sdp_bandwidth) : bool := set (b_bwtype b) && set (b_bandwidth b).
Definition time_set (t : sdp_time) : bool := set (t_start t) && set (t_stop t).
Definition key_set (k : sdp_key) : bool := set (k_keytype k).
Definition attribute_set (a : sdp_attribute) : bool := set (a_field a).
Definition opt_set {A} (f : A -> bool) (x : option A) : bool := match x with Some a => f a | None => true end.
Definition media_set (m : sdp_media) : bool :=
  set (m_media m) && set (m_port m) && set (m_proto m) && forallb connection_set (m_connections m)
  && forallb bandwidth_set (m_bandwidths m) && opt_set key_set (m_key m) && forallb attribute_set (m_attributes m).
Definition writable (d : sdp) : bool :=
  set (v_version d) && set (o_username d) && set (o_sess_id d) && set (o_sess_version d)
  && set (o_nettype d) && set (o_addrtype d) && set (o_addr d)
  && opt_set connection_set (c_connection d) && forallb bandwidth_set (b_bandwidths d)
  && forallb time_set (t_descrs d) && opt_set key_set (k_key d) && forallb attribute_set (a_attributes d)
  && forallb media_set (m_medias d).
(** the text is so short that the sizes computed while writing it are [int]s *)
Definition short (s : str) : Prop := (2 * Z.of_nat (length s) + 501 <= 2147483647)%Z.

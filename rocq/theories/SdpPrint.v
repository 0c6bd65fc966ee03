(** What the session description printer writes. *)
From Coq Require Import String ZArith NArith Ascii Bool List Lia ZifyBool ZifyNat.
From Verif Require Import Base Str SdpModel SdpSpec SdpLemmas SdpRound SdpSafe.
Import ListNotations.
Open Scope Z_scope.

(** the buffer holds its text and the NUL, and has not grown too fast *)
Definition room (o : outbuf) : Prop :=
  slen (o_text o) < o_size o /\ o_size o <= Z.max 4000 (2 * slen (o_text o) + 501).

Lemma slen_app : forall a b, slen (a ++ b) = slen a + slen b.
Proof. intros. unfold slen. rewrite app_length. lia. Qed.
Lemma slen_pos : forall a, 0 <= slen a.
Proof. intros. unfold slen. lia. Qed.

(** a part of the printer: it appends [t] if [b], and fails if not *)
Definition prints (b : bool) (t : str) (f : outbuf -> res outbuf) : Prop :=
  forall o, room o -> short (o_text o ++ t) ->
  if b then exists size, f o = Ok (mkOut size (o_text o ++ t)) /\ room (mkOut size (o_text o ++ t))
  else f o = Err OSIP_UNDEFINED_ERROR.

Lemma prints_append : forall s, prints true s (fun o => append o s).
Proof.
  intros s [size txt] [R1 R2] S. unfold short in S. cbn [o_text] in S. change (2 * slen (txt ++ s) + 501 <= 2147483647) in S. unfold append, room in *. cbn [o_text o_size] in *.
  rewrite slen_app in *. pose proof (slen_pos txt). pose proof (slen_pos s). unfold INT_MAX in *.
  replace (2147483647 <? slen txt + slen s + 1) with false by lia.
  destruct (size <? slen txt + slen s + 1) eqn:E.
  - replace (2147483647 <? size + slen s + 500) with false by lia.
    replace (size + slen s + 500 <? slen txt + slen s + 1) with false by lia.
    eexists. split; [reflexivity|]. lia.
  - replace (2147483647 <? size) with false by lia. 
    rewrite E. eexists. split; [reflexivity|]. lia.
Qed.
Lemma short_app : forall a b, short (a ++ b) -> short a.
Proof. unfold short. intros a b H. rewrite app_length in H. lia. Qed.
Lemma prints_seq : forall b1 t1 f b2 t2 g, prints b1 t1 f -> prints b2 t2 g ->
  prints (b1 && b2) (t1 ++ t2) (fun o => do o <- f o ; g o).
Proof.
  intros b1 t1 f b2 t2 g F G o R S. rewrite app_assoc in S. pose proof (short_app _ _ S) as S1. specialize (F o R S1). destruct b1; cbn [andb].
  - destruct F as (size & -> & R'). cbn [res_bind]. specialize (G _ R' S). cbn [o_text] in G.
    rewrite app_assoc. auto.
  - now rewrite F.
Qed.
Lemma prints_id : prints true [] (fun o => Ok o).
Proof. intros [size txt] R S. cbn [o_text] in *. rewrite app_nil_r. eauto. Qed.
Lemma prints_fail : forall t, prints false t (fun _ => fail).
Proof. intros t o _ _. reflexivity. Qed.
Lemma prints_appends : forall l, prints true (concat l) (fun o => appends o l).
Proof.
  induction l as [|s l IH]; cbn [appends concat].
  - apply prints_id.
  - apply (prints_seq true s (fun o => append o s) true); auto using prints_append.
Qed.
Lemma prints_eq : forall b t f b' t' f', prints b t f -> b = b' -> t = t' -> (forall o, f o = f' o) -> prints b' t' f'.
Proof. intros b t f b' t' f' H <- <- E o R S. specialize (H o R S). rewrite E in H. exact H. Qed.
Lemma prints_list : forall l t, concat l = t -> prints true t (fun o => appends o l).
Proof. intros l t <-. apply prints_appends. Qed.
Lemma prints_all : forall A (b : A -> bool) (t : A -> str) f, (forall x, prints (b x) (t x) (fun o => f o x)) ->
  forall l, prints (forallb b l) (flat_map t l) (fun o => append_all f o l).
Proof.
  intros A b t f H. induction l as [|x l IH]; cbn [forallb flat_map append_all].
  - apply prints_id.
  - apply prints_seq; auto.
Qed.
Lemma prints_opt : forall A (b : A -> bool) (t : A -> str) f, (forall x, prints (b x) (t x) (fun o => f o x)) ->
  forall x, prints (opt_set b x) (opt_text t x) (fun o => append_opt f o x).
Proof. intros A b t f H [x|]; cbn; auto using prints_id. Qed.

Lemma opt_part_text : forall c x, concat (opt_part [c; "="%char] x [CRLF]) = opt_line c x.
Proof. intros c [s|]; cbn [opt_part opt_line concat app line]; [now rewrite app_nil_r|reflexivity]. Qed.
Lemma opt_sep_text : forall c x, concat (opt_part [c] x []) = opt_text (fun s => c :: s) x.
Proof. intros c [s|]; cbn [opt_part opt_text concat app]; [now rewrite app_nil_r|reflexivity]. Qed.
Lemma lines_text : forall c l, concat (flat_map (fun e => [[c; "="%char]; e; CRLF]) l) = flat_map (line c) l.
Proof. induction l as [|x l IH]; auto. cbn [flat_map app concat]. rewrite IH. unfold line. cbn [app]. now rewrite <- app_assoc. Qed.
Lemma seps_text : forall (c : ascii) (l : list str), concat (flat_map (fun e => [[c]; e]) l) = flat_map (fun p => c :: p) l.
Proof. induction l as [|x l IH]; auto. cbn [flat_map app concat]. now rewrite IH. Qed.

Ltac text := repeat (rewrite concat_app || rewrite opt_sep_text || rewrite lines_text || rewrite seps_text
    || rewrite <- app_assoc || rewrite app_nil_r || cbn [concat app]).
Lemma print_connection : forall c, prints (connection_set c) (connection_text c) (fun o => append_connection o c).
Proof.
  intros [net typ addr ttl int]. unfold append_connection, connection_set, connection_text, line. cbn [c_nettype c_addrtype c_addr c_ttl c_int].
  destruct net, typ, addr; cbn [set andb]; try apply prints_fail. apply prints_list. cbn [val].
  change $"c=" with ["c"%char; "="%char]. change $" " with [sp]. change $"/" with ["/"%char]. text. reflexivity.
Qed.
Lemma print_bandwidth : forall c, prints (bandwidth_set c) (bandwidth_text c) (fun o => append_bandwidth o c).
Proof.
  intros [t w]. unfold append_bandwidth, bandwidth_set, bandwidth_text, line. cbn [b_bwtype SdpModel.b_bandwidth].
  destruct t, w; cbn [set andb]; try apply prints_fail. apply prints_list. cbn [val].
  change $"b=" with ["b"%char; "="%char]. change $":" with [":"%char]. text. reflexivity.
Qed.
Lemma print_time : forall c, prints (time_set c) (time_text c) (fun o => append_time o c).
Proof.
  intros [t w r]. unfold append_time, time_set, time_text, line. cbn [t_start t_stop t_repeats].
  destruct t, w; cbn [set andb]; try apply prints_fail. apply prints_list. cbn [val].
  change $"t=" with ["t"%char; "="%char]. change $"r=" with ["r"%char; "="%char]. change $" " with [sp]. text.
  fold line. reflexivity.
Qed.
Lemma print_key : forall c, prints (key_set c) (key_text c) (fun o => append_key o c).
Proof.
  intros [t w]. unfold append_key, key_set, key_text, line. cbn [k_keytype k_keydata].
  destruct t; cbn [set andb]; try apply prints_fail. apply prints_list. cbn [val].
  change $"k=" with ["k"%char; "="%char]. change $":" with [":"%char]. text. reflexivity.
Qed.
Lemma print_attribute : forall c, prints (attribute_set c) (attribute_text c) (fun o => append_attribute o c).
Proof.
  intros [t w]. unfold append_attribute, attribute_set, attribute_text, line. cbn [a_field a_value].
  destruct t; cbn [set andb]; try apply prints_fail. apply prints_list. cbn [val].
  change $"a=" with ["a"%char; "="%char]. change $":" with [":"%char]. text. reflexivity.
Qed.
Lemma print_media : forall m, prints (media_set m) (media_text m) (fun o => append_media o m).
Proof.
  intros [media port number proto ps info cs bs ats key]. unfold append_media, media_set, media_text.
  cbn [m_media m_port m_number m_proto m_payloads m_info m_connections m_bandwidths m_attributes m_key].
  destruct media, port, proto; cbn [set andb]; try apply prints_fail.
  rewrite <- !andb_assoc. apply (prints_seq true _ _ _ _ _).
  { apply prints_list. unfold line. cbn [val].
    change $"m=" with ["m"%char; "="%char]. change $" " with [sp]. change $"/" with ["/"%char]. text. reflexivity. }
  apply (prints_seq true _ _ _ _ _).
  { apply prints_list. apply (opt_part_text "i"). }
  apply prints_seq; [apply prints_all, print_connection|].
  apply prints_seq; [apply prints_all, print_bandwidth|].
  apply prints_seq; [apply prints_opt, print_key|]. apply prints_all, print_attribute.
Qed.

Theorem sdp_print : forall d, short (sdp_text d) ->
  sdp_to_str d = if writable d then Ok (sdp_text d) else Err OSIP_UNDEFINED_ERROR.
Proof.
  intros [v ou oi ov onn ot oa s i u e p c b t z k a m] S. unfold sdp_to_str, writable.
  cbn [v_version o_username o_sess_id o_sess_version o_nettype o_addrtype o_addr s_name i_info u_uri e_emails
    p_phones c_connection b_bandwidths t_descrs z_adjustments k_key a_attributes m_medias].
  destruct v, ou, oi, ov, onn, ot, oa; cbn [set andb]; try reflexivity.
  set (f := fun o : outbuf =>
      do o <- appends o [$"v="; s0; CRLF; $"o="; s1; $" "; s2; $" "; s3; $" "; s4; $" "; s5;
                         $" "; s6; CRLF] ;
      do o <- appends o (opt_part $"s=" s [CRLF]) ;
      do o <- appends o (opt_part $"i=" i [CRLF]) ;
      do o <- appends o (opt_part $"u=" u [CRLF]) ;
      do o <- appends o (flat_map (fun e => [$"e="; e; CRLF]) e) ;
      do o <- appends o (flat_map (fun p => [$"p="; p; CRLF]) p) ;
      do o <- append_opt append_connection o c ;
      do o <- append_all append_bandwidth o b ;
      do o <- append_all append_time o t ;
      do o <- appends o (opt_part $"z=" z [CRLF]) ;
      do o <- append_opt append_key o k ;
      do o <- append_all append_attribute o a ;
      append_all append_media o m).
  match type of S with short ?T => assert (P : prints (opt_set connection_set c && (forallb bandwidth_set b &&
    (forallb time_set t && (opt_set key_set k && (forallb attribute_set a && forallb media_set m))))) T f) end.
  { unfold sdp_text. cbn [v_version o_username o_sess_id o_sess_version o_nettype o_addrtype o_addr s_name i_info u_uri e_emails
    p_phones c_connection b_bandwidths t_descrs z_adjustments k_key a_attributes m_medias val].
    rewrite app_assoc. subst f.
    apply (prints_seq true _ _ _ _ _).
    { apply prints_list. unfold origin_text, line. cbn [v_version o_username o_sess_id o_sess_version o_nettype o_addrtype o_addr val].
      change $"v=" with ["v"%char; "="%char]. change $"o=" with ["o"%char; "="%char]. change $" " with [sp]. text. reflexivity. }
    apply (prints_seq true _ _ _ _ _). { apply prints_list, (opt_part_text "s"). }
    apply (prints_seq true _ _ _ _ _). { apply prints_list, (opt_part_text "i"). }
    apply (prints_seq true _ _ _ _ _). { apply prints_list, (opt_part_text "u"). }
    apply (prints_seq true _ _ _ _ _). { apply prints_list, (lines_text "e"). }
    apply (prints_seq true _ _ _ _ _). { apply prints_list, (lines_text "p"). }
    apply prints_seq; [apply prints_opt, print_connection|].
    apply prints_seq; [apply prints_all, print_bandwidth|].
    apply prints_seq; [apply prints_all, print_time|].
    apply (prints_seq true _ _ _ _ _). { apply prints_list, (opt_part_text "z"). }
    apply prints_seq; [apply prints_opt, print_key|].
    apply prints_seq; [apply prints_all, print_attribute|]. apply prints_all, print_media. }
  specialize (P (mkOut BODY_MESSAGE_MAX_SIZE [])). cbn [o_text app] in P.
  assert (R0 : room (mkOut BODY_MESSAGE_MAX_SIZE [])) by (unfold room, BODY_MESSAGE_MAX_SIZE; cbn; lia).
  specialize (P R0 S). rewrite <- !andb_assoc.
  set (w := opt_set connection_set c && _) in *. clearbody w.
  match goal with |- ?L = _ => replace L with (do o <- f (mkOut BODY_MESSAGE_MAX_SIZE []) ; Ok (o_text o)) end.
  - destruct w; [destruct P as (size & -> & _)|rewrite P]; reflexivity.
  - subst f. clear. cbv beta. repeat (match goal with |- context [res_bind ?r _] =>
      match r with res_bind _ _ => fail 1 | _ => destruct r; cbn [res_bind]; auto end end).
Qed.

Lemma optional_set : forall (P : str -> Prop) x, required P x -> set x = true.
Proof. intros P x (s & -> & _). reflexivity. Qed.

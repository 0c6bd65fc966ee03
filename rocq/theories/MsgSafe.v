(** Memory safety of the message parser for any bytes (C56), of the removal of line folding (C42). *)
From Coq Require Import String ZArith NArith Ascii Bool List Lia ZifyBool ZifyNat.
From Verif Require Import Base Str StrLemmas Types MemModel MemLemmas CString CStringLemmas SafeLemmas PortProps PortModel UriModel UriSafe HdrModel HdrSafe AuthModel AuthSafe ViaRound MsgFields MsgModel MsgProps MsgSplit.
Import ListNotations.
Open Scope Z_scope.

(** ** Header setters *)
Lemma cstr_incl : forall a b, incl a b -> cstr b -> cstr a.
Proof. intros a b I C N. apply C, I, N. Qed.
Lemma trim_incl : forall s, incl (trim s) s.
Proof. intros s x H. destruct (trim_split s) as (b1 & b2 & E & _). rewrite E. apply in_or_app. right. apply in_or_app. left. exact H. Qed.
Lemma cstr_trim : forall s, cstr s -> cstr (trim s).
Proof. intros s. apply cstr_incl, trim_incl. Qed.
Lemma trimmed_last : forall s, trimmed s -> last s NUL <> " "%char.
Proof. intros s T. apply trimmed_iff in T. destruct T as [->|[_ T]]; [cbn; discriminate|]. intros E. rewrite E in T. discriminate. Qed.

Definition value_ok (hv : option str) : Prop := match hv with None => True | Some v => cstr v /\ trimmed v end.

Lemma list_setter_safe : forall {A} (f : str -> res A) (g : A -> message) m hv,
  (forall v, cstr v -> trimmed v -> f v <> UB) -> value_ok hv -> if_value m hv (fun v => do a <- f v ; Ok (g a)) <> UB.
Proof.
  intros A f g m [[|c v]|] H V; cbn [if_value]; try discriminate. destruct V as [V1 V2]. specialize (H _ V1 V2).
  destruct (f (c :: v)); cbn [res_bind]; [discriminate|discriminate|congruence].
Qed.
Lemma one_setter_safe : forall {A B} (x : option B) code (f : str -> res A) (g : A -> message) m hv,
  (forall v, cstr v -> trimmed v -> f v <> UB) -> value_ok hv -> if_value m hv (fun v => if_unset x code (do a <- f v ; Ok (g a))) <> UB.
Proof.
  intros A B x code f g m [[|c v]|] H V; cbn [if_value]; try discriminate. destruct V as [V1 V2]. specialize (H _ V1 V2).
  destruct x; cbn [if_unset]; [discriminate|]. destruct (f (c :: v)); cbn [res_bind]; [discriminate|discriminate|congruence].
Qed.

Lemma known_safe : forall e m hv, In e known_headers -> value_ok hv -> snd e m hv <> UB.
Proof.
  intros e m hv H V. unfold known_headers in H. cbn [In] in H.
  repeat (destruct H as [H|H]; [subst e; cbn [snd]|]); try contradiction.
  all: try (apply (list_setter_safe _ _ m hv); [|exact V]; intros v C T).
  all: try (apply (one_setter_safe _ _ _ _ m hv); [|exact V]; intros v C T).
  all: try (apply C56_via_partial; [exact C|apply trimmed_last, T]).
  all: try (apply C56_from, C). all: try apply C56_call_id. all: try apply C56_cseq.
  all: try (apply C56_contact, C). all: try apply C56_content_length. all: try (apply C56_accept_encoding, C).
  all: try (apply C56_call_info, C). all: try (apply C56_authorization, C). all: try (apply C56_www_authenticate, C).
  all: try (apply C56_authentication_info, C).
  - unfold set_content_type, if_unset. destruct (m_content_type m); [discriminate|].
    apply (list_setter_safe ctype_parse (fun a => with_content_type (Some a) m) m hv); [|exact V]. intros v C T. apply C56_content_type, C.
  - unfold set_accept. destruct hv as [[|c v]|]; try discriminate. destruct V as [V1 V2].
    pose proof (C56_content_type _ V1). destruct (ctype_parse (c :: v)); cbn [res_bind]; [discriminate|discriminate|congruence].
Qed.

Lemma set_known_safe : forall m n hv, value_ok hv -> set_known_header m n hv <> UB.
Proof.
  intros m n hv V. destruct (is_known_header hdr_ref_table n) as [i|] eqn:E.
  - destruct (proj1 (proj2 C39_init n)) as ([[ns o] f] & I & I2); [congruence|]. cbn [fst] in I2.
    rewrite (C39_known ns o f n m hv I I2). pose proof (known_safe _ m hv I V) as S. cbn [snd] in S.
    destruct (f m hv) as [m'|c|]; [discriminate| |congruence]. destruct o; discriminate.
  - unfold set_known_header. rewrite E. discriminate.
Qed.

Lemma set_pieces_safe : forall l m n, Forall cstr l -> set_pieces m n l <> UB.
Proof.
  induction l as [|p l IH]; intros m n F; [discriminate|]. inversion F; subst. cbn [set_pieces]. destruct p as [|c p]; [apply IH; assumption|].
  pose proof (set_known_safe m n (Some (trim (c :: p)))) as S. cbn [value_ok] in S.
  specialize (S (conj (cstr_trim _ H1) (trim_trimmed _))). destruct (set_known_header m n (Some (trim (c :: p)))); cbn [res_bind]; [apply IH; assumption|discriminate|congruence].
Qed.

Lemma join_incl : forall l x, In x l -> incl x (join l).
Proof.
  induction l as [|y l IH]; intros x H; [contradiction|]. destruct l as [|z l].
  - destruct H as [->|[]]. cbn [join]. intros c I. exact I.
  - rewrite join_cons by discriminate. destruct H as [->|H]; intros c I; apply in_or_app; [left; exact I|]. right. right. apply (IH x H c I).
Qed.

Theorem C56_header_field : forall m n hv, value_ok hv -> set_multiple_header m n hv <> UB.
Proof.
  intros m n hv V. unfold set_multiple_header. destruct hv as [v|]; [|apply set_known_safe; exact I].
  destruct (_ || _); [apply set_known_safe; exact V|]. apply set_pieces_safe. apply Forall_forall. intros x H.
  eapply cstr_incl; [apply join_incl; exact H|]. rewrite C43_join. apply V.
Qed.
Print Assumptions C56_header_field.

(** ** The lines *)
Lemma is_eol_nul : is_eol NUL = false. Proof. reflexivity. Qed.

Lemma next_crlf_ok : forall s p, 0 <= p <= slen s ->
  next_crlf s p = Ok Missing \/ next_crlf s p = Ok Folded \/ exists e, next_crlf s p = Ok (Found e) /\ p < e <= slen s.
Proof.
  intros s p P. unfold next_crlf. destruct (scan_end_ok s p is_eol P) as (q & -> & Q). cbn [res_bind].
  destruct (q =? slen s) eqn:E; [left; reflexivity|]. apply Z.eqb_neq in E.
  rewrite (ch_ok s q) by lia. cbn [res_bind]. rewrite (ch_ok s (q + 1)) by lia. cbn [res_bind].
  destruct (is_ch (byte s q) cr && is_ch (byte s (q + 1)) lf) eqn:C.
  - assert (q + 1 < slen s) as L.
    { destruct (Z.eq_dec (q + 1) (slen s)) as [D|D]; [|lia]. exfalso. rewrite D in C.
      assert (byte s (slen s) = NUL) as R by (unfold byte; rewrite slen_to_nat; apply nth_overflow; lia). rewrite R in C.
      rewrite andb_comm in C. discriminate. }
    rewrite ch_ok by lia. cbn [res_bind]. destruct (_ || _); [right; left; reflexivity|]. right. right. eexists. split; [reflexivity|]. lia.
  - rewrite ch_ok by lia. cbn [res_bind]. destruct (_ || _); [right; left; reflexivity|]. right. right. eexists. split; [reflexivity|]. lia.
Qed.

Lemma cut_value_ok : forall s i n m t, cstr s -> clrncpy_at s i n m = Ok t -> cstr t /\ trimmed t.
Proof.
  intros s i n m t C H. unfold clrncpy_at in H. destruct (_ && _); [|discriminate]. inversion H. split; [|apply trim_trimmed].
  apply cstr_trim. apply cstr_firstn. apply cstr_skipn. exact C.
Qed.

Lemma headers_loop_ok : forall fuel s p b m, cstr s -> 0 <= p <= slen s -> 0 <= b <= slen s -> slen s - p < Z.of_nat fuel ->
  headers_loop fuel s p b m <> UB /\ forall m' k, headers_loop fuel s p b m = Ok (m', k) -> 0 <= k <= slen s.
Proof.
  induction fuel as [|fuel IH]; intros s p b m C P B F; [lia|]. cbn [headers_loop]. rewrite ch_ok by lia. cbn [res_bind].
  destruct (is_ch (byte s p) NUL); [split; [discriminate|intros ? ? H; inversion H; subst; exact B]|].
  assert (forall e, p < e <= slen s \/ e = 0 -> True) as _ by auto.
  assert (forall (x : res (message * Z)) c, x = Err c -> x <> UB /\ forall m' k, x = Ok (m', k) -> 0 <= k <= slen s) as ER.
  { intros x c ->. split; [discriminate|discriminate]. }
  destruct (next_crlf_ok s p P) as [->|[->|(e & -> & E)]]; cbn [res_bind].
  - eapply ER; reflexivity.
  - destruct (is_eol (byte s p)); [split; [discriminate|intros ? ? H; inversion H; subst; exact P]|].
    destruct (strchr_at_cases s p ":"%char P) as [[-> _]|(k & -> & K & _)]; cbn [res_bind]; [eapply ER; reflexivity|].
    destruct (_ <? 2); eapply ER; reflexivity.
  - destruct (is_eol (byte s p)); [split; [discriminate|intros ? ? H; inversion H; subst; exact P]|].
    destruct (strchr_at_cases s p ":"%char P) as [[-> _]|(k & -> & K & _)]; cbn [res_bind]; [eapply ER; reflexivity|].
    destruct (k - p + 1 <? 2) eqn:K2; [eapply ER; reflexivity|]. destruct (e <=? k) eqn:K3; [eapply ER; reflexivity|].
    destruct (clrncpy_at_ok s p (k - p) (k - p + 1)) as (hn & ->); [lia|lia|lia|lia|]. cbn [res_bind].
    rewrite ch_ok by lia. cbn [res_bind].
    assert (exists hv, value_ok hv /\ (if (if is_eol (byte s (e - 2)) then e - 2 else e - 1) - k <? 2 then Ok None
       else do v <- clrncpy_at s (k + 1) ((if is_eol (byte s (e - 2)) then e - 2 else e - 1) - k - 1) ((if is_eol (byte s (e - 2)) then e - 2 else e - 1) - k + 1); Ok (Some v)) = Ok hv) as (hv & V & ->).
    { destruct (is_eol (byte s (e - 2))).
      - destruct (e - 2 - k <? 2) eqn:G; [exists None; split; [exact I|reflexivity]|].
        destruct (clrncpy_at_ok s (k + 1) (e - 2 - k - 1) (e - 2 - k + 1)) as (v & Hv); [lia|lia|lia|lia|].
        exists (Some v). rewrite Hv. split; [eapply cut_value_ok; eauto|reflexivity].
      - destruct (e - 1 - k <? 2) eqn:G; [exists None; split; [exact I|reflexivity]|].
        destruct (clrncpy_at_ok s (k + 1) (e - 1 - k - 1) (e - 1 - k + 1)) as (v & Hv); [lia|lia|lia|lia|].
        exists (Some v). rewrite Hv. split; [eapply cut_value_ok; eauto|reflexivity]. }
    cbn [res_bind]. pose proof (C56_header_field m hn hv V) as S.
    destruct (set_multiple_header m hn hv) as [m'|c|]; [|eapply ER; reflexivity|congruence].
    apply IH; [exact C|lia|exact B|lia].
Qed.

Theorem C56_headers : forall s p m, cstr s -> 0 <= p <= slen s -> headers_parse s p m <> UB.
Proof. intros s p m C P. apply headers_loop_ok; auto. unfold slen in *. lia. Qed.
Print Assumptions C56_headers.

Lemma no_nul_ok : forall n s p, cstr s -> 0 <= p <= slen s -> no_nul s p n = Ok false \/ (no_nul s p n = Ok true /\ p + Z.of_nat n <= slen s).
Proof.
  induction n as [|n IH]; intros s p C P; cbn [no_nul]; [right; split; [reflexivity|lia]|].
  rewrite ch_ok by lia. cbn [res_bind]. destruct (is_ch (byte s p) NUL) eqn:N; [left; reflexivity|].
  assert (p < slen s) as L by (apply byte_nul; [exact C|lia|intros E; rewrite E in N; discriminate]).
  destruct (IH s (p + 1) C) as [->|[-> H]]; [lia|left; reflexivity|right; split; [reflexivity|lia]].
Qed.
Lemma after_eol_ok : forall s p, 0 <= p < slen s -> exists q, after_eol s p = Ok q /\ p < q <= slen s.
Proof.
  intros s p P. unfold after_eol. rewrite ch_ok by lia. cbn [res_bind]. rewrite ch_ok by lia. cbn [res_bind]. eexists. split; [reflexivity|].
  destruct (is_ch (byte s p) cr && is_ch (byte s (p + 1)) lf) eqn:C; [|lia].
  destruct (Z.eq_dec (p + 1) (slen s)) as [D|D]; [|lia]. exfalso. rewrite D in C.
  assert (byte s (slen s) = NUL) as R by (unfold byte; rewrite slen_to_nat; apply nth_overflow; lia). rewrite R in C.
  rewrite andb_comm in C. discriminate.
Qed.

Lemma startline_ok : forall s m, cstr s ->
  startline_parse s m <> UB /\ forall m' k, startline_parse s m = Ok (m', k) -> 0 <= k <= slen s.
Proof.
  intros s m C. assert (0 <= 0 <= slen s) as Z0 by (pose proof (slen_nonneg _ s); lia).
  assert (forall (x : res (message * Z)) c, x = Err c -> x <> UB /\ forall m' k, x = Ok (m', k) -> 0 <= k <= slen s) as ER.
  { intros x c ->. split; [discriminate|discriminate]. }
  unfold startline_parse. destruct (strneq 4 s _).
  - unfold parseresp. destruct (strchr_at_cases s 0 " "%char Z0) as [[-> _]|(sc & -> & SC & _)]; cbn [res_bind]; [eapply ER; reflexivity|].
    destruct (copy_at_ok s 0 sc (sc + 1)) as (v & ->); [lia|lia|lia|]. cbn [res_bind].
    destruct (strchr_at_cases s (sc + 1) " "%char) as [[-> _]|(rp & -> & R & RB & _)]; [lia| |]; cbn [res_bind]; [eapply ER; reflexivity|].
    destruct (tail_at_ok s (sc + 1)) as (t & -> & _); [lia|]. cbn [res_bind]. destruct (_ =? 0); [eapply ER; reflexivity|].
    destruct (scan_end_ok s rp is_eol) as (hp & HP & H); [lia|]. rewrite HP. cbn [res_bind].
    destruct (hp =? slen s) eqn:E; [eapply ER; reflexivity|]. apply Z.eqb_neq in E.
    assert (rp < hp) as L.
    { destruct (Z.eq_dec rp hp) as [D|D]; [|lia]. exfalso. subst hp. cbn [scan_fwd] in HP.
      replace (rp <? slen s) with true in HP by lia. rewrite ch_ok in HP by lia. cbn [res_bind] in HP. rewrite RB in HP. change (is_eol " ") with false in HP. cbv iota in HP.
      destruct (length s) as [|n] eqn:LN; [unfold slen in *; lia|].
      destruct (scan_fwd_ok (S n) s (rp + 1) (slen s) is_eol) as (r & HR & BR); [lia|lia|unfold slen in *; lia|]. rewrite HR in HP. inversion HP. lia. }
    destruct (copy_at_ok s (rp + 1) (hp - rp - 1) (hp - rp)) as (rs & ->); [lia|lia|lia|]. cbn [res_bind].
    destruct (after_eol_ok s hp) as (q & -> & Q); [lia|]. cbn [res_bind]. split; [discriminate|]. intros ? ? X. inversion X; subst. lia.
  - unfold parsereq. destruct (strchr_at_cases s 0 " "%char Z0) as [[-> _]|(p2 & -> & SC & _)]; cbn [res_bind]; [eapply ER; reflexivity|].
    destruct (no_nul_ok 2 s (p2 + 1) C) as [->|[-> N2]]; [lia|cbn [res_bind negb]; eapply ER; reflexivity|]. cbn [res_bind negb].
    destruct (p2 =? 0) eqn:P0; [eapply ER; reflexivity|].
    destruct (copy_at_ok s 0 p2 (p2 + 1)) as (v & ->); [lia|lia|lia|]. cbn [res_bind].
    destruct (strchr_at_cases s (p2 + 2) " "%char) as [[-> _]|(p1 & -> & R & _)]; [lia| |]; cbn [res_bind]; [eapply ER; reflexivity|].
    destruct (p1 - p2 <? 2) eqn:G; [eapply ER; reflexivity|].
    destruct (clrncpy_at_ok s (p2 + 1) (p1 - p2 - 1) (p1 - p2)) as (u & ->); [lia|lia|lia|lia|]. cbn [res_bind].
    pose proof (C56_uri u) as U. destruct (uri_parse u) as [uu|c|]; [|eapply ER; reflexivity|congruence].
    destruct (no_nul_ok 7 s (p1 + 1) C) as [->|[-> N7]]; [lia|cbn [res_bind negb]; eapply ER; reflexivity|]. cbn [res_bind negb].
    destruct (tail_at_ok s (p1 + 1)) as (t & -> & _); [lia|]. cbn [res_bind]. destruct (negb _); [eapply ER; reflexivity|].
    destruct (scan_end_ok s (p1 + 5) (fun c => negb (is_digit c || is_ch c "."))) as (hp & -> & H); [lia|]. cbn [res_bind].
    rewrite ch_ok by lia. cbn [res_bind]. destruct (is_eol (byte s hp)) eqn:EO; cbn [negb]; [|eapply ER; reflexivity].
    assert (hp < slen s) as L by (apply byte_nul; [exact C|lia|intros E; rewrite E in EO; discriminate]).
    destruct (copy_at_ok s (p1 + 1) (hp - p1 - 1) (hp - p1)) as (vs & ->); [lia|lia|lia|]. cbn [res_bind].
    destruct (after_eol_ok s hp) as (q & -> & Q); [lia|]. cbn [res_bind]. split; [discriminate|]. intros ? ? X. inversion X; subst. lia.
Qed.
Theorem C56_startline : forall s m, cstr s -> startline_parse s m <> UB.
Proof. intros. apply startline_ok. assumption. Qed.
Print Assumptions C56_startline.

(** ** Line folding *)
Lemma rd_ok : forall b i, 0 <= i < slen b -> rd b i = Ok (byte b i).
Proof.
  intros b i H. unfold rd. replace (i <? 0) with false by lia. unfold byte.
  destruct (nth_error b (Z.to_nat i)) as [c|] eqn:E; [rewrite (nth_error_nth _ _ NUL E); reflexivity|].
  apply nth_error_None in E. unfold slen in H. lia.
Qed.
Lemma wr_ok : forall b i c, 0 <= i < slen b ->
  exists b', wr b i c = Ok b' /\ slen b' = slen b /\ forall j, 0 <= j -> byte b' j = if j =? i then c else byte b j.
Proof.
  intros b i c H. unfold slen in H. destruct (cut _ b (Z.to_nat i)) as (a & r & -> & L); [lia|].
  destruct r as [|x r]; [rewrite app_nil_r in H; lia|]. exists (a ++ c :: r). rewrite (wr_at a x r) by (unfold len; lia).
  split; [reflexivity|]. split; [unfold slen; rewrite !app_length; reflexivity|]. intros j J. unfold byte.
  destruct (j =? i) eqn:E.
  - apply Z.eqb_eq in E. subst j. rewrite app_nth2 by lia. rewrite L, Nat.sub_diag. reflexivity.
  - apply Z.eqb_neq in E. destruct (Nat.lt_ge_cases (Z.to_nat j) (length a)) as [G|G].
    + rewrite !app_nth1 by lia. reflexivity.
    + rewrite !app_nth2 by lia. destruct (Z.to_nat j - length a)%nat eqn:D; [lia|reflexivity].
Qed.

(** What stays true of the buffer: its size, its terminator, a last character that is not blank *)
Definition buf_ok (n : Z) (b : buffer) : Prop := slen b = n + 1 /\ byte b n = NUL /\ (0 < n -> is_wsp (byte b (n - 1)) = false).

Lemma blank_out_ok : forall fuel n b p, buf_ok n b -> 0 <= p <= n -> n - p < Z.of_nat fuel ->
  exists b' q, blank_out fuel b p = Ok (b', q) /\ buf_ok n b' /\ p <= q <= n /\ (p < n -> q < n).
Proof.
  induction fuel as [|fuel IH]; intros n b p (B1 & B2 & B3) P F; [lia|]. cbn [blank_out]. rewrite rd_ok by lia. cbn [res_bind].
  destruct (is_ch (byte b p) tab || is_ch (byte b p) sp) eqn:W.
  - assert (p <> n) by (intros ->; rewrite B2 in W; discriminate).
    assert (p <> n - 1) by (intros ->; rewrite orb_comm in W; unfold is_wsp in B3; rewrite B3 in W by lia; discriminate).
    destruct (wr_ok b p sp) as (b' & -> & L & E); [lia|]. cbn [res_bind].
    destruct (IH n b' (p + 1)) as (b2 & q & -> & R & Q1 & Q2); [|lia|lia|].
    + split; [lia|]. rewrite !E by lia. replace (n =? p) with false by lia. replace (n - 1 =? p) with false by lia. split; [exact B2|exact B3].
    + exists b2, q. split; [reflexivity|]. split; [exact R|]. split; [lia|]. intros _. apply Q2. lia.
  - exists b, p. split; [reflexivity|]. split; [split; [exact B1|split; [exact B2|exact B3]]|]. split; lia.
Qed.

Lemma lws_loop_ok : forall fuel n b p, buf_ok n b -> 0 <= p <= n -> n - p < Z.of_nat fuel ->
  exists b', lws_loop fuel b p = Ok b' /\ buf_ok n b'.
Proof.
  induction fuel as [|fuel IH]; intros n b p B P F; [lia|]. pose proof B as (B1 & B2 & B3). cbn [lws_loop].
  assert (forall i, p <= i <= n -> is_ch (byte b i) NUL = false -> i < n) as NN.
  { intros i H1 H2. destruct (Z.eq_dec i n) as [->|]; [rewrite B2 in H2; discriminate|lia]. }
  rewrite rd_ok by lia. cbn [res_bind]. destruct (is_ch (byte b p) NUL) eqn:N0; [eauto|]. apply NN in N0; [|lia].
  rewrite rd_ok by lia. cbn [res_bind]. destruct (is_ch (byte b (p + 1)) NUL) eqn:N1; [eauto|]. apply NN in N1; [|lia].
  rewrite rd_ok by lia. cbn [res_bind]. destruct (is_ch (byte b (p + 2)) NUL) eqn:N2; [eauto|]. apply NN in N2; [|lia].
  rewrite rd_ok by lia. cbn [res_bind]. destruct (is_ch (byte b (p + 3)) NUL) eqn:N3; [eauto|]. apply NN in N3; [|lia].
  destruct (_ || _ || _); [eauto|]. destruct (_ || _ || _); [|apply IH; [exact B|lia|lia]].
  destruct (wr_ok b p sp) as (b1 & -> & L1 & E1); [lia|]. cbn [res_bind].
  destruct (wr_ok b1 (p + 1) sp) as (b2 & -> & L2 & E2); [lia|]. cbn [res_bind].
  assert (buf_ok n b2) as B'.
  { split; [lia|]. rewrite !E2 by lia. replace (n =? p + 1) with false by lia. replace (n - 1 =? p + 1) with false by lia.
    rewrite !E1 by lia. replace (n =? p) with false by lia. replace (n - 1 =? p) with false by lia. split; assumption. }
  destruct (blank_out_ok (S (length b)) n b2 (p + 2) B') as (b3 & q & -> & B3' & Q & Q2); [lia|unfold slen in *; lia|]. cbn [res_bind].
  apply IH; [exact B3'|lia|lia].
Qed.

(** Whatever the bytes of a message whose last one is not a blank, the removal of folding reads and
    writes inside the message only, and leaves its length unchanged. *)
Theorem C42_safe_partial : forall msg p, 0 <= p <= slen msg -> is_wsp (last msg NUL) = false ->
  exists b', replace_all_lws (msg ++ [NUL]) p = Ok (b' ++ [NUL]) /\ length b' = length msg.
Proof.
  intros msg p P L. destruct (lws_loop_ok (S (length (msg ++ [NUL]))) (slen msg) (msg ++ [NUL]) p) as (b & H & B1 & B2 & B3).
  - split; [sl|]. split; [apply (byte_at _ msg NUL []); reflexivity|]. intros N.
    destruct (snoc_case _ msg) as [->|(a & x & ->)]; [cbn in N; lia|]. rewrite last_last in L.
    rewrite (byte_at _ a x [NUL]); [exact L|rewrite <- app_assoc; reflexivity|sl].
  - exact P.
  - rewrite app_length. cbn [length]. unfold slen in *. lia.
  - destruct (snoc_case _ b) as [->|(a & x & ->)]; [rewrite slen_nil in B1; pose proof (slen_nonneg _ msg); lia|].
    rewrite slen_app, slen_cons, slen_nil in B1. rewrite (byte_at _ a x []) in B2; [|reflexivity|lia]. subst x.
    exists a. split; [exact H|]. unfold slen in B1. lia.
Qed.
Print Assumptions C42_safe_partial.

(** A message that ends in a fold followed by blanks only is read beyond its terminator. *)
Theorem C42_end_refuted : exists msg, replace_all_lws (msg ++ [NUL]) 0 = UB.
Proof. exists ($"a: b" ++ [cr; lf; sp; sp]). vm_compute. reflexivity. Qed.
Print Assumptions C42_end_refuted.

(** ** The whole message *)
Definition multipart (m : message) : Prop := exists c t, m_content_type m = Some c /\ ct_type c = Some t /\ map tolower t = $"multipart".

Lemma set_clen_safe : forall m v, set_content_length m (Some v) <> UB.
Proof.
  intros m v. unfold set_content_length, if_value. destruct v; [discriminate|]. unfold if_unset. destruct (m_content_length m); [discriminate|].
  pose proof (C56_content_length (a :: v)). destruct (clen_parse (a :: v)); cbn [res_bind]; [discriminate|discriminate|congruence].
Qed.
Lemma zero_length_safe : forall m, zero_length m <> UB.
Proof. intros m. unfold zero_length. destruct (m_content_length m); [discriminate|]. apply set_clen_safe. Qed.

Lemma rd_range_ok : forall b i n, 0 <= i -> 0 <= n -> i + n <= slen b -> exists l, rd_range b i n = Ok l /\ slen l = n.
Proof.
  intros b i n I N L. unfold rd_range. replace (i <? 0) with false by lia. replace (n <? 0) with false by lia.
  unfold slen in *. replace (Z.of_nat (length b) <? i + n) with false by lia. eexists. split; [reflexivity|].
  rewrite firstn_length, skipn_length. lia.
Qed.

Lemma body_parse_safe : forall m n b p, slen b = n + 1 -> byte b n = NUL -> 0 <= p <= n -> m_content_length m <> Some None ->
  ~ multipart m -> body_parse m b p (n - p) <> UB.
Proof.
  intros m n b p B1 B2 P CL NM. unfold body_parse. destruct (m_content_type m) as [[[ty|] [su|] ps]|] eqn:CT; try discriminate.
  destruct (strcaseeq ty ($"multipart")) eqn:E; cbn [negb].
  { exfalso. apply NM. exists (mkCT (Some ty) (Some su) ps), ty. split; [exact CT|]. split; [reflexivity|]. apply strcaseeq_true in E. exact E. }
  rewrite rd_ok by lia. cbn [res_bind]. destruct (is_ch (byte b p) NUL) eqn:N0; [discriminate|].
  assert (p < n) as PN by (destruct (Z.eq_dec p n) as [->|]; [rewrite B2 in N0; discriminate|lia]).
  assert (forall st, p < st <= n -> (let length := n - p - (st - p) in
      if length =? 0 then Err OSIP_SYNTAXERROR else
      do r <- match m_content_length m with
              | Some (Some v) => Ok (m, (osip_atoi v) mod 18446744073709551616)
              | Some None => UB
              | None => do m' <- set_content_length m (Some (sprintf_i (int32 length))) ; Ok (m', length)
              end ;
      let (m', len) := r : message * Z in
      if length <? len then Err OSIP_SYNTAXERROR
      else do l <- rd_range b st len ; Ok (set_body m' l)) <> UB) as K.
  { intros st ST. cbv zeta. destruct (_ =? 0) eqn:L0; [discriminate|].
    destruct (m_content_length m) as [[v|]|] eqn:Ecl; [| congruence |].
    - cbn [res_bind]. destruct (_ <? _) eqn:G; [discriminate|].
      destruct (rd_range_ok b st (osip_atoi v mod 18446744073709551616)) as (l & -> & _); [lia|apply Z.mod_pos_bound; lia|lia|]. discriminate.
    - pose proof (set_clen_safe m (sprintf_i (int32 (n - p - (st - p))))) as S. destruct (set_content_length m _); cbn [res_bind]; [|discriminate|congruence].
      destruct (_ <? _) eqn:G; [discriminate|]. destruct (rd_range_ok b st (n - p - (st - p))) as (l & -> & _); [lia|lia|lia|]. discriminate. }
  destruct (is_ch (byte b p) cr).
  - rewrite rd_ok by lia. cbn [res_bind]. apply K. destruct (is_ch (byte b (p + 1)) lf) eqn:D; [|lia].
    destruct (Z.eq_dec (p + 1) n) as [X|]; [rewrite X, B2 in D; discriminate|lia].
  - destruct (is_ch (byte b p) lf); [|discriminate]. cbn [res_bind]. apply K. lia.
Qed.

Lemma c_string_ok : forall t k, 0 <= k < slen t -> byte t k = NUL -> exists s, c_string t = Ok s /\ cstr s /\ slen s <= k.
Proof.
  induction t as [|c t IH]; intros k K N; [cbn in K; lia|]. cbn [c_string]. destruct (Ascii.eqb_spec c NUL) as [E|E].
  - exists []. split; [reflexivity|]. split; [intros []|]. cbn. lia.
  - rewrite slen_cons in K. assert (k <> 0) by (intros ->; cbn in N; congruence).
    destruct (IH (k - 1)) as (s & -> & C & L); [lia| |].
    + unfold byte in *. replace (Z.to_nat k) with (S (Z.to_nat (k - 1))) in N by lia. exact N.
    + exists (c :: s). split; [reflexivity|]. split; [apply cstr_cons; split; assumption|]. rewrite slen_cons. lia.
Qed.
Lemma cstr_from_ok : forall b p n, 0 <= p <= n -> n < slen b -> byte b n = NUL ->
  exists s, cstr_from b p = Ok s /\ cstr s /\ p + slen s <= n.
Proof.
  intros b p n P N B. unfold cstr_from. replace (p <? 0) with false by lia. replace (slen b <=? p) with false by lia. cbn [orb].
  destruct (c_string_ok (skipn (Z.to_nat p) b) (n - p)) as (s & -> & C & L).
  - unfold slen in *. rewrite skipn_length. lia.
  - rewrite <- B. unfold byte. rewrite <- (firstn_skipn (Z.to_nat p) b) at 2. unfold slen in *. rewrite app_nth2; rewrite firstn_length; [|lia]. f_equal. lia.
  - exists s. split; [reflexivity|]. split; [exact C|lia].
Qed.

Lemma skip_eols_ok : forall fuel b p n, 0 <= p <= n -> slen b = n + 1 -> byte b n = NUL -> n - p < Z.of_nat fuel ->
  exists q, skip_eols fuel b p = Ok q /\ p <= q <= n.
Proof.
  induction fuel as [|fuel IH]; intros b p n P B1 B2 F; [lia|]. cbn [skip_eols]. rewrite rd_ok by lia. cbn [res_bind].
  destruct (is_eol (byte b p)) eqn:E; [|exists p; split; [reflexivity|lia]].
  assert (p <> n) by (intros ->; rewrite B2 in E; discriminate).
  destruct (IH b (p + 1) n) as (q & -> & Q); [lia|exact B1|exact B2|lia|]. exists q. split; [reflexivity|lia].
Qed.

(** Everything before the body: the headers are parsed, or an error is returned, without leaving
    the memory of the message. *)
Definition parse_head (msg : list ascii) : res (message * buffer * Z) :=
  let b := msg ++ [NUL] in
  do p <- skip_eols (S (length b)) b 0 ;
  do b <- replace_all_lws b p ;
  do s <- cstr_from b p ;
  do r <- startline_parse s msg_init ;
  let (m, h) := r : message * Z in
  do r <- headers_parse s h m ;
  let (m, k) := r : message * Z in
  Ok (match m_content_length m with Some None => with_content_length None m | _ => m end, b, p + k).
Definition parse_tail (msg : list ascii) (m : message) (b : buffer) (t : Z) : res message :=
  do c <- rd b t ;
  do d <- (if is_ch c cr then rd b (t + 1) else Ok NUL) ;
  let has_body :=
    match m_content_length m with
    | Some (Some v) => int32 (strtol v) >? 0
    | Some None => false
    | None => is_ch c cr && is_ch d lf && negb (slen msg - t - 2 =? 0)
              || is_ch c lf && negb (slen msg - t - 1 =? 0)
    end in
  if has_body then do m <- body_parse m b t (slen msg - t) ; zero_length m
  else zero_length m.
Lemma message_parse_eq : forall msg, message_parse msg = do x <- parse_head msg ; let '(m, b, t) := x in parse_tail msg m b t.
Proof.
  intros msg. unfold message_parse, parse_head, parse_tail.
  destruct (skip_eols _ _ _) as [p| |]; [|reflexivity|reflexivity]. cbn [res_bind].
  destruct (replace_all_lws _ _) as [b| |]; [|reflexivity|reflexivity]. cbn [res_bind].
  destruct (cstr_from _ _) as [s| |]; [|reflexivity|reflexivity]. cbn [res_bind].
  destruct (startline_parse _ _) as [[m h]| |]; [|reflexivity|reflexivity]. cbn [res_bind].
  destruct (headers_parse _ _ _) as [[m' k]| |]; reflexivity.
Qed.

Lemma parse_head_ok : forall msg, is_wsp (last msg NUL) = false -> parse_head msg <> UB /\
  forall m b t, parse_head msg = Ok (m, b, t) -> slen b = slen msg + 1 /\ byte b (slen msg) = NUL /\ 0 <= t <= slen msg /\ m_content_length m <> Some None.
Proof.
  intros msg L. unfold parse_head. assert (slen (msg ++ [NUL]) = slen msg + 1) as B1 by sl.
  assert (byte (msg ++ [NUL]) (slen msg) = NUL) as B2 by (apply (byte_at _ msg NUL []); reflexivity).
  pose proof (slen_nonneg _ msg) as NN.
  destruct (skip_eols_ok (S (length (msg ++ [NUL]))) (msg ++ [NUL]) 0 (slen msg)) as (p & -> & P); [lia|exact B1|exact B2|rewrite app_length; cbn [length]; unfold slen; lia|].
  cbn [res_bind]. destruct (C42_safe_partial msg p) as (b & -> & LB); [lia|exact L|]. cbn [res_bind].
  assert (slen (b ++ [NUL]) = slen msg + 1) as C1 by (rewrite slen_app, slen_cons, slen_nil; unfold slen; lia).
  assert (byte (b ++ [NUL]) (slen msg) = NUL) as C2 by (apply (byte_at _ b NUL []); [reflexivity|unfold slen; lia]).
  destruct (cstr_from_ok (b ++ [NUL]) p (slen msg)) as (s & -> & CS & LS); [lia|lia|exact C2|]. cbn [res_bind].
  destruct (startline_ok s msg_init CS) as [U1 R1]. destruct (startline_parse s msg_init) as [[m h]|c|]; cbn [res_bind]; [|split; discriminate|congruence].
  specialize (R1 m h eq_refl).
  destruct (headers_loop_ok (S (length s)) s h h m CS) as [U2 R2]; [exact R1|exact R1|unfold slen in *; lia|]. unfold headers_parse.
  destruct (headers_loop (S (length s)) s h h m) as [[m' k]|c|]; cbn [res_bind]; [|split; discriminate|congruence].
  specialize (R2 m' k eq_refl). split; [discriminate|]. intros m0 b0 t0 H. inversion H; subst. split; [exact C1|]. split; [exact C2|]. split; [lia|].
  destruct (m_content_length m') as [[v|]|] eqn:E; rewrite ?E; [discriminate|discriminate|discriminate].
Qed.

(** osip_message_parse: no byte outside the message is used, for any bytes received, when the
    last one is not a blank and the message does not announce a multipart body. *)
Theorem C56_message_partial : forall msg, is_wsp (last msg NUL) = false ->
  (forall m b t, parse_head msg = Ok (m, b, t) -> ~ multipart m) -> message_parse msg <> UB.
Proof.
  intros msg L NM. rewrite message_parse_eq. destruct (parse_head_ok msg L) as [U R].
  destruct (parse_head msg) as [[[m b] t]|c|]; cbn [res_bind]; [|discriminate|congruence].
  destruct (R m b t eq_refl) as (B1 & B2 & T & CL). specialize (NM m b t eq_refl). clear R U. unfold parse_tail.
  rewrite rd_ok by lia. cbn [res_bind].
  assert (exists d, (if is_ch (byte b t) cr then rd b (t + 1) else Ok NUL) = Ok d) as (d & ->).
  { destruct (is_ch (byte b t) cr) eqn:E; [|eauto]. assert (t <> slen msg) by (intros ->; rewrite B2 in E; discriminate). rewrite rd_ok by lia. eauto. }
  cbn [res_bind]. match goal with |- (if ?h then _ else _) <> UB => destruct h end; [|apply zero_length_safe].
  pose proof (body_parse_safe m (slen msg) b t B1 B2 T CL NM) as S. destruct (body_parse m b t (slen msg - t)); cbn [res_bind]; [apply zero_length_safe|discriminate|congruence].
Qed.
Print Assumptions C56_message_partial.

(** Any received message whose Content-Type is not multipart and that ends in a line break meets
    these hypotheses; here one that is accepted. *)
Definition crlf := [cr; lf].
Definition sample : list ascii :=
  $"INVITE sip:bob@b.example SIP/2.0" ++ crlf ++ $"Via: SIP/2.0/UDP a.example;branch=z9hG4bK7" ++ crlf ++
  $"From: <sip:al@a.example>;tag=1" ++ crlf ++ $"To: <sip:bob@b.example>" ++ crlf ++ $"Call-ID: x@a" ++ crlf ++
  $"CSeq: 1 INVITE" ++ crlf ++ $"Content-Type: text/plain" ++ crlf ++ $"Content-Length: 2" ++ crlf ++ crlf ++ $"hello".
Example C56_message_example : is_wsp (last sample NUL) = false /\
  (forall m b t, parse_head sample = Ok (m, b, t) -> ~ multipart m) /\
  exists m, message_parse sample = Ok m /\ m_bodies m = [mkBody ($"he") [] None].
Proof.
  split; [reflexivity|]. split.
  - intros m b t H (c & ty & H1 & H2 & H3).
    assert (match parse_head sample with Ok (m, _, _) => m_content_type m | _ => None end = Some (mkCT (Some ($"text")) (Some ($"plain")) [])) as E by (vm_compute; reflexivity).
    rewrite H in E. rewrite H1 in E. inversion E; subst. cbn [ct_type] in H2. inversion H2; subst. discriminate.
  - assert (match message_parse sample with Ok m => Some (m_bodies m) | _ => None end = Some [mkBody ($"he") [] None]) as E by (vm_compute; reflexivity).
    destruct (message_parse sample) as [m| |]; [|discriminate|discriminate]. exists m. split; [reflexivity|]. injection E as E. exact E.
Qed.

(** A message ending in a folded blank line is read beyond its end, and a multipart body with an
    empty part makes the parser copy a negative number of bytes. *)
Theorem C56_message_refuted :
  message_parse ($"SIP/2.0 200 OK" ++ crlf ++ $"a: b" ++ crlf ++ $"  ") = UB /\
  message_parse ($"SIP/2.0 200 OK" ++ crlf ++ $"Content-Type: multipart/mixed;boundary=b" ++ crlf ++ crlf ++
                 crlf ++ $"--b" ++ crlf ++ $"--b--" ++ crlf) = UB.
Proof. split; vm_compute; reflexivity. Qed.
Print Assumptions C56_message_refuted.

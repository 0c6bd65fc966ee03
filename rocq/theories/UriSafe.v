(** C56 for SIP URIs: parsing any text touches no byte outside of it, nor outside of the copies
    it allocates. *)
From Coq Require Import String ZArith NArith Ascii Bool List Lia ZifyBool ZifyNat.
From Verif Require Import Base Str StrLemmas MemModel MemLemmas Types PortModel CString CStringLemmas SafeLemmas UriModel EscapeProps UriProps UriRound.
Import ListNotations.
Open Scope Z_scope.

Lemma parse_params_safe : forall fuel s params acc, 0 <= params < slen s -> slen s - params < Z.of_nat fuel ->
  exists l, parse_params_loop fuel s params acc = Ok l.
Proof.
  induction fuel as [|fuel IH]; intros s params acc H F; [lia|]. cbn [parse_params_loop].
  destruct (next_separator_cases s (params + 1) "="%char ";"%char) as [_ NS]; [lia|].
  destruct (strchr_at_cases s (params + 1) ";"%char) as [[SC _]|(c & SC & C & _)]; [lia| |];
    (destruct NS as [NS|(q & NS & Q & _ & _ & QT)]; rewrite NS, SC; cbn [res_bind]).
  - destruct (slen s - params <? 2) eqn:E; [eauto|]. destruct (copy_at_ok s (params + 1) (slen s - params - 1) (slen s - params)) as (t & ->); [lia|lia|lia|]. cbn [res_bind]. eauto.
  - destruct (slen s - q <? 2) eqn:E1; [eauto|]. destruct (copy_at_ok s (q + 1) (slen s - q - 1) (slen s - q)) as (v & ->); [lia|lia|lia|]. cbn [res_bind].
    destruct (q - params <? 2) eqn:E; [eauto|]. destruct (copy_at_ok s (params + 1) (q - params - 1) (q - params)) as (t & ->); [lia|lia|lia|]. cbn [res_bind]. eauto.
  - destruct (c - params <? 2) eqn:E; [eauto|]. destruct (copy_at_ok s (params + 1) (c - params - 1) (c - params)) as (t & ->); [lia|lia|lia|]. cbn [res_bind].
    apply IH; lia.
  - specialize (QT c SC). destruct (c - q <? 2) eqn:E1; [eauto|]. destruct (copy_at_ok s (q + 1) (c - q - 1) (c - q)) as (v & ->); [lia|lia|lia|]. cbn [res_bind].
    destruct (q - params <? 2) eqn:E; [eauto|]. destruct (copy_at_ok s (params + 1) (q - params - 1) (q - params)) as (t & ->); [lia|lia|lia|]. cbn [res_bind].
    apply IH; lia.
Qed.

Lemma parse_headers_safe : forall fuel s h acc, 0 <= h < slen s -> byte s h <> "="%char -> slen s - h < Z.of_nat fuel ->
  exists l, parse_headers_loop fuel s h acc = Ok l.
Proof.
  induction fuel as [|fuel IH]; intros s h acc H B F; [lia|]. cbn [parse_headers_loop].
  destruct (strchr_at_cases s h "="%char) as [[SE _]|(e & SE & E & BE & _)]; [lia| |]; rewrite SE; cbn [res_bind];
    (destruct (strchr_at_cases s (h + 1) "&"%char) as [[SA _]|(a & SA & A & BA & _)]; [lia| |]; rewrite SA; cbn [res_bind]); eauto.
  - assert (e <> h) by congruence. destruct (copy_at_ok s (h + 1) (e - h - 1) (e - h)) as (n & ->); [lia|lia|lia|]. cbn [res_bind].
    destruct (slen s - e + 1 <? 2); [eauto|]. destruct (copy_at_ok s (e + 1) (slen s - e) (slen s - e + 1)) as (v & ->); [lia|lia|lia|]. cbn [res_bind]. eauto.
  - assert (e <> h) by congruence. destruct (copy_at_ok s (h + 1) (e - h - 1) (e - h)) as (n & ->); [lia|lia|lia|]. cbn [res_bind].
    destruct (a - e <? 2) eqn:G; [eauto|]. destruct (copy_at_ok s (e + 1) (a - e - 1) (a - e)) as (v & ->); [lia|lia|lia|]. cbn [res_bind].
    apply IH; [lia|rewrite BA; discriminate|lia].
Qed.

Lemma hostport_safe : forall s host params, 0 <= host < params -> params <= slen s -> uri_hostport s host params <> UB.
Proof.
  intros s host params H L. unfold uri_hostport.
  destruct (scan_back_ok (S (length s)) s host (params - 1) (fun c => Ascii.eqb c "]"%char || Ascii.eqb c ":"%char)) as (port & -> & P); [lia|lia|unfold slen in *; lia|]. cbn [res_bind].
  rewrite ch_ok by lia. cbn [res_bind].
  assert (forall pp pt, host <= pp <= params -> (do tmp <- scan_back (S (length s)) s host pp (fun c => Ascii.eqb c "]"%char) ;
    do c <- ch s tmp ;
    do hp <- (if Ascii.eqb c "]"%char then
              do h <- scan_fwd (S (length s)) s host tmp (fun c => Ascii.eqb c "["%char) ;
              if h >=? tmp then Err OSIP_SYNTAXERROR else Ok (h, tmp)
            else Ok (host, pp)) ;
    let (host, port) := hp in
    if port - host <? 2 then Err OSIP_SYNTAXERROR
    else do h <- clrncpy_at s (host + 1) (port - host - 1) (port - host) ; Ok (h, pt)) <> (UB : res (str * option str))) as R.
  { intros pp pt PP. destruct (scan_back_ok (S (length s)) s host pp (fun c => Ascii.eqb c "]"%char)) as (tmp & -> & T); [lia|lia|unfold slen in *; lia|]. cbn [res_bind].
    rewrite ch_ok by lia. cbn [res_bind]. destruct (Ascii.eqb (byte s tmp) "]"%char).
    - destruct (scan_fwd_ok (S (length s)) s host tmp (fun c => Ascii.eqb c "["%char)) as (h & -> & HH); [lia|lia|unfold slen in *; lia|]. cbn [res_bind].
      destruct (h >=? tmp); cbn [res_bind]; [discriminate|]. destruct (tmp - h <? 2) eqn:E; [discriminate|].
      destruct (clrncpy_at_ok s (h + 1) (tmp - h - 1) (tmp - h)) as (t & ->); [lia|lia|lia|lia|]. discriminate.
    - cbn [res_bind]. destruct (pp - host <? 2) eqn:E; [discriminate|].
      destruct (clrncpy_at_ok s (host + 1) (pp - host - 1) (pp - host)) as (t & ->); [lia|lia|lia|lia|]. discriminate. }
  destruct (Ascii.eqb (byte s port) ":"%char).
  - destruct (host =? port); cbn [res_bind]; [apply R; lia|].
    destruct (_ || _) eqn:E; [discriminate|]. apply orb_false_iff in E.
    destruct (clrncpy_at_ok s (port + 1) (params - port - 1) (params - port)) as (t & ->); [lia|lia|lia|lia|]. cbn [res_bind]. apply R. lia.
  - cbn [res_bind]. apply R. lia.
Qed.

Lemma userinfo_safe : forall s col, 0 <= col < slen s -> byte s col = ":"%char -> (forall j, 0 <= j < col -> byte s j <> "@"%char) ->
  uri_userinfo s col = Err OSIP_SYNTAXERROR \/
  exists u p h, uri_userinfo s col = Ok (u, p, h) /\ 0 <= h < slen s /\ (byte s h = ":"%char \/ byte s h = "@"%char).
Proof.
  intros s col H B N. unfold uri_userinfo.
  destruct (strchr_at_cases s 0 "@"%char) as [[SA _]|(a & SA & A & BA & _)]; [lia| |]; rewrite SA; cbn [res_bind].
  { right. eexists _, _, _. split; [reflexivity|]. split; [lia|auto]. }
  rewrite ch_ok by lia. cbn [res_bind]. destruct (Ascii.eqb_spec (byte s (col + 1)) "@"%char) as [E|E].
  { right. eexists _, _, _. split; [reflexivity|]. split; [|auto].
    destruct (Z_lt_le_dec (col + 1) (slen s)) as [L|L]; [lia|]. exfalso. unfold byte in E. rewrite nth_overflow in E by (unfold slen in *; lia). discriminate E. }
  assert (col < a) as CA.
  { destruct (Z_lt_le_dec a col) as [L|L]; [exfalso; apply (N a); [lia|exact BA]|]. assert (a <> col) by congruence. lia. }
  destruct (next_separator_cases s (col + 1) ":"%char "@"%char) as [_ NS]; [lia|].
  destruct NS as [NS|(q & NS & Q & _ & _ & QT)]; rewrite NS; cbn [res_bind].
  - destruct (a - col <? 2) eqn:G; [left; reflexivity|].
    destruct (copy_at_ok s (col + 1) (a - col - 1) (a - col)) as (t & ->); [lia|lia|lia|]. cbn [res_bind].
    right. eexists _, _, _. split; [reflexivity|]. split; [lia|auto].
  - specialize (QT a (strchr_at_later s 0 (col + 1) _ a SA ltac:(lia))).
    destruct (a - q <? 2) eqn:G; [left; reflexivity|].
    destruct (copy_at_ok s (q + 1) (a - q - 1) (a - q)) as (t & ->); [lia|lia|lia|]. cbn [res_bind].
    destruct (q - col <? 2) eqn:G'; [left; reflexivity|].
    destruct (copy_at_ok s (col + 1) (q - col - 1) (q - col)) as (t' & ->); [lia|lia|lia|]. cbn [res_bind].
    right. eexists _, _, _. split; [reflexivity|]. split; [lia|auto].
Qed.

Theorem C56_uri : forall s, uri_parse s <> UB.
Proof.
  intros s. unfold uri_parse. destruct s as [|s0 s1] eqn:Es; [discriminate|]. rewrite <- Es. clear Es s0 s1.
  destruct (strchr_at_cases s 0 ":"%char) as [[SC _]|(col & SC & C & BC & _)]; [sl| |]; rewrite SC; cbn [res_bind]; [discriminate|].
  destruct (col <? 2) eqn:E2; [discriminate|]. destruct (forallb is_alpha (firstn (Z.to_nat col) s)) eqn:AL; cbn [negb]; [|discriminate].
  destruct (copy_at_ok s 0 col (col + 1)) as (scheme & ->); [lia|lia|lia|]. cbn [res_bind].
  destruct (strchr scheme " "%char); [discriminate|].
  destruct (_ || _).
  - destruct (tail_at_ok s (col + 1)) as (t & -> & Lt & _); [lia|]. cbn [res_bind]. destruct (slen t <? 2) eqn:G; [discriminate|].
    destruct (copy_at_ok s (col + 1) (slen t) (slen t + 1)) as (x & ->); [lia|lia|lia|]. discriminate.
  - rewrite parse_sip_parts.
    destruct (userinfo_safe s col) as [->|(u & p & h & -> & H & BH)]; [lia|exact BC| | |]; cbn [res_bind fst snd]; [|discriminate|].
    { intros j J B. rewrite forallb_forall in AL. specialize (AL (byte s j)).
      assert (In (byte s j) (firstn (Z.to_nat col) s)) as I.
      { unfold byte. rewrite <- (firstn_skipn (Z.to_nat col) s) at 1. rewrite app_nth1; [apply nth_In|]; rewrite firstn_length; unfold slen in C; lia. }
      specialize (AL I). rewrite B in AL. discriminate AL. }
    assert (byte s h <> ";"%char /\ byte s h <> "?"%char) as [B1 B2] by (destruct BH as [->| ->]; split; discriminate).
    assert (exists hd, headers_part s h = Ok hd /\ h < fst hd <= slen s) as (hd & -> & HD).
    { unfold headers_part. destruct (strchr_at_cases s h "?"%char) as [[SQ _]|(q & SQ & Q & BQ & _)]; [lia| |]; rewrite SQ; cbn [res_bind].
      - eexists. split; [reflexivity|]. cbn [fst]. lia.
      - destruct (tail_at_ok s q) as (t & -> & Lt & Bt); [lia|]. cbn [res_bind].
        destruct (parse_headers_safe (S (length t)) t 0 []) as (l & E); [lia|rewrite Bt, Z.add_0_r, BQ by lia; discriminate|unfold slen in *; lia|].
        unfold parse_headers. rewrite E. cbn [res_bind]. eexists. split; [reflexivity|]. cbn [fst]. assert (q <> h) by congruence. lia. }
    cbn [res_bind].
    assert (params_part s h (fst hd) = Err OSIP_SYNTAXERROR \/ exists pd, params_part s h (fst hd) = Ok pd /\ h < fst pd <= slen s) as PP.
    { unfold params_part. destruct (strchr_at_cases s h ";"%char) as [[SQ _]|(q & SQ & Q & BQ & _)]; [lia| |]; rewrite SQ; cbn [res_bind].
      - right. eexists. split; [reflexivity|]. cbn [fst]. lia.
      - destruct (fst hd - q + 1 <? 2) eqn:G; [left; reflexivity|]. right.
        destruct (copy_at_ok s q (fst hd - q) (fst hd - q + 1)) as (t & Ct); [lia|lia|lia|]. rewrite Ct. cbn [res_bind].
        apply copy_at_len in Ct; [|lia].
        destruct (parse_params_safe (S (length t)) t 0 []) as (l & E); [lia|unfold slen in *; lia|].
        unfold parse_params. rewrite E. cbn [res_bind]. eexists. split; [reflexivity|]. cbn [fst]. assert (q <> h) by congruence. lia. }
    destruct PP as [->|(pd & -> & PD)]; cbn [res_bind]; [discriminate|].
    pose proof (hostport_safe s h (fst pd) ltac:(lia) ltac:(lia)) as HP.
    destruct (uri_hostport s h (fst pd)); cbn [res_bind]; [discriminate|discriminate|exact (fun _ => HP eq_refl)].
Qed.
Example C56_uri_witness : uri_parse ($"sip:@:;=?=&") = Err OSIP_SYNTAXERROR /\ uri_parse ($"sip:a]b;x;=%") <> UB.
Proof. split; [reflexivity|discriminate]. Qed.
Print Assumptions C56_uri.

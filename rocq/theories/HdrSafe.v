(** C56 for the headers of HdrModel: parsing any C string stays inside it. *)
From Coq Require Import String ZArith NArith Ascii Bool List Lia ZifyBool ZifyNat.
From Verif Require Import Base Str StrLemmas MemModel MemLemmas Types PortModel PortBuf PortProps QuoteProps CString CStringLemmas SafeLemmas UriModel UriSafe HdrModel.
Import ListNotations.
Open Scope Z_scope.

Lemma cstr_skipn : forall n s, cstr s -> cstr (skipn n s).
Proof. intros n s C I. apply C. rewrite <- (firstn_skipn n s). apply in_or_app. right. exact I. Qed.
Lemma cstr_firstn : forall n s, cstr s -> cstr (firstn n s).
Proof. intros n s C I. apply C. rewrite <- (firstn_skipn n s). apply in_or_app. left. exact I. Qed.

Lemma quote_at_cases : forall s i, cstr s -> 0 <= i <= slen s ->
  quote_at s i = Ok None \/ exists k, quote_at s i = Ok (Some k) /\ i <= k < slen s.
Proof.
  intros s i C H. unfold quote_at, in_range. replace (0 <=? i) with true by lia. replace (i <=? slen s) with true by lia. cbn [andb].
  destruct (C30_quote_find (skipn (Z.to_nat i) s) [] (cstr_skipn _ _ C)) as (r & -> & R). cbn [res_bind]. destruct r as [z|]; cbn [option_map]; [right|left; reflexivity].
  destruct R as (k & -> & (R & _) & _). eexists. split; [reflexivity|].
  assert (k < length (skipn (Z.to_nat i) s))%nat as L by (apply nth_error_Some; congruence). rewrite skipn_length in L. unfold slen in *. lia.
Qed.

Lemma scan_end_ok : forall s p stop, 0 <= p <= slen s -> exists r, scan_fwd (S (length s)) s p (slen s) stop = Ok r /\ p <= r <= slen s.
Proof. intros s p stop H. apply scan_fwd_ok; unfold slen in *; lia. Qed.

Lemma param_ends_safe : forall s p, cstr s -> 0 <= p < slen s -> exists eq comma, param_ends s p = Ok (eq, comma) /\
  (forall q, eq = Some q -> p + 1 <= q < slen s) /\
  (forall k, comma = Some k -> p + 1 <= k < slen s /\ forall q, eq = Some q -> q < k).
Proof.
  intros s p C H. unfold param_ends.
  destruct (next_separator_cases s (p + 1) "="%char ";"%char) as [_ NS]; [lia|].
  destruct (strchr_at_cases s (p + 1) ";"%char) as [[SC _]|(k & SC & K & _)]; [lia| |];
    (destruct NS as [NS|(q & NS & Q & _ & _ & QT)]; rewrite NS, SC; cbn [res_bind]).
  - eexists _, _. split; [reflexivity|]. split; discriminate.
  - destruct (scan_end_ok s (q + 1) (fun c => negb (is_ch c " "%char))) as (t & -> & T); [lia|]. cbn [res_bind]. rewrite ch_ok by lia. cbn [res_bind].
    exists (Some q), None. split; [destruct (is_ch _ _); reflexivity|]. split; [intros ? [= <-]; lia|discriminate].
  - eexists _, _. split; [reflexivity|]. split; [discriminate|]. intros ? [= <-]. split; [lia|discriminate].
  - specialize (QT k SC).
    destruct (scan_end_ok s (q + 1) (fun c => negb (is_ch c " "%char))) as (t & -> & T); [lia|]. cbn [res_bind]. rewrite ch_ok by lia. cbn [res_bind].
    destruct (is_ch _ _).
    + destruct (Z.gtb_spec k t) as [G|G].
      * destruct (quote_at_cases s (t + 1) C) as [->|(z & -> & Z)]; [lia| |]; cbn [res_bind].
        -- exists (Some q), None. split; [reflexivity|]. split; [intros ? [= <-]; lia|discriminate].
        -- destruct (strchr_at_cases s z ";"%char) as [[-> _]|(k' & -> & K' & _)]; [lia| |]; cbn [res_bind].
           ++ exists (Some q), None. split; [reflexivity|]. split; [intros ? [= <-]; lia|discriminate].
           ++ exists (Some q), (Some k'). split; [reflexivity|]. split; [intros ? [= <-]; lia|]. intros ? [= <-]. split; [lia|]. intros ? [= <-]. lia.
      * exists (Some q), (Some k). split; [reflexivity|]. split; [intros ? [= <-]; lia|]. intros ? [= <-]. split; [lia|]. intros ? [= <-]. lia.
    + exists (Some q), (Some k). split; [reflexivity|]. split; [intros ? [= <-]; lia|]. intros ? [= <-]. split; [lia|]. intros ? [= <-]. lia.
Qed.

Lemma param_value_safe : forall s q e, 0 <= q < e -> e <= slen s -> param_value s q e <> UB.
Proof.
  intros s q e H L. unfold param_value.
  destruct (scan_end_ok s (q + 1) (fun c => negb (is_ch c (chr 9) || is_ch c " "%char))) as (t & -> & T); [lia|]. cbn [res_bind]. rewrite ch_ok by lia. cbn [res_bind].
  destruct (_ || _); [discriminate|]. destruct (e - q <? 2) eqn:E; [discriminate|].
  destruct (copy_at_ok s (q + 1) (e - q - 1) (e - q)) as (v & ->); [lia|lia|lia|]. discriminate.
Qed.

Lemma gparams_loop_safe : forall fuel s p acc, cstr s -> 0 <= p < slen s -> slen s - p < Z.of_nat fuel -> gparams_loop fuel s p acc <> UB.
Proof.
  induction fuel as [|fuel IH]; intros s p acc C H F; [lia|]. cbn [gparams_loop].
  destruct (param_ends_safe s p C H) as (eq & comma & -> & P1 & P2). cbn [res_bind].
  assert (forall q v, p < q <= slen s -> (forall k, comma = Some k -> q <= k) ->
    (if q - p <? 2 then Err OSIP_SYNTAXERROR else
       do n <- copy_at s (p + 1) (q - p - 1) (q - p) ;
       match comma with Some c => gparams_loop fuel s c (acc ++ [param_set n v]) | None => Ok (acc ++ [param_set n v]) end) <> UB) as A.
  { intros q v Q K. destruct (q - p <? 2) eqn:E; [discriminate|]. destruct (copy_at_ok s (p + 1) (q - p - 1) (q - p)) as (n & ->); [lia|lia|lia|]. cbn [res_bind].
    destruct comma as [k|]; [|discriminate]. specialize (P2 k eq_refl). apply IH; [exact C|lia|lia]. }
  assert (0 <= match comma with Some c => c | None => slen s end <= slen s) as E0 by (destruct comma; [specialize (P2 _ eq_refl)|]; lia).
  destruct eq as [q|].
  - specialize (P1 q eq_refl). pose proof (param_value_safe s q (match comma with Some c => c | None => slen s end)) as PV.
    destruct (param_value s q _) as [v|e|]; cbn [res_bind].
    + apply A; [lia|]. intros k ->. specialize (P2 k eq_refl). destruct P2 as [_ P2]. specialize (P2 q eq_refl). lia.
    + discriminate.
    + exfalso. apply PV; [|lia|reflexivity]. destruct comma as [k|]; [|lia]. specialize (P2 k eq_refl). destruct P2 as [_ P2]. specialize (P2 q eq_refl). lia.
  - destruct comma as [k|].
    + specialize (P2 k eq_refl). apply A; [lia|]. intros ? [= <-]. lia.
    + specialize (A (slen s) None ltac:(lia) ltac:(discriminate)). destruct (slen s - p <? 2) eqn:E; [discriminate|exact A].
Qed.

Theorem C56_generic_params : forall s, cstr s -> s <> [] -> gparams_parse s <> UB.
Proof. intros s C N. apply gparams_loop_safe; [exact C|pose proof (slen_pos _ s N); lia|unfold slen; lia]. Qed.

Lemma gparams_tail_safe : forall s g, cstr s -> 0 <= g < slen s -> (do t <- tail_at s g ; gparams_parse t) <> UB.
Proof.
  intros s g C H. unfold tail_at, in_range. replace (0 <=? g) with true by lia. replace (g <=? slen s) with true by lia. cbn [andb res_bind].
  apply C56_generic_params; [apply cstr_skipn, C|]. intros E. apply (f_equal (@length _)) in E. rewrite skipn_length in E. unfold slen in H. cbn in E. lia.
Qed.
Lemma gparams_part_safe : forall s po, cstr s -> (forall g, po = Some g -> 0 <= g < slen s) ->
  match po with None => Ok [] | Some p => do t <- tail_at s p ; gparams_parse t end <> UB.
Proof. intros s [g|] C H; [|discriminate]. apply gparams_tail_safe; auto. Qed.

(** * From, To, Contact, Route, Record-Route *)
Lemma byte_nul : forall s i, cstr s -> 0 <= i <= slen s -> byte s i <> NUL -> i < slen s.
Proof. intros s i C H B. destruct (Z_lt_le_dec i (slen s)) as [L|L]; [exact L|]. exfalso. apply B. unfold byte. apply nth_overflow. unfold slen in *. lia. Qed.

Lemma from_head_safe : forall s p, cstr s -> 0 <= p < slen s ->
  (exists e, from_head s p = Err e) \/ exists d u, from_head s p = Ok (d, u) /\ 0 <= u < slen s.
Proof.
  intros s p C H. unfold from_head. rewrite ch_ok by lia. cbn [res_bind]. destruct (is_ch (byte s p) dquote).
  - destruct (quote_at_cases s (p + 1) C) as [->|(q & -> & Q)]; [lia| |]; cbn [res_bind]; [left; eauto|].
    replace (q - p + 2 >=? 2) with true by lia.
    destruct (copy_at_ok s p (q - p + 1) (q - p + 2)) as (d & ->); [lia|lia|lia|]. cbn [res_bind].
    destruct (scan_end_ok s (q + 1) (fun c => negb (is_ch c " "%char))) as (u & -> & U); [lia|]. cbn [res_bind]. rewrite ch_ok by lia. cbn [res_bind].
    unfold is_ch. destruct (Ascii.eqb_spec (byte s u) "<"%char) as [B|B]; cbn [negb]; [|left; eauto].
    assert (u < slen s) by (apply byte_nul; [exact C|lia|rewrite B; discriminate]).
    rewrite ch_ok by lia. cbn [res_bind]. destruct (Ascii.eqb _ NUL); [left; eauto|]. right. eexists _, _. split; [reflexivity|lia].
  - destruct (scan_end_ok s p (fun c => negb (name_char c))) as (u & -> & U); [lia|]. cbn [res_bind]. rewrite ch_ok by lia. cbn [res_bind]. unfold is_ch.
    destruct (Ascii.eqb_spec (byte s u) NUL) as [|N]; [left; eauto|].
    assert (u < slen s) by (apply byte_nul; [exact C|lia|exact N]).
    destruct (Ascii.eqb _ "<"%char); [|right; eexists _, _; split; [reflexivity|lia]].
    rewrite ch_ok by lia. cbn [res_bind]. destruct (Ascii.eqb _ NUL); [left; eauto|]. destruct (u - p >? 0) eqn:G.
    + destruct (clrncpy_at_ok s 0 (u - p) (u - p + 1)) as (d & ->); [lia|lia|lia|lia|]. cbn [res_bind]. right. eexists _, _. split; [reflexivity|lia].
    + right. eexists _, _. split; [reflexivity|lia].
Qed.

Lemma from_tail_safe : forall s d u, cstr s -> 0 <= u < slen s -> from_tail s d u <> UB.
Proof.
  intros s d u C H. unfold from_tail. rewrite ch_ok by lia. cbn [res_bind].
  assert (forall url e g, 0 <= url <= slen s -> (forall k, g = Some k -> 0 <= k < slen s) ->
    (do ps <- match g with None => Ok [] | Some g => do t <- tail_at s g ; gparams_parse t end ;
     if e - url + 2 <? 7 then Err OSIP_SYNTAXERROR
     else do t <- copy_at s url (e - url + 1) (e - url + 2) ; do u <- uri_parse t ; Ok (mkNA d (Some u) ps)) <> (UB : res nameaddr)) as R.
  { intros url e g U G. pose proof (gparams_part_safe s g C G) as GP. destruct (match g with None => _ | Some _ => _ end) as [ps|er|]; cbn [res_bind]; [|discriminate|contradiction].
    destruct (e - url + 2 <? 7) eqn:E; [discriminate|]. destruct (copy_at_ok s url (e - url + 1) (e - url + 2)) as (t & ->); [lia|lia|lia|]. cbn [res_bind].
    pose proof (C56_uri t) as UP. destruct (uri_parse t); cbn [res_bind]; [discriminate|discriminate|contradiction]. }
  destruct (is_ch (byte s u) "<"%char).
  - destruct (strchr_at_cases s (u + 1) ">"%char) as [[-> _]|(g & -> & G & _)]; [lia| |]; cbn [res_bind]; [discriminate|].
    destruct (strchr_at_cases s (g - 1) ";"%char) as [[-> _]|(k & -> & K & _)]; [lia| |]; cbn [res_bind];
      [apply (R (u + 1) (g - 1) None); [lia|discriminate]|apply (R (u + 1) (g - 1) (Some k)); [lia|intros ? [= <-]; lia]].
  - destruct (strchr_at_cases s u ";"%char) as [[-> _]|(k & -> & K & _)]; [lia| |]; cbn [res_bind];
      [apply (R u (slen s) None); [lia|discriminate]|apply (R u (k - 1) (Some k)); [lia|intros ? [= <-]; lia]].
Qed.

Theorem C56_from : forall s, cstr s -> from_parse s <> UB.
Proof.
  intros s C. unfold from_parse.
  destruct (scan_end_ok s 0 (fun c => negb (is_ch c " "%char))) as (p & -> & P); [sl|]. cbn [res_bind]. rewrite ch_ok by lia. cbn [res_bind]. unfold is_ch.
  destruct (Ascii.eqb_spec (byte s p) NUL) as [|N]; [discriminate|].
  assert (p < slen s) by (apply byte_nul; [exact C|lia|exact N]).
  destruct (from_head_safe s p C) as [(e & ->)|(d & u & -> & U)]; [lia| |]; cbn [res_bind fst snd]; [discriminate|]. apply from_tail_safe; auto.
Qed.
Theorem C56_contact : forall s, cstr s -> contact_parse s <> UB.
Proof. intros s C. unfold contact_parse. destruct s as [|c s']; [apply C56_from, C|]. destruct (is_ch c "*"%char); [discriminate|apply C56_from, C]. Qed.

(** * Via *)

(** A Via that ends in one space right after its second slash is read beyond its end. *)
Theorem C56_via_refuted : exists s, cstr s /\ via_parse s = UB.
Proof. exists ($"SIP/2.0/ "). split; [intros I; repeat (destruct I as [I|I]; [discriminate I|]); exact I|reflexivity]. Qed.

Lemma via_spaces_safe : forall fuel s h, 0 <= h < slen s -> byte s (slen s - 1) <> " "%char -> slen s - h < Z.of_nat fuel ->
  (exists e, via_spaces fuel s h = Err e) \/ exists r, via_spaces fuel s h = Ok r /\ h <= r < slen s.
Proof.
  induction fuel as [|fuel IH]; intros s h H L F; [lia|]. cbn [via_spaces]. rewrite ch_ok by lia. cbn [res_bind]. unfold is_ch.
  destruct (Ascii.eqb_spec (byte s h) " "%char) as [B|B]; [|right; eexists; split; [reflexivity|lia]].
  destruct (_ =? 1) eqn:E; [left; eauto|].
  assert (h <> slen s - 1) by congruence.
  destruct (IH s (h + 1)) as [X|(r & X & R)]; [lia|exact L|lia|left; exact X|right; exists r; split; [exact X|lia]].
Qed.

Lemma via_comment_safe : forall s h, 0 <= h < slen s -> byte s h <> "("%char ->
  (exists e, via_comment s h = Err e) \/ exists c e, via_comment s h = Ok (c, e) /\ h <= e <= slen s.
Proof.
  intros s h H B. unfold via_comment. destruct (strchr_at_cases s h "("%char) as [[-> _]|(c & -> & K & BC & _)]; [lia| |]; cbn [res_bind].
  - right. eexists _, _. split; [reflexivity|lia].
  - destruct (strchr_at_cases s h ")"%char) as [[-> _]|(e & -> & E & _)]; [lia| |]; cbn [res_bind]; [left; eauto|].
    destruct (e - c <? 2) eqn:G; [left; eauto|]. destruct (copy_at_ok s (c + 1) (e - c - 1) (e - c)) as (t & ->); [lia|lia|lia|]. cbn [res_bind].
    right. eexists _, _. split; [reflexivity|]. assert (c <> h) by congruence. lia.
Qed.

Lemma via_params_safe : forall s h e, cstr s -> 0 <= h < slen s -> h <= e <= slen s ->
  (exists x, via_params_part s h e = Err x) \/ exists ps q, via_params_part s h e = Ok (ps, q) /\ h <= q <= slen s.
Proof.
  intros s h e C H E. unfold via_params_part. destruct (strchr_at_cases s h ";"%char) as [[-> _]|(v & -> & V & _)]; [lia| |]; cbn [res_bind].
  - right. eexists _, _. split; [reflexivity|lia].
  - destruct (v <? e) eqn:VE; [|right; eexists _, _; split; [reflexivity|lia]].
    replace (e - v + 1 <? 2) with false by lia.
    destruct (copy_at_ok s v (e - v) (e - v + 1)) as (t & T); [lia|lia|lia|]. rewrite T. cbn [res_bind].
    assert (cstr t) as Ct.
    { unfold copy_at in T. destruct (_ && _ && _); [|discriminate]. injection T as <-. apply cstr_firstn, cstr_skipn, C. }
    assert (t <> []) as Nt by (apply copy_at_len in T; [|lia]; intros ->; rewrite slen_nil in T; lia).
    pose proof (C56_generic_params t Ct Nt) as GP. destruct (gparams_parse t); cbn [res_bind]; [|left; eauto|contradiction].
    right. eexists _, _. split; [reflexivity|lia].
Qed.

Lemma via_sentby_safe : forall s h e, 0 <= h < slen s -> h <= e <= slen s -> via_sentby s h e <> UB.
Proof.
  intros s h e H E. unfold via_sentby.
  assert (forall h6 port, (forall p, port = Some p -> 0 <= p < slen s) ->
    (do y <- match (match port with Some p => if p <? e then Some p else None | None => None end) with
          | Some p => if e - p <? 2 then Err OSIP_SYNTAXERROR
                      else do t <- clrncpy_at s (p + 1) (e - p - 1) (e - p) ;
                           if osip_atoi t <? 0 then Err OSIP_SYNTAXERROR else Ok (Some t, p)
          | None => Ok (None, e)
          end ;
     let (ptext, p) := (y : option str * Z) in
     match h6 with
     | Some h => Ok (h, ptext)
     | None => if p - h <? 2 then Err OSIP_SYNTAXERROR
            else do h <- clrncpy_at s (h + 1) (p - h - 1) (p - h) ; Ok (h, ptext)
     end) <> (UB : res (str * option str))) as R.
  { intros h6 port P.
    assert (forall pt p, p <= slen s -> match h6 with
     | Some h => Ok (h, pt)
     | None => if p - h <? 2 then Err OSIP_SYNTAXERROR
            else do h <- clrncpy_at s (h + 1) (p - h - 1) (p - h) ; Ok (h, pt)
     end <> (UB : res (str * option str))) as Q.
    { intros pt p L. destruct h6; [discriminate|]. destruct (p - h <? 2) eqn:G; [discriminate|].
      destruct (clrncpy_at_ok s (h + 1) (p - h - 1) (p - h)) as (t & ->); [lia|lia|lia|lia|]. discriminate. }
    destruct port as [p|]; [|cbn [res_bind]; apply Q; lia]. specialize (P p eq_refl).
    destruct (p <? e) eqn:L; [|cbn [res_bind]; apply Q; lia].
    destruct (e - p <? 2) eqn:G; [discriminate|]. destruct (clrncpy_at_ok s (p + 1) (e - p - 1) (e - p)) as (t & ->); [lia|lia|lia|lia|]. cbn [res_bind].
    destruct (_ <? 0); [discriminate|]. cbn [res_bind]. apply Q. lia. }
  assert (forall k, strchr_at s h ":"%char = Ok k -> forall p, k = Some p -> 0 <= p < slen s) as PH.
  { intros k K p ->. apply strchr_at_inv in K. lia. }
  assert ((do port <- strchr_at s h ":"%char ; Ok (@None str, port)) <> UB) as PN by (destruct (strchr_at_ok s h ":"%char) as [X Y]; [lia|]; destruct (strchr_at s h ":"%char); [discriminate|discriminate|contradiction]).
  destruct (strchr_at_cases s h "["%char) as [[-> _]|(b & -> & B & _)]; [lia| |]; cbn [res_bind].
  - destruct (strchr_at_cases s h ":"%char) as [[-> _]|(p & -> & P & _)]; [lia| |]; cbn [res_bind]; [apply (R None None); discriminate|apply (R None (Some p)); intros ? [= <-]; lia].
  - destruct (b <? e) eqn:BE.
    + destruct (strchr_at_cases s b "]"%char) as [[-> _]|(p & -> & P & _)]; [lia| |]; cbn [res_bind]; [discriminate|].
      destruct (p >? e) eqn:PE; [discriminate|]. destruct (p - b <? 2) eqn:PB; [discriminate|].
      destruct (clrncpy_at_ok s (b + 1) (p - b - 1) (p - b)) as (t & ->); [lia|lia|lia|lia|]. cbn [res_bind].
      destruct (strchr_at_cases s p ":"%char) as [[-> _]|(k & -> & K & _)]; [lia| |]; cbn [res_bind]; [apply (R (Some t) None); discriminate|apply (R (Some t) (Some k)); intros ? [= <-]; lia].
    + destruct (strchr_at_cases s h ":"%char) as [[-> _]|(p & -> & P & _)]; [lia| |]; cbn [res_bind]; [apply (R None None); discriminate|apply (R None (Some p)); intros ? [= <-]; lia].
Qed.

(** Every other C string is parsed inside its bounds. *)
Theorem C56_via_partial : forall s, cstr s -> last s NUL <> " "%char -> via_parse s <> UB.
Proof.
  intros s C L0. unfold via_parse.
  destruct (strchr_at_cases s 0 "/"%char) as [[-> _]|(v & -> & V & _)]; [sl| |]; cbn [res_bind]; [discriminate|].
  assert (byte s (slen s - 1) <> " "%char) as L.
  { unfold byte. intros X. apply L0. destruct (snoc_case _ s) as [E|(a & x & E)]; [rewrite E in V; cbn in V; lia|]; subst s.
    rewrite last_last. rewrite slen_app, slen_cons, slen_nil in X. replace (Z.to_nat (slen a + (1 + 0) - 1)) with (length a) in X by (unfold slen; lia).
    rewrite app_nth2, Nat.sub_diag in X by lia. exact X. }
  destruct (strchr_at_cases s (v + 1) "/"%char) as [[-> _]|(p & -> & P & _)]; [lia| |]; cbn [res_bind]; [discriminate|].
  destruct (p - v <? 2) eqn:G; [discriminate|]. destruct (clrncpy_at_ok s (v + 1) (p - v - 1) (p - v)) as (t & ->); [lia|lia|lia|lia|]. cbn [res_bind].
  assert (forall h, p < h < slen s -> byte s h <> "("%char ->
    (if h - p <? 2 then Err OSIP_SYNTAXERROR
          else
            do pr <- clrncpy_at s (p + 1) (h - p - 1) (h - p) ;
            do c <- via_comment s h ;
            do ps <- via_params_part s h (snd c) ;
            do hp <- via_sentby s h (snd ps) ;
            Ok (mkVia (Some t) (Some pr) (Some (fst hp)) (snd hp) (fst c) (fst ps))) <> UB) as R.
  { intros h H B. destruct (h - p <? 2) eqn:G1; [discriminate|]. destruct (clrncpy_at_ok s (p + 1) (h - p - 1) (h - p)) as (pr & ->); [lia|lia|lia|lia|]. cbn [res_bind].
    destruct (via_comment_safe s h) as [(e & ->)|(c & e & -> & E)]; [lia|exact B|discriminate|]. cbn [res_bind snd].
    destruct (via_params_safe s h e C) as [(x & ->)|(ps & q & -> & Q)]; [lia|lia|discriminate|]. cbn [res_bind snd].
    pose proof (via_sentby_safe s h q ltac:(lia) ltac:(lia)) as S. destruct (via_sentby s h q); cbn [res_bind]; [discriminate|discriminate|contradiction]. }
  destruct (strchr_at_cases s (p + 1) " "%char) as [[-> _]|(h & -> & H & BH & _)]; [lia| |]; cbn [res_bind]; [discriminate|].
  destruct (h =? p + 1).
  - destruct (via_spaces_safe (S (length s)) s h) as [(e & ->)|(r & -> & HR)]; [lia|exact L|unfold slen; lia|discriminate|]. cbn [res_bind].
    destruct (strchr_at_cases s (r + 1) " "%char) as [[-> _]|(h' & -> & H' & B' & _)]; [lia| |]; cbn [res_bind]; [discriminate|]. apply R; [lia|rewrite B'; discriminate].
  - cbn [res_bind]. apply R; [lia|rewrite BH; discriminate].
Qed.

(** * CSeq, Call-ID, Content-Length, Content-Type, Accept-Encoding, Call-Info *)
Theorem C56_cseq : forall s, cseq_parse s <> UB.
Proof.
  intros s. unfold cseq_parse. destruct (strchr_at_cases s 0 " "%char) as [[-> _]|(m & -> & M & _)]; [sl| |]; cbn [res_bind]; [discriminate|].
  destruct (m - 0 + 1 <? 2) eqn:G; [discriminate|]. destruct (clrncpy_at_ok s 0 m (m + 1)) as (t & ->); [lia|lia|lia|lia|]. cbn [res_bind].
  replace (slen s - m + 1 <? 2) with false by lia. unfold clrncpy_nul, in_range.
  replace (0 <=? m + 1) with true by lia. replace (m + 1 <=? slen s) with true by lia. replace (_ + 1 <=? _ + 1) with true by lia.
  replace (m + 1 + (slen s - m) =? slen s + 1) with true by lia. discriminate.
Qed.
Theorem C56_call_id : forall s, call_id_parse s <> UB.
Proof.
  intros s. unfold call_id_parse. destruct (strchr_at_cases s 0 "@"%char) as [[-> _]|(m & -> & M & _)]; [sl| |]; cbn [res_bind].
  - destruct (_ <? 2) eqn:G; [discriminate|]. destruct (clrncpy_at_ok s 0 (slen s) (slen s + 1)) as (t & ->); [lia|sl|lia|lia|]. discriminate.
  - replace (slen s - m + 1 <? 2) with false by lia. destruct (clrncpy_at_ok s (m + 1) (slen s - m - 1) (slen s - m)) as (t & ->); [lia|lia|lia|lia|]. cbn [res_bind].
    destruct (_ <? 2) eqn:G; [discriminate|]. destruct (clrncpy_at_ok s 0 m (m + 1)) as (t' & ->); [lia|lia|lia|lia|]. discriminate.
Qed.
Theorem C56_content_length : forall s, clen_parse s <> UB.
Proof.
  intros s. unfold clen_parse. destruct (_ <? 2) eqn:G; [discriminate|]. destruct (copy_at_ok s 0 (slen s) (slen s + 1)) as (t & ->); [sl|sl|lia|]. discriminate.
Qed.
Theorem C56_content_type : forall s, cstr s -> ctype_parse s <> UB.
Proof.
  intros s C. unfold ctype_parse. destruct s as [|c0 s0] eqn:Es; [discriminate|]. rewrite <- Es in *. clear Es.
  destruct (strchr_at_cases s 0 "/"%char) as [[-> _]|(m & -> & M & _)]; [sl| |]; cbn [res_bind];
    (destruct (strchr_at_cases s 0 ";"%char) as [[-> _]|(g & -> & G & _)]; [sl| |]; cbn [res_bind]); try discriminate.
  - destruct (m - 0 + 1 <? 2) eqn:G1; [discriminate|]. destruct (clrncpy_at_ok s 0 m (m + 1)) as (t & ->); [lia|lia|lia|lia|]. cbn [res_bind].
    destruct (slen s - m <? 2) eqn:G2; [discriminate|]. destruct (clrncpy_at_ok s (m + 1) (slen s - m - 1) (slen s - m)) as (t' & ->); [lia|lia|lia|lia|]. discriminate.
  - pose proof (gparams_tail_safe s g C G) as GP. destruct (do t <- tail_at s g ; gparams_parse t); cbn [res_bind]; [|discriminate|contradiction].
    destruct (m - 0 + 1 <? 2) eqn:G1; [discriminate|]. destruct (clrncpy_at_ok s 0 m (m + 1)) as (t & ->); [lia|lia|lia|lia|]. cbn [res_bind].
    destruct (g - m <? 2) eqn:G2; [discriminate|]. destruct (clrncpy_at_ok s (m + 1) (g - m - 1) (g - m)) as (t' & ->); [lia|lia|lia|lia|]. discriminate.
Qed.
Theorem C56_accept_encoding : forall s, cstr s -> aenc_parse s <> UB.
Proof.
  intros s C. unfold aenc_parse.
  destruct (strchr_at_cases s 0 ";"%char) as [[-> _]|(g & -> & G & _)]; [sl| |]; cbn [res_bind].
  - destruct (_ <? 2) eqn:G1; [discriminate|]. destruct (clrncpy_at_ok s 0 (slen s) (slen s + 1)) as (t & ->); [lia|sl|lia|lia|]. discriminate.
  - pose proof (gparams_tail_safe s g C G) as GP. destruct (do t <- tail_at s g ; gparams_parse t); cbn [res_bind]; [|discriminate|contradiction].
    destruct (_ <? 2) eqn:G1; [discriminate|]. destruct (clrncpy_at_ok s 0 g (g + 1)) as (t & ->); [lia|lia|lia|lia|]. discriminate.
Qed.
Theorem C56_call_info : forall s, cstr s -> cinfo_parse s <> UB.
Proof.
  intros s C. unfold cinfo_parse.
  destruct (strchr_at_cases s 0 "<"%char) as [[-> _]|(a & -> & A & _)]; [sl| |]; cbn [res_bind]; [discriminate|].
  destruct (strchr_at_cases s (a + 1) ">"%char) as [[-> _]|(b & -> & B & _)]; [sl| |]; cbn [res_bind]; [discriminate|].
  destruct (strchr_at_cases s (b + 1) ";"%char) as [[-> _]|(g & -> & G & _)]; [sl| |]; cbn [res_bind].
  - destruct (_ <? 2) eqn:G1; [discriminate|]. destruct (clrncpy_at_ok s 0 (slen s) (slen s + 1)) as (t & ->); [lia|sl|lia|lia|]. discriminate.
  - pose proof (gparams_tail_safe s g C ltac:(lia)) as GP. destruct (do t <- tail_at s g ; gparams_parse t); cbn [res_bind]; [|discriminate|contradiction].
    destruct (_ <? 2) eqn:G1; [discriminate|]. destruct (clrncpy_at_ok s 0 g (g + 1)) as (t & ->); [lia|lia|lia|lia|]. discriminate.
Qed.

Example C56_headers_witness : from_parse ($"""a\") = Err OSIP_SYNTAXERROR /\ from_parse ($"x<;") = Err OSIP_SYNTAXERROR /\
  via_parse ($"SIP/2.0/UDP  (;[:)") <> UB /\ cseq_parse ($" ") = Err OSIP_SYNTAXERROR /\ last ($"SIP/2.0/  x") NUL <> " "%char.
Proof. repeat split; discriminate. Qed.
Print Assumptions C56_from.
Print Assumptions C56_via_partial.

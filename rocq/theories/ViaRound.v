(** C34: Via, C36: CSeq and Call-ID, C38: Content-Type, Accept, Accept-Encoding, Call-Info:
    what is printed is parsed back; matching of Call-ID and CSeq. *)
From Coq Require Import String ZArith NArith Ascii Bool List Lia ZifyBool ZifyNat.
From Verif Require Import Base Str StrLemmas MemModel MemLemmas Types TimeModel PortModel PortBuf PortProps QuoteProps CString CStringLemmas SafeLemmas
  UriModel EscapeProps UriProps UriRound ViaModel CloneModel TransModel MatchModel HdrModel HdrProps HdrSafe HdrRound FromRound.
Import ListNotations.
Open Scope Z_scope.

(** * Via *)

(** A text that is not empty, does not begin or end with white space and has none of [cs] *)
Definition field (cs s : str) : Prop := s <> [] /\ trimmed s /\ without cs s.

Record via_wf (v : via) (ver pr h : str) : Prop := {
  vw_version : v_version v = Some ver /\ field ($"/") ver;
  vw_protocol : v_protocol v = Some pr /\ field ($" ") pr;
  vw_host : v_host v = Some h /\ field ($" ()[];") h;
  vw_port : forall p, v_port v = Some p -> field ($";()[") p /\ 0 <= osip_atoi p;
  vw_params : Forall gparam_wf (v_params v) /\ without ($"()") (print_params (v_params v));
  vw_comment : forall c, v_comment v = Some c -> c <> [] /\ without ($")") c /\ (v_params v = [] -> without ($";") c) }.

Lemma strchr_beyond : forall s a x r c i, s = a ++ x ++ r -> i = slen a -> ~ In c x ->
  exists o, strchr_at s i c = Ok o /\ match o with None => True | Some k => slen a + slen x <= k end.
Proof.
  intros s a x r c i E -> N. destruct (strchr_at_cases s (slen a) c) as [[-> _]|(k & -> & K & B & _)]; [rewrite E; sl|exists None; auto|].
  exists (Some k). split; [reflexivity|]. destruct (Z_le_gt_dec (slen a + slen x) k) as [|G]; [assumption|exfalso]. apply N. rewrite <- B.
  unfold byte. rewrite E, app_nth2 by (unfold slen in *; lia). rewrite app_nth1 by (unfold slen in *; lia). apply nth_In. unfold slen in *; lia.
Qed.

Lemma via_sentby_ok : forall s A h port r, s = A ++ " "%char :: (host_text h ++ port_text port) ++ r -> field ($" ()[];") h ->
  (forall p, port = Some p -> field ($";()[") p /\ 0 <= osip_atoi p) ->
  via_sentby s (slen A) (slen A + 1 + slen (host_text h ++ port_text port)) = Ok (h, port).
Proof.
  intros s A h port r E (HN & HT & HW) PW. unfold via_sentby. pose proof (slen_pos _ h HN) as LH.
  unfold host_text in *. destruct (strchr h ":"%char) as [k|] eqn:Ek.
  - assert (strchr_at s (slen A) "["%char = Ok (Some (slen A + 1))) as ->.
    { rewrite (strchr_at_some s A [" "%char] "["%char (h ++ ["]"%char] ++ port_text port ++ r)); [f_equal; f_equal; sl|rewrite E; cat|reflexivity|notin]. }
    cbn [res_bind]. replace (slen A + 1 <? _) with true by sl.
    rewrite (strchr_at_some s (A ++ [" "%char]) ("["%char :: h) "]"%char (port_text port ++ r)); [|rewrite E; cat|sl|notin]. cbn [res_bind].
    replace (_ >? _) with false by sl. replace (_ <? 2) with false by sl.
    rewrite (clrncpy_at_app s (A ++ [" "%char; "["%char]) h ("]"%char :: port_text port ++ r)); [|rewrite E; cat|sl|sl|sl]. cbn [res_bind]. rewrite (trim_id _ HT).
    destruct port as [p|]; cbn [port_text] in *.
    + destruct (PW p eq_refl) as ((PN & PT & PW') & PA). pose proof (slen_pos _ p PN) as LP.
      rewrite (strchr_at_some s (A ++ " "%char :: "["%char :: h) ["]"%char] ":"%char (p ++ r)); [|rewrite E; cat|sl|notin]. cbn [res_bind].
      replace (_ <? slen A + _ + _) with true by sl. replace (_ <? 2) with false by sl.
      rewrite (clrncpy_at_app s (A ++ " "%char :: "["%char :: h ++ ["]"%char; ":"%char]) p r); [|rewrite E; cat|sl|sl|sl]. cbn [res_bind]. rewrite (trim_id _ PT).
      replace (osip_atoi p <? 0) with false by lia. reflexivity.
    + destruct (strchr_beyond s (A ++ " "%char :: "["%char :: h) ["]"%char] r ":"%char (slen (A ++ [" "%char]) + slen ("["%char :: h))) as (o & -> & O); [rewrite E; cat|sl|notin|]. cbn [res_bind].
      destruct o as [k'|]; [replace (k' <? _) with false by sl|]; reflexivity.
  - assert (~ In ":"%char h) as NC by (apply strchr_none; exact Ek).
    destruct (strchr_beyond s A (" "%char :: h ++ port_text port) r "["%char (slen A)) as (o & -> & O); [rewrite E; cat|reflexivity| |].
    { destruct port as [p|]; cbn [port_text]; [destruct (PW p eq_refl) as ((_ & _ & PW') & _)|]; notin. }
    cbn [res_bind]. assert (match o with Some b => if b <? slen A + 1 + slen (h ++ port_text port) then Some b else None | None => None end = None) as ->.
    { destruct o as [b|]; [|reflexivity]. replace (b <? _) with false by sl. reflexivity. }
    destruct port as [p|]; cbn [port_text] in *.
    + destruct (PW p eq_refl) as ((PN & PT & PW') & PA). pose proof (slen_pos _ p PN) as LP.
      rewrite (strchr_at_some s A (" "%char :: h) ":"%char (p ++ r)); [|rewrite E; cat|reflexivity|notin]. cbn [res_bind].
      replace (_ <? slen A + _ + _) with true by sl. replace (_ <? 2) with false by sl.
      rewrite (clrncpy_at_app s (A ++ " "%char :: h ++ [":"%char]) p r); [|rewrite E; cat|sl|sl|sl]. cbn [res_bind]. rewrite (trim_id _ PT).
      replace (osip_atoi p <? 0) with false by lia. cbn [res_bind]. replace (_ <? 2) with false by sl.
      rewrite (clrncpy_at_app s (A ++ [" "%char]) h (":"%char :: p ++ r)); [|rewrite E; cat|sl|sl|sl]. cbn [res_bind]. rewrite (trim_id _ HT). reflexivity.
    + rewrite app_nil_r in *. destruct (strchr_beyond s A (" "%char :: h) r ":"%char (slen A)) as (o' & -> & O'); [rewrite E; cat|reflexivity|notin|]. cbn [res_bind].
      assert (match o' with Some b => if b <? slen A + 1 + slen h then Some b else None | None => None end = None) as ->.
      { destruct o' as [b|]; [|reflexivity]. replace (b <? _) with false by sl. reflexivity. }
      cbn [res_bind]. replace (_ <? 2) with false by sl.
      rewrite (clrncpy_at_app s (A ++ [" "%char]) h r); [|rewrite E; cat|sl|sl|sl]. cbn [res_bind]. rewrite (trim_id _ HT). reflexivity.
Qed.

Theorem C34_round_trip : forall v ver pr h, via_wf v ver pr h -> exists t, via_print v = Ok t /\ via_parse t = Ok v.
Proof.
  intros v ver pr h [[E1 (N1 & T1 & W1)] [E2 (N2 & T2 & W2)] [E3 F3] WP [WG WQ] WC].
  set (hp := host_text h ++ port_text (v_port v)). set (P := print_params (v_params v)).
  set (C := match v_comment v with None => [] | Some c => " "%char :: "("%char :: c ++ [")"%char] end).
  exists (["S"%char; "I"%char; "P"%char; "/"%char] ++ ver ++ "/"%char :: pr ++ " "%char :: hp ++ P ++ C). split.
  { rewrite C40_via. unfold via_to_str. rewrite E1, E2, E3. f_equal. unfold hp, C, P, host_text, port_text, has_colon.
    change ($"SIP/") with ["S"%char; "I"%char; "P"%char; "/"%char]. change ($"/") with ["/"%char]. change ($" ") with [" "%char].
    change ($" (") with [" "%char; "("%char]. change ($")") with [")"%char]. change ($"[") with ["["%char]. change ($"]:") with ["]"%char; ":"%char]. change ($"]") with ["]"%char]. change ($":") with [":"%char].
    destruct (strchr h ":"%char); destruct (v_port v); destruct (v_comment v); rewrite ?app_nil_r; cat. }
  set (s := ["S"%char; "I"%char; "P"%char; "/"%char] ++ ver ++ "/"%char :: pr ++ " "%char :: hp ++ P ++ C).
  set (A := ["S"%char; "I"%char; "P"%char; "/"%char] ++ ver ++ "/"%char :: pr).
  assert (s = A ++ " "%char :: hp ++ P ++ C) as Es by (unfold s, A; cat).
  pose proof (slen_pos _ _ N1) as L1. pose proof (slen_pos _ _ N2) as L2.
  assert (forall c, existsb (Ascii.eqb c) ($"();") = true -> ~ In c hp) as NHP.
  { intros c Hc I. unfold hp in I. apply in_app_iff in I. destruct F3 as (_ & _ & F3).
    assert (c = "("%char \/ c = ")"%char \/ c = ";"%char) as Hc'. { cbn in Hc. repeat (apply orb_true_iff in Hc; destruct Hc as [Hc|Hc]; [apply Ascii.eqb_eq in Hc; auto|]). discriminate. }
    destruct I as [I|I].
    - apply host_text_in in I. destruct Hc' as [->|[->| ->]]; (destruct I as [I|[I|I]]; [revert I; wo|discriminate I|discriminate I]).
    - unfold port_text in I. destruct (v_port v) as [p|]; [|destruct I]. destruct (WP p eq_refl) as ((_ & _ & WP') & _).
      destruct Hc' as [->|[->| ->]]; (destruct I as [I|I]; [discriminate I|revert I; wo]). }
  assert (~ In "("%char hp) as NH1 by (apply NHP; reflexivity). assert (~ In ")"%char hp) as NH2 by (apply NHP; reflexivity). assert (~ In ";"%char hp) as NH3 by (apply NHP; reflexivity).
  assert (~ In "("%char P) as NP1 by (apply (without_in _ _ _ WQ); reflexivity). assert (~ In ")"%char P) as NP2 by (apply (without_in _ _ _ WQ); reflexivity).
  unfold via_parse.
  rewrite (strchr_at_some s [] ["S"%char; "I"%char; "P"%char] "/"%char (ver ++ "/"%char :: pr ++ " "%char :: hp ++ P ++ C)); [|unfold s; cat|reflexivity|notin]. cbn [res_bind].
  rewrite (strchr_at_some s ["S"%char; "I"%char; "P"%char; "/"%char] ver "/"%char (pr ++ " "%char :: hp ++ P ++ C)); [|unfold s; cat|reflexivity|notin]. cbn [res_bind].
  replace (_ <? 2) with false by sl.
  rewrite (clrncpy_at_app s ["S"%char; "I"%char; "P"%char; "/"%char] ver ("/"%char :: pr ++ " "%char :: hp ++ P ++ C)); [|unfold s; cat|reflexivity|sl|sl]. cbn [res_bind]. rewrite (trim_id _ T1).
  rewrite (strchr_at_some s (["S"%char; "I"%char; "P"%char; "/"%char] ++ ver ++ ["/"%char]) pr " "%char (hp ++ P ++ C)); [|unfold s; cat|sl|notin]. cbn [res_bind].
  replace (_ =? _) with false by sl. cbn [res_bind]. replace (_ <? 2) with false by sl.
  rewrite (clrncpy_at_app s (["S"%char; "I"%char; "P"%char; "/"%char] ++ ver ++ ["/"%char]) pr (" "%char :: hp ++ P ++ C)); [|unfold s; cat|sl|sl|sl]. cbn [res_bind]. rewrite (trim_id _ T2).
  replace (slen (["S"%char; "I"%char; "P"%char; "/"%char] ++ ver ++ ["/"%char]) + slen pr) with (slen A) by (unfold A; sl). clearbody A.
  assert (via_comment s (slen A) = Ok (v_comment v, slen A + 1 + slen hp + slen P)) as VC.
  { unfold via_comment. unfold C in Es. destruct (v_comment v) as [c|] eqn:Ec.
    - destruct (WC c eq_refl) as (NC & WC' & _). pose proof (slen_pos _ _ NC) as LC.
      rewrite (strchr_at_some s A (" "%char :: hp ++ P ++ [" "%char]) "("%char (c ++ [")"%char])); [|rewrite Es; cat|reflexivity|notin]. cbn [res_bind].
      rewrite (strchr_at_some s A (" "%char :: hp ++ P ++ " "%char :: "("%char :: c) ")"%char []); [|rewrite Es; cat|reflexivity|notin]. cbn [res_bind].
      replace (_ <? 2) with false by sl. rewrite (copy_at_app s (A ++ " "%char :: hp ++ P ++ [" "%char; "("%char]) c [")"%char]); [|rewrite Es; cat|sl|sl|sl]. cbn [res_bind].
      f_equal. f_equal. sl.
    - rewrite app_nil_r in Es. rewrite (strchr_at_none s A (" "%char :: hp ++ P)); [|exact Es|reflexivity|notin]. cbn [res_bind]. f_equal. f_equal. rewrite Es. sl. }
  rewrite VC. cbn [res_bind fst snd].
  assert (via_params_part s (slen A) (slen A + 1 + slen hp + slen P) = Ok (v_params v, slen A + 1 + slen hp)) as VP.
  { unfold via_params_part. assert (v_params v = [] \/ v_params v <> []) as [Ep|NE] by (destruct (v_params v); [left; reflexivity|right; discriminate]).
    - assert (P = []) as EP by (unfold P; rewrite Ep; reflexivity). rewrite EP in Es |- *. cbn [app] in Es. rewrite (strchr_at_none s A (" "%char :: hp ++ C)); [|exact Es|reflexivity|].
      + cbn [res_bind]. rewrite Ep. f_equal. f_equal. sl.
      + unfold C. destruct (v_comment v) as [c|] eqn:Ec; [destruct (WC c eq_refl) as (_ & _ & WC'); specialize (WC' Ep)|]; notin.
    - destruct (params_end (v_params v)) as [X|(tl & X)]; fold P in X; [exfalso; apply NE; apply params_nil; exact X|].
      rewrite (strchr_at_some s A (" "%char :: hp) ";"%char (tl ++ C)); [|rewrite Es, X; cat|reflexivity|notin]. cbn [res_bind].
      assert (1 <= slen P) by (rewrite X; sl). replace (_ <? slen A + 1 + slen hp + slen P) with true by sl. replace (_ <? 2) with false by sl.
      rewrite (copy_at_app s (A ++ " "%char :: hp) P C); [|rewrite Es; cat|sl|sl|sl]. cbn [res_bind]. unfold P. rewrite (C37_round_trip _ NE WG). cbn [res_bind]. f_equal. f_equal. sl. }
  rewrite VP. cbn [res_bind fst snd]. unfold hp in *. rewrite (via_sentby_ok s A h (v_port v) (P ++ C)); [|rewrite Es; cat|exact F3|exact WP].
  cbn [res_bind fst snd]. f_equal. rewrite <- E1, <- E2, <- E3. destruct v; reflexivity.
Qed.

(** A ';' in the comment of a Via without parameters is taken as the end of the sent-by. *)
Theorem C34_comment_refuted : let v := mkVia (Some ($"2.0")) (Some ($"UDP")) (Some ($"h")) None (Some ($"a;b")) [] in
  exists t v', via_print v = Ok t /\ via_parse t = Ok v' /\ v_host v' = Some ($"h (a").
Proof. cbn zeta. eexists _, _. split; [vm_compute; reflexivity|]. split; vm_compute; reflexivity. Qed.

Lemma chk_without : forall cs s, forallb (fun c => negb (existsb (Ascii.eqb c) s)) cs = true -> without cs s.
Proof.
  intros cs s H c I J. rewrite forallb_forall in H. specialize (H c I). apply negb_true_iff in H. rewrite <- not_true_iff_false in H. apply H. apply existsb_exists. exists c. split; [exact J|apply Ascii.eqb_refl].
Qed.
Lemma chk_cstr : forall s, existsb (Ascii.eqb NUL) s = false -> cstr s.
Proof. intros s H I. rewrite <- not_true_iff_false in H. apply H. apply existsb_exists. exists NUL. auto. Qed.
Lemma chk_gparam : forall n v, n <> [] -> trimmed n -> existsb (Ascii.eqb NUL) n = false -> forallb (fun c => negb (existsb (Ascii.eqb c) n)) ($";=") = true ->
  trimmed v -> existsb (Ascii.eqb NUL) v = false -> forallb (fun c => negb (existsb (Ascii.eqb c) v)) ($";") = true ->
  match v with [] => false | c :: _ => negb (Ascii.eqb c dquote) && negb (Ascii.eqb c ","%char) end = true -> gparam_wf (n, Some v).
Proof.
  intros n v N T C W T' C' W' H. split; [exact N|]. split; [exact T|]. split; [apply chk_cstr, C|]. split; [apply chk_without, W|]. cbn [snd]. left.
  split; [exact T'|]. split; [apply chk_cstr, C'|]. split; [apply chk_without, W'|]. destruct v as [|c v']; [discriminate|]. exists c, v'. split; [reflexivity|].
  apply andb_true_iff in H as [H1 H2]. split; intros ->; [discriminate H1|discriminate H2].
Qed.
Lemma chk_gflag : forall n, n <> [] -> trimmed n -> existsb (Ascii.eqb NUL) n = false -> forallb (fun c => negb (existsb (Ascii.eqb c) n)) ($";=") = true -> gparam_wf (n, None).
Proof. intros n N T C W. split; [exact N|]. split; [exact T|]. split; [apply chk_cstr, C|]. split; [apply chk_without, W|exact I]. Qed.

Definition ex_via : via := mkVia (Some ($"2.0")) (Some ($"UDP")) (Some ($"2001:db8::9")) (Some ($"5062")) (Some ($"my; comment"))
  [($"branch", Some ($"z9hG4bK77")); ($"rport", None); ($"received", Some ($"10.0.0.1"))].
Example C34_witness : via_wf ex_via ($"2.0") ($"UDP") ($"2001:db8::9") /\
  via_print ex_via = Ok ($"SIP/2.0/UDP [2001:db8::9]:5062;branch=z9hG4bK77;rport;received=10.0.0.1 (my; comment)").
Proof.
  split; [|vm_compute; reflexivity]. constructor; cbn [ex_via v_version v_protocol v_host v_port v_params v_comment].
  - split; [reflexivity|]. split; [discriminate|]. split; [reflexivity|]. apply chk_without. reflexivity.
  - split; [reflexivity|]. split; [discriminate|]. split; [reflexivity|]. apply chk_without. reflexivity.
  - split; [reflexivity|]. split; [discriminate|]. split; [reflexivity|]. apply chk_without. reflexivity.
  - intros p [= <-]. split; [|vm_compute; discriminate]. split; [discriminate|]. split; [reflexivity|]. apply chk_without. reflexivity.
  - split; [|apply chk_without; reflexivity]. constructor; [apply chk_gparam; first [reflexivity|discriminate]|]. constructor; [apply chk_gflag; first [reflexivity|discriminate]|].
    constructor; [apply chk_gparam; first [reflexivity|discriminate]|constructor].
  - intros c [= <-]. split; [discriminate|]. split; [apply chk_without; reflexivity|discriminate].
Qed.

Lemma streq_eq : forall a b, streq a b = true <-> a = b.
Proof. intros a b. destruct (streq_spec a b); split; intros; congruence. Qed.
Lemma streq_refl : forall a, streq a a = true.
Proof. intros. apply streq_eq. reflexivity. Qed.

(** * CSeq *)

(** The method may end with white space, which is kept (finding); it does not begin with it. *)
Theorem C36_cseq_round_trip : forall c n m, cs_number c = Some n -> cs_method c = Some m -> field ($" ") n -> ltrim m = m ->
  exists t, cseq_to_str c = Ok t /\ cseq_parse t = Ok c.
Proof.
  intros c n m E1 E2 (N & T & W) L. rewrite (C40_cseq c n m E1 E2). eexists. split; [reflexivity|]. change ($" ") with [" "%char]. unfold cseq_parse.
  pose proof (slen_pos _ _ N) as LN. set (s := n ++ [" "%char] ++ m).
  rewrite (strchr_at_some s [] n " "%char m); [|reflexivity|reflexivity|wo]. cbn [res_bind]. rewrite slen_nil, Z.add_0_l. replace (_ <? 2) with false by sl.
  rewrite (clrncpy_at_app s [] n (" "%char :: m)); [|reflexivity|reflexivity|sl|sl]. cbn [res_bind]. rewrite (trim_id _ T).
  assert (slen s = slen n + 1 + slen m) as Ls by (unfold s; sl). pose proof (slen_nonneg _ m). replace (_ <? 2) with false by sl.
  unfold clrncpy_nul. unfold in_range. replace ((0 <=? slen n + 1) && (slen n + 1 <=? slen s)) with true by sl. cbn [andb].
  replace (_ <=? _) with true by sl. replace (_ =? _) with true by sl. cbn [andb res_bind].
  assert (skipn (Z.to_nat (slen n + 1)) s = m) as ->.
  { replace (slen n + 1) with (slen (n ++ [" "%char])) by sl. unfold s. rewrite app_assoc, slen_to_nat. apply skipn_len_app. }
  rewrite L. f_equal. destruct c. cbn in *. congruence.
Qed.
Theorem C36_cseq_trailing_refuted : cseq_parse ($"7 INVITE ") = Ok (mkCSeq (Some ($"INVITE ")) (Some ($"7"))).
Proof. vm_compute. reflexivity. Qed.

(** Two CSeq match exactly when their numbers are equal and their methods are equal or are both
    one of INVITE and ACK. *)
Theorem C36_cseq_match : forall a b n1 n2 m1 m2, cs_number a = Some n1 -> cs_method a = Some m1 -> cs_number b = Some n2 -> cs_method b = Some m2 ->
  (cseq_match (Some a) (Some b) = OSIP_SUCCESS <->
   n1 = n2 /\ (m1 = m2 \/ (m1 = $"INVITE" \/ m1 = $"ACK") /\ (m2 = $"INVITE" \/ m2 = $"ACK"))).
Proof.
  intros a b n1 n2 m1 m2 E1 E2 E3 E4. unfold cseq_match. rewrite E1, E2, E3, E4.
  assert (forall m, inv_or_ack m = true <-> m = $"INVITE" \/ m = $"ACK") as IA by (intros m; unfold inv_or_ack; rewrite orb_true_iff, !streq_eq; reflexivity).
  destruct (streq n1 n2) eqn:EN; [apply streq_eq in EN|split; [discriminate|intros [-> _]; rewrite streq_refl in EN; discriminate]].
  destruct (inv_or_ack m2) eqn:I2; destruct (inv_or_ack m1) eqn:I1.
  - rewrite !IA in *. split; [intros _|reflexivity]. split; [exact EN|]. right. split; assumption.
  - split; [discriminate|]. intros [_ [->|[X _]]]; [congruence|]. apply IA in X. congruence.
  - destruct (streq m1 m2) eqn:EM; [apply streq_eq in EM; congruence|]. split; [discriminate|]. intros [_ [->|[_ X]]]; [congruence|]. apply IA in X. congruence.
  - destruct (streq m1 m2) eqn:EM; [apply streq_eq in EM; split; auto|]. split; [discriminate|]. intros [_ [->|[_ X]]]; [rewrite streq_refl in EM; discriminate|]. apply IA in X. congruence.
Qed.

(** * Call-ID *)
Theorem C36_call_id_round_trip : forall c n, ci_number c = Some n -> field ($"@") n -> (forall h, ci_host c = Some h -> trimmed h) ->
  exists t, call_id_to_str c = Ok t /\ call_id_parse t = Ok c.
Proof.
  intros c n E1 (N & T & W) H. rewrite (C40_call_id c n E1). eexists. split; [reflexivity|]. change ($"@") with ["@"%char]. unfold call_id_parse. pose proof (slen_pos _ _ N) as LN.
  destruct c as [cn [h|]]; cbn [ci_number ci_host] in *; subst cn.
  - specialize (H h eq_refl). set (s := n ++ ["@"%char] ++ h). assert (slen s = slen n + 1 + slen h) as Ls by (unfold s; sl). pose proof (slen_nonneg _ h).
    rewrite (strchr_at_some s [] n "@"%char h); [|reflexivity|reflexivity|wo]. cbn [res_bind]. rewrite slen_nil, Z.add_0_l. replace (_ <? 2) with false by sl.
    rewrite (clrncpy_at_app s (n ++ ["@"%char]) h []); [|unfold s; cat|sl|sl|sl]. cbn [res_bind]. replace (_ <? 2) with false by sl.
    rewrite (clrncpy_at_app s [] n ("@"%char :: h)); [|reflexivity|reflexivity|sl|sl]. cbn [res_bind]. rewrite !trim_id by assumption. reflexivity.
  - rewrite app_nil_r. rewrite (strchr_at_none n [] n); [|reflexivity|reflexivity|wo]. cbn [res_bind]. replace (_ <? 2) with false by sl.
    rewrite (clrncpy_at_app n [] n []); [|cat|reflexivity|sl|sl]. cbn [res_bind]. rewrite (trim_id _ T). reflexivity.
Qed.

(** Two Call-ID match exactly when they have the same parts ... *)
Theorem C36_call_id_match : forall a b n1 n2, ci_number a = Some n1 -> ci_number b = Some n2 ->
  (call_id_match (Some a) (Some b) = OSIP_SUCCESS <-> a = b).
Proof.
  intros [a1 a2] [b1 b2] n1 n2 E1 E2. cbn in E1, E2. subst a1 b1. unfold call_id_match. cbn [ci_number ci_host].
  destruct (streq n1 n2) eqn:EN; cbn [negb]; [apply streq_eq in EN; subst n2|split; [discriminate|intros [= -> _]; rewrite streq_refl in EN; discriminate]].
  destruct a2 as [h|]; destruct b2 as [k|]; try (split; [discriminate|intros [=]]); [|split; reflexivity].
  destruct (streq h k) eqn:EH; [apply streq_eq in EH; subst; split; reflexivity|]. split; [discriminate|]. intros [= ->]. rewrite streq_refl in EH. discriminate.
Qed.
(** ... which for Call-IDs that were parsed means: exactly when their texts are equal. *)
Theorem C36_call_id_match_text : forall a b n1 n2 t1 t2, ci_number a = Some n1 -> ci_number b = Some n2 -> field ($"@") n1 -> field ($"@") n2 ->
  (forall h, ci_host a = Some h -> trimmed h) -> (forall h, ci_host b = Some h -> trimmed h) -> call_id_to_str a = Ok t1 -> call_id_to_str b = Ok t2 ->
  (call_id_match (Some a) (Some b) = OSIP_SUCCESS <-> t1 = t2).
Proof.
  intros a b n1 n2 t1 t2 E1 E2 F1 F2 H1 H2 P1 P2. rewrite (C36_call_id_match a b n1 n2 E1 E2). split; [intros ->; congruence|]. intros <-.
  destruct (C36_call_id_round_trip a n1 E1 F1 H1) as (x & X1 & X2). destruct (C36_call_id_round_trip b n2 E2 F2 H2) as (y & Y1 & Y2). congruence.
Qed.
Example C36_witness : field ($" ") ($"4711") /\ field ($"@") ($"a84b4c76e66710") /\
  cseq_match (Some (mkCSeq (Some ($"ACK")) (Some ($"1")))) (Some (mkCSeq (Some ($"INVITE")) (Some ($"1")))) = OSIP_SUCCESS /\
  cseq_match (Some (mkCSeq (Some ($"BYE")) (Some ($"1")))) (Some (mkCSeq (Some ($"INVITE")) (Some ($"1")))) <> OSIP_SUCCESS /\
  call_id_match (Some (mkCid (Some ($"1")) (Some ($"h")))) (Some (mkCid (Some ($"1")) (Some ($"h")))) = OSIP_SUCCESS.
Proof.
  split; [split; [discriminate|]; split; [reflexivity|]; apply chk_without; reflexivity|]. split; [split; [discriminate|]; split; [reflexivity|]; apply chk_without; reflexivity|].
  split; [reflexivity|]. split; [discriminate|reflexivity].
Qed.

(** * Content-Type and Accept *)
Lemma ctparams_text : forall ps, Forall (fun p => snd p <> None) ps -> flat_map ctparam_text ps = print_params (map (fun p => (" "%char :: fst p, snd p)) ps).
Proof.
  intros ps. induction ps as [|[n v] ps IH]; intros F; [reflexivity|]. inversion F as [|? ? N F2]; subst. cbn [snd] in N. destruct v as [v|]; [|contradiction N; reflexivity].
  cbn [map]. unfold print_params. cbn [flat_map]. fold (print_params (map (fun p => (" "%char :: fst p, snd p)) ps)). rewrite <- IH by assumption.
  unfold ctparam_text at 1, print_param. cbn [fst snd]. change ($"; ") with [";"%char; " "%char]. change ($"=") with ["="%char]. cat.
Qed.
Lemma gparams_blank_ok : forall ps, ps <> [] -> Forall gparam_wf ps -> gparams_parse (print_params (map (fun p => (" "%char :: fst p, snd p)) ps)) = Ok ps.
Proof.
  intros ps N W. assert (Forall gparam_raw (map (fun p => (" "%char :: fst p, snd p)) ps) /\ map trim_name (map (fun p => (" "%char :: fst p, snd p)) ps) = ps) as [R E].
  { clear N. induction ps as [|[n v] ps IH]; [split; [constructor|reflexivity]|]. inversion W as [|? ? (A & B & C & D & F) W2]; subst. destruct (IH W2) as [I1 I2]. cbn [fst snd] in *. split.
    - constructor; [|exact I1]. cbn [fst snd]. split; [discriminate|]. split; [apply cstr_cons; split; [discriminate|exact C]|]. split; [|exact F].
      intros c I J. cbn [fst] in J. destruct J as [J|J]; [subst c; cbn in I; repeat (destruct I as [I|I]; [discriminate I|]); exact I|]. exact (D c I J).
    - cbn [map]. unfold trim_name at 1. cbn [fst snd]. rewrite I2. f_equal. f_equal. change (trim (" "%char :: n)) with (trim n). apply trim_id, B. }
  set (qs := map (fun p => (" "%char :: fst p, snd p)) ps) in *. destruct qs as [|q qs'] eqn:Eq; [destruct ps; [contradiction|discriminate]|].
  unfold gparams_parse. change (print_params (q :: qs')) with ([] ++ print_param q ++ print_params qs') at 2. change 0 with (slen (@nil ascii)). rewrite gparams_raw_ok; [cbn [app]; f_equal; exact E|exact R| |].
  - cbn [app]. change (print_param q ++ print_params qs') with (print_params (q :: qs')). intros I. unfold print_params in I. apply in_flat_map in I. destruct I as ([n v] & Ip & I). rewrite Forall_forall in R.
    destruct (R _ Ip) as (_ & CN & _ & V). cbn [fst snd] in *. unfold print_param in I. cbn [fst snd] in I. destruct v as [v|].
    + apply value_trimmed in V as [_ V]. destruct I as [I|I]; [discriminate I|]. apply in_app_iff in I. destruct I as [I|[I|I]]; [exact (CN I)|discriminate I|exact (V I)].
    + destruct I as [I|I]; [discriminate I|exact (CN I)].
  - assert (forall l : list param, (length l <= length (print_params l))%nat) as L.
    { induction l as [|x l IH]; [cbn; lia|]. unfold print_params in *. cbn [flat_map length]. rewrite app_length. destruct (print_param_head x) as (tl & ->). cbn [length]. lia. }
    specialize (L qs'). unfold print_params in *. cbn [flat_map]. rewrite app_length. lia.
Qed.

Record ctype_wf (c : content_type) (t u : str) : Prop := {
  ct_t : ct_type c = Some t /\ field ($"/;") t;
  ct_u : ct_subtype c = Some u /\ field ($";") u;
  ct_p : Forall (fun p => gparam_wf p /\ snd p <> None) (ct_params c) }.

Lemma ctype_parse_ok : forall c t u, ctype_wf c t u -> ctype_parse (t ++ $"/" ++ u ++ flat_map ctparam_text (ct_params c)) = Ok c.
Proof.
  intros c t u [[E1 (N1 & T1 & W1)] [E2 (N2 & T2 & W2)] F]. change ($"/") with ["/"%char].
  assert (Forall gparam_wf (ct_params c)) as F1 by (eapply Forall_impl; [|exact F]; cbn; tauto). assert (Forall (fun p => snd p <> None) (ct_params c)) as F2 by (eapply Forall_impl; [|exact F]; cbn; tauto).
  rewrite (ctparams_text _ F2). set (P := print_params (map (fun p => (" "%char :: fst p, snd p)) (ct_params c))). set (s := t ++ ["/"%char] ++ u ++ P).
  pose proof (slen_pos _ _ N1) as L1. pose proof (slen_pos _ _ N2) as L2.
  unfold ctype_parse. destruct s as [|s0 s'] eqn:Es0; [exfalso; assert (slen s = 0) by (rewrite Es0; reflexivity); unfold s in *; sl|]. rewrite <- Es0. clear s0 s' Es0.
  rewrite (strchr_at_some s [] t "/"%char (u ++ P)); [|reflexivity|reflexivity|wo]. cbn [res_bind]. rewrite slen_nil, Z.add_0_l.
  assert (strchr_at s 0 ";"%char = Ok (comma_of (slen t + 1 + slen u) P)) as SC.
  { destruct (params_end (map (fun p => (" "%char :: fst p, snd p)) (ct_params c))) as [X|(tl & X)]; fold P in X.
    - unfold s. rewrite X. rewrite (strchr_at_none _ [] (t ++ ["/"%char] ++ u ++ [])); [reflexivity|reflexivity|reflexivity|rewrite app_nil_r; notin].
    - unfold s. rewrite X. rewrite (strchr_at_some _ [] (t ++ ["/"%char] ++ u) ";"%char tl); [cbn [comma_of]; f_equal; f_equal; sl|cat|reflexivity|notin]. }
  rewrite SC. cbn [res_bind].
  assert ((match comma_of (slen t + 1 + slen u) P with None => Ok [] | Some p => do x <- tail_at s p ; gparams_parse x end) = Ok (ct_params c)) as GP.
  { assert (ct_params c = [] \/ ct_params c <> []) as [Ep|NE] by (destruct (ct_params c); [left; reflexivity|right; discriminate]).
    { assert (P = []) as -> by (unfold P; rewrite Ep; reflexivity). rewrite Ep. reflexivity. }
    assert (P <> []) as NP by (unfold P; intros X; apply params_nil in X; apply map_eq_nil in X; contradiction). assert (comma_of (slen t + 1 + slen u) P = Some (slen t + 1 + slen u)) as -> by (clear SC; destruct P; [contradiction|reflexivity]).
    rewrite (tail_at_app s (t ++ ["/"%char] ++ u) P); [|unfold s; cat|sl]. cbn [res_bind]. unfold P. apply gparams_blank_ok; assumption. }
  rewrite GP. cbn [res_bind]. replace (_ <? 2) with false by sl. rewrite (clrncpy_at_app s [] t (["/"%char] ++ u ++ P)); [|reflexivity|reflexivity|sl|sl]. cbn [res_bind].
  assert (match comma_of (slen t + 1 + slen u) P with None => slen s | Some p => p end = slen t + 1 + slen u) as -> by (unfold comma_of; destruct P eqn:EP; [unfold s; sl|reflexivity]).
  replace (_ <? 2) with false by sl. rewrite (clrncpy_at_app s (t ++ ["/"%char]) u P); [|unfold s; cat|sl|sl|sl]. cbn [res_bind]. rewrite !trim_id by assumption. f_equal. destruct c; cbn in *; congruence.
Qed.

Theorem C38_content_type : forall c t u, ctype_wf c t u -> exists x, ctype_to_str c = Ok x /\ ctype_parse x = Ok c.
Proof.
  intros c t u W. pose proof W as [[E1 _] [E2 _] F]. destruct (C40_content_type c) as [_ H]. eexists. split; [apply (H t u E1 E2)|exact (ctype_parse_ok c t u W)].
  eapply Forall_impl; [|exact F]. cbn. tauto.
Qed.
Theorem C38_accept : forall c t u, ctype_wf c t u -> exists x, accept_to_str c = Ok x /\ ctype_parse x = Ok c.
Proof.
  intros c t u W. pose proof W as [[E1 (N & _)] [E2 _] F]. destruct (C40_accept c) as (_ & _ & H); [rewrite E1, E2; split; discriminate|].
  eexists. split; [apply (H t u E1 E2)|exact (ctype_parse_ok c t u W)]; [destruct t; [contradiction|discriminate]|]. eapply Forall_impl; [|exact F]. cbn. tauto.
Qed.
(** A parameter without value is read but cannot be printed. *)
Theorem C38_flag_refuted : exists c, ctype_parse ($"text/plain;x") = Ok c /\ ctype_to_str c = Err OSIP_SYNTAXERROR.
Proof. eexists. split; vm_compute; reflexivity. Qed.

(** * Accept-Encoding and Call-Info *)
Lemma params_at : forall s a ps pos, s = a ++ print_params ps -> pos = slen a -> Forall gparam_wf ps ->
  (match comma_of pos (print_params ps) with None => Ok [] | Some p => do x <- tail_at s p ; gparams_parse x end) = Ok ps.
Proof.
  intros s a ps pos E -> F. destruct ps as [|p ps]; [reflexivity|].
  assert (comma_of (slen a) (print_params (p :: ps)) = Some (slen a)) as ->.
  { destruct (print_params (p :: ps)) eqn:X; [apply params_nil in X; discriminate|reflexivity]. }
  rewrite (tail_at_app s a _ _ E) by reflexivity. cbn [res_bind]. apply C37_round_trip; [discriminate|exact F].
Qed.

Theorem C38_accept_encoding : forall e t, el_element e = Some t -> field ($";") t -> Forall gparam_wf (el_params e) ->
  exists x, elem_to_str emit_n e = Ok x /\ aenc_parse x = Ok e.
Proof.
  intros e t E (N & T & W) F. rewrite (C40_accept_encoding e t E). eexists. split; [reflexivity|]. pose proof (slen_pos _ _ N) as L. unfold aenc_parse. set (P := print_params (el_params e)). set (s := t ++ P).
  assert (strchr_at s 0 ";"%char = Ok (comma_of (slen t) P)) as ->.
  { destruct (params_end (el_params e)) as [X|(tl & X)]; fold P in X; unfold s; rewrite X.
    - rewrite (strchr_at_none _ [] (t ++ [])); [reflexivity|reflexivity|reflexivity|rewrite app_nil_r; wo].
    - rewrite (strchr_at_some _ [] t ";"%char tl); [reflexivity|reflexivity|reflexivity|wo]. }
  cbn [res_bind].
  assert ((match comma_of (slen t) P with None => Ok [] | Some p => do x <- tail_at s p ; gparams_parse x end) = Ok (el_params e)) as ->.
  { apply (params_at s t); [reflexivity|reflexivity|exact F]. }
  cbn [res_bind]. assert (match comma_of (slen t) P with None => slen s | Some p => p end = slen t) as -> by (unfold comma_of; destruct P eqn:EP; [unfold s; sl|reflexivity]).
  replace (_ <? 2) with false by sl. rewrite (clrncpy_at_app s [] t P); [|reflexivity|reflexivity|sl|sl]. cbn [res_bind]. rewrite (trim_id _ T). f_equal. destruct e; cbn in *; congruence.
Qed.
Theorem C38_call_info : forall e u, el_element e = Some ($"<" ++ u ++ $">") -> ~ In ">"%char u -> Forall gparam_wf (el_params e) ->
  exists x, elem_to_str em_s e = Ok x /\ cinfo_parse x = Ok e.
Proof.
  intros e u E N F. rewrite (C40_call_info e _ E). eexists. split; [reflexivity|]. change ($"<") with ["<"%char] in *. change ($">") with [">"%char] in *. unfold cinfo_parse. set (P := print_params (el_params e)). set (s := (["<"%char] ++ u ++ [">"%char]) ++ P).
  assert (s = "<"%char :: u ++ ">"%char :: P) as Es by (unfold s; cat).
  rewrite (strchr_at_some s [] [] "<"%char (u ++ ">"%char :: P)); [|exact Es|reflexivity|intros []]. cbn [res_bind].
  rewrite (strchr_at_some s ["<"%char] u ">"%char P); [|exact Es|reflexivity|exact N]. cbn [res_bind].
  assert (strchr_at s (slen ["<"%char] + slen u + 1) ";"%char = Ok (comma_of (slen u + 2) P)) as ->.
  { destruct (params_end (el_params e)) as [X|(tl & X)]; fold P in X.
    - rewrite (strchr_at_none s (["<"%char] ++ u ++ [">"%char]) P); [rewrite X; reflexivity|reflexivity|sl|rewrite X; intros []].
    - rewrite (strchr_at_some s (["<"%char] ++ u ++ [">"%char]) [] ";"%char tl); [rewrite X; cbn [comma_of]; f_equal; f_equal; sl|rewrite Es, X; cat|sl|intros []]. }
  cbn [res_bind].
  assert ((match comma_of (slen u + 2) P with None => Ok [] | Some p => do x <- tail_at s p ; gparams_parse x end) = Ok (el_params e)) as ->.
  { apply (params_at s (["<"%char] ++ u ++ [">"%char])); [reflexivity|sl|exact F]. }
  cbn [res_bind]. assert (match comma_of (slen u + 2) P with None => slen s | Some p => p end = slen u + 2) as -> by (unfold comma_of; destruct P eqn:EP; [rewrite Es; sl|reflexivity]).
  replace (_ <? 2) with false by sl. rewrite (clrncpy_at_app s [] (["<"%char] ++ u ++ [">"%char]) P); [|reflexivity|reflexivity|sl|sl]. cbn [res_bind].
  assert (trimmed (["<"%char] ++ u ++ [">"%char])) as T.
  { apply trimmed_iff. right. split; [reflexivity|]. rewrite app_assoc, last_last. reflexivity. }
  transitivity (Ok (mkElem (el_element e) (el_params e))); [rewrite E, (trim_id _ T); reflexivity|destruct e; reflexivity].
Qed.

Example C38_witness : ctype_wf (mkCT (Some ($"multipart")) (Some ($"mixed")) [($"boundary", Some ($"""a;b""")); ($"charset", Some ($"utf-8"))]) ($"multipart") ($"mixed") /\
  ctype_to_str (mkCT (Some ($"multipart")) (Some ($"mixed")) [($"boundary", Some ($"""a;b""")); ($"charset", Some ($"utf-8"))]) = Ok ($"multipart/mixed; boundary=""a;b""; charset=utf-8") /\
  cinfo_parse ($"<http://x/;a>;purpose=icon") = Ok (mkElem (Some ($"<http://x/;a>")) [($"purpose", Some ($"icon"))]).
Proof.
  split; [|split; vm_compute; reflexivity]. constructor; cbn [ct_type ct_subtype ct_params].
  - split; [reflexivity|]. split; [discriminate|]. split; [reflexivity|]. apply chk_without. reflexivity.
  - split; [reflexivity|]. split; [discriminate|]. split; [reflexivity|]. apply chk_without. reflexivity.
  - constructor; [split; [|discriminate]|constructor; [split; [apply chk_gparam; first [reflexivity|discriminate]|discriminate]|constructor]].
    split; [discriminate|]. split; [reflexivity|]. split; [apply chk_cstr; reflexivity|]. split; [apply chk_without; reflexivity|]. right. exists ($"a;b"). split; [reflexivity|]. cbn [list_ascii_of_string].
    repeat (apply q_char; [discriminate|discriminate|discriminate|]). apply q_nil.
Qed.
Print Assumptions C34_round_trip.
Print Assumptions C36_cseq_match.
Print Assumptions C38_content_type.

(** C33: what is printed for a SIP URI is parsed back to the same URI. *)
From Coq Require Import String ZArith NArith Ascii Bool List Lia ZifyBool ZifyNat.
From Verif Require Import Base Str StrLemmas MemModel MemLemmas Types PortModel CString CStringLemmas UriModel EscapeProps UriProps.
Import ListNotations.
Open Scope Z_scope.

(** * Specification *)

(** [s] has none of the bytes [cs] *)
Definition without (cs : str) (s : str) : Prop := forall c, In c cs -> ~ In c s.

(** A parameter of a SIP URI: a name, and a value that is absent or not empty; neither begins
    nor ends with white space.  [x-obr] and [x-obp] are never printed. *)
Definition uparam_wf (p : param) : Prop :=
  fst p <> [] /\ trimmed (fst p) /\ cstr (fst p) /\ hidden_param p = false /\
  match snd p with None => True | Some v => v <> [] /\ trimmed v /\ cstr v end.
Definition uheader_wf (p : param) : Prop :=
  trimmed (fst p) /\ cstr (fst p) /\
  match snd p with None => False | Some v => v <> [] /\ trimmed v /\ cstr v end.

Definition letters (s : str) : Prop := forallb is_alpha s = true.

Record uri_wf (u : uri) (scheme host : str) : Prop := {
  wf_scheme : u_scheme u = Some scheme;
  wf_letters : letters scheme;
  wf_sip : 3 <= slen scheme /\ strncaseeq 3 scheme ($"sip") = true;
  wf_user : match u_username u with
            | None => u_password u = None
            | Some n => n <> [] /\ cstr n /\ match u_password u with None => True | Some p => p <> [] /\ cstr p end
            end;
  wf_host : u_host u = Some host;
  wf_host_text : host <> [] /\ trimmed host /\ without ($"@?;[]") host;
  wf_port : match u_port u with None => True
            | Some p => 1 <= slen p <= 7 /\ trimmed p /\ without ($"@?;:]") p end;
  wf_params : Forall uparam_wf (u_params u);
  wf_headers : Forall uheader_wf (u_headers u);
  wf_string : u_string u = None }.

(** * Text facts *)
Lemma without_in : forall cs s c, without cs s -> existsb (Ascii.eqb c) cs = true -> ~ In c s.
Proof. intros cs s c H E. apply H. apply existsb_exists in E. destruct E as (x & Hx & E). apply Ascii.eqb_eq in E. subst x. exact Hx. Qed.
Ltac wo := match goal with
  | H : without _ ?s |- ~ In _ ?s => apply (without_in _ _ _ H); reflexivity
  | H : without _ ?s |- In _ ?s -> False => apply (without_in _ _ _ H); reflexivity
  end.

Lemma hex_allowed : forall def n, (n < 16)%N -> allowed def (hex_digit n) = true.
Proof.
  intros def n H. assert (forallb (fun k => is_alnum (hex_digit (N.of_nat k))) (seq 0 16) = true) as F by reflexivity.
  rewrite forallb_forall in F. specialize (F (N.to_nat n) ltac:(apply in_seq; lia)). rewrite N2Nat.id in F.
  unfold allowed. rewrite F. reflexivity.
Qed.
Lemma esc_notin : forall def s c, allowed def c = false -> c <> "%"%char -> ~ In c (esc def s).
Proof.
  intros def s c A P I. unfold esc in I. apply in_flat_map in I. destruct I as (x & _ & I). unfold enc in I.
  destruct (allowed def x) eqn:X.
  - destruct I as [->|[]]. congruence.
  - destruct I as [E|[E|[E|[]]]]; [congruence| |]; subst c; rewrite hex_allowed in A; try discriminate; [apply hi_lt|apply lo_lt].
Qed.
Ltac en := first [apply esc_notin; [reflexivity|discriminate]].
Ltac notin := repeat (rewrite in_app_iff || cbn [In]);
  let X := fresh in intros X; repeat (destruct X as [X|X]); try discriminate X; try contradiction;
  first [revert X; first [en | wo | assumption | auto] | auto].

Lemma alpha_notin : forall s c, letters s -> is_alpha c = false -> ~ In c s.
Proof. intros s c H A I. unfold letters in H. rewrite forallb_forall in H. rewrite (H c I) in A. discriminate. Qed.

Lemma esc_nonempty : forall def s, s <> [] -> 1 <= slen (esc def s).
Proof. intros def [|c s] H; [contradiction|]. unfold esc. cbn [flat_map]. unfold enc. destruct (allowed def c); unfold percent; sl. Qed.

(** * Parameters *)
Lemma unesc_param : forall s, cstr s -> uri_unescape (esc uri_param_def s) = s.
Proof. intros s H. apply uri_unescape_esc; [|exact H]. intros I. cbn in I. repeat (destruct I as [I|I]; [discriminate I|]). exact I. Qed.
Lemma unesc_header : forall s, cstr s -> uri_unescape (esc header_param_def s) = s.
Proof. intros s H. apply uri_unescape_esc; [|exact H]. intros I. cbn in I. repeat (destruct I as [I|I]; [discriminate I|]). exact I. Qed.
Lemma unesc_user : forall s, cstr s -> uri_unescape (esc userinfo_def s) = s.
Proof. intros s H. apply uri_unescape_esc; [|exact H]. intros I. cbn in I. repeat (destruct I as [I|I]; [discriminate I|]). exact I. Qed.
Lemma unesc_password : forall s, cstr s -> uri_unescape (esc password_def s) = s.
Proof. intros s H. apply uri_unescape_esc; [|exact H]. intros I. cbn in I. repeat (destruct I as [I|I]; [discriminate I|]). exact I. Qed.

Lemma parse_params_ok : forall ps p a fuel acc, Forall uparam_wf (p :: ps) -> (length ps < fuel)%nat ->
  parse_params_loop fuel (a ++ uparam_text p ++ flat_map uparam_text ps) (slen a) acc = Ok (acc ++ p :: ps, OSIP_SUCCESS).
Proof.
  induction ps as [|q ps IH]; intros [n v] a fuel acc W F; (destruct fuel as [|fuel]; [cbn in F; lia|]); inversion W as [|? ? W1 W2]; subst;
    destruct W1 as (N & TN & CN & HN & WV); cbn [fst snd] in *; pose proof (esc_nonempty uri_param_def n N) as LN; cbn [parse_params_loop].
  - unfold uparam_text. cbn [fst snd flat_map]. destruct v as [v|].
    + destruct WV as (NV & TV & CV). pose proof (esc_nonempty uri_param_def v NV) as LV.
      set (s := a ++ (";"%char :: esc uri_param_def n ++ "="%char :: esc uri_param_def v) ++ []).
      assert (s = (a ++ [";"%char]) ++ esc uri_param_def n ++ "="%char :: esc uri_param_def v) as Es by (unfold s; cat).
      assert (slen s = slen a + 2 + slen (esc uri_param_def n) + slen (esc uri_param_def v)) as Ls by (rewrite Es; sl).
      rewrite (next_separator_some _ _ _ _ _ _ _ Es); [|sl|en|en|discriminate]. cbn [res_bind].
      rewrite (strchr_at_none _ _ _ _ _ Es); [|sl|notin]. cbn [res_bind].
      replace (slen s - _ <? 2) with false by sl.
      rewrite (copy_at_app s (a ++ ";"%char :: esc uri_param_def n ++ ["="%char]) (esc uri_param_def v) []); [|rewrite Es; cat|sl|sl|sl]. cbn [res_bind].
      replace (_ <? 2) with false by sl.
      rewrite (copy_at_app s (a ++ [";"%char]) (esc uri_param_def n) ("="%char :: esc uri_param_def v)); [|exact Es|sl|sl|sl]. cbn [res_bind].
      rewrite !unesc_param by auto. unfold param_set. cbn [option_map]. rewrite !trim_id by auto. reflexivity.
    + set (s := a ++ (";"%char :: esc uri_param_def n ++ []) ++ []).
      assert (s = (a ++ [";"%char]) ++ esc uri_param_def n) as Es by (unfold s; cat).
      assert (slen s = slen a + 1 + slen (esc uri_param_def n)) as Ls by (rewrite Es; sl).
      rewrite (next_separator_none _ _ _ _ _ _ Es); [|sl|left; en]. cbn [res_bind].
      rewrite (strchr_at_none _ _ _ _ _ Es); [|sl|en]. cbn [res_bind].
      replace (_ <? 2) with false by sl.
      rewrite (copy_at_app s (a ++ [";"%char]) (esc uri_param_def n) []); [|rewrite Es; cat|sl|sl|sl]. cbn [res_bind].
      rewrite !unesc_param by auto. unfold param_set. cbn [option_map]. rewrite !trim_id by auto. reflexivity.
  - cbn [length] in F. cbn [flat_map].
    assert (exists tl, uparam_text q ++ flat_map uparam_text ps = ";"%char :: tl) as (tl & Et) by (unfold uparam_text at 1; eexists; reflexivity).
    destruct v as [v|].
    + destruct WV as (NV & TV & CV). pose proof (esc_nonempty uri_param_def v NV) as LV.
      change (uparam_text (n, Some v)) with (";"%char :: esc uri_param_def n ++ "="%char :: esc uri_param_def v).
      set (s := a ++ (";"%char :: esc uri_param_def n ++ "="%char :: esc uri_param_def v) ++ uparam_text q ++ flat_map uparam_text ps).
      assert (s = (a ++ [";"%char]) ++ esc uri_param_def n ++ "="%char :: esc uri_param_def v ++ ";"%char :: tl) as Es by (unfold s; rewrite Et; cat).
      rewrite (next_separator_some _ _ _ _ _ _ _ Es); [|sl|en|en|discriminate]. cbn [res_bind].
      rewrite (strchr_at_some s (a ++ [";"%char]) (esc uri_param_def n ++ "="%char :: esc uri_param_def v) _ tl); [|rewrite Es; cat|sl|notin]. cbn [res_bind].
      replace (_ <? 2) with false by sl.
      rewrite (copy_at_app s (a ++ ";"%char :: esc uri_param_def n ++ ["="%char]) (esc uri_param_def v) (";"%char :: tl)); [|rewrite Es; cat|sl|sl|sl]. cbn [res_bind].
      replace (_ <? 2) with false by sl.
      rewrite (copy_at_app s (a ++ [";"%char]) (esc uri_param_def n) ("="%char :: esc uri_param_def v ++ ";"%char :: tl)); [|exact Es|sl|sl|sl]. cbn [res_bind].
      rewrite !unesc_param by auto. unfold param_set. cbn [option_map]. rewrite !trim_id by auto.
      replace s with ((a ++ ";"%char :: esc uri_param_def n ++ "="%char :: esc uri_param_def v) ++ uparam_text q ++ flat_map uparam_text ps) by (unfold s; cat).
      replace (slen (a ++ [";"%char]) + _) with (slen (a ++ ";"%char :: esc uri_param_def n ++ "="%char :: esc uri_param_def v)) by sl.
      rewrite IH; [rewrite <- app_assoc; reflexivity|exact W2|lia].
    + change (uparam_text (n, None)) with (";"%char :: esc uri_param_def n ++ []).
      set (s := a ++ (";"%char :: esc uri_param_def n ++ []) ++ uparam_text q ++ flat_map uparam_text ps).
      assert (s = (a ++ [";"%char]) ++ esc uri_param_def n ++ ";"%char :: tl) as Es by (unfold s; rewrite Et; cat).
      rewrite (next_separator_none _ _ _ _ _ _ Es); [|sl|right; exists (esc uri_param_def n), tl; repeat split; [en|en|discriminate]]. cbn [res_bind].
      rewrite (strchr_at_some _ _ _ _ _ _ Es); [|sl|en]. cbn [res_bind].
      replace (_ <? 2) with false by sl.
      rewrite (copy_at_app s (a ++ [";"%char]) (esc uri_param_def n) (";"%char :: tl)); [|exact Es|sl|sl|sl]. cbn [res_bind].
      rewrite !unesc_param by auto. unfold param_set. cbn [option_map]. rewrite !trim_id by auto.
      replace s with ((a ++ ";"%char :: esc uri_param_def n) ++ uparam_text q ++ flat_map uparam_text ps) by (unfold s; cat).
      replace (slen (a ++ [";"%char]) + _) with (slen (a ++ ";"%char :: esc uri_param_def n)) by sl.
      rewrite IH; [rewrite <- app_assoc; reflexivity|exact W2|lia].
Qed.

(** * Headers *)
Lemma parse_headers_ok : forall hs h sep a fuel acc, Forall uheader_wf (h :: hs) -> (length hs < fuel)%nat -> sep <> "="%char ->
  parse_headers_loop fuel (a ++ uheader_text sep h ++ flat_map (uheader_text "&"%char) hs) (slen a) acc = Ok (acc ++ h :: hs, OSIP_SUCCESS).
Proof.
  induction hs as [|q hs IH]; intros [n v] sep a fuel acc W F SE; (destruct fuel as [|fuel]; [cbn in F; lia|]); inversion W as [|? ? W1 W2]; subst;
    destruct W1 as (TN & CN & WV); cbn [fst snd] in *; (destruct v as [v|]; [|contradiction]); destruct WV as (NV & TV & CV);
    pose proof (esc_nonempty header_param_def v NV) as LV; cbn [parse_headers_loop];
    change (uheader_text sep (n, Some v)) with (sep :: esc header_param_def n ++ "="%char :: esc header_param_def v).
  - cbn [flat_map]. set (s := a ++ (sep :: _) ++ []).
    assert (s = (a ++ [sep]) ++ esc header_param_def n ++ "="%char :: esc header_param_def v) as Es by (unfold s; cat).
    assert (slen s = slen a + 2 + slen (esc header_param_def n) + slen (esc header_param_def v)) as Ls by (rewrite Es; sl).
    rewrite (strchr_at_some s a (sep :: esc header_param_def n) "="%char (esc header_param_def v)); [|rewrite Es; cat|reflexivity|notin]. cbn [res_bind].
    rewrite (strchr_at_none _ _ _ _ _ Es); [|sl|notin]. cbn [res_bind].
    rewrite (copy_at_app s (a ++ [sep]) (esc header_param_def n) ("="%char :: esc header_param_def v)); [|exact Es|sl|sl|sl]. cbn [res_bind].
    replace (_ <? 2) with false by sl.
    rewrite (copy_at_end s (a ++ sep :: esc header_param_def n ++ ["="%char]) (esc header_param_def v)); [|rewrite Es; cat|sl|sl|sl]. cbn [res_bind].
    rewrite !unesc_header by auto. unfold param_set. cbn [option_map]. rewrite !trim_id by auto. reflexivity.
  - cbn [length] in F. cbn [flat_map].
    assert (exists tl, uheader_text "&"%char q ++ flat_map (uheader_text "&"%char) hs = "&"%char :: tl) as (tl & Et) by (unfold uheader_text at 1; eexists; reflexivity).
    set (s := a ++ (sep :: _) ++ _).
    assert (s = (a ++ [sep]) ++ esc header_param_def n ++ "="%char :: esc header_param_def v ++ "&"%char :: tl) as Es by (unfold s; rewrite Et; cat).
    rewrite (strchr_at_some s a (sep :: esc header_param_def n) "="%char (esc header_param_def v ++ "&"%char :: tl)); [|rewrite Es; cat|reflexivity|notin]. cbn [res_bind].
    rewrite (strchr_at_some s (a ++ [sep]) (esc header_param_def n ++ "="%char :: esc header_param_def v) _ tl); [|rewrite Es; cat|sl|notin]. cbn [res_bind].
    rewrite (copy_at_app s (a ++ [sep]) (esc header_param_def n) ("="%char :: esc header_param_def v ++ "&"%char :: tl)); [|exact Es|sl|sl|sl]. cbn [res_bind].
    replace (_ <? 2) with false by sl.
    rewrite (copy_at_app s (a ++ sep :: esc header_param_def n ++ ["="%char]) (esc header_param_def v) ("&"%char :: tl)); [|rewrite Es; cat|sl|sl|sl]. cbn [res_bind].
    rewrite !unesc_header by auto. unfold param_set. cbn [option_map]. rewrite !trim_id by auto.
    replace s with ((a ++ sep :: esc header_param_def n ++ "="%char :: esc header_param_def v) ++ uheader_text "&"%char q ++ flat_map (uheader_text "&"%char) hs) by (unfold s; cat).
    replace (slen (a ++ [sep]) + _) with (slen (a ++ sep :: esc header_param_def n ++ "="%char :: esc header_param_def v)) by sl.
    rewrite IH; [rewrite <- app_assoc; reflexivity|exact W2|lia|discriminate].
Qed.

(** * Host and port *)
Lemma length_slen : forall A (x : list A) n, slen x < Z.of_nat n -> (length x < n)%nat.
Proof. intros A x n H. unfold slen in H. lia. Qed.

Lemma hostport_ok : forall s a sep host port d rest,
  s ++ [NUL] = a ++ sep :: host_text host ++ port_text port ++ d :: rest ->
  (sep = ":"%char \/ sep = "@"%char) -> d <> "]"%char ->
  host <> [] -> trimmed host -> without ($"@?;[]") host ->
  match port with None => True | Some p => 1 <= slen p <= 7 /\ trimmed p /\ without ($"@?;:]") p end ->
  uri_hostport s (slen a) (slen a + 1 + slen (host_text host) + slen (port_text port)) = Ok (host, port).
Proof.
  intros s a sep host port d rest E HS HD NH TH WH WP.
  assert (sep <> "]"%char) as S1 by (destruct HS; subst; discriminate). assert (sep <> "["%char) as S2 by (destruct HS; subst; discriminate).
  assert (slen s + 1 = slen a + 1 + slen (host_text host) + slen (port_text port) + 1 + slen rest) as Ls.
  { replace (slen s + 1) with (slen (s ++ [NUL])) by sl. rewrite E. sl. }
  pose proof (slen_pos _ _ NH) as LH.
  (* the same decomposition, without the terminator *)
  assert (forall x y z, s ++ [NUL] = x ++ y ++ z -> slen x + slen y <= slen s -> exists z', s = x ++ y ++ z') as CUT.
  { intros x y z Ez Lz. destruct z as [|c z] using rev_ind.
    - exfalso. assert (slen (s ++ [NUL]) = slen x + slen y) by (rewrite Ez; sl). sl.
    - exists z. rewrite !app_assoc in Ez. apply app_inj_tail in Ez. destruct Ez as [-> _]. cat. }
  unfold uri_hostport. remember (slen a + 1 + slen (host_text host) + slen (port_text port)) as params eqn:EP.
  assert (length s < S (length s))%nat as FS by lia.
  destruct port as [p|]; cbn [port_text] in *.
  - destruct WP as ([P1 P2] & TP & WP).
    rewrite (scan_back_to _ (a ++ sep :: host_text host) ":"%char p (d :: rest)); [|rewrite E; cat| |sl|apply length_slen; unfold slen in *; cbn [length] in *; lia|left; split; [sl|reflexivity]].
    2:{ intros c I. apply orb_false_iff. split; apply Ascii.eqb_neq; intros ->; revert I; wo. }
    cbn [res_bind]. rewrite (ch_nul s (a ++ sep :: host_text host) ":"%char (p ++ d :: rest)); [|rewrite E; cat|reflexivity]. cbn [res_bind].
    replace (":" =? ":")%char with true by reflexivity.
    replace (slen a =? slen (a ++ sep :: host_text host)) with false by sl.
    replace (_ || _) with false by (slens; lia).
    destruct (CUT (a ++ sep :: host_text host ++ [":"%char]) p (d :: rest)) as (z & Ez); [rewrite E; cat|sl|].
    rewrite (clrncpy_at_app _ _ _ _ _ _ _ Ez); [|sl|sl|sl]. rewrite trim_id by exact TP. cbn [res_bind].
    (* the closing bracket *)
    unfold host_text in *. destruct (strchr host ":"%char) as [k|] eqn:K.
    + rewrite (scan_back_to _ (a ++ sep :: "["%char :: host) "]"%char [":"%char] (p ++ d :: rest)); [|rewrite E; cat| |sl|cbn; destruct s; [exfalso; sl|cbn [length]; lia]|left; split; [sl|reflexivity]].
      2:{ intros c [<-|[]]. reflexivity. }
      cbn [res_bind]. rewrite (ch_nul s (a ++ sep :: "["%char :: host) "]"%char (":"%char :: p ++ d :: rest)); [|rewrite E; cat|reflexivity]. cbn [res_bind].
      replace ("]" =? "]")%char with true by reflexivity.
      destruct (CUT (a ++ [sep]) ["["%char] (host ++ "]"%char :: ":"%char :: p ++ d :: rest)) as (z1 & Ez1); [rewrite E; cat|sl|].
      rewrite (scan_fwd_to _ [sep] a "["%char z1); [|rewrite Ez1; cat| |reflexivity|cbn; destruct s; [exfalso; sl|cbn [length]; lia]|sl|reflexivity].
      2:{ intros c [<-|[]]. apply Ascii.eqb_neq. exact S2. }
      cbn [res_bind]. replace (_ >=? _) with false by sl. cbn [res_bind].
      replace (_ <? 2) with false by sl.
      destruct (CUT (a ++ sep :: ["["%char]) host ("]"%char :: ":"%char :: p ++ d :: rest)) as (z2 & Ez2); [rewrite E; cat|sl|].
      rewrite (clrncpy_at_app _ _ _ _ _ _ _ Ez2); [|sl|sl|sl]. rewrite trim_id by exact TH. reflexivity.
    + apply strchr_none in K.
      rewrite (scan_back_to _ a sep (host ++ [":"%char]) (p ++ d :: rest)); [|rewrite E; cat| |sl|apply length_slen; unfold slen in *; rewrite ?app_length in *; cbn [length] in *; lia|right; reflexivity].
      2:{ intros c I. apply Ascii.eqb_neq. intros ->. revert I. notin. }
      cbn [res_bind]. rewrite (ch_nul s a sep (host ++ ":"%char :: p ++ d :: rest)); [|exact E|reflexivity]. cbn [res_bind].
      rewrite (proj2 (Ascii.eqb_neq sep "]"%char) S1). cbn [res_bind].
      replace (_ <? 2) with false by sl.
      destruct (CUT (a ++ [sep]) host (":"%char :: p ++ d :: rest)) as (z2 & Ez2); [rewrite E; cat|sl|].
      rewrite (clrncpy_at_app _ _ _ _ _ _ _ Ez2); [|sl|sl|sl]. rewrite trim_id by exact TH. reflexivity.
  - unfold host_text in *. destruct (strchr host ":"%char) as [k|] eqn:K.
    + rewrite (scan_back_to _ (a ++ sep :: "["%char :: host) "]"%char [] (d :: rest)); [|rewrite E; cat|intros c []|sl|cbn; lia|left; split; [sl|reflexivity]].
      cbn [res_bind]. rewrite (ch_nul s (a ++ sep :: "["%char :: host) "]"%char (d :: rest)); [|rewrite E; cat|reflexivity]. cbn [res_bind].
      replace ("]" =? ":")%char with false by reflexivity. cbn [res_bind].
      rewrite (scan_back_to _ (a ++ sep :: "["%char :: host) "]"%char [d] rest); [|rewrite E; cat| |sl|cbn; destruct s; [exfalso; sl|cbn [length]; lia]|left; split; [sl|reflexivity]].
      2:{ intros c [<-|[]]. apply Ascii.eqb_neq. exact HD. }
      cbn [res_bind]. rewrite (ch_nul s (a ++ sep :: "["%char :: host) "]"%char (d :: rest)); [|rewrite E; cat|reflexivity]. cbn [res_bind].
      replace ("]" =? "]")%char with true by reflexivity.
      destruct (CUT (a ++ [sep]) ["["%char] (host ++ "]"%char :: d :: rest)) as (z1 & Ez1); [rewrite E; cat|sl|].
      rewrite (scan_fwd_to _ [sep] a "["%char z1); [|rewrite Ez1; cat| |reflexivity|cbn; destruct s; [exfalso; sl|cbn [length]; lia]|sl|reflexivity].
      2:{ intros c [<-|[]]. apply Ascii.eqb_neq. exact S2. }
      cbn [res_bind]. replace (_ >=? _) with false by sl. cbn [res_bind].
      replace (_ <? 2) with false by sl.
      destruct (CUT (a ++ sep :: ["["%char]) host ("]"%char :: d :: rest)) as (z2 & Ez2); [rewrite E; cat|sl|].
      rewrite (clrncpy_at_app _ _ _ _ _ _ _ Ez2); [|sl|sl|sl]. rewrite trim_id by exact TH. reflexivity.
    + apply strchr_none in K.
      rewrite (scan_back_to _ a sep host (d :: rest)); [|rewrite E; cat| |sl|apply length_slen; unfold slen in *; cbn [length] in *; lia|right; reflexivity].
      2:{ intros c I. apply orb_false_iff. split; apply Ascii.eqb_neq; intros ->; revert I; [wo|exact K]. }
      cbn [res_bind]. rewrite (ch_nul s a sep (host ++ d :: rest)); [|exact E|reflexivity]. cbn [res_bind].
      assert ((if (sep =? ":")%char then if slen a =? slen a then Ok (params, None) else
        if (params - slen a <? 2) || (params - slen a >? 8) then Err OSIP_SYNTAXERROR else do t <- clrncpy_at s (slen a + 1) (params - slen a - 1) (params - slen a) ; Ok (slen a, Some t)
        else Ok (params, None)) = Ok (params, None)) as -> by (rewrite Z.eqb_refl; destruct (sep =? ":")%char; reflexivity).
      cbn [res_bind].
      rewrite (scan_back_to _ a sep (host ++ [d]) rest); [|rewrite E; cat| |sl|apply length_slen; unfold slen in *; rewrite ?app_length in *; cbn [length] in *; lia|right; reflexivity].
      2:{ intros c I. apply Ascii.eqb_neq. intros ->. revert I. rewrite in_app_iff. intros [X|[X|[]]]; [revert X; wo|congruence]. }
      cbn [res_bind]. rewrite (ch_nul s a sep (host ++ d :: rest)); [|exact E|reflexivity]. cbn [res_bind].
      rewrite (proj2 (Ascii.eqb_neq sep "]"%char) S1). cbn [res_bind].
      replace (_ <? 2) with false by (sl).
      destruct (CUT (a ++ [sep]) host (d :: rest)) as (z2 & Ez2); [rewrite E; cat|sl|].
      rewrite (clrncpy_at_app _ _ _ _ _ _ _ Ez2); [|sl|sl|sl]. rewrite trim_id by exact TH. reflexivity.
Qed.

(** * User information *)
Lemma userinfo_ok : forall u scheme H s, s = scheme ++ ":"%char :: user_text u ++ H -> letters scheme -> ~ In "@"%char H ->
  match u_username u with
  | None => u_password u = None
  | Some n => n <> [] /\ cstr n /\ match u_password u with None => True | Some p => p <> [] /\ cstr p end
  end ->
  exists a sep, s = a ++ sep :: H /\ (sep = ":"%char \/ sep = "@"%char) /\
    uri_userinfo s (slen scheme) = Ok (u_username u, u_password u, slen a).
Proof.
  intros u scheme H s E L NH W. unfold uri_userinfo, user_text in *.
  pose proof (alpha_notin scheme "@"%char L eq_refl) as A1. pose proof (alpha_notin scheme ":"%char L eq_refl) as A2.
  destruct (u_username u) as [n|].
  - destruct W as (NN & CN & WP). pose proof (esc_nonempty userinfo_def n NN) as LN.
    assert (~ In "@"%char (esc userinfo_def n)) as NU by en. assert (~ In ":"%char (esc userinfo_def n)) as NU2 by en.
    assert (exists c e, esc userinfo_def n = c :: e) as (c & e & EN) by (destruct (esc userinfo_def n); [exfalso; sl|eauto]).
    assert ((c =? "@")%char = false) as C1 by (apply Ascii.eqb_neq; intros ->; apply NU; rewrite EN; left; reflexivity).
    destruct (u_password u) as [p|].
    + destruct WP as (NP & CP). pose proof (esc_nonempty password_def p NP) as LP.
      exists (scheme ++ ":"%char :: esc userinfo_def n ++ ":"%char :: esc password_def p), "@"%char.
      split; [rewrite E; cat|]. split; [auto|].
      rewrite (strchr_at_some s [] (scheme ++ ":"%char :: esc userinfo_def n ++ ":"%char :: esc password_def p) "@"%char H); [|rewrite E; cat|reflexivity|notin]. cbn [res_bind].
      rewrite (ch_at s (scheme ++ [":"%char]) c (e ++ ":"%char :: esc password_def p ++ "@"%char :: H)); [|rewrite E, EN; cat|sl]. cbn [res_bind]. rewrite C1.
      rewrite (next_separator_some s (scheme ++ [":"%char]) (esc userinfo_def n) ":"%char (esc password_def p ++ "@"%char :: H)); [|rewrite E; cat|sl|exact NU2|exact NU|discriminate]. cbn [res_bind].
      replace (_ <? 2) with false by sl.
      rewrite (copy_at_app s (scheme ++ ":"%char :: esc userinfo_def n ++ [":"%char]) (esc password_def p) ("@"%char :: H)); [|rewrite E; cat|sl|sl|sl]. cbn [res_bind].
      replace (_ <? 2) with false by sl.
      rewrite (copy_at_app s (scheme ++ [":"%char]) (esc userinfo_def n) (":"%char :: esc password_def p ++ "@"%char :: H)); [|rewrite E; cat|sl|sl|sl]. cbn [res_bind].
      rewrite unesc_user, unesc_password by auto. rewrite slen_nil. reflexivity.
    + exists (scheme ++ ":"%char :: esc userinfo_def n), "@"%char.
      split; [rewrite E; cat|]. split; [auto|].
      rewrite (strchr_at_some s [] (scheme ++ ":"%char :: esc userinfo_def n) "@"%char H); [|rewrite E; cat|reflexivity|notin]. cbn [res_bind].
      rewrite (ch_at s (scheme ++ [":"%char]) c (e ++ "@"%char :: H)); [|rewrite E, EN; cat|sl]. cbn [res_bind]. rewrite C1.
      rewrite (next_separator_none s (scheme ++ [":"%char]) (esc userinfo_def n ++ "@"%char :: H)); [|rewrite E; cat|sl|right; exists (esc userinfo_def n), H; repeat split; [exact NU2|exact NU|discriminate]]. cbn [res_bind].
      replace (_ <? 2) with false by sl.
      rewrite (copy_at_app s (scheme ++ [":"%char]) (esc userinfo_def n) ("@"%char :: H)); [|rewrite E; cat|sl|sl|sl]. cbn [res_bind].
      rewrite unesc_user by auto. rewrite slen_nil. reflexivity.
  - exists scheme, ":"%char. split; [exact E|]. split; [auto|]. rewrite W.
    rewrite (strchr_at_none s [] s); [reflexivity|reflexivity|reflexivity|]. rewrite E. cbn [app]. notin.
Qed.

(** * The whole *)
Lemma ptext_head : forall p ps, exists tl, flat_map uparam_text (p :: ps) = ";"%char :: tl.
Proof. intros p ps. eexists. reflexivity. Qed.
Lemma ptext_notin : forall ps c, Forall uparam_wf ps -> allowed uri_param_def c = false -> c <> "%"%char -> c <> ";"%char -> c <> "="%char ->
  ~ In c (flat_map uparam_text ps).
Proof.
  intros ps c W A N1 N2 N3 I. apply in_flat_map in I. destruct I as ([n v] & _ & I). unfold uparam_text in I. cbn [fst snd] in I.
  destruct I as [I|I]; [congruence|]. apply in_app_or in I. destruct I as [I|I]; [revert I; apply esc_notin; auto|].
  destruct v as [v|]; [|destruct I]. destruct I as [I|I]; [congruence|]. revert I. apply esc_notin; auto.
Qed.
Lemma htext_notin : forall hs c, allowed header_param_def c = false -> c <> "%"%char -> c <> "?"%char -> c <> "&"%char -> c <> "="%char ->
  ~ In c (uheaders_text hs).
Proof.
  assert (forall h sep c, allowed header_param_def c = false -> c <> "%"%char -> c <> sep -> c <> "="%char -> ~ In c (uheader_text sep h)) as A.
  { intros [n v] sep c A N1 N2 N3 I. unfold uheader_text in I. cbn [fst snd] in I. destruct I as [I|I]; [congruence|].
    apply in_app_or in I. destruct I as [I|[I|I]]; [revert I; apply esc_notin; auto|congruence|revert I; apply esc_notin; auto]. }
  intros [|h hs] c A1 N1 N2 N3 N4; [intros []|]. cbn [uheaders_text]. rewrite in_app_iff. intros [I|I]; [revert I; apply A; auto|].
  apply in_flat_map in I. destruct I as (q & _ & I). revert I. apply A; auto.
Qed.

Lemma shown_all : forall ps, Forall uparam_wf ps -> shown ps = ps.
Proof.
  intros ps W. induction W as [|p ps (_ & _ & _ & H & _) W IH]; [reflexivity|]. unfold shown. cbn [filter]. rewrite H. cbn [negb].
  f_equal. exact IH.
Qed.

Definition headers_part (s : str) (host : Z) : res (Z * list param) :=
  do q <- strchr_at s host "?"%char ;
  match q with None => Ok (slen s, []) | Some q => do t <- tail_at s q ; do l <- parse_headers t ; Ok (q, fst l) end.
Definition params_part (s : str) (host headers : Z) : res (Z * list param) :=
  do sc <- strchr_at s host ";"%char ;
  match sc with
  | None => Ok (headers, [])
  | Some p => if headers - p + 1 <? 2 then Err OSIP_SYNTAXERROR
              else do t <- copy_at s p (headers - p) (headers - p + 1) ;
                   do l <- parse_params t ; Ok (p, fst l)
  end.

Lemma headers_part_ok : forall s a sep X hs, s = a ++ (sep :: X) ++ uheaders_text hs -> ~ In "?"%char (sep :: X) -> Forall uheader_wf hs ->
  headers_part s (slen a) = Ok (slen a + slen (sep :: X), hs).
Proof.
  intros s a sep X hs Es N W. unfold headers_part. destruct hs as [|h hs]; cbn [uheaders_text] in *.
  - rewrite (strchr_at_none s a (sep :: X)); [|rewrite Es; cat|reflexivity|exact N].
    cbn [res_bind]. f_equal. f_equal. rewrite Es. sl.
  - set (T := uheader_text "?"%char h ++ flat_map (uheader_text "&"%char) hs) in *.
    assert (exists tl, T = "?"%char :: tl) as (tl & ET) by (unfold T, uheader_text at 1; eexists; reflexivity).
    rewrite (strchr_at_some s a (sep :: X) "?"%char tl); [|rewrite Es, ET; cat|reflexivity|exact N].
    cbn [res_bind]. rewrite (tail_at_app s (a ++ sep :: X) T); [|rewrite Es; cat|sl]. cbn [res_bind].
    assert (parse_headers T = Ok (h :: hs, OSIP_SUCCESS)) as ->; [|reflexivity].
    unfold parse_headers. change (parse_headers_loop (S (length T)) ([] ++ uheader_text "?"%char h ++ flat_map (uheader_text "&"%char) hs) (slen (@nil ascii)) [] = Ok ([] ++ h :: hs, OSIP_SUCCESS)).
    apply parse_headers_ok; [exact W| |discriminate].
    unfold T. rewrite app_length. clear. assert (forall l : list param, (length l <= length (flat_map (uheader_text "&"%char) l))%nat) as Y.
    { induction l as [|x l IH]; [auto|]. cbn [flat_map]. rewrite app_length. unfold uheader_text at 1. cbn [length]. lia. }
    specialize (Y hs). unfold uheader_text at 1. cbn [length]. lia.
Qed.
Lemma params_part_ok : forall s a sep X ps Q h, s = a ++ (sep :: X) ++ flat_map uparam_text ps ++ Q -> ~ In ";"%char (sep :: X) -> ~ In ";"%char Q ->
  Forall uparam_wf ps -> h = slen a + slen (sep :: X) + slen (flat_map uparam_text ps) ->
  params_part s (slen a) h = Ok (slen a + slen (sep :: X), ps).
Proof.
  intros s a sep X ps Q h Es N NQ W ->. unfold params_part. destruct ps as [|p ps].
  - cbn [flat_map app] in *. rewrite (strchr_at_none s a ((sep :: X) ++ Q)); [|rewrite Es; cat|reflexivity|].
    + cbn [res_bind]. f_equal. f_equal. sl.
    + intros I. apply in_app_or in I. tauto.
  - cbn [flat_map] in *. set (T := uparam_text p ++ flat_map uparam_text ps) in *.
    assert (exists tl, T = ";"%char :: tl) as (tl & ET) by (unfold T, uparam_text at 1; eexists; reflexivity).
    rewrite (strchr_at_some s a (sep :: X) ";"%char (tl ++ Q)); [|rewrite Es, ET; cat|reflexivity|exact N].
    cbn [res_bind]. assert (1 <= slen T) by (rewrite ET; sl). replace (_ <? 2) with false by sl.
    rewrite (copy_at_app s (a ++ sep :: X) T Q); [|rewrite Es; cat|sl|sl|sl]. cbn [res_bind].
    assert (parse_params T = Ok (p :: ps, OSIP_SUCCESS)) as ->; [|reflexivity].
    unfold parse_params. change (parse_params_loop (S (length T)) ([] ++ uparam_text p ++ flat_map uparam_text ps) (slen (@nil ascii)) [] = Ok ([] ++ p :: ps, OSIP_SUCCESS)).
    apply parse_params_ok; [exact W|].
    unfold T. rewrite app_length. clear. assert (forall l : list param, (length l <= length (flat_map uparam_text l))%nat) as Y.
    { induction l as [|x l IH]; [auto|]. cbn [flat_map]. rewrite app_length. unfold uparam_text at 1. cbn [length]. lia. }
    specialize (Y ps). unfold uparam_text at 1. cbn [length]. lia.
Qed.
Lemma parse_sip_parts : forall s scheme col, uri_parse_sip s scheme col =
  do ui <- uri_userinfo s col ;
  do hd <- headers_part s (snd ui) ;
  do pd <- params_part s (snd ui) (fst hd) ;
  do hp <- uri_hostport s (snd ui) (fst pd) ;
  Ok (mkUri (Some scheme) (fst (fst ui)) (snd (fst ui)) (Some (fst hp)) (snd hp) (snd pd) (snd hd) None).
Proof.
  intros s scheme col. unfold uri_parse_sip, headers_part, params_part.
  destruct (uri_userinfo s col) as [[[user pw] host]| |]; cbn [res_bind]; try reflexivity. cbn [fst snd].
  destruct (strchr_at s host "?"%char) as [q| |]; cbn [res_bind]; try reflexivity.
  destruct (match q with Some q0 => _ | None => _ end) as [[headers hl]| |]; cbn [res_bind]; try reflexivity. cbn [fst snd].
  destruct (strchr_at s host ";"%char) as [sc| |]; cbn [res_bind]; try reflexivity.
  destruct (match sc with Some p => _ | None => _ end) as [[params pl]| |]; cbn [res_bind]; try reflexivity. cbn [fst snd].
  destruct (uri_hostport s host params) as [[h port]| |]; reflexivity.
Qed.

(** Printing a well-formed SIP URI and parsing the text gives back the same URI: scheme, user,
    password, host (name, IPv4 or IPv6), port, parameters and headers, in order. *)
Theorem C33_round_trip : forall u scheme host, uri_wf u scheme host ->
  exists t, uri_to_str u = Ok t /\ uri_parse t = Ok u.
Proof.
  intros u scheme host W. destruct W as [W1 W2 [W3 W4] W5 W6 (W7 & W8 & W9) W10 W11 W12 W13].
  rewrite (uri_to_str_ok u host W6 W13).
  2:{ eapply Forall_impl; [|exact W12]. intros [n v] (_ & _ & V). destruct v; [discriminate|contradiction]. }
  rewrite W1. cbn [default_scheme]. eexists. split; [reflexivity|].
  unfold uri_text. rewrite (shown_all _ W11).
  set (P := flat_map uparam_text (u_params u)). set (Q := uheaders_text (u_headers u)).
  set (H := host_text host ++ port_text (u_port u) ++ P ++ Q).
  set (s := scheme ++ ":"%char :: user_text u ++ H).
  assert (forall c, In c ($"@?;") -> ~ In c (host_text host ++ port_text (u_port u))) as HP.
  { intros c C. assert (~ In c host) by (apply W9; destruct C as [<-|[<-|[<-|[]]]]; cbn; auto 8).
    assert (c <> "["%char /\ c <> "]"%char /\ c <> ":"%char) as (X1 & X2 & X3) by (destruct C as [<-|[<-|[<-|[]]]]; repeat split; discriminate).
    rewrite in_app_iff. intros [I|I].
    - unfold host_text in I. destruct (strchr host ":"%char); [|contradiction]. destruct I as [I|I]; [congruence|].
      apply in_app_or in I. destruct I as [I|[I|[]]]; [contradiction|congruence].
    - unfold port_text in I. destruct (u_port u) as [p|]; [|destruct I]. destruct I as [I|I]; [congruence|].
      destruct W10 as (_ & _ & W10). revert I. apply W10. destruct C as [<-|[<-|[<-|[]]]]; cbn; auto 8. }
  assert (~ In "@"%char P) as P1 by (apply ptext_notin; auto; discriminate).
  assert (~ In "?"%char P) as P2 by (apply ptext_notin; auto; discriminate).
  assert (~ In "@"%char Q) as Q1 by (apply htext_notin; auto; discriminate).
  assert (~ In ";"%char Q) as Q2 by (apply htext_notin; auto; discriminate).
  assert (~ In "@"%char H) as NH.
  { unfold H. rewrite app_assoc. intros I. apply in_app_or in I. destruct I as [I|I]; [revert I; apply HP; cbn; auto|]. apply in_app_or in I. tauto. }
  pose proof (alpha_notin scheme ":"%char W2 eq_refl) as A2.
  unfold uri_parse. destruct s as [|s0 s'] eqn:Es0; [exfalso; assert (slen s = 0) by (rewrite Es0; reflexivity); unfold s in *; sl|]. rewrite <- Es0. clear s0 s' Es0.
  rewrite (strchr_at_some s [] scheme ":"%char (user_text u ++ H)) by auto. cbn [res_bind]. rewrite slen_nil, Z.add_0_l.
  replace (slen scheme <? 2) with false by lia.
  assert (firstn (Z.to_nat (slen scheme)) s = scheme) as -> by (unfold s; rewrite slen_to_nat; apply firstn_len_app).
  rewrite W2. cbn [negb].
  rewrite (copy_at_app s [] scheme (":"%char :: user_text u ++ H)); [|reflexivity|reflexivity|reflexivity|lia]. cbn [res_bind].
  rewrite (strchr_absent scheme " "%char (alpha_notin scheme " "%char W2 eq_refl)).
  rewrite W4. replace (slen scheme <? 3) with false by lia. cbn [negb andb orb].
  rewrite parse_sip_parts.
  destruct (userinfo_ok u scheme H s eq_refl W2 NH W5) as (a & sep & Es & HS & ->). cbn [res_bind fst snd].
  assert (sep <> "?"%char /\ sep <> ";"%char) as [S1 S2] by (destruct HS; subst sep; split; discriminate).
  rewrite (headers_part_ok s a sep (host_text host ++ port_text (u_port u) ++ P) (u_headers u)); [|rewrite Es; unfold H, Q; cat| |exact W12].
  2:{ intros [I|I]; [congruence|]. rewrite app_assoc in I. apply in_app_or in I. destruct I as [I|I]; [revert I; apply HP; cbn; auto|contradiction]. }
  cbn [res_bind fst snd].
  rewrite (params_part_ok s a sep (host_text host ++ port_text (u_port u)) (u_params u) Q); [|rewrite Es; unfold H, P; cat| |exact Q2|exact W11|unfold P; sl].
  2:{ intros [I|I]; [congruence|]. revert I. apply HP; cbn; auto. }
  cbn [res_bind fst snd].
  (* host and port *)
  assert (exists d rest, P ++ Q ++ [NUL] = d :: rest /\ d <> "]"%char) as (d & rest & Ed & ND).
  { unfold P. destruct (u_params u) as [|p ps].
    - cbn [flat_map app]. unfold Q. destruct (u_headers u) as [|h hs]; [exists NUL, []; split; [reflexivity|discriminate]|].
      cbn [uheaders_text]. unfold uheader_text at 1. eexists _, _. split; [reflexivity|discriminate].
    - cbn [flat_map]. unfold uparam_text at 1. eexists _, _. split; [reflexivity|discriminate]. }
  replace (slen a + slen (sep :: host_text host ++ port_text (u_port u))) with (slen a + 1 + slen (host_text host) + slen (port_text (u_port u))) by sl.
  rewrite (hostport_ok s a sep host (u_port u) d rest); auto.
  - cbn [res_bind fst snd]. f_equal. destruct u as [c1 c2 c3 c4 c5 c6 c7 c8]. cbn in *. subst. reflexivity.
  - rewrite <- Ed. rewrite Es. unfold H. cat.
Qed.

(** Other schemes: everything after the colon is kept as it is. *)
Theorem C33_other_scheme : forall scheme txt, letters scheme -> 2 <= slen scheme -> 2 <= slen txt ->
  (slen scheme = 2 \/ strncaseeq 3 scheme ($"sip") = false) ->
  exists t, uri_to_str (mkUri (Some scheme) None None None None [] [] (Some txt)) = Ok t /\
            uri_parse t = Ok (mkUri (Some scheme) None None None None [] [] (Some txt)).
Proof.
  intros scheme txt L L1 L2 NS. exists (scheme ++ ":"%char :: txt). split.
  - unfold uri_to_str. cbn [u_host u_string u_scheme]. unfold out_new. replace (_ <? 1) with false by sl. cbn [res_bind].
    change ($":") with [":"%char]. rewrite emit_ok by sl. cbn [res_bind]. rewrite emit_ok by sl. cbn [res_bind o_text]. f_equal. cat.
  - unfold uri_parse. set (s := scheme ++ ":"%char :: txt). destruct s as [|s0 s'] eqn:Es0; [exfalso; assert (slen s = 0) by (rewrite Es0; reflexivity); unfold s in *; sl|]. rewrite <- Es0. clear s0 s' Es0.
    rewrite (strchr_at_some s [] scheme ":"%char txt); [|reflexivity|reflexivity|apply alpha_notin; auto]. cbn [res_bind]. rewrite slen_nil, Z.add_0_l.
    replace (slen scheme <? 2) with false by lia.
    assert (firstn (Z.to_nat (slen scheme)) s = scheme) as -> by (unfold s; rewrite slen_to_nat; apply firstn_len_app).
    rewrite L. cbn [negb].
    rewrite (copy_at_app s [] scheme (":"%char :: txt)); [|reflexivity|reflexivity|reflexivity|lia]. cbn [res_bind].
    rewrite (strchr_absent scheme " "%char (alpha_notin scheme " "%char L eq_refl)).
    assert ((slen scheme <? 3) || negb (strncaseeq 3 scheme ($"sip")) && negb (strncaseeq 4 scheme ($"sips")) = true) as ->.
    { destruct NS as [N|N]; [rewrite N; reflexivity|]. apply orb_true_iff. right. rewrite N. cbn [negb andb].
      destruct (strncaseeq 4 scheme ($"sips")) eqn:E4; [exfalso|reflexivity]. revert N E4. clear. unfold strncaseeq.
      destruct scheme as [|c1 [|c2 [|c3 t]]]; try (cbn; repeat (destruct (Ascii.eqb _ _); cbn); congruence). }
    rewrite (tail_at_app s (scheme ++ [":"%char]) txt); [|unfold s; cat|sl]. cbn [res_bind].
    replace (slen txt <? 2) with false by lia.
    rewrite (copy_at_app s (scheme ++ [":"%char]) txt []); [reflexivity|unfold s; cat|sl|reflexivity|lia].
Qed.

Definition ex_uri : uri :=
  mkUri (Some ($"sips")) (Some ($"al ice;x@y")) (Some ($"p:w")) (Some ($"2001:db8::1")) (Some ($"5061"))
        [($"transport", Some ($"tcp")); ($"lr", None); ($"a b", Some ($"=;?"))]
        [($"Subject", Some ($"hello world")); ($"x", Some ($"&="))] None.
Example C33_witness : uri_wf ex_uri ($"sips") ($"2001:db8::1")
  /\ uri_to_str ex_uri = Ok ($"sips:al%20ice;x%40y:p%3Aw@[2001:db8::1]:5061;transport=tcp;lr;a%20b=%3D%3B%3F?Subject=hello%20world&x=%26%3D").
Proof.
  assert (forall s, forallb (fun c => negb (Ascii.eqb c NUL)) s = true -> cstr s) as C.
  { intros s H I. rewrite forallb_forall in H. specialize (H _ I). discriminate H. }
  assert (forall cs s, forallb (fun c => negb (existsb (Ascii.eqb c) s)) cs = true -> without cs s) as D.
  { intros cs s H c I J. rewrite forallb_forall in H. specialize (H _ I). apply negb_true_iff in H.
    assert (existsb (Ascii.eqb c) s = true) by (apply existsb_exists; exists c; split; [exact J|apply Ascii.eqb_refl]). congruence. }
  split; [|reflexivity].
  constructor; cbn [ex_uri u_scheme u_username u_password u_host u_port u_params u_headers u_string]; try reflexivity.
  - split; [discriminate|reflexivity].
  - split; [discriminate|]. split; [apply C; reflexivity|]. split; [discriminate|]. apply C; reflexivity.
  - split; [discriminate|]. split; [reflexivity|]. apply D. reflexivity.
  - split; [split; discriminate|]. split; [reflexivity|]. apply D. reflexivity.
  - repeat constructor; try discriminate; try reflexivity; apply C; reflexivity.
  - repeat constructor; try discriminate; try reflexivity; apply C; reflexivity.
Qed.

Print Assumptions C33_round_trip.
Print Assumptions C33_other_scheme.

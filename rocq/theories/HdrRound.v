(** C37: generic parameters, C35: From, To, Contact, Route and Record-Route; what is printed is
    parsed back to the same structure. *)
From Coq Require Import String ZArith NArith Ascii Bool List Lia ZifyBool ZifyNat.
From Verif Require Import Base Str StrLemmas MemModel MemLemmas Types PortModel PortBuf PortProps QuoteProps CString CStringLemmas SafeLemmas
  UriModel EscapeProps UriProps UriRound ViaModel HdrModel HdrProps HdrSafe.
Import ListNotations.
Open Scope Z_scope.

(** * Specification *)

(** The inside of a quoted string (RFC 3261 25.1): plain characters and backslash pairs *)
Inductive qtext : str -> Prop :=
| q_nil : qtext []
| q_char : forall c t, c <> dquote -> c <> bslash -> c <> NUL -> qtext t -> qtext (c :: t)
| q_pair : forall c t, c <> NUL -> qtext t -> qtext (bslash :: c :: t).
Definition quoted_string (v : str) : Prop := exists t, v = dquote :: t ++ [dquote] /\ qtext t.

(** A value without quotes: not empty, no white space at its ends, no ';' *)
Definition plain_value (v : str) : Prop :=
  trimmed v /\ cstr v /\ without ($";") v /\ exists c v', v = c :: v' /\ c <> dquote /\ c <> ","%char.
Definition gparam_wf (p : param) : Prop :=
  fst p <> [] /\ trimmed (fst p) /\ cstr (fst p) /\ without ($";=") (fst p) /\
  match snd p with None => True | Some v => plain_value v \/ quoted_string v end.

(** * Quoted strings *)
Lemma qtext_cstr : forall t, qtext t -> cstr t.
Proof.
  intros t Q. induction Q as [|c t N1 N2 N3 Q IH|c t N1 Q IH]; [intros []| |].
  - intros [I|I]; [congruence|exact (IH I)].
  - intros [I|[I|I]]; [discriminate I|congruence|exact (IH I)].
Qed.

Lemma qtext_no_real : forall t, qtext t -> forall P, Nat.even (backslashes_before P (length P)) = true -> (forall j, ~ real_quote P j) ->
  (forall j, ~ real_quote (P ++ t) j) /\ Nat.even (backslashes_before (P ++ t) (length (P ++ t))) = true.
Proof.
  assert (ONE : forall Q x, (forall j, ~ real_quote Q j) -> (x = dquote -> Nat.even (backslashes_before Q (length Q)) = false) -> forall j, ~ real_quote (Q ++ [x]) j).
  { intros Q x NQ X j R. destruct (Nat.lt_trichotomy j (length Q)) as [L|[->|L]].
    - apply real_quote_app in R; auto. eapply NQ; eauto.
    - apply real_quote_snoc in R as [R1 R2]. rewrite X in R2; auto. discriminate.
    - destruct R as [R _]. assert (nth_error (Q ++ [x]) j <> None) as Z by congruence. apply nth_error_Some in Z. rewrite app_length in Z. cbn in Z. lia. }
  assert (BB : forall Q x, backslashes_before (Q ++ [x]) (length (Q ++ [x])) = if Ascii.eqb x bslash then S (backslashes_before Q (length Q)) else O).
  { intros Q x. rewrite snoc_len. apply before_snoc. }
  intros t Q. induction Q as [|c t N1 N2 N3 Q IH|c t N1 Q IH]; intros P E N.
  - rewrite app_nil_r. auto.
  - replace (P ++ c :: t) with ((P ++ [c]) ++ t) by (rewrite <- app_assoc; reflexivity). apply IH.
    + rewrite BB. destruct (Ascii.eqb_spec c bslash); [contradiction|reflexivity].
    + apply ONE; [exact N|contradiction].
  - replace (P ++ bslash :: c :: t) with (((P ++ [bslash]) ++ [c]) ++ t) by (rewrite <- !app_assoc; reflexivity).
    assert (Nat.even (backslashes_before (P ++ [bslash]) (length (P ++ [bslash]))) = false) as OD.
    { rewrite BB, Ascii.eqb_refl, Nat.even_succ, <- Nat.negb_even, E. reflexivity. }
    apply IH.
    + rewrite BB. destruct (Ascii.eqb c bslash); [|reflexivity]. rewrite Nat.even_succ, <- Nat.negb_even, OD. reflexivity.
    + apply ONE; [|intros _; exact OD]. apply ONE; [exact N|discriminate].
Qed.

Lemma quote_at_q : forall s a t r i, s = a ++ t ++ dquote :: r -> i = slen a -> cstr s -> qtext t -> quote_at s i = Ok (Some (slen a + slen t)).
Proof.
  intros s a t r i E -> C Q. unfold quote_at. rewrite (in_range_at s a (t ++ dquote :: r)) by auto.
  rewrite slen_to_nat, E, skipn_len_app.
  assert (cstr (t ++ dquote :: r)) as C' by (rewrite E in C; apply cstr_app in C; tauto).
  destruct (C30_quote_find _ [] C') as (x & -> & R). cbn [res_bind].
  destruct (qtext_no_real t Q [] eq_refl) as [A B]; [intros j [X _]; destruct j; discriminate|]. cbn [app] in A, B.
  assert (real_quote (t ++ dquote :: r) (length t)) as RT by (apply real_quote_snoc; auto).
  destruct x as [z|]; [|exfalso; exact (R _ RT)]. destruct R as (k & -> & RK & M). cbn [option_map]. f_equal. f_equal. unfold slen.
  destruct (Nat.lt_trichotomy k (length t)) as [L|[->|L]]; [|reflexivity|exfalso; exact (M _ L RT)].
  exfalso. apply real_quote_app in RK; auto. exact (A _ RK).
Qed.

(** * Generic parameters *)
Lemma scan_here : forall f s p hi stop c, p < hi -> ch s p = Ok c -> stop c = true -> scan_fwd (S f) s p hi stop = Ok p.
Proof. intros f s p hi stop c L E S. cbn [scan_fwd]. replace (p <? hi) with true by lia. rewrite E. cbn [res_bind]. rewrite S. reflexivity. Qed.

Definition comma_of (pos : Z) (r : str) : option Z := match r with [] => None | _ => Some pos end.
Definition param_end (r : str) : Prop := r = [] \/ exists tl, r = ";"%char :: tl.

Lemma ends_novalue : forall s a n r, s = a ++ ";"%char :: n ++ r -> without ($";=") n -> param_end r ->
  param_ends s (slen a) = Ok (None, comma_of (slen a + 1 + slen n) r).
Proof.
  intros s a n r E W R. unfold param_ends.
  assert (s = (a ++ [";"%char]) ++ n ++ r) as E' by (rewrite E; cat).
  destruct R as [->|(tl & ->)].
  - rewrite app_nil_r in E'. rewrite (next_separator_none _ _ _ _ _ _ E'); [|sl|left; wo]. cbn [res_bind].
    rewrite (strchr_at_none _ _ _ _ _ E'); [|sl|wo]. reflexivity.
  - rewrite (next_separator_none _ _ _ _ _ _ E'); [|sl|right; exists n, tl; split; [reflexivity|]; split; [wo|]; split; [wo|discriminate]]. cbn [res_bind].
    rewrite (strchr_at_some _ _ _ _ _ _ E'); [|sl|wo]. cbn [res_bind comma_of]. f_equal. f_equal. f_equal. sl.
Qed.

Lemma blank_space : forall c, is_blank c = false -> c <> " "%char /\ c <> chr 9.
Proof. intros c H. split; intros ->; discriminate H. Qed.

Lemma ends_plain : forall s a n v r, s = a ++ ";"%char :: n ++ "="%char :: v ++ r -> without ($";=") n -> plain_value v -> param_end r ->
  param_ends s (slen a) = Ok (Some (slen a + 1 + slen n), comma_of (slen a + 2 + slen n + slen v) r).
Proof.
  intros s a n v r E W (T & _ & WV & c & v' & Ev & C1 & C2) R. unfold param_ends.
  assert (s = (a ++ [";"%char]) ++ n ++ "="%char :: v ++ r) as E' by (rewrite E; cat).
  rewrite (next_separator_some _ _ _ _ _ _ _ E'); [|sl|wo|wo|discriminate]. cbn [res_bind].
  assert (strchr_at s (slen a + 1) ";"%char = Ok (comma_of (slen a + 2 + slen n + slen v) r)) as SC.
  { destruct R as [->|(tl & ->)].
    - rewrite (strchr_at_none _ _ _ _ _ E'); [reflexivity|sl|]. rewrite app_nil_r. notin.
    - rewrite (strchr_at_some s (a ++ [";"%char]) (n ++ "="%char :: v) ";"%char tl); [|rewrite E; cat|sl|notin]. cbn [comma_of]. f_equal. f_equal. sl. }
  rewrite SC. cbn [res_bind].
  assert (ch s (slen (a ++ [";"%char]) + slen n + 1) = Ok c) as Hc by (apply (ch_at s (a ++ ";"%char :: n ++ ["="%char]) c (v' ++ r)); [rewrite E, Ev; cat|sl]).
  assert (is_blank c = false) as Bc by (apply trimmed_iff in T; destruct T as [T|[T _]]; [congruence|rewrite Ev in T; exact T]).
  destruct (blank_space c Bc) as [B1 B2].
  rewrite (scan_here _ _ _ _ _ c); [|rewrite E, Ev; sl|exact Hc|unfold is_ch; destruct (Ascii.eqb_spec c " "%char); [contradiction|reflexivity]]. cbn [res_bind]. rewrite Hc. cbn [res_bind].
  unfold is_ch. destruct (Ascii.eqb_spec c dquote); [contradiction|]. f_equal. f_equal. f_equal. sl.
Qed.

Lemma ends_quoted : forall s a n v r, s = a ++ ";"%char :: n ++ "="%char :: v ++ r -> without ($";=") n -> quoted_string v -> param_end r -> cstr s ->
  param_ends s (slen a) = Ok (Some (slen a + 1 + slen n), comma_of (slen a + 2 + slen n + slen v) r).
Proof.
  intros s a n v r E W (t & Ev & Q) R C. unfold param_ends.
  assert (s = (a ++ [";"%char]) ++ n ++ "="%char :: v ++ r) as E' by (rewrite E; cat).
  rewrite (next_separator_some _ _ _ _ _ _ _ E'); [|sl|wo|wo|discriminate]. cbn [res_bind].
  assert (ch s (slen (a ++ [";"%char]) + slen n + 1) = Ok dquote) as Hc by (apply (ch_at s (a ++ ";"%char :: n ++ ["="%char]) dquote (t ++ [dquote] ++ r)); [rewrite E, Ev; cat|sl]).
  assert (slen (a ++ [";"%char]) + slen n + 1 < slen s) as Ls by (rewrite E, Ev; sl).
  pose proof (scan_here (length s) s _ (slen s) (fun c => negb (is_ch c " "%char)) dquote Ls Hc eq_refl) as SH.
  assert (quote_at s (slen (a ++ [";"%char]) + slen n + 1 + 1) = Ok (Some (slen a + 3 + slen n + slen t))) as QA.
  { rewrite (quote_at_q s (a ++ ";"%char :: n ++ "="%char :: [dquote]) t r); [f_equal; f_equal; sl|rewrite E, Ev; cat|sl|exact C|exact Q]. }
  assert (strchr_at s (slen a + 3 + slen n + slen t) ";"%char = Ok (comma_of (slen a + 2 + slen n + slen v) r)) as SF.
  { destruct R as [->|(tl & ->)].
    - rewrite (strchr_at_none s (a ++ ";"%char :: n ++ "="%char :: dquote :: t) [dquote]); [reflexivity|rewrite E, Ev; cat|sl|notin].
    - rewrite (strchr_at_some s (a ++ ";"%char :: n ++ "="%char :: dquote :: t) [dquote] ";"%char tl); [cbn [comma_of]; f_equal; f_equal; rewrite Ev; sl|rewrite E, Ev; cat|sl|notin]. }
  destruct (strchr_at_cases s (slen a + 1) ";"%char) as [[-> N]|(k & -> & K & BK & M)]; [sl| |]; cbn [res_bind]; rewrite SH; cbn [res_bind]; rewrite Hc; cbn [res_bind].
  - unfold is_ch. cbn [Ascii.eqb]. rewrite Ascii.eqb_refl. destruct R as [->|(tl & ->)]; [cbn [comma_of]; f_equal; f_equal; f_equal; sl|].
    exfalso. apply (N (slen (a ++ ";"%char :: n ++ "="%char :: v))); [rewrite E; sl|]. apply (byte_at _ (a ++ ";"%char :: n ++ "="%char :: v) ";"%char tl); [rewrite E; cat|reflexivity].
  - unfold is_ch. rewrite Ascii.eqb_refl.
    assert (slen (a ++ [";"%char]) + slen n + 1 < k) as G.
    { destruct (Z_lt_le_dec (slen (a ++ [";"%char]) + slen n + 1) k) as [|G]; [assumption|exfalso].
      assert (s = (a ++ [";"%char]) ++ (n ++ ["="%char; dquote]) ++ (t ++ [dquote] ++ r)) as E2 by (rewrite E, Ev; cat).
      assert (In (byte s k) (n ++ ["="%char; dquote])) as I.
      { unfold byte. rewrite E2, app_nth2 by (unfold slen in *; rewrite app_length in *; cbn in *; lia).
        rewrite app_nth1; [apply nth_In|]; rewrite !app_length; unfold slen in *; rewrite app_length in *; cbn in *; lia. }
      rewrite BK in I. revert I. notin. }
    replace (k >? _) with true by lia. rewrite QA. cbn [res_bind]. rewrite SF. cbn [res_bind]. f_equal. f_equal. f_equal. sl.
Qed.

Lemma value_first : forall v, plain_value v \/ quoted_string v -> exists c v', v = c :: v' /\ is_blank c = false /\ c <> ","%char /\ c <> NUL.
Proof.
  intros v [(T & Cv & WV & c & v' & Ev & C1 & C2)|(t & Ev & Q)].
  - exists c, v'. split; [exact Ev|]. split; [|split; [exact C2|intros ->; apply Cv; rewrite Ev; left; reflexivity]].
    apply trimmed_iff in T. destruct T as [T|[T _]]; [congruence|rewrite Ev in T; exact T].
  - exists dquote, (t ++ [dquote]). split; [exact Ev|]. repeat split; discriminate.
Qed.
Lemma value_trimmed : forall v, plain_value v \/ quoted_string v -> trimmed v /\ cstr v.
Proof.
  intros v [(T & C & _)|(t & Ev & Q)]; [auto|]. split.
  - apply trimmed_iff. right. rewrite Ev. split; [reflexivity|]. change (dquote :: t ++ [dquote]) with ((dquote :: t) ++ [dquote]). rewrite last_last. reflexivity.
  - rewrite Ev. apply cstr_cons. split; [discriminate|]. apply cstr_app. split; [apply qtext_cstr, Q|]. intros [X|[]]. discriminate X.
Qed.

Lemma value_ok : forall s b v r q e, s = b ++ "="%char :: v ++ r -> plain_value v \/ quoted_string v -> q = slen b -> e = slen b + 1 + slen v ->
  param_value s q e = Ok (Some v).
Proof.
  intros s b v r q e E V -> ->. destruct (value_first v V) as (c & v' & Ev & Bc & C1 & C2). destruct (blank_space c Bc) as [B1 B2]. unfold param_value.
  assert (ch s (slen b + 1) = Ok c) as Hc by (apply (ch_at s (b ++ ["="%char]) c (v' ++ r)); [rewrite E, Ev; cat|sl]).
  rewrite (scan_here _ _ _ _ _ c); [|rewrite E, Ev; sl|exact Hc|].
  2:{ unfold is_ch. destruct (Ascii.eqb_spec c (chr 9)); [contradiction|]. destruct (Ascii.eqb_spec c " "%char); [contradiction|reflexivity]. }
  cbn [res_bind]. rewrite Hc. cbn [res_bind]. unfold is_ch. destruct (Ascii.eqb_spec c ","%char); [contradiction|]. destruct (Ascii.eqb_spec c NUL); [contradiction|]. cbn [orb].
  replace (_ <? 2) with false by (rewrite Ev; sl).
  rewrite (copy_at_app s (b ++ ["="%char]) v r); [reflexivity|rewrite E; cat|sl|sl|sl].
Qed.

Lemma print_param_head : forall p, exists tl, print_param p = ";"%char :: tl.
Proof. intros [n [v|]]; eexists; reflexivity. Qed.
Lemma params_end : forall ps, param_end (print_params ps).
Proof.
  intros [|p ps]; [left; reflexivity|right]. destruct (print_param_head p) as (tl & E). exists (tl ++ print_params ps). unfold print_params. cbn [flat_map]. rewrite E. reflexivity.
Qed.
Lemma params_nil : forall ps, print_params ps = [] -> ps = [].
Proof. intros [|p ps] H; [reflexivity|]. destruct (print_param_head p) as (tl & E). unfold print_params in H. cbn [flat_map] in H. rewrite E in H. discriminate. Qed.

(** As [gparam_wf], but white space may surround the name *)
Definition gparam_raw (p : param) : Prop :=
  fst p <> [] /\ cstr (fst p) /\ without ($";=") (fst p) /\ match snd p with None => True | Some v => plain_value v \/ quoted_string v end.
Definition trim_name (p : param) : param := (trim (fst p), snd p).
Lemma gparams_raw_ok : forall ps p a fuel acc, Forall gparam_raw (p :: ps) -> cstr (a ++ print_param p ++ print_params ps) -> (length ps < fuel)%nat ->
  gparams_loop fuel (a ++ print_param p ++ print_params ps) (slen a) acc = Ok (acc ++ map trim_name (p :: ps)).
Proof.
  induction ps as [|p2 ps IH]; intros [n v] a fuel acc W C F; (destruct fuel as [|fuel]; [cbn in F; lia|]); inversion W as [|? ? (N & CN & WN & WV) W2]; subst; cbn [fst snd] in *; pose proof (slen_pos _ n N) as LN;
    cbn [gparams_loop].
  - cbn [print_params flat_map] in *. rewrite app_nil_r in *. destruct v as [v|]; unfold print_param in *; cbn [fst snd] in *.
    + pose proof (value_trimmed v WV) as [TV CV]. destruct (value_first v WV) as (c & v' & Ev & _).
      assert (1 <= slen v) as LV by (rewrite Ev; sl).
      assert (a ++ ";"%char :: n ++ "="%char :: v = a ++ ";"%char :: n ++ "="%char :: v ++ []) as E by cat.
      assert (param_ends (a ++ ";"%char :: n ++ "="%char :: v) (slen a) = Ok (Some (slen a + 1 + slen n), None)) as PE.
      { destruct WV as [WV|WV]; [rewrite (ends_plain _ a n v [] E WN WV)|rewrite (ends_quoted _ a n v [] E WN WV)]; [reflexivity|left; reflexivity|reflexivity|left; reflexivity|exact C]. }
      rewrite PE. cbn [res_bind].
      rewrite (value_ok _ (a ++ ";"%char :: n) v []); [|rewrite E; cat|exact WV|sl|sl]. cbn [res_bind].
      replace (_ <? 2) with false by sl. rewrite (copy_at_app _ (a ++ [";"%char]) n ("="%char :: v)); [|cat|sl|sl|sl]. cbn [res_bind].
      unfold param_set. cbn [option_map]. rewrite ?(trim_id v) by auto. reflexivity.
    + assert (a ++ ";"%char :: n = a ++ ";"%char :: n ++ []) as E by cat.
      rewrite (ends_novalue _ a n [] E WN) by (left; reflexivity). cbn [res_bind comma_of].
      replace (_ <? 2) with false by sl. rewrite (copy_at_app _ (a ++ [";"%char]) n []); [|cat|sl|sl|sl]. cbn [res_bind].
      unfold param_set. cbn [option_map]. rewrite ?(trim_id v) by auto. reflexivity.
  - cbn [length] in F. remember (print_params (p2 :: ps)) as r eqn:Er. assert (param_end r) as RE by (rewrite Er; apply params_end).
    assert (r = print_param p2 ++ print_params ps) as Er2 by (rewrite Er; reflexivity).
    assert (r <> []) as NR by (intros X; rewrite Er in X; apply params_nil in X; discriminate).
    assert (forall pos, comma_of pos r = Some pos) as CO by (intros; destruct r; [contradiction|reflexivity]).
    assert (forall acc, gparams_loop fuel (a ++ print_param (n, v) ++ r) (slen (a ++ print_param (n, v))) acc = Ok (acc ++ map trim_name (p2 :: ps))) as IH'.
    { intros acc'. rewrite Er2. replace (a ++ print_param (n, v) ++ print_param p2 ++ print_params ps) with ((a ++ print_param (n, v)) ++ print_param p2 ++ print_params ps) by cat.
      apply IH; [exact W2| |lia]. rewrite Er2 in C. rewrite <- app_assoc. exact C. }
    clear Er Er2 IH. destruct v as [v|]; unfold print_param in *; cbn [fst snd] in *.
    + pose proof (value_trimmed v WV) as [TV CV]. destruct (value_first v WV) as (c & v' & Ev & _).
      assert (1 <= slen v) as LV by (rewrite Ev; sl).
      set (s := a ++ (";"%char :: n ++ "="%char :: v) ++ r) in *.
      assert (s = a ++ ";"%char :: n ++ "="%char :: v ++ r) as E by (unfold s; cat).
      assert (param_ends s (slen a) = Ok (Some (slen a + 1 + slen n), Some (slen a + 2 + slen n + slen v))) as PE.
      { destruct WV as [WV|WV]; [rewrite (ends_plain _ a n v r E WN WV RE)|rewrite (ends_quoted _ a n v r E WN WV RE)]; [rewrite CO; reflexivity|rewrite CO; reflexivity|exact C]. }
      rewrite PE. cbn [res_bind].
      rewrite (value_ok _ (a ++ ";"%char :: n) v r); [|rewrite E; cat|exact WV|sl|sl]. cbn [res_bind].
      replace (_ <? 2) with false by sl. rewrite (copy_at_app _ (a ++ [";"%char]) n ("="%char :: v ++ r)); [|rewrite E; cat|sl|sl|sl]. cbn [res_bind].
      unfold param_set. cbn [option_map]. rewrite ?(trim_id v) by auto.
      replace (slen a + 2 + slen n + slen v) with (slen (a ++ ";"%char :: n ++ "="%char :: v)) by sl. rewrite IH', <- app_assoc. reflexivity.
    + set (s := a ++ (";"%char :: n) ++ r) in *.
      assert (s = a ++ ";"%char :: n ++ r) as E by (unfold s; cat).
      rewrite (ends_novalue _ a n r E WN RE). cbn [res_bind]. rewrite CO.
      replace (_ <? 2) with false by sl. rewrite (copy_at_app _ (a ++ [";"%char]) n r); [|rewrite E; cat|sl|sl|sl]. cbn [res_bind].
      unfold param_set. cbn [option_map]. rewrite ?(trim_id v) by auto.
      replace (slen a + 1 + slen n) with (slen (a ++ ";"%char :: n)) by sl. rewrite IH', <- app_assoc. reflexivity.
Qed.

Lemma raw_of_wf : forall ps, Forall gparam_wf ps -> Forall gparam_raw ps /\ map trim_name ps = ps.
Proof.
  induction ps as [|[n v] ps IH]; intros W; [split; [constructor|reflexivity]|]. inversion W as [|? ? (A & B & C & D & E) W2]; subst. destruct (IH W2) as [F1 F2]. split.
  - constructor; [|exact F1]. repeat split; assumption.
  - cbn [map]. unfold trim_name at 1. cbn [fst snd] in *. rewrite (trim_id _ B), F2. reflexivity.
Qed.
Lemma gparams_ok : forall ps p a fuel acc, Forall gparam_wf (p :: ps) -> cstr (a ++ print_param p ++ print_params ps) -> (length ps < fuel)%nat ->
  gparams_loop fuel (a ++ print_param p ++ print_params ps) (slen a) acc = Ok (acc ++ p :: ps).
Proof. intros ps p a fuel acc W C F. destruct (raw_of_wf _ W) as [R E]. rewrite gparams_raw_ok by auto. rewrite E. reflexivity. Qed.

Lemma gparam_cstr : forall p, gparam_wf p -> cstr (print_param p).
Proof.
  intros [n [v|]] (_ & _ & C & _ & V); cbn [fst snd] in *; unfold print_param; cbn [fst snd]; apply cstr_cons; (split; [discriminate|]); [|exact C].
  apply cstr_app. split; [exact C|]. apply cstr_cons. split; [discriminate|]. apply value_trimmed in V. tauto.
Qed.
Lemma gparams_cstr : forall ps, Forall gparam_wf ps -> cstr (print_params ps).
Proof. intros ps F I. unfold print_params in I. apply in_flat_map in I. destruct I as (p & Ip & I). rewrite Forall_forall in F. exact (gparam_cstr p (F p Ip) I). Qed.

(** Any number of parameters, with or without values, quoted or not: the printed text is parsed
    back to exactly these parameters in this order. *)
Theorem C37_round_trip : forall ps, ps <> [] -> Forall gparam_wf ps -> gparams_parse (print_params ps) = Ok ps.
Proof.
  intros [|p ps] N W; [contradiction|]. unfold gparams_parse. change (print_params (p :: ps)) with ([] ++ print_param p ++ print_params ps) at 2.
  change 0 with (slen (@nil ascii)). rewrite gparams_ok; [reflexivity|exact W|exact (gparams_cstr _ W)|].
  assert (length ps <= length (print_params ps))%nat as L; [|unfold print_params in *; cbn [flat_map]; rewrite app_length; lia].
  clear. induction ps as [|q ps IH]; [cbn; lia|]. unfold print_params in *. cbn [flat_map length]. rewrite app_length. destruct (print_param_head q) as (tl & ->). cbn [length]. lia.
Qed.

(** Every parameter is found by its name, in any case; the first one wins. *)
Example C37_witness : let ps := [($"tag", Some ($"a=b")); ($"lr", None); ($"text", Some ($"""x;y\"";=z"""))] in
  Forall gparam_wf ps /\ print_params ps = $";tag=a=b;lr;text=""x;y\"";=z""" /\ gparams_parse (print_params ps) = Ok ps.
Proof.
  cbn zeta. split; [|split; vm_compute; reflexivity].
  assert (forall cs s, forallb (fun c => negb (existsb (Ascii.eqb c) s)) cs = true -> without cs s) as W.
  { intros cs s H c I J. rewrite forallb_forall in H. specialize (H c I). apply negb_true_iff in H. rewrite <- not_true_iff_false in H. apply H. apply existsb_exists. exists c. split; [exact J|apply Ascii.eqb_refl]. }
  assert (forall s, existsb (Ascii.eqb NUL) s = false -> cstr s) as CS.
  { intros s H I. rewrite <- not_true_iff_false in H. apply H. apply existsb_exists. exists NUL. auto. }
  constructor; [|constructor; [|constructor; [|constructor]]]; (split; [discriminate|]); (split; [reflexivity|]); (split; [apply CS; reflexivity|]); (split; [apply W; reflexivity|]); cbn [snd]; auto.
  - left. split; [reflexivity|]. split; [apply CS; reflexivity|]. split; [apply W; reflexivity|]. eexists _, _. split; [reflexivity|]. split; discriminate.
  - right. exists ($"x;y\"";=z"). split; [reflexivity|]. cbn [list_ascii_of_string].
    repeat first [apply q_nil | apply q_pair; [discriminate|] | apply q_char; [discriminate|discriminate|discriminate|]].
Qed.
Print Assumptions C37_round_trip.

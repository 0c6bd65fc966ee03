(** C57: multipart messages with a Mime-Version header, printed and parsed again. *)
From Coq Require Import String ZArith NArith Ascii Bool List Lia ZifyBool ZifyNat.
From Verif Require Import Base Str StrLemmas Types MemModel MemLemmas CString CStringLemmas SafeLemmas PortModel PortProps ViaModel UriModel EscapeProps UriProps UriRound HdrModel HdrProps HdrRound FromRound AuthModel AuthSafe ViaRound MsgFields MsgModel MsgProps MsgSplit MsgSafe MsgFold MsgBody MsgPrint MsgText MsgStart MsgRound MsgWhole.
Import ListNotations.
Open Scope Z_scope.

(** *** Specification *)
Definition contains (pat s : str) : Prop := exists a b, s = a ++ pat ++ b.
(** a header of a part: a name that does not begin as Content-Type and whose first letter is not in
    lower case (the printer capitalises it, the parser of parts keeps it), a value on one line *)
Definition part_header (h : header) : Prop :=
  exists n v, h = mkHeader (Some n) (Some v) /\ plain_name n /\ upcase_first n = n /\ strncaseeq 12 n ($"content-type") = false /\
    trimmed v /\ without [cr; lf; NUL] v.
(** a part: some headers and a body; no line of its text begins with two dashes and the boundary;
    less than a thousand zero bytes *)
Record part_wf (g : str) (bd : body) : Prop := {
  pw_body : b_body bd <> [];
  pw_some : b_headers bd <> [] \/ b_ctype bd <> None;
  pw_headers : Forall part_header (b_headers bd);
  pw_ctype : forall c, b_ctype bd = Some c -> survives ($"content-type") ctype_to_str ctype_parse c;
  pw_boundary : forall t, body_to_str bd = Ok t -> ~ contains (lf :: $"--" ++ g) (lf :: t);
  pw_zeros : (count_occ Ascii.ascii_dec (b_body bd) NUL < 1000)%nat }.
(** the boundary [g], with or without quotes *)
Definition boundary_is (g : str) (m : message) : Prop :=
  exists ty st ps n v, m_content_type m = Some (mkCT (Some ty) (Some st) ps) /\ map tolower ty = $"multipart" /\
    param_get ps ($"boundary") = Some (n, Some v) /\ slen v <= 70 /\
    (v = dquote :: g ++ [dquote] \/ v = g /\ (hd NUL g <> dquote \/ last g NUL <> dquote)) /\ without [cr; lf; NUL] g.
Definition multipart_wf (m : message) : Prop :=
  m_mime_version m <> None /\ m_bodies m <> [] /\ exists g, boundary_is g m /\ Forall (part_wf g) (m_bodies m).

(** *** Search of the boundary *)
Lemma strneq_prefix : forall pat s, strneq (length pat) s pat = true -> exists r, s = pat ++ r.
Proof.
  induction pat as [|c pat IH]; intros s H; [exists s; reflexivity|]. destruct s as [|d s]; cbn [length strneq] in H; [discriminate|].
  destruct (Ascii.eqb_spec d c) as [->|]; [|discriminate]. destruct (IH s H) as (r & ->). exists r. reflexivity.
Qed.
Lemma prefix_strneq : forall pat r, strneq (length pat) (pat ++ r) pat = true.
Proof. induction pat as [|c pat IH]; intros r; cbn [length app strneq]; [reflexivity|]. rewrite Ascii.eqb_refl. apply IH. Qed.
(** no occurrence of [pat] begins inside [a] when [z] follows *)
Definition occ_free (pat a z : str) : Prop := forall x y w, a = x ++ y -> y <> [] -> y ++ z <> pat ++ w.
Lemma occ_free_tail : forall pat c a z, occ_free pat (c :: a) z -> occ_free pat a z.
Proof. intros pat c a z H x y w E N. apply (H (c :: x) y w); [rewrite E; reflexivity|exact N]. Qed.
Lemma strstr_first : forall pat a r, occ_free pat a (pat ++ r) -> strstr (a ++ pat ++ r) pat = Some (slen a).
Proof.
  intros pat a r. induction a as [|c a IH]; intros F.
  - cbn [app]. pose proof (prefix_strneq pat r) as P. destruct (pat ++ r) as [|x l]; cbn [strstr]; rewrite P; reflexivity.
  - cbn [app strstr]. destruct (strneq _ _ _) eqn:S.
    + exfalso. apply strneq_prefix in S. destruct S as (w & S). apply (F [] (c :: a) w); [reflexivity|discriminate|exact S].
    + rewrite IH by (eapply occ_free_tail; exact F). f_equal. sl.
Qed.
Lemma strstr_absent : forall pat a, pat <> [] -> (forall x y w, a = x ++ y -> y <> pat ++ w) -> strstr a pat = None.
Proof.
  intros pat a N. induction a as [|c a IH]; intros F; cbn [strstr].
  - destruct pat; [congruence|reflexivity].
  - destruct (strneq _ _ _) eqn:S.
    + exfalso. apply strneq_prefix in S. destruct S as (w & S). apply (F [] (c :: a) w); [reflexivity|exact S].
    + rewrite IH; [reflexivity|]. intros x y w E. apply (F (c :: x)). rewrite E. reflexivity.
Qed.
Lemma cstr_from_at : forall pre s r, cstr s -> cstr_from (pre ++ s ++ NUL :: r) (slen pre) = Ok s.
Proof.
  intros pre s r C. unfold cstr_from. pose proof (slen_nonneg _ pre). replace (_ || _) with false by (symmetry; slens; pose proof (slen_nonneg _ s); pose proof (slen_nonneg _ r); lia).
  rewrite slen_to_nat, skipn_len_app. apply c_string_at. exact C.
Qed.
Lemma cut_nul : forall s, In NUL s -> exists a b, s = a ++ NUL :: b /\ cstr a.
Proof.
  induction s as [|c s IH]; intros I; [destruct I|]. destruct (Ascii.eqb_spec c NUL) as [->|N].
  - exists [], s. split; [reflexivity|intros []].
  - destruct I as [I|I]; [congruence|]. destruct (IH I) as (a & b & -> & C). exists (c :: a), b. split; [reflexivity|]. intros [J|J]; [congruence|exact (C J)].
Qed.
Lemma find_occ_first : forall n pat pre a r e, pat <> [] -> cstr pat -> occ_free pat a (pat ++ r) -> (count_occ Ascii.ascii_dec a NUL < n)%nat ->
  slen pre + slen a < e -> find_occ n pat (pre ++ a ++ pat ++ r ++ [NUL]) (slen pre) e = Ok (Some (slen pre + slen a)).
Proof.
  induction n as [|n IH]; intros pat pre a r e N C F CN L; [lia|]. cbn [find_occ].
  destruct (in_dec Ascii.ascii_dec NUL a) as [I|I].
  - destruct (cut_nul a I) as (a1 & a2 & -> & C1). 
    replace (pre ++ (a1 ++ NUL :: a2) ++ pat ++ r ++ [NUL]) with (pre ++ a1 ++ NUL :: (a2 ++ pat ++ r ++ [NUL])) by cat.
    rewrite cstr_from_at by exact C1. cbn [res_bind]. rewrite strstr_absent.
    2:{ exact N. } 2:{ intros x y w E Y. apply (F x (y ++ NUL :: a2) (w ++ NUL :: a2 ++ pat ++ r)); [rewrite E; cat|destruct y; discriminate|rewrite Y; cat]. }
    pose proof (slen_nonneg _ a2) as L2. rewrite slen_app, slen_cons in L. replace (e - (slen pre + slen a1) >? 0) with true by lia.
    replace (pre ++ a1 ++ NUL :: a2 ++ pat ++ r ++ [NUL]) with ((pre ++ a1 ++ [NUL]) ++ a2 ++ pat ++ r ++ [NUL]) by cat.
    replace (slen pre + slen a1 + 1) with (slen (pre ++ a1 ++ [NUL])) by sl. rewrite IH; [f_equal; f_equal; sl|exact N|exact C| |..].
    + intros x y w E. apply (F (a1 ++ NUL :: x)). rewrite E. cat.
    + rewrite count_occ_app in CN. cbn [count_occ] in CN. destruct (Ascii.ascii_dec NUL NUL); [lia|congruence].
    + sl.
  - destruct (in_dec Ascii.ascii_dec NUL r) as [J|J].
    + destruct (cut_nul r J) as (r1 & r2 & -> & C1).
      replace (pre ++ a ++ pat ++ (r1 ++ NUL :: r2) ++ [NUL]) with (pre ++ (a ++ pat ++ r1) ++ NUL :: r2 ++ [NUL]) by cat.
      rewrite cstr_from_at by (intros K; rewrite !in_app_iff in K; destruct K as [K|[K|K]]; [exact (I K)|exact (C K)|exact (C1 K)]). cbn [res_bind].
      rewrite strstr_first; [reflexivity|]. intros x y w E NY Y. apply (F x y (w ++ NUL :: r2) E NY).
      replace (y ++ pat ++ r1 ++ NUL :: r2) with ((y ++ pat ++ r1) ++ NUL :: r2) by cat. rewrite Y. cat.
    + replace (pre ++ a ++ pat ++ r ++ [NUL]) with (pre ++ (a ++ pat ++ r) ++ NUL :: []) by cat.
      rewrite cstr_from_at by (intros K; rewrite !in_app_iff in K; destruct K as [K|[K|K]]; [exact (I K)|exact (C K)|exact (J K)]). cbn [res_bind].
      rewrite strstr_first by exact F. reflexivity.
Qed.
(** the text before a boundary line has no boundary line itself *)
Lemma app_cut : forall A (a b c d : list A), a ++ b = c ++ d -> (exists k, a = c ++ k /\ d = k ++ b) \/ (exists k, k <> [] /\ c = a ++ k /\ b = k ++ d).
Proof.
  induction a as [|x a IH]; intros b c d E.
  - destruct c as [|y c]; [left; exists []; auto|right; exists (y :: c); split; [discriminate|auto]].
  - destruct c as [|y c]; [left; exists (x :: a); auto|]. cbn [app] in E. injection E as -> E. destruct (IH _ _ _ E) as [(k & -> & ->)|(k & N & -> & ->)]; [left; exists k; auto|right; exists k; auto].
Qed.
Lemma occ_free_text : forall q t z, ~ In cr q -> ~ contains (lf :: q) t -> occ_free (lf :: q) (t ++ [cr]) z.
Proof.
  intros q t z NC F x y w E NY Y. symmetry in E.
  destruct y as [|y0 y'] using rev_ind; [congruence|clear IHy']. rewrite app_assoc in E. apply app_inj_tail in E. destruct E as [E ->].
  rewrite <- app_assoc in Y. apply app_cut in Y. destruct Y as [(k & Y & _)|(k & NK & Y & Y2)].
  - apply F. exists x, k. rewrite <- E, Y. reflexivity.
  - destruct k as [|k0 k]; [congruence|]. cbn [app] in Y2. injection Y2 as <- _. assert (In cr (lf :: q)) as I by (rewrite Y; apply in_or_app; right; left; reflexivity). destruct I as [I|I]; [discriminate|exact (NC I)].
Qed.

(** *** A part *)
Definition pfield (n v : str) : str := n ++ $": " ++ v ++ CRLF.
Lemma body_headers_line : forall f t pre n v c y bd, t = pre ++ pfield n v ++ c :: y -> plain_name n -> trimmed v -> without [cr; lf; NUL] v -> is_wsp c = false ->
  body_headers (S f) t (slen pre) bd =
  (do bd' <- (if strncaseeq 12 n ($"content-type") then do ct <- ctype_parse v ; Ok (mkBody (b_body bd) (b_headers bd) (Some ct))
              else Ok (mkBody (b_body bd) (b_headers bd ++ [mkHeader (Some n) (Some v)]) (b_ctype bd))) ;
   if is_eol c then Ok (bd', slen (pre ++ pfield n v)) else body_headers f t (slen (pre ++ pfield n v)) bd').
Proof.
  intros f t pre n v c y bd E (N1 & N2 & N3) T W WC. cbn [body_headers].
  assert (without [cr; lf] (n ++ $": " ++ v)) as WL.
  { apply without_app; [eapply without_incl; [exact N3|intros z; cbn; tauto]|]. apply without_app; [apply chk_without; reflexivity|eapply without_incl; [exact W|intros z; cbn; tauto]]. }
  rewrite (next_line t pre (n ++ $": " ++ v) c y); [|rewrite E; unfold pfield; cat|exact WL|exact WC]. cbn [res_bind].
  rewrite (strchr_at_some t pre n ":"%char (" "%char :: v ++ CRLF ++ c :: y)); [|rewrite E; unfold pfield; cat|reflexivity|apply N3; left; reflexivity]. cbn [res_bind].
  assert (1 <= slen n) as LN by (destruct n; [congruence|sl]).
  replace (slen pre + slen n - slen pre + 1 <? 2) with false by lia.
  rewrite (clrncpy_at_app t pre n (":"%char :: " "%char :: v ++ CRLF ++ c :: y)); [|rewrite E; unfold pfield; cat|reflexivity|lia|lia]. cbn [res_bind].
  assert (trim n = n) as -> by exact N2.
  assert (slen (n ++ $": " ++ v) = slen n + 2 + slen v) as LL by (slens; change (slen ($": ")) with 2; lia). rewrite LL.
  pose proof (slen_nonneg _ v). replace (_ <? 2) with false by lia.
  rewrite (clrncpy_at_app t (pre ++ n ++ [":"%char]) (" "%char :: v) (CRLF ++ c :: y)); [|rewrite E; unfold pfield; cat|sl|slens; lia|slens; lia]. cbn [res_bind].
  assert (trim (" "%char :: v) = v) as ->. { pose proof (trim_app_blanks [" "%char] v []) as TA. rewrite app_nil_r in TA. apply TA; [reflexivity|reflexivity|exact T]. }
  assert (slen pre + (slen n + 2 + slen v) + 2 = slen (pre ++ pfield n v)) as -> by (unfold pfield; rewrite !slen_app; change (slen ($": ")) with 2; change (slen CRLF) with 2; lia).
  destruct (if strncaseeq 12 n ($"content-type") then _ else _) as [bd'|e|]; cbn [res_bind]; [|reflexivity|reflexivity].
  rewrite (ch_at t (pre ++ pfield n v) c y); [reflexivity|rewrite E; cat|reflexivity].
Qed.
Lemma rd_here : forall a c r i, i = slen a -> rd (a ++ c :: r) i = Ok c.
Proof. intros a c r i E. apply rd_at. exact E. Qed.
Lemma rd_range_here : forall a l r i n, i = slen a -> n = slen l -> rd_range (a ++ l ++ r) i n = Ok l.
Proof. intros a l r i n E1 E2. apply rd_range_at; assumption. Qed.
Definition pf (f : field) : str := pfield (fst f) (snd f).
Definition pf_ok (f : field) : Prop := plain_name (fst f) /\ trimmed (snd f) /\ without [cr; lf; NUL] (snd f).
Fixpoint pstore (bd : body) (l : list field) : res body :=
  match l with
  | [] => Ok bd
  | (n, v) :: l => do bd' <- (if strncaseeq 12 n ($"content-type") then do ct <- ctype_parse v ; Ok (mkBody (b_body bd) (b_headers bd) (Some ct))
                              else Ok (mkBody (b_body bd) (b_headers bd ++ [mkHeader (Some n) (Some v)]) (b_ctype bd))) ; pstore bd' l
  end.
Lemma body_headers_run : forall l f pre t bd rest, t = pre ++ flat_map pf l ++ CRLF ++ rest -> l <> [] -> Forall pf_ok l -> (length l <= f)%nat ->
  body_headers f t (slen pre) bd = do bd' <- pstore bd l ; Ok (bd', slen (pre ++ flat_map pf l)).
Proof.
  induction l as [|[n v] l IH]; intros f pre t bd rest E N F L; [congruence|]. destruct f as [|f]; [cbn in L; lia|]. inversion F as [|? ? (F1 & F2 & F3) FL]; subst. cbn [fst snd] in *.
  cbn [flat_map pstore]. change (pf (n, v)) with (pfield n v). destruct l as [|[n' v'] l].
  - rewrite (body_headers_line f _ pre n v cr (lf :: rest)); [|cbn [flat_map]; cat|exact F1|exact F2|exact F3|reflexivity].
    destruct (if strncaseeq 12 n ($"content-type") then _ else _) as [bd'|e|]; cbn [res_bind pstore flat_map]; [|reflexivity|reflexivity]. change (is_eol cr) with true. cbv iota. rewrite app_nil_r. reflexivity.
  - inversion FL as [|? ? (G1 & G2 & G3) _]; subst. cbn [fst snd] in *. destruct G1 as (M1 & M2 & M3). destruct (name_head n' M1 M2 M3) as (c & k & EN & W1 & W2 & _).
    rewrite (body_headers_line f _ pre n v c (k ++ $": " ++ v' ++ CRLF ++ flat_map pf l ++ CRLF ++ rest)); [|cbn [flat_map]; change (pf (n', v')) with (pfield n' v'); unfold pfield; rewrite EN; cat|exact F1|exact F2|exact F3|exact W1].
    destruct (if strncaseeq 12 n ($"content-type") then _ else _) as [bd'|e|]; cbn [res_bind]; [|reflexivity|reflexivity]. rewrite W2.
    rewrite (IH f (pre ++ pfield n v) _ bd' rest); [|cat|discriminate|exact FL|cbn in *; lia]. rewrite <- app_assoc. reflexivity.
Qed.
Lemma until_nul_app : forall a r, cstr a -> until_nul (a ++ r) = a ++ until_nul r.
Proof.
  induction a as [|c a IH]; intros r C; [reflexivity|]. cbn [app until_nul]. destruct (Ascii.eqb_spec c NUL) as [->|]; [exfalso; apply C; left; reflexivity|].
  rewrite IH; [reflexivity|]. intros I. apply C. right. exact I.
Qed.
Lemma pf_cstr : forall l, Forall pf_ok l -> cstr (flat_map pf l).
Proof.
  intros l F I. apply in_flat_map in I. destruct I as ([n v] & I & J). rewrite Forall_forall in F. destruct (F _ I) as ((_ & _ & N3) & _ & W). cbn [fst snd] in *. unfold pf, pfield in J. cbn [fst snd] in J.
  rewrite !in_app_iff in J. destruct J as [J|[J|[J|J]]]; [apply (N3 NUL); [cbn; tauto|exact J]|cbn in J; intuition discriminate|apply (W NUL); [cbn; tauto|exact J]|cbn in J; intuition discriminate].
Qed.
Lemma pf_length : forall l, (length l <= length (flat_map pf l))%nat.
Proof. induction l as [|[n v] l IH]; [reflexivity|]. cbn [flat_map length]. rewrite app_length. change (pf (n, v)) with (n ++ $": " ++ v ++ CRLF). rewrite !app_length. cbn [length]. change (length CRLF) with 2%nat. lia. Qed.
Lemma mime_part : forall l bd rest, l <> [] -> Forall pf_ok l -> rest <> [] -> pstore (mkBody [] [] None) l = Ok bd ->
  body_parse_mime (flat_map pf l ++ CRLF ++ rest) = Ok (mkBody rest (b_headers bd) (b_ctype bd)).
Proof.
  intros l bd rest N F NR PS. unfold body_parse_mime. pose proof (pf_cstr l F) as C.
  assert (until_nul (flat_map pf l ++ CRLF ++ rest) = flat_map pf l ++ CRLF ++ until_nul rest) as -> by (rewrite until_nul_app by exact C; reflexivity).
  change 0 with (slen (@nil ascii)) at 1. rewrite (body_headers_run l _ [] _ _ (until_nul rest)); [|reflexivity|exact N|exact F|rewrite app_length; pose proof (pf_length l); lia].
  rewrite PS. cbn [res_bind app]. rewrite (after_crlf _ (flat_map pf l) (until_nul rest)) by reflexivity. cbn [res_bind].
  assert (slen (flat_map pf l ++ CRLF ++ rest) = slen (flat_map pf l) + 2 + slen rest) as -> by sln.
  assert (1 <= slen rest) as LR by (destruct rest; [congruence|sl]). replace (_ <=? 0) with false by lia.
  replace (flat_map pf l ++ CRLF ++ rest) with ((flat_map pf l ++ CRLF) ++ rest ++ []) by cat.
  rewrite (rd_range_here (flat_map pf l ++ CRLF) rest []); [reflexivity|sln|lia].
Qed.
Lemma upcase_app : forall n x, n <> [] -> upcase_first n = n -> upcase_first (n ++ x) = n ++ x.
Proof. intros [|c n] x N E; [congruence|]. cbn [upcase_first app] in *. injection E as E. rewrite E. reflexivity. Qed.
Lemma pstore_headers : forall l bd, Forall part_header l -> exists fl, others_text l = Ok (flat_map pf fl) /\ Forall pf_ok fl /\ (l <> [] -> fl <> []) /\
  pstore bd fl = Ok (mkBody (b_body bd) (b_headers bd ++ l) (b_ctype bd)).
Proof.
  induction l as [|h l IH]; intros bd F.
  - exists []. split; [reflexivity|]. split; [constructor|]. split; [congruence|]. cbn [pstore]. rewrite app_nil_r. destruct bd; reflexivity.
  - inversion F as [|? ? (n & v & -> & N & U & CT & T & W) FL]; subst. destruct (IH (mkBody (b_body bd) (b_headers bd ++ [mkHeader (Some n) (Some v)]) (b_ctype bd)) FL) as (fl & I1 & I2 & I3 & I4).
    exists ((n, v) :: fl). split.
    + unfold others_text, many in *. cbn [map cat_all]. unfold header_text at 1. cbn [h_name h_value res_bind]. rewrite I1. cbn [res_bind flat_map]. rewrite upcase_app by (auto; apply N). unfold line, pf, pfield. cbn [fst snd app]. f_equal. cat.
    + split; [constructor; [split; [exact N|split; [exact T|exact W]]|exact I2]|]. split; [discriminate|]. cbn [pstore]. rewrite CT. cbn [res_bind]. rewrite I4. cbn [b_body b_headers b_ctype]. rewrite <- app_assoc. reflexivity.
Qed.
Lemma part_round : forall g bd, part_wf g bd -> exists fl, part_text bd = Ok (flat_map pf fl ++ CRLF ++ b_body bd) /\ Forall pf_ok fl /\ body_parse_mime (flat_map pf fl ++ CRLF ++ b_body bd) = Ok bd.
Proof.
  intros g bd [B S H C _ _]. destruct bd as [b hs ct]. cbn [b_body b_headers b_ctype] in *. unfold part_text. cbn [b_body b_headers b_ctype]. destruct b as [|b0 b']; [congruence|]. set (b := b0 :: b') in *. cbn [cat_all].
  destruct ct as [c|].
  - destruct (C c eq_refl) as (t & T1 & T2 & (T3 & T4 & T5) & _). destruct (pstore_headers hs (mkBody [] [] (Some c)) H) as (fl & P1 & P2 & P3 & P4).
    exists (($"content-type", t) :: fl). assert (pf_ok ($"content-type", t)) as FO by (split; [apply name_lit; reflexivity|split; [exact T4|exact T5]]). split.
    + rewrite T1, P1. cbn [res_bind flat_map]. f_equal. destruct hs; unfold line, pf at 2, pfield; cbn [fst snd]; change ($"content-type: ") with ($"content-type" ++ $": "); cat.
    + split; [constructor; assumption|]. rewrite (mime_part _ (mkBody [] hs (Some c))); [reflexivity|discriminate|constructor; assumption|discriminate|].
      cbn [pstore]. change (strncaseeq 12 ($"content-type") ($"content-type")) with true. cbv iota. rewrite T2. cbn [res_bind b_body b_headers]. rewrite P4. reflexivity.
  - destruct (pstore_headers hs (mkBody [] [] None) H) as (fl & P1 & P2 & P3 & P4). assert (hs <> []) as NH by (destruct S as [S|S]; [exact S|congruence]).
    exists fl. split; [|split; [exact P2|]].
    + rewrite P1. cbn [res_bind]. f_equal. destruct hs; [congruence|]. cat.
    + rewrite (mime_part _ (mkBody [] hs None)); [reflexivity|auto|exact P2|discriminate|exact P4].
Qed.

(** *** The loop over the parts *)
Definition parts_text (q : str) (ts : list str) : str := flat_map (fun t => cr :: lf :: q ++ CRLF ++ t) ts ++ cr :: lf :: q ++ $"--" ++ CRLF.
Definition parts_tail (q : str) (ts : list str) : str := match ts with [] => $"--" ++ CRLF | t :: ts => CRLF ++ t ++ parts_text q ts end.
Lemma parts_text_cons : forall q t ts, parts_text q (t :: ts) = cr :: (lf :: q) ++ CRLF ++ t ++ parts_text q ts.
Proof. intros. unfold parts_text. cbn [flat_map]. cat. Qed.
Lemma parts_text_tail : forall q ts, parts_text q ts = cr :: (lf :: q) ++ parts_tail q ts.
Proof. intros q [|t ts]; [reflexivity|]. rewrite parts_text_cons. reflexivity. Qed.
Lemma strneq2 : forall t, strneq 2 (cr :: t) ($"--") = false.
Proof. reflexivity. Qed.
Lemma cstr_from_any : forall pre x, exists y, cstr_from (pre ++ x ++ [NUL]) (slen pre) = Ok (until_nul x) /\ x = until_nul x ++ y.
Proof.
  intros pre x. destruct (in_dec Ascii.ascii_dec NUL x) as [I|I].
  - destruct (cut_nul x I) as (a & b & -> & C). exists (NUL :: b). rewrite until_nul_app by exact C. cbn [until_nul]. change (Ascii.eqb NUL NUL) with true. cbv iota. rewrite app_nil_r. split; [|reflexivity].
    rewrite <- app_assoc. cbn [app]. rewrite cstr_from_at by exact C. reflexivity.
  - exists []. assert (until_nul x = x) as -> by (rewrite <- (app_nil_r x) at 1; rewrite until_nul_app by exact I; cbn [until_nul]; apply app_nil_r). rewrite app_nil_r. split; [|reflexivity]. apply cstr_from_at. exact I.
Qed.
Lemma parts_run : forall q ts bs f pre a m e, cstr q -> ~ In cr q -> length bs = length ts -> ts <> [] ->
  Forall2 (fun t bd => ~ contains (lf :: q) (lf :: t) /\ (count_occ Ascii.ascii_dec t NUL < 1000)%nat /\ body_parse_mime t = Ok bd) ts bs ->
  occ_free (lf :: q) a ((lf :: q) ++ parts_tail q ts) -> (count_occ Ascii.ascii_dec a NUL < 1000)%nat -> (length ts <= f)%nat ->
  slen (pre ++ a ++ (lf :: q) ++ parts_tail q ts) = e ->
  parts_loop f (lf :: q) (pre ++ a ++ (lf :: q) ++ parts_tail q ts ++ [NUL]) (slen pre) e m = Ok (with_bodies (m_bodies m ++ bs) m).
Proof.
  intros q ts. induction ts as [|t ts IH]; intros bs f pre a m e CQ NQ LB NT F2 OF CA LF LE; [congruence|]. destruct f as [|f]; [cbn in LF; lia|]. cbn [parts_loop].
  inversion F2 as [|? bd ? bs' (NB & CT & BP) F2']; subst. assert (cstr (lf :: q)) as CS by (intros [I|I]; [discriminate|exact (CQ I)]).
  unfold find_next_occurence. rewrite find_occ_first; [|discriminate|exact CS|exact OF|exact CA|rewrite !slen_app, slen_cons; pose proof (slen_nonneg _ q); pose proof (slen_nonneg _ (parts_tail q (t :: ts))); lia].
  cbn [res_bind]. cbn [parts_tail]. rewrite parts_text_tail.
  set (sepr := lf :: q) in *. set (Z0 := parts_tail q ts) in *.
  replace (pre ++ a ++ sepr ++ (CRLF ++ t ++ cr :: sepr ++ Z0) ++ [NUL]) with ((pre ++ a ++ sepr) ++ (CRLF ++ t ++ [cr]) ++ sepr ++ Z0 ++ [NUL]) by cat.
  replace (slen pre + slen a + slen sepr) with (slen (pre ++ a ++ sepr)) by sl.
  rewrite find_occ_first; [|discriminate|exact CS| | |].
  2:{ replace (CRLF ++ t ++ [cr]) with ((cr :: lf :: t) ++ [cr]) by cat. apply occ_free_text; [exact NQ|]. intros ([|x0 x] & y & E); [discriminate E|]. injection E as _ E. apply NB. exists x, y. exact E. }
  2:{ rewrite !count_occ_app. change (count_occ ascii_dec CRLF NUL) with O. change (count_occ ascii_dec [cr] NUL) with O. lia. }
  2:{ rewrite !slen_app. unfold sepr. repeat (rewrite slen_app || rewrite slen_cons || rewrite slen_nil). change (slen CRLF) with 2. pose proof (slen_nonneg _ q). pose proof (slen_nonneg _ t). pose proof (slen_nonneg _ Z0). lia. }
  cbn [res_bind]. cbv zeta.
  set (A := pre ++ a ++ sepr) in *. assert (slen (CRLF ++ t ++ [cr]) = slen t + 3) as L1 by (slens; change (slen CRLF) with 2; lia). rewrite L1.
  replace (A ++ (CRLF ++ t ++ [cr]) ++ sepr ++ Z0 ++ [NUL]) with ((A ++ [cr]) ++ lf :: t ++ [cr] ++ sepr ++ Z0 ++ [NUL]) by cat.
  rewrite rd_here by (sl). cbn [res_bind]. change (is_eol lf) with true. cbv iota.
  replace ((A ++ [cr]) ++ lf :: t ++ [cr] ++ sepr ++ Z0 ++ [NUL]) with ((A ++ CRLF ++ t) ++ cr :: sepr ++ Z0 ++ [NUL]) by cat.
  rewrite rd_here by (rewrite !slen_app; change (slen CRLF) with 2; lia). cbn [res_bind]. change (is_ch cr cr) with true. cbv iota.
  replace ((A ++ CRLF ++ t) ++ cr :: sepr ++ Z0 ++ [NUL]) with ((A ++ CRLF) ++ t ++ (cr :: sepr ++ Z0 ++ [NUL])) by cat.
  rewrite rd_range_here by (rewrite ?slen_app; change (slen CRLF) with 2; lia). cbn [res_bind]. unfold set_body_mime. rewrite BP. cbn [res_bind].
  replace ((A ++ CRLF) ++ t ++ (cr :: sepr ++ Z0 ++ [NUL])) with ((A ++ CRLF ++ t ++ cr :: sepr) ++ Z0 ++ [NUL]) by cat.
  replace (slen A + (slen t + 3) + slen sepr) with (slen (A ++ CRLF ++ t ++ cr :: sepr)) by (rewrite !slen_app, slen_cons; change (slen CRLF) with 2; lia).
  destruct (cstr_from_any (A ++ CRLF ++ t ++ cr :: sepr) Z0) as (y & -> & EY). cbn [res_bind].
  destruct ts as [|t' ts].
  - unfold Z0. cbn [parts_tail]. change (strneq 2 (until_nul ($"--" ++ CRLF)) ($"--")) with true. cbv iota. inversion F2'; subst. reflexivity.
  - assert (strneq 2 (until_nul Z0) ($"--") = false) as ->. { unfold Z0. cbn [parts_tail]. reflexivity. } cbv iota.
    replace ((A ++ CRLF ++ t ++ cr :: sepr) ++ Z0 ++ [NUL]) with ((A ++ CRLF ++ t ++ [cr]) ++ [] ++ sepr ++ Z0 ++ [NUL]) by cat.
    replace (slen A + (slen t + 3)) with (slen (A ++ CRLF ++ t ++ [cr])) by (rewrite <- L1; sl).
    unfold Z0, sepr. rewrite (IH bs').
    + cbn [with_bodies m_bodies]. rewrite <- app_assoc. destruct m; reflexivity.
    + exact CQ.
    + exact NQ.
    + cbn in LB |- *. lia.
    + discriminate.
    + exact F2'.
    + intros x y0 w E NY. destruct x; [destruct y0; [congruence|discriminate]|discriminate].
    + cbn [count_occ]. lia.
    + cbn in LF |- *. lia.
    + unfold A, sepr, Z0. f_equal. cat.
Qed.

(** *** The whole message *)
Lemma multi_bodies : forall m g, boundary_is g m -> m_mime_version m <> None -> Forall (part_wf g) (m_bodies m) ->
  exists ts, boundary_of m = Ok (Some (CRLF ++ $"--" ++ g)) /\ bodies_text (Some (CRLF ++ $"--" ++ g)) (m_bodies m) = Ok (parts_text ($"--" ++ g) ts) /\ length (m_bodies m) = length ts /\
    Forall2 (fun t bd => ~ contains (lf :: $"--" ++ g) (lf :: t) /\ (count_occ Ascii.ascii_dec t NUL < 1000)%nat /\ body_parse_mime t = Ok bd) ts (m_bodies m).
Proof.
  intros m g BI MV F.
  assert (exists ts, cat_all (map (fun bd => do t <- part_text bd ; Ok ((CRLF ++ $"--" ++ g) ++ CRLF ++ t)) (m_bodies m)) = Ok (flat_map (fun t => cr :: lf :: ($"--" ++ g) ++ CRLF ++ t) ts) /\
    length (m_bodies m) = length ts /\ Forall2 (fun t bd => ~ contains (lf :: $"--" ++ g) (lf :: t) /\ (count_occ Ascii.ascii_dec t NUL < 1000)%nat /\ body_parse_mime t = Ok bd) ts (m_bodies m)) as (ts & T1 & T2 & T3).
  { induction F as [|bd l P F (ts & I1 & I2 & I3)]; [exists []; repeat split; constructor|].
    destruct (part_round g bd P) as (fl & P1 & P2 & P3). exists ((flat_map pf fl ++ CRLF ++ b_body bd) :: ts). cbn [map cat_all]. rewrite P1. cbn [res_bind]. rewrite I1. cbn [res_bind flat_map].
    split; [reflexivity|]. split; [cbn [length]; lia|]. constructor; [|exact I3]. split; [apply (pw_boundary _ _ P); rewrite C40_body; exact P1|]. split; [|exact P3].
    rewrite !count_occ_app. pose proof (pf_cstr fl P2) as C. apply (count_occ_not_In Ascii.ascii_dec) in C. rewrite C. change (count_occ ascii_dec CRLF NUL) with O. exact (pw_zeros _ _ P). }
  exists ts. split; [|split; [unfold bodies_text; rewrite T1; reflexivity|split; [exact T2|exact T3]]].
  destruct BI as (ty & st & ps & n & v & C1 & C2 & C3 & C4 & C5 & C6). unfold boundary_of. rewrite C1. destruct (m_mime_version m); [|congruence].
  assert (strcaseeq ty ($"multipart") = true) as -> by (unfold strcaseeq; rewrite C2; reflexivity). rewrite C3. replace (slen v >? MIME_MAX_BOUNDARY_LEN) with false by (unfold MIME_MAX_BOUNDARY_LEN; lia).
  destruct C5 as [->|[-> NQ]].
  - cbn [nth]. change (dquote :: g ++ [dquote]) with ((dquote :: g) ++ [dquote]). rewrite last_last. change (is_ch dquote dquote && is_ch dquote dquote) with true. cbv iota.
    replace (slen ((dquote :: g) ++ [dquote]) <? 2) with false by (symmetry; sl). repeat f_equal. rewrite app_length. cbn [length app skipn]. replace (S (length g) + 1 - 2)%nat with (length g) by lia. rewrite firstn_app, firstn_all, Nat.sub_diag. cbn [firstn]. apply app_nil_r.
  - replace (is_ch (nth 0 g NUL) dquote && is_ch (last g NUL) dquote) with false; [reflexivity|]. symmetry. apply andb_false_iff. unfold is_ch. destruct NQ as [NQ|NQ]; [left|right]; apply Ascii.eqb_neq; [destruct g; exact NQ|exact NQ].
Qed.
Lemma multi_parse : forall m2 g pre ts bs, boundary_is g m2 -> bs <> [] -> length bs = length ts ->
  Forall2 (fun t bd => ~ contains (lf :: $"--" ++ g) (lf :: t) /\ (count_occ Ascii.ascii_dec t NUL < 1000)%nat /\ body_parse_mime t = Ok bd) ts bs ->
  body_parse m2 (pre ++ CRLF ++ parts_text ($"--" ++ g) ts ++ [NUL]) (slen pre) (slen (CRLF ++ parts_text ($"--" ++ g) ts)) = Ok (with_bodies (m_bodies m2 ++ bs) m2).
Proof.
  intros m2 g pre ts bs (ty & st & ps & n & v & C1 & C2 & C3 & C4 & C5 & C6) NB LB F2. unfold body_parse. rewrite C1.
  assert (strcaseeq ty ($"multipart") = true) as -> by (unfold strcaseeq; rewrite C2; reflexivity). cbn [negb]. rewrite C3. cbv zeta.
  assert ((if is_ch (nth 0 v NUL) dquote && is_ch (last v NUL) dquote then firstn (length v - 2) (skipn 1 v) else v) = g) as ->.
  { destruct C5 as [->|[-> NQ]].
    - cbn [nth]. change (dquote :: g ++ [dquote]) with ((dquote :: g) ++ [dquote]). rewrite last_last. change (is_ch dquote dquote && is_ch dquote dquote) with true. cbv iota.
      rewrite app_length. cbn [length app skipn]. replace (S (length g) + 1 - 2)%nat with (length g) by lia. rewrite firstn_app, firstn_all, Nat.sub_diag. cbn [firstn]. apply app_nil_r.
    - replace (is_ch (nth 0 g NUL) dquote && is_ch (last g NUL) dquote) with false; [reflexivity|]. symmetry. apply andb_false_iff. unfold is_ch. destruct NQ as [NQ|NQ]; [left|right]; apply Ascii.eqb_neq; [destruct g; exact NQ|exact NQ]. }
  assert (ts <> []) as NT by (intros ->; destruct bs; [congruence|discriminate]).
  assert (cstr ($"--" ++ g)) as CQ by (intros I; apply in_app_or in I; destruct I as [I|I]; [cbn in I; intuition discriminate|apply (C6 NUL); [cbn; tauto|exact I]]).
  assert (~ In cr ($"--" ++ g)) as CR by (intros I; apply in_app_or in I; destruct I as [I|I]; [cbn in I; intuition discriminate|apply (C6 cr); [cbn; tauto|exact I]]).
  set (q := $"--" ++ g) in *. rewrite parts_text_tail.
  replace (pre ++ CRLF ++ (cr :: (lf :: q) ++ parts_tail q ts) ++ [NUL]) with (pre ++ (CRLF ++ [cr]) ++ (lf :: q) ++ parts_tail q ts ++ [NUL]) by cat.
  apply parts_run; auto.
  - apply occ_free_text; [exact CR|]. intros (x & y & E). destruct x as [|x0 x]; [discriminate E|]. injection E as _ E. destruct x as [|x1 x]; [|destruct x; discriminate E].
    injection E as E. unfold q in E. discriminate E.
  - cbn. lia.
  - rewrite !app_length. cbn [length]. assert (length ts <= length (parts_tail q ts))%nat as LL; [|lia]. destruct ts as [|t ts]; [cbn; lia|]. cbn [parts_tail].
    assert (forall l, length l <= length (parts_text q l))%nat as LP. { unfold parts_text. induction l as [|x l IH]; [cbn; lia|]. cbn [flat_map length]. rewrite <- !app_assoc, app_length. cbn [length]. lia. }
    rewrite !app_length. change (length CRLF) with 2%nat. apply (Nat.le_trans _ (S (length (parts_text q ts)))); [apply le_n_S; exact (LP ts)|lia].
  - rewrite <- slen_app. reflexivity.
Qed.
Lemma parse_multi : forall st l g ts bs m1 m2 d, st <> [] -> without [cr; lf; NUL] st ->
  (forall x, startline_parse (st ++ CRLF ++ x) msg_init = Ok (m1, slen st + 2)) -> Forall field_ok l -> store m1 l = Ok m2 ->
  m_content_length m2 = Some (Some d) -> digit_string d -> decimal d = slen (parts_text ($"--" ++ g) ts) -> slen (parts_text ($"--" ++ g) ts) <= 2147483647 ->
  boundary_is g m2 -> bs <> [] -> length bs = length ts ->
  Forall2 (fun t bd => ~ contains (lf :: $"--" ++ g) (lf :: t) /\ (count_occ Ascii.ascii_dec t NUL < 1000)%nat /\ body_parse_mime t = Ok bd) ts bs ->
  message_parse (st ++ CRLF ++ fields_text l ++ CRLF ++ parts_text ($"--" ++ g) ts) = Ok (with_bodies (m_bodies m2 ++ bs) m2).
Proof.
  intros st l g ts bs m1 m2 d N W SP F ST CL DD DE LB BI NB LE F2. rewrite message_parse_eq. rewrite (head_text st l _ m1 m2 N W SP F ST) by congruence. cbn [res_bind].
  set (b := parts_text ($"--" ++ g) ts) in *.
  unfold parse_tail. set (pre := st ++ CRLF ++ fields_text l). rewrite (rd_at pre cr (lf :: b ++ [NUL])) by reflexivity. cbn [res_bind]. change (is_ch cr cr) with true. cbv iota.
  rewrite (rd_next pre (slen pre) [cr] (lf :: b ++ [NUL])) by reflexivity. cbn [res_bind]. rewrite CL, strtol_small by (auto; lia). rewrite DE. cbv zeta.
  replace (slen b >? 0) with true by (unfold b; rewrite parts_text_tail; symmetry; rewrite slen_cons; match goal with |- (1 + slen ?x >? 0) = _ => pose proof (slen_nonneg _ x) end; lia).
  replace (slen (st ++ CRLF ++ fields_text l ++ CRLF ++ b) - slen pre) with (slen (CRLF ++ b)) by (unfold pre; sln).
  unfold b. rewrite (multi_parse m2 g pre ts bs BI NB LE F2). cbn [res_bind]. unfold zero_length. cbn [with_bodies m_content_length]. rewrite CL. reflexivity.
Qed.

(** A well formed multipart message with a Mime-Version header is printed, and if the text has less
    than a million bytes, parsing it gives the same message with the same parts, its Content-Length
    being the number of bytes after the empty line that ends the headers. *)
Theorem C57_multipart : forall m, start_wf m -> headers_wf m -> Forall other_wf (m_headers m) -> multipart_wf m ->
  exists s, message_to_str false m = Ok s /\
  (slen s <= 999999 -> exists head d b, s = head ++ CRLF ++ CRLF ++ b /\ digit_string d /\ decimal d = slen b /\
     message_parse s = Ok (with_content_length (Some (Some d)) m)).
Proof.
  intros m ST HW OW (MV & NB & g & BI & PW). destruct (start_run m ST) as (st & S1 & S2 & S3 & S4).
  assert (start_only (with_startline m msg_init)) as SO by (repeat eexists).
  destruct (headers_run_all m _ HW SO) as (l1 & H1 & H2 & H3). destruct (others_run _ OW) as (l2 & O1 & O2 & O3).
  destruct (multi_bodies m g BI MV PW) as (ts & B1 & B2 & B3 & B4). set (b := parts_text ($"--" ++ g) ts) in *.
  assert (exists s, message_to_str false m = Ok s) as (s & PS).
  { rewrite C40_message. unfold message_text. rewrite S1, H1, O1. cbn [res_bind]. destruct (m_bodies m) as [|bd l] eqn:MB; [congruence|]. rewrite B1. cbn [res_bind]. rewrite B2. cbn [res_bind].
    match goal with |- exists s, ?r = Ok s => destruct r as [s|c|] eqn:Q end; [eauto| |].
    - exfalso. unfold wr_range in Q. destruct (_ || _) in Q; discriminate.
    - exfalso. revert Q. pose proof (sprintf_len_any (slen b)) as DL. revert DL. generalize (sprintf_i (int32 (slen b))). intros dd DD. unfold wr_range.
      rewrite (proj2 (orb_false_iff _ _)); [discriminate|]. change (Z.of_nat (length dd)) with (slen dd). match goal with |- context [Z.of_nat (length ?x)] => change (Z.of_nat (length x)) with (slen x) end.
      pose proof (slen_nonneg _ dd). pose proof (slen_nonneg _ b). pose proof (slen_nonneg _ (line [] st)). pose proof (slen_nonneg _ (fields_text l1)). pose proof (slen_nonneg _ (fields_text l2)).
      rewrite !slen_app. change (slen ($"Content-Length:      ")) with 21. change (slen CRLF) with 2. split; lia. }
  exists s. split; [exact PS|]. intros SM. destruct (C46_partial m s PS SM) as (head & pad & digits & b' & ES & AB & DS & DV & (st' & h' & x' & X1 & X2 & X3 & X4) & XB).
  assert (st' = st) as -> by congruence. assert (h' = fields_text l1) as -> by congruence. assert (x' = fields_text l2) as -> by congruence.
  assert (b' = b) as ->. { destruct (m_bodies m) as [|bd l] eqn:MB; [congruence|]. destruct XB as (bo & Y1 & Y2). assert (bo = Some (CRLF ++ $"--" ++ g)) as -> by congruence. congruence. }
  exists (head ++ $"Content-Length:" ++ pad ++ digits), digits, b. split; [rewrite ES; rewrite <- !app_assoc; reflexivity|]. split; [exact DS|]. split; [exact DV|].
  set (fl := (l1 ++ l2) ++ [($"Content-Length", pad ++ digits)]).
  assert (s = st ++ CRLF ++ fields_text fl ++ CRLF ++ b) as ->.
  { rewrite ES, X4. unfold fl. rewrite !fields_app. change (fields_text [($"Content-Length", pad ++ digits)]) with (($"Content-Length:" ++ (pad ++ digits) ++ CRLF) ++ []). rewrite app_nil_r, <- !app_assoc. reflexivity. }
  assert (trim (pad ++ digits) = digits) as TR.
  { pose proof (trim_app_blanks pad digits []) as TA. rewrite app_nil_r in TA. apply TA; [|reflexivity|].
    - apply forallb_forall. intros c I. unfold all_blank in AB. rewrite Forall_forall in AB. rewrite (AB c I). reflexivity.
    - apply no_blank_trimmed. apply Forall_forall. intros c I. destruct (is_blank c) eqn:Q; [exfalso|reflexivity]. apply (digits_without digits DS c); [|exact I]. revert Q. clear.
      unfold is_blank. intros B. repeat (apply orb_prop in B; destruct B as [B|B]); apply Ascii.eqb_eq in B; subst c; cbn; tauto. }
  assert (store (with_startline m msg_init) fl = Ok (with_content_length (Some (Some digits)) (with_headers (m_headers m) (with_known m (with_startline m msg_init))))) as SL.
  { unfold fl. rewrite !store_app, H3. cbn [res_bind]. rewrite O3 by exact I. cbn [res_bind store]. rewrite TR.
    rewrite set_one. 2:{ rewrite <- TR. apply trim_trimmed. }
    2:{ left. intros IC. destruct DS as [_ D]. rewrite Forall_forall in D. specialize (D _ IC). revert D. vm_compute. intros [X _]. apply X. reflexivity. }
    rewrite (C39_known [$"content-length"; $"l"] false set_content_length); [|in_known|left; reflexivity].
    rewrite clen_of_digits; [reflexivity|exact DS|reflexivity]. }
  unfold b. match type of SL with store ?a _ = Ok ?c => rewrite (parse_multi st fl g ts (m_bodies m) a c digits S2 S3 S4) end; [|  |exact SL|reflexivity|exact DS|exact DV| | |exact NB|exact B3|exact B4].
  - destruct m. reflexivity.
  - unfold fl. apply Forall_app. split; [apply Forall_app; split; assumption|]. constructor; [|constructor]. destruct (name_lit ($"Content-Length") eq_refl) as (N1 & N2 & N3).
    split; [exact N1|]. split; [exact N2|]. split; [exact N3|]. cbn [snd]. split; [destruct DS as [D _]; destruct pad; [exact D|discriminate]|].
    apply without_app; [|eapply without_incl; [apply digits_without, DS|intros x; cbn; tauto]]. intros c I J. unfold all_blank in AB. rewrite Forall_forall in AB. rewrite (AB c J) in I. cbn in I. destruct I as [I|[I|[I|[]]]]; discriminate.
  - change (slen b <= 2147483647). rewrite !slen_app in SM. pose proof (slen_nonneg _ st). pose proof (slen_nonneg _ CRLF). pose proof (slen_nonneg _ (fields_text fl)). lia.
  - destruct m. exact BI.
Qed.
Print Assumptions C57_multipart.

(** A message with two parts, one with a header *)
Lemma strstr_contains : forall pat s, contains pat s -> strstr s pat <> None.
Proof.
  intros pat s (a & b & ->). induction a as [|c a IH].
  - cbn [app]. pose proof (prefix_strneq pat b) as P. destruct (pat ++ b) as [|x l]; cbn [strstr]; rewrite P; discriminate.
  - cbn [app strstr]. destruct (strneq _ _ _); [discriminate|]. destruct (strstr (a ++ pat ++ b) pat); [discriminate|congruence].
Qed.
Definition ex_two_parts : list body :=
  [mkBody ($"--xy
one") [] (Some (mkCT (Some ($"text")) (Some ($"plain")) [])); mkBody ($"t" ++ NUL :: $"wo") [mkHeader (Some ($"Content-ID")) (Some ($"a, b"))] None].
Lemma ex_no_boundary : forall bd g t0, body_to_str bd = Ok t0 -> strstr (lf :: t0) (lf :: $"--" ++ g) = None -> forall t, body_to_str bd = Ok t -> ~ contains (lf :: $"--" ++ g) (lf :: t).
Proof. intros bd g t0 E S t E' C. assert (t = t0) as -> by congruence. exact (strstr_contains _ _ C S). Qed.
Example C57_multipart_example : multipart_wf (ex_multipart (Some (Some ($"1.0"))) ex_two_parts) /\
  exists s, message_to_str false (ex_multipart (Some (Some ($"1.0"))) ex_two_parts) = Ok s /\ slen s <= 999999 /\ exists m, message_parse s = Ok m /\ m_bodies m = ex_two_parts.
Proof.
  split.
  - split; [discriminate|]. split; [discriminate|]. exists ($"xyz"). split.
    + exists ($"multipart"), ($"mixed"), [($"boundary", Some ($"xyz"))], ($"boundary"), ($"xyz"). split; [reflexivity|]. split; [reflexivity|]. split; [reflexivity|]. split; [vm_compute; discriminate|].
      split; [right; split; [reflexivity|left; discriminate]|apply chk_without; reflexivity].
    + constructor; [|constructor; [|constructor]].
      * constructor; [discriminate|right; discriminate|constructor| | |apply Nat.ltb_lt; vm_compute; reflexivity].
        -- intros c [= <-]. now_survives. apply no_comma. reflexivity.
        -- eapply ex_no_boundary; vm_compute; reflexivity.
      * constructor; [discriminate|left; discriminate| |discriminate| |apply Nat.ltb_lt; vm_compute; reflexivity].
        -- constructor; [|constructor]. exists ($"Content-ID"), ($"a, b"). split; [reflexivity|]. split; [apply name_lit; reflexivity|]. split; [reflexivity|]. split; [reflexivity|]. split; [reflexivity|apply chk_without; reflexivity].
        -- eapply ex_no_boundary; vm_compute; reflexivity.
  - eexists. split; [vm_compute; reflexivity|]. split; [vm_compute; discriminate|]. eexists. split; vm_compute; reflexivity.
Qed.
(** Findings: a header of a part comes back with a capital; a header whose name begins as
    Content-Type is taken for it. *)
Theorem C57_part_refuted :
  (exists s m, message_to_str false (ex_multipart (Some (Some ($"1.0"))) [mkBody ($"x") [mkHeader (Some ($"a")) (Some ($"b"))] None]) = Ok s /\
     message_parse s = Ok m /\ m_bodies m = [mkBody ($"x") [mkHeader (Some ($"A")) (Some ($"b"))] None]) /\
  (exists s m, message_to_str false (ex_multipart (Some (Some ($"1.0"))) [mkBody ($"x") [mkHeader (Some ($"Content-Type-Hint")) (Some ($"text/plain"))] None]) = Ok s /\
     message_parse s = Ok m /\ m_bodies m = [mkBody ($"x") [] (Some (mkCT (Some ($"text")) (Some ($"plain")) []))]).
Proof.
  split; (eexists; eexists; split; [vm_compute; reflexivity|]; split; vm_compute; reflexivity).
Qed.
Print Assumptions C57_part_refuted.

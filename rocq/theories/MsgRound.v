(** Header fields in the text of a message. *)
From Coq Require Import String ZArith NArith Ascii Bool List Lia ZifyBool ZifyNat.
From Verif Require Import Base Str StrLemmas Types MemModel MemLemmas CString CStringLemmas SafeLemmas PortModel PortProps ViaModel UriModel EscapeProps UriProps UriRound HdrModel HdrProps AuthModel AuthSafe ViaRound MsgFields MsgModel MsgProps MsgSplit MsgSafe MsgFold MsgBody MsgPrint MsgText MsgStart.
Import ListNotations.
Open Scope Z_scope.

Ltac sln := repeat (rewrite !slen_app || rewrite !slen_cons || rewrite !slen_nil); change (slen CRLF) with 2; lia.

(** *** Header fields *)
(** name and value of a header field, the value with its leading white space *)
Definition field := (str * str)%type.
Definition field_ok (f : field) : Prop :=
  fst f <> [] /\ trimmed (fst f) /\ without [":"%char; cr; lf; NUL] (fst f) /\ snd f <> [] /\ without [cr; lf; NUL] (snd f).
Definition field_text (f : field) : str := fst f ++ ":"%char :: snd f ++ CRLF.
Definition fields_text (l : list field) : str := flat_map field_text l.
(** the fields are stored one after the other *)
Fixpoint store (m : message) (l : list field) : res message :=
  match l with
  | [] => Ok m
  | (n, v) :: l' => do m' <- set_multiple_header m n (Some (trim v)) ; store m' l'
  end.

Lemma without_incl : forall cs cs' s, without cs s -> incl cs' cs -> without cs' s.
Proof. intros cs cs' s H I c C. apply H, I, C. Qed.
Lemma name_head : forall n, n <> [] -> trimmed n -> without [":"%char; cr; lf; NUL] n -> exists c n', n = c :: n' /\ is_wsp c = false /\ is_eol c = false /\ is_ch c NUL = false /\ c <> cr /\ c <> lf /\ c <> NUL.
Proof.
  intros [|c n] N T W; [congruence|]. exists c, n. apply trimmed_iff in T. destruct T as [T|[T _]]; [discriminate|]. cbn [hd] in T.
  assert (forall d, In d [":"%char; cr; lf; NUL] -> c <> d) as D by (intros d I ->; apply (W d I); left; reflexivity).
  split; [reflexivity|]. unfold is_wsp, is_eol, is_ch. rewrite !(proj2 (Ascii.eqb_neq c _)); try (apply D; cbn; tauto); [repeat split; try (apply D; cbn; tauto)| |].
  - intros ->. discriminate.
  - intros ->. discriminate.
Qed.
Lemma fields_head : forall l rest, Forall field_ok l -> exists c x, fields_text l ++ CRLF ++ rest = c :: x /\ is_wsp c = false.
Proof.
  intros [|[n v] l] rest F; [exists cr, (lf :: rest); split; reflexivity|]. inversion F as [|? ? H _]; subst. destruct H as (H1 & H2 & H3 & _). cbn [fst snd] in *.
  destruct (name_head n H1 H2 H3) as (c & n' & -> & W & _). eexists. eexists. split; [|exact W]. reflexivity.
Qed.
Lemma not_eol : forall s c, without [cr; lf] s -> In c s -> is_eol c = false.
Proof.
  intros s c W I. unfold is_eol, is_ch. destruct (Ascii.eqb_spec c cr) as [->|]; [exfalso; apply (W cr); [cbn; auto|exact I]|].
  destruct (Ascii.eqb_spec c lf) as [->|]; [exfalso; apply (W lf); [cbn; auto|exact I]|reflexivity].
Qed.
(** the end of a line that has no continuation *)
Lemma next_line : forall s a x c y, s = a ++ x ++ CRLF ++ c :: y -> without [cr; lf] x -> is_wsp c = false ->
  next_crlf s (slen a) = Ok (Found (slen a + slen x + 2)).
Proof.
  intros s a x c y E W C. unfold next_crlf. rewrite (scan_fwd_to is_eol x a cr (lf :: c :: y) s).
  2:{ exact E. } 2:{ intros d I. apply (not_eol x); auto. } 2:{ reflexivity. }
  2:{ rewrite E. rewrite !app_length. lia. } 2:{ rewrite E. rewrite !slen_app. change (slen CRLF) with 2. pose proof (slen_nonneg _ (c :: y)). lia. } 2:{ reflexivity. }
  cbn [res_bind]. replace (slen a + slen x =? slen s) with false by (rewrite E, !slen_app; change (slen CRLF) with 2; pose proof (slen_nonneg _ (c :: y)); lia).
  rewrite (ch_at s (a ++ x) cr (lf :: c :: y)); [|rewrite E; cat|sl]. cbn [res_bind].
  rewrite (ch_at s (a ++ x ++ [cr]) lf (c :: y)); [|rewrite E; cat|sl]. cbn [res_bind]. change (is_ch cr cr && is_ch lf lf) with true. cbv iota.
  rewrite (ch_at s (a ++ x ++ [cr; lf]) c y); [|rewrite E; cat|sl]. cbn [res_bind]. unfold is_wsp in C. rewrite C. f_equal. f_equal. lia.
Qed.
Lemma next_crlf_found : forall s a y, s = a ++ CRLF ++ y -> next_crlf s (slen a) = Ok Folded \/ exists e, next_crlf s (slen a) = Ok (Found e).
Proof.
  intros s a y E. unfold next_crlf. rewrite (scan_fwd_to is_eol [] a cr (lf :: y) s).
  2:{ exact E. } 2:{ intros d []. } 2:{ reflexivity. }
  2:{ cbn [length]. lia. } 2:{ rewrite E. rewrite !slen_app. change (slen CRLF) with 2. change (slen []) with 0. pose proof (slen_nonneg _ y). lia. } 2:{ reflexivity. }
  cbn [res_bind]. change (slen []) with 0. replace (slen a + 0) with (slen a) by lia. replace (slen a =? slen s) with false by (rewrite E, !slen_app; change (slen CRLF) with 2; pose proof (slen_nonneg _ y); lia).
  rewrite (ch_at s a cr (lf :: y)); [|rewrite E; cat|reflexivity]. cbn [res_bind].
  rewrite (ch_at s (a ++ [cr]) lf y); [|rewrite E; cat|sl]. cbn [res_bind]. change (is_ch cr cr && is_ch lf lf) with true. cbv iota.
  rewrite ch_ok by (rewrite E, !slen_app; change (slen CRLF) with 2; pose proof (slen_nonneg _ y); pose proof (slen_nonneg _ a); lia). cbn [res_bind].
  destruct (_ || _); eauto.
Qed.

Lemma headers_run : forall l fuel s a rest b m m', Forall field_ok l -> s = a ++ fields_text l ++ CRLF ++ rest -> (length l < fuel)%nat ->
  store m l = Ok m' -> headers_loop fuel s (slen a) b m = Ok (m', slen a + slen (fields_text l)).
Proof.
  induction l as [|[n v] l IH]; intros fuel s a rest b m m' F E L ST; (destruct fuel as [|fuel]; [cbn in L; lia|]); cbn [headers_loop].
  - cbn [fields_text flat_map app] in *. rewrite (ch_at s a cr (lf :: rest)) by auto. cbn [res_bind]. change (is_ch cr NUL) with false. cbv iota.
    cbn [store] in ST. injection ST as <-. change (slen []) with 0. rewrite Z.add_0_r.
    destruct (next_crlf_found s a rest E) as [->|(e & ->)]; reflexivity.
  - inversion F as [|? ? H F']; subst l0. subst x. destruct H as (H1 & H2 & H3 & H4 & H5). cbn [fst snd] in *.
    destruct (name_head n H1 H2 H3) as (c & n' & EN & W1 & W2 & W3 & _).
    assert (s = a ++ (n ++ ":"%char :: v) ++ CRLF ++ (fields_text l ++ CRLF ++ rest)) as E2.
    { rewrite E. cbn [fields_text flat_map field_text fst snd]. fold (fields_text l). unfold field_text. cbn [fst snd]. cat. }
    rewrite (ch_at s a c (n' ++ (":"%char :: v) ++ CRLF ++ (fields_text l ++ CRLF ++ rest))); [|rewrite E2, EN; cat|reflexivity].
    cbn [res_bind]. rewrite W3. destruct (fields_head l rest F') as (d & y & EY & WD).
    rewrite (next_line s a (n ++ ":"%char :: v) d y).
    2:{ rewrite E2, EY. reflexivity. } 3:{ exact WD. }
    2:{ intros x I J. apply in_app_or in J. destruct J as [J|[J|J]].
        - apply (H3 x); [cbn in I |- *; tauto|exact J].
        - subst x. cbn in I. destruct I as [I|[I|[]]]; discriminate.
        - apply (H5 x); [cbn in I |- *; tauto|exact J]. }
    cbn [res_bind]. rewrite W2.
    rewrite (strchr_at_some s a n ":"%char (v ++ CRLF ++ fields_text l ++ CRLF ++ rest)); [|rewrite E2; cat|reflexivity|apply H3; cbn; auto]. cbn [res_bind].
    pose proof (slen_pos _ n H1). pose proof (slen_pos _ v H4).
    replace (slen a + slen n - slen a + 1 <? 2) with false by lia.
    replace (slen a + slen (n ++ ":"%char :: v) + 2 <=? slen a + slen n) with false by sl.
    rewrite (clrncpy_at_app s a n ((":"%char :: v) ++ CRLF ++ fields_text l ++ CRLF ++ rest)); [|rewrite E2; cat|reflexivity|lia|lia]. cbn [res_bind].
    rewrite H2.
    rewrite (ch_at s (a ++ n ++ ":"%char :: v) cr (lf :: fields_text l ++ CRLF ++ rest)); [|rewrite E2; cat|sl]. cbn [res_bind].
    change (is_eol cr) with true. cbv iota zeta.
    replace (slen a + slen (n ++ ":"%char :: v) + 2 - 2 - (slen a + slen n) <? 2) with false by sl.
    rewrite (clrncpy_at_app s (a ++ n ++ [":"%char]) v (CRLF ++ fields_text l ++ CRLF ++ rest)); [|rewrite E2; cat|sl|sl|sl]. cbn [res_bind].
    cbn [store] in ST. destruct (set_multiple_header m n (Some (trim v))) as [m1| |]; cbn [res_bind] in ST; [|discriminate|discriminate].
    replace (slen a + slen (n ++ ":"%char :: v) + 2) with (slen (a ++ n ++ ":"%char :: v ++ CRLF)) by sln.
    rewrite (IH fuel s (a ++ n ++ ":"%char :: v ++ CRLF) rest b m1 m'); [|exact F'|rewrite E2; cat|cbn in L; lia|exact ST].
    f_equal. f_equal. cbn [fields_text flat_map]. fold (fields_text l). unfold field_text. cbn [fst snd]. sln.
Qed.

(** *** From the received bytes to the header fields *)
Lemma plain_forallb : forall s, without [cr; lf; NUL] s -> forallb (fun c => negb (is_eol c || is_ch c NUL)) s = true.
Proof.
  intros s W. apply forallb_forall. intros c I. rewrite (not_eol s c); [|eapply without_incl; [exact W|intros x; cbn; tauto]|exact I]. cbn [orb].
  unfold is_ch. destruct (Ascii.eqb_spec c NUL) as [->|]; [exfalso; apply (W NUL); [cbn; auto|exact I]|reflexivity].
Qed.
Lemma fields_unfolded : forall l rest, Forall field_ok l -> unfolded (CRLF ++ fields_text l ++ CRLF ++ rest) (CRLF ++ fields_text l ++ CRLF ++ rest).
Proof.
  induction l as [|[n v] l IH]; intros rest F.
  - cbn [fields_text flat_map app]. apply uf_end. eexists. left. reflexivity.
  - inversion F as [|? ? H F']; subst l0 x. destruct H as (H1 & H2 & H3 & H4 & H5). cbn [fst snd] in *.
    destruct (name_head n H1 H2 H3) as (c & n' & EN & W1 & W2 & W3 & C1 & C2 & C3). cbn [fields_text flat_map]. fold (fields_text l). unfold field_text. cbn [fst snd].
    assert ((n ++ ":"%char :: v ++ CRLF) ++ fields_text l = (n ++ ":"%char :: v) ++ CRLF ++ fields_text l) as -> by cat. rewrite <- !app_assoc.
    assert (unfolded (n ++ (":"%char :: v) ++ CRLF ++ fields_text l ++ CRLF ++ rest) (n ++ (":"%char :: v) ++ CRLF ++ fields_text l ++ CRLF ++ rest)) as U.
    { apply uf_plain; [apply plain_forallb; eapply without_incl; [exact H3|intros x; cbn; tauto]|].
      apply uf_plain; [|apply IH, F']. cbn [forallb]. rewrite plain_forallb by exact H5. reflexivity. }
    rewrite EN in U |- *. cbn [app] in U |- *. apply uf_line; assumption.
Qed.
Lemma c_string_until : forall a r, cstr a -> c_string (a ++ r ++ [NUL]) = Ok (a ++ until_nul r).
Proof.
  intros a r C. revert C. induction a as [|c a IH]; intros C; cbn [app].
  - induction r as [|c r IH]; cbn [app c_string until_nul]; [reflexivity|]. destruct (Ascii.eqb c NUL); [reflexivity|]. rewrite IH. reflexivity.
  - cbn [c_string]. apply cstr_cons in C. destruct C as [C1 C2]. rewrite (proj2 (Ascii.eqb_neq c NUL)) by (intros ->; congruence). rewrite IH by exact C2. reflexivity.
Qed.
Lemma cstr_without : forall s cs, without cs s -> In NUL cs -> cstr s.
Proof. intros s cs W I. exact (W NUL I). Qed.
Lemma fields_cstr : forall l, Forall field_ok l -> cstr (fields_text l).
Proof.
  induction l as [|[n v] l IH]; intros F; [intros []|]. inversion F as [|? ? H F']; subst l0 x. destruct H as (_ & _ & H3 & _ & H5). cbn [fst snd] in *.
  cbn [fields_text flat_map]. fold (fields_text l). unfold field_text. cbn [fst snd]. intros I. rewrite !in_app_iff in I. cbn [In] in I. rewrite !in_app_iff in I.
  destruct I as [[I|[I|[I|I]]]|I]; [exact (H3 NUL ltac:(cbn; tauto) I)|discriminate|exact (H5 NUL ltac:(cbn; tauto) I)|destruct I as [I|[I|[]]]; discriminate|exact (IH F' I)].
Qed.
Lemma head_text : forall st l rest m1 m2, st <> [] -> without [cr; lf; NUL] st ->
  (forall x, startline_parse (st ++ CRLF ++ x) msg_init = Ok (m1, slen st + 2)) -> Forall field_ok l -> store m1 l = Ok m2 -> m_content_length m2 <> Some None ->
  parse_head (st ++ CRLF ++ fields_text l ++ CRLF ++ rest) =
  Ok (m2, (st ++ CRLF ++ fields_text l) ++ CRLF ++ rest ++ [NUL], slen (st ++ CRLF ++ fields_text l)).
Proof.
  intros st l rest m1 m2 N W SP F ST CL. unfold parse_head. destruct st as [|c st']; [congruence|]. set (st := c :: st') in *.
  assert (is_eol c = false) as NE by (apply (not_eol st); [eapply without_incl; [exact W|intros x; cbn; tauto]|left; reflexivity]).
  assert (skip_eols (S (length ((st ++ CRLF ++ fields_text l ++ CRLF ++ rest) ++ [NUL]))) ((st ++ CRLF ++ fields_text l ++ CRLF ++ rest) ++ [NUL]) 0 = Ok 0) as ->.
  { cbn [skip_eols]. unfold st. cbn [app]. match goal with |- context [rd (c :: ?r) 0] => change (rd (c :: r) 0) with (rd ([] ++ c :: r) 0); rewrite (rd_at [] c r) by reflexivity end. cbn [res_bind]. rewrite NE. reflexivity. }
  cbn [res_bind]. pose proof (C42_unfold_partial [] (st ++ CRLF ++ fields_text l ++ CRLF ++ rest) (st ++ CRLF ++ fields_text l ++ CRLF ++ rest)) as U. cbn [app] in U.
  change (slen []) with 0 in U. rewrite U.
  2:{ apply uf_plain; [apply plain_forallb, W|]. apply fields_unfolded, F. }
  clear U. cbn [res_bind]. unfold cstr_from. replace ((0 <? 0) || (slen ((st ++ CRLF ++ fields_text l ++ CRLF ++ rest) ++ [NUL]) <=? 0)) with false by (pose proof (slen_nonneg _ (st ++ CRLF ++ fields_text l ++ CRLF ++ rest)); sl).
  change (Z.to_nat 0) with 0%nat. cbn [skipn].
  replace ((st ++ CRLF ++ fields_text l ++ CRLF ++ rest) ++ [NUL]) with ((st ++ CRLF ++ fields_text l ++ CRLF) ++ rest ++ [NUL]) by cat.
  rewrite c_string_until.
  2:{ intros I. rewrite !in_app_iff in I. destruct I as [I|[I|[I|I]]]; [exact (W NUL ltac:(cbn; tauto) I)|destruct I as [I|[I|[]]]; discriminate|exact (fields_cstr l F I)|destruct I as [I|[I|[]]]; discriminate]. }
  cbn [res_bind]. replace ((st ++ CRLF ++ fields_text l ++ CRLF) ++ until_nul rest) with (st ++ CRLF ++ fields_text l ++ CRLF ++ until_nul rest) by cat.
  rewrite SP. cbn [res_bind]. unfold headers_parse. replace (slen st + 2) with (slen (st ++ CRLF)) by sln.
  rewrite (headers_run l _ (st ++ CRLF ++ fields_text l ++ CRLF ++ until_nul rest) (st ++ CRLF) (until_nul rest) _ m1 m2); [|exact F|cat| |exact ST].
  2:{ rewrite !app_length. assert (length l <= length (fields_text l))%nat; [|lia]. clear. induction l as [|[n v] l IH]; [cbn; lia|]. cbn [fields_text flat_map]. fold (fields_text l). rewrite app_length. unfold field_text. cbn [fst snd]. rewrite app_length. cbn [length]. lia. }
  cbn [res_bind]. f_equal. f_equal; [f_equal|].
  - destruct (m_content_length m2) as [[v|]|]; [reflexivity|congruence|reflexivity].
  - cat.
  - sln.
Qed.

(** *** Content-Length and the body *)
Lemma strtol_small : forall d, digit_string d -> decimal d <= 2147483647 -> int32 (strtol d) = decimal d.
Proof.
  intros d H L. rewrite strtol_digits by exact H. assert (0 <= decimal d) by (destruct H as [_ H]; apply decimal_nonneg; [lia|auto]).
  replace (Z.min LONG_MAX (decimal d)) with (decimal d) by (unfold LONG_MAX; lia). unfold int32. rewrite Z.mod_small by lia. replace (decimal d <? 2147483648) with true by lia. reflexivity.
Qed.
Lemma parse_text : forall st l b m1 m2 d, st <> [] -> without [cr; lf; NUL] st ->
  (forall x, startline_parse (st ++ CRLF ++ x) msg_init = Ok (m1, slen st + 2)) -> Forall field_ok l -> store m1 l = Ok m2 ->
  m_content_length m2 = Some (Some d) -> digit_string d -> decimal d = slen b -> slen b <= 2147483647 -> b = [] \/ single m2 ->
  message_parse (st ++ CRLF ++ fields_text l ++ CRLF ++ b) = Ok (match b with [] => m2 | _ => with_bodies (m_bodies m2 ++ [mkBody b [] None]) m2 end).
Proof.
  intros st l b m1 m2 d N W SP F ST CL DD DE LB SI. rewrite message_parse_eq. rewrite (head_text st l b m1 m2 N W SP F ST) by congruence. cbn [res_bind].
  unfold parse_tail. set (pre := st ++ CRLF ++ fields_text l). rewrite (rd_at pre cr (lf :: b ++ [NUL])) by reflexivity. cbn [res_bind]. change (is_ch cr cr) with true. cbv iota.
  rewrite (rd_next pre (slen pre) [cr] (lf :: b ++ [NUL])) by reflexivity. cbn [res_bind]. rewrite CL, strtol_small by (auto; lia). rewrite DE. cbv zeta.
  destruct b as [|b0 b'].
  - change (slen [] >? 0) with false. cbv iota. unfold zero_length. rewrite CL. reflexivity.
  - destruct SI as [SI|SI]; [discriminate|]. set (b := b0 :: b') in *. replace (slen b >? 0) with true by (unfold b; sl).
    pose proof (C45_body m2 pre CRLF b [] d SI) as B. rewrite app_nil_r in B. cbn [app] in B.
    replace (slen (st ++ CRLF ++ fields_text l ++ CRLF ++ b) - slen pre) with (slen (CRLF ++ b)) by (unfold pre; sln). rewrite B.
    + cbn [res_bind]. unfold zero_length. cbn [with_bodies m_content_length]. rewrite CL. reflexivity.
    + split; [left; reflexivity|discriminate].
    + discriminate.
    + exact CL.
    + exact DD.
    + exact DE.
    + exact LB.
Qed.

(** *** Values that survive printing and parsing *)
(** commas: none, or a header that is never split, or commas only in quoted strings and URIs *)
Definition comma_ok (name t : str) : Prop := ~ In ","%char t \/ In name unsplit_names \/ element t.
(** a text that stands alone on the line of its header *)
Definition value_text (t : str) : Prop := t <> [] /\ trimmed t /\ without [cr; lf; NUL] t.
(** [x] is printed as such a text, and the parser of that header gives [x] back *)
Definition survives {A} (name : str) (f : A -> res str) (p : str -> res A) (x : A) : Prop :=
  exists t, f x = Ok t /\ p t = Ok x /\ value_text t /\ comma_ok name t.
Definition survives_opt {A} (name : str) (f : A -> res str) (p : str -> res A) (x : option A) : Prop :=
  match x with None => True | Some x => survives name f p x end.
(** Content-Length, Mime-Version, Allow, Content-Encoding: the text itself *)
Definition text_parse (t : str) : res (option str) := do a <- clen_parse t ; Ok (Some a).

Lemma set_one : forall m n t, trimmed t -> comma_ok (map tolower n) t -> set_multiple_header m n (Some t) = set_known_header m (map tolower n) (Some t).
Proof.
  intros m n t T C. unfold set_multiple_header. destruct (existsb (Ascii.eqb ",") t) eqn:X; cbn [negb orb]; [|reflexivity].
  destruct (existsb (streq (map tolower n)) unsplit_names) eqn:U; [reflexivity|].
  assert (In ","%char t) as IC by (apply existsb_exists in X; destruct X as (y & I & E); apply Ascii.eqb_eq in E; subst y; exact I).
  destruct C as [C|[C|C]]; [contradiction| |].
  - exfalso. assert (existsb (streq (map tolower n)) unsplit_names = true); [|congruence]. apply existsb_exists. exists (map tolower n). split; [exact C|]. apply streq_eq. reflexivity.
  - pose proof (C43_split_partial [t] ltac:(discriminate) ltac:(repeat constructor; exact C)) as S1. cbn [join] in S1. rewrite S1. cbn [set_pieces].
    destruct t as [|c t]; [contradiction|]. rewrite T. destruct (set_known_header _ _ _); reflexivity.
Qed.
Lemma trim_value : forall t, trimmed t -> trim (sp :: t) = t.
Proof. intros t T. pose proof (trim_app_blanks [sp] t [] eq_refl eq_refl T) as H. rewrite app_nil_r in H. exact H. Qed.
Lemma store_app : forall l1 l2 m, store m (l1 ++ l2) = do m' <- store m l1 ; store m' l2.
Proof. induction l1 as [|[n v] l1 IH]; intros l2 m; [reflexivity|]. cbn [app store]. destruct (set_multiple_header m n (Some (trim v))); cbn [res_bind]; auto. Qed.
Lemma fields_app : forall l1 l2, fields_text (l1 ++ l2) = fields_text l1 ++ fields_text l2.
Proof. intros. apply flat_map_app. Qed.

(** the text of some headers, and what storing them does to a message *)
Definition runs (r : res str) (pre : message -> Prop) (g : message -> message) : Prop :=
  exists l, r = Ok (fields_text l) /\ Forall field_ok l /\ forall m, pre m -> store m l = Ok (g m).
Definition plain_name (n : str) : Prop := n <> [] /\ trimmed n /\ without [":"%char; cr; lf; NUL] n.
Lemma survivor_field : forall n t, plain_name n -> value_text t -> field_ok (n, sp :: t) /\ line (n ++ $": ") t = field_text (n, sp :: t).
Proof.
  intros n t (N1 & N2 & N3) (T1 & T2 & T3). split.
  - split; [exact N1|]. split; [exact N2|]. split; [exact N3|]. cbn [fst snd]. split; [discriminate|]. intros c I J. destruct J as [J|J]; [subst c; cbn in I; destruct I as [I|[I|[I|[]]]]; discriminate|exact (T3 c I J)].
  - unfold line, field_text. cbn [fst snd]. rewrite <- app_assoc. reflexivity.
Qed.
Lemma many_runs : forall A (n : str) (f : A -> res str) p (rd : message -> list A) (wr : list A -> message -> message) l,
  plain_name n ->
  (forall m, wr (rd m) m = m) -> (forall a m, rd (wr a m) = a) -> (forall a b m, wr a (wr b m) = wr a m) ->
  (forall m (t : str) x, t <> [] -> p t = Ok x -> set_known_header m (map tolower n) (Some t) = Ok (wr (rd m ++ [x]) m)) ->
  Forall (survives (map tolower n) f p) l -> runs (many (n ++ $": ") f l) (fun _ => True) (fun m => wr (rd m ++ l) m).
Proof.
  intros A n f p rd wr l N L1 L2 L3 ST H. induction H as [|x l (t & T1 & T2 & T3 & T4) H (fs & R1 & R2 & R3)].
  - exists []. split; [reflexivity|]. split; [constructor|]. intros m _. rewrite app_nil_r, L1. reflexivity.
  - exists ((n, sp :: t) :: fs). destruct (survivor_field n t N T3) as [FO FL]. split; [|split; [constructor; assumption|]].
    + unfold many in *. cbn [map cat_all]. rewrite T1. cbn [res_bind]. rewrite R1. cbn [res_bind]. cbn [fields_text flat_map]. rewrite FL. reflexivity.
    + intros m _. cbn [store]. destruct T3 as (T3 & T5 & T6). rewrite trim_value by exact T5. rewrite set_one by auto. rewrite (ST m t x) by auto. cbn [res_bind].
      rewrite R3 by exact I. rewrite L2, L3, <- app_assoc. reflexivity.
Qed.
Lemma one_runs : forall A (n : str) (f : A -> res str) p (rd : message -> option A) (wr : option A -> message -> message) x,
  plain_name n -> (forall m, wr (rd m) m = m) ->
  (forall m (t : str) y, rd m = None -> t <> [] -> p t = Ok y -> set_known_header m (map tolower n) (Some t) = Ok (wr (Some y) m)) ->
  survives_opt (map tolower n) f p x -> runs (one (n ++ $": ") f x) (fun m => rd m = None) (fun m => wr x m).
Proof.
  intros A n f p rd wr [x|] N L1 ST H.
  - destruct H as (t & T1 & T2 & T3 & T4). exists [(n, sp :: t)]. destruct (survivor_field n t N T3) as [FO FL]. split; [|split; [repeat constructor; apply FO|]].
    + cbn [one]. rewrite T1. cbn [fields_text flat_map]. rewrite app_nil_r, FL. reflexivity.
    + intros m M. cbn [store]. destruct T3 as (T3 & T5 & T6). rewrite trim_value by exact T5. rewrite set_one by auto. rewrite (ST m t x) by auto. reflexivity.
  - exists []. split; [reflexivity|]. split; [constructor|]. intros m M. cbn [store]. rewrite <- M, L1. reflexivity.
Qed.
Lemma runs_cons : forall r rs (pre1 pre2 : message -> Prop) g1 g2, runs r pre1 g1 -> runs (cat_all rs) pre2 g2 ->
  runs (cat_all (r :: rs)) (fun m => pre1 m /\ pre2 (g1 m)) (fun m => g2 (g1 m)).
Proof.
  intros r rs pre1 pre2 g1 g2 (l1 & -> & F1 & S1) (l2 & R2 & F2 & S2). exists (l1 ++ l2). cbn [cat_all res_bind]. rewrite R2. cbn [res_bind]. split; [rewrite fields_app; reflexivity|].
  split; [apply Forall_app; split; assumption|]. intros m (M1 & M2). rewrite store_app, S1 by exact M1. cbn [res_bind]. apply S2, M2.
Qed.
Lemma runs_nil : runs (cat_all []) (fun _ => True) (fun m => m).
Proof. exists []. split; [reflexivity|]. split; [constructor|]. reflexivity. Qed.
Lemma name_lit : forall n, match n with [] => false | _ => true end && streq (trim n) n && forallb (fun c => negb (existsb (Ascii.eqb c) [":"%char; cr; lf; NUL])) n = true -> plain_name n.
Proof.
  intros n H. apply andb_prop in H. destruct H as [H H3]. apply andb_prop in H. destruct H as [H1 H2]. apply streq_eq in H2. split; [destruct n; [discriminate|discriminate]|]. split; [exact H2|].
  rewrite forallb_forall in H3. intros c I J. specialize (H3 c J). apply negb_true_iff in H3. assert (existsb (Ascii.eqb c) [":"%char; cr; lf; NUL] = true); [|congruence].
  apply existsb_exists. exists c. split; [exact I|apply Ascii.eqb_refl].
Qed.

(** *** The headers a printed message can have *)
Record headers_wf (m : message) : Prop := {
  hw_via : Forall (survives ($"via") via_print via_parse) (m_vias m);
  hw_record_route : Forall (survives ($"record-route") from_to_str from_parse) (m_record_routes m);
  hw_route : Forall (survives ($"route") from_to_str from_parse) (m_routes m);
  hw_from : survives_opt ($"from") from_to_str from_parse (m_from m);
  hw_to : survives_opt ($"to") from_to_str from_parse (m_to m);
  hw_call_id : survives_opt ($"call-id") call_id_to_str call_id_parse (m_call_id m);
  hw_cseq : survives_opt ($"cseq") cseq_to_str cseq_parse (m_cseq m);
  hw_contact : Forall (survives ($"contact") contact_to_str contact_parse) (m_contacts m);
  hw_authorization : Forall (survives ($"authorization") authz_to_str authz_parse) (m_authorizations m);
  hw_www : Forall (survives ($"www-authenticate") www_to_str www_parse) (m_www_authenticates m);
  hw_proxy_authenticate : Forall (survives ($"proxy-authenticate") www_to_str www_parse) (m_proxy_authenticates m);
  hw_proxy_authorization : Forall (survives ($"proxy-authorization") authz_to_str authz_parse) (m_proxy_authorizations m);
  hw_call_info : Forall (survives ($"call-info") (elem_to_str em_s) cinfo_parse) (m_call_infos m);
  hw_content_type : survives_opt ($"content-type") ctype_to_str ctype_parse (m_content_type m);
  hw_mime_version : survives_opt ($"mime-version") clen_to_str text_parse (m_mime_version m);
  hw_allow : Forall (survives ($"allow") clen_to_str text_parse) (m_allows m);
  hw_content_encoding : Forall (survives ($"content-encoding") clen_to_str text_parse) (m_content_encodings m);
  hw_alert_info : Forall (survives ($"alert-info") (elem_to_str em_s) cinfo_parse) (m_alert_infos m);
  hw_error_info : Forall (survives ($"error-info") (elem_to_str em_s) cinfo_parse) (m_error_infos m);
  hw_accept : Forall (survives ($"accept") accept_to_str ctype_parse) (m_accepts m);
  hw_accept_encoding : Forall (survives ($"accept-encoding") (elem_to_str emit_n) aenc_parse) (m_accept_encodings m);
  hw_accept_language : Forall (survives ($"accept-language") (elem_to_str emit_n) aenc_parse) (m_accept_languages m);
  hw_auth_info : Forall (survives ($"authentication-info") ainfo_to_str ainfo_parse) (m_auth_infos m);
  hw_proxy_auth_info : Forall (survives ($"proxy-authentication-info") ainfo_to_str ainfo_parse) (m_proxy_auth_infos m) }.

(** all headers printed from [m] are stored in a message that has none of them *)
Definition with_known (m m0 : message) : message :=
  mkMsg (m_version m0) (m_uri m0) (m_method m0) (m_status m0) (m_reason m0) (m_accepts m) (m_accept_encodings m) (m_accept_languages m) (m_alert_infos m) (m_allows m) (m_auth_infos m) (m_authorizations m) (m_call_id m) (m_call_infos m) (m_contacts m) (m_content_encodings m) (m_content_length m0) (m_content_type m) (m_cseq m) (m_error_infos m) (m_from m) (m_mime_version m) (m_proxy_authenticates m) (m_proxy_auth_infos m) (m_proxy_authorizations m) (m_record_routes m) (m_routes m) (m_to m) (m_vias m) (m_www_authenticates m) (m_headers m0) (m_bodies m0).
Definition start_only (m0 : message) : Prop := exists v u me st r, m0 = with_reason r (with_status st (with_version v (with_uri u (with_method me msg_init)))).

Ltac in_known := let rec go k := (first [solve [apply (nth_error_In known_headers k); reflexivity] | go constr:(S k)]) in go constr:(0%nat).
Ltac list_laws := first [intros []; reflexivity | reflexivity].
Lemma vias_run : forall l, Forall (survives ($"via") via_print via_parse) l -> runs (many ($"Via: ") via_print l) (fun _ => True) (fun m => with_vias (m_vias m ++ l) m).
Proof.
  intros l H. apply (many_runs _ ($"Via") via_print via_parse m_vias with_vias); [apply name_lit; reflexivity|intros []; reflexivity|reflexivity|reflexivity| |exact H].
  intros m t x NE P. rewrite (C39_known [$"via"; $"v"] false set_via ($"via") m); [|in_known|left; reflexivity]. destruct t as [|c t]; [congruence|].
  unfold set_via, if_value; unfold text_parse in P. rewrite P. reflexivity.
Qed.
Lemma record_routes_run : forall l, Forall (survives ($"record-route") from_to_str from_parse) l -> runs (many ($"Record-Route: ") from_to_str l) (fun _ => True) (fun m => with_record_routes (m_record_routes m ++ l) m).
Proof.
  intros l H. apply (many_runs _ ($"Record-Route") from_to_str from_parse m_record_routes with_record_routes); [apply name_lit; reflexivity|intros []; reflexivity|reflexivity|reflexivity| |exact H].
  intros m t x NE P. rewrite (C39_known [$"record-route"] true set_record_route ($"record-route") m); [|in_known|left; reflexivity]. destruct t as [|c t]; [congruence|].
  unfold set_record_route, if_value; unfold text_parse in P. rewrite P. reflexivity.
Qed.
Lemma routes_run : forall l, Forall (survives ($"route") from_to_str from_parse) l -> runs (many ($"Route: ") from_to_str l) (fun _ => True) (fun m => with_routes (m_routes m ++ l) m).
Proof.
  intros l H. apply (many_runs _ ($"Route") from_to_str from_parse m_routes with_routes); [apply name_lit; reflexivity|intros []; reflexivity|reflexivity|reflexivity| |exact H].
  intros m t x NE P. rewrite (C39_known [$"route"] true set_route ($"route") m); [|in_known|left; reflexivity]. destruct t as [|c t]; [congruence|].
  unfold set_route, if_value; unfold text_parse in P. rewrite P. reflexivity.
Qed.
Lemma from_run : forall x, survives_opt ($"from") from_to_str from_parse x -> runs (one ($"From: ") from_to_str x) (fun m => m_from m = None) (fun m => with_from x m).
Proof.
  intros x H. apply (one_runs _ ($"From") from_to_str from_parse m_from with_from); [apply name_lit; reflexivity|intros []; reflexivity| |exact H].
  intros m t y U NE P. rewrite (C39_known [$"from"; $"f"] false set_from ($"from") m); [|in_known|left; reflexivity]. destruct t as [|c t]; [congruence|].
  unfold set_from, if_value, if_unset. rewrite U. unfold text_parse in P. rewrite P. reflexivity.
Qed.
Lemma to_run : forall x, survives_opt ($"to") from_to_str from_parse x -> runs (one ($"To: ") from_to_str x) (fun m => m_to m = None) (fun m => with_to x m).
Proof.
  intros x H. apply (one_runs _ ($"To") from_to_str from_parse m_to with_to); [apply name_lit; reflexivity|intros []; reflexivity| |exact H].
  intros m t y U NE P. rewrite (C39_known [$"to"; $"t"] false set_to ($"to") m); [|in_known|left; reflexivity]. destruct t as [|c t]; [congruence|].
  unfold set_to, if_value, if_unset. rewrite U. unfold text_parse in P. rewrite P. reflexivity.
Qed.
Lemma call_id_run : forall x, survives_opt ($"call-id") call_id_to_str call_id_parse x -> runs (one ($"Call-ID: ") call_id_to_str x) (fun m => m_call_id m = None) (fun m => with_call_id x m).
Proof.
  intros x H. apply (one_runs _ ($"Call-ID") call_id_to_str call_id_parse m_call_id with_call_id); [apply name_lit; reflexivity|intros []; reflexivity| |exact H].
  intros m t y U NE P. rewrite (C39_known [$"call-id"; $"i"] false set_call_id ($"call-id") m); [|in_known|left; reflexivity]. destruct t as [|c t]; [congruence|].
  unfold set_call_id, if_value, if_unset. rewrite U. unfold text_parse in P. rewrite P. reflexivity.
Qed.
Lemma cseq_run : forall x, survives_opt ($"cseq") cseq_to_str cseq_parse x -> runs (one ($"CSeq: ") cseq_to_str x) (fun m => m_cseq m = None) (fun m => with_cseq x m).
Proof.
  intros x H. apply (one_runs _ ($"CSeq") cseq_to_str cseq_parse m_cseq with_cseq); [apply name_lit; reflexivity|intros []; reflexivity| |exact H].
  intros m t y U NE P. rewrite (C39_known [$"cseq"] false set_cseq ($"cseq") m); [|in_known|left; reflexivity]. destruct t as [|c t]; [congruence|].
  unfold set_cseq, if_value, if_unset. rewrite U. unfold text_parse in P. rewrite P. reflexivity.
Qed.
Lemma contacts_run : forall l, Forall (survives ($"contact") contact_to_str contact_parse) l -> runs (many ($"Contact: ") contact_to_str l) (fun _ => True) (fun m => with_contacts (m_contacts m ++ l) m).
Proof.
  intros l H. apply (many_runs _ ($"Contact") contact_to_str contact_parse m_contacts with_contacts); [apply name_lit; reflexivity|intros []; reflexivity|reflexivity|reflexivity| |exact H].
  intros m t x NE P. rewrite (C39_known [$"contact"; $"m"] false set_contact ($"contact") m); [|in_known|left; reflexivity]. destruct t as [|c t]; [congruence|].
  unfold set_contact, if_value; unfold text_parse in P. rewrite P. reflexivity.
Qed.
Lemma authorizations_run : forall l, Forall (survives ($"authorization") authz_to_str authz_parse) l -> runs (many ($"Authorization: ") authz_to_str l) (fun _ => True) (fun m => with_authorizations (m_authorizations m ++ l) m).
Proof.
  intros l H. apply (many_runs _ ($"Authorization") authz_to_str authz_parse m_authorizations with_authorizations); [apply name_lit; reflexivity|intros []; reflexivity|reflexivity|reflexivity| |exact H].
  intros m t x NE P. rewrite (C39_known [$"authorization"] true set_authorization ($"authorization") m); [|in_known|left; reflexivity]. destruct t as [|c t]; [congruence|].
  unfold set_authorization, if_value; unfold text_parse in P. rewrite P. reflexivity.
Qed.
Lemma www_authenticates_run : forall l, Forall (survives ($"www-authenticate") www_to_str www_parse) l -> runs (many ($"WWW-Authenticate: ") www_to_str l) (fun _ => True) (fun m => with_www_authenticates (m_www_authenticates m ++ l) m).
Proof.
  intros l H. apply (many_runs _ ($"WWW-Authenticate") www_to_str www_parse m_www_authenticates with_www_authenticates); [apply name_lit; reflexivity|intros []; reflexivity|reflexivity|reflexivity| |exact H].
  intros m t x NE P. rewrite (C39_known [$"www-authenticate"] true set_www_authenticate ($"www-authenticate") m); [|in_known|left; reflexivity]. destruct t as [|c t]; [congruence|].
  unfold set_www_authenticate, if_value; unfold text_parse in P. rewrite P. reflexivity.
Qed.
Lemma proxy_authenticates_run : forall l, Forall (survives ($"proxy-authenticate") www_to_str www_parse) l -> runs (many ($"Proxy-Authenticate: ") www_to_str l) (fun _ => True) (fun m => with_proxy_authenticates (m_proxy_authenticates m ++ l) m).
Proof.
  intros l H. apply (many_runs _ ($"Proxy-Authenticate") www_to_str www_parse m_proxy_authenticates with_proxy_authenticates); [apply name_lit; reflexivity|intros []; reflexivity|reflexivity|reflexivity| |exact H].
  intros m t x NE P. rewrite (C39_known [$"proxy-authenticate"] true set_proxy_authenticate ($"proxy-authenticate") m); [|in_known|left; reflexivity]. destruct t as [|c t]; [congruence|].
  unfold set_proxy_authenticate, if_value; unfold text_parse in P. rewrite P. reflexivity.
Qed.
Lemma proxy_authorizations_run : forall l, Forall (survives ($"proxy-authorization") authz_to_str authz_parse) l -> runs (many ($"Proxy-Authorization: ") authz_to_str l) (fun _ => True) (fun m => with_proxy_authorizations (m_proxy_authorizations m ++ l) m).
Proof.
  intros l H. apply (many_runs _ ($"Proxy-Authorization") authz_to_str authz_parse m_proxy_authorizations with_proxy_authorizations); [apply name_lit; reflexivity|intros []; reflexivity|reflexivity|reflexivity| |exact H].
  intros m t x NE P. rewrite (C39_known [$"proxy-authorization"] true set_proxy_authorization ($"proxy-authorization") m); [|in_known|left; reflexivity]. destruct t as [|c t]; [congruence|].
  unfold set_proxy_authorization, if_value; unfold text_parse in P. rewrite P. reflexivity.
Qed.
Lemma call_infos_run : forall l, Forall (survives ($"call-info") (elem_to_str em_s) cinfo_parse) l -> runs (many ($"Call-Info: ") (elem_to_str em_s) l) (fun _ => True) (fun m => with_call_infos (m_call_infos m ++ l) m).
Proof.
  intros l H. apply (many_runs _ ($"Call-Info") (elem_to_str em_s) cinfo_parse m_call_infos with_call_infos); [apply name_lit; reflexivity|intros []; reflexivity|reflexivity|reflexivity| |exact H].
  intros m t x NE P. rewrite (C39_known [$"call-info"] true set_call_info ($"call-info") m); [|in_known|left; reflexivity]. destruct t as [|c t]; [congruence|].
  unfold set_call_info, if_value; unfold text_parse in P. rewrite P. reflexivity.
Qed.
Lemma content_type_run : forall x, survives_opt ($"content-type") ctype_to_str ctype_parse x -> runs (one ($"Content-Type: ") ctype_to_str x) (fun m => m_content_type m = None) (fun m => with_content_type x m).
Proof.
  intros x H. apply (one_runs _ ($"Content-Type") ctype_to_str ctype_parse m_content_type with_content_type); [apply name_lit; reflexivity|intros []; reflexivity| |exact H].
  intros m t y U NE P. rewrite (C39_known [$"content-type"; $"c"] false set_content_type ($"content-type") m); [|in_known|left; reflexivity]. destruct t as [|c t]; [congruence|].
  unfold set_content_type, if_value, if_unset. rewrite U. unfold text_parse in P. rewrite P. reflexivity.
Qed.
Lemma mime_version_run : forall x, survives_opt ($"mime-version") clen_to_str text_parse x -> runs (one ($"Mime-Version: ") clen_to_str x) (fun m => m_mime_version m = None) (fun m => with_mime_version x m).
Proof.
  intros x H. apply (one_runs _ ($"Mime-Version") clen_to_str text_parse m_mime_version with_mime_version); [apply name_lit; reflexivity|intros []; reflexivity| |exact H].
  intros m t y U NE P. rewrite (C39_known [$"mime-version"] true set_mime_version ($"mime-version") m); [|in_known|left; reflexivity]. destruct t as [|c t]; [congruence|].
  unfold set_mime_version, if_value, if_unset. rewrite U. unfold text_parse in P. destruct (clen_parse (c :: t)) as [a| |]; cbn [res_bind] in P |- *; [injection P as <-; reflexivity|discriminate|discriminate].
Qed.
Lemma allows_run : forall l, Forall (survives ($"allow") clen_to_str text_parse) l -> runs (many ($"Allow: ") clen_to_str l) (fun _ => True) (fun m => with_allows (m_allows m ++ l) m).
Proof.
  intros l H. apply (many_runs _ ($"Allow") clen_to_str text_parse m_allows with_allows); [apply name_lit; reflexivity|intros []; reflexivity|reflexivity|reflexivity| |exact H].
  intros m t x NE P. rewrite (C39_known [$"allow"] true set_allow ($"allow") m); [|in_known|left; reflexivity]. destruct t as [|c t]; [congruence|].
  unfold set_allow, if_value; unfold text_parse in P. destruct (clen_parse (c :: t)) as [a| |]; cbn [res_bind] in P |- *; [injection P as <-; reflexivity|discriminate|discriminate].
Qed.
Lemma content_encodings_run : forall l, Forall (survives ($"content-encoding") clen_to_str text_parse) l -> runs (many ($"Content-Encoding: ") clen_to_str l) (fun _ => True) (fun m => with_content_encodings (m_content_encodings m ++ l) m).
Proof.
  intros l H. apply (many_runs _ ($"Content-Encoding") clen_to_str text_parse m_content_encodings with_content_encodings); [apply name_lit; reflexivity|intros []; reflexivity|reflexivity|reflexivity| |exact H].
  intros m t x NE P. rewrite (C39_known [$"content-encoding"; $"e"] true set_content_encoding ($"content-encoding") m); [|in_known|left; reflexivity]. destruct t as [|c t]; [congruence|].
  unfold set_content_encoding, if_value; unfold text_parse in P. destruct (clen_parse (c :: t)) as [a| |]; cbn [res_bind] in P |- *; [injection P as <-; reflexivity|discriminate|discriminate].
Qed.
Lemma alert_infos_run : forall l, Forall (survives ($"alert-info") (elem_to_str em_s) cinfo_parse) l -> runs (many ($"Alert-Info: ") (elem_to_str em_s) l) (fun _ => True) (fun m => with_alert_infos (m_alert_infos m ++ l) m).
Proof.
  intros l H. apply (many_runs _ ($"Alert-Info") (elem_to_str em_s) cinfo_parse m_alert_infos with_alert_infos); [apply name_lit; reflexivity|intros []; reflexivity|reflexivity|reflexivity| |exact H].
  intros m t x NE P. rewrite (C39_known [$"alert-info"] true set_alert_info ($"alert-info") m); [|in_known|left; reflexivity]. destruct t as [|c t]; [congruence|].
  unfold set_alert_info, if_value; unfold text_parse in P. rewrite P. reflexivity.
Qed.
Lemma error_infos_run : forall l, Forall (survives ($"error-info") (elem_to_str em_s) cinfo_parse) l -> runs (many ($"Error-Info: ") (elem_to_str em_s) l) (fun _ => True) (fun m => with_error_infos (m_error_infos m ++ l) m).
Proof.
  intros l H. apply (many_runs _ ($"Error-Info") (elem_to_str em_s) cinfo_parse m_error_infos with_error_infos); [apply name_lit; reflexivity|intros []; reflexivity|reflexivity|reflexivity| |exact H].
  intros m t x NE P. rewrite (C39_known [$"error-info"] true set_error_info ($"error-info") m); [|in_known|left; reflexivity]. destruct t as [|c t]; [congruence|].
  unfold set_error_info, if_value; unfold text_parse in P. rewrite P. reflexivity.
Qed.
Lemma accepts_run : forall l, Forall (survives ($"accept") accept_to_str ctype_parse) l -> runs (many ($"Accept: ") accept_to_str l) (fun _ => True) (fun m => with_accepts (m_accepts m ++ l) m).
Proof.
  intros l H. apply (many_runs _ ($"Accept") accept_to_str ctype_parse m_accepts with_accepts); [apply name_lit; reflexivity|intros []; reflexivity|reflexivity|reflexivity| |exact H].
  intros m t x NE P. rewrite (C39_known [$"accept"] true set_accept ($"accept") m); [|in_known|left; reflexivity]. destruct t as [|c t]; [congruence|].
  unfold set_accept, if_value; unfold text_parse in P. rewrite P. reflexivity.
Qed.
Lemma accept_encodings_run : forall l, Forall (survives ($"accept-encoding") (elem_to_str emit_n) aenc_parse) l -> runs (many ($"Accept-Encoding: ") (elem_to_str emit_n) l) (fun _ => True) (fun m => with_accept_encodings (m_accept_encodings m ++ l) m).
Proof.
  intros l H. apply (many_runs _ ($"Accept-Encoding") (elem_to_str emit_n) aenc_parse m_accept_encodings with_accept_encodings); [apply name_lit; reflexivity|intros []; reflexivity|reflexivity|reflexivity| |exact H].
  intros m t x NE P. rewrite (C39_known [$"accept-encoding"] true set_accept_encoding ($"accept-encoding") m); [|in_known|left; reflexivity]. destruct t as [|c t]; [congruence|].
  unfold set_accept_encoding, if_value; unfold text_parse in P. rewrite P. reflexivity.
Qed.
Lemma accept_languages_run : forall l, Forall (survives ($"accept-language") (elem_to_str emit_n) aenc_parse) l -> runs (many ($"Accept-Language: ") (elem_to_str emit_n) l) (fun _ => True) (fun m => with_accept_languages (m_accept_languages m ++ l) m).
Proof.
  intros l H. apply (many_runs _ ($"Accept-Language") (elem_to_str emit_n) aenc_parse m_accept_languages with_accept_languages); [apply name_lit; reflexivity|intros []; reflexivity|reflexivity|reflexivity| |exact H].
  intros m t x NE P. rewrite (C39_known [$"accept-language"] true set_accept_language ($"accept-language") m); [|in_known|left; reflexivity]. destruct t as [|c t]; [congruence|].
  unfold set_accept_language, if_value; unfold text_parse in P. rewrite P. reflexivity.
Qed.
Lemma auth_infos_run : forall l, Forall (survives ($"authentication-info") ainfo_to_str ainfo_parse) l -> runs (many ($"Authentication-Info: ") ainfo_to_str l) (fun _ => True) (fun m => with_auth_infos (m_auth_infos m ++ l) m).
Proof.
  intros l H. apply (many_runs _ ($"Authentication-Info") ainfo_to_str ainfo_parse m_auth_infos with_auth_infos); [apply name_lit; reflexivity|intros []; reflexivity|reflexivity|reflexivity| |exact H].
  intros m t x NE P. rewrite (C39_known [$"authentication-info"] true set_authentication_info ($"authentication-info") m); [|in_known|left; reflexivity]. destruct t as [|c t]; [congruence|].
  unfold set_authentication_info, if_value; unfold text_parse in P. rewrite P. reflexivity.
Qed.
Lemma proxy_auth_infos_run : forall l, Forall (survives ($"proxy-authentication-info") ainfo_to_str ainfo_parse) l -> runs (many ($"Proxy-Authentication-Info: ") ainfo_to_str l) (fun _ => True) (fun m => with_proxy_auth_infos (m_proxy_auth_infos m ++ l) m).
Proof.
  intros l H. apply (many_runs _ ($"Proxy-Authentication-Info") ainfo_to_str ainfo_parse m_proxy_auth_infos with_proxy_auth_infos); [apply name_lit; reflexivity|intros []; reflexivity|reflexivity|reflexivity| |exact H].
  intros m t x NE P. rewrite (C39_known [$"proxy-authentication-info"] true set_proxy_authentication_info ($"proxy-authentication-info") m); [|in_known|left; reflexivity]. destruct t as [|c t]; [congruence|].
  unfold set_proxy_authentication_info, if_value; unfold text_parse in P. rewrite P. reflexivity.
Qed.
Lemma headers_run_all : forall m m0, headers_wf m -> start_only m0 ->
  exists l, headers_text m = Ok (fields_text l) /\ Forall field_ok l /\ store m0 l = Ok (with_known m m0).
Proof.
  intros m m0 W (v & u & me & st & r & ->). unfold headers_text.
  destruct (runs_cons _ _ _ _ _ _ (vias_run _ (hw_via m W))
    (runs_cons _ _ _ _ _ _ (record_routes_run _ (hw_record_route m W))
    (runs_cons _ _ _ _ _ _ (routes_run _ (hw_route m W))
    (runs_cons _ _ _ _ _ _ (from_run _ (hw_from m W))
    (runs_cons _ _ _ _ _ _ (to_run _ (hw_to m W))
    (runs_cons _ _ _ _ _ _ (call_id_run _ (hw_call_id m W))
    (runs_cons _ _ _ _ _ _ (cseq_run _ (hw_cseq m W))
    (runs_cons _ _ _ _ _ _ (contacts_run _ (hw_contact m W))
    (runs_cons _ _ _ _ _ _ (authorizations_run _ (hw_authorization m W))
    (runs_cons _ _ _ _ _ _ (www_authenticates_run _ (hw_www m W))
    (runs_cons _ _ _ _ _ _ (proxy_authenticates_run _ (hw_proxy_authenticate m W))
    (runs_cons _ _ _ _ _ _ (proxy_authorizations_run _ (hw_proxy_authorization m W))
    (runs_cons _ _ _ _ _ _ (call_infos_run _ (hw_call_info m W))
    (runs_cons _ _ _ _ _ _ (content_type_run _ (hw_content_type m W))
    (runs_cons _ _ _ _ _ _ (mime_version_run _ (hw_mime_version m W))
    (runs_cons _ _ _ _ _ _ (allows_run _ (hw_allow m W))
    (runs_cons _ _ _ _ _ _ (content_encodings_run _ (hw_content_encoding m W))
    (runs_cons _ _ _ _ _ _ (alert_infos_run _ (hw_alert_info m W))
    (runs_cons _ _ _ _ _ _ (error_infos_run _ (hw_error_info m W))
    (runs_cons _ _ _ _ _ _ (accepts_run _ (hw_accept m W))
    (runs_cons _ _ _ _ _ _ (accept_encodings_run _ (hw_accept_encoding m W))
    (runs_cons _ _ _ _ _ _ (accept_languages_run _ (hw_accept_language m W))
    (runs_cons _ _ _ _ _ _ (auth_infos_run _ (hw_auth_info m W))
    (runs_cons _ _ _ _ _ _ (proxy_auth_infos_run _ (hw_proxy_auth_info m W))
    (runs_nil))))))))))))))))))))))))) as (l & L1 & L2 & L3).
  exists l. split; [exact L1|]. split; [exact L2|]. rewrite L3; [reflexivity|]. repeat split.
Qed.



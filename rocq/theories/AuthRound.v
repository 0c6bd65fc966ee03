(** C49: the authentication headers, printed and parsed again, have the same fields. *)
From Coq Require Import String ZArith NArith Ascii Bool List Lia ZifyBool ZifyNat.
From Verif Require Import Base Str StrLemmas MemModel MemLemmas Types PortModel PortBuf PortProps QuoteProps CString CStringLemmas SafeLemmas
  UriModel EscapeProps UriProps UriRound HdrModel HdrProps HdrSafe HdrRound ViaRound AuthModel AuthSafe.
Import ListNotations.
Open Scope Z_scope.

(** * Specification *)
(** A value in quotes, with something between the quotes *)
Definition auth_quoted (v : str) : Prop := exists t, v = dquote :: t ++ [dquote] /\ qtext t /\ t <> [].
(** A value without quotes of at least [n] characters: no white space at its ends, no comma *)
Definition auth_token (n : Z) (v : str) : Prop := trimmed v /\ cstr v /\ without ($",") v /\ n <= slen v.
Definition opt (P : str -> Prop) (o : option str) : Prop := match o with None => True | Some v => P v end.
(** The auth-scheme: one word *)
Definition scheme_wf (t : str) : Prop := t <> [] /\ cstr t /\ without ($" ") t.

Definition www_wf (w : www_auth) : Prop :=
  (exists ty, w_auth_type w = Some ty /\ scheme_wf ty) /\
  opt auth_quoted (w_realm w) /\ opt auth_quoted (w_domain w) /\ opt auth_quoted (w_nonce w) /\ opt auth_quoted (w_opaque w) /\
  opt (auth_token 1) (w_stale w) /\ opt (auth_token 1) (w_algorithm w) /\ opt auth_quoted (w_qop w) /\ opt (auth_token 1) (w_version w) /\
  opt auth_quoted (w_targetname w) /\ opt auth_quoted (w_gssapi w) /\
  (w_realm w <> None \/ w_domain w <> None \/ w_nonce w <> None \/ w_opaque w <> None \/ w_stale w <> None \/ w_algorithm w <> None \/
   w_qop w <> None \/ w_version w <> None \/ w_targetname w <> None \/ w_gssapi w <> None).

Definition authz_wf (a : authz) : Prop :=
  (exists ty, a_auth_type a = Some ty /\ scheme_wf ty) /\
  opt auth_quoted (a_username a) /\ opt auth_quoted (a_realm a) /\ opt auth_quoted (a_nonce a) /\ opt auth_quoted (a_uri a) /\
  opt auth_quoted (a_response a) /\ opt auth_quoted (a_digest a) /\ opt (auth_token 1) (a_algorithm a) /\ opt auth_quoted (a_cnonce a) /\
  opt auth_quoted (a_opaque a) /\ opt (auth_token 2) (a_message_qop a) /\ opt (auth_token 3) (a_nonce_count a) /\ opt (auth_token 1) (a_version a) /\
  opt auth_quoted (a_targetname a) /\ opt auth_quoted (a_gssapi a) /\ opt auth_quoted (a_crand a) /\ opt auth_quoted (a_cnum a) /\
  (a_username a <> None \/ a_realm a <> None \/ a_nonce a <> None \/ a_uri a <> None \/ a_response a <> None \/ a_digest a <> None \/
   a_algorithm a <> None \/ a_cnonce a <> None \/ a_opaque a <> None \/ a_message_qop a <> None \/ a_nonce_count a <> None \/ a_version a <> None \/
   a_targetname a <> None \/ a_gssapi a <> None \/ a_crand a <> None \/ a_cnum a <> None).

Definition ainfo_wf (a : authinfo) : Prop :=
  opt scheme_wf (ai_auth_type a) /\ opt (without ($"=")) (ai_auth_type a) /\
  opt auth_quoted (ai_nextnonce a) /\ opt auth_quoted (ai_cnonce a) /\ opt auth_quoted (ai_rspauth a) /\ opt (auth_token 3) (ai_nonce_count a) /\
  opt (auth_token 2) (ai_qop a) /\ opt auth_quoted (ai_snum a) /\ opt auth_quoted (ai_srand a) /\ opt auth_quoted (ai_targetname a) /\
  opt auth_quoted (ai_realm a) /\ opt auth_quoted (ai_opaque a) /\
  (ai_nextnonce a <> None \/ ai_cnonce a <> None \/ ai_rspauth a <> None \/ ai_nonce_count a <> None \/ ai_qop a <> None \/ ai_snum a <> None \/
   ai_srand a <> None \/ ai_targetname a <> None \/ ai_realm a <> None \/ ai_opaque a <> None).

(** * Text of a list of parameters *)
Definition field := (str * str)%type.
Definition field_text (f : field) : str := fst f ++ "="%char :: snd f.
Fixpoint render_tail (F : list field) : str := match F with [] => [] | f :: F => $", " ++ field_text f ++ render_tail F end.
Definition render (F : list field) : str := match F with [] => [] | f :: F => field_text f ++ render_tail F end.
Fixpoint field_get (n : str) (F : list field) : option str :=
  match F with [] => None | f :: F => if streq (fst f) n then Some (snd f) else field_get n F end.

(** Parameter names: not empty, made of other characters than separators *)
Definition name_char (c : ascii) : bool := negb (existsb (Ascii.eqb c) (" "%char :: tab :: cr :: lf :: NUL :: dquote :: bslash :: $",=")).
Definition names_ok (specs : list (bool * str)) : bool :=
  forallb (fun a => negb (Nat.eqb (length (snd a)) 0) && forallb name_char (snd a) && name_ok (snd a)) specs &&
  forallb (fun a => forallb (fun b =>
    streq (snd a) (snd b) || negb (strncaseeq (length (snd a)) (snd a) (snd b ++ $"=")) || (fst a && negb (Nat.eqb (length (snd a)) (length (snd b))))) specs) specs.

Definition field_ok (specs : list (bool * str)) (f : field) : Prop :=
  exists q, In (q, fst f) specs /\ (if q then auth_quoted (snd f) else auth_token 1 (snd f)) /\ 6 <= slen (field_text f).

Lemma name_char_notin : forall n c, forallb name_char n = true -> existsb (Ascii.eqb c) (" "%char :: tab :: cr :: lf :: NUL :: dquote :: bslash :: $",=") = true -> ~ In c n.
Proof. intros n c H E I. rewrite forallb_forall in H. specialize (H _ I). unfold name_char in H. rewrite E in H. discriminate. Qed.

Lemma strneq_pre : forall a b r k, ~ In "="%char a -> strneq k a (b ++ "="%char :: r) = strneq k a (b ++ ["="%char]).
Proof.
  induction a as [|x a IH]; intros b r k N; destruct k as [|k]; auto; destruct b as [|y b]; cbn [app strneq]; auto.
  - destruct (Ascii.eqb_spec x "="%char) as [->|]; [exfalso; apply N; left; reflexivity|reflexivity].
  - f_equal. apply IH. intros I. apply N. right. exact I.
Qed.
Lemma strneq_self : forall a r, strneq (length a) a (a ++ r) = true.
Proof. induction a as [|x a IH]; intros r; cbn [length strneq app]; auto. rewrite Ascii.eqb_refl. apply IH. Qed.
Lemma tolower_eq : forall c, tolower c = "="%char -> c = "="%char.
Proof. intros c. destruct c as [[] [] [] [] [] [] [] []]; vm_compute; intros H; congruence. Qed.
Lemma casematch_pre : forall a b r, ~ In "="%char a -> strncaseeq (length a) a (b ++ "="%char :: r) = strncaseeq (length a) a (b ++ $"=").
Proof.
  intros a b r N. unfold strncaseeq. rewrite !map_app. cbn [map]. change (tolower "="%char) with "="%char. rewrite strneq_pre; [reflexivity|].
  intros I. apply in_map_iff in I as (c & E & I). apply tolower_eq in E. subst c. contradiction.
Qed.

(** ** The text around a position *)
Lemma skip_sep_to : forall s a x c r p, s = a ++ x ++ c :: r -> p = slen a -> (forall d, In d x -> In d (" "%char :: tab :: $",")) ->
  ~ In c (" "%char :: tab :: $",") -> skip_sep s p = Ok (slen a + slen x).
Proof.
  intros s a x c r p E -> X C. unfold skip_sep. eapply scan_fwd_to; [exact E| |reflexivity| | |].
  - intros d I. specialize (X d I). destruct X as [<-|[<-|[<-|[]]]]; reflexivity.
  - subst s. rewrite !app_length. cbn. lia.
  - subst s. sl.
  - unfold is_ch. destruct (Ascii.eqb_spec c " "%char) as [->|]; [exfalso; apply C; cbn; auto|]. destruct (Ascii.eqb_spec c tab) as [->|]; [exfalso; apply C; cbn; auto|].
    destruct (Ascii.eqb_spec c ","%char) as [->|]; [exfalso; apply C; cbn; auto|]. reflexivity.
Qed.
Lemma scan_fwd_end : forall fuel s stop, scan_fwd (S fuel) s (slen s) (slen s) stop = Ok (slen s).
Proof. intros. cbn [scan_fwd]. rewrite Z.ltb_irrefl. reflexivity. Qed.
Lemma next_element_end : forall s, next_element s (slen s) = Ok None.
Proof.
  intros s. unfold next_element, skip_blanks, skip_eol. rewrite scan_fwd_end. cbn [res_bind]. rewrite scan_fwd_end. cbn [res_bind].
  rewrite ch_end by reflexivity. reflexivity.
Qed.
Lemma next_element_to : forall s a x c r p, s = a ++ x ++ c :: r -> p = slen a -> (forall d, In d x -> d = " "%char) ->
  ~ In c (" "%char :: tab :: cr :: lf :: [NUL]) -> next_element s p = Ok (Some (slen a + slen x)).
Proof.
  intros s a x c r p E -> X C. unfold next_element, skip_blanks, skip_eol.
  assert (slen a + slen x < slen s) as L by (subst s; sl). assert (length x < S (length s))%nat as L' by (subst s; rewrite !app_length; cbn; lia).
  assert (Ascii.eqb c " "%char = false /\ Ascii.eqb c tab = false /\ Ascii.eqb c cr = false /\ Ascii.eqb c lf = false /\ Ascii.eqb c NUL = false) as (C1 & C2 & C3 & C4 & C5).
  { repeat split; (match goal with |- Ascii.eqb c ?d = false => destruct (Ascii.eqb_spec c d) as [->|]; [exfalso; apply C; cbn; auto 6|reflexivity] end). }
  rewrite (scan_fwd_to _ x a c r); [|exact E|intros d I; rewrite (X d I); reflexivity|reflexivity|exact L'|exact L|unfold is_ch; rewrite C1, C2; reflexivity]. cbn [res_bind].
  assert (s = (a ++ x) ++ [] ++ c :: r) as E' by (subst s; cat). assert (slen a + slen x = slen (a ++ x)) as P by sl.
  assert (forall stop, stop c = true -> scan_fwd (S (length s)) s (slen a + slen x) (slen s) stop = Ok (slen a + slen x)) as SC.
  { intros stop ST. rewrite (scan_fwd_to _ [] (a ++ x) c r); [f_equal; sl|exact E'|intros d []|exact P|cbn; lia|sl|exact ST]. }
  rewrite SC by (unfold is_ch; rewrite C3, C4; reflexivity). cbn [res_bind].
  rewrite (ch_at s (a ++ x) c r) by (auto; subst s; cat). cbn [res_bind]. unfold is_ch. rewrite C5, C2, C1. reflexivity.
Qed.

Section Loop.
  Variable specs0 : list (bool * str).
  Hypothesis NAMES : names_ok specs0 = true.
  Hypothesis NDS : NoDup (map snd specs0).

  Lemma spec_name : forall q n, In (q, n) specs0 -> exists c n', n = c :: n' /\ forallb name_char n = true.
  Proof.
    intros q n I. unfold names_ok in NAMES. apply andb_true_iff in NAMES as [N _]. rewrite forallb_forall in N. specialize (N _ I). cbn [snd] in N.
    apply andb_true_iff in N as [N _]. apply andb_true_iff in N as [N1 N2]. destruct n as [|c n']; [discriminate|]. eauto.
  Qed.
  Lemma spec_pair : forall qa a qb b, In (qa, a) specs0 -> In (qb, b) specs0 -> a <> b ->
    strncaseeq (length a) a (b ++ $"=") = false \/ (qa = true /\ length a <> length b).
  Proof.
    intros qa a qb b IA IB NE. unfold names_ok in NAMES. apply andb_true_iff in NAMES as [_ N]. rewrite forallb_forall in N. specialize (N _ IA).
    rewrite forallb_forall in N. specialize (N _ IB). cbn [fst snd] in N. destruct (streq a b) eqn:S; [apply streq_eq in S; contradiction|]. cbn [orb] in N.
    destruct (strncaseeq (length a) a (b ++ $"=")); [|left; reflexivity]. right. cbn [negb orb] in N. apply andb_true_iff in N as [-> N]. split; [reflexivity|].
    apply negb_true_iff, Nat.eqb_neq in N. exact N.
  Qed.
  Lemma spec_fun : forall q q' n, In (q, n) specs0 -> In (q', n) specs0 -> q = q'.
  Proof.
    intros q q' n. generalize NDS. clear NAMES NDS. induction specs0 as [|[a b] l IH]; intros N I J; [contradiction|]. cbn [map snd] in N. inversion N as [|? ? N1 N2]; subst.
    destruct I as [I|I], J as [J|J]; try congruence; auto.
    - injection I as -> ->. exfalso. apply N1. apply (in_map snd) in J. exact J.
    - injection J as -> ->. exfalso. apply N1. apply (in_map snd) in I. exact I.
  Qed.

  (** The rest of the header, from [p] on: separators, then the parameters [R] *)
  Definition at_rest (s : str) (p : Z) (R : list field) : Prop :=
    exists A X, s = A ++ X ++ render R /\ p = slen A /\ (forall d, In d X -> In d (" "%char :: tab :: $",")).

  Lemma quoted_miss : forall s p R n v name, cstr s -> at_rest s p ((n, v) :: R) -> In (true, name) specs0 -> (exists q, In (q, n) specs0) -> name <> n ->
    exists p', quoted_string_set name s p None = Ok (None, Some p') /\ at_rest s p' ((n, v) :: R).
  Proof.
    intros s p R n v name C (A & X & E & -> & SX) IN (qn & IQ) NE.
    destruct (spec_name _ _ IN) as (c1 & name' & En1 & C1). destruct (spec_name _ _ IQ) as (c2 & n' & En2 & C2).
    cbn [render] in E. unfold field_text in E. cbn [fst snd] in E.
    assert (s = A ++ X ++ c2 :: n' ++ ("="%char :: v) ++ render_tail R) as E2 by (rewrite E, En2; cat).
    exists (slen A + slen X). split.
    - unfold quoted_string_set. rewrite (skip_sep_to s A X c2 (n' ++ ("="%char :: v) ++ render_tail R)); [|exact E2|reflexivity|exact SX|].
      2:{ intros I. apply (name_char_notin n c2 C2); [|rewrite En2; left; reflexivity]. destruct I as [<-|[<-|[<-|[]]]]; reflexivity. }
      cbn [res_bind]. assert (s = (A ++ X) ++ n ++ "="%char :: (v ++ render_tail R)) as E3 by (rewrite E; cat).
      rewrite (tail_at_app s (A ++ X) (n ++ "="%char :: (v ++ render_tail R))) by (auto; sl). cbn [res_bind].
      assert (~ In "="%char name) as NQ by (apply name_char_notin; [exact C1|reflexivity]).
      rewrite (casematch_pre name n _ NQ).
      destruct (spec_pair true name qn n IN IQ NE) as [->|[_ D]]; [reflexivity|].
      destruct (strncaseeq _ _ _); [|reflexivity].
      rewrite (strchr_at_some s (A ++ X) n "="%char (v ++ render_tail R)); [|exact E3|sl|apply name_char_notin; [exact C2|reflexivity]]. cbn [res_bind back_spaces].
      destruct (exists_last (l := n)) as (n1 & cl & El); [rewrite En2; discriminate|].
      rewrite (ch_at s (A ++ X ++ n1) cl ("="%char :: v ++ render_tail R)); [|rewrite E, El; cat|rewrite El; sl]. cbn [res_bind].
      unfold is_ch. destruct (Ascii.eqb_spec cl " "%char) as [->|NS]; [exfalso; revert C2; intros C2; apply (name_char_notin n " "%char C2); [reflexivity|rewrite El; apply in_or_app; right; left; reflexivity]|].
      cbn [res_bind]. replace (_ =? slen name) with false; [reflexivity|]. unfold slen in *. rewrite app_length. lia.
    - exists (A ++ X), []. split; [rewrite E; cbn [render]; unfold field_text; cbn [fst snd]; cat|]. split; [sl|intros d []].
  Qed.

  Lemma token_miss : forall s p R n v name, cstr s -> at_rest s p ((n, v) :: R) -> In (false, name) specs0 -> (exists q, In (q, n) specs0) -> name <> n ->
    6 <= slen (field_text (n, v)) ->
    exists p', token_set name s p None = Ok (None, Some p') /\ at_rest s p' ((n, v) :: R).
  Proof.
    intros s p R n v name C (A & X & E & -> & SX) IN (qn & IQ) NE L6.
    destruct (spec_name _ _ IN) as (c1 & name' & En1 & C1). destruct (spec_name _ _ IQ) as (c2 & n' & En2 & C2).
    cbn [render] in E. unfold field_text in E, L6. cbn [fst snd] in E, L6.
    assert (s = A ++ X ++ c2 :: n' ++ ("="%char :: v) ++ render_tail R) as E2 by (rewrite E, En2; cat).
    assert (s = (A ++ X) ++ n ++ "="%char :: (v ++ render_tail R)) as E3 by (rewrite E; cat).
    exists (slen A + slen X). split.
    - unfold token_set.
      rewrite (strchr_at_some s A (X ++ n) "="%char (v ++ render_tail R)); [|rewrite E; cat|reflexivity|].
      2:{ rewrite in_app_iff. intros [I|I]; [apply SX in I; destruct I as [I|[I|[I|[]]]]; discriminate I|]. revert I. apply name_char_notin; [exact C2|reflexivity]. }
      cbn [res_bind]. replace (slen s - slen A <? 6) with false by (rewrite E3; sl).
      rewrite (skip_sep_to s A X c2 (n' ++ ("="%char :: v) ++ render_tail R)); [|exact E2|reflexivity|exact SX|].
      2:{ intros I. apply (name_char_notin n c2 C2); [|rewrite En2; left; reflexivity]. destruct I as [<-|[<-|[<-|[]]]]; reflexivity. }
      cbn [res_bind]. rewrite (tail_at_app s (A ++ X) (n ++ "="%char :: (v ++ render_tail R))) by (auto; sl). cbn [res_bind].
      assert (~ In "="%char name) as NQ by (apply name_char_notin; [exact C1|reflexivity]).
      rewrite (casematch_pre name n _ NQ). destruct (spec_pair false name qn n IN IQ NE) as [->|[X0 _]]; [reflexivity|discriminate].
    - exists (A ++ X), []. split; [rewrite E; cbn [render]; unfold field_text; cbn [fst snd]; cat|]. split; [sl|intros d []].
  Qed.

  Lemma name_qtext : forall n, forallb name_char n = true -> qtext (n ++ ["="%char]).
  Proof.
    induction n as [|c n IH]; intros H; [repeat constructor; discriminate|]. pose proof (name_char_notin (c :: n)) as N.
    cbn [app]. apply q_char; [| | |apply IH; cbn [forallb] in H; apply andb_true_iff in H; tauto];
      intros ->; eapply N; try exact H; try (left; reflexivity); reflexivity.
  Qed.

  Definition rest_result (s : str) (R : list field) (r : option Z) : Prop := match r with None => R = [] | Some p => R <> [] /\ at_rest s p R end.

  Lemma quoted_hit : forall s p R n v, cstr s -> at_rest s p ((n, v) :: R) -> In (true, n) specs0 -> auth_quoted v ->
    exists r, quoted_string_set n s p None = Ok (Some v, r) /\ rest_result s R r /\ (forall q, r = Some q -> q <> p).
  Proof.
    intros s p R n v C (A & X & E & -> & SX) IN (t & Ev & Q & NT).
    destruct (spec_name _ _ IN) as (c1 & n' & En & C1). pose proof (slen_pos _ _ NT) as LT.
    cbn [render] in E. unfold field_text in E. cbn [fst snd] in E.
    assert (s = A ++ X ++ c1 :: n' ++ ("="%char :: v) ++ render_tail R) as E2 by (rewrite E, En; cat).
    assert (s = (A ++ X) ++ n ++ "="%char :: (v ++ render_tail R)) as E3 by (rewrite E; cat).
    unfold quoted_string_set. rewrite (skip_sep_to s A X c1 (n' ++ ("="%char :: v) ++ render_tail R)); [|exact E2|reflexivity|exact SX|].
    2:{ intros I. apply (name_char_notin n c1 C1); [|rewrite En; left; reflexivity]. destruct I as [<-|[<-|[<-|[]]]]; reflexivity. }
    cbn [res_bind]. rewrite (tail_at_app s (A ++ X) (n ++ "="%char :: (v ++ render_tail R))) by (auto; sl). cbn [res_bind].
    assert (strncaseeq (length n) n (n ++ "="%char :: v ++ render_tail R) = true) as ->.
    { unfold strncaseeq. rewrite map_app. replace (length n) with (length (map tolower n)) by apply map_length. apply strneq_self. }
    rewrite (strchr_at_some s (A ++ X) n "="%char (v ++ render_tail R)); [|exact E3|sl|apply name_char_notin; [exact C1|reflexivity]]. cbn [res_bind back_spaces].
    destruct (exists_last (l := n)) as (n1 & cl & El); [rewrite En; discriminate|].
    rewrite (ch_at s (A ++ X ++ n1) cl ("="%char :: v ++ render_tail R)); [|rewrite E, El; cat|rewrite El; sl]. cbn [res_bind].
    unfold is_ch. destruct (Ascii.eqb_spec cl " "%char) as [->|NS]; [exfalso; apply (name_char_notin n " "%char C1); [reflexivity|rewrite El; apply in_or_app; right; left; reflexivity]|].
    cbn [res_bind]. replace (slen (A ++ X) + slen n - (slen A + slen X) =? slen n) with true by sl. cbn [negb].
    rewrite (quote_at_q s (A ++ X) (n ++ ["="%char]) (t ++ dquote :: render_tail R)); [|rewrite E, Ev; cat|sl|exact C|apply name_qtext; exact C1]. cbn [res_bind].
    rewrite (quote_at_q s (A ++ X ++ n ++ "="%char :: [dquote]) t (render_tail R)); [|rewrite E, Ev; cat|sl|exact C|exact Q]. cbn [res_bind].
    replace (_ =? 1) with false by (sl).
    rewrite (copy_at_app s (A ++ X ++ n ++ ["="%char]) v (render_tail R)); [|rewrite E, Ev; cat|sl|rewrite Ev; sl|rewrite Ev; sl].
    cbn [res_bind].
    destruct R as [|f R].
    - replace (slen (A ++ X ++ n ++ "="%char :: [dquote]) + slen t + 1) with (slen s) by (rewrite E, Ev; cbn [render_tail]; sl). rewrite next_element_end. cbn [res_bind].
      exists None. split; [reflexivity|]. split; [reflexivity|discriminate].
    - rewrite (next_element_to s (A ++ X ++ n ++ "="%char :: v) [] ","%char (" "%char :: field_text f ++ render_tail R)); [|rewrite E; cbn [render_tail]; cat|rewrite Ev; sl|intros d []|intros I; cbn in I; repeat destruct I as [I|I]; try discriminate; contradiction].
      cbn [res_bind]. eexists. split; [reflexivity|]. split; [|intros q [= <-]; sl]. split; [discriminate|].
      exists (A ++ X ++ n ++ "="%char :: v), ($", "). split; [rewrite E; cbn [render render_tail]; cat|]. split; [sl|]. intros d [<-|[<-|[]]]; cbn; auto.
  Qed.

  Lemma token_hit : forall s p R n v, cstr s -> at_rest s p ((n, v) :: R) -> In (false, n) specs0 -> auth_token 1 v -> 6 <= slen (field_text (n, v)) ->
    Forall (field_ok specs0) R ->
    exists r, token_set n s p None = Ok (Some v, r) /\ rest_result s R r /\ (forall q, r = Some q -> q <> p).
  Proof.
    intros s p R n v C (A & X & E & -> & SX) IN (T & CV & W & L1) L6 FO.
    destruct (spec_name _ _ IN) as (c1 & n' & En & C1).
    cbn [render] in E. unfold field_text in E, L6. cbn [fst snd] in E, L6.
    assert (s = A ++ X ++ c1 :: n' ++ ("="%char :: v) ++ render_tail R) as E2 by (rewrite E, En; cat).
    assert (s = (A ++ X) ++ n ++ "="%char :: (v ++ render_tail R)) as E3 by (rewrite E; cat).
    assert (~ In "="%char X) as NX by (intros I; apply SX in I; destruct I as [I|[I|[I|[]]]]; discriminate I).
    assert (~ In "="%char n) as Nn by (apply name_char_notin; [exact C1|reflexivity]).
    assert (~ In ","%char n) as Nc by (apply name_char_notin; [exact C1|reflexivity]).
    assert (~ In ","%char v) as Nv by wo.
    unfold token_set.
    rewrite (strchr_at_some s A (X ++ n) "="%char (v ++ render_tail R)); [|rewrite E; cat|reflexivity|rewrite in_app_iff; tauto].
    cbn [res_bind]. replace (slen s - slen A <? 6) with false by (rewrite E3; sl).
    rewrite (skip_sep_to s A X c1 (n' ++ ("="%char :: v) ++ render_tail R)); [|exact E2|reflexivity|exact SX|].
    2:{ intros I. apply (name_char_notin n c1 C1); [|rewrite En; left; reflexivity]. destruct I as [<-|[<-|[<-|[]]]]; reflexivity. }
    cbn [res_bind]. rewrite (tail_at_app s (A ++ X) (n ++ "="%char :: (v ++ render_tail R))) by (auto; sl). cbn [res_bind].
    assert (strncaseeq (length n) n (n ++ "="%char :: v ++ render_tail R) = true) as ->.
    { unfold strncaseeq. rewrite map_app. replace (length n) with (length (map tolower n)) by apply map_length. apply strneq_self. }
    destruct R as [|f R].
    - rewrite (strchr_at_none s (A ++ X) (n ++ "="%char :: v)); [|rewrite E; cbn [render_tail]; cat|sl|rewrite in_app_iff; cbn [In]; intros [I|[I|I]]; [contradiction|discriminate|contradiction]].
      cbn [res_bind]. replace (slen s - (slen A + slen (X ++ n)) <? 2) with false by (rewrite E; cbn [render_tail]; sl).
      rewrite (clrncpy_at_app s (A ++ X ++ n ++ ["="%char]) v []); [|rewrite E; cbn [render_tail]; cat|sl|rewrite E; cbn [render_tail]; sl|rewrite E; cbn [render_tail]; sl].
      cbn [res_bind]. rewrite (ch_end s (slen s)) by reflexivity. cbn [res_bind]. unfold is_ch. rewrite Ascii.eqb_refl. rewrite next_element_end. cbn [res_bind]. rewrite T.
      exists None. split; [reflexivity|]. split; [reflexivity|discriminate].
    - apply Forall_inv in FO. destruct FO as (qf & IF & _). destruct (spec_name _ _ IF) as (cf & nf & Ef & Cf).
      rewrite (strchr_at_some s (A ++ X) (n ++ "="%char :: v) ","%char (" "%char :: field_text f ++ render_tail R)); [|rewrite E; cbn [render_tail]; cat|sl|rewrite in_app_iff; cbn [In]; intros [I|[I|I]]; [contradiction|discriminate|contradiction]].
      cbn [res_bind]. replace (_ <? 2) with false by sl.
      rewrite (clrncpy_at_app s (A ++ X ++ n ++ ["="%char]) v (render_tail (f :: R))); [|rewrite E; cat|sl|sl|sl].
      cbn [res_bind]. rewrite (ch_at s (A ++ X ++ n ++ "="%char :: v) ","%char (" "%char :: field_text f ++ render_tail R)); [|rewrite E; cbn [render_tail]; cat|sl]. cbn [res_bind].
      unfold is_ch. replace (Ascii.eqb ","%char NUL) with false by reflexivity.
      rewrite (next_element_to s (A ++ X ++ n ++ "="%char :: v ++ [","%char]) [" "%char] cf (nf ++ "="%char :: snd f ++ render_tail R)).
      + cbn [res_bind]. rewrite T. eexists. split; [reflexivity|]. split; [|intros q [= <-]; sl]. split; [discriminate|].
        exists (A ++ X ++ n ++ "="%char :: v ++ $", "), []. split; [rewrite E; cbn [render render_tail]; cat|]. split; [change (slen [" "%char]) with 1; slens; change (slen ($", ")) with 2; lia|intros d []].
      + rewrite E. cbn [render_tail]. unfold field_text. rewrite Ef. cat.
      + sl.
      + intros d [<-|[]]. reflexivity.
      + intros I. apply (name_char_notin (fst f) cf Cf); [|rewrite Ef; left; reflexivity]. cbn in I. repeat destruct I as [<-|I]; try reflexivity. contradiction.
  Qed.

  Lemma field_get_app : forall n F G, field_get n (F ++ G) = match field_get n F with Some v => Some v | None => field_get n G end.
  Proof. induction F as [|f F IH]; intros G; cbn [app field_get]; [reflexivity|]. destruct (streq (fst f) n); auto. Qed.
  Lemma field_get_none : forall n F, ~ In n (map fst F) -> field_get n F = None.
  Proof. induction F as [|f F IH]; intros N; cbn [field_get]; [reflexivity|]. destruct (streq (fst f) n) eqn:E; [apply streq_eq in E; exfalso; apply N; left; exact E|]. apply IH. intros I. apply N. right. exact I. Qed.
  Lemma field_get_some : forall n F v, field_get n F = Some v -> In n (map fst F).
  Proof. induction F as [|f F IH]; intros v H; cbn [field_get] in H; [discriminate|]. destruct (streq (fst f) n) eqn:E; [apply streq_eq in E; left; exact E|right; eapply IH; eauto]. Qed.

  Definition vals_of (specs : list (bool * str)) (F : list field) : list (option str) := map (fun sp => field_get (snd sp) F) specs.

  Lemma vals_same : forall specs D D', (forall n, In n (map fst D') -> ~ In n (map snd specs)) -> vals_of specs (D ++ D') = vals_of specs D.
  Proof.
    intros specs D D' H. apply map_ext_in. intros sp I. rewrite field_get_app. destruct (field_get (snd sp) D); [reflexivity|]. apply field_get_none. intros J.
    apply (H _ J). apply in_map. exact I.
  Qed.

  Lemma pass_ok : forall specs s p ok D R, cstr s -> at_rest s p R -> R <> [] -> incl specs specs0 -> NoDup (map snd specs) ->
    NoDup (map fst (D ++ R)) -> Forall (field_ok specs0) R ->
    exists D' R' e, R = D' ++ R' /\ auth_pass specs (vals_of specs D) s p ok = Ok (vals_of specs (D ++ D'), e) /\
      (forall n, In n (map fst D') -> In n (map snd specs)) /\
      match e with
      | None => R' = []
      | Some (p', ok') => R' <> [] /\ at_rest s p' R' /\ (ok = true \/ D' <> [] -> ok' = true)
      end /\
      (forall f R2, R = f :: R2 -> In (fst f) (map snd specs) -> D' <> []).
  Proof.
    induction specs as [|[q name] specs IH]; intros s p ok D R C AR NR INC ND NDF FO.
    - exists [], R, (Some (p, ok)). cbn [vals_of map auth_pass]. repeat split; auto. intros [H|H]; [exact H|contradiction].
    - cbn [map snd] in ND. inversion ND as [|? ? NI ND']; subst. destruct R as [|[n v] R]; [contradiction|].
      assert (incl specs specs0) as INC' by (intros x I; apply INC; right; exact I).
      assert (In (q, name) specs0) as IN by (apply INC; left; reflexivity).
      inversion FO as [|? ? FO1 FO2]; subst. destruct FO1 as (qn & IQ & WV & L6). cbn [fst snd] in IQ, WV.
      cbn [vals_of map snd auth_pass]. fold (vals_of specs D).
      destruct (field_get name D) as [v0|] eqn:G.
      { (* already set *)
        replace (if q then quoted_string_set name s p (Some v0) else token_set name s p (Some v0)) with (@Ok (option str * option Z) (Some v0, Some p)) by (destruct q; reflexivity).
        cbn [res_bind]. rewrite Z.eqb_refl.
        destruct (IH s p ok D ((n, v) :: R)) as (D' & R' & e & E1 & E2 & E3 & E4 & E5); auto. rewrite E2. cbn [res_bind].
        exists D', R', e. split; [exact E1|]. split; [rewrite field_get_app, G; reflexivity|].
        split; [intros m I; right; auto|]. split; [exact E4|]. intros f R2 Ef [I|I]; [|eauto]. exfalso. injection Ef as <- <-. cbn [fst] in I. subst name.
        apply field_get_some in G. rewrite map_app in NDF. apply NoDup_remove_2 in NDF. apply NDF, in_or_app. left. exact G. }
      destruct (list_eq_dec Ascii.ascii_dec name n) as [->|NE].
      { (* the next parameter of the text *)
        assert (qn = q) as -> by (eapply spec_fun; eauto).
        assert (exists r, (if q then quoted_string_set n s p None else token_set n s p None) = Ok (Some v, r) /\ rest_result s R r /\ (forall k, r = Some k -> k <> p)) as (r & ER & RR & RN).
        { destruct q; [apply quoted_hit|apply token_hit]; auto. }
        rewrite ER. cbn [res_bind].
        assert (V1 : vals_of specs (D ++ [(n, v)]) = vals_of specs D).
        { apply vals_same. intros m [<-|[]]. exact NI. }
        assert (HG : forall D', field_get n (D ++ (n, v) :: D') = Some v).
        { intros D'. rewrite field_get_app, G. cbn [field_get fst snd]. replace (streq n n) with true by (symmetry; apply streq_eq; reflexivity). reflexivity. }
        destruct r as [k|].
        - destruct RR as [RR1 RR2]. destruct (Z.eqb_spec k p) as [->|NK]; [exfalso; eapply RN; reflexivity|].
          destruct (IH s k true (D ++ [(n, v)]) R) as (D' & R' & e & E1 & E2 & E3 & E4 & E5); auto.
          { rewrite <- app_assoc. exact NDF. }
          rewrite V1 in E2. rewrite E2. cbn [res_bind].
          exists ((n, v) :: D'), R', e. split; [rewrite E1; reflexivity|]. rewrite <- app_assoc in *. cbn [app] in *.
          split; [rewrite HG; reflexivity|].
          split; [intros m [<-|I]; [left; reflexivity|right; auto]|]. split; [|intros; discriminate].
          destruct e as [[p' ok']|]; [|exact E4]. destruct E4 as (E4a & E4b & E4c). repeat split; auto.
        - cbn in RR. subst R. exists [(n, v)], [], None. split; [reflexivity|].
          split; [rewrite HG; fold (vals_of specs (D ++ [(n, v)])); rewrite V1; reflexivity|].
          split; [intros m [<-|[]]; left; reflexivity|]. split; [reflexivity|intros; discriminate]. }
      { (* another parameter *)
        assert (exists p', (if q then quoted_string_set name s p None else token_set name s p None) = Ok (None, Some p') /\ at_rest s p' ((n, v) :: R)) as (p' & EP & AR').
        { destruct q; [apply quoted_miss|apply token_miss]; eauto. }
        rewrite EP. cbn [res_bind].
        assert (exists ok2 p2, (ok = true -> ok2 = true) /\ at_rest s p2 ((n, v) :: R) /\
          (if p' =? p then auth_pass specs (vals_of specs D) s p ok else auth_pass specs (vals_of specs D) s p' true) = auth_pass specs (vals_of specs D) s p2 ok2) as (ok2 & p2 & OK2 & AR2 & ->).
        { destruct (p' =? p); [exists ok, p|exists true, p']; auto. }
        destruct (IH s p2 ok2 D ((n, v) :: R)) as (D' & R' & e & E1 & E2 & E3 & E4 & E5); auto. rewrite E2. cbn [res_bind].
        exists D', R', e. split; [exact E1|].
        split. { rewrite field_get_app, G, field_get_none; [reflexivity|]. intros I. apply NI, E3, I. }
        split; [intros m I; right; auto|].
        split. { destruct e as [[p3 ok3]|]; [|exact E4]. destruct E4 as (E4a & E4b & E4c). repeat split; auto. intros [H|H]; apply E4c; auto. }
        intros f R2 Ef [I|I]; [|eauto]. injection Ef as <- <-. cbn [fst] in I. contradiction. }
  Qed.

  Lemma loop_ok : forall fuel s p D R, cstr s -> at_rest s p R -> R <> [] -> NoDup (map fst (D ++ R)) -> Forall (field_ok specs0) R -> (length R <= fuel)%nat ->
    auth_loop fuel specs0 (vals_of specs0 D) s p = Ok (vals_of specs0 (D ++ R)).
  Proof.
    induction fuel as [|fuel IH]; intros s p D R C AR NR ND FO LF; [destruct R; [contradiction|cbn in LF; lia]|]. cbn [auth_loop].
    destruct (pass_ok specs0 s p false D R C AR NR (incl_refl _) NDS ND FO) as (D' & R' & e & E1 & E2 & _ & E4 & E5). rewrite E2. cbn [res_bind].
    assert (D' <> []) as ND'.
    { destruct R as [|f R2]; [contradiction|]. apply (E5 f R2 eq_refl). inversion FO as [|? ? (q & I & _) _]; subst. apply (in_map snd) in I. exact I. }
    destruct e as [[p' ok']|].
    - destruct E4 as (E4a & E4b & E4c). rewrite E4c by auto. subst R. rewrite app_assoc. apply IH; auto.
      + rewrite <- app_assoc. exact ND.
      + apply Forall_app in FO. tauto.
      + rewrite app_length in LF. destruct D'; [contradiction|cbn in LF; lia].
    - subst R'. rewrite app_nil_r in E1. subst D'. reflexivity.
  Qed.

  Lemma render_len : forall R, Forall (field_ok specs0) R -> (length R <= length (render R))%nat.
  Proof.
    assert (T : forall R, (length R <= length (render_tail R))%nat).
    { induction R as [|f R IH]; cbn [render_tail length]; [lia|]. rewrite !app_length. cbn. lia. }
    intros [|f R] FO; cbn [render length]; [lia|]. inversion FO as [|? ? (q & _ & _ & L) _]; subst. rewrite app_length. specialize (T R). unfold slen in L. lia.
  Qed.

  (** The parameters come back, whatever precedes them *)
  Lemma loop_render : forall A X R, cstr (A ++ X ++ render R) -> (forall d, In d X -> In d (" "%char :: tab :: $",")) -> R <> [] -> NoDup (map fst R) ->
    Forall (field_ok specs0) R ->
    auth_loop (S (S (length (A ++ X ++ render R)))) specs0 (map (fun _ => None) specs0) (A ++ X ++ render R) (slen A) = Ok (vals_of specs0 R).
  Proof.
    intros A X R C SX NR ND FO. rewrite (loop_ok _ _ _ [] R); auto.
    - exists A, X. auto.
    - pose proof (render_len R FO). rewrite !app_length. lia.
  Qed.
End Loop.

(** * Printing *)
(** The parameters that are set *)
Fixpoint present (names : list str) (vals : list (option str)) : list field :=
  match names, vals with
  | n :: names, Some v :: vals => (n, v) :: present names vals
  | _ :: names, None :: vals => present names vals
  | _, _ => []
  end.

Lemma present_in : forall names vals n, In n (map fst (present names vals)) -> In n names.
Proof.
  induction names as [|m names IH]; intros [|[v|] vals] n I; try contradiction; cbn [present map fst] in I.
  - destruct I as [<-|I]; [left; reflexivity|right; eauto].
  - right. eauto.
Qed.
Lemma present_nodup : forall names vals, NoDup names -> NoDup (map fst (present names vals)).
Proof.
  induction names as [|m names IH]; intros [|[v|] vals] N; try constructor; inversion N; subst; cbn [present map fst]; auto.
  intros I. apply present_in in I. contradiction.
Qed.
Lemma present_get : forall names vals n o, NoDup names -> In (n, o) (combine names vals) -> field_get n (present names vals) = o.
Proof.
  induction names as [|m names IH]; intros [|w vals] n o N I; try contradiction. inversion N; subst. cbn [combine] in I.
  destruct I as [I|I].
  - injection I as -> ->. destruct o as [v|]; cbn [present field_get fst snd].
    + replace (streq n n) with true by (symmetry; apply streq_eq; reflexivity). reflexivity.
    + apply field_get_none. intros J. apply present_in in J. contradiction.
  - assert (n <> m) as NE by (intros ->; apply in_combine_l in I; contradiction).
    destruct w as [v|]; cbn [present field_get fst snd]; [|auto]. destruct (streq m n) eqn:S; [apply streq_eq in S; congruence|]. auto.
Qed.
Lemma present_forall : forall (P : field -> Prop) names vals, (forall n o, In (n, o) (combine names vals) -> opt (fun v => P (n, v)) o) -> Forall P (present names vals).
Proof.
  intros P. induction names as [|m names IH]; intros [|w vals] H; try constructor. destruct w as [v|]; cbn [present].
  - constructor; [apply (H m (Some v)); left; reflexivity|]. apply IH. intros n o I. apply H. right. exact I.
  - apply IH. intros n o I. apply H. right. exact I.
Qed.
Lemma present_nonempty : forall names vals n v, In (n, Some v) (combine names vals) -> present names vals <> [].
Proof.
  induction names as [|m names IH]; intros [|w vals] n v I; try contradiction. destruct I as [I|I]; [injection I as -> ->; discriminate|].
  destruct w; cbn [present]; [discriminate|eauto].
Qed.

(** Rows whose label is [pre] ++ name ++ "=" *)
Definition labels (pre : str) (names : list str) (rows : list auth_row) : Prop := map (fun r => fst (fst r)) rows = map (fun n => pre ++ n ++ $"=") names.

Lemma emit_text : forall o s, match emit o s with Ok o' => o_text o' = o_text o ++ s | Err _ => False | UB => True end.
Proof. intros o s. unfold emit. destruct (_ <? _); [exact I|reflexivity]. Qed.

Lemma www_emit_text : forall rows names o, labels ($", ") names rows ->
  match www_emit rows o with Ok o' => o_text o' = o_text o ++ render_tail (present names (map snd rows)) | Err _ => False | UB => True end.
Proof.
  induction rows as [|[[n k] w] rows IH]; intros names o L; destruct names as [|m names]; try discriminate L.
  - cbn. rewrite app_nil_r. reflexivity.
  - unfold labels in L. cbn [map fst] in L. injection L as L1 L2. cbn [www_emit map snd]. destruct w as [v|]; cbn [present render_tail]; [|apply IH; exact L2].
    pose proof (emit_text o n) as E1. destruct (emit o n) as [o1|e|]; cbn [res_bind]; [|contradiction|exact I].
    pose proof (emit_text o1 v) as E2. destruct (emit o1 v) as [o2|e|]; cbn [res_bind]; [|contradiction|exact I].
    specialize (IH names o2 L2). destruct (www_emit rows o2) as [o3|e|]; [|contradiction|exact I]. rewrite IH, E2, E1, L1. unfold field_text. cbn [fst snd]. change ($"=") with ["="%char]. cat.
Qed.

Lemma sep_emit_text : forall sep pre, sep ++ pre = $", " -> forall rows names o first, labels pre names rows ->
  match sep_emit sep rows first o with
  | Ok o' => o_text o' = o_text o ++ (if first then match present names (map snd rows) with [] => [] | f :: F => pre ++ render (f :: F) end
                                      else render_tail (present names (map snd rows)))
  | Err _ => False | UB => True end.
Proof.
  intros sep pre SP. induction rows as [|[[n k] w] rows IH]; intros names o first L; destruct names as [|m names]; try discriminate L.
  - destruct first; cbn; rewrite app_nil_r; reflexivity.
  - unfold labels in L. cbn [map fst] in L. injection L as L1 L2. cbn [sep_emit map snd]. destruct w as [v|]; cbn [present]; [|apply IH; exact L2].
    destruct first; cbn [res_bind].
    + pose proof (emit_text o n) as E1. destruct (emit o n) as [o1|e|]; cbn [res_bind]; [|contradiction|exact I].
      pose proof (emit_text o1 v) as E2. destruct (emit o1 v) as [o2|e|]; cbn [res_bind]; [|contradiction|exact I].
      specialize (IH names o2 false L2). destruct (sep_emit sep rows false o2) as [o3|e|]; [|contradiction|exact I]. rewrite IH, E2, E1, L1. cbn [render]. unfold field_text. cbn [fst snd]. change ($"=") with ["="%char]. cat.
    + pose proof (emit_text o sep) as E0. destruct (emit o sep) as [o0|e|]; cbn [res_bind]; [|contradiction|exact I].
      pose proof (emit_text o0 n) as E1. destruct (emit o0 n) as [o1|e|]; cbn [res_bind]; [|contradiction|exact I].
      pose proof (emit_text o1 v) as E2. destruct (emit o1 v) as [o2|e|]; cbn [res_bind]; [|contradiction|exact I].
      specialize (IH names o2 false L2). destruct (sep_emit sep rows false o2) as [o3|e|]; [|contradiction|exact I]. rewrite IH, E2, E1, E0, L1. cbn [render_tail]. rewrite <- SP. unfold field_text. cbn [fst snd]. change ($"=") with ["="%char]. cat.
Qed.

Lemma nodup_chk : forall l : list str, (fix nd l := match l with [] => true | x :: l => negb (existsb (streq x) l) && nd l end) l = true -> NoDup l.
Proof.
  induction l as [|x l IH]; intros H; constructor; apply andb_true_iff in H as [H1 H2]; auto.
  intros I. apply negb_true_iff in H1. assert (existsb (streq x) l = true) by (apply existsb_exists; exists x; split; [exact I|apply streq_eq; reflexivity]). congruence.
Qed.

Lemma quoted_cstr : forall v, auth_quoted v -> cstr v.
Proof. intros v (t & -> & Q & _). intros [I|I]; [discriminate I|]. apply in_app_iff in I as [I|[I|[]]]; [exact (qtext_cstr _ Q I)|discriminate I]. Qed.

Lemma render_cstr : forall specs R, names_ok specs = true -> Forall (field_ok specs) R -> cstr (render R).
Proof.
  intros specs R N FO.
  assert (F : forall f, field_ok specs f -> cstr (field_text f)).
  { intros [n v] (q & I & W & _). cbn [fst snd] in *. unfold field_text. cbn [fst snd]. destruct (spec_name specs N _ _ I) as (c & n' & _ & C).
    intros J. apply in_app_iff in J as [J|[J|J]]; [|discriminate J|].
    - revert J. apply name_char_notin; [exact C|reflexivity].
    - destruct q; [exact (quoted_cstr _ W J)|destruct W as (_ & W & _); exact (W J)]. }
  assert (T : forall R, Forall (field_ok specs) R -> cstr (render_tail R)).
  { induction 1 as [|f R0 H H0 IH]; cbn [render_tail]; [intros []|]. intros J. apply in_app_iff in J as [J|J]; [cbn in J; destruct J as [J|[J|[]]]; discriminate J|].
    apply in_app_iff in J as [J|J]; [exact (F _ H J)|exact (IH J)]. }
  destruct FO as [|f R H H0]; cbn [render]; [intros []|]. intros J. apply in_app_iff in J as [J|J]; [exact (F _ H J)|exact (T _ H0 J)].
Qed.

Lemma auth_parse_render : forall specs ty X R, names_ok specs = true -> NoDup (map snd specs) -> scheme_wf ty ->
  (forall d, In d X -> d = " "%char) -> R <> [] -> NoDup (map fst R) -> Forall (field_ok specs) R ->
  auth_parse specs (ty ++ (" "%char :: X) ++ render R) = Ok (ty, vals_of specs R).
Proof.
  intros specs ty X R N NDS (NT & CT & WT) HX NR ND FO. pose proof (slen_pos _ _ NT) as LT.
  assert (cstr (ty ++ (" "%char :: X) ++ render R)) as C.
  { intros J. apply in_app_iff in J as [J|J]; [exact (CT J)|]. apply in_app_iff in J as [[J|J]|J]; [discriminate J|apply HX in J; discriminate J|exact (render_cstr specs R N FO J)]. }
  unfold auth_parse. remember (ty ++ (" "%char :: X) ++ render R) as s eqn:Es.
  rewrite (strchr_at_some s [] ty " "%char (X ++ render R)); [|rewrite Es; cat|reflexivity|wo].
  change (slen (@nil ascii)) with 0. rewrite Z.add_0_l. cbn [res_bind]. replace (slen ty + 1 <? 2) with false by lia.
  rewrite (copy_at_app s [] ty (" "%char :: X ++ render R)); [|rewrite Es; cat|reflexivity|reflexivity|lia]. cbn [res_bind].
  rewrite Es at 1 2. rewrite (loop_render specs N NDS); [reflexivity|rewrite <- Es; exact C| |exact NR|exact ND|exact FO].
  intros d [<-|I]; [cbn; auto|]. apply HX in I. subst d. cbn. auto.
Qed.

Lemma quoted_field : forall specs n v, In (true, n) specs -> 2 <= slen n -> auth_quoted v -> field_ok specs (n, v).
Proof.
  intros specs n v I L Q. exists true. split; [exact I|]. split; [exact Q|]. unfold field_text. cbn [fst snd]. destruct Q as (t & -> & _ & NT).
  pose proof (slen_pos _ _ NT). sl.
Qed.
Lemma token_field : forall specs n v k, In (false, n) specs -> 1 <= k -> 5 <= slen n + k -> auth_token k v -> field_ok specs (n, v).
Proof.
  intros specs n v k I K L (T & C & W & M). exists false. split; [exact I|]. split; [split; [exact T|split; [exact C|split; [exact W|cbn [snd]; lia]]]|]. unfold field_text. cbn [fst snd]. sl.
Qed.

Ltac fields H :=
  apply present_forall; intros n o I; cbn [combine map snd] in I;
  repeat (destruct I as [I|I]; [injection I as <- <-; 
     match goal with |- opt _ ?o => destruct o; [cbn [opt] in *|exact Logic.I] end;
     first [apply quoted_field; [cbn; tauto|vm_compute; discriminate|assumption]
           |eapply token_field; [cbn; tauto| | |eassumption]; vm_compute; discriminate] | ]);
  contradiction.

(** What the printed text looks like: the auth-scheme, if any, then the parameters that are set *)
Definition shaped (ty : option str) (specs : list (bool * str)) (vals : list (option str)) (text : str) : Prop :=
  exists sp F, text = match ty with Some t => t ++ (" "%char :: sp) | None => [] end ++ render F /\ (sp = [] \/ sp = [" "%char]) /\ F <> [] /\
    Forall (field_ok specs) F /\ Forall (fun f => In (Some (snd f)) vals) F.
Lemma present_vals : forall names vals, Forall (fun f => In (Some (snd f)) vals) (present names vals).
Proof.
  induction names as [|n names IH]; intros vals; cbn [present]; [constructor|]. destruct vals as [|[v|] vals]; [constructor| |].
  - constructor; [left; reflexivity|]. eapply Forall_impl; [|apply IH]. intros f I. right. exact I.
  - eapply Forall_impl; [|apply IH]. intros f I. right. exact I.
Qed.

Lemma www_round : forall w, www_wf w -> exists text, www_to_str w = Ok text /\ www_parse text = Ok w /\ shaped (w_auth_type w) www_specs (map snd (www_rows w)) text.
Proof.
  intros w ((ty & Ty & SW) & H1 & H2 & H3 & H4 & H5 & H6 & H7 & H8 & H9 & H10 & SOME).
  pose proof (C40_www_authenticate w) as NU. revert NU. unfold www_to_str. rewrite Ty.
  set (names := map snd www_specs). 
  assert (NDN : NoDup names) by (apply nodup_chk; vm_compute; reflexivity).
  assert (NOK : names_ok www_specs = true) by (vm_compute; reflexivity).
  assert (FOK : Forall (field_ok www_specs) (present names (map snd (www_rows w)))) by (unfold names, www_specs, www_rows; fields SOME).
  assert (NE : present names (map snd (www_rows w)) <> []).
  { unfold names, www_specs, www_rows. cbn [map snd].
    destruct SOME as [S|[S|[S|[S|[S|[S|[S|[S|[S|S]]]]]]]]]; (match type of S with ?o <> None => destruct o eqn:EO; [|contradiction] end); eapply present_nonempty; cbn [combine In]; eauto 12. }
  assert (GET : www_of (Some ty) (vals_of www_specs (present names (map snd (www_rows w)))) = w).
  { unfold www_of, vals_of. unfold www_specs at 1 2 3 4 5 6 7 8 9 10. cbn [map nth snd].
    rewrite (present_get names (map snd (www_rows w)) ($"realm") (w_realm w)), (present_get names (map snd (www_rows w)) ($"domain") (w_domain w)),
      (present_get names (map snd (www_rows w)) ($"nonce") (w_nonce w)), (present_get names (map snd (www_rows w)) ($"opaque") (w_opaque w)),
      (present_get names (map snd (www_rows w)) ($"stale") (w_stale w)), (present_get names (map snd (www_rows w)) ($"algorithm") (w_algorithm w)),
      (present_get names (map snd (www_rows w)) ($"qop") (w_qop w)), (present_get names (map snd (www_rows w)) ($"version") (w_version w)),
      (present_get names (map snd (www_rows w)) ($"targetname") (w_targetname w)), (present_get names (map snd (www_rows w)) ($"gssapi-data") (w_gssapi w));
      try exact NDN; try (unfold names, www_specs, www_rows; cbn [map snd combine In]; tauto).
    rewrite <- Ty. destruct w; reflexivity. }
  unfold out_new. destruct (_ <? 1); [intros X; exfalso; apply X; reflexivity|]. cbn [res_bind].
  pose proof (emit_text (mkOut [] (slen ty + 1 + rows_len (www_rows w) + 2)) ty) as E0.
  destruct (emit _ ty) as [o0|e|]; cbn [res_bind]; [|contradiction|intros X; exfalso; apply X; reflexivity]. cbn [o_text app] in E0.
  pose (rest := tl (www_rows w)).
  assert (RW : www_rows w = ($" realm=", 7, w_realm w) :: rest) by reflexivity.
  assert (LB : labels ($", ") (tl names) rest) by reflexivity.
  assert (PR : present names (map snd (www_rows w)) = match w_realm w with Some v => ($"realm", v) :: present (tl names) (map snd rest) | None => present (tl names) (map snd rest) end) by reflexivity.
  rewrite RW. cbn [www_emit]. destruct (w_realm w) as [r|].
  - pose proof (emit_text o0 ($" realm=")) as E1. destruct (emit o0 ($" realm=")) as [o1|e|]; cbn [res_bind]; [|contradiction|intros X; exfalso; apply X; reflexivity].
    pose proof (emit_text o1 r) as E2. destruct (emit o1 r) as [o2|e|]; cbn [res_bind]; [|contradiction|intros X; exfalso; apply X; reflexivity].
    pose proof (www_emit_text rest (tl names) o2 LB) as E3. destruct (www_emit rest o2) as [o3|e|]; cbn [res_bind]; [|contradiction|intros X; exfalso; apply X; reflexivity].
    intros _. eexists. split; [reflexivity|].
    assert (o_text o3 = ty ++ [" "%char] ++ render (present names (map snd (www_rows w)))) as ->.
    { rewrite PR, E3, E2, E1, E0. cbn [render]. unfold field_text. cbn [fst snd]. change ($" realm=") with (" "%char :: $"realm" ++ ["="%char]). cat. }
    split; [|exists [], (present names (map snd (www_rows w))); split; [rewrite <- app_assoc; reflexivity|split; [left; reflexivity|split; [exact NE|split; [exact FOK|rewrite <- RW; apply present_vals]]]]].
    unfold www_parse. rewrite (auth_parse_render www_specs ty [] _ NOK NDN SW); [|intros d []|exact NE|apply present_nodup; exact NDN|exact FOK].
    cbn [res_bind]. rewrite GET. reflexivity.
  - pose proof (www_emit_text rest (tl names) o0 LB) as E3. destruct (www_emit rest o0) as [o3|e|]; cbn [res_bind]; [|contradiction|intros X; exfalso; apply X; reflexivity].
    pose proof (present_vals names (map snd (www_rows w))) as PV. rewrite PR in NE, GET, FOK, PV. destruct (present (tl names) (map snd rest)) as [|f F] eqn:PF; [contradiction|].
    rewrite E0 in E3. cbn [render_tail] in E3. change ($", ") with [","%char; " "%char] in E3. cbn [app] in E3.
    rewrite (ch_at (o_text o3) ty ","%char (" "%char :: field_text f ++ render_tail F)) by (auto). cbn [res_bind].
    intros _. eexists. split; [reflexivity|].
    assert (set_nth (length ty) " "%char (o_text o3) = ty ++ (" "%char :: [" "%char]) ++ render (f :: F)) as ->.
    { rewrite E3. unfold set_nth. rewrite skipn_len_app, firstn_len_app. cbn [render]. reflexivity. }
    split; [|exists [" "%char], (f :: F); split; [rewrite <- app_assoc; reflexivity|split; [right; reflexivity|split; [discriminate|split; [exact FOK|rewrite RW in PV; exact PV]]]]].
    unfold www_parse. rewrite (auth_parse_render www_specs ty [" "%char] _ NOK NDN SW); [|intros d [<-|[]]; reflexivity|exact NE|rewrite <- PF; apply present_nodup; vm_compute; repeat (constructor; [cbn; intuition discriminate|]); constructor|exact FOK].
    cbn [res_bind]. rewrite GET. reflexivity.
Qed.

Theorem C49_www_authenticate : forall w, www_wf w -> exists text, www_to_str w = Ok text /\ www_parse text = Ok w.
Proof. intros w W. destruct (www_round w W) as (t & A & B & _). eauto. Qed.

Lemma authz_round : forall a, authz_wf a -> exists text, authz_to_str a = Ok text /\ authz_parse text = Ok a /\ shaped (a_auth_type a) authz_specs (map snd (authz_rows a)) text.
Proof.
  intros a ((ty & Ty & SW) & H1 & H2 & H3 & H4 & H5 & H6 & H7 & H8 & H9 & H10 & H11 & H12 & H13 & H14 & H15 & H16 & SOME).
  pose proof (C40_authorization a) as NU. revert NU. unfold authz_to_str. rewrite Ty.
  set (names := map snd authz_specs).
  assert (NDN : NoDup names) by (apply nodup_chk; vm_compute; reflexivity).
  assert (NOK : names_ok authz_specs = true) by (vm_compute; reflexivity).
  assert (FOK : Forall (field_ok authz_specs) (present names (map snd (authz_rows a)))) by (unfold names, authz_specs, authz_rows; fields SOME).
  assert (NE : present names (map snd (authz_rows a)) <> []).
  { unfold names, authz_specs, authz_rows. cbn [map snd].
    repeat (destruct SOME as [S|SOME]; [(match type of S with ?o <> None => destruct o eqn:EO; [|contradiction] end); eapply present_nonempty; cbn [combine In]; eauto 20|]).
    (match type of SOME with ?o <> None => destruct o eqn:EO; [|contradiction] end); eapply present_nonempty; cbn [combine In]; eauto 20. }
  assert (GET : authz_of (Some ty) (vals_of authz_specs (present names (map snd (authz_rows a)))) = a).
  { remember (present names (map snd (authz_rows a))) as P eqn:EP.
    assert (PG : forall n o, In (n, o) (combine names (map snd (authz_rows a))) -> field_get n P = o) by (intros n o I; rewrite EP; apply present_get; auto).
    unfold authz_of, vals_of, authz_specs. cbn [map nth snd]. 
    rewrite (PG ($"username") (a_username a)), (PG ($"realm") (a_realm a)), (PG ($"nonce") (a_nonce a)), (PG ($"uri") (a_uri a)), (PG ($"response") (a_response a)),
      (PG ($"digest") (a_digest a)), (PG ($"algorithm") (a_algorithm a)), (PG ($"cnonce") (a_cnonce a)), (PG ($"opaque") (a_opaque a)), (PG ($"qop") (a_message_qop a)),
      (PG ($"nc") (a_nonce_count a)), (PG ($"version") (a_version a)), (PG ($"targetname") (a_targetname a)), (PG ($"gssapi-data") (a_gssapi a)), (PG ($"crand") (a_crand a)), (PG ($"cnum") (a_cnum a));
      try (unfold names, authz_specs, authz_rows; cbn [map snd combine In]; tauto).
    rewrite <- Ty. destruct a; reflexivity. }
  unfold out_new. destruct (_ <? 1); [intros X; exfalso; apply X; reflexivity|]. cbn [res_bind].
  pose proof (emit_text (mkOut [] (slen ty + 1 + rows_len (authz_rows a) + 2)) ty) as E0.
  destruct (emit _ ty) as [o0|e|]; cbn [res_bind]; [|contradiction|intros X; exfalso; apply X; reflexivity]. cbn [o_text app] in E0.
  pose proof (sep_emit_text ($",") ($" ") eq_refl (authz_rows a) names o0 true eq_refl) as E1.
  destruct (sep_emit ($",") (authz_rows a) true o0) as [o1|e|]; cbn [res_bind]; [|contradiction|intros X; exfalso; apply X; reflexivity].
  intros _. eexists. split; [reflexivity|].
  assert (o_text o1 = ty ++ [" "%char] ++ render (present names (map snd (authz_rows a)))) as ->.
  { rewrite E1, E0. destruct (present names (map snd (authz_rows a))); [contradiction|reflexivity]. }
  split; [|exists [], (present names (map snd (authz_rows a))); split; [rewrite <- app_assoc; reflexivity|split; [left; reflexivity|split; [exact NE|split; [exact FOK|apply present_vals]]]]].
  unfold authz_parse. rewrite (auth_parse_render authz_specs ty [] _ NOK NDN SW); [|intros d []|exact NE|apply present_nodup; exact NDN|exact FOK].
  cbn [res_bind]. rewrite GET. reflexivity.
Qed.

Theorem C49_authorization : forall a, authz_wf a -> exists text, authz_to_str a = Ok text /\ authz_parse text = Ok a.
Proof. intros w W. destruct (authz_round w W) as (t & A & B & _). eauto. Qed.

Lemma ainfo_round : forall a, ainfo_wf a -> (ai_nextnonce a = None \/ ai_opaque a = None) ->
  exists text, ainfo_to_str a = Ok text /\ ainfo_parse text = Ok a /\ shaped (ai_auth_type a) ainfo_specs (map snd (ainfo_rows a)) text.
Proof.
  intros a (H1 & H2 & H3 & H4 & H5 & H6 & H7 & H8 & H9 & H10 & H11 & H12 & SOME) NB.
  set (names := [$"qop"; $"nextnonce"; $"rspauth"; $"cnonce"; $"nc"; $"snum"; $"srand"; $"targetname"; $"realm"; $"opaque"]).
  assert (NDN : NoDup names) by (apply nodup_chk; vm_compute; reflexivity).
  assert (NDS : NoDup (map snd ainfo_specs)) by (apply nodup_chk; vm_compute; reflexivity).
  assert (NOK : names_ok ainfo_specs = true) by (vm_compute; reflexivity).
  assert (FOK : Forall (field_ok ainfo_specs) (present names (map snd (ainfo_rows a)))) by (unfold names, ainfo_rows; fields SOME).
  assert (exists n v, In (n, Some v) (combine names (map snd (ainfo_rows a)))) as (n0 & v0 & I0).
  { unfold names, ainfo_rows. cbn [map snd combine In].
    repeat (destruct SOME as [S|SOME]; [(match type of S with ?o <> None => destruct o eqn:EO; [|contradiction] end); do 2 eexists; eauto 14|]).
    (match type of SOME with ?o <> None => destruct o eqn:EO; [|contradiction] end); do 2 eexists; eauto 14. }
  assert (NE : present names (map snd (ainfo_rows a)) <> []) by (eapply present_nonempty; eauto).
  assert (NU : ainfo_to_str a <> UB).
  { apply C40_authentication_info_partial; [|exact NB]. apply in_combine_r in I0. apply in_map_iff in I0 as ([[n k] o] & E & I0). cbn [snd] in E. subst o. eauto. }
  assert (GET : ainfo_of (ai_auth_type a) (vals_of ainfo_specs (present names (map snd (ainfo_rows a)))) = a).
  { remember (present names (map snd (ainfo_rows a))) as P eqn:EP.
    assert (PG : forall n o, In (n, o) (combine names (map snd (ainfo_rows a))) -> field_get n P = o) by (intros n o I; rewrite EP; apply present_get; auto).
    unfold ainfo_of, vals_of, ainfo_specs. cbn [map nth snd].
    rewrite (PG ($"qop") (ai_qop a)), (PG ($"nextnonce") (ai_nextnonce a)), (PG ($"rspauth") (ai_rspauth a)), (PG ($"cnonce") (ai_cnonce a)), (PG ($"nc") (ai_nonce_count a)),
      (PG ($"snum") (ai_snum a)), (PG ($"srand") (ai_srand a)), (PG ($"targetname") (ai_targetname a)), (PG ($"realm") (ai_realm a)), (PG ($"opaque") (ai_opaque a));
      try (unfold names, ainfo_rows; cbn [map snd combine In]; tauto).
    destruct a; reflexivity. }
  revert NU. unfold ainfo_to_str. destruct (_ =? 0) eqn:EZ.
  { exfalso. assert (forallb (fun r => 1 <=? snd (fst r)) (ainfo_rows a) = true) as F1 by reflexivity. apply in_combine_r in I0. apply Z.eqb_eq in EZ.
    assert (0 <= opt_len (ai_auth_type a) (fun l => l + 1)) as OL by (destruct (ai_auth_type a); cbn [opt_len]; sl).
    assert (forall rows, forallb (fun r => 1 <=? snd (fst r)) rows = true -> 0 <= rows_len rows /\ (In (Some v0) (map snd rows) -> 0 < rows_len rows)) as RL.
    { clear. induction rows as [|[[n k] o] rows IH]; cbn [forallb rows_len fold_right map snd fst]; intros F; [split; [lia|intros []]|].
      apply andb_true_iff in F as [F1 F2]. destruct (IH F2) as [I1 I2]. unfold rows_len in *. destruct o as [v|]; [split; [|intros _]; sl|]. split; [lia|]. intros [X|X]; [discriminate|auto]. }
    destruct (RL _ F1) as [_ R]. specialize (R I0). lia. }
  unfold out_new. destruct (_ <? 1); [intros X; exfalso; apply X; reflexivity|]. cbn [res_bind].
  assert (CR : cstr (render (present names (map snd (ainfo_rows a))))) by (eapply render_cstr; eauto).
  remember (present names (map snd (ainfo_rows a))) as P eqn:EP.
  assert (exists n v R c n', P = (n, v) :: R /\ n = c :: n' /\ forallb name_char n = true) as (n & v & R & c & n' & EP' & En & CN).
  { destruct P as [|[n v] R]; [contradiction|]. inversion FOK as [|? ? (q & Iq & _) _]; subst. destruct (spec_name ainfo_specs NOK _ _ Iq) as (c & n' & E1 & E2). cbn [fst] in *. exists n, v, R, c, n'. auto. }
  destruct (ai_auth_type a) as [ty|] eqn:Ty.
  - pose proof (emit_text (mkOut [] (opt_len (Some ty) (fun l => l + 1) + rows_len (ainfo_rows a))) ty) as E0.
    destruct (emit _ ty) as [o0|e|]; cbn [res_bind]; [|contradiction|intros X; exfalso; apply X; reflexivity]. cbn [o_text app] in E0.
    pose proof (emit_text o0 ($" ")) as Es. destruct (emit o0 ($" ")) as [o2|e|]; cbn [res_bind]; [|contradiction|intros X; exfalso; apply X; reflexivity].
    pose proof (sep_emit_text ($", ") [] eq_refl (ainfo_rows a) names o2 true eq_refl) as E1.
    destruct (sep_emit ($", ") (ainfo_rows a) true o2) as [o1|e|]; cbn [res_bind]; [|contradiction|intros X; exfalso; apply X; reflexivity].
    intros _. eexists. split; [reflexivity|].
    assert (o_text o1 = ty ++ [" "%char] ++ render P) as ->.
    { rewrite E1, Es, E0, <- EP. destruct P; [contradiction|]. cbn [app]. rewrite <- app_assoc. reflexivity. }
    split; [|exists [], P; split; [rewrite <- app_assoc; reflexivity|split; [left; reflexivity|split; [exact NE|split; [exact FOK|rewrite EP; apply present_vals]]]]].
    cbn [opt] in H1, H2. destruct H1 as (NT & CT & WT). pose proof (slen_pos _ _ NT) as LT. unfold ainfo_parse.
    assert (cstr (ty ++ [" "%char] ++ render P)) as C.
    { intros J. apply in_app_iff in J as [J|[J|J]]; [exact (CT J)|discriminate J|exact (CR J)]. }
    remember (ty ++ [" "%char] ++ render P) as s eqn:Es'.
    rewrite (strchr_at_some s [] ty " "%char (render P)); [|rewrite Es'; cat|reflexivity|wo].
    change (slen (@nil ascii)) with 0. rewrite Z.add_0_l. cbn [res_bind].
    rewrite (strchr_at_some s [] (ty ++ " "%char :: n) "="%char (v ++ render_tail R)); [|rewrite Es', EP'; cbn [render]; unfold field_text; cbn [fst snd]; cat|reflexivity|].
    2:{ rewrite in_app_iff. cbn [In]. intros [I|[I|I]]; [revert I; wo|discriminate I|revert I; apply name_char_notin; [exact CN|reflexivity]]. }
    cbn [res_bind]. replace (_ >? slen ty) with true by (slens; change (slen (@nil ascii)) with 0; sl).
    rewrite (copy_at_app s [] ty (" "%char :: render P)); [|rewrite Es'; cat|reflexivity|reflexivity|lia]. cbn [res_bind].
    rewrite Es' at 1 2. rewrite (loop_render ainfo_specs NOK NDS); [cbn [res_bind]; rewrite GET; reflexivity|rewrite <- Es'; exact C|intros d [<-|[]]; cbn; auto|exact NE|rewrite EP; apply present_nodup; exact NDN|exact FOK].
  - cbn [res_bind]. pose proof (sep_emit_text ($", ") [] eq_refl (ainfo_rows a) names (mkOut [] (opt_len None (fun l => l + 1) + rows_len (ainfo_rows a))) true eq_refl) as E1.
    destruct (sep_emit ($", ") (ainfo_rows a) true _) as [o1|e|]; cbn [res_bind]; [|contradiction|intros X; exfalso; apply X; reflexivity].
    intros _. eexists. split; [reflexivity|].
    assert (o_text o1 = [] ++ [] ++ render P) as ->.
    { rewrite E1, <- EP. destruct P; [contradiction|]. reflexivity. }
    split; [|exists [], P; split; [reflexivity|split; [left; reflexivity|split; [exact NE|split; [exact FOK|rewrite EP; apply present_vals]]]]].
    unfold ainfo_parse. remember ([] ++ [] ++ render P) as s eqn:Es'.
    rewrite (strchr_at_some s [] n "="%char (v ++ render_tail R)); [|rewrite Es', EP'; cbn [render]; unfold field_text; cbn [fst snd]; cat|reflexivity|apply name_char_notin; [exact CN|reflexivity]].
    change (slen (@nil ascii)) with 0. rewrite Z.add_0_l.
    assert (exists sp, strchr_at s 0 " "%char = Ok sp /\ forall k, sp = Some k -> slen n <= k) as (sp & SPE & SPK).
    { destruct (strchr_at_cases s 0 " "%char) as [[-> _]|(k & -> & K & BK & _)]; [split; [lia|apply slen_nonneg]|eexists; split; [reflexivity|discriminate]|].
      eexists. split; [reflexivity|]. intros k' [= <-]. destruct (Z.lt_ge_cases k (slen n)) as [LK|LK]; [|exact LK]. exfalso.
      assert (s = n ++ "="%char :: v ++ render_tail R) as Esn by (rewrite Es', EP'; cbn [render]; unfold field_text; cbn [fst snd]; cat).
      unfold byte in BK. rewrite Esn, app_nth1 in BK by (unfold slen in LK; lia). apply (name_char_notin n " "%char CN eq_refl). rewrite <- BK. apply nth_In. unfold slen in LK. lia. }
    rewrite SPE. cbn [res_bind].
    replace (match sp with Some sp0 => if slen n >? sp0 then do ty <- copy_at s 0 sp0 (sp0 + 1); Ok (Some ty, sp0) else Ok (None, 0) | None => Ok (None, 0) end) with (@Ok (option str * Z) (None, 0)).
    2:{ destruct sp as [k|]; [|reflexivity]. specialize (SPK k eq_refl). replace (slen n >? k) with false by lia. reflexivity. }
    cbn [res_bind]. change 0 with (slen (@nil ascii)). rewrite Es' at 1 2. 
    rewrite (loop_render ainfo_specs NOK NDS [] []); [cbn [res_bind]; rewrite GET; reflexivity|exact CR|intros d []|exact NE|rewrite EP; apply present_nodup; exact NDN|exact FOK].
Qed.

(** Authentication-Info, when it can be printed at all (see C40_authentication_info_refuted) *)
Theorem C49_authentication_info : forall a, ainfo_wf a -> (ai_nextnonce a = None \/ ai_opaque a = None) ->
  exists text, ainfo_to_str a = Ok text /\ ainfo_parse text = Ok a.
Proof. intros a W N. destruct (ainfo_round a W N) as (t & A & B & _). eauto. Qed.

(** Findings: what the hypotheses exclude really is lost.  A quoted parameter with nothing between
    its quotes disappears, and so does a last parameter of fewer than six characters. *)
Theorem C49_empty_quoted_refuted : exists w text, www_to_str w = Ok text /\ w_opaque w = Some [dquote; dquote] /\ exists w', www_parse text = Ok w' /\ w_opaque w' = None.
Proof.
  exists (mkWww (Some ($"Digest")) (Some (dq ($"r"))) None (Some (dq ($"n"))) (Some [dquote; dquote]) None None None None None None). eexists.
  split; [vm_compute; reflexivity|]. split; [reflexivity|]. eexists. split; [vm_compute; reflexivity|]. reflexivity.
Qed.
Theorem C49_short_token_refuted : exists a text, authz_to_str a = Ok text /\ a_nonce_count a = Some ($"1") /\ exists a', authz_parse text = Ok a' /\ a_nonce_count a' = None.
Proof.
  exists (mkAuthz (Some ($"Digest")) (Some (dq ($"bob"))) (Some (dq ($"r"))) None None None None None None None None (Some ($"1")) None None None None None). eexists.
  split; [vm_compute; reflexivity|]. split; [reflexivity|]. eexists. split; [vm_compute; reflexivity|]. reflexivity.
Qed.

(** Cases that meet the hypotheses *)
Lemma chk_quoted : forall t, t <> [] -> forallb (fun c => negb (existsb (Ascii.eqb c) [dquote; bslash; NUL])) t = true -> auth_quoted (dq t).
Proof.
  intros t N H. exists t. split; [reflexivity|]. split; [|exact N]. clear N. induction t as [|c t IH]; [constructor|]. cbn [forallb] in H. apply andb_true_iff in H as [H1 H2].
  apply q_char; auto; intros ->; discriminate H1.
Qed.
Lemma chk_token : forall n v, trimmed v -> existsb (Ascii.eqb NUL) v = false -> forallb (fun c => negb (existsb (Ascii.eqb c) v)) ($",") = true -> n <= slen v -> auth_token n v.
Proof. intros n v T C W L. split; [exact T|]. split; [apply chk_cstr; exact C|]. split; [apply chk_without; exact W|exact L]. Qed.
Ltac wfc := repeat split; cbn [opt]; try exact I; first [apply chk_quoted; [discriminate|reflexivity] | apply chk_token; [reflexivity|reflexivity|reflexivity|vm_compute; discriminate] | apply chk_cstr; reflexivity | apply chk_without; reflexivity | discriminate | idtac].
Example C49_www_case : www_wf (mkWww (Some ($"Digest")) (Some (dq ($"example.org, x"))) None (Some (dq ($"abc="))) (Some (dq ($"o"))) (Some ($"FALSE")) (Some ($"MD5")) (Some (dq ($"auth,auth-int"))) None None None).
Proof. unfold www_wf. cbn [w_auth_type w_realm w_domain w_nonce w_opaque w_stale w_algorithm w_qop w_version w_targetname w_gssapi]. split; [eexists; split; [reflexivity|wfc]|]. wfc. left. discriminate. Qed.
Example C49_authz_case : authz_wf (mkAuthz (Some ($"Digest")) (Some (dq ($"bob"))) (Some (dq ($"r"))) (Some (dq ($"n"))) (Some (dq ($"sip:a@b"))) (Some (dq ($"0123"))) None (Some ($"MD5")) (Some (dq ($"c"))) None (Some ($"auth")) (Some ($"00000001")) None None None None None).
Proof. unfold authz_wf. cbn [a_auth_type a_username a_realm a_nonce a_uri a_response a_digest a_algorithm a_cnonce a_opaque a_message_qop a_nonce_count a_version a_targetname a_gssapi a_crand a_cnum]. split; [eexists; split; [reflexivity|wfc]|]. wfc. left. discriminate. Qed.
Example C49_ainfo_case : ainfo_wf (mkAI None (Some (dq ($"n1"))) (Some ($"auth")) (Some (dq ($"abc"))) (Some (dq ($"c"))) (Some ($"00000001")) None None None None None).
Proof. unfold ainfo_wf. cbn [ai_auth_type ai_nextnonce ai_qop ai_rspauth ai_cnonce ai_nonce_count ai_snum ai_srand ai_realm ai_targetname ai_opaque]. wfc. left. discriminate. Qed.

Print Assumptions C49_www_authenticate.
Print Assumptions C49_authorization.
Print Assumptions C49_authentication_info.
Print Assumptions C49_empty_quoted_refuted.
Print Assumptions C49_short_token_refuted.

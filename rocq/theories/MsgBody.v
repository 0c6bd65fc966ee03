(** The body of a message (C45): the received bytes after the empty line, Content-Length of them. *)
From Coq Require Import String ZArith NArith Ascii Bool List Lia ZifyBool ZifyNat.
From Verif Require Import Base Str StrLemmas Types MemModel MemLemmas CString CStringLemmas SafeLemmas PortModel PortProps UriModel HdrModel AuthModel MsgFields MsgModel MsgProps MsgSafe MsgFold.
Import ListNotations.
Open Scope Z_scope.

(** *** Decimal numbers, printed and read *)
Lemma dec_digits_spec : forall fuel n acc, (N.size_nat n < fuel)%nat ->
  exists d, dec_digits fuel n acc = d ++ acc /\ digit_string d /\ decimal d = Z.of_N n /\ (length d <= fuel)%nat.
Proof.
  assert (forall n, (0 < n)%N -> (N.size_nat (n / 10) < N.size_nat n)%nat) as SZ.
  { intros n H. assert (n / 10 <= N.div2 n)%N as X by (rewrite N.div2_div; apply N.div_le_compat_l; lia).
    assert (forall a b, (a <= b)%N -> (N.size_nat a <= N.size_nat b)%nat) as M.
    { intros a b L. destruct (N.eq_dec a 0) as [->|A0]; [cbn; lia|]. assert (forall k, k <> 0%N -> N.of_nat (N.size_nat k) = N.succ (N.log2 k)) as SL.
      { intros k K. rewrite <- N.size_log2 by exact K. destruct k as [|q]; [congruence|]. cbn. induction q; cbn; lia. }
      assert (b <> 0)%N by lia. pose proof (SL a A0). pose proof (SL b H0). pose proof (N.log2_le_mono a b L). lia. }
    specialize (M _ _ X). destruct n as [|q]; [lia|]. destruct q; cbn in *; lia. }
  induction fuel as [|fuel IH]; intros n acc L; [lia|]. cbn [dec_digits].
  assert (48 <= code (chr (48 + n mod 10)) <= 57)%N as CD.
  { pose proof (N.mod_lt n 10 ltac:(lia)). unfold code, chr. rewrite N_ascii_embedding by lia. lia. }
  assert (Z.of_N (code (chr (48 + n mod 10))) - 48 = Z.of_N (n mod 10)) as CV.
  { pose proof (N.mod_lt n 10 ltac:(lia)). unfold code, chr. rewrite N_ascii_embedding by lia. lia. }
  destruct (n <? 10)%N eqn:E.
  - exists [chr (48 + n mod 10)]. split; [reflexivity|]. split; [split; [discriminate|repeat constructor; lia]|].
    split; [|cbn; lia]. cbn [decimal fold_left]. unfold decimal. cbn [fold_left]. rewrite CV. rewrite N.mod_small by lia. lia.
  - destruct (IH (n / 10)%N (chr (48 + n mod 10) :: acc)) as (d & Ed & (D1 & D2) & D3 & D4); [specialize (SZ n ltac:(lia)); lia|].
    exists (d ++ [chr (48 + n mod 10)]). rewrite Ed. split; [rewrite <- app_assoc; reflexivity|].
    split; [split; [destruct d; discriminate|apply Forall_app; split; [exact D2|repeat constructor; lia]]|]. split; [|rewrite app_length; cbn; lia].
    unfold decimal. rewrite fold_left_app. cbn [fold_left]. fold (decimal d). rewrite D3, CV. pose proof (N.div_mod n 10 ltac:(lia)). lia.
Qed.
Lemma sprintf_i_spec : forall n, 0 <= n -> digit_string (sprintf_i n) /\ decimal (sprintf_i n) = n.
Proof.
  intros n H. unfold sprintf_i. replace (n <? 0) with false by lia. destruct (dec_digits_spec (S (N.size_nat (Z.to_N (Z.abs n)))) (Z.to_N (Z.abs n)) []) as (d & -> & D1 & D2 & _); [lia|].
  rewrite app_nil_r. split; [exact D1|lia].
Qed.
Lemma int32_range : forall z, -2147483648 <= int32 z <= 2147483647.
Proof. intros z. unfold int32. pose proof (Z.mod_pos_bound z 4294967296 ltac:(lia)). cbv zeta. destruct (z mod 4294967296 <? 2147483648) eqn:Q; lia. Qed.
Lemma clen_of_digits : forall m d, digit_string d -> m_content_length m = None -> set_content_length m (Some d) = Ok (with_content_length (Some (Some d)) m).
Proof.
  intros m d (D & _) N. unfold set_content_length, if_value, if_unset. rewrite N. destruct d as [|c d]; [congruence|].
  unfold clen_parse. replace (slen (c :: d) + 1 <? 2) with false by sl.
  rewrite (copy_at_app (c :: d) [] (c :: d) []); [reflexivity|rewrite app_nil_r; reflexivity|reflexivity|reflexivity|sl].
Qed.

(** *** The headers never touch the bodies *)
Lemma if_value_bodies : forall m hv f, (forall v m', f v = Ok m' -> m_bodies m' = m_bodies m) -> forall m', if_value m hv f = Ok m' -> m_bodies m' = m_bodies m.
Proof. intros m [[|c v]|] f H m' E; cbn in E; [inversion E; reflexivity|apply H in E; exact E|inversion E; reflexivity]. Qed.
Lemma set_known_bodies : forall m n hv m', set_known_header m n hv = Ok m' -> m_bodies m' = m_bodies m.
Proof.
  intros m n hv m' H. unfold set_known_header in H. destruct (is_known_header hdr_ref_table n) as [i|]; [|inversion H; reflexivity].
  unfold call_method in H. destruct (nth_error pconfig i) as [[[nm ig] f]|] eqn:E; [|discriminate].
  destruct (f m hv) as [m2|c|] eqn:F; [|destruct ig; inversion H; reflexivity|discriminate]. inversion H; subst m2. clear H.
  apply nth_error_In in E. cbn [In pconfig] in E.
  repeat (destruct E as [E|E]; [inversion E; subst; clear E; revert F|]); try contradiction.
  all: match goal with |- ?s _ _ = Ok _ -> _ => unfold s end.
  all: unfold if_unset; try match goal with |- match m_content_type _ with Some _ => _ | None => _ end = _ -> _ => destruct (m_content_type _); [discriminate|] end.
  all: try (apply if_value_bodies; intros ? ?).
  all: try match goal with |- match ?x with Some _ => Err _ | None => _ end = _ -> _ => destruct x; [discriminate|] end.
  all: try match goal with |- (do a <- ?p ; _) = _ -> _ => destruct p; cbn [res_bind]; intros X; inversion X; reflexivity end.
  destruct hv as [[|c v]|]; [intros X; inversion X; reflexivity|destruct (ctype_parse (c :: v)); cbn [res_bind]; intros X; inversion X; reflexivity|intros X; inversion X; reflexivity].
Qed.
Lemma set_pieces_bodies : forall l m n m', set_pieces m n l = Ok m' -> m_bodies m' = m_bodies m.
Proof.
  induction l as [|[|c p] l IH]; intros m n m' H; cbn [set_pieces] in H; [inversion H; reflexivity|apply (IH m n m' H)|].
  destruct (set_known_header m n (Some (trim (c :: p)))) as [m2| |] eqn:E; cbn [res_bind] in H; try discriminate.
  apply set_known_bodies in E. apply IH in H. congruence.
Qed.
Lemma set_multiple_bodies : forall m n hv m', set_multiple_header m n hv = Ok m' -> m_bodies m' = m_bodies m.
Proof.
  intros m n [v|] m' H; unfold set_multiple_header in H; [|apply set_known_bodies in H; exact H].
  destruct (_ || _); [apply set_known_bodies in H|apply set_pieces_bodies in H]; exact H.
Qed.
Lemma headers_loop_bodies : forall fuel s p b m m' k, headers_loop fuel s p b m = Ok (m', k) -> m_bodies m' = m_bodies m.
Proof.
  induction fuel as [|fuel IH]; intros s p b m m' k H; [discriminate|]. cbn [headers_loop] in H.
  destruct (ch s p) as [c| |]; cbn [res_bind] in H; try discriminate. destruct (is_ch c NUL); [inversion H; reflexivity|].
  destruct (next_crlf s p) as [[e| |]| |]; cbn [res_bind] in H; try discriminate;
  (destruct (is_eol c); [inversion H; reflexivity|]);
  (destruct (strchr_at s p ":") as [[co|]| |]; cbn [res_bind] in H; try discriminate); destruct (_ <? 2) in H; try discriminate.
  destruct (_ <=? _) in H; [discriminate|]. destruct (clrncpy_at s p _ _) as [hn| |]; cbn [res_bind] in H; try discriminate.
  destruct (ch s (e - 2)) as [d| |]; cbn [res_bind] in H; try discriminate.
  cbv zeta in H. remember (if (if is_eol d then e - 2 else e - 1) - co <? 2 then _ else _) as r eqn:Er in H. clear Er. destruct r as [hv| |]; cbn [res_bind] in H; try discriminate.
  destruct (set_multiple_header m hn hv) as [m2| |] eqn:E; try discriminate. apply set_multiple_bodies in E. apply IH in H. congruence.
Qed.
Lemma startline_bodies : forall s m m' k, startline_parse s m = Ok (m', k) -> m_bodies m' = m_bodies m.
Proof.
  intros s m m' k H. unfold startline_parse, parseresp, parsereq in H.
  repeat match type of H with
  | Ok _ = Ok _ => inversion H; reflexivity
  | Err _ = _ => discriminate
  | UB = _ => discriminate
  | (do x <- ?r ; _) = _ => destruct r; cbn [res_bind] in H
  | (if ?c then _ else _) = _ => destruct c
  | match ?x with _ => _ end = _ => destruct x
  end.
Qed.
Lemma head_bodies : forall msg m b t, parse_head msg = Ok (m, b, t) -> m_bodies m = [] .
Proof.
  intros msg m b t H. unfold parse_head in H.
  destruct (skip_eols _ _ _) as [p| |]; cbn [res_bind] in H; try discriminate. destruct (replace_all_lws _ _) as [b1| |]; cbn [res_bind] in H; try discriminate.
  destruct (cstr_from b1 p) as [s| |]; cbn [res_bind] in H; try discriminate. destruct (startline_parse s msg_init) as [[m1 h]| |] eqn:E1; cbn [res_bind] in H; try discriminate.
  unfold headers_parse in H. destruct (headers_loop _ s h h m1) as [[m2 k]| |] eqn:E2; cbn [res_bind] in H; try discriminate.
  apply startline_bodies in E1. apply headers_loop_bodies in E2. inversion H; subst. destruct (m_content_length m2) as [[v|]|]; cbn [with_content_length m_bodies]; rewrite E2, E1; reflexivity.
Qed.

(** *** One body *)
(** a Content-Type with type and subtype, other than multipart *)
Definition single (m : message) : Prop :=
  exists c ty, m_content_type m = Some c /\ ct_type c = Some ty /\ ct_subtype c <> None /\ map tolower ty <> $"multipart".

Lemma single_eq : forall m b p n, single m -> body_parse m b p n =
  (do c <- rd b p ;
   if is_ch c NUL then Err OSIP_SYNTAXERROR else
   do st <- (if is_ch c cr then do d <- rd b (p + 1) ; Ok (if is_ch d lf then p + 2 else p + 1)
             else if is_ch c lf then Ok (p + 1) else Err OSIP_SYNTAXERROR) ;
   let n := n - (st - p) in
   if n =? 0 then Err OSIP_SYNTAXERROR else
   do r <- match m_content_length m with
           | Some (Some v) => Ok (m, (osip_atoi v) mod 18446744073709551616)
           | Some None => UB
           | None => do m' <- set_content_length m (Some (sprintf_i (int32 n))) ; Ok (m', n)
           end ;
   let (m', len) := r : message * Z in
   if n <? len then Err OSIP_SYNTAXERROR
   else do l <- rd_range b st len ; Ok (set_body m' l)).
Proof.
  intros m b p n (c & ty & H1 & H2 & H3 & H4). unfold body_parse. rewrite H1. destruct c as [t s ps]. cbn [ct_type ct_subtype] in *. rewrite H2. destruct s as [s|]; [|congruence].
  replace (strcaseeq ty ($"multipart")) with false; [reflexivity|]. symmetry. apply not_true_is_false. intros E. apply strcaseeq_true in E. apply H4. rewrite E. reflexivity.
Qed.
(** The line break that ends the headers, then the rest; a lone CR is not followed by LF *)
Definition after_break (nl rest : str) : Prop := line_break nl /\ (nl = [cr] -> hd_error rest <> Some lf).
Lemma break_eq : forall pre nl rest, after_break nl rest ->
  exists c, rd (pre ++ nl ++ rest ++ [NUL]) (slen pre) = Ok c /\ is_ch c NUL = false /\
  (if is_ch c cr then do d <- rd (pre ++ nl ++ rest ++ [NUL]) (slen pre + 1) ; Ok (if is_ch d lf then slen pre + 2 else slen pre + 1)
   else if is_ch c lf then Ok (slen pre + 1) else Err OSIP_SYNTAXERROR) = Ok (slen pre + slen nl).
Proof.
  intros pre nl rest ([->|[->| ->]] & N); cbn [app].
  - exists cr. split; [apply rd_at; reflexivity|]. split; [reflexivity|]. change (is_ch cr cr) with true. cbv iota.
    rewrite (rd_next pre (slen pre) [cr] (lf :: rest ++ [NUL])) by reflexivity. cbn [res_bind]. reflexivity.
  - exists cr. split; [apply rd_at; reflexivity|]. split; [reflexivity|]. change (is_ch cr cr) with true. cbv iota.
    rewrite (rd_next pre (slen pre) [cr] (rest ++ [NUL])) by reflexivity. specialize (N eq_refl). destruct rest as [|d r]; cbn [app res_bind]; [reflexivity|].
    cbn [hd_error] in N. unfold is_ch. rewrite (proj2 (Ascii.eqb_neq d lf)) by congruence. reflexivity.
  - exists lf. split; [apply rd_at; reflexivity|]. split; [reflexivity|]. reflexivity.
Qed.

(** C45, reading: the body is the first Content-Length bytes after the line break, whatever they are *)
Theorem C45_body : forall m pre nl body rest v, single m -> after_break nl (body ++ rest) -> body ++ rest <> [] ->
  m_content_length m = Some (Some v) -> digit_string v -> decimal v = slen body -> slen body <= 2147483647 ->
  body_parse m (pre ++ nl ++ body ++ rest ++ [NUL]) (slen pre) (slen (nl ++ body ++ rest)) =
    Ok (with_bodies (m_bodies m ++ [mkBody body [] None]) m).
Proof.
  intros m pre nl body rest v SI AB NE CL DV DE SM. rewrite single_eq by exact SI. destruct (break_eq pre nl (body ++ rest) AB) as (c & R & N & ST).
  rewrite <- app_assoc in R, ST. rewrite R. cbn [res_bind]. rewrite N, ST. cbn [res_bind]. cbv zeta.
  assert (0 < slen (body ++ rest)) as P by (destruct (body ++ rest); [congruence|sl]).
  replace (slen (nl ++ body ++ rest) - (slen pre + slen nl - slen pre) =? 0) with false by (rewrite !slen_app in *; lia).
  rewrite CL. cbn [res_bind]. rewrite C50_partial by (auto; lia). rewrite DE. rewrite Z.mod_small by (pose proof (slen_nonneg _ body); lia).
  replace (slen (nl ++ body ++ rest) - (slen pre + slen nl - slen pre) <? slen body) with false by (rewrite !slen_app; pose proof (slen_nonneg _ rest); lia).
  replace (pre ++ nl ++ body ++ rest ++ [NUL]) with ((pre ++ nl) ++ body ++ (rest ++ [NUL])) by (rewrite <- !app_assoc; reflexivity).
  rewrite rd_range_at; [reflexivity| |reflexivity]. rewrite len_app. reflexivity.
Qed.
(** a Content-Length greater than what was received is refused *)
Theorem C45_too_long : forall m pre nl rest v, single m -> after_break nl rest ->
  m_content_length m = Some (Some v) -> digit_string v -> decimal v <= 2147483647 -> slen rest < decimal v ->
  body_parse m (pre ++ nl ++ rest ++ [NUL]) (slen pre) (slen (nl ++ rest)) = Err OSIP_SYNTAXERROR.
Proof.
  intros m pre nl rest v SI AB CL DV SM LT. rewrite single_eq by exact SI. destruct (break_eq pre nl rest AB) as (c & R & N & ST).
  rewrite R. cbn [res_bind]. rewrite N, ST. cbn [res_bind]. cbv zeta. destruct (_ =? 0); [reflexivity|].
  rewrite CL. cbn [res_bind]. rewrite C50_partial by auto. pose proof (slen_nonneg _ rest). rewrite Z.mod_small by lia.
  replace (slen (nl ++ rest) - (slen pre + slen nl - slen pre) <? decimal v) with true by (rewrite slen_app; lia). reflexivity.
Qed.
(** without Content-Length everything received is the body, and Content-Length is set to its size *)
Theorem C45_no_length : forall m pre nl body, single m -> after_break nl body -> body <> [] -> slen body <= 2147483647 ->
  m_content_length m = None -> exists v, digit_string v /\ decimal v = slen body /\
  body_parse m (pre ++ nl ++ body ++ [NUL]) (slen pre) (slen (nl ++ body)) =
    Ok (with_bodies (m_bodies m ++ [mkBody body [] None]) (with_content_length (Some (Some v)) m)).
Proof.
  intros m pre nl body SI AB NE SM CL. rewrite single_eq by exact SI. destruct (break_eq pre nl body AB) as (c & R & N & ST).
  rewrite R. cbn [res_bind]. rewrite N, ST. cbn [res_bind]. cbv zeta.
  assert (0 < slen body) as P by (destruct body; [congruence|sl]).
  replace (slen (nl ++ body) - (slen pre + slen nl - slen pre)) with (slen body) by (rewrite slen_app; lia).
  replace (slen body =? 0) with false by lia. rewrite CL. assert (int32 (slen body) = slen body) as ->.
  { unfold int32. rewrite Z.mod_small by lia. replace (slen body <? 2147483648) with true by lia. reflexivity. }
  destruct (sprintf_i_spec (slen body)) as [D1 D2]; [lia|]. rewrite clen_of_digits by auto. cbn [res_bind].
  rewrite Z.ltb_irrefl. replace (pre ++ nl ++ body ++ [NUL]) with ((pre ++ nl) ++ body ++ [NUL]) by (rewrite <- !app_assoc; reflexivity).
  rewrite rd_range_at; [| |reflexivity]; [|rewrite len_app; reflexivity]. cbn [res_bind]. exists (sprintf_i (slen body)). split; [exact D1|]. split; [exact D2|]. reflexivity.
Qed.

(** the part of the parser after the headers, on a message that is not multipart *)
Lemma tail_body : forall msg h b t m, slen msg <= 2147483647 -> slen b = slen msg + 1 -> byte b (slen msg) = NUL -> 0 <= t <= slen msg ->
  m_content_length h <> Some None -> m_bodies h = [] -> ~ multipart h -> parse_tail msg h b t = Ok m ->
  m_bodies m = [] \/
  exists pre nl body rest v, b = pre ++ nl ++ body ++ rest ++ [NUL] /\ slen pre = t /\ line_break nl /\
    m_bodies m = [mkBody body [] None] /\ m_content_length m = Some (Some v) /\ osip_atoi v = slen body.
Proof.
  intros msg h b t m SM B1 B2 T CLN HB NM H. unfold parse_tail in H.
  assert (forall x y, zero_length x = Ok y -> m_bodies y = m_bodies x /\ (m_content_length x <> None -> m_content_length y = m_content_length x)) as ZL.
  { intros x y E. unfold zero_length in E. destruct (m_content_length x) eqn:Q; [inversion E; subst; split; [reflexivity|intros _; exact Q]|]. split; [|congruence].
    rewrite clen_of_digits in E; [inversion E; reflexivity| |exact Q]. split; [discriminate|]. repeat constructor; cbn; lia. }
  destruct (rd b t) as [c0| |]; cbn [res_bind] in H; try discriminate.
  remember (if is_ch c0 cr then rd b (t + 1) else Ok NUL) as dd eqn:E. clear E. destruct dd as [d0| |]; cbn [res_bind] in H; try discriminate. cbv zeta in H.
  match type of H with (if ?x then _ else _) = _ => destruct x end; [|apply ZL in H; destruct H as [H _]; left; congruence].
  destruct (body_parse h b t (slen msg - t)) as [m2| |] eqn:BP; cbn [res_bind] in H; try discriminate. apply ZL in H. destruct H as [H1 H2].
  unfold body_parse in BP. destruct (m_content_type h) as [[[ty|] [su|] ps]|] eqn:CT; try (inversion BP; subst m2; left; congruence).
  assert (single h) as SI.
  { exists (mkCT (Some ty) (Some su) ps), ty. split; [exact CT|]. split; [reflexivity|]. split; [discriminate|]. intros Q. apply NM. exists (mkCT (Some ty) (Some su) ps), ty. auto. }
  assert (body_parse h b t (slen msg - t) = Ok m2) as BP2 by (unfold body_parse; rewrite CT; exact BP). clear BP. rewrite single_eq in BP2 by exact SI.
  destruct (rd b t) as [c| |] eqn:RC; cbn [res_bind] in BP2; try discriminate. destruct (is_ch c NUL) eqn:CN; [discriminate|].
  assert (t < slen msg) as TL.
  { destruct (Z.eq_dec t (slen msg)) as [->|]; [|lia]. rewrite rd_ok in RC by lia. inversion RC; subst c. rewrite B2 in CN. discriminate. }
  assert (exists nl pre after, line_break nl /\ b = pre ++ nl ++ after ++ [NUL] /\ slen pre = t /\
    (if is_ch c cr then do d <- rd b (t + 1) ; Ok (if is_ch d lf then t + 2 else t + 1) else if is_ch c lf then Ok (t + 1) else Err OSIP_SYNTAXERROR) = Ok (t + slen nl)
    \/ (if is_ch c cr then do d <- rd b (t + 1) ; Ok (if is_ch d lf then t + 2 else t + 1) else if is_ch c lf then Ok (t + 1) else Err OSIP_SYNTAXERROR) = Err OSIP_SYNTAXERROR) as (nl & pre & after & CASES).
  { assert (exists pre rest, b = pre ++ rest ++ [NUL] /\ slen pre = t /\ slen rest = slen msg - t) as (pre & rest & EB & EP & ER).
    { destruct (cut _ b (Z.to_nat t)) as (x & y & EB & EX); [unfold slen in *; lia|]. assert (slen x = t) as SX by (unfold slen in *; lia).
      assert (slen y = slen msg - t + 1) as SY by (subst b; rewrite slen_app in B1; lia).
      destruct (snoc_case _ y) as [->|(y' & z & ->)]; [rewrite slen_nil in SY; lia|]. exists x, y'. rewrite slen_app, slen_cons, slen_nil in SY. split; [|lia].
      subst b. f_equal. f_equal. f_equal. rewrite <- B2. symmetry. rewrite app_assoc. apply (byte_at _ (x ++ y') z []); [reflexivity|]. rewrite slen_app. lia. }
    destruct rest as [|r0 rest]; [rewrite slen_nil in ER; lia|]. cbn [app] in EB.
    assert (rd b t = Ok r0) as RR by (rewrite EB; apply rd_at; rewrite <- EP; reflexivity). rewrite RR in RC. inversion RC; subst r0. clear RC RR.
    destruct (is_ch c cr) eqn:C1.
    - apply Ascii.eqb_eq in C1. subst c.
      assert (rd b (t + 1) = match rest ++ [NUL] with [] => UB | x :: _ => Ok x end) as R1 by (rewrite EB; apply (rd_next pre t [cr] (rest ++ [NUL])); [symmetry; exact EP|reflexivity]).
      rewrite R1. destruct rest as [|r1 rest]; cbn [app res_bind].
      + exists [cr], pre, []. left. split; [right; left; reflexivity|]. split; [exact EB|]. split; [exact EP|]. reflexivity.
      + destruct (is_ch r1 lf) eqn:C2.
        * apply Ascii.eqb_eq in C2. subst r1. exists [cr; lf], pre, rest. left. split; [left; reflexivity|]. split; [exact EB|]. split; [exact EP|]. reflexivity.
        * exists [cr], pre, (r1 :: rest). left. split; [right; left; reflexivity|]. split; [exact EB|]. split; [exact EP|]. reflexivity.
    - destruct (is_ch c lf) eqn:C2; [|exists [], [], []; right; reflexivity]. apply Ascii.eqb_eq in C2. subst c.
      exists [lf], pre, rest. left. split; [right; right; reflexivity|]. split; [exact EB|]. split; [exact EP|]. reflexivity. }
  destruct CASES as [(LB & EB & EP & XE)|XE]; rewrite XE in BP2; clear XE; cbn [res_bind] in BP2; [|discriminate]. cbv zeta in BP2. right.
  assert (slen msg = slen pre + slen nl + slen after) as LM by (rewrite EB, !slen_app, slen_cons, slen_nil in B1; lia).
  replace (slen msg - t - (t + slen nl - t)) with (slen after) in BP2 by lia. destruct (slen after =? 0) eqn:A0; [discriminate|].
  pose proof (slen_nonneg _ pre) as P1. pose proof (slen_nonneg _ nl) as P2. pose proof (slen_nonneg _ after) as P4.
  destruct (m_content_length h) as [[v|]|] eqn:CL; [|congruence|].
  - cbn [res_bind] in BP2. destruct (slen after <? osip_atoi v mod 18446744073709551616) eqn:LT; [discriminate|].
    assert (0 <= osip_atoi v mod 18446744073709551616) as P3 by (apply Z.mod_pos_bound; lia).
    destruct (cut _ after (Z.to_nat (osip_atoi v mod 18446744073709551616))) as (body & rest & EA & EL); [unfold slen in *; lia|].
    assert (slen body = osip_atoi v mod 18446744073709551616) as SB by (unfold slen; lia).
    exists pre, nl, body, rest, v. assert (b = pre ++ nl ++ body ++ rest ++ [NUL]) as EB2 by (rewrite EB, EA, <- app_assoc; reflexivity).
    replace b with ((pre ++ nl) ++ body ++ rest ++ [NUL]) in BP2 by (rewrite EB2, <- app_assoc; reflexivity).
    rewrite rd_range_at in BP2; [|rewrite len_app; unfold len; fold (slen pre) (slen nl); lia|unfold len; fold (slen body); lia]. cbn [res_bind] in BP2. inversion BP2; subst m2.
    split; [exact EB2|]. split; [exact EP|]. split; [exact LB|]. unfold set_body in H1, H2. cbn [m_bodies with_bodies] in H1. cbn [m_content_length with_bodies] in H2. rewrite CL in H2.
    split; [rewrite H1, HB; reflexivity|]. split; [apply H2; discriminate|]. rewrite SB. assert (-2147483648 <= osip_atoi v <= 2147483647) as OA.
    { unfold osip_atoi. assert (-2147483648 <= int32 (strtol v) <= 2147483647) by (apply int32_range). cbv zeta. destruct (_ || _); [unfold OSIP_UNDEFINED_ERROR|]; lia. }
    subst after. rewrite slen_app in *. pose proof (slen_nonneg _ rest).
    destruct (Z_lt_le_dec (osip_atoi v) 0); [|rewrite Z.mod_small by lia; reflexivity]. exfalso.
    replace (osip_atoi v mod 18446744073709551616) with (osip_atoi v + 18446744073709551616) in * by (rewrite <- (Z_mod_plus_full (osip_atoi v) 1 18446744073709551616), Z.mod_small by lia; lia). lia.
  - assert (int32 (slen after) = slen after) as I.
    { unfold int32. rewrite Z.mod_small by lia. replace (slen after <? 2147483648) with true by lia. reflexivity. }
    rewrite I in BP2. destruct (sprintf_i_spec (slen after)) as [D1 D2]; [lia|]. rewrite clen_of_digits in BP2 by auto. cbn [res_bind] in BP2. rewrite Z.ltb_irrefl in BP2.
    exists pre, nl, after, [], (sprintf_i (slen after)).
    replace b with ((pre ++ nl) ++ after ++ [NUL]) in BP2 by (rewrite EB, <- app_assoc; reflexivity).
    rewrite rd_range_at in BP2; [|rewrite len_app; unfold len; fold (slen pre) (slen nl); lia|reflexivity]. cbn [res_bind] in BP2. inversion BP2; subst m2.
    split; [exact EB|]. split; [exact EP|]. split; [exact LB|]. unfold set_body in H1, H2. cbn [m_bodies with_bodies with_content_length] in H1. cbn [m_content_length with_bodies with_content_length] in H2.
    split; [rewrite H1, HB; reflexivity|]. split; [apply H2; discriminate|]. rewrite C50_partial by (auto; lia). exact D2.
Qed.
(** C45, whole message: a message that is not multipart has no body, or one: Content-Length bytes
    of the received buffer (unfolded), right after the line break [parse_head] stopped at. *)
Theorem C45_message : forall msg h b t m, slen msg <= 2147483647 -> is_wsp (last msg NUL) = false ->
  parse_head msg = Ok (h, b, t) -> ~ multipart h -> message_parse msg = Ok m ->
  m_bodies m = [] \/
  exists pre nl body rest v, b = pre ++ nl ++ body ++ rest ++ [NUL] /\ slen pre = t /\ line_break nl /\
    m_bodies m = [mkBody body [] None] /\ m_content_length m = Some (Some v) /\ osip_atoi v = slen body.
Proof.
  intros msg h b t m SM L PH NM H. pose proof (head_bodies msg h b t PH) as HB. destruct (parse_head_ok msg L) as [_ R]. destruct (R h b t PH) as (B1 & B2 & T & CLN). clear R.
  rewrite message_parse_eq, PH in H. cbn [res_bind] in H. apply (tail_body msg h b t m); assumption.
Qed.

Example C45_example :
  let m := with_content_length (Some (Some ($"5"))) (with_content_type (Some (mkCT (Some ($"text")) (Some ($"plain")) [])) msg_init) in
  single m /\ after_break [cr; lf] ($"he" ++ [cr; NUL] ++ $"lo more") /\ digit_string ($"5") /\ decimal ($"5") = 5 /\
  exists m', body_parse m ($"L: 5" ++ [cr; lf; cr; lf] ++ ($"he" ++ [cr; NUL] ++ $"lo more") ++ [NUL]) 6 (2 + 11) = Ok m' /\
    m_bodies m' = [mkBody ($"he" ++ [cr; NUL] ++ $"l") [] None].
Proof.
  cbv zeta. split; [exists (mkCT (Some ($"text")) (Some ($"plain")) []), ($"text"); repeat split; discriminate|].
  split; [split; [left; reflexivity|discriminate]|]. split; [split; [discriminate|repeat constructor; cbn; lia]|]. split; [reflexivity|].
  eexists. split; vm_compute; reflexivity.
Qed.
Print Assumptions C45_body.
Print Assumptions C45_too_long.
Print Assumptions C45_no_length.
Print Assumptions C45_message.

(** C32: URI escaping. *)
From Coq Require Import String ZArith NArith Ascii Bool List Lia ZifyBool ZifyNat.
From Verif Require Import Base Str StrLemmas MemModel MemLemmas Types PortModel CString CStringLemmas UriModel.
Import ListNotations.
Open Scope Z_scope.

(** * Specification: a byte is kept when it is a letter, a digit or in the allowed set, and is
    otherwise written as a percent sign and two upper case hexadecimal digits *)
Definition kept (def : str) (c : ascii) : Prop :=
  (48 <= code c <= 57)%N \/ (65 <= code c <= 90)%N \/ (97 <= code c <= 122)%N \/ In c def.
Inductive escaped (def : str) : str -> str -> Prop :=
| escaped_nil : escaped def [] []
| escaped_kept : forall c s t, kept def c -> escaped def s t -> escaped def (c :: s) (c :: t)
| escaped_hex : forall c h l s t, ~ kept def c ->
    nth_error (list_ascii_of_string "0123456789ABCDEF") (N.to_nat (code c / 16)) = Some h ->
    nth_error (list_ascii_of_string "0123456789ABCDEF") (N.to_nat (code c mod 16)) = Some l ->
    escaped def s t -> escaped def (c :: s) ("%"%char :: h :: l :: t).

Lemma allowed_kept : forall def c, allowed def c = true <-> kept def c.
Proof.
  intros def c. unfold allowed, kept, is_alnum, is_digit, is_alpha. rewrite !orb_true_iff, !andb_true_iff, !N.leb_le, existsb_exists.
  split.
  - intros [[H|[H|H]]|(x & Hx & E)]; try tauto. apply Ascii.eqb_eq in E. subst x. tauto.
  - intros [H|[H|[H|H]]]; try tauto. right. exists c. split; [exact H|apply Ascii.eqb_refl].
Qed.

Lemma code_lt : forall c, (code c < 256)%N.
Proof. intros [[] [] [] [] [] [] [] []]; vm_compute; reflexivity. Qed.
Lemma hi_lt : forall c, (code c / 16 < 16)%N.
Proof. intros c. apply N.div_lt_upper_bound; [discriminate|]. apply code_lt. Qed.
Lemma lo_lt : forall c, (code c mod 16 < 16)%N.
Proof. intros c. apply N.mod_lt. discriminate. Qed.

Lemma hex_digit_nth : forall n, (n < 16)%N ->
  nth_error (list_ascii_of_string "0123456789ABCDEF") (N.to_nat n) = Some (hex_digit n).
Proof.
  intros n H. assert (forallb (fun k => match nth_error (list_ascii_of_string "0123456789ABCDEF") k with
    | Some c => Ascii.eqb c (hex_digit (N.of_nat k)) | None => false end) (seq 0 16) = true) as F by reflexivity.
  rewrite forallb_forall in F. specialize (F (N.to_nat n)). rewrite N2Nat.id in F.
  destruct (nth_error _ (N.to_nat n)) as [c|]; [|discriminate F; apply in_seq; lia].
  f_equal. apply Ascii.eqb_eq, F, in_seq. lia.
Qed.
Lemma hexval_digit : forall n, (n < 16)%N -> hexval (hex_digit n) = Some n.
Proof.
  intros n H. assert (forallb (fun k => match hexval (hex_digit (N.of_nat k)) with Some m => N.eqb m (N.of_nat k) | None => false end) (seq 0 16) = true) as F by reflexivity.
  rewrite forallb_forall in F. specialize (F (N.to_nat n)). rewrite N2Nat.id in F.
  destruct (hexval (hex_digit n)) as [m|]; [|discriminate F; apply in_seq; lia].
  f_equal. apply N.eqb_eq, F, in_seq. lia.
Qed.
Lemma hex_digit_plain : forall n, (n < 16)%N ->
  isspace (hex_digit n) = false /\ Ascii.eqb (hex_digit n) "+"%char = false /\ Ascii.eqb (hex_digit n) "-"%char = false
  /\ hex_digit n <> NUL.
Proof.
  intros n H. assert (forallb (fun k => let c := hex_digit (N.of_nat k) in negb (isspace c) && negb (Ascii.eqb c "+"%char) && negb (Ascii.eqb c "-"%char) && negb (Ascii.eqb c NUL)) (seq 0 16) = true) as F by reflexivity.
  rewrite forallb_forall in F. specialize (F (N.to_nat n)). rewrite N2Nat.id in F.
  specialize (F ltac:(apply in_seq; lia)). cbv zeta in F. rewrite !andb_true_iff, !negb_true_iff in F. destruct F as [[[F1 F2] F3] F4].
  repeat split; auto. apply Ascii.eqb_neq. exact F4.
Qed.

(** The text printed for one byte *)
Definition enc (def : str) (c : ascii) : str := if allowed def c then [c] else percent c.
Definition esc (def s : str) : str := flat_map (enc def) s.

Lemma esc_escaped : forall def s, escaped def s (esc def s).
Proof.
  intros def s. induction s as [|c s IH]; [constructor|]. unfold esc. cbn [flat_map]. unfold enc at 1.
  destruct (allowed def c) eqn:A.
  - apply (escaped_kept def c s). + apply allowed_kept; exact A. + exact IH.
  - apply (escaped_hex def c).
    + rewrite <- allowed_kept, A. discriminate.
    + apply hex_digit_nth, hi_lt. + apply hex_digit_nth, lo_lt. + exact IH.
Qed.
Lemma escaped_det : forall def s t, escaped def s t -> t = esc def s.
Proof.
  intros def s t H. induction H as [|c s t K H IH|c h l s t K Hh Hl H IH]; [reflexivity| |]; unfold esc; cbn [flat_map]; unfold enc at 1.
  - rewrite (proj2 (allowed_kept def c) K). cbn [app]. f_equal. exact IH.
  - destruct (allowed def c) eqn:A; [exfalso; apply K, allowed_kept, A|]. unfold percent. cbn [app].
    rewrite hex_digit_nth in Hh by apply hi_lt. rewrite hex_digit_nth in Hl by apply lo_lt.
    injection Hh as <-. injection Hl as <-. do 3 f_equal. exact IH.
Qed.

Lemma escape_loop_ok : forall def s alloc newlen ns,
  2 <= alloc -> newlen <= alloc -> slen ns + slen s + 1 <= newlen ->
  escape_loop def s alloc newlen ns = Ok (ns ++ esc def s).
Proof.
  intros def s. induction s as [|c s IH]; intros alloc newlen ns A N L; cbn [escape_loop].
  - replace (slen ns <? alloc) with true by sl. unfold esc. cbn. rewrite app_nil_r. reflexivity.
  - unfold esc. cbn [flat_map]. unfold enc at 1. destruct (allowed def c) eqn:E.
    + replace (slen ns <? alloc) with true by sl. rewrite IH; [rewrite <- app_assoc; reflexivity|lia|lia|sl].
    + set (al := if newlen + 2 >? alloc then alloc * 2 else alloc).
      assert (newlen + 2 <= al /\ 2 <= al) as [H1 H2] by (unfold al; destruct (newlen + 2 >? alloc) eqn:G; lia).
      replace (slen ns + 3 <? al) with true by sl. rewrite IH; [rewrite <- app_assoc; reflexivity|lia|lia|unfold percent; sl].
Qed.
Lemma escape_ok : forall def s, uri_escape def s = Ok (esc def s).
Proof.
  intros def s. unfold uri_escape. destruct s as [|c s]; [reflexivity|].
  apply (escape_loop_ok def (c :: s)); sl.
Qed.

(** The writer stays in its buffer and writes exactly the escaped text. *)
Theorem C32_escape : forall def s, exists t, uri_escape def s = Ok t /\ escaped def s t.
Proof. intros def s. exists (esc def s). split; [apply escape_ok|apply esc_escaped]. Qed.

Lemma chr_code : forall c, chr (code c) = c.
Proof. intros c. apply ascii_N_embedding. Qed.

Lemma unescape_percent : forall c r, unescape (percent c ++ r) = c :: unescape r.
Proof.
  intros c r. unfold percent. cbn [app unescape]. rewrite Ascii.eqb_refl. unfold sscanf_hex. cbn [skip_space].
  destruct (hex_digit_plain _ (hi_lt c)) as (P1 & P2 & P3 & _). rewrite P1, P2, P3. cbn [orb].
  rewrite hexval_digit by apply hi_lt. rewrite hexval_digit by apply lo_lt.
  unfold is_hex. rewrite hexval_digit by apply lo_lt.
  f_equal. rewrite <- N.div_mod by discriminate. apply chr_code.
Qed.
Lemma unescape_esc : forall def s, ~ In "%"%char def -> unescape (esc def s) = s.
Proof.
  intros def s P. induction s as [|c s IH]; [reflexivity|]. unfold esc. cbn [flat_map]. unfold enc at 1.
  destruct (allowed def c) eqn:A.
  - cbn [app unescape]. destruct (Ascii.eqb_spec c "%"%char) as [->|_].
    + exfalso. unfold allowed in A. apply orb_true_iff in A. destruct A as [A|A]; [discriminate A|].
      apply existsb_exists in A. destruct A as (x & Hx & E). apply Ascii.eqb_eq in E. subst x. contradiction.
    + f_equal. exact IH.
  - rewrite unescape_percent. f_equal. exact IH.
Qed.
Lemma until_nul_id : forall s, cstr s -> until_nul s = s.
Proof.
  induction s as [|c s IH]; intros H; [reflexivity|]. cbn [until_nul]. apply cstr_cons in H. destruct H as [H1 H2].
  destruct (Ascii.eqb_spec c NUL) as [->|_]; [contradiction H1; reflexivity|]. f_equal. auto.
Qed.
Lemma uri_unescape_esc : forall def s, ~ In "%"%char def -> cstr s -> uri_unescape (esc def s) = s.
Proof. intros. unfold uri_unescape. rewrite unescape_esc by auto. apply until_nul_id. auto. Qed.

(** ** Unescaping in place *)
Lemma sscanf_some_len : forall r x, sscanf_hex r = Some x -> r <> [].
Proof. intros [|c r] x H; [discriminate|discriminate]. Qed.

Lemma unescape_len : forall n s, (length s <= n)%nat -> slen (unescape s) <= slen s.
Proof.
  induction n as [|n IH]; intros [|c s] L; cbn [unescape length] in *; [sl|lia|sl|].
  destruct (Ascii.eqb c "%"%char).
  - destruct s as [|a [|b r]]; [sl|sl|]. destruct (sscanf_hex (a :: b :: r)) as [x|]; [|sl].
    cbn [length] in L. assert (slen (unescape r) <= slen r) by (apply IH; lia).
    assert (slen (unescape (b :: r)) <= slen (b :: r)) by (apply IH; cbn [length]; lia).
    destruct (is_hex b); sl.
  - assert (slen (unescape s) <= slen s) by (apply IH; lia). sl.
Qed.

(** Loop invariant: [o] was written, [mid] is stale, [s] is still to be read. *)
Lemma unescape_loop_ok : forall n s, (length s <= n)%nat -> forall fuel o mid r, (length s < fuel)%nat -> cstr s ->
  exists mid', slen (unescape s) + slen mid' = slen mid + slen s /\
  unescape_loop fuel (o ++ mid ++ s ++ NUL :: r) (slen o + slen mid) (slen o) (slen s + 1)
  = Ok (o ++ unescape s ++ mid' ++ NUL :: r, slen o + slen (unescape s)).
Proof.
  assert (forall (o mid r : str) c s x, exists mid1, wr (o ++ mid ++ (c :: s) ++ NUL :: r) (slen o) x
     = Ok ((o ++ [x]) ++ mid1 ++ s ++ NUL :: r) /\ slen mid1 = slen mid) as W.
  { intros o mid r c s x. destruct mid as [|m mid].
    - exists []. split; [|reflexivity]. cbn [app]. rewrite wr_at by reflexivity. rewrite <- app_assoc. reflexivity.
    - exists (mid ++ [c]). split; [|sl]. cbn [app]. rewrite wr_at by reflexivity. f_equal. rewrite <- !app_assoc. reflexivity. }
  induction n as [|n IH]; intros s L fuel o mid r F C.
  - destruct s; [|cbn in L; lia]. exists mid. split; [cbn [unescape]; sl|]. destruct fuel; [lia|]. cbn [unescape_loop].
    replace (slen [] + 1 - 1 >? 0) with false by sl. cbn [unescape app]. rewrite slen_nil, Z.add_0_r. reflexivity.
  - destruct s as [|c s].
    { exists mid. split; [cbn [unescape]; sl|]. destruct fuel; [cbn in F; lia|]. cbn [unescape_loop].
      replace (slen [] + 1 - 1 >? 0) with false by sl. cbn [unescape app]. rewrite slen_nil, Z.add_0_r. reflexivity. }
    destruct fuel as [|fuel]; [cbn in F; lia|]. cbn [unescape_loop].
    replace (slen (c :: s) + 1 - 1 >? 0) with true by sl.
    apply cstr_cons in C. destruct C as [C1 C2]. cbn [length] in L, F.
    replace (o ++ mid ++ (c :: s) ++ NUL :: r) with ((o ++ mid) ++ c :: s ++ NUL :: r) by (rewrite <- !app_assoc; reflexivity).
    rewrite rd_at by (change @len with @slen; sl). cbn [res_bind unescape].
    replace ((o ++ mid) ++ c :: s ++ NUL :: r) with (o ++ mid ++ (c :: s) ++ NUL :: r) by (rewrite <- !app_assoc; reflexivity).
    destruct (Ascii.eqb_spec c "%"%char) as [->|NP].
    + destruct s as [|a [|b s]].
      * replace (slen ["%"%char] + 1 - 1 >? 2) with false by sl.
        exists (mid ++ ["%"%char]). split; [sl|]. rewrite slen_nil, Z.add_0_r. f_equal. f_equal. rewrite <- !app_assoc. reflexivity.
      * replace (slen ["%"%char; a] + 1 - 1 >? 2) with false by sl.
        exists (mid ++ ["%"%char; a]). split; [sl|]. rewrite slen_nil, Z.add_0_r. f_equal. f_equal. rewrite <- !app_assoc. reflexivity.
      * replace (slen ("%"%char :: a :: b :: s) + 1 - 1 >? 2) with true by sl.
        assert (skipn (Z.to_nat (slen o + slen mid + 1)) (o ++ mid ++ ("%"%char :: a :: b :: s) ++ NUL :: r) = (a :: b :: s) ++ NUL :: r) as ->.
        { replace (Z.to_nat (slen o + slen mid + 1)) with (length ((o ++ mid) ++ ["%"%char])) by (rewrite !app_length; unfold slen; cbn [length]; lia).
          replace (o ++ mid ++ ("%"%char :: a :: b :: s) ++ NUL :: r) with (((o ++ mid) ++ ["%"%char]) ++ (a :: b :: s) ++ NUL :: r) by (rewrite <- !app_assoc; reflexivity).
          apply skipn_len_app. }
        rewrite c_string_at by exact C2. cbn [res_bind].
        destruct (sscanf_hex (a :: b :: s)) as [x|].
        -- replace (o ++ mid ++ ("%"%char :: a :: b :: s) ++ NUL :: r) with ((o ++ mid ++ ["%"%char; a]) ++ b :: s ++ NUL :: r) by (rewrite <- !app_assoc; reflexivity).
           rewrite rd_at by (change @len with @slen; sl). cbn [res_bind].
           replace ((o ++ mid ++ ["%"%char; a]) ++ b :: s ++ NUL :: r) with (o ++ (mid ++ ["%"%char; a]) ++ (b :: s) ++ NUL :: r) by (rewrite <- !app_assoc; reflexivity).
           cbn [length] in L, F. apply cstr_cons in C2. destruct C2 as [C2 C3]. apply cstr_cons in C3. destruct C3 as [C3 C4].
           destruct (is_hex b) eqn:Hb.
           ++ destruct (W o (mid ++ ["%"%char; a]) r b s x) as (m1 & -> & Lm). cbn [res_bind].
              destruct (IH s ltac:(lia) fuel (o ++ [x]) m1 r ltac:(lia) C4) as (m2 & L2 & E2).
              exists m2. split.
              { sl. }
              replace (slen o + slen mid + 3) with (slen (o ++ [x]) + slen m1) by sl.
              replace (slen o + 1) with (slen (o ++ [x])) by sl.
              replace (slen ("%"%char :: a :: b :: s) + 1 - 1 - 2) with (slen s + 1) by sl. rewrite E2. f_equal. f_equal; [rewrite <- !app_assoc; reflexivity|sl].
           ++ destruct mid as [|m0 mid].
              { (* the write at the index of the percent sign *)
                cbn [app]. change (o ++ "%"%char :: a :: b :: s ++ NUL :: r) with (o ++ [] ++ ("%"%char :: a :: b :: s) ++ NUL :: r).
                destruct (W o [] r "%"%char (a :: b :: s) x) as (m1 & E1 & Lm). rewrite E1. clear E1. cbn [res_bind].
                destruct m1; [|exfalso; sl]. cbn [app].
                destruct (IH (b :: s) ltac:(cbn [length]; lia) fuel (o ++ [x]) [a] r ltac:(cbn [length]; lia)) as (m2 & L2 & E2); [apply cstr_cons; auto|].
                exists m2. split; [sl|].
                replace (slen o + slen [] + 2) with (slen (o ++ [x]) + slen [a]) by sl.
                replace (slen o + 1) with (slen (o ++ [x])) by sl.
                replace (slen ("%"%char :: a :: b :: s) + 1 - 1 - 1) with (slen (b :: s) + 1) by sl.
                change ((o ++ [x]) ++ a :: b :: s ++ NUL :: r) with ((o ++ [x]) ++ [a] ++ (b :: s) ++ NUL :: r). rewrite E2.
                f_equal. f_equal; [rewrite <- !app_assoc; reflexivity|sl]. }
              { cbn [app]. rewrite wr_at by reflexivity. cbn [res_bind].
                destruct (IH (b :: s) ltac:(cbn [length]; lia) fuel (o ++ [x]) (mid ++ ["%"%char; a]) r ltac:(cbn [length]; lia)) as (m2 & L2 & E2); [apply cstr_cons; auto|].
                exists m2. split; [sl|].
                replace (slen o + slen (m0 :: mid) + 2) with (slen (o ++ [x]) + slen (mid ++ ["%"%char; a])) by sl.
                replace (slen o + 1) with (slen (o ++ [x])) by sl.
                replace (slen ("%"%char :: a :: b :: s) + 1 - 1 - 1) with (slen (b :: s) + 1) by sl.
                replace (o ++ x :: (mid ++ ["%"%char; a]) ++ b :: s ++ NUL :: r) with ((o ++ [x]) ++ (mid ++ ["%"%char; a]) ++ (b :: s) ++ NUL :: r) by (rewrite <- !app_assoc; reflexivity).
                rewrite E2. f_equal. f_equal; [rewrite <- !app_assoc; reflexivity|sl]. }
        -- exists (mid ++ "%"%char :: a :: b :: s). split; [sl|]. rewrite slen_nil, Z.add_0_r. f_equal. f_equal. rewrite <- !app_assoc. reflexivity.
    + destruct (W o mid r c s c) as (m1 & -> & Lm). cbn [res_bind].
      destruct (IH s ltac:(lia) fuel (o ++ [c]) m1 r ltac:(lia) C2) as (m2 & L2 & E2).
      exists m2. split; [sl|].
      replace (slen o + slen mid + 1) with (slen (o ++ [c]) + slen m1) by sl.
      replace (slen o + 1) with (slen (o ++ [c])) by sl.
      replace (slen (c :: s) + 1 - 1) with (slen s + 1) by sl. rewrite E2. f_equal. f_equal; [rewrite <- !app_assoc; reflexivity|sl].
Qed.

(** Unescaping never leaves the string it works on, whatever follows the percent signs. *)
Theorem C32_unescape_in_place : forall s r, cstr s ->
  exists b, unescape_buf (s ++ NUL :: r) = Ok b /\ length b = length (s ++ NUL :: r) /\
            c_string b = Ok (uri_unescape s) /\ skipn (S (length s)) b = r.
Proof.
  intros s r C. unfold unescape_buf. rewrite strlen_at by exact C. cbn [res_bind].
  destruct (unescape_loop_ok (length s) s (le_n _) (S (length (s ++ NUL :: r))) [] [] r) as (m & L & E); [rewrite app_length; lia|exact C|].
  cbn [app] in E. rewrite !slen_nil in E. rewrite !Z.add_0_l in E. change (len s) with (slen s). rewrite E. cbn [res_bind fst snd].
  assert (forall u, c_string (u ++ NUL :: r) = Ok (until_nul u)) as CU.
  { induction u as [|c u IH]; [reflexivity|]. cbn [app c_string until_nul]. destruct (Ascii.eqb c NUL); [reflexivity|]. rewrite IH. reflexivity. }
  assert (forall u t, c_string (u ++ NUL :: t) = Ok (until_nul u)) as CU'.
  { induction u as [|c u IH]; intros t; [reflexivity|]. cbn [app c_string until_nul]. destruct (Ascii.eqb c NUL); [reflexivity|]. rewrite IH. reflexivity. }
  assert (length (unescape s) + length m = length s)%nat as L' by (unfold slen, str in *; cbn [length] in *; lia). clear L. rename L' into L.
  destruct m as [|x m].
  - exists (unescape s ++ NUL :: r). cbn [app]. rewrite wr_at by reflexivity. split; [reflexivity|].
    cbn [length] in L. rewrite Nat.add_0_r in L. split; [rewrite !app_length; lia|]. split; [apply CU|].
    rewrite <- L. apply skipn_Slen_app.
  - exists (unescape s ++ NUL :: m ++ NUL :: r). cbn [app]. rewrite wr_at by reflexivity. split; [reflexivity|].
    cbn [length] in L.
    split; [repeat (rewrite app_length; cbn [length]); lia|]. split; [apply CU'|].
    replace (unescape s ++ NUL :: m ++ NUL :: r) with ((unescape s ++ NUL :: m) ++ NUL :: r) by (rewrite <- app_assoc; reflexivity).
    replace (S (length s)) with (S (length (unescape s ++ NUL :: m))) by (rewrite app_length; cbn [length]; lia). apply skipn_Slen_app.
Qed.

(** Round trip: the text escaped with any of the library's four sets, unescaped in place, is
    the original. *)
Theorem C32_round_trip : forall def s t r,
  In def [userinfo_def; password_def; uri_param_def; header_param_def] -> cstr s ->
  uri_escape def s = Ok t ->
  exists b, unescape_buf (t ++ NUL :: r) = Ok b /\ c_string b = Ok s.
Proof.
  intros def s t r D C E. rewrite escape_ok in E. injection E as <-.
  assert (~ In "%"%char def) as P.
  { assert (forallb (fun d => negb (existsb (Ascii.eqb "%"%char) d)) [userinfo_def; password_def; uri_param_def; header_param_def] = true) as F by reflexivity.
    rewrite forallb_forall in F. specialize (F def D). apply negb_true_iff in F. intros X.
    assert (existsb (Ascii.eqb "%"%char) def = true) by (apply existsb_exists; exists "%"%char; split; [exact X|apply Ascii.eqb_refl]). congruence. }
  assert (cstr (esc def s)) as CE.
  { clear -C. induction s as [|c s IH]; [intros []|]. apply cstr_cons in C. destruct C as [C1 C2].
    unfold esc. cbn [flat_map]. apply cstr_app. split; [|apply IH; exact C2]. unfold enc. destruct (allowed def c).
    - intros [X|[]]. auto.
    - unfold percent. destruct (hex_digit_plain _ (hi_lt c)) as (_ & _ & _ & P1). destruct (hex_digit_plain _ (lo_lt c)) as (_ & _ & _ & P2).
      intros [X|[X|[X|[]]]]; [discriminate X|auto|auto]. }
  destruct (C32_unescape_in_place (esc def s) r CE) as (b & E1 & _ & E2 & _). exists b. split; [exact E1|].
  rewrite E2. f_equal. apply uri_unescape_esc; auto.
Qed.

Example C32_witness :
  uri_escape userinfo_def ($"a b%:@c;d") = Ok ($"a%20b%25%3A%40c;d")
  /\ (do b <- unescape_buf ($"a%20b%25%3A%40c;d" ++ NUL :: $"xyz") ; c_string b) = Ok ($"a b%:@c;d").
Proof. split; reflexivity. Qed.

Print Assumptions C32_escape.
Print Assumptions C32_unescape_in_place.
Print Assumptions C32_round_trip.

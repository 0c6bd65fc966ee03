(** The authentication headers never leave their input when parsed (C56), and how many bytes their
    printers write (C40). *)
From Coq Require Import String ZArith NArith Ascii Bool List Lia ZifyBool ZifyNat.
From Verif Require Import Base Str StrLemmas MemModel MemLemmas Types PortModel PortBuf PortProps QuoteProps CString CStringLemmas SafeLemmas
  UriModel UriSafe HdrModel HdrSafe AuthModel.
Import ListNotations.
Open Scope Z_scope.

(** * Parsing *)
Lemma next_element_safe : forall s t, cstr s -> 0 <= t <= slen s ->
  exists r, next_element s t = Ok r /\ forall n, r = Some n -> t <= n < slen s.
Proof.
  intros s t C H. unfold next_element, skip_blanks, skip_eol.
  destruct (scan_end_ok s t (fun c => negb (is_ch c " "%char || is_ch c tab)) H) as (a & -> & A). cbn [res_bind].
  destruct (scan_end_ok s a (fun c => negb (is_ch c lf || is_ch c cr))) as (b & -> & B); [lia|]. cbn [res_bind].
  rewrite ch_ok by lia. cbn [res_bind]. unfold is_ch at 1. destruct (Ascii.eqb_spec (byte s b) NUL) as [E|E]; [eexists; split; [reflexivity|discriminate]|].
  destruct (negb _ && negb _).
  - eexists. split; [reflexivity|]. intros n [= <-]. assert (b < slen s) by (apply byte_nul; auto; lia). lia.
  - destruct (scan_end_ok s b (fun c => negb (is_ch c " "%char || is_ch c tab))) as (d & -> & D); [lia|]. cbn [res_bind].
    rewrite ch_ok by lia. cbn [res_bind]. unfold is_ch. destruct (Ascii.eqb_spec (byte s d) NUL) as [E'|E']; [eexists; split; [reflexivity|discriminate]|].
    eexists. split; [reflexivity|]. intros n [= <-]. assert (d < slen s) by (apply byte_nul; auto; lia). lia.
Qed.

Lemma back_spaces_safe : forall fuel s q h, 0 <= q < h -> h <= slen s -> byte s q <> " "%char -> h - q <= Z.of_nat fuel ->
  exists r, back_spaces fuel s h = Ok r /\ q < r <= h.
Proof.
  induction fuel as [|fuel IH]; intros s q h H L B F; [lia|]. cbn [back_spaces]. rewrite ch_ok by lia. cbn [res_bind].
  unfold is_ch. destruct (Ascii.eqb_spec (byte s (h - 1)) " "%char) as [E|E].
  - assert (h - 1 <> q) by congruence. destruct (IH s q (h - 1)) as (r & R & RR); auto; try lia. exists r. split; [exact R|lia].
  - exists h. split; [reflexivity|lia].
Qed.

(** The names of the parameters do not start with '=' *)
Definition name_ok (name : str) : bool := match name with [] => false | c :: _ => negb (Ascii.eqb (tolower c) "="%char) end.

Lemma head_match : forall name t, name_ok name = true -> strncaseeq (length name) name t = true ->
  exists c t', t = c :: t' /\ c <> "="%char.
Proof.
  intros [|c name] t N M; [discriminate|]. unfold strncaseeq in M. cbn [length map strneq] in M.
  destruct t as [|d t]; cbn [map] in M; [discriminate|]. exists d, t. split; [reflexivity|]. intros ->.
  cbn [name_ok] in N. destruct (Ascii.eqb (tolower c) (tolower "="%char)) eqn:E; [|discriminate M].
  change (tolower "="%char) with "="%char in E. rewrite E in N. discriminate.
Qed.

Lemma skip_sep_ok : forall s p, 0 <= p <= slen s -> exists r, skip_sep s p = Ok r /\ p <= r <= slen s.
Proof. intros. apply scan_end_ok. exact H. Qed.

Lemma scan_fwd_stop : forall fuel s p hi stop r, scan_fwd fuel s p hi stop = Ok r -> 0 <= p <= hi -> hi <= slen s -> r = hi \/ stop (byte s r) = true.
Proof.
  induction fuel as [|fuel IH]; intros s p hi stop r E H L; [discriminate|]. cbn [scan_fwd] in E.
  destruct (Z.ltb_spec p hi) as [G|G]; [|injection E as <-; left; lia].
  rewrite ch_ok in E by lia. cbn [res_bind] in E. destruct (stop (byte s p)) eqn:S; [injection E as <-; auto|].
  apply (IH s (p + 1) hi stop r E); lia.
Qed.

Lemma quoted_string_set_safe : forall name s p cur, name_ok name = true -> cstr s -> 0 <= p <= slen s ->
  quoted_string_set name s p cur <> UB /\
  forall v n, quoted_string_set name s p cur = Ok (v, Some n) -> p <= n <= slen s.
Proof.
  intros name s p cur NO C H. unfold quoted_string_set. destruct cur as [v0|]; [split; [discriminate|intros v n [= <- <-]; lia]|].
  destruct (skip_sep_ok s p H) as (q & E & Q). rewrite E. cbn [res_bind].
  destruct (tail_at_ok s q) as (t & Et & Lt & Bt); [lia|]. rewrite Et. cbn [res_bind].
  destruct (strncaseeq _ _ _) eqn:M; [|split; [discriminate|intros v n [= <- <-]; lia]].
  destruct (head_match _ _ NO M) as (c & t' & Hc & NE).
  assert (q < slen s) as Q' by (subst t; rewrite slen_cons in Lt; pose proof (slen_nonneg _ t'); lia).
  assert (byte s q <> "="%char) as Bq by (rewrite <- (Z.add_0_r q), <- Bt by lia; subst t; exact NE).
  destruct (strchr_at_cases s q "="%char) as [[-> _]|(h & -> & Hh & Bh & _)]; [lia|cbn [res_bind]; split; [discriminate|intros v n; discriminate]|]. cbn [res_bind].
  assert (q < h) as L by (assert (h <> q) by congruence; lia).
  assert (byte s q <> " "%char) as Bs.
  { unfold skip_sep in E. apply scan_fwd_stop in E; [|lia|lia]. destruct E as [E|E]; [lia|]. intros X. rewrite X in E. discriminate. }
  destruct (back_spaces_safe (S (length s)) s q h) as (h' & -> & Hh'); [lia|lia|exact Bs|unfold slen in *; lia|]. cbn [res_bind].
  destruct (negb _); [split; [discriminate|intros v n [= <- <-]; lia]|].
  destruct (quote_at_cases s q C) as [->|(q1 & -> & Q1)]; [lia|cbn [res_bind]; split; [discriminate|intros v n; discriminate]|]. cbn [res_bind].
  destruct (quote_at_cases s (q1 + 1) C) as [->|(q2 & -> & Q2)]; [lia|cbn [res_bind]; split; [discriminate|intros v n; discriminate]|]. cbn [res_bind].
  destruct (next_element_safe s (q2 + 1) C) as (r & -> & R); [lia|].
  destruct (q2 - q1 =? 1); [cbn [res_bind]; split; [discriminate|intros v n [= _ ->]; specialize (R n eq_refl); lia]|].
  destruct (copy_at_ok s q1 (q2 - q1 + 1) (q2 - q1 + 3)) as (v & ->); [lia|lia|lia|]. cbn [res_bind].
  split; [discriminate|intros v' n [= _ ->]; specialize (R n eq_refl); lia].
Qed.

Lemma token_set_safe : forall name s p cur, name_ok name = true -> cstr s -> 0 <= p <= slen s ->
  token_set name s p cur <> UB /\ forall v n, token_set name s p cur = Ok (v, Some n) -> p <= n <= slen s.
Proof.
  intros name s p cur NO C H. unfold token_set. destruct cur as [v0|]; [split; [discriminate|intros v n [= <- <-]; lia]|].
  destruct (strchr_at_cases s p "="%char H) as [[-> _]|(b & -> & B & Bb & BM)]; [cbn [res_bind]; split; [discriminate|intros v n; discriminate]|]. cbn [res_bind].
  destruct (slen s - p <? 6); [split; [discriminate|intros v n; discriminate]|].
  destruct (skip_sep_ok s p H) as (q & E & Q). rewrite E. cbn [res_bind].
  destruct (tail_at_ok s q) as (t & Et & Lt & Bt); [lia|]. rewrite Et. cbn [res_bind].
  destruct (strncaseeq _ _ _) eqn:M; [|split; [discriminate|intros v n [= <- <-]; lia]].
  assert (exists e, strchr_at s q ","%char = Ok e /\ forall k, e = Some k -> q <= k < slen s) as (e & Ee & Re).
  { destruct (strchr_at_cases s q ","%char) as [[-> _]|(k & -> & K & _)]; [lia|eexists; split; [reflexivity|discriminate]|eexists; split; [reflexivity|intros k' [= <-]; lia]]. }
  rewrite Ee. cbn [res_bind]. remember (match e with Some x => x | None => slen s end) as d eqn:Ed.
  assert (q <= d <= slen s) as D by (destruct e as [k|]; [specialize (Re k eq_refl); lia|lia]).
  destruct (Z.ltb_spec (d - b) 2) as [G|G]; [split; [discriminate|intros v n; discriminate]|].
  destruct (clrncpy_at_ok s (b + 1) (d - b - 1) (d - b)) as (v & ->); [lia|lia|lia|lia|]. cbn [res_bind].
  rewrite ch_ok by lia. cbn [res_bind].
  destruct (next_element_safe s (if is_ch (byte s d) NUL then d else d + 1) C) as (r & -> & R).
  { unfold is_ch. destruct (Ascii.eqb_spec (byte s d) NUL) as [X|X]; [lia|]. assert (d < slen s) by (apply byte_nul; auto; lia). lia. }
  cbn [res_bind]. split; [discriminate|]. intros v' n [= _ ->]. specialize (R n eq_refl). destruct (is_ch (byte s d) NUL); lia.
Qed.

Lemma auth_pass_safe : forall specs vals s p ok, forallb (fun x => name_ok (snd x)) specs = true -> cstr s -> 0 <= p <= slen s ->
  auth_pass specs vals s p ok <> UB /\
  forall vs q ok', auth_pass specs vals s p ok = Ok (vs, Some (q, ok')) -> p <= q <= slen s /\ (ok' = true -> ok = true \/ p < q).
Proof.
  induction specs as [|[quoted name] specs IH]; intros vals s p ok N C H; [split; [discriminate|intros vs q ok' [= <- <- <-]; split; [lia|auto]]|].
  cbn [forallb snd] in N. apply andb_true_iff in N as [N1 N2]. destruct vals as [|cur vals]; [split; [discriminate|intros vs q ok' [= <- <- <-]; split; [lia|auto]]|].
  cbn [auth_pass].
  assert (exists X, X = (if quoted then quoted_string_set name s p cur else token_set name s p cur) /\ X <> UB /\ forall v n, X = Ok (v, Some n) -> p <= n <= slen s) as (X & EX & XU & XN).
  { eexists. split; [reflexivity|]. destruct quoted; [apply quoted_string_set_safe|apply token_set_safe]; auto. }
  rewrite <- EX. clear EX. destruct X as [[v [n|]]|e|]; cbn [res_bind]; [|split; [discriminate|intros vs q ok' X; discriminate X]|split; [discriminate|intros vs q ok' X; discriminate X]|contradiction].
  specialize (XN v n eq_refl).
  destruct (Z.eqb_spec n p) as [->|NE].
  - destruct (IH vals s p ok N2 C H) as [I1 I2]. destruct (auth_pass specs vals s p ok) as [[vs0 e0]|e|]; cbn [res_bind];
      [|split; [discriminate|intros vs q ok' X; discriminate X]|contradiction].
    split; [discriminate|]. intros vs q ok' [= <- ->]. apply (I2 vs0 q ok' eq_refl).
  - destruct (IH vals s n true N2 C) as [I1 I2]; [lia|]. destruct (auth_pass specs vals s n true) as [[vs0 e0]|e|]; cbn [res_bind];
      [|split; [discriminate|intros vs q ok' X; discriminate X]|contradiction].
    split; [discriminate|]. intros vs q ok' [= <- ->]. destruct (I2 vs0 q ok' eq_refl). split; [lia|]. intros _. right. lia.
Qed.

Lemma auth_bypass_safe : forall s p, cstr s -> 0 <= p <= slen s ->
  auth_bypass s p <> UB /\ forall n, auth_bypass s p = Ok (Some n) -> p < n < slen s.
Proof.
  intros s p C H. unfold auth_bypass. destruct (Z.ltb_spec (slen s - p) 1) as [L|L]; [split; [discriminate|intros n; discriminate]|].
  destruct (strchr_at_cases s (p + 1) ","%char) as [[-> _]|(t & -> & T & _)]; [lia|cbn [res_bind]; split; [discriminate|intros n; discriminate]|]. cbn [res_bind].
  destruct (quote_at_cases s p C H) as [->|(q1 & -> & Q1)]; cbn [res_bind]; [split; [discriminate|intros n [= <-]; lia]|].
  destruct (Z.ltb_spec q1 t) as [L1|L1]; [|split; [discriminate|intros n [= <-]; lia]].
  destruct (quote_at_cases s (q1 + 1) C) as [->|(q2 & -> & Q2)]; [lia|cbn [res_bind]; split; [discriminate|intros n; discriminate]|]. cbn [res_bind].
  destruct (t <? q2); [|split; [discriminate|intros n [= <-]; lia]].
  destruct (strchr_at_cases s q2 ","%char) as [[-> _]|(k & -> & K & _)]; [lia|split; [discriminate|intros n; discriminate]|split; [discriminate|intros n [= <-]; lia]].
Qed.

Lemma auth_loop_safe : forall fuel specs vals s p, forallb (fun x => name_ok (snd x)) specs = true -> cstr s -> 0 <= p <= slen s ->
  slen s - p < Z.of_nat fuel -> auth_loop fuel specs vals s p <> UB.
Proof.
  induction fuel as [|fuel IH]; intros specs vals s p N C H F; [lia|]. cbn [auth_loop].
  destruct (auth_pass_safe specs vals s p false N C H) as [A1 A2].
  destruct (auth_pass specs vals s p false) as [[vs [[q ok]|]]|e|]; cbn [res_bind]; [|discriminate|discriminate|contradiction].
  destruct (A2 vs q ok eq_refl) as [Q OK]. destruct ok.
  - destruct (OK eq_refl); [discriminate|]. apply IH; auto; lia.
  - destruct (auth_bypass_safe s q C) as [B1 B2]; [lia|]. destruct (auth_bypass s q) as [[n|]|e|]; cbn [res_bind]; [|discriminate|discriminate|contradiction].
    specialize (B2 n eq_refl). apply IH; auto; lia.
Qed.

Lemma auth_parse_safe : forall specs s, forallb (fun x => name_ok (snd x)) specs = true -> cstr s -> auth_parse specs s <> UB.
Proof.
  intros specs s N C. unfold auth_parse.
  destruct (strchr_at_cases s 0 " "%char) as [[-> _]|(k & -> & K & _)]; [split; [lia|apply slen_nonneg]|discriminate|]. cbn [res_bind].
  destruct (k + 1 <? 2); [discriminate|]. destruct (copy_at_ok s 0 k (k + 1)) as (ty & ->); [lia|lia|lia|]. cbn [res_bind].
  pose proof (auth_loop_safe (S (S (length s))) specs (map (fun _ => None) specs) s k N C) as L.
  destruct (auth_loop _ _ _ _ _) as [v|e|]; cbn [res_bind]; [discriminate|discriminate|]. exfalso. apply L; [lia|unfold slen; lia|reflexivity].
Qed.

(** Whatever the text of the header, parsing it reads only that text. *)
Theorem C56_www_authenticate : forall s, cstr s -> www_parse s <> UB.
Proof. intros s C. unfold www_parse. pose proof (auth_parse_safe www_specs s eq_refl C). destruct (auth_parse www_specs s) as [[ty v]|e|]; cbn [res_bind]; [discriminate|discriminate|contradiction]. Qed.
Theorem C56_authorization : forall s, cstr s -> authz_parse s <> UB.
Proof. intros s C. unfold authz_parse. pose proof (auth_parse_safe authz_specs s eq_refl C). destruct (auth_parse authz_specs s) as [[ty v]|e|]; cbn [res_bind]; [discriminate|discriminate|contradiction]. Qed.
Theorem C56_authentication_info : forall s, cstr s -> ainfo_parse s <> UB.
Proof.
  intros s C. unfold ainfo_parse.
  assert (0 <= 0 <= slen s) as Z0 by (split; [lia|apply slen_nonneg]).
  assert (forall ty k, 0 <= k <= slen s -> (do v <- auth_loop (S (S (length s))) ainfo_specs (map (fun _ => None) ainfo_specs) s k; Ok (ainfo_of ty v)) <> UB) as L.
  { intros ty k K. pose proof (auth_loop_safe (S (S (length s))) ainfo_specs (map (fun _ => None) ainfo_specs) s k eq_refl C K) as L.
    destruct (auth_loop _ _ _ _ _) as [v|e|]; cbn [res_bind]; [discriminate|discriminate|]. exfalso. apply L; [unfold slen; lia|reflexivity]. }
  destruct (strchr_at_cases s 0 " "%char Z0) as [[-> _]|(k & -> & K & _)]; cbn [res_bind];
  (destruct (strchr_at_cases s 0 "="%char Z0) as [[-> _]|(h & -> & H & _)]; cbn [res_bind]); try (apply L; lia).
  destruct (h >? k); [|cbn [res_bind]; apply L; lia]. destruct (copy_at_ok s 0 k (k + 1)) as (ty & ->); [lia|lia|lia|]. cbn [res_bind]. apply L. lia.
Qed.

(** * Printing *)
(** Every row of WWW-Authenticate and Authorization counts enough bytes *)
Definition rows_fit (extra : Z) (rows : list auth_row) : bool :=
  forallb (fun r => slen (fst (fst r)) + extra <=? snd (fst r)) rows.

Lemma rows_len_nonneg : forall extra rows, 0 <= extra -> rows_fit extra rows = true -> 0 <= rows_len rows.
Proof.
  intros extra rows X. induction rows as [|[[n k] [v|]] rows IH]; cbn [rows_len rows_fit fold_right forallb fst snd]; intros F; try lia;
    apply andb_true_iff in F as [F1 F2]; specialize (IH F2); unfold rows_len in *; sl.
Qed.

Lemma www_emit_ok : forall rows t cap, rows_fit 0 rows = true -> slen t + rows_len rows + 1 <= cap ->
  exists r, www_emit rows (mkOut t cap) = Ok (mkOut (t ++ r) cap).
Proof.
  induction rows as [|[[n k] v] rows IH]; intros t cap F L; [exists []; cbn; rewrite app_nil_r; reflexivity|].
  cbn [rows_fit forallb fst snd] in F. apply andb_true_iff in F as [F1 F2]. pose proof (rows_len_nonneg 0 rows ltac:(lia) F2) as RN. cbn [www_emit rows_len fold_right] in *. fold (rows_len rows) in *.
  destruct v as [v|]; [|apply IH; auto].
  rewrite emit_ok by sl. cbn [res_bind]. rewrite emit_ok by sl. cbn [res_bind].
  destruct (IH ((t ++ n) ++ v) cap F2) as (r & ->); [sl|]. exists (n ++ v ++ r). rewrite <- !app_assoc. reflexivity.
Qed.

Lemma sep_emit_ok : forall sep rows t cap first, rows_fit (slen sep) rows = true -> slen t + rows_len rows + 1 <= cap ->
  exists r, sep_emit sep rows first (mkOut t cap) = Ok (mkOut (t ++ r) cap).
Proof.
  intros sep. induction rows as [|[[n k] v] rows IH]; intros t cap first F L; [exists []; cbn; rewrite app_nil_r; reflexivity|].
  cbn [rows_fit forallb fst snd] in F. apply andb_true_iff in F as [F1 F2]. pose proof (rows_len_nonneg (slen sep) rows ltac:(sl) F2) as RN. cbn [sep_emit rows_len fold_right] in *. fold (rows_len rows) in *.
  destruct v as [v|]; [|apply IH; auto]. destruct first; cbn [res_bind].
  - rewrite emit_ok by sl. cbn [res_bind]. rewrite emit_ok by sl. cbn [res_bind].
    destruct (IH ((t ++ n) ++ v) cap false F2) as (r & ->); [sl|]. exists (n ++ v ++ r). rewrite <- !app_assoc. reflexivity.
  - rewrite emit_ok by sl. cbn [res_bind]. rewrite emit_ok by sl. cbn [res_bind]. rewrite emit_ok by sl. cbn [res_bind].
    destruct (IH (((t ++ sep) ++ n) ++ v) cap false F2) as (r & ->); [sl|]. exists (sep ++ n ++ v ++ r). rewrite <- !app_assoc. reflexivity.
Qed.

Theorem C40_www_authenticate : forall w, www_to_str w <> UB.
Proof.
  intros w. unfold www_to_str. destruct (w_auth_type w) as [ty|]; [|discriminate].
  assert (rows_fit 0 (www_rows w) = true) as F by reflexivity. pose proof (rows_len_nonneg 0 (www_rows w) ltac:(lia) F) as RN.
  unfold out_new. replace (_ <? 1) with false by sl. cbn [res_bind]. rewrite emit_ok by sl. cbn [res_bind app].
  destruct (www_emit_ok (www_rows w) ty (slen ty + 1 + rows_len (www_rows w) + 2) F) as (r & ->); [lia|]. cbn [res_bind o_text].
  destruct (w_realm w); [discriminate|]. rewrite ch_ok by sl. cbn [res_bind]. destruct (is_ch _ _); discriminate.
Qed.
Theorem C40_authorization : forall a, authz_to_str a <> UB.
Proof.
  intros a. unfold authz_to_str. destruct (a_auth_type a) as [ty|]; [|discriminate].
  assert (exists u rows, authz_rows a = ($" username=", 10, u) :: rows /\ rows_fit 1 rows = true) as (u & rows & E & F) by (eexists; eexists; split; reflexivity).
  rewrite E. pose proof (rows_len_nonneg 1 rows ltac:(lia) F) as RN. cbn [rows_len fold_right]. fold (rows_len rows).
  unfold out_new. cbn [sep_emit]. destruct u as [v|].
  - replace (_ <? 1) with false by sl. cbn [res_bind]. rewrite emit_ok by sl. cbn [res_bind app].
    rewrite emit_ok by (change (slen ($" username=")) with 10; sl). cbn [res_bind]. rewrite emit_ok by (slens; change (slen ($" username=")) with 10; sl). cbn [res_bind].
    destruct (sep_emit_ok ($",") rows ((ty ++ $" username=") ++ v) (slen ty + 1 + (10 + slen v + rows_len rows) + 2) false F) as (r & ->);
      [slens; change (slen ($" username=")) with 10; lia|]. discriminate.
  - replace (_ <? 1) with false by sl. cbn [res_bind]. rewrite emit_ok by sl. cbn [res_bind app].
    destruct (sep_emit_ok ($",") rows ty (slen ty + 1 + rows_len rows + 2) true F) as (r & ->); [lia|]. discriminate.
Qed.

(** Finding: the size computed for Authentication-Info is one byte short when only the auth-scheme
    is set, or when nextnonce and opaque are both set; such structures come out of the parser. *)
Theorem C40_authentication_info_refuted :
  (exists s a, cstr s /\ ainfo_parse s = Ok a /\ ainfo_to_str a = UB) /\
  exists s a, cstr s /\ ainfo_parse s = Ok a /\ ai_nextnonce a <> None /\ ai_opaque a <> None /\ ainfo_to_str a = UB.
Proof.
  assert (forall s, forallb (fun c => negb (Ascii.eqb c NUL)) s = true -> cstr s) as CS.
  { intros s H I. rewrite forallb_forall in H. specialize (H _ I). rewrite Ascii.eqb_refl in H. discriminate. }
  split.
  - exists ($"Digest a=b, c=1234"). eexists. split; [apply CS; reflexivity|]. split; [vm_compute; reflexivity|]. vm_compute. reflexivity.
  - exists ($"nextnonce=" ++ [dquote] ++ $"x" ++ [dquote] ++ $", opaque=" ++ [dquote] ++ $"y" ++ [dquote]). eexists.
    split; [apply CS; reflexivity|]. split; [vm_compute; reflexivity|]. split; [discriminate|]. split; [discriminate|]. vm_compute. reflexivity.
Qed.

Lemma ainfo_emit_ok : forall rows t cap, rows_fit 2 rows = true -> slen t + rows_len rows + 1 <= cap ->
  exists r, sep_emit ($", ") rows false (mkOut t cap) = Ok (mkOut (t ++ r) cap).
Proof. intros. apply sep_emit_ok; auto. Qed.

(** By how many bytes a row is counted short *)
Definition row_excess (r : auth_row) : Z := match snd r with Some _ => 2 + slen (fst (fst r)) - snd (fst r) | None => 0 end.
Fixpoint list_sumZ (l : list Z) : Z := match l with [] => 0 | x :: l => x + list_sumZ l end.
Lemma rows_excess : forall rows,
  fold_right (fun r m => match r with (n, _, Some v) => 2 + slen n + slen v + m | _ => m end) 0 rows = rows_len rows + list_sumZ (map row_excess rows).
Proof.
  induction rows as [|[[n k] [v|]] rows IH]; [reflexivity| |]; cbn [fold_right rows_len map list_sumZ]; unfold rows_len in *; unfold row_excess at 1; cbn [fst snd]; lia.
Qed.
Lemma row_excess_fit : forall n k o, 2 + slen n = k -> row_excess (n, k, o) = 0.
Proof. intros n k [v|] H; unfold row_excess; cbn [fst snd]; lia. Qed.

(** What is true: no overflow when at least one parameter is set and nextnonce and opaque are not
    both set. *)
Theorem C40_authentication_info_partial : forall a,
  (exists n k v, In (n, k, Some v) (ainfo_rows a)) -> (ai_nextnonce a = None \/ ai_opaque a = None) -> ainfo_to_str a <> UB.
Proof.
  assert (LONG : forall rows, forallb (fun r => 0 <=? snd (fst r)) rows = true -> 0 <= rows_len rows).
  { induction rows as [|[[n k] [v|]] rows IH]; cbn [forallb rows_len fold_right fst snd]; intros F; try lia; apply andb_true_iff in F as [F1 F2]; specialize (IH F2); unfold rows_len in *; sl. }
  assert (ST : forall rows first t cap, forallb (fun r => 0 <=? snd (fst r)) rows = true ->
     (exists n k v, In (n, k, Some v) rows) \/ first = false ->
     slen t + fold_right (fun r m => match r with (n, _, Some v) => 2 + slen n + slen v + m | _ => m end) 0 rows + 1 <= cap + (if first then 2 else 0) ->
     exists r, sep_emit ($", ") rows first (mkOut t cap) = Ok (mkOut (t ++ r) cap)).
  { induction rows as [|[[n k] [v|]] rows IH]; intros first t cap F X L.
    - exists []. cbn. rewrite app_nil_r. reflexivity.
    - cbn [forallb fst snd fold_right] in *. apply andb_true_iff in F as [F1 F2].
      assert (0 <= fold_right (fun r m => match r with (n, _, Some v) => 2 + slen n + slen v + m | _ => m end) 0 rows) as NN.
      { clear. induction rows as [|[[n k] [v|]] rows IH]; cbn [fold_right]; try lia. sl. }
      cbn [sep_emit]. destruct first; cbn [res_bind].
      + rewrite emit_ok by sl. cbn [res_bind]. rewrite emit_ok by sl. cbn [res_bind].
        destruct (IH false ((t ++ n) ++ v) cap F2 (or_intror eq_refl)) as (r & ->); [sl|]. exists (n ++ v ++ r). rewrite <- !app_assoc. reflexivity.
      + assert (slen ($", ") = 2) as L2 by reflexivity.
        rewrite emit_ok by sl. cbn [res_bind]. rewrite emit_ok by sl. cbn [res_bind]. rewrite emit_ok by sl. cbn [res_bind].
        destruct (IH false (((t ++ $", ") ++ n) ++ v) cap F2 (or_intror eq_refl)) as (r & ->); [sl|]. exists ($", " ++ n ++ v ++ r). rewrite <- !app_assoc. reflexivity.
    - cbn [forallb fst snd fold_right] in *. apply andb_true_iff in F as [F1 F2]. cbn [sep_emit]. apply IH; auto.
      destruct X as [(n' & k' & v' & [I|I])|X]; [discriminate I|left; eauto|right; exact X]. }
  intros a SOME NB. unfold ainfo_to_str.
  assert (forallb (fun r => 0 <=? snd (fst r)) (ainfo_rows a) = true) as F by reflexivity.
  assert (0 < rows_len (ainfo_rows a)) as POS.
  { destruct SOME as (n & k & v & I). assert (forallb (fun r => 1 <=? snd (fst r)) (ainfo_rows a) = true) as F1 by reflexivity. clear - I F1.
    revert I F1. generalize (ainfo_rows a). induction l as [|[[n' k'] o] l IH]; intros I F1; [contradiction|].
    cbn [forallb fst snd] in F1. apply andb_true_iff in F1 as [F1 F2].
    assert (0 <= rows_len l) as NN. { clear - F2. induction l as [|[[n k] [v|]] rows IH]; cbn [forallb rows_len fold_right fst snd] in *; try lia; apply andb_true_iff in F2 as [F2 F3]; specialize (IH F3); unfold rows_len in *; sl. }
    cbn [rows_len fold_right]. fold (rows_len l). destruct I as [[= -> -> ->]|I]; [sl|]. specialize (IH I F2). destruct o; sl. }
  assert (fold_right (fun r m => match r with (n, _, Some v) => 2 + slen n + slen v + m | _ => m end) 0 (ainfo_rows a) <= rows_len (ainfo_rows a) + 1) as W.
  { rewrite rows_excess. cut (list_sumZ (map row_excess (ainfo_rows a)) <= 1); [lia|].
    unfold ainfo_rows. cbn [map list_sumZ].
    rewrite (row_excess_fit ($"qop=")), (row_excess_fit ($"rspauth=")), (row_excess_fit ($"cnonce=")), (row_excess_fit ($"nc=")),
      (row_excess_fit ($"snum=")), (row_excess_fit ($"srand=")), (row_excess_fit ($"targetname=")), (row_excess_fit ($"realm=")) by reflexivity.
    destruct NB as [-> | ->]; [destruct (ai_opaque a)|destruct (ai_nextnonce a)]; cbn; lia. }
  destruct (ai_auth_type a) as [ty|]; cbn [opt_len].
  - replace (_ =? 0) with false by sl. unfold out_new. replace (_ <? 1) with false by sl. cbn [res_bind]. rewrite emit_ok by sl. cbn [res_bind app].
    assert (slen ($" ") = 1) as L1 by reflexivity. rewrite emit_ok by sl. cbn [res_bind].
    destruct (ST (ainfo_rows a) true (ty ++ $" ") (slen ty + 1 + rows_len (ainfo_rows a)) F (or_introl SOME)) as (r & ->); [sl|]. discriminate.
  - replace (_ =? 0) with false by sl. unfold out_new. replace (_ <? 1) with false by sl. cbn [res_bind].
    destruct (ST (ainfo_rows a) true [] (0 + rows_len (ainfo_rows a)) F (or_introl SOME)) as (r & ->); [sl|]. discriminate.
Qed.

(** Cases that meet the hypotheses *)
Definition dq (t : str) : str := dquote :: t ++ [dquote].
Example C40_auth_info_case :
  let a := mkAI None (Some (dq ($"n1"))) (Some ($"auth")) (Some (dq ($"abc"))) (Some (dq ($"c"))) (Some ($"00000001")) None None None None None in
  ainfo_to_str a = Ok ($"qop=auth, nextnonce=" ++ dq ($"n1") ++ $", rspauth=" ++ dq ($"abc") ++ $", cnonce=" ++ dq ($"c") ++ $", nc=00000001").
Proof. vm_compute. reflexivity. Qed.
Example C56_auth_case :
  www_parse ($"Digest realm=" ++ dq ($"a, b") ++ $", foo=bar, nonce=" ++ dq ($"x")) =
  Ok (mkWww (Some ($"Digest")) (Some (dq ($"a, b"))) None (Some (dq ($"x"))) None None None None None None None).
Proof. vm_compute. reflexivity. Qed.

Print Assumptions C56_www_authenticate.
Print Assumptions C56_authorization.
Print Assumptions C56_authentication_info.
Print Assumptions C40_www_authenticate.
Print Assumptions C40_authorization.
Print Assumptions C40_authentication_info_refuted.
Print Assumptions C40_authentication_info_partial.

(** C29 white space trimming, C30 quote search, C31 quoting, C50 numbers, C53 error texts. *)
From Coq Require Import String ZArith NArith Ascii Bool List Lia ZifyBool ZifyNat.
From Verif Require Import Base Str StrLemmas MemModel MemLemmas PortModel PortBuf.
Import ListNotations.
Open Scope Z_scope.

(** * C29 *)

Definition blanks (b : str) : Prop := Forall (fun c => c = " "%char \/ c = cr \/ c = lf \/ c = tab) b.
(** [w] is [s] without leading and trailing white space *)
Definition is_trim (s w : str) : Prop :=
  exists b1 b2, s = b1 ++ w ++ b2 /\ blanks b1 /\ blanks b2 /\
  (forall c w', w = c :: w' -> ~ blanks [c]) /\ (forall c w', w = w' ++ [c] -> ~ blanks [c]).

Lemma is_blank_iff : forall c, is_blank c = true <-> (c = " "%char \/ c = cr \/ c = lf \/ c = tab).
Proof.
  intros. unfold is_blank, sp. rewrite !orb_true_iff, !Ascii.eqb_eq. tauto.
Qed.
Lemma blanks_iff : forall b, blanks b <-> forallb is_blank b = true.
Proof. intros. unfold blanks. rewrite forallb_forall, Forall_forall. split; intros H x Hx; apply is_blank_iff; auto. Qed.

Lemma skip_fwd_at : forall b1 fuel pre c r i, forallb is_blank b1 = true -> is_blank c = false ->
  (length b1 < fuel)%nat -> i = len pre -> skip_fwd fuel (pre ++ b1 ++ c :: r) i = Ok (i + len b1).
Proof.
  induction b1 as [|x b1 IH]; intros fuel pre c r i H1 H2 F ->.
  - destruct fuel; [cbn in F; lia|]. cbn [skip_fwd app]. rewrite rd_at by reflexivity. cbn [res_bind]. rewrite H2, len_nil, Z.add_0_r. reflexivity.
  - destruct fuel; [cbn in F; lia|]. cbn [skip_fwd app]. rewrite rd_at by reflexivity. cbn [res_bind].
    cbn in H1. apply andb_prop in H1 as [-> H1].
    replace (pre ++ x :: b1 ++ c :: r) with ((pre ++ [x]) ++ b1 ++ c :: r) by (rewrite <- app_assoc; reflexivity).
    rewrite IH; auto; [|cbn in F; lia|rewrite len_app; reflexivity]. rewrite len_cons. f_equal. lia.
Qed.

Lemma skip_back_at : forall b2 fuel pre c r pbeg pend, forallb is_blank b2 = true -> is_blank c = false ->
  (length b2 < fuel)%nat -> pend = len pre + len b2 -> pbeg <= len pre ->
  skip_back fuel (pre ++ c :: b2 ++ r) pbeg pend = Ok (Some (len pre)).
Proof.
  induction b2 as [|x b2 IH] using rev_ind; intros fuel pre c r pbeg pend H1 H2 F -> L.
  - destruct fuel; [cbn in F; lia|]. cbn [skip_back app]. rewrite len_nil, Z.add_0_r, rd_at by reflexivity.
    cbn [res_bind]. rewrite H2. reflexivity.
  - rewrite forallb_app in H1. apply andb_prop in H1 as [H1 Hx]. cbn in Hx. rewrite andb_true_r in Hx.
    rewrite app_length in F. cbn in F.
    destruct fuel; [lia|]. cbn [skip_back].
    replace (pre ++ c :: (b2 ++ [x]) ++ r) with ((pre ++ c :: b2) ++ x :: r) by (rewrite <- !app_assoc; reflexivity).
    rewrite rd_at by (rewrite !len_app, !len_cons, len_nil; lia). cbn [res_bind]. rewrite Hx.
    pose proof (len_nonneg _ b2). rewrite len_app, len_cons, len_nil.
    replace (len pre + (len b2 + (1 + 0)) - 1 <? pbeg) with false by lia.
    rewrite <- app_assoc. cbn [app]. apply IH; auto; lia.
Qed.

Lemma skip_back_none : forall fuel pre x r pbeg pend, is_blank x = true -> pend = len pre -> len pre < pbeg + 1 ->
  (0 < fuel)%nat -> skip_back fuel (pre ++ x :: r) pbeg pend = Ok None.
Proof.
  intros fuel pre x r pbeg pend H -> L F. destruct fuel; [lia|]. cbn [skip_back]. rewrite rd_at by reflexivity. cbn [res_bind]. rewrite H.
  replace (len pre - 1 <? pbeg) with true by lia. reflexivity.
Qed.

Lemma snoc_case : forall A (l : list A), l = [] \/ exists a x, l = a ++ [x].
Proof. intros A l. destruct l as [|y l] using rev_ind; [auto|right; eauto]. Qed.

Lemma nul_not_blank : is_blank NUL = false. Proof. reflexivity. Qed.

(** The two cases of trimming *)
Inductive trim_case (s : str) : str -> Prop :=
| tc_all : forallb is_blank s = true -> trim_case s []
| tc_mid : forall b1 c w b2, s = b1 ++ (c :: w) ++ b2 -> forallb is_blank b1 = true -> forallb is_blank b2 = true ->
    is_blank c = false -> is_blank (last (c :: w) NUL) = false -> trim_case s (c :: w).

Lemma trim_cases : forall s, trim_case s (trim s).
Proof.
  intros s. destruct (trim_split s) as (b1 & b2 & E & H1 & H2). pose proof (trim_trimmed s) as T. apply trimmed_iff in T.
  destruct (trim s) as [|c w].
  - apply tc_all. rewrite E. cbn. rewrite forallb_app, H1, H2. reflexivity.
  - destruct T as [T|[T1 T2]]; [discriminate|]. eapply tc_mid; eauto.
Qed.

Lemma trim_is_trim : forall s, is_trim s (trim s).
Proof.
  intros s. destruct (trim_cases s) as [H|b1 c w b2 E H1 H2 H3 H4].
  - exists s, []. rewrite app_nil_r. split; [reflexivity|]. split; [apply blanks_iff; auto|]. split; [constructor|].
    split; [discriminate|]. intros c [|? ?]; discriminate.
  - exists b1, b2. split; [exact E|]. split; [apply blanks_iff; auto|]. split; [apply blanks_iff; auto|]. split.
    + intros x w' [= <- _] B. apply blanks_iff in B. cbn in B. rewrite H3 in B. discriminate.
    + intros x w' L B. apply blanks_iff in B. cbn in B. rewrite andb_true_r in B. rewrite L, last_last, B in H4. discriminate.
Qed.

(** Trimming in place: the buffer afterwards holds the trimmed string, no byte behind the old
    terminator has changed, and nothing outside the buffer was touched (no [UB]). *)
Theorem C29_clrspace : forall s rest, cstr s -> exists w junk,
  clrspace (s ++ NUL :: rest) = Ok (w ++ NUL :: junk ++ rest) /\ is_trim s w /\ length (w ++ junk) = length s.
Proof.
  intros s rest H. exists (trim s).
  destruct s as [|c0 s0] eqn:Es; [exists []; split; [reflexivity|]; split; [apply (trim_is_trim [])|reflexivity]|].
  rewrite <- Es in *. assert (N : c0 <> NUL) by (intros ->; apply H; rewrite Es; left; reflexivity).
  unfold clrspace. replace (rd (s ++ NUL :: rest) 0) with (Ok c0) by (rewrite Es; reflexivity). cbn [res_bind].
  destruct (Ascii.eqb_spec c0 NUL) as [X|_]; [contradiction|]. rewrite strlen_at by auto. cbn [res_bind].
  pose proof (trim_is_trim s) as IT.
  destruct (trim_cases s) as [A|b1 c w b2 E A1 A2 A3 A4].
  - destruct (snoc_case _ s) as [Z|[a [x Z]]]; [rewrite Es in Z; discriminate|].
    rewrite (skip_fwd_at s _ [] NUL rest 0); auto; [|unfold fuel_of; rewrite app_length; lia]. cbn [res_bind].
    replace (s ++ NUL :: rest) with (a ++ x :: (NUL :: rest)) by (rewrite Z, <- app_assoc; reflexivity).
    rewrite skip_back_none; [| | | |unfold fuel_of; lia].
    + cbn [res_bind]. replace (a ++ x :: NUL :: rest) with ([] ++ c0 :: (s0 ++ NUL :: rest)).
      * rewrite wr_at by reflexivity. exists (s0 ++ [NUL]). cbn [app]. rewrite <- app_assoc. repeat split; auto.
        rewrite Es, app_length. cbn. lia.
      * cbn [app]. change (c0 :: s0 ++ NUL :: rest) with ((c0 :: s0) ++ NUL :: rest). rewrite <- Es, Z, <- app_assoc. reflexivity.
    + rewrite Z, forallb_app in A. apply andb_prop in A as [_ A]. cbn in A. rewrite andb_true_r in A. auto.
    + rewrite Z, len_app, len_cons, len_nil. lia.
    + rewrite Z, len_app, len_cons, len_nil. lia.
  - assert (F : skip_fwd (fuel_of (s ++ NUL :: rest)) (s ++ NUL :: rest) 0 = Ok (len b1)).
    { pose proof (skip_fwd_at b1 (fuel_of (s ++ NUL :: rest)) [] c (w ++ b2 ++ NUL :: rest) 0 A1 A3) as P.
      replace (s ++ NUL :: rest) with ([] ++ b1 ++ c :: w ++ b2 ++ NUL :: rest) at 2 by (rewrite E, <- !app_assoc; reflexivity).
      apply P; [|reflexivity]. unfold fuel_of. rewrite E, !app_length. cbn. lia. }
    rewrite F. cbn [res_bind].
    destruct (snoc_case _ (c :: w)) as [Z|[a [x Z]]]; [discriminate|]. rewrite Z, last_last in A4.
    assert (B : skip_back (fuel_of (s ++ NUL :: rest)) (s ++ NUL :: rest) (len b1) (len s - 1) = Ok (Some (len b1 + len a))).
    { replace (s ++ NUL :: rest) with ((b1 ++ a) ++ x :: b2 ++ NUL :: rest) by (rewrite E, Z, <- !app_assoc; reflexivity).
      rewrite skip_back_at; auto; [rewrite len_app; reflexivity| | |].
      - unfold fuel_of. rewrite !app_length. cbn. rewrite !app_length. lia.
      - rewrite E, Z, !len_app, len_cons, len_nil. lia.
      - rewrite len_app. pose proof (len_nonneg _ a). lia. }
    rewrite B. cbn [res_bind]. clear F B.
    assert (Ls : len s = len b1 + len a + 1 + len b2) by (rewrite E, Z, !len_app, len_cons, len_nil; lia).
    (* the buffer after the terminator was written *)
    assert (W : exists junk, (if len b1 + len a + 1 <=? len s - 1 then wr (s ++ NUL :: rest) (len b1 + len a + 1) NUL else Ok (s ++ NUL :: rest))
      = Ok (b1 ++ (c :: w) ++ NUL :: junk ++ rest) /\ length junk = length b2).
    { destruct b2 as [|y b2].
      - exists []. rewrite len_nil in Ls. replace (len b1 + len a + 1 <=? len s - 1) with false by lia. split; [|reflexivity].
        rewrite E, app_nil_r, <- app_assoc. reflexivity.
      - rewrite len_cons in Ls. pose proof (len_nonneg _ b2). replace (len b1 + len a + 1 <=? len s - 1) with true by lia.
        exists (b2 ++ [NUL]). split; [|rewrite app_length; cbn; lia].
        replace (s ++ NUL :: rest) with ((b1 ++ (c :: w)) ++ y :: b2 ++ NUL :: rest) by (rewrite E, <- !app_assoc; reflexivity).
        rewrite wr_at; [rewrite <- !app_assoc; reflexivity|]. rewrite Z, !len_app, len_cons, len_nil. lia. }
    destruct W as (junk & W & Lj). unfold buffer, str in *. rewrite W. cbn [res_bind].
    destruct (Z.eqb_spec (len b1) 0) as [E0|N0].
    + assert (b1 = []) as -> by (destruct b1; [reflexivity|rewrite len_cons in E0; pose proof (len_nonneg _ b1); lia]).
      cbn [negb]. exists junk. repeat split; auto. rewrite E. rewrite !app_length. cbn [length]. lia.
    + cbn [negb]. unfold memmove.
      replace (b1 ++ (c :: w) ++ NUL :: junk ++ rest) with (b1 ++ ((c :: w) ++ [NUL]) ++ junk ++ rest) by (rewrite <- !app_assoc; reflexivity).
      rewrite rd_range_at; [| reflexivity | rewrite Z, !len_app, !len_cons, len_nil; lia].
      cbn [res_bind]. set (cw := (c :: w) ++ [NUL]).
      destruct (cut _ (b1 ++ cw) (length cw)) as (p & q & Epq & Lp); [rewrite app_length; lia|].
      replace (b1 ++ cw ++ junk ++ rest) with ([] ++ p ++ q ++ junk ++ rest)
        by (cbn [app]; rewrite !app_assoc, <- Epq; reflexivity).
      rewrite wr_range_at by auto. exists (q ++ junk). cbn [app]. unfold cw at 1. split; [|split].
      * f_equal. rewrite <- !app_assoc. reflexivity.
      * exact IT.
      * apply (f_equal (@length _)) in Epq. rewrite !app_length, Lp in Epq.
        assert (length s = length b1 + length (c :: w) + length b2)%nat by (rewrite E, !app_length; lia).
        cbn [length] in *. rewrite !app_length. lia.
Qed.

Example C29_witness : clrspace ($" 	ab c " ++ [NUL; "x"%char]) = Ok ($"ab c" ++ [NUL; "c"%char; NUL] ++ [NUL; "x"%char]).
Proof. vm_compute. reflexivity. Qed.

Lemma pad_at : forall z fuel a r p sl n, len a = p + 1 -> p + 1 = sl -> z <> [] -> len z = n - sl -> (length z <= fuel)%nat ->
  pad fuel (a ++ z ++ r) p sl n = Ok (a ++ repeat NUL (length z) ++ r).
Proof.
  induction z as [|x z IH]; intros fuel a r p sl n Ha Hp Hz Hn F; [contradiction|].
  destruct fuel; [cbn in F; lia|]. cbn [pad app]. rewrite wr_at by lia. cbn [res_bind]. rewrite len_cons in Hn.
  destruct z as [|y z].
  - rewrite len_nil in Hn. replace (sl + 1 <? n) with false by lia. reflexivity.
  - rewrite len_cons in Hn. pose proof (len_nonneg _ z). replace (sl + 1 <? n) with true by lia.
    replace (a ++ NUL :: (y :: z) ++ r) with ((a ++ [NUL]) ++ (y :: z) ++ r) by (rewrite <- app_assoc; reflexivity).
    rewrite IH; [rewrite <- app_assoc; reflexivity|rewrite len_app, len_cons, len_nil; lia|lia|discriminate|rewrite len_cons; lia|cbn in F |- *; lia].
Qed.

Lemma skip_fwd_past : forall seg s2 rest fuel, forallb is_blank seg = true -> (length (seg ++ s2) < fuel)%nat ->
  exists p, skip_fwd fuel (seg ++ s2 ++ NUL :: rest) 0 = Ok p /\ len seg <= p.
Proof.
  intros seg s2 rest fuel H F. destruct (ltrim_split s2) as (b & E & B).
  assert (X : exists c r, ltrim s2 ++ NUL :: rest = c :: r /\ is_blank c = false).
  { destruct (ltrim s2) as [|c r] eqn:L; [exists NUL, rest; split; reflexivity|].
    exists c, (r ++ NUL :: rest). split; [reflexivity|]. eapply ltrim_head; eauto. }
  destruct X as (c & r & X & C). exists (len (seg ++ b)).
  replace (seg ++ s2 ++ NUL :: rest) with ([] ++ (seg ++ b) ++ c :: r).
  - rewrite skip_fwd_at; auto; [split; [f_equal; lia|rewrite len_app; pose proof (len_nonneg _ b); lia]| |].
    + rewrite forallb_app, H, B. reflexivity.
    + rewrite E in F. rewrite !app_length in *. lia.
  - rewrite <- X. cbn [app]. rewrite <- app_assoc. f_equal. rewrite E at 2. rewrite <- app_assoc. reflexivity.
Qed.

Lemma clrncpy_cut : forall seg s2 rest dst, cstr (seg ++ s2) -> (length seg < length dst)%nat -> exists junk,
  clrncpy dst ((seg ++ s2) ++ NUL :: rest) (len seg) = Ok (trim seg ++ NUL :: junk ++ skipn (S (length seg)) dst) /\
  length (trim seg ++ junk) = length seg.
Proof.
  intros seg s2 rest dst H L. rewrite <- app_assoc. unfold clrncpy.
  destruct (cut _ dst (S (length seg))) as (d1 & d2 & Ed & Ld); [lia|].
  assert (Sk : skipn (S (length seg)) dst = d2) by (rewrite Ed, <- Ld; apply skipn_len_app). rewrite Sk. clear Sk.
  assert (Z0 : exists junk, wr dst 0 NUL = Ok ([] ++ NUL :: junk ++ d2) /\ length ([] ++ junk) = length seg).
  { destruct d1 as [|x d1]; [discriminate|]. rewrite Ed. exists d1. cbn [app].
    rewrite (wr_at [] x (d1 ++ d2)) by reflexivity. split; [reflexivity|]. cbn in Ld. lia. }
  destruct (Z.eqb_spec (len seg) 0) as [E0|N0].
  { assert (seg = []) as -> by (destruct seg; [reflexivity|rewrite len_cons in E0; pose proof (len_nonneg _ seg); lia]). exact Z0. }
  destruct (trim_cases seg) as [A|b1 c w b2 E A1 A2 A3 A4].
  - destruct (skip_fwd_past seg s2 rest (fuel_of (seg ++ s2 ++ NUL :: rest)) A) as (p & -> & P).
    { unfold fuel_of. rewrite !app_length. cbn. lia. }
    cbn [res_bind]. destruct (snoc_case _ seg) as [Q|[a [x Q]]]; [subst seg; contradiction N0; reflexivity|].
    replace (seg ++ s2 ++ NUL :: rest) with (a ++ x :: s2 ++ NUL :: rest) by (rewrite Q, <- app_assoc; reflexivity).
    rewrite skip_back_none; [exact Z0| | | |unfold fuel_of; lia].
    + rewrite Q, forallb_app in A. apply andb_prop in A as [_ A]. cbn in A. rewrite andb_true_r in A. auto.
    + rewrite Q, len_app, len_cons, len_nil. lia.
    + rewrite Q, len_app, len_cons, len_nil in P. lia.
  - clear Z0. set (src := seg ++ s2 ++ NUL :: rest).
    assert (Fu : (length seg < fuel_of src)%nat) by (unfold fuel_of, src; rewrite !app_length; lia).
    assert (Lb : (length b1 + S (length w) + length b2 = length seg)%nat) by (rewrite E, !app_length; cbn; lia).
    assert (F : skip_fwd (fuel_of src) src 0 = Ok (len b1)).
    { pose proof (skip_fwd_at b1 (fuel_of src) [] c (w ++ b2 ++ s2 ++ NUL :: rest) 0 A1 A3) as P.
      unfold src at 2. rewrite E, <- !app_assoc. cbn [app] in *. apply P; [lia|reflexivity]. }
    rewrite F. cbn [res_bind]. destruct (snoc_case _ (c :: w)) as [Q|[a [x Q]]]; [discriminate|]. rewrite Q, last_last in A4.
    assert (Lw : len (c :: w) = len a + 1) by (rewrite Q, len_app, len_cons, len_nil; lia).
    assert (B : skip_back (fuel_of src) src (len b1) (len seg - 1) = Ok (Some (len b1 + len a))).
    { replace src with ((b1 ++ a) ++ x :: b2 ++ s2 ++ NUL :: rest) at 2 by (unfold src; rewrite E, Q, <- !app_assoc; reflexivity).
      rewrite skip_back_at; auto; [rewrite len_app; reflexivity|lia| |].
      - rewrite E, !len_app, Lw. lia.
      - rewrite len_app. pose proof (len_nonneg _ a). lia. }
    rewrite B. cbn [res_bind]. replace (len b1 + len a - len b1 + 1) with (len (c :: w)) by lia.
    replace src with (b1 ++ (c :: w) ++ b2 ++ s2 ++ NUL :: rest) by (unfold src; rewrite E, <- !app_assoc; reflexivity).
    rewrite rd_range_at by reflexivity. cbn [res_bind].
    destruct (cut _ d1 (length (c :: w))) as (p & q & Epq & Lp); [cbn; lia|].
    assert (Lq : length q = S (length b1 + length b2)).
    { apply (f_equal (@length _)) in Epq. rewrite app_length in Epq. cbn in Lp. lia. }
    rewrite Ed, Epq. replace ((p ++ q) ++ d2) with ([] ++ p ++ q ++ d2) by (rewrite <- app_assoc; reflexivity).
    rewrite wr_range_at by auto. cbn [res_bind]. destruct q as [|q0 q]; [discriminate|]. cbn [app].
    change (c :: w ++ q0 :: q ++ d2) with ((c :: w) ++ q0 :: q ++ d2). rewrite wr_at by reflexivity. cbn [res_bind].
    cbn [length] in Lq. destruct (Z.ltb_spec (len (c :: w) + 1) (len seg)) as [M|M].
    + assert (S2 : exists q1 q2, q = q1 ++ [q2]).
      { destruct (snoc_case _ q) as [X|X]; [|destruct X as (?&?&X); eauto]. subst q. unfold len in M. cbn in *. lia. }
      destruct S2 as (q1 & q2 & S2). rewrite S2, app_length in Lq. cbn in Lq.
      replace ((c :: w) ++ NUL :: q ++ d2) with (((c :: w) ++ [NUL]) ++ q1 ++ q2 :: d2) by (rewrite S2, <- !app_assoc; reflexivity).
      rewrite pad_at.
      * exists (repeat NUL (length q1) ++ [q2]). rewrite <- !app_assoc. split; [reflexivity|].
        cbn [length]. rewrite !app_length, repeat_length. cbn. lia.
      * rewrite len_app. reflexivity.
      * reflexivity.
      * intros ->. unfold len in M. cbn in *. lia.
      * unfold len in *. cbn [length] in *. lia.
      * unfold len. lia.
    + exists q. split; [reflexivity|]. cbn [length]. rewrite app_length. lia.
Qed.

(** Copying the first [n] bytes of a string, trimmed: the destination (of at least n + 1 bytes)
    holds the trimmed text, its bytes behind position [n] are unchanged. *)
Theorem C29_clrncpy : forall s rest dst n, cstr s -> (n <= length s)%nat -> (n < length dst)%nat -> exists w junk,
  clrncpy dst (s ++ NUL :: rest) (Z.of_nat n) = Ok (w ++ NUL :: junk ++ skipn (S n) dst) /\
  is_trim (firstn n s) w /\ length (w ++ junk) = n.
Proof.
  intros s rest dst n H L D. destruct (cut _ s n L) as (seg & s2 & -> & <-). rewrite firstn_len_app.
  destruct (clrncpy_cut seg s2 rest dst H D) as (junk & E & J). exists (trim seg), junk.
  split; [exact E|]. split; [apply trim_is_trim|exact J].
Qed.
Example C29_copy_witness : clrncpy (repeat "."%char 7) ($" a b  c" ++ [NUL]) 5 = Ok ($"a b" ++ [NUL; NUL; "."%char; "."%char]).
Proof. vm_compute. reflexivity. Qed.

(** * C50 *)

(** The number a digit string denotes *)
Definition decimal (ds : str) : Z := fold_left (fun a c => 10 * a + (Z.of_N (code c) - 48)) ds 0.
Definition digit_string (ds : str) : Prop := ds <> [] /\ Forall (fun c => (48 <= code c <= 57)%N) ds.

Lemma digit_is : forall c, (48 <= code c <= 57)%N -> is_digit c = true.
Proof. intros c H. unfold is_digit. apply andb_true_iff. split; apply N.leb_le; lia. Qed.

Lemma digits_val_fold : forall ds acc, Forall (fun c => (48 <= code c <= 57)%N) ds ->
  digits_val acc ds = fold_left (fun a c => 10 * a + (Z.of_N (code c) - 48)) ds acc.
Proof.
  induction ds as [|c ds IH]; intros acc H; [reflexivity|]. inversion H as [|? ? H1 H2]; subst. cbn [digits_val fold_left].
  rewrite digit_is by auto. rewrite IH by auto. unfold digit_val. f_equal. lia.
Qed.

Lemma decimal_nonneg : forall ds acc, 0 <= acc -> Forall (fun c => (48 <= code c <= 57)%N) ds ->
  0 <= fold_left (fun a c => 10 * a + (Z.of_N (code c) - 48)) ds acc.
Proof.
  induction ds as [|c ds IH]; intros acc A H; [exact A|]. inversion H as [|? ? H1 H2]; subst. cbn [fold_left]. apply IH; auto. lia.
Qed.

Lemma code_neq : forall c d, code c <> code d -> Ascii.eqb c d = false.
Proof. intros c d H. destruct (Ascii.eqb_spec c d) as [->|]; [contradiction|reflexivity]. Qed.

Lemma strtol_digits : forall ds, digit_string ds -> strtol ds = Z.min LONG_MAX (decimal ds).
Proof.
  intros ds [N H]. destruct ds as [|c ds]; [contradiction|]. inversion H as [|? ? H1 H2]; subst.
  unfold strtol. cbn [skip_space]. unfold isspace.
  rewrite (code_neq c sp) by (intros E; rewrite E in H1; revert H1; vm_compute; intros [X _]; apply X; reflexivity).
  replace ((9 <=? code c)%N && (code c <=? 13)%N) with false by (symmetry; apply andb_false_iff; right; apply N.leb_gt; lia). cbn [orb].
  rewrite (code_neq c "-"%char) by (intros E; rewrite E in H1; revert H1; vm_compute; intros [X _]; apply X; reflexivity).
  rewrite (code_neq c "+"%char) by (intros E; rewrite E in H1; revert H1; vm_compute; intros [X _]; apply X; reflexivity).
  rewrite digits_val_fold by auto. change (fold_left _ (c :: ds) 0) with (decimal (c :: ds)).
  assert (0 <= decimal (c :: ds)) by (apply decimal_nonneg; [lia|auto]). unfold LONG_MIN, LONG_MAX. lia.
Qed.

(** Numbers that fit in an int are converted exactly.  Missing with respect to the full claim:
    larger numbers are altered instead of refused (C50_refuted). *)
Theorem C50_partial : forall ds, digit_string ds -> decimal ds <= 2147483647 -> osip_atoi ds = decimal ds.
Proof.
  intros ds H L. unfold osip_atoi. rewrite strtol_digits by auto.
  assert (0 <= decimal ds) by (destruct H as [_ H]; apply decimal_nonneg; [lia|auto]).
  replace (Z.min LONG_MAX (decimal ds)) with (decimal ds) by (unfold LONG_MAX; lia).
  assert (int32 (decimal ds) = decimal ds) as ->.
  { unfold int32. rewrite Z.mod_small by lia. replace (decimal ds <? 2147483648) with true by lia. reflexivity. }
  replace (decimal ds =? LONG_MIN) with false by (unfold LONG_MIN; lia).
  replace (decimal ds =? LONG_MAX) with false by (unfold LONG_MAX; lia). reflexivity.
Qed.
(** A port or length too large for an int silently becomes another, valid one. *)
Theorem C50_refuted : exists ds, digit_string ds /\ decimal ds = 4294972356 /\ osip_atoi ds = 5060.
Proof.
  exists ($"4294972356"). split; [|split; reflexivity]. split; [discriminate|].
  repeat (constructor; [vm_compute; split; discriminate|]). constructor.
Qed.
Example C50_witness : digit_string ($"5060") /\ osip_atoi ($"5060") = 5060.
Proof. split; [|reflexivity]. split; [discriminate|]. repeat (constructor; [vm_compute; split; discriminate|]). constructor. Qed.

(** * C53 *)
Theorem C53_in_bounds : forall err, exists s, strerror err = Ok s /\ In s error_table /\
  (-59 <= err <= 0 -> nth_error error_table (Z.to_nat (- err)) = Some s).
Proof.
  intros err. unfold strerror. destruct (Z.gtb_spec err 0) as [P|P].
  - exists ($"success"). split; [reflexivity|]. split; [left; reflexivity|lia].
  - destruct (Z.gtb_spec err (-60)) as [Q|Q].
    + replace (- err <? 0) with false by lia.
      destruct (nth_error error_table (Z.to_nat (- err))) as [s|] eqn:E.
      * exists s. split; [reflexivity|]. split; [eapply nth_error_In; eauto|auto].
      * exfalso. apply nth_error_None in E. change (length error_table) with 61%nat in E. lia.
    + exists ($"undefined"). split; [reflexivity|]. split; [|lia].
      apply (nth_error_In error_table 59). reflexivity.
Qed.
Example C53_witness : strerror OSIP_SYNTAXERROR = Ok ($"syntax error") /\ strerror (-2147483648) = Ok ($"undefined").
Proof. split; reflexivity. Qed.

(** * C55 *)
(** Between quotes, the copy holds exactly the text between them.  Missing: the text that is a
    single quote, for which the copy is written one byte before its start (C55_refuted). *)
Theorem C55_partial : forall t buf, cstr t -> length buf = S (S (S (length t))) -> exists junk,
  strdup_without_quote (dquote :: t ++ [dquote]) buf = Ok (t ++ NUL :: junk).
Proof.
  intros t buf C L. unfold strdup_without_quote. rewrite Ascii.eqb_refl.
  destruct (cut _ buf (S (S (length t)))) as (a & r & -> & La); [lia|].
  assert (length r = 1)%nat by (rewrite app_length in L; lia).
  change (a ++ r) with ([] ++ a ++ r). rewrite wr_range_at; [|reflexivity|rewrite !app_length; cbn; lia]. cbn [res_bind app].
  replace (((t ++ [dquote]) ++ [NUL]) ++ r) with ((t ++ [dquote]) ++ NUL :: r) by (rewrite <- !app_assoc; reflexivity).
  rewrite strlen_at by (apply cstr_app; split; [exact C|intros [X|[]]; discriminate]). cbn [res_bind].
  replace ((t ++ [dquote]) ++ NUL :: r) with (t ++ [dquote; NUL] ++ r) by (rewrite <- app_assoc; reflexivity).
  rewrite wr_range_at; [|rewrite len_app, len_cons, len_nil; lia|reflexivity]. exists (NUL :: r). reflexivity.
Qed.
Theorem C55_unquoted : forall s buf, cstr s -> hd_error s <> Some dquote -> length buf = S (length s) ->
  strdup_without_quote s buf = Ok (s ++ [NUL]).
Proof.
  intros s buf C N L. unfold strdup_without_quote. destruct s as [|c s].
  - destruct buf as [|x [|y buf]]; try discriminate. reflexivity.
  - destruct (Ascii.eqb_spec c dquote) as [->|_]; [contradiction N; reflexivity|].
    rewrite <- (app_nil_r buf). change (buf ++ []) with ([] ++ buf ++ []). rewrite wr_range_at; [rewrite app_nil_r; reflexivity|reflexivity|].
    rewrite app_length. cbn in *. lia.
Qed.
Theorem C55_refuted : forall buf, length buf = 2%nat -> strdup_without_quote [dquote] buf = UB.
Proof. intros [|x [|y [|z buf]]] L; try discriminate. reflexivity. Qed.
Example C55_witness : strdup_without_quote ($"""ab""") (repeat "."%char 5) = Ok ($"ab" ++ [NUL; NUL; "."%char]).
Proof. reflexivity. Qed.

Print Assumptions C29_clrspace.
Print Assumptions C29_clrncpy.
Print Assumptions C50_partial.
Print Assumptions C53_in_bounds.

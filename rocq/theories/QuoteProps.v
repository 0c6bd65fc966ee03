(** C30 quote search, C31 quoting. *)
From Coq Require Import String ZArith NArith Ascii Bool List Lia ZifyBool ZifyNat.
From Verif Require Import Base Str StrLemmas MemModel MemLemmas PortModel PortBuf.
Import ListNotations.
Open Scope Z_scope.

(** Number of backslashes that directly precede position [i] *)
Fixpoint backslashes_before (s : str) (i : nat) : nat :=
  match i with
  | O => O
  | S j => if Ascii.eqb (nth j s NUL) bslash then S (backslashes_before s j) else O
  end.
(** Position [i] holds a double quote that is not escaped. *)
Definition real_quote (s : str) (i : nat) : Prop :=
  nth_error s i = Some dquote /\ Nat.even (backslashes_before s i) = true.

Lemma rd_nth : forall s rest i, (i <= length s)%nat -> rd (s ++ NUL :: rest) (Z.of_nat i) = Ok (nth i s NUL).
Proof.
  intros s rest i H. unfold rd. replace (Z.of_nat i <? 0) with false by lia. rewrite Nat2Z.id.
  destruct (Nat.eq_dec i (length s)) as [->|N].
  - rewrite nth_error_app2, Nat.sub_diag by lia. rewrite nth_overflow by lia. reflexivity.
  - rewrite nth_error_app1 by lia. rewrite (nth_error_nth' s NUL) by lia. reflexivity.
Qed.

Lemma nth_dq : forall s i, nth_error s i = Some dquote <-> nth i s NUL = dquote.
Proof.
  intros s i. split; intros H.
  - apply nth_error_nth. exact H.
  - assert (i < length s)%nat. { destruct (le_lt_dec (length s) i) as [L|L]; auto. rewrite nth_overflow in H by auto. discriminate. }
    rewrite (nth_error_nth' s NUL), H by auto. reflexivity.
Qed.

Lemma cstr_nth : forall s i, cstr s -> (i < length s)%nat -> nth i s NUL <> NUL.
Proof. intros s i H L E. apply H. rewrite <- E. apply nth_In, L. Qed.

Lemma strchr_from_spec : forall s rest fuel i, cstr s -> (i <= length s)%nat -> (length s - i < fuel)%nat ->
  match strchr_from fuel (s ++ NUL :: rest) (Z.of_nat i) dquote with
  | Ok (Some z) => exists q, z = Z.of_nat q /\ (i <= q < length s)%nat /\ nth q s NUL = dquote /\
                             (forall j, (i <= j < q)%nat -> nth j s NUL <> dquote)
  | Ok None => forall j, (i <= j)%nat -> nth j s NUL <> dquote
  | _ => False
  end.
Proof.
  intros s rest. induction fuel as [|fuel IH]; intros i C L F; [lia|].
  cbn [strchr_from]. rewrite rd_nth by auto. cbn [res_bind].
  destruct (Ascii.eqb_spec (nth i s NUL) dquote) as [E|N].
  - exists i. repeat split; auto; [|intros j Hj; lia].
    destruct (Nat.eq_dec i (length s)) as [->|]; [rewrite nth_overflow in E by lia; discriminate|lia].
  - destruct (Ascii.eqb_spec (nth i s NUL) NUL) as [E|N2].
    + assert (i = length s). { destruct (Nat.eq_dec i (length s)); auto. exfalso. apply (cstr_nth s i); auto. lia. }
      intros j Hj. rewrite nth_overflow by lia. discriminate.
    + assert (i < length s)%nat. { destruct (Nat.eq_dec i (length s)) as [->|]; [rewrite nth_overflow in N2 by lia; contradiction|lia]. }
      replace (Z.of_nat i + 1) with (Z.of_nat (S i)) by lia.
      specialize (IH (S i) C ltac:(lia) ltac:(lia)). destruct (strchr_from fuel _ _ _) as [[z|]| |]; auto.
      * destruct IH as (q & -> & A & B & D). exists q. repeat split; auto; try lia.
        intros j Hj. destruct (Nat.eq_dec j i) as [->|]; auto. apply D. lia.
      * intros j Hj. destruct (Nat.eq_dec j i) as [->|]; auto. apply IH. lia.
Qed.

(** A run of backslashes of known length *)
Lemma run_is : forall s n q, (n <= q)%nat -> (forall k, (1 <= k <= n)%nat -> nth (q - k) s NUL = bslash) ->
  (n = q \/ nth (q - n - 1) s NUL <> bslash) -> backslashes_before s q = n.
Proof.
  intros s. induction n as [|n IH]; intros q L A B.
  - destruct q; [reflexivity|]. cbn [backslashes_before]. destruct B as [B|B]; [lia|].
    replace (S q - 0 - 1)%nat with q in B by lia. destruct (Ascii.eqb_spec (nth q s NUL) bslash); [contradiction|reflexivity].
  - destruct q; [lia|]. cbn [backslashes_before]. pose proof (A 1%nat ltac:(lia)) as A1. replace (S q - 1)%nat with q in A1 by lia.
    rewrite A1, Ascii.eqb_refl. f_equal. apply IH; [lia| |].
    + intros k Hk. specialize (A (S k) ltac:(lia)). replace (S q - S k)%nat with (q - k)%nat in A by lia. exact A.
    + destruct B as [B|B]; [left; lia|right]. replace (S q - S n - 1)%nat with (q - n - 1)%nat in B by lia. exact B.
Qed.

Definition found (s : str) (r : res (option Z)) : Prop :=
  match r with
  | Ok (Some z) => exists i, z = Z.of_nat i /\ real_quote s i /\ forall j, (j < i)%nat -> ~ real_quote s j
  | Ok None => forall j, ~ real_quote s j
  | _ => False
  end.

Lemma even_mod : forall n, (Z.of_nat n mod 2 =? 0) = Nat.even n.
Proof.
  intros n. rewrite <- Nat.negb_odd, <- Nat.bit0_odd.
  pose proof (Nat.div_mod n 2 ltac:(lia)) as D. pose proof (Nat.mod_upper_bound n 2 ltac:(lia)).
  rewrite Nat.bit0_odd, Nat.negb_odd.
  destruct (Nat.even n) eqn:E.
  - apply Nat.even_spec in E as [k ->]. rewrite Nat2Z.inj_mul. rewrite Z.mul_comm, Z.mod_mul by lia. reflexivity.
  - assert (Nat.odd n = true) as O by (rewrite <- Nat.negb_even, E; reflexivity).
    apply Nat.odd_spec in O as [k ->]. replace (Z.of_nat (2 * k + 1)) with (1 + Z.of_nat k * 2) by lia.
    rewrite Z.mod_add by lia. reflexivity.
Qed.
Lemma odd_mod : forall n, (Z.of_nat n mod 2 =? 1) = Nat.odd n.
Proof.
  intros n. rewrite <- Nat.negb_even, <- even_mod.
  pose proof (Z.mod_pos_bound (Z.of_nat n) 2 ltac:(lia)). lia.
Qed.

Section Loop.
Variables (s rest : str).
Hypothesis C : cstr s.
Let b := s ++ NUL :: rest.

Lemma rd_b : forall i, (i <= length s)%nat -> rd b (Z.of_nat i) = Ok (nth i s NUL).
Proof. intros. apply rd_nth; auto. Qed.

Definition before_done (quote : nat) : Prop := forall j, (j < quote)%nat -> ~ real_quote s j.

(** what the search for the following quote gives *)
Lemma next_quote : forall quote, (quote < length s)%nat -> nth quote s NUL = dquote -> before_done quote -> ~ real_quote s quote ->
  (exists q, strchr_from (fuel_of b) b (Z.of_nat quote + 1) dquote = Ok (Some (Z.of_nat q)) /\ (quote < q < length s)%nat /\
     nth q s NUL = dquote /\ before_done q) \/
  (strchr_from (fuel_of b) b (Z.of_nat quote + 1) dquote = Ok None /\ forall j, ~ real_quote s j).
Proof.
  intros quote L Q D N. replace (Z.of_nat quote + 1) with (Z.of_nat (S quote)) by lia.
  pose proof (strchr_from_spec s rest (fuel_of b) (S quote) C ltac:(lia)) as H.
  assert (F : (length s - S quote < fuel_of b)%nat) by (unfold fuel_of, b; rewrite app_length; lia). specialize (H F).
  fold b in H. destruct (strchr_from _ _ _ _) as [[z|]| |]; try contradiction.
  - destruct H as (q & -> & A & B & E). left. exists q. split; [reflexivity|]. split; [lia|]. split; [exact B|].
    intros j Hj R. destruct (Nat.lt_trichotomy j quote) as [X|[->|X]]; [eapply D; eauto|contradiction|].
    destruct R as [R _]. apply nth_dq in R. apply (E j); auto; lia.
  - right. split; [reflexivity|]. intros j R. destruct (Nat.lt_trichotomy j quote) as [X|[->|X]]; [eapply D; eauto|contradiction|].
    destruct R as [R _]. apply nth_dq in R. apply (H j); auto.
Qed.

Definition linv (qs quote i : nat) : Prop :=
  (quote < length s)%nat /\ nth quote s NUL = dquote /\ (qs <= quote)%nat /\ (qs = O \/ nth (qs - 1) s NUL = dquote) /\
  before_done quote /\ (1 <= i)%nat /\ (forall k, (1 <= k < i)%nat -> nth (quote - k) s NUL = bslash) /\
  ((i <= quote - qs)%nat \/ (i = 1%nat /\ quote = qs /\ (0 < qs)%nat)).

Lemma loop_ok : forall fuel qs quote i, linv qs quote i ->
  ((length s - quote) * (length s + 2) + (length s + 1 - i) < fuel)%nat ->
  found s (quote_loop fuel b (Z.of_nat qs) (Z.of_nat quote) (Z.of_nat i)).
Proof.
  induction fuel as [|fuel IH]; intros qs quote i I F; [exfalso; exact (Nat.nlt_0_r _ F)|].
  destruct I as (L & Q & Hqs & Hpre & D & Hi & R & P).
  cbn [quote_loop]. rewrite <- Nat2Z.inj_sub by lia. rewrite (rd_b (quote - i)) by lia.
  cbn [res_bind].
  (* the tail after the increment *)
  assert (RQ : forall n, backslashes_before s quote = n -> Nat.even n = true -> real_quote s quote).
  { intros n E V. split; [apply nth_dq; exact Q|rewrite E; exact V]. }
  assert (NRQ : forall n, backslashes_before s quote = n -> Nat.even n = false -> ~ real_quote s quote).
  { intros n E V [_ X]. rewrite E, V in X. discriminate. }
  assert (FIN : real_quote s quote -> found s (Ok (Some (Z.of_nat quote)))).
  { intros X. exists quote. split; [reflexivity|]. split; auto. }
  destruct (Ascii.eqb_spec (nth (quote - i) s NUL) bslash) as [E|N].
  - (* one more backslash *)
    destruct P as [P|(-> & -> & P)].
    2:{ exfalso. destruct Hpre as [->|Hpre]; [lia|]. rewrite Hpre in E. discriminate. }
    assert (R' : forall k, (1 <= k < S i)%nat -> nth (quote - k) s NUL = bslash).
    { intros k Hk. destruct (Nat.eq_dec k i) as [->|]; auto. apply R. lia. }
    replace (Z.of_nat i + 1) with (Z.of_nat (S i)) by lia.
    destruct (Z.eqb_spec (Z.of_nat quote - Z.of_nat (S i)) (Z.of_nat qs - 1)) as [Z|Z].
    + (* the whole piece is made of backslashes *)
      assert (i = quote - qs)%nat by lia. subst i.
      rewrite (rd_b qs) by lia. cbn [res_bind].
      assert (E0 : nth qs s NUL = bslash) by (replace qs with (quote - (quote - qs))%nat by lia; exact E).
      rewrite E0, Ascii.eqb_refl.
      assert (RUN : backslashes_before s quote = (quote - qs)%nat).
      { apply run_is; [lia| |].
        - intros k Hk. apply R'. lia.
        - destruct Hpre as [->|Hpre]; [left; lia|]. destruct (Nat.eq_dec qs 0) as [->|]; [left; lia|]. right.
          replace (quote - (quote - qs) - 1)%nat with (qs - 1)%nat by lia. rewrite Hpre. discriminate. }
      replace (Z.of_nat (S (quote - qs)) + 1) with (Z.of_nat (S (S (quote - qs)))) by lia. rewrite even_mod.
      change (Nat.even (S (S (quote - qs)))) with (Nat.even (quote - qs)).
      destruct (Nat.even (quote - qs)) eqn:V; [apply FIN; eapply RQ; eauto|].
      destruct (next_quote quote L Q D ltac:(eapply NRQ; eauto)) as [(q & -> & Lq & Qq & Dq)|[-> A]]; cbn [res_bind]; [|exact A].
      replace (Z.of_nat quote + 1) with (Z.of_nat (S quote)) by lia. change 1 with (Z.of_nat 1). apply IH.
      * unfold linv. repeat split; auto; try lia.
        right. replace (S quote - 1)%nat with quote by lia. exact Q.
      * nia.
    + apply IH; [|nia]. unfold linv. repeat split; auto; try lia.
  - (* a byte that is not a backslash *)
    assert (RUN : backslashes_before s quote = (i - 1)%nat).
    { apply run_is; [lia| |].
      - intros k Hk. apply R. lia.
      - right. replace (quote - (i - 1) - 1)%nat with (quote - i)%nat by lia. exact N. }
    rewrite odd_mod. destruct i as [|i]; [lia|]. replace (S i - 1)%nat with i in RUN by lia.
    rewrite Nat.odd_succ. destruct (Nat.even i) eqn:V; [apply FIN; eapply RQ; eauto|].
    destruct (next_quote quote L Q D ltac:(eapply NRQ; eauto)) as [(q & -> & Lq & Qq & Dq)|[-> A]]; cbn [res_bind]; [|exact A].
    replace (Z.of_nat q - 1 =? Z.of_nat qs - 1) with false by lia. change 1 with (Z.of_nat 1). apply IH.
    + unfold linv. repeat split; auto; try lia.
    + nia.
Qed.
End Loop.

(** The search returns the first double quote preceded by an even number of backslashes, or
    fails when there is none; it reads inside the string only. *)
Theorem C30_quote_find : forall s rest, cstr s -> exists r, quote_find (s ++ NUL :: rest) = Ok r /\
  match r with
  | Some z => exists i, z = Z.of_nat i /\ real_quote s i /\ forall j, (j < i)%nat -> ~ real_quote s j
  | None => forall j, ~ real_quote s j
  end.
Proof.
  intros s rest C.
  assert (H : found s (quote_find (s ++ NUL :: rest))).
  { unfold quote_find. pose proof (strchr_from_spec s rest (fuel_of (s ++ NUL :: rest)) 0 C ltac:(lia)) as H.
    assert (F : (length s - 0 < fuel_of (s ++ NUL :: rest))%nat) by (unfold fuel_of; rewrite app_length; lia). specialize (H F).
    change (Z.of_nat 0) with 0 in H. destruct (strchr_from _ _ _ _) as [[z|]| |]; try contradiction; cbn [res_bind].
    - destruct H as (q & -> & L & Q & N).
      destruct (Z.eqb_spec (Z.of_nat q) 0) as [E|E].
      + assert (q = 0)%nat by lia. subst q. exists 0%nat. split; [reflexivity|]. split; [|lia]. split; [apply nth_dq; auto|reflexivity].
      + change 0 with (Z.of_nat 0). change 1 with (Z.of_nat 1). apply loop_ok; auto.
        * unfold linv. repeat split; auto; try lia. intros j Hj [R _]. apply nth_dq in R. apply (N j); auto; lia.
        * unfold fuel_of. rewrite app_length. cbn [length]. nia.
    - intros j [R _]. apply nth_dq in R. apply (H j); auto; lia. }
  destruct (quote_find _) as [r| |]; try contradiction. exists r. split; [reflexivity|]. destruct r; exact H.
Qed.

Example C30_witness : quote_find ($"a\""\\""" ++ [NUL]) = Ok (Some 5) /\ real_quote ($"a\""\\""") 5.
Proof. split; [vm_compute; reflexivity|]. split; reflexivity. Qed.

(** * C31 *)

(** What osip_enquote writes for one byte *)
Definition esc (c : ascii) : str :=
  if Ascii.eqb c dquote || Ascii.eqb c bslash || Ascii.eqb c del then [bslash; c]
  else if Ascii.eqb c lf || Ascii.eqb c cr then [sp] else [c].
Definition quoted (s : str) : str := dquote :: flat_map esc s ++ [dquote].

Lemma put_ok : forall w x j c n, n = len w -> put (Ok (w ++ x :: j, n)) c = Ok ((w ++ [c]) ++ j, len (w ++ [c])).
Proof.
  intros w x j c n ->. unfold put. cbn [res_bind fst snd]. rewrite wr_at by reflexivity. cbn [res_bind].
  rewrite len_app, len_cons, len_nil, <- app_assoc. reflexivity.
Qed.

Lemma enquote_loop_ok : forall s w j n, n = len w -> (length (flat_map esc s) <= length j)%nat ->
  enquote_loop s (Ok (w ++ j, n)) = Ok ((w ++ flat_map esc s) ++ skipn (length (flat_map esc s)) j, len (w ++ flat_map esc s)).
Proof.
  induction s as [|c s IH]; intros w j n -> L.
  - cbn. rewrite app_nil_r. reflexivity.
  - cbn [flat_map] in *. remember (flat_map esc s) as F. unfold esc in L |- *. cbn [enquote_loop].
    destruct (Ascii.eqb c dquote || Ascii.eqb c bslash || Ascii.eqb c del).
    + rewrite app_length in L. cbn [length] in L. destruct j as [|x [|y j]]; cbn [length] in L; try lia.
      rewrite put_ok by reflexivity. cbn [app] in *. rewrite put_ok by reflexivity. rewrite IH by (auto; lia).
      cbn [length skipn]. rewrite <- !app_assoc. reflexivity.
    + destruct (Ascii.eqb c lf || Ascii.eqb c cr); rewrite app_length in L; cbn [length] in L;
        (destruct j as [|x j]; cbn [length] in L; [lia|]);
        rewrite put_ok by reflexivity; rewrite IH by (auto; lia); cbn [app length skipn]; rewrite <- !app_assoc; reflexivity.
Qed.

Lemma esc_len : forall s, (length (flat_map esc s) <= length s * 2)%nat.
Proof.
  induction s as [|c s IH]; [auto|]. cbn [flat_map length]. rewrite app_length.
  assert (length (esc c) <= 2)%nat; [|lia]. unfold esc. destruct (_ || _ || _); [auto|]. destruct (_ || _); auto.
Qed.

(** osip_enquote stays inside the buffer it allocated. *)
Lemma enquote_ok : forall s buf, length buf = enquote_size s -> exists junk, enquote s buf = Ok (quoted s ++ NUL :: junk).
Proof.
  intros s buf L. unfold enquote_size in L. pose proof (esc_len s) as E.
  destruct (cut _ buf (S (length (flat_map esc s)))) as (a & b & -> & La); [lia|]. rewrite app_length in L.
  destruct a as [|a0 a]; [discriminate|]. cbn in La. injection La as La. cbn in L.
  destruct b as [|x [|y b]]; cbn in L; try lia.
  unfold enquote. change (a0 :: a) with ([] ++ a0 :: a). rewrite <- app_assoc. change ((a0 :: a) ++ x :: y :: b) with (a0 :: a ++ x :: y :: b).
  rewrite put_ok by reflexivity. cbn [app]. change (dquote :: a ++ x :: y :: b) with ([dquote] ++ a ++ x :: y :: b).
  rewrite enquote_loop_ok; [|reflexivity|rewrite app_length; lia].
  rewrite <- La, skipn_len_app. rewrite put_ok by reflexivity. rewrite put_ok by reflexivity. cbn [res_bind fst].
  exists b. f_equal. unfold quoted. cbn [app]. rewrite <- !app_assoc. reflexivity.
Qed.

(** The effect of the unescaping loop on a string *)
Fixpoint undo (t : str) : str :=
  match t with
  | [] => []
  | c :: t' => if Ascii.eqb c bslash then match t' with [] => [] | d :: t'' => d :: undo t'' end else c :: undo t'
  end.

Lemma dequote_loop_ok : forall n t fuel pre rest p l, (length t <= n)%nat -> (length t < fuel)%nat -> cstr t -> p = len pre -> l = len t ->
  exists junk, dequote_loop fuel (pre ++ t ++ NUL :: rest) p l = Ok (pre ++ undo t ++ NUL :: junk ++ rest) /\
  length (undo t ++ junk) = length t.
Proof.
  induction n as [|n IH]; intros t fuel pre rest p l Ln F C -> ->; (destruct fuel as [|fuel]; [lia|]); cbn [dequote_loop].
  - destruct t; [|cbn in Ln; lia]. cbn [app]. rewrite rd_at by reflexivity. exists []. split; reflexivity.
  - destruct t as [|c t]; [cbn [app]; rewrite rd_at by reflexivity; exists []; split; reflexivity|].
    cbn [app]. rewrite rd_at by reflexivity. cbn [res_bind]. cbn [length] in Ln, F. apply cstr_cons in C as [N C].
    destruct (Ascii.eqb_spec c NUL) as [?|_]; [contradiction|]. cbn [undo].
    destruct (Ascii.eqb_spec c bslash) as [->|Nb].
    + unfold memmove.
      replace (pre ++ bslash :: t ++ NUL :: rest) with ((pre ++ [bslash]) ++ (t ++ [NUL]) ++ rest) by (rewrite <- !app_assoc; reflexivity).
      rewrite rd_range_at; [|rewrite len_app; reflexivity|rewrite len_app, len_cons, len_cons, len_nil; lia]. cbn [res_bind].
      destruct t as [|d t].
      * replace ((pre ++ [bslash]) ++ ([] ++ [NUL]) ++ rest) with (pre ++ [bslash] ++ NUL :: rest) by (rewrite <- !app_assoc; reflexivity).
        rewrite wr_range_at by reflexivity. cbn [res_bind]. destruct fuel as [|fuel]; [cbn in F; lia|]. cbn [dequote_loop].
        replace (pre ++ ([] ++ [NUL]) ++ NUL :: rest) with ((pre ++ [NUL]) ++ NUL :: rest) by (rewrite <- !app_assoc; reflexivity).
        rewrite rd_at by (rewrite len_app; reflexivity). exists [NUL]. split; [|reflexivity]. cbn [res_bind Ascii.eqb]. rewrite <- app_assoc. reflexivity.
      * replace ((pre ++ [bslash]) ++ ((d :: t) ++ [NUL]) ++ rest) with (pre ++ ([bslash] ++ (d :: t)) ++ NUL :: rest) by (rewrite <- !app_assoc; reflexivity).
        rewrite wr_range_at; [|reflexivity|rewrite !app_length; cbn; lia]. cbn [res_bind].
        apply cstr_cons in C as [Nd C]. cbn [length] in Ln, F.
        replace (pre ++ ((d :: t) ++ [NUL]) ++ NUL :: rest) with ((pre ++ [d]) ++ t ++ NUL :: NUL :: rest) by (rewrite <- !app_assoc; reflexivity).
        destruct (IH t fuel (pre ++ [d]) (NUL :: rest) (len pre + 1) (len (bslash :: d :: t) - 2)) as (junk & E & J);
          [lia|lia|exact C|rewrite len_app; reflexivity|rewrite !len_cons; lia|].
        exists (junk ++ [NUL]). rewrite E. split; [f_equal; rewrite <- !app_assoc; reflexivity|].
        rewrite !app_length in *. cbn [length]. lia.
    + replace (pre ++ c :: t ++ NUL :: rest) with ((pre ++ [c]) ++ t ++ NUL :: rest) by (rewrite <- app_assoc; reflexivity).
      destruct (IH t fuel (pre ++ [c]) rest (len pre + 1) (len (c :: t) - 1)) as (junk & E & J);
        [lia|lia|exact C|rewrite len_app; reflexivity|rewrite !len_cons; lia|].
      exists junk. rewrite E. split; [f_equal; rewrite <- !app_assoc; reflexivity|cbn [app length]; lia].
Qed.

(** What osip_dequote leaves of a string *)
Definition dequoted (s : str) : str :=
  match s with
  | c :: t => if Ascii.eqb c dquote
              then undo (match rev t with x :: t' => if Ascii.eqb x dquote then rev t' else t | [] => t end)
              else s
  | [] => []
  end.

(** osip_dequote works inside the string's own bytes, whatever the string. *)
Lemma dequote_ok : forall s rest, cstr s -> exists junk,
  dequote (s ++ NUL :: rest) = Ok (dequoted s ++ NUL :: junk ++ rest) /\ length (dequoted s ++ junk) = length s.
Proof.
  intros [|c t] rest C; [exists []; split; reflexivity|]. unfold dequote, dequoted. cbn [app]. change (rd (c :: t ++ NUL :: rest) 0) with (Ok c).
  cbn [res_bind]. pose proof C as C0. apply cstr_cons in C as [N C]. destruct (Ascii.eqb_spec c NUL) as [?|_]; [contradiction|].
  destruct (Ascii.eqb_spec c dquote) as [->|Nq]; cbn [negb]; [|exists []; split; [reflexivity|rewrite app_nil_r; reflexivity]].
  change (dquote :: t ++ NUL :: rest) with ((dquote :: t) ++ NUL :: rest). rewrite strlen_at by auto. cbn [res_bind]. unfold memmove.
  replace ((dquote :: t) ++ NUL :: rest) with ([dquote] ++ (t ++ [NUL]) ++ rest) by (cbn [app]; rewrite <- app_assoc; reflexivity).
  rewrite rd_range_at; [|reflexivity|rewrite len_app, !len_cons, len_nil; lia]. cbn [res_bind].
  replace ([dquote] ++ (t ++ [NUL]) ++ rest) with ([] ++ (dquote :: t) ++ NUL :: rest) by (cbn [app]; rewrite <- app_assoc; reflexivity).
  rewrite wr_range_at; [|reflexivity|rewrite app_length; cbn; lia]. cbn [res_bind app].
  replace (len (dquote :: t) - 1) with (len t) by (rewrite len_cons; lia).
  set (fu := fuel_of _). assert (FU : (S (length t) < fu)%nat) by (unfold fu, fuel_of; cbn [length]; rewrite app_length; cbn; lia).
  destruct (rev t) as [|x t'] eqn:R.
  - apply (f_equal (@rev _)) in R. rewrite rev_involutive in R. cbn in R. subst t. cbn [res_bind len]. unfold len. cbn [length Z.of_nat Z.gtb Z.compare res_bind].
    destruct (dequote_loop_ok 0 [] fu [] (NUL :: rest) 0 0) as (junk & E & J); auto; [lia|].
    cbn [app] in *. rewrite E. exists (junk ++ [NUL]). split; [rewrite <- app_assoc; reflexivity|]. cbn. rewrite app_length. cbn in *. lia.
  - apply (f_equal (@rev _)) in R. rewrite rev_involutive in R. cbn in R. set (t1 := rev t') in *. subst t.
    apply cstr_app in C as [C1 Cx].
    assert (Lt : len (t1 ++ [x]) = len t1 + 1) by (rewrite len_app; reflexivity). pose proof (len_nonneg _ t1) as L0. rewrite app_length in FU. cbn in FU.
    rewrite Lt. replace (len t1 + 1 >? 0) with true by lia. replace (len t1 + 1 - 1) with (len t1) by lia.
    replace (((t1 ++ [x]) ++ [NUL]) ++ NUL :: rest) with (t1 ++ x :: NUL :: NUL :: rest) by (rewrite <- !app_assoc; reflexivity).
    rewrite rd_at by reflexivity. cbn [res_bind].
    destruct (Ascii.eqb_spec x dquote) as [->|Nx].
    + rewrite wr_at by reflexivity. cbn [res_bind].
      destruct (dequote_loop_ok (length t1) t1 fu [] (NUL :: NUL :: rest) 0 (len t1)) as (junk & E & J); auto; [lia|].
      cbn [app] in *. rewrite E. exists (junk ++ [NUL; NUL]). split; [rewrite <- app_assoc; reflexivity|].
      rewrite app_assoc, app_length, J. cbn [length]. rewrite app_length. cbn. lia.
    + replace (t1 ++ x :: NUL :: NUL :: rest) with ((t1 ++ [x]) ++ NUL :: NUL :: rest) by (rewrite <- !app_assoc; reflexivity).
      destruct (dequote_loop_ok (length (t1 ++ [x])) (t1 ++ [x]) fu [] (NUL :: rest) 0 (len t1 + 1)) as (junk & E & J); auto;
        [rewrite app_length; cbn; lia|apply cstr_app; auto|].
      cbn [app] in *. rewrite E. exists (junk ++ [NUL]). split; [rewrite <- app_assoc; reflexivity|].
      rewrite app_assoc, app_length, J. cbn [length]. lia.
Qed.

Lemma undo_esc : forall s, (forall c, In c s -> c <> cr /\ c <> lf) -> undo (flat_map esc s) = s.
Proof.
  induction s as [|c s IH]; intros H; [reflexivity|]. cbn [flat_map]. unfold esc at 1.
  destruct (Ascii.eqb_spec c dquote) as [->|N1]; [cbn [orb app undo]; rewrite Ascii.eqb_refl, IH; [reflexivity|intros; apply H; right; auto]|].
  destruct (Ascii.eqb_spec c bslash) as [->|N2]; [cbn [orb app undo]; rewrite Ascii.eqb_refl, IH; [reflexivity|intros; apply H; right; auto]|].
  destruct (Ascii.eqb c del); cbn [orb app undo]; [rewrite Ascii.eqb_refl, IH; [reflexivity|intros; apply H; right; auto]|].
  destruct (H c (or_introl eq_refl)) as [A B]. destruct (Ascii.eqb_spec c lf); [contradiction|]. destruct (Ascii.eqb_spec c cr); [contradiction|].
  cbn [orb app undo]. destruct (Ascii.eqb_spec c bslash); [contradiction|]. rewrite IH; [reflexivity|intros; apply H; right; auto].
Qed.

Lemma cstr_quoted : forall s, cstr s -> cstr (quoted s).
Proof.
  intros s C. unfold quoted. apply cstr_cons. split; [discriminate|]. apply cstr_app. split; [|intros [X|[]]; discriminate].
  intros X. apply in_flat_map in X as (c & I & X). assert (c <> NUL) by (intros ->; auto). unfold esc in X.
  destruct (_ || _ || _); [destruct X as [X|[X|[]]]; [discriminate|congruence]|].
  destruct (_ || _); destruct X as [X|[]]; [discriminate|congruence].
Qed.

(** Quoting a text into a buffer of the size the code allocates and removing the quotes in place
    gives the text back; neither touches a byte outside. *)
Theorem C31_round_trip : forall s buf, cstr s -> (forall c, In c s -> c <> cr /\ c <> lf) -> length buf = enquote_size s ->
  exists b b', enquote s buf = Ok b /\ dequote b = Ok b' /\ c_string b' = Ok s.
Proof.
  intros s buf C H L. destruct (enquote_ok s buf L) as (junk & E). destruct (dequote_ok (quoted s) junk (cstr_quoted s C)) as (j2 & E2 & _).
  exists (quoted s ++ NUL :: junk). eexists. split; [exact E|]. split; [exact E2|].
  assert (dequoted (quoted s) = s) as ->; [|apply c_string_at, C].
  unfold dequoted, quoted. rewrite Ascii.eqb_refl, rev_app_distr. cbn [rev app]. rewrite Ascii.eqb_refl, rev_involutive. apply undo_esc, H.
Qed.

(** osip_dequote never leaves the string it is given, whatever that string is. *)
Theorem C31_dequote_in_bounds : forall s rest, cstr s -> exists w junk,
  dequote (s ++ NUL :: rest) = Ok (w ++ NUL :: junk ++ rest) /\ length (w ++ junk) = length s.
Proof. intros s rest C. destruct (dequote_ok s rest C) as (j & E & L). eauto. Qed.

Lemma before_app : forall a b i, (i <= length a)%nat -> backslashes_before (a ++ b) i = backslashes_before a i.
Proof. intros a b. induction i as [|i IH]; intros L; [reflexivity|]. cbn [backslashes_before]. rewrite app_nth1, IH by lia. reflexivity. Qed.

Lemma before_snoc : forall a c b, backslashes_before (a ++ c :: b) (S (length a)) =
  if Ascii.eqb c bslash then S (backslashes_before a (length a)) else O.
Proof. intros. cbn [backslashes_before]. rewrite app_nth2, Nat.sub_diag, before_app by lia. reflexivity. Qed.

Lemma snoc_len : forall A (P : list A) x, length (P ++ [x]) = S (length P).
Proof. intros. rewrite app_length. cbn. lia. Qed.

Lemma real_quote_app : forall a b i, (i < length a)%nat -> (real_quote (a ++ b) i <-> real_quote a i).
Proof. intros a b i L. unfold real_quote. rewrite nth_error_app1, before_app by lia. tauto. Qed.

Lemma real_quote_snoc : forall P x b, real_quote (P ++ x :: b) (length P) <-> x = dquote /\ Nat.even (backslashes_before P (length P)) = true.
Proof.
  intros. unfold real_quote. rewrite nth_error_app2, Nat.sub_diag, before_app by lia. cbn. split; intros [A B]; split; auto; congruence.
Qed.

Lemma esc_no_real : forall s P, Nat.even (backslashes_before P (length P)) = true -> (forall j, ~ real_quote P j) ->
  (forall j, ~ real_quote (P ++ flat_map esc s) j) /\
  Nat.even (backslashes_before (P ++ flat_map esc s) (length (P ++ flat_map esc s))) = true.
Proof.
  induction s as [|c s IH]; intros P E N; [cbn; rewrite app_nil_r; auto|].
  (* one more byte x after P *)
  assert (ONE : forall Q x, (forall j, ~ real_quote Q j) -> (x = dquote -> Nat.even (backslashes_before Q (length Q)) = false) -> forall j, ~ real_quote (Q ++ [x]) j).
  { intros Q x NQ X j R. destruct (Nat.lt_trichotomy j (length Q)) as [L|[->|L]].
    - apply real_quote_app in R; auto. eapply NQ; eauto.
    - apply real_quote_snoc in R as [R1 R2]. rewrite X in R2; auto. discriminate.
    - destruct R as [R _]. assert (nth_error (Q ++ [x]) j <> None) as Z by congruence. apply nth_error_Some in Z. rewrite app_length in Z. cbn in Z. lia. }
  assert (BB : forall Q x, backslashes_before (Q ++ [x]) (length (Q ++ [x])) = if Ascii.eqb x bslash then S (backslashes_before Q (length Q)) else O).
  { intros Q x. rewrite snoc_len. apply before_snoc. }
  cbn [flat_map].
  assert (K : (forall j, ~ real_quote (P ++ esc c) j) /\ Nat.even (backslashes_before (P ++ esc c) (length (P ++ esc c))) = true).
  { unfold esc. destruct (Ascii.eqb c dquote || Ascii.eqb c bslash || Ascii.eqb c del) eqn:S3.
    - replace (P ++ [bslash; c]) with ((P ++ [bslash]) ++ [c]) by (rewrite <- app_assoc; reflexivity).
      assert (OD : Nat.even (backslashes_before (P ++ [bslash]) (length (P ++ [bslash]))) = false).
      { rewrite BB, Ascii.eqb_refl, Nat.even_succ, <- Nat.negb_even, E. reflexivity. }
      split.
      + apply ONE; [apply ONE; [exact N|discriminate]|intros _; exact OD].
      + rewrite BB. destruct (Ascii.eqb c bslash); [|reflexivity]. rewrite Nat.even_succ, <- Nat.negb_even, OD. reflexivity.
    - destruct (Ascii.eqb c lf || Ascii.eqb c cr).
      + split; [apply ONE; [exact N|discriminate]|rewrite BB; reflexivity].
      + destruct (Ascii.eqb_spec c dquote) as [|Nq]; [discriminate|]. destruct (Ascii.eqb c bslash) eqn:Nb; [discriminate|].
        split; [apply ONE; [exact N|contradiction]|rewrite BB, Nb; reflexivity]. }
  destruct K as [K1 K2]. rewrite app_assoc. apply IH; auto.
Qed.

(** The quoted text starts with a quote, and the only other unescaped quote is its last byte. *)
Theorem C31_one_quoted_string : forall s buf, cstr s -> length buf = enquote_size s ->
  exists b t, enquote s buf = Ok b /\ c_string b = Ok (dquote :: t ++ [dquote]) /\
  (forall i, real_quote (t ++ [dquote]) i <-> i = length t) /\
  quote_find (tl b) = Ok (Some (Z.of_nat (length t))).
Proof.
  intros s buf C L. destruct (enquote_ok s buf L) as (junk & E). exists (quoted s ++ NUL :: junk), (flat_map esc s).
  pose proof (cstr_quoted s C) as CQ. split; [exact E|]. split; [apply c_string_at; auto|].
  destruct (esc_no_real s [] eq_refl) as [A B]; [intros j [X _]; destruct j; discriminate|]. cbn [app] in A, B.
  assert (U : forall i, real_quote (flat_map esc s ++ [dquote]) i <-> i = length (flat_map esc s)).
  { intros i. split.
    - intros R. destruct (Nat.lt_trichotomy i (length (flat_map esc s))) as [X|[X|X]]; auto; exfalso.
      + apply real_quote_app in R; auto. eapply A; eauto.
      + destruct R as [R _]. assert (nth_error (flat_map esc s ++ [dquote]) i <> None) as Z by congruence.
        apply nth_error_Some in Z. rewrite app_length in Z. cbn in Z. lia.
    - intros ->. apply real_quote_snoc. auto. }
  split; [exact U|]. unfold quoted. cbn [tl app]. rewrite <- app_assoc. cbn [app].
  replace (flat_map esc s ++ dquote :: NUL :: junk) with ((flat_map esc s ++ [dquote]) ++ NUL :: junk) by (rewrite <- app_assoc; reflexivity).
  unfold quoted in CQ. apply cstr_cons in CQ as [_ CQ].
  destruct (C30_quote_find _ junk CQ) as (r & -> & R). destruct r as [z|].
  - destruct R as (i & -> & Ri & _). apply U in Ri. subst i. reflexivity.
  - exfalso. apply (R (length (flat_map esc s))). apply U. reflexivity.
Qed.

Example C31_witness : exists b, enquote ($"a""b\c") (repeat "."%char (enquote_size ($"a""b\c"))) = Ok b /\
  c_string b = Ok ($"""a\""b\\c""") /\ exists b', dequote b = Ok b' /\ c_string b' = Ok ($"a""b\c").
Proof. eexists. split; [vm_compute; reflexivity|]. split; [reflexivity|]. eexists. split; vm_compute; reflexivity. Qed.

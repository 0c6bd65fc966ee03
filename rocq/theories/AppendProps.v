(** C88: how long osip_usleep waits.  C89: osip_str_append and osip_strn_append *)
From Coq Require Import String ZArith Ascii Bool List Lia Arith.
From Verif Require Import Base Str MemModel MemLemmas AppendModel.
Import ListNotations.
Open Scope Z_scope.

(** * C88 *)
(** Specification: what the system is asked for, in microseconds, and what it accepts *)
Definition asked (tv : Z * Z) : Z := fst tv * 1000000 + snd tv.
Definition accepted (tv : Z * Z) : Prop := 0 <= fst tv /\ 0 <= snd tv < 1000000.

Lemma quot_of n : 0 <= n -> 0 <= Z.quot n 1000000 /\ Z.quot n 1000000 * 1000000 <= n < Z.quot n 1000000 * 1000000 + 1000000.
Proof. intros H. pose proof (Z.quot_rem' n 1000000). pose proof (Z.rem_bound_pos n 1000000 H). split; [apply Z.quot_pos; lia|lia]. Qed.

(** The full claim: the call asks for exactly the time it is given.  Proved below one second and for whole seconds *)
Theorem C88_exact_partial : forall n, 0 <= n -> n < 1000000 \/ (exists s, n = s * 1000000) -> accepted (usleep n) /\ asked (usleep n) = n.
Proof.
  intros n H C. pose proof (quot_of n H). unfold usleep, accepted, asked. destruct (Z.quot n 1000000 >? 0) eqn:E; cbn [fst snd].
  - destruct C as [C|(s & ->)]; [lia|]. rewrite Z.quot_mul in * by lia. lia.
  - destruct C as [C|(s & ->)]; lia.
Qed.
(** Always: never longer, by less than a second shorter, and never less than half of it *)
Theorem C88_bounds : forall n, 0 <= n -> accepted (usleep n) /\ asked (usleep n) <= n < asked (usleep n) + 1000000 /\ (0 < n -> n < 2 * asked (usleep n)).
Proof.
  intros n H. pose proof (quot_of n H). unfold usleep, accepted, asked. destruct (Z.quot n 1000000 >? 0) eqn:E; cbn [fst snd]; lia.
Qed.
(** Finding.  One and a half seconds are cut to one.  A negative time, which is no time, is not accepted by the system *)
Theorem C88_exact_refuted : asked (usleep 1500000) = 1000000 /\ forall n, -1000000 < n < 0 -> ~ accepted (usleep n).
Proof.
  split; [reflexivity|]. intros n H. unfold usleep, accepted. replace (Z.quot n 1000000) with 0.
  - cbn [fst snd Z.gtb Z.compare]. lia.
  - pose proof (Z.quot_opp_l n 1000000 ltac:(lia)) as Q. rewrite (Z.quot_small (- n)) in Q by lia. lia.
Qed.
(** The version for ARC is exact *)
Theorem C88_arc : forall n, 0 <= n -> let (s, ns) := usleep_arc n in 0 <= s /\ 0 <= ns < 1000000000 /\ s * 1000000000 + ns = n * 1000.
Proof.
  intros n H. unfold usleep_arc. pose proof (quot_of n H). pose proof (Z.quot_rem' n 1000000). pose proof (Z.rem_bound_pos n 1000000 H ltac:(lia)). lia.
Qed.
Example C88_example : usleep 250000 = (0, 250000) /\ usleep 3000000 = (3, 0) /\ usleep 1999999 = (1, 0) /\ usleep_arc 1999999 = (1, 999999000).
Proof. repeat split. Qed.
Print Assumptions C88_exact_partial.
Print Assumptions C88_bounds.
Print Assumptions C88_exact_refuted.
Print Assumptions C88_arc.

(** * C89 *)
Local Open Scope nat_scope.
(** Specification: the memory has the text [s] and a zero at [i]; [m'] is [m] with the bytes [l] at [d] *)
Definition text_at (m : buffer) (i : nat) (s : str) : Prop :=
  (forall k, k < List.length s -> nth_error m (i + k) = nth_error s k) /\ nth_error m (i + List.length s) = Some NUL /\ ~ In NUL s.
Definition replaced (m m' : buffer) (d : nat) (l : list ascii) : Prop :=
  List.length m' = List.length m /\ (forall k, k < List.length l -> nth_error m' (d + k) = nth_error l k) /\
  (forall j, j < d \/ d + List.length l <= j -> nth_error m' j = nth_error m j).

Lemma rd_nth m i c : nth_error m i = Some c -> rd m (Z.of_nat i) = Ok c.
Proof. intros E. unfold rd. destruct (Z.ltb_spec (Z.of_nat i) 0); [lia|]. now rewrite Nat2Z.id, E. Qed.
Lemma wr_nth m i c : i < List.length m -> exists m', wr m (Z.of_nat i) c = Ok m' /\ replaced m m' i [c].
Proof.
  intros L. destruct (cut _ m i) as (a & b & -> & La); [lia|]. destruct b as [|x b]; [rewrite app_nil_r in L; lia|].
  exists (a ++ c :: b). split; [apply wr_at; unfold len; lia|]. split; [rewrite !app_length; reflexivity|]. split.
  - intros k K. cbn in K. assert (k = 0) as -> by lia. rewrite Nat.add_0_r, nth_error_app2 by lia. rewrite La, Nat.sub_diag. reflexivity.
  - cbn [List.length]. intros j [J|J]; [rewrite !nth_error_app1 by lia; reflexivity|]. rewrite !nth_error_app2 by lia. destruct (j - List.length a) eqn:E; [lia|]. reflexivity.
Qed.
Lemma wr_none m i c : List.length m <= i -> wr m (Z.of_nat i) c = UB.
Proof. intros L. unfold wr. destruct (Z.leb_spec (Z.of_nat (List.length m)) (Z.of_nat i)); [|lia]. now rewrite orb_true_r. Qed.

(** The text is put at the destination with its zero, nothing else changes, and the pointer to the zero is returned,
    if the destination is long enough and the text does not lie before it and reach into it *)
Theorem C89_append_partial : forall s m d i fuel, text_at m i s -> d + List.length s < List.length m -> d <= i \/ i + List.length s < d ->
  List.length s < fuel ->
  exists m', str_append fuel m (Z.of_nat d) (Z.of_nat i) = Ok (m', Z.of_nat (d + List.length s)) /\ replaced m m' d (s ++ [NUL]).
Proof.
  induction s as [|c s IH]; intros m d i fuel (T1 & T2 & T3) L D F; (destruct fuel as [|f]; [cbn in F; lia|]); cbn [str_append List.length] in *.
  - rewrite Nat.add_0_r in *. rewrite (rd_nth _ _ _ T2). cbn [res_bind]. rewrite Ascii.eqb_refl. destruct (wr_nth m d NUL L) as (m' & -> & R). cbn [res_bind].
    exists m'. split; [reflexivity|exact R].
  - assert (E : nth_error m i = Some c) by (rewrite <- (Nat.add_0_r i), T1 by lia; reflexivity).
    rewrite (rd_nth _ _ _ E). cbn [res_bind]. destruct (Ascii.eqb_spec c NUL) as [->|N]; [exfalso; apply T3; now left|].
    destruct (wr_nth m d c ltac:(lia)) as (m1 & -> & R1 & R2 & R3). cbn [res_bind List.length] in *.
    destruct (IH m1 (S d) (S i) f) as (m2 & E2 & Q1 & Q2 & Q3); [|lia|lia|lia|].
    { split; [|split].
      - intros k K. rewrite R3 by lia. replace (S i + k) with (i + S k) by lia. rewrite T1 by lia. reflexivity.
      - rewrite R3 by lia. replace (S i + List.length s) with (i + S (List.length s)) by lia. exact T2.
      - intros I. apply T3. now right. }
    replace (Z.of_nat d + 1)%Z with (Z.of_nat (S d)) by lia. replace (Z.of_nat i + 1)%Z with (Z.of_nat (S i)) by lia. rewrite E2.
    exists m2. split; [do 3 f_equal; lia|]. rewrite app_length in *. cbn [List.length] in *. split; [lia|]. split.
    + intros [|k] K; cbn [app nth_error].
      * rewrite Nat.add_0_r, Q3 by lia. rewrite <- (Nat.add_0_r d), R2 by lia. reflexivity.
      * replace (d + S k) with (S d + k) by lia. apply Q2. rewrite app_length in K. cbn [List.length app] in K. lia.
    + intros j J. cbn [List.length app] in J. rewrite app_length in J. cbn [List.length] in J. rewrite Q3 by lia. apply R3. lia.
Qed.
Print Assumptions C89_append_partial.

(** Finding.  Otherwise, with the destination inside the text or at its zero, the zero is overwritten before it is read:
    the loop runs until it leaves the memory *)
Theorem C89_overlap_refuted : forall m d i s fuel, text_at m i s -> i < d <= i + List.length s -> str_append fuel m (Z.of_nat d) (Z.of_nat i) = UB.
Proof.
  intros m d i s fuel (T1 & T2 & T3) D.
  assert (K : forall j, i <= j < d -> exists c, nth_error m j = Some c /\ c <> NUL).
  { intros j J. pose proof (T1 (j - i) ltac:(lia)) as E. replace (i + (j - i)) with j in E by lia. rewrite E.
    destruct (nth_error s (j - i)) as [c|] eqn:C; [|apply nth_error_None in C; lia]. exists c. split; [reflexivity|]. intros ->. apply T3. eapply nth_error_In, C. }
  assert (H : i < d) by lia. clear T1 T2 T3 D s. revert m d i K H. induction fuel as [|f IH]; intros m d i K H; [reflexivity|]. cbn [str_append].
  destruct (K i ltac:(lia)) as (c & E & N). rewrite (rd_nth _ _ _ E). cbn [res_bind]. destruct (Ascii.eqb_spec c NUL); [contradiction|].
  destruct (Nat.lt_ge_cases d (List.length m)) as [L|L]; [|now rewrite wr_none].
  destruct (wr_nth m d c L) as (m1 & -> & R1 & R2 & R3). cbn [res_bind List.length] in *.
  replace (Z.of_nat d + 1)%Z with (Z.of_nat (S d)) by lia. replace (Z.of_nat i + 1)%Z with (Z.of_nat (S i)) by lia. apply IH; [|lia].
  intros j J. destruct (Nat.eq_dec j d) as [->|]; [exists c; split; [|exact N]; rewrite <- (Nat.add_0_r d), R2 by lia; reflexivity|].
  rewrite R3 by lia. apply K. lia.
Qed.
Print Assumptions C89_overlap_refuted.

(** With a length, the bytes may be any and the two places may overlap in any way *)
Theorem C89_append_n : forall m d i n, i + n <= List.length m -> d + n < List.length m ->
  exists m', strn_append m (Z.of_nat d) (Z.of_nat i) (Z.of_nat n) = Ok (m', Z.of_nat (d + n)) /\
             replaced m m' d (firstn n (skipn i m) ++ [NUL]).
Proof.
  intros m d i n I D. set (l := firstn n (skipn i m)). assert (Ll : List.length l = n) by (apply firstn_length_le; rewrite skipn_length; lia).
  assert (M : exists m1, memmove m (Z.of_nat d) (Z.of_nat i) (Z.of_nat n) = Ok m1 /\ replaced m m1 d l).
  { destruct (cut _ m d) as (a & b & E & La); [lia|]. assert (n <= List.length b) by (rewrite E, app_length in D; lia). destruct (cut _ b n) as (b1 & b2 & Eb & Lb); [lia|].
    assert (Em : m = a ++ b1 ++ b2) by (rewrite E, Eb; reflexivity).
    exists (a ++ l ++ b2). split.
    - unfold memmove, rd_range. destruct (Z.ltb_spec (Z.of_nat i) 0); [lia|]. destruct (Z.ltb_spec (Z.of_nat n) 0); [lia|]. destruct (Z.ltb_spec (Z.of_nat (List.length m)) (Z.of_nat i + Z.of_nat n)); [lia|].
      cbn [orb res_bind]. rewrite !Nat2Z.id. fold l. rewrite Em. apply wr_range_at; [unfold len; lia|lia].
    - split; [rewrite Em, !app_length; lia|]. split.
      + intros k K. rewrite nth_error_app2 by lia. rewrite nth_error_app1 by lia. f_equal. lia.
      + intros j J. rewrite Em. destruct J as [J|J]; [rewrite !nth_error_app1 by lia; reflexivity|]. rewrite !nth_error_app2 by lia. f_equal. lia. }
  destruct M as (m1 & E1 & R1 & R2 & R3). unfold strn_append. rewrite E1. cbn [res_bind]. rewrite <- Nat2Z.inj_add.
  destruct (wr_nth m1 (d + n) NUL ltac:(lia)) as (m2 & E2 & Q1 & Q2 & Q3). rewrite E2. cbn [res_bind]. cbn [List.length] in *. exists m2. split; [reflexivity|].
  split; [lia|]. rewrite app_length. cbn [List.length]. split.
  - intros k K. destruct (Nat.eq_dec k n) as [->|Nk].
    + pose proof (Q2 0 ltac:(lia)) as X. rewrite Nat.add_0_r in X. rewrite X. rewrite nth_error_app2 by lia. replace (n - List.length l) with 0 by lia. reflexivity.
    + rewrite Q3 by lia. rewrite R2 by lia. rewrite nth_error_app1 by lia. reflexivity.
  - intros j J. rewrite Q3 by lia. apply R3. lia.
Qed.
Print Assumptions C89_append_n.

Example C89_example : text_at ($"ab" ++ NUL :: $"xxxxx") 0 ($"ab") /\
  str_append 3 ($"ab" ++ NUL :: $"xxxxx") 4 0 = Ok ($"ab" ++ NUL :: $"xab" ++ NUL :: $"x", 6%Z) /\
  str_append 100 ($"ab" ++ NUL :: $"xxxxx") 2 0 = UB /\
  strn_append ($"ab" ++ NUL :: $"xxxxx") 1 0 3 = Ok ($"aab" ++ NUL :: NUL :: $"xxx", 4%Z).
Proof.
  split; [|repeat split]. split; [|split; [reflexivity|intros [X|[X|[]]]; discriminate X]].
  intros [|[|k]] K; [reflexivity|reflexivity|cbn in K; lia].
Qed.

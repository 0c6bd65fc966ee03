(** C91: traces: where they go, the time, the name and the text they carry *)
From Coq Require Import String ZArith Ascii Bool List Lia.
From Verif Require Import Base Str MemModel MemLemmas PortModel CString HelpModel TraceModel.
Import ListNotations.
Open Scope Z_scope.

(** * Where traces go *)
(** Specification: the place named by the last initialization *)
Fixpoint named (h : list init) (before : option sink) : option sink :=
  match h with
  | [] => before
  | InitFile _ f :: h => named h (Some (ToFile (match f with Some f => f | None => O end)))
  | InitSyslog _ :: h => named h (Some ToSyslog)
  | InitFunc _ f :: h => named h (match f with Some f => Some (ToFunc f) | None => None end)
  | Levels _ :: h => named h before
  end.
(** the initializations are all of one kind, and functions are not NULL *)
Definition one_kind (h : list init) : Prop :=
  Forall (fun i => match i with InitFile _ _ | Levels _ => True | _ => False end) h \/
  Forall (fun i => match i with InitSyslog _ | Levels _ => True | _ => False end) h \/
  Forall (fun i => match i with InitFunc _ (Some _) | Levels _ => True | _ => False end) h.

(** what the state holds, apart from the levels *)
Lemma inits_file h l l' : Forall (fun i => match i with InitFile _ _ | Levels _ => True | _ => False end) h -> inits l h = Ok l' ->
  l_syslog l = false -> l_func l = None ->
  l_syslog l' = false /\ l_func l' = None /\ option_map ToFile (l_file l') = named h (option_map ToFile (l_file l)).
Proof.
  intros F. revert l. induction F as [|i h I F IH]; intros l E A B; cbn [inits] in E; [injection E as <-; auto|].
  destruct i as [n f|n|n f|c]; try contradiction; cbn [init_call] in E.
  - cbn [res_bind] in E. apply IH in E; auto.
  - destruct (trace_call (l_table l) c); try discriminate E. cbn [res_bind] in E. apply IH in E; auto.
Qed.
Lemma inits_syslog h l l' : Forall (fun i => match i with InitSyslog _ | Levels _ => True | _ => False end) h -> inits l h = Ok l' ->
  l_file l = None -> l_func l = None ->
  l_file l' = None /\ l_func l' = None /\ (if l_syslog l' then Some ToSyslog else None) = named h (if l_syslog l then Some ToSyslog else None).
Proof.
  intros F. revert l. induction F as [|i h I F IH]; intros l E A B; cbn [inits] in E; [injection E as <-; auto|].
  destruct i as [n f|n|n f|c]; try contradiction; cbn [init_call] in E.
  - cbn [res_bind] in E. apply IH in E; auto.
  - destruct (trace_call (l_table l) c); try discriminate E. cbn [res_bind] in E. apply IH in E; auto.
Qed.
Lemma inits_func h l l' : Forall (fun i => match i with InitFunc _ (Some _) | Levels _ => True | _ => False end) h -> inits l h = Ok l' ->
  l_file l = None -> l_syslog l = false ->
  l_file l' = None /\ l_syslog l' = false /\ option_map ToFunc (l_func l') = named h (option_map ToFunc (l_func l)).
Proof.
  intros F. revert l. induction F as [|i h I F IH]; intros l E A B; cbn [inits] in E; [injection E as <-; auto|].
  destruct i as [n f|n|n [f|]|c]; try contradiction; cbn [init_call] in E.
  - cbn [res_bind] in E. apply IH in E; auto.
  - destruct (trace_call (l_table l) c); try discriminate E. cbn [res_bind] in E. apply IH in E; auto.
Qed.

(** The full claim: a trace of an active level goes to the place named last, and the others go nowhere.
    Proved when all initializations are of one kind *)
Theorem C91_place_partial : forall h l level b, one_kind h -> inits logger_start h = Ok l -> is_active (l_table l) level = Ok b ->
  exists r, trace_to l level None = Ok (r, if b then named h None else None) /\ (named h None <> None -> r = 0).
Proof.
  intros h l level b K E A. unfold trace_to. destruct K as [K|[K|K]].
  - destruct (inits_file h _ _ K E eq_refl eq_refl) as (H1 & H2 & H3). cbn in H3. rewrite H1, H2, <- H3. destruct (l_file l) as [f|]; cbn [option_map].
    + rewrite A. cbn [res_bind]. destruct b; cbn [negb]; exists 0; auto.
    + exists 1. split; [destruct b; reflexivity|congruence].
  - destruct (inits_syslog h _ _ K E eq_refl eq_refl) as (H1 & H2 & H3). cbn in H3. rewrite H1, H2, <- H3. destruct (l_syslog l).
    + rewrite A. cbn [res_bind]. destruct b; cbn [negb]; exists 0; auto.
    + exists 1. split; [destruct b; reflexivity|congruence].
  - destruct (inits_func h _ _ K E eq_refl eq_refl) as (H1 & H2 & H3). cbn in H3. rewrite H1, H2, <- H3. destruct (l_func l) as [f|]; cbn [option_map].
    + rewrite A. cbn [res_bind]. destruct b; cbn [negb]; exists 0; auto.
    + exists 1. split; [destruct b; reflexivity|congruence].
Qed.
Print Assumptions C91_place_partial.
(** Finding.  A function, and after it syslog, keep the traces although a file is named later *)
Theorem C91_place_refuted :
  (exists l, inits logger_start [InitFunc 8 (Some 1%nat); InitFile 8 (Some 2%nat)] = Ok l /\ trace_to l 0 None = Ok (0, Some (ToFunc 1))) /\
  (exists l, inits logger_start [InitSyslog 8; InitFile 8 (Some 2%nat)] = Ok l /\ trace_to l 0 None = Ok (0, Some ToSyslog)).
Proof. split; eexists; split; reflexivity. Qed.
Print Assumptions C91_place_refuted.
Example C91_place_example : exists l, inits logger_start [InitFile 3 (Some 2%nat); Levels (Enable 6)] = Ok l /\
  trace_to l 2 None = Ok (0, Some (ToFile 2)) /\ trace_to l 3 None = Ok (0, None) /\ trace_to l 6 None = Ok (0, Some (ToFile 2)).
Proof. eexists. repeat split. Qed.

(** * The name of the file: the last part of the path *)
Lemma after_last_some c s t : after_last c s = Some t -> (exists d, s = d ++ c :: t) /\ ~ In c t.
Proof.
  induction s as [|x s IH] in t |- *; [discriminate|]. cbn [after_last]. destruct (after_last c s) as [u|] eqn:E.
  - intros X. injection X as <-. destruct (IH u eq_refl) as ((d & ->) & N). split; [exists (x :: d); reflexivity|exact N].
  - destruct (Ascii.eqb_spec x c) as [->|]; [|discriminate]. intros X. injection X as <-. split; [exists []; reflexivity|].
    clear IH. induction s as [|y s IH]; [intros []|]. cbn [after_last] in E. destruct (after_last c s); [discriminate|]. destruct (Ascii.eqb_spec y c); [discriminate|]. intros [X|X]; [contradiction|]. now apply IH.
Qed.
Lemma after_last_none c s : after_last c s = None -> ~ In c s.
Proof.
  induction s as [|y s IH]; intros E; [intros []|]. cbn [after_last] in E. destruct (after_last c s); [discriminate|]. destruct (Ascii.eqb_spec y c); [discriminate|]. intros [X|X]; [contradiction|]. now apply IH.
Qed.
Theorem C91_name : forall file,
  (In "/"%char file -> exists d, file = d ++ "/"%char :: trace_name file /\ ~ In "/"%char (trace_name file)) /\
  (~ In "/"%char file -> In "092"%char file -> exists d, file = d ++ "092"%char :: trace_name file /\ ~ In "092"%char (trace_name file)) /\
  (~ In "/"%char file -> ~ In "092"%char file -> trace_name file = file).
Proof.
  intros file. unfold trace_name. destruct (after_last "/" file) as [t|] eqn:E.
  - apply after_last_some in E. destruct E as ((d & ->) & N). split; [intros _; exists d; auto|]. split; intros X; exfalso; apply X, in_or_app; right; now left.
  - apply after_last_none in E. split; [contradiction|]. destruct (after_last "092" file) as [t|] eqn:F.
    + apply after_last_some in F. destruct F as ((d & ->) & N). split; [intros _ _; exists d; auto|]. intros _ X; exfalso; apply X, in_or_app; right; now left.
    + apply after_last_none in F. split; [contradiction|reflexivity].
Qed.
Print Assumptions C91_name.
Example C91_name_example : trace_name ($"src/osip2/ict.c") = $"ict.c" /\ trace_name ($"ict.c") = $"ict.c".
Proof. split; reflexivity. Qed.

(** * The time: milliseconds since the first trace *)
Definition micros (tv : Z * Z) : Z := fst tv * 1000000 + snd tv.
Definition normal (tv : Z * Z) : Prop := 0 <= snd tv < 1000000.
Lemma int32_id z : -2147483648 <= z < 2147483648 -> int32 z = z.
Proof.
  intros H. unfold int32. destruct (Z.ltb_spec (z mod 4294967296) 2147483648) as [L|L]; Z.div_mod_to_equations; lia.
Qed.
Lemma rel_exact start now : normal start -> normal now -> micros start <= micros now -> micros now - micros start < 2147482000000 ->
  relative_time start now = 1000 * (fst now - fst start) + Z.quot (snd now - snd start) 1000.
Proof.
  unfold normal, micros, relative_time. destruct start as [a b], now as [c d]. cbn [fst snd]. intros A B C D.
  assert (R : int32 (1000 * (c - a)) = 1000 * (c - a)) by (apply int32_id; lia). rewrite R.
  destruct (d - b >? 0) eqn:E.
  - apply int32_id. pose proof (Z.quot_rem' (d - b) 1000). pose proof (Z.rem_bound_pos (d - b) 1000 ltac:(lia) ltac:(lia)). lia.
  - replace (d - b) with (- (b - d)) by lia. rewrite Z.quot_opp_l by lia. pose proof (Z.quot_rem' (b - d) 1000). pose proof (Z.rem_bound_pos (b - d) 1000 ltac:(lia) ltac:(lia)). rewrite int32_id; lia.
Qed.
(** The full claim: the time shown is right to the millisecond and never goes back.  Proved for 24 days *)
Theorem C91_time_partial : forall start now, normal start -> normal now -> micros start <= micros now -> micros now - micros start < 2147482000000 ->
  -1000 < 1000 * relative_time start now - (micros now - micros start) < 1000.
Proof.
  intros start now A B C D. rewrite rel_exact by assumption. unfold normal, micros in *. destruct start as [a b], now as [c d]. cbn [fst snd] in *.
  pose proof (Z.quot_rem' (d - b) 1000). assert (-1000 < Z.rem (d - b) 1000 < 1000) by (pose proof (Z.rem_bound_abs (d - b) 1000 ltac:(lia)); lia). lia.
Qed.
Theorem C91_monotone_partial : forall start now later, normal start -> normal now -> normal later -> micros start <= micros now -> micros now <= micros later ->
  micros later - micros start < 2147482000000 -> 0 <= relative_time start now <= relative_time start later.
Proof.
  intros start now later A B C D E F. rewrite !rel_exact by (assumption || lia). unfold normal, micros in *. destruct start as [a b], now as [c d], later as [e f]. cbn [fst snd] in *.
  pose proof (Z.quot_rem' (d - b) 1000) as Q1. pose proof (Z.quot_rem' (f - b) 1000) as Q2.
  assert (S : forall x, Z.quot x 1000 * 1000 = x - Z.rem x 1000) by (intros x; pose proof (Z.quot_rem' x 1000); lia).
  assert (P : forall x, 0 <= x -> 0 <= Z.rem x 1000 < 1000) by (intros x X; apply Z.rem_bound_pos; lia).
  assert (N : forall x, x <= 0 -> -1000 < Z.rem x 1000 <= 0) by (intros x X; pose proof (Z.rem_opp_l x 1000 ltac:(lia)); pose proof (P (- x) ltac:(lia)); lia).
  destruct (Z.le_gt_cases 0 (d - b)); destruct (Z.le_gt_cases 0 (f - b));
    repeat match goal with H : 0 <= ?x - ?y |- _ => pose proof (P _ H); clear H | H : ?x - ?y < 0 |- _ => pose proof (N (x - y) ltac:(lia)); clear H end.
  all: destruct (Z.eq_dec c e) as [->|]; [split; [|apply Z.add_le_mono_l, Z.quot_le_mono; lia]|]; try lia.
Qed.
Print Assumptions C91_time_partial.
Print Assumptions C91_monotone_partial.
(** Finding.  After 25 days the time shown is negative *)
Theorem C91_time_refuted : relative_time (1700000000, 0) (1700000000 + 25 * 86400, 0) < 0.
Proof. vm_compute. reflexivity. Qed.
Print Assumptions C91_time_refuted.
Example C91_time_example : relative_time (10, 999000) (12, 1500) = 1003 /\ relative_time (10, 999000) (12, 1000) = 1002.
Proof. split; reflexivity. Qed.

(** * The line given to syslog *)
Lemma fits_firstn size t : that_fits size t = firstn (Z.to_nat (size - 1)) t.
Proof. unfold that_fits, slen. destruct (Z.ltb_spec (Z.of_nat (List.length t)) size); [rewrite firstn_all2 by lia|]; reflexivity. Qed.
Lemma snp b i size t : 0 <= i <= slen b -> 0 < size <= slen b - i ->
  c_snprintf b i size t = Ok (firstn (Z.to_nat i) b ++ firstn (Z.to_nat (size - 1)) t ++ NUL :: skipn (Z.to_nat i + Nat.min (List.length t) (Z.to_nat (size - 1)) + 1) b, slen t).
Proof.
  intros I S0. unfold c_snprintf. destruct (Z.ltb_spec size 0); [lia|]. destruct (Z.ltb_spec (slen b) i); [lia|]. destruct (Z.eqb_spec size 0); [lia|].
  rewrite fits_firstn.
  unfold wr_range. rewrite app_length, firstn_length. cbn [List.length].
  destruct (Z.ltb_spec i 0); [lia|]. unfold slen in *. destruct (Z.ltb_spec (Z.of_nat (List.length b)) (i + Z.of_nat (Nat.min (Z.to_nat (size - 1)) (List.length t) + 1))); [lia|]. cbn [orb res_bind].
  do 2 f_equal. f_equal. rewrite <- app_assoc. cbn [app]. do 3 f_equal. lia.
Qed.
Lemma c_string_app s r : cstr s -> c_string (s ++ NUL :: r) = Ok s.
Proof. apply c_string_at. Qed.
Lemma cstr_firstn n s : cstr s -> cstr (firstn n s).
Proof. intros C I. apply C. rewrite <- (firstn_skipn n s). apply in_or_app. now left. Qed.
(** The full claim: the line is the head and the message, cut to 510 bytes, and no byte outside of the buffer is written.
    Proved when the head fits *)
Theorem C91_line_partial : forall level name num msg, cstr (trace_head level name num) -> cstr msg -> slen (trace_head level name num) <= 511 ->
  syslog_line level name num msg = Ok (firstn 510 (trace_head level name num ++ msg)).
Proof.
  intros level name num msg Ch Cm L. unfold syslog_line. set (h := trace_head level name num) in *. remember (firstn 510 (h ++ msg)) as R eqn:HR. set (b0 := repeat NUL (Z.to_nat MAX_LENGTH_TR)).
  assert (B0 : slen b0 = 512) by (unfold slen, b0; rewrite repeat_length; reflexivity). assert (H0 : 0 <= slen h) by (unfold slen; lia).
  unfold MAX_LENGTH_TR. rewrite snp by (rewrite ?B0; lia). cbn [res_bind fst snd]. change (Z.to_nat 0) with 0%nat. rewrite firstn_O. cbn [app plus].
  change (Z.to_nat (512 - 1 - 1)) with 510%nat. rewrite Nat.min_comm.
  assert (M : (Nat.min 510 (List.length h) + 1 <= 512)%nat) by lia.
  set (r := skipn (Nat.min 510 (List.length h) + 1) b0).
  assert (Lr : List.length r = (512 - (Nat.min 510 (List.length h) + 1))%nat) by (unfold r; rewrite skipn_length; unfold slen in B0; lia).
  assert (Lb : List.length (firstn 510 h ++ NUL :: r) = 512%nat) by (rewrite app_length, firstn_length; cbn [List.length]; lia).
  destruct (Z.eq_dec (slen h) 511) as [E|E].
  - rewrite E. unfold c_snprintf. change (512 - 1 - 511 <? 0) with false. cbn [Z.eqb Z.sub]. replace (slen (firstn 510 h ++ NUL :: r) <? 511) with false by (symmetry; apply Z.ltb_ge; unfold slen; rewrite Lb; lia).
    change (512 - 1 - 511 =? 0) with true. cbn [res_bind fst]. rewrite c_string_app by (apply cstr_firstn, Ch). assert (X : firstn 510 (h ++ msg) = firstn 510 h) by (unfold slen in E; rewrite firstn_app; replace (510 - List.length h)%nat with 0%nat by lia; apply app_nil_r). rewrite HR, X. reflexivity.
  - assert (F : firstn 510 h = h) by (apply firstn_all2; unfold slen in *; lia). rewrite F in *.
    rewrite snp by (unfold slen in *; rewrite Lb; lia). cbn [res_bind fst]. unfold slen. rewrite Nat2Z.id. rewrite firstn_app, Nat.sub_diag, firstn_all. cbn [firstn]. rewrite app_nil_r.
    rewrite app_assoc. rewrite c_string_app by (apply cstr_app; split; [exact Ch|apply cstr_firstn, Cm]).
    assert (X : firstn 510 (h ++ msg) = h ++ firstn (510 - List.length h) msg) by (rewrite firstn_app, F; reflexivity). rewrite HR, X. do 3 f_equal. unfold slen in *. lia.
Qed.
Print Assumptions C91_line_partial.
(** Finding.  Otherwise, that is with a long file name, the message is written beyond the buffer *)
Theorem C91_line_refuted : forall level name num msg, 511 < slen (trace_head level name num) < 2147483648 -> syslog_line level name num msg = UB.
Proof.
  intros level name num msg L. unfold syslog_line. set (h := trace_head level name num) in *. set (b0 := repeat NUL (Z.to_nat MAX_LENGTH_TR)).
  assert (B0 : slen b0 = 512) by (unfold slen, b0; rewrite repeat_length; reflexivity).
  unfold MAX_LENGTH_TR. rewrite snp by (rewrite ?B0; lia). cbn [res_bind fst snd]. change (Z.to_nat 0) with 0%nat. rewrite firstn_O. cbn [app plus].
  change (Z.to_nat (512 - 1 - 1)) with 510%nat. rewrite Nat.min_comm. set (r := skipn (Nat.min 510 (List.length h) + 1) b0).
  assert (Lr : List.length r = (512 - (Nat.min 510 (List.length h) + 1))%nat) by (unfold r; rewrite skipn_length; unfold slen in B0; lia).
  assert (Lb : List.length (firstn 510 h ++ NUL :: r) = 512%nat) by (rewrite app_length, firstn_length; cbn [List.length]; lia).
  unfold c_snprintf. destruct (Z.ltb_spec (512 - 1 - slen h) 0); [|lia]. destruct (Z.ltb_spec (slen (firstn 510 h ++ NUL :: r)) (slen h)); [reflexivity|].
  destruct (Z.eqb_spec (512 - 1 - slen h + 18446744073709551616) 0); [lia|]. unfold wr_range. rewrite Lb. rewrite app_length. cbn [List.length].
  match goal with |- context [Z.of_nat 512 <? ?x] => replace (Z.of_nat 512 <? x) with true by (symmetry; apply Z.ltb_lt; lia) end. rewrite orb_true_r. reflexivity.
Qed.
Print Assumptions C91_line_refuted.
Example C91_line_example : syslog_line 3 ($"ict.c") ($"42") ($"no ACK") = Ok ($"|WARNING| <ict.c: 42> no ACK").
Proof. vm_compute. reflexivity. Qed.
Example C91_long_name : slen (trace_head 3 (repeat "a"%char 500) ($"1")) = 516.
Proof. vm_compute. reflexivity. Qed.

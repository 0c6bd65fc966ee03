(** C90: osip_snprintf as built for VxWorks and pSOS *)
From Coq Require Import String ZArith Ascii Bool List Lia Arith.
From Verif Require Import Base Str MemModel MemLemmas CString SnprintfModel.
Import ListNotations.
Open Scope Z_scope.

(** * VxWorks *)
Lemma skipn_cut {A} (buf a : list A) c r n : buf = a ++ c :: r -> n = List.length a -> skipn (S n) buf = r.
Proof. intros -> ->. induction a as [|x a IH]; [reflexivity|exact IH]. Qed.
(** one piece: what fits is added, then the terminator *)
Lemma cb_step M (buf : buffer) t c piece : (1 <= M <= List.length buf)%nat -> (List.length t <= M - 1)%nat ->
  let t' := firstn (M - 1) (t ++ piece) in
  cb_snprintf (Z.of_nat M) (t ++ c :: skipn (S (List.length t)) buf, len t) piece = Ok (t' ++ NUL :: skipn (S (List.length t')) buf, len t').
Proof.
  intros B L. cbn zeta. unfold cb_snprintf.
  set (k := Nat.min (List.length piece) (M - 1 - List.length t)).
  assert (E : firstn (M - 1) (t ++ piece) = t ++ firstn k piece).
  { rewrite firstn_app, firstn_all2 by lia. f_equal. unfold k. destruct (Nat.le_ge_cases (List.length piece) (M - 1 - List.length t)) as [X|X].
    - rewrite Nat.min_l, !firstn_all2 by lia. reflexivity.
    - rewrite Nat.min_r by lia. reflexivity. }
  rewrite E. set (l := firstn k piece). assert (Ll : List.length l = k) by (apply firstn_length_le; unfold k; lia).
  assert (N : (if Z.of_nat M - len t - slen piece <? 1 then Z.of_nat M - len t - 1 else slen piece) = Z.of_nat k).
  { unfold len, slen, k. match goal with |- context [?a <? ?b] => destruct (Z.ltb_spec a b) end; lia. }
  rewrite N. destruct (Z.of_nat k >? 0) eqn:K.
  - assert (S0 : List.length (skipn (S (List.length t)) buf) = (List.length buf - S (List.length t))%nat) by apply skipn_length.
    destruct (cut _ (skipn (S (List.length t)) buf) (k - 1)) as (x & y & Exy & Lx); [unfold k; lia|].
    rewrite Exy. destruct y as [|d y]; [exfalso; rewrite app_nil_r in Exy; rewrite Exy in S0; unfold k in *; lia|].
    replace (t ++ c :: x ++ d :: y) with (t ++ (c :: x) ++ d :: y) by reflexivity.
    rewrite Nat2Z.id. fold l. rewrite (wr_range_at t (c :: x) l (d :: y)); [|reflexivity|cbn [List.length]; lia]. cbn [res_bind fst snd].
    rewrite app_assoc. rewrite wr_at by (unfold len; rewrite app_length; lia). cbn [res_bind]. f_equal. f_equal; [|unfold len; rewrite app_length; lia].
    rewrite <- app_assoc. cbn [app]. rewrite <- app_assoc. cbn [app]. f_equal. f_equal. f_equal.
    symmetry. apply (skipn_cut _ (firstn (S (List.length t)) buf ++ x) d).
    + rewrite <- app_assoc, <- Exy. symmetry. apply firstn_skipn.
    + rewrite !app_length, firstn_length_le by lia. lia.
  - assert (k = 0%nat) by lia. assert (l = []) as -> by (destruct l; [reflexivity|cbn in Ll; lia]). rewrite app_nil_r. cbn [res_bind fst snd].
    rewrite wr_at by reflexivity. reflexivity.
Qed.

Lemma firstn_twice {A} n (a b : list A) : firstn n (firstn n a ++ b) = firstn n (a ++ b).
Proof.
  revert a. induction n as [|n IH]; intros a; [reflexivity|]. destruct a as [|x a]; [reflexivity|]. cbn [firstn app]. f_equal. apply IH.
Qed.
Lemma hand_over_ok M (buf : buffer) pieces t c : (1 <= M <= List.length buf)%nat -> (List.length t <= M - 1)%nat -> t = firstn (M - 1) t ->
  let t' := firstn (M - 1) (t ++ concat pieces) in
  hand_over (Z.of_nat M) (t ++ c :: skipn (S (List.length t)) buf, len t) pieces =
  Ok (t' ++ (match pieces with [] => c | _ => NUL end) :: skipn (S (List.length t')) buf, len t').
Proof.
  intros B. revert t c. induction pieces as [|p l IH]; intros t c L E; cbn zeta.
  - cbn [concat hand_over]. rewrite app_nil_r, <- E. reflexivity.
  - cbn [hand_over]. rewrite (cb_step M buf t c p B L). cbn [res_bind]. set (t1 := firstn (M - 1) (t ++ p)).
    assert (L1 : (List.length t1 <= M - 1)%nat) by (unfold t1; rewrite firstn_length; lia).
    rewrite (IH t1 NUL L1); [|now rewrite firstn_all2].
    assert (X : firstn (M - 1) (t1 ++ concat l) = firstn (M - 1) (t ++ concat (p :: l))).
    { cbn [concat]. rewrite app_assoc. apply firstn_twice. }
    rewrite X. destruct l; reflexivity.
Qed.

(** The full claim, that of the C standard: with room for [max] bytes, the first [max - 1] bytes of the text and a zero
    are written, nothing else is, and the length of the whole text is returned.
    Proved here, for every text and every way to hand it over: what is written.  The value returned is the length that was
    written, and there must be at least one piece. *)
Theorem C90_vxworks_partial : forall buf max pieces, (1 <= max <= List.length buf)%nat -> pieces <> [] ->
  let t := firstn (max - 1) (concat pieces) in
  snprintf_vxworks buf (Z.of_nat max) pieces = Ok (t ++ NUL :: skipn (S (List.length t)) buf, slen t).
Proof.
  intros buf M pieces B N. cbn zeta. unfold snprintf_vxworks. destruct buf as [|c buf]; [cbn in B; lia|].
  pose proof (hand_over_ok M (c :: buf) pieces [] c B ltac:(cbn; lia) ltac:(now destruct (M - 1)%nat)) as H. cbn zeta in H. cbn [app List.length skipn] in H. change (len (@nil ascii)) with 0 in H.
  etransitivity; [exact H|]. destruct pieces; [contradiction|]. reflexivity.
Qed.
Print Assumptions C90_vxworks_partial.

(** Finding.  A text that was cut cannot be told from one that fits; a text handed over in no piece leaves the buffer as it is,
    without a terminator; and with no room at all a byte is written nevertheless *)
Theorem C90_vxworks_refuted :
  (exists b, snprintf_vxworks (repeat "x"%char 4) 4 [$"abcdef"] = Ok (b, 3) /\ snprintf_vxworks (repeat "x"%char 4) 4 [$"abc"] = Ok (b, 3)) /\
  (forall buf max, snprintf_vxworks buf max [] = Ok (buf, 0)) /\
  (forall p, snprintf_vxworks [] 0 [p] = UB).
Proof.
  split; [eexists; split; reflexivity|]. split; [reflexivity|]. intros p. unfold snprintf_vxworks. cbn [hand_over]. unfold cb_snprintf. rewrite Z.sub_0_r.
  assert (0 <= slen p) by (unfold slen; lia). destruct (Z.ltb_spec (0 - slen p) 1); [|lia]. reflexivity.
Qed.
Print Assumptions C90_vxworks_refuted.
Example C90_vxworks_example : snprintf_vxworks (repeat "x"%char 8) 6 [$"ab"; $""; $"cdef"] = Ok ($"abcde" ++ NUL :: $"xx", 5).
Proof. reflexivity. Qed.

(** * pSOS *)
(** a number of calls, one after the other; the results are the buffers and the values returned *)
Fixpoint calls (g : buffer) (l : list (buffer * Z * str)) : res (buffer * list (buffer * Z)) :=
  match l with
  | [] => Ok (g, [])
  | (buf, max, t) :: l => do x <- snprintf_psos g buf max t ; do y <- calls (fst (fst x)) l ; Ok (fst y, (snd (fst x), snd x) :: snd y)
  end.
Definition texts (l : list (buffer * Z * str)) : str := flat_map snd l.
Definition LF := "010"%char.
(** the static buffer after some calls: the texts of all of them *)
Definition holds (g : buffer) (T : str) : Prop := List.length g = 1024%nat /\ cstr T /\ exists x r, g = x :: T ++ NUL :: r.

Lemma psos_step g T buf max t : holds g T -> cstr t -> (List.length T + List.length t <= 1022)%nat -> 0 <= max <= 1024 -> max <= len buf ->
  exists g', holds g' (T ++ t) /\
  snprintf_psos g buf max t = Ok (g', firstn (Z.to_nat max) g' ++ skipn (Z.to_nat max) buf, if 1 + slen (T ++ t) >? max then -1 else 1 + slen (T ++ t)) /\
  exists r, g' = (LF :: T ++ t) ++ NUL :: r.
Proof.
  intros (L & C & x & r & ->) Ct B M Mb. unfold snprintf_psos.
  replace (wr (x :: T ++ NUL :: r) 0 "010") with (Ok ((LF :: T) ++ NUL :: r)) by reflexivity. cbn [res_bind].
  assert (C1 : cstr (LF :: T)) by (apply cstr_cons; split; [discriminate|exact C]). rewrite strlen_at by exact C1. cbn [res_bind].
  cbn [List.length] in L. rewrite app_length in L. cbn [List.length] in L.
  destruct (cut _ (NUL :: r) (List.length t + 1)) as (a & b & E & La); [cbn [List.length]; lia|]. rewrite E.
  rewrite (wr_range_at (LF :: T) a (t ++ [NUL]) b); [|reflexivity|rewrite app_length; cbn [List.length]; lia]. cbn [res_bind].
  replace ((LF :: T) ++ (t ++ [NUL]) ++ b) with ((LF :: T ++ t) ++ NUL :: b) by (cbn [app]; rewrite <- !app_assoc; reflexivity).
  assert (C2 : cstr (LF :: T ++ t)) by (apply cstr_cons; split; [discriminate|apply cstr_app; auto]). rewrite strlen_at by exact C2. cbn [res_bind].
  set (g' := (LF :: T ++ t) ++ NUL :: b).
  assert (Lb : (List.length a + List.length b = S (List.length r))%nat) by (rewrite <- app_length, <- E; reflexivity).
  assert (Lg : List.length g' = 1024%nat) by (unfold g'; rewrite app_length; cbn [List.length]; rewrite app_length; lia).
  unfold rd_range. rewrite Lg. replace (0 <? 0) with false by reflexivity. replace (max <? 0) with false by lia. replace (Z.of_nat 1024 <? 0 + max) with false by lia. cbn [orb res_bind].
  change (skipn (Z.to_nat 0) g') with g'.
  unfold wr_range. rewrite firstn_length_le by (rewrite Lg; lia). unfold len in Mb. replace (0 <? 0) with false by reflexivity. replace (Z.of_nat (List.length buf) <? 0 + Z.of_nat (Z.to_nat max)) with false by lia. cbn [orb res_bind].
  exists g'. split; [split; [exact Lg|]; split; [apply cstr_app; auto|exists LF, b; reflexivity]|]. split; [|exists b; reflexivity].
  change (Z.to_nat 0) with 0%nat. cbn [firstn app plus]. assert (W : len (LF :: T ++ t) = 1 + slen (T ++ t)) by (unfold len, slen; cbn [List.length]; lia). rewrite W. reflexivity.
Qed.

(** Finding.  Every call delivers the texts of all calls so far behind a line feed: the n-th call, for any calls before it *)
Theorem C90_psos_accumulates_refuted : forall before buf max t,
  Forall (fun c => cstr (snd c) /\ 0 <= snd (fst c) <= 1024 /\ snd (fst c) <= len (fst (fst c))) (before ++ [(buf, max, t)]) ->
  slen (texts before ++ t) <= 1022 ->
  exists g rs r, calls psos_static (before ++ [(buf, max, t)]) =
    Ok (g, rs ++ [(firstn (Z.to_nat max) ((LF :: texts before ++ t) ++ NUL :: r) ++ skipn (Z.to_nat max) buf,
                   if 1 + slen (texts before ++ t) >? max then -1 else 1 + slen (texts before ++ t))]).
Proof.
  intros before buf max t F L.
  assert (G : forall g T, holds g T -> slen (T ++ texts before ++ t) <= 1022 -> exists g' rs r, calls g (before ++ [(buf, max, t)]) =
    Ok (g', rs ++ [(firstn (Z.to_nat max) ((LF :: T ++ texts before ++ t) ++ NUL :: r) ++ skipn (Z.to_nat max) buf,
                   if 1 + slen (T ++ texts before ++ t) >? max then -1 else 1 + slen (T ++ texts before ++ t))])).
  { clear L. induction before as [|[[b m] u] l IH]; intros g T H L.
    - inversion F as [|? ? (F1 & F2 & F3) _]; subst. cbn [snd fst] in F1, F2, F3. cbn [texts flat_map app] in *. unfold slen in L. rewrite app_length in L.
      destruct (psos_step g T buf max t H F1 ltac:(lia) F2 F3) as (g' & _ & E & r & ->). cbn [calls]. rewrite E. cbn [res_bind fst snd]. eexists _, [], r. reflexivity.
    - cbn [app] in F. inversion F as [|? ? (F1 & F2 & F3) F']; subst. cbn [snd fst] in F1, F2, F3. unfold slen in L. cbn [texts flat_map snd] in L. rewrite !app_length in L.
      destruct (psos_step g T b m u H F1 ltac:(lia) F2 F3) as (g' & H' & E & r & _). cbn [app calls]. rewrite E. cbn [res_bind fst snd].
      destruct (IH F' g' (T ++ u) H') as (g2 & rs & r2 & E2); [unfold slen, texts; rewrite !app_length in *; lia|]. rewrite E2. cbn [res_bind fst snd].
      assert (X : T ++ texts ((b, m, u) :: l) ++ t = (T ++ u) ++ texts l ++ t) by (unfold texts; cbn [flat_map snd]; rewrite <- !app_assoc; reflexivity). rewrite X.
      eexists _, (_ :: rs), r2. reflexivity. }
  apply (G psos_static []); [|exact L]. split; [reflexivity|]. split; [intros []|]. exists NUL, (repeat NUL 1022). reflexivity.
Qed.
Print Assumptions C90_psos_accumulates_refuted.

Lemma psos_any g T buf max t : holds g T -> cstr t ->
  snprintf_psos g buf max t = UB \/
  (List.length T + List.length t <= 1022)%nat /\ exists g' b r, snprintf_psos g buf max t = Ok (g', b, r) /\ holds g' (T ++ t).
Proof.
  intros (L & C & x & r & ->) Ct. unfold snprintf_psos.
  replace (wr (x :: T ++ NUL :: r) 0 "010") with (Ok ((LF :: T) ++ NUL :: r)) by reflexivity. cbn [res_bind].
  assert (C1 : cstr (LF :: T)) by (apply cstr_cons; split; [discriminate|exact C]). rewrite strlen_at by exact C1. cbn [res_bind].
  cbn [List.length] in L. rewrite app_length in L. cbn [List.length] in L.
  destruct (Nat.le_gt_cases (List.length T + List.length t) 1022) as [B|B].
  2:{ left. unfold wr_range. rewrite !app_length. cbn [List.length]. unfold len. cbn [List.length].
      match goal with |- context [?a <? ?b + Z.of_nat (List.length t + 1)] => replace (a <? b + Z.of_nat (List.length t + 1)) with true by lia end. rewrite orb_true_r. reflexivity. }
  destruct (cut _ (NUL :: r) (List.length t + 1)) as (a & b & E & La); [cbn [List.length]; lia|]. rewrite E.
  rewrite (wr_range_at (LF :: T) a (t ++ [NUL]) b); [|reflexivity|rewrite app_length; cbn [List.length]; lia]. cbn [res_bind].
  replace ((LF :: T) ++ (t ++ [NUL]) ++ b) with ((LF :: T ++ t) ++ NUL :: b) by (cbn [app]; rewrite <- !app_assoc; reflexivity).
  assert (C2 : cstr (LF :: T ++ t)) by (apply cstr_cons; split; [discriminate|apply cstr_app; auto]). rewrite strlen_at by exact C2. cbn [res_bind].
  assert (Lb : (List.length a + List.length b = S (List.length r))%nat) by (rewrite <- app_length, <- E; reflexivity).
  unfold rd_range. destruct ((0 <? 0) || (max <? 0) || _); [now left|]. cbn [res_bind].
  unfold wr_range. destruct ((0 <? 0) || _); [now left|]. cbn [res_bind]. right. split; [exact B|]. do 3 eexists. split; [reflexivity|].
  split; [cbn [app List.length]; rewrite !app_length; cbn [List.length]; lia|]. split; [apply cstr_app; auto|]. exists LF, b. reflexivity.
Qed.
(** Finding.  Once all texts together have more than 1022 bytes, the static buffer is overrun *)
Theorem C90_psos_overrun_refuted : forall l, Forall (fun c => cstr (snd c)) l -> 1022 < slen (texts l) -> calls psos_static l = UB.
Proof.
  assert (G : forall l g T, holds g T -> Forall (fun c => cstr (snd c)) l -> 1022 < slen (T ++ texts l) -> slen T <= 1022 -> calls g l = UB).
  { induction l as [|[[b m] t] l IH]; intros g T H F L LT; [cbn [texts flat_map] in L; rewrite app_nil_r in L; lia|].
    inversion F as [|? ? F1 F']; subst. cbn [snd] in F1. cbn [calls]. destruct (psos_any g T b m t H F1) as [->|(B & g' & b' & r & -> & H')]; [reflexivity|]. cbn [res_bind fst snd].
    rewrite (IH g' (T ++ t) H' F'); [reflexivity| |]; unfold slen in *; cbn [texts flat_map snd] in L; unfold texts in *; rewrite !app_length in *; lia. }
  intros l F L. apply (G l psos_static []); [|exact F|exact L|unfold slen; cbn; lia]. split; [reflexivity|]. split; [intros []|]. exists NUL, (repeat NUL 1022). reflexivity.
Qed.
Print Assumptions C90_psos_overrun_refuted.
Example C90_psos_example : exists g, calls psos_static [(repeat "x"%char 8, 4, $"a"); (repeat "x"%char 8, 5, $"b")] =
  Ok (g, [(LF :: $"a" ++ [NUL; NUL] ++ $"xxxx", 2); (LF :: $"ab" ++ [NUL; NUL] ++ $"xxx", 3)]).
Proof. eexists. vm_compute. reflexivity. Qed.

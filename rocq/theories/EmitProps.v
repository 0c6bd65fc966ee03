(** C89, third part: appending to a text, byte by byte in memory, and appending as the printing functions are modelled *)
From Coq Require Import String ZArith Ascii Bool List Lia Arith.
From Verif Require Import Base Str MemModel MemLemmas CString AppendModel.
Import ListNotations.
Open Scope Z_scope.

Lemma c_string_app s r : ~ In NUL s -> c_string (s ++ NUL :: r) = Ok s.
Proof.
  induction s as [|c s IH]; intros N; cbn [app c_string]; [reflexivity|]. destruct (Ascii.eqb_spec c NUL) as [->|]; [exfalso; apply N; now left|].
  rewrite IH by (intros I; apply N; now right). reflexivity.
Qed.
Lemma c_string_inv b t : c_string b = Ok t -> ~ In NUL t /\ exists r, b = t ++ NUL :: r.
Proof.
  revert t. induction b as [|c b IH]; intros t; cbn [c_string]; [discriminate|]. destruct (Ascii.eqb_spec c NUL) as [->|N].
  - intros [= <-]. split; [intros []|]. now exists b.
  - destruct (c_string b) as [u| |]; cbn [res_bind]; try discriminate. intros [= <-]. destruct (IH _ eq_refl) as (I & r & ->). split; [|now exists r].
    intros [->|X]; [now apply N|now apply I].
Qed.
Lemma wr_out m i c : Z.of_nat (List.length m) <= i -> wr m i c = UB.
Proof. intros L. unfold wr. destruct (Z.leb_spec (Z.of_nat (List.length m)) i); [|lia]. now rewrite orb_true_r. Qed.

Lemma wr_range_length m i l m' : wr_range m i l = Ok m' -> List.length m' = List.length m.
Proof.
  unfold wr_range. destruct (Z.ltb_spec i 0); [discriminate|]. destruct (Z.ltb_spec (Z.of_nat (List.length m)) (i + Z.of_nat (List.length l))); [discriminate|].
  cbn [orb]. intros [= <-]. rewrite !app_length, firstn_length, skipn_length. lia.
Qed.

(** In memory: there is room, and the text and its zero are written; or there is not, and the end is overrun *)
Lemma append_room s : ~ In NUL s -> forall r a b d, (List.length s < List.length b)%nat -> d = Z.of_nat (List.length a) ->
  str_append_from (a ++ b) d (s ++ NUL :: r) = Ok (a ++ s ++ NUL :: skipn (S (List.length s)) b, d + slen s).
Proof.
  induction s as [|c s IH]; intros N r a b d L ->; (destruct b as [|x b]; [cbn in L; lia|]); cbn [app str_append_from List.length skipn] in *.
  - rewrite Ascii.eqb_refl, wr_at by (unfold len; lia). cbn [res_bind]. do 2 f_equal. cbn. lia.
  - destruct (Ascii.eqb_spec c NUL) as [->|]; [exfalso; apply N; now left|]. rewrite wr_at by (unfold len; lia). cbn [res_bind].
    change (a ++ c :: b) with (a ++ [c] ++ b). rewrite app_assoc, IH; [|intros I; apply N; now right|lia|rewrite app_length; cbn; lia].
    rewrite <- app_assoc. cbn [app]. do 2 f_equal. unfold slen. cbn [List.length]. lia.
Qed.
Lemma append_no_room s : ~ In NUL s -> forall r a b d, (List.length b <= List.length s)%nat -> d = Z.of_nat (List.length a) ->
  str_append_from (a ++ b) d (s ++ NUL :: r) = UB.
Proof.
  induction s as [|c s IH]; intros N r a b d L ->; cbn [app str_append_from List.length] in *.
  - destruct b; [|cbn in L; lia]. rewrite Ascii.eqb_refl, wr_out by (rewrite app_nil_r; lia). reflexivity.
  - destruct (Ascii.eqb_spec c NUL) as [->|]; [exfalso; apply N; now left|]. destruct b as [|x b]; [rewrite wr_out by (rewrite app_nil_r; lia); reflexivity|].
    rewrite wr_at by (unfold len; lia). cbn [res_bind]. change (a ++ c :: b) with (a ++ [c] ++ b). rewrite app_assoc. apply IH; [intros I; apply N; now right|cbn [List.length] in L; lia|rewrite app_length; cbn; lia].
Qed.

(** A buffer of any size holding the text [t] and another object holding the text [s].  The models of the printing functions say of
    appending [s] that the text becomes [t ++ s], or that the buffer is overrun (CString, [emit]).  The same happens in memory *)
Theorem C89_printing : forall m t src s, c_string m = Ok t -> c_string src = Ok s ->
  match emit (mkOut t (slen m)) s with
  | Ok o => exists m', str_append_from m (slen t) src = Ok (m', slen (t ++ s)) /\ c_string m' = Ok (t ++ s) /\ o_text o = t ++ s /\ slen m' = slen m /\ o_cap o = slen m
  | Err _ => False
  | UB => str_append_from m (slen t) src = UB
  end.
Proof.
  intros m t src s M S. apply c_string_inv in M as (Nt & q & ->). apply c_string_inv in S as (Ns & r & ->). unfold emit. cbn [o_text o_cap].
  destruct (Z.ltb_spec (slen (t ++ NUL :: q)) (slen t + slen s + 1)) as [L|L]; unfold slen in L; rewrite app_length in L; cbn [List.length] in L.
  - apply append_no_room; [exact Ns|cbn [List.length]; lia|reflexivity].
  - eexists. split; [rewrite append_room; [|exact Ns|cbn [List.length]; lia|reflexivity]; do 2 f_equal; unfold slen; rewrite app_length; lia|].
    split; [rewrite app_assoc; apply c_string_app; rewrite in_app_iff; tauto|]. split; [reflexivity|]. split; [|reflexivity].
    unfold slen. rewrite !app_length. cbn [List.length]. rewrite skipn_length. cbn [List.length]. lia.
Qed.
Print Assumptions C89_printing.

(** With a length: the first [n] bytes of the source, which has that many *)
Theorem C89_printing_n : forall m t src n, c_string m = Ok t -> 0 <= n <= slen src -> ~ In NUL (firstn (Z.to_nat n) src) ->
  match emit (mkOut t (slen m)) (firstn (Z.to_nat n) src) with
  | Ok o => exists m', strn_append_from m (slen t) src n = Ok (m', slen t + n) /\ c_string m' = Ok (o_text o) /\ slen m' = slen m /\ o_text o = t ++ firstn (Z.to_nat n) src
  | Err _ => False
  | UB => strn_append_from m (slen t) src n = UB
  end.
Proof.
  intros m t src n M N Z0. apply c_string_inv in M as (Nt & q & ->). set (s := firstn (Z.to_nat n) src) in *.
  assert (Ls : List.length s = Z.to_nat n) by (apply firstn_length_le; unfold slen in N; lia).
  assert (R : rd_range src 0 n = Ok s).
  { unfold rd_range. destruct (Z.ltb_spec n 0); [lia|]. destruct (Z.ltb_spec (Z.of_nat (List.length src)) (0 + n)); [unfold slen in N; lia|]. reflexivity. }
  unfold strn_append_from, emit. rewrite R. cbn [res_bind o_text o_cap].
  destruct (Z.ltb_spec (slen (t ++ NUL :: q)) (slen t + slen s + 1)) as [L|L]; unfold slen in L; rewrite app_length in L; cbn [List.length] in L.
  - destruct (wr_range (t ++ NUL :: q) (slen t) s) as [m1|e|] eqn:E; [|unfold wr_range in E; destruct (_ || _) in E; discriminate|reflexivity].
    cbn [res_bind]. rewrite wr_out; [reflexivity|]. apply wr_range_length in E. rewrite E, app_length. cbn [List.length]. unfold slen. lia.
  - destruct (cut _ (NUL :: q) (List.length s)) as (b1 & b2 & Eb & Lb); [cbn [List.length]; lia|]. rewrite Eb.
    rewrite wr_range_at; [|unfold slen, len; lia|lia]. cbn [res_bind].
    destruct b2 as [|x b2]; [apply (f_equal (@List.length _)) in Eb; rewrite app_length in Eb; cbn [List.length] in Eb; lia|].
    replace (t ++ s ++ x :: b2) with ((t ++ s) ++ x :: b2) by now rewrite <- app_assoc.
    rewrite wr_at by (unfold len, slen; rewrite app_length; lia). cbn [res_bind]. eexists. split; [reflexivity|].
    cbn [o_text]. split; [apply c_string_app; rewrite in_app_iff; tauto|]. split; [|reflexivity]. unfold slen. rewrite !app_length. cbn [List.length]. lia.
Qed.
Print Assumptions C89_printing_n.

Example C89_printing_example : c_string ($"ab" ++ NUL :: $"xxxx") = Ok ($"ab") /\ c_string ($"cd" ++ NUL :: $"e") = Ok ($"cd") /\
  str_append_from ($"ab" ++ NUL :: $"xxxx") 2 ($"cd" ++ NUL :: $"e") = Ok ($"abcd" ++ NUL :: $"xx", 4) /\
  str_append_from ($"ab" ++ NUL :: $"x") 2 ($"cd" ++ NUL :: $"e") = UB /\
  strn_append_from ($"ab" ++ NUL :: $"xxxx") 2 ($"cde") 2 = Ok ($"abcd" ++ NUL :: $"xx", 4).
Proof. repeat split. Qed.

(** MD5: the code computes the digest of RFC 1321, however its input is cut (C47). *)
From Coq Require Import ZArith Bool List Lia ZifyBool ZifyNat.
From Verif Require Import Base Md5Model.
Import ListNotations.
Open Scope Z_scope.

(** *** Specification: RFC 1321, section 3 *)
Definition W := 4294967296.
Definition byte (x : Z) : Prop := 0 <= x < 256.
(** 3.1, 3.2: a one bit, zero bits up to 56 bytes mod 64, and the number of bits mod 2^64, low byte first *)
Fixpoint le_bytes (n : nat) (x : Z) : list Z := match n with O => [] | S n => x mod 256 :: le_bytes n (x / 256) end.
Definition pad (m : list Z) : list Z :=
  let len := Z.of_nat (length m) in
  m ++ [128] ++ repeat 0 (Z.to_nat ((55 - len) mod 64)) ++ le_bytes 8 (8 * len).
(** words, low byte first *)
Definition le_word (b : list Z) : Z := fold_right (fun x r => x + 256 * r) 0 b.
(** 3.4: complement, rotation, the four functions, and the table of floor (2^32 * abs (sin i)) *)
Definition compl (x : Z) : Z := W - 1 - x.
Definition rotl (x s : Z) : Z := (x * 2 ^ s) mod W + x / 2 ^ (32 - s).
Definition aux (i : nat) (x y z : Z) : Z :=
  if Nat.ltb i 16 then Z.lor (Z.land x y) (Z.land (compl x) z) else
  if Nat.ltb i 32 then Z.lor (Z.land x z) (Z.land y (compl z)) else
  if Nat.ltb i 48 then Z.lxor (Z.lxor x y) z else
  Z.lxor y (Z.lor x (compl z)).
Definition index (i : nat) : nat :=
  if Nat.ltb i 16 then i else
  if Nat.ltb i 32 then (5 * i + 1) mod 16 else
  if Nat.ltb i 48 then (3 * i + 5) mod 16 else
  (7 * i) mod 16.
Definition shift (i : nat) : Z :=
  nth (i mod 4) (nth (i / 16) [[7; 12; 17; 22]; [5; 9; 14; 20]; [4; 11; 16; 23]; [6; 10; 15; 21]] []) 0.
Definition table : list Z :=
  [3614090360; 3905402710; 606105819; 3250441966; 4118548399; 1200080426; 2821735955; 4249261313; 1770035416; 2336552879; 4294925233; 2304563134; 1804603682; 4254626195; 2792965006; 1236535329; 4129170786; 3225465664; 643717713; 3921069994; 3593408605; 38016083; 3634488961; 3889429448; 568446438; 3275163606; 4107603335; 1163531501; 2850285829; 4243563512; 1735328473; 2368359562; 4294588738; 2272392833; 1839030562; 4259657740; 2763975236; 1272893353; 4139469664; 3200236656; 681279174; 3936430074; 3572445317; 76029189; 3654602809; 3873151461; 530742520; 3299628645; 4096336452; 1126891415; 2878612391; 4237533241; 1700485571; 2399980690; 4293915773; 2240044497; 1873313359; 4264355552; 2734768916; 1309151649; 4149444226; 3174756917; 718787259; 3951481745].
(** operation [i] on the block of words [x]: the registers move one place *)
Definition operation (x : list Z) (st : regs) (i : nat) : regs :=
  let '(a, b, c, d) := st in
  (d, (b + rotl ((a + aux i b c d + nth (index i) x 0 + nth i table 0) mod W) (shift i)) mod W, b, c).
Definition block (st : regs) (bytes : list Z) : regs :=
  let x := map (fun k => le_word (firstn 4 (skipn (4 * k) bytes))) (seq 0 16) in
  let '(a0, b0, c0, d0) := st in
  let '(a, b, c, d) := fold_left (operation x) (seq 0 64) st in
  ((a0 + a) mod W, (b0 + b) mod W, (c0 + c) mod W, (d0 + d) mod W).
(** one block of 64 bytes after the other *)
Fixpoint blocks (n : nat) (st : regs) (m : list Z) : regs :=
  match n with O => st | S n => blocks n (block st (firstn 64 m)) (skipn 64 m) end.
(** 3.3, 3.5 *)
Definition md5 (m : list Z) : list Z :=
  let p := pad m in
  let '(a, b, c, d) := blocks (length p / 64) (1732584193, 4023233417, 2562383102, 271733878) p in
  le_bytes 4 a ++ le_bytes 4 b ++ le_bytes 4 c ++ le_bytes 4 d.

(** The test suite of RFC 1321, A.5: "", "abc" *)
Example md5_empty : md5 [] = [212; 29; 140; 217; 143; 0; 178; 4; 233; 128; 9; 152; 236; 248; 66; 126].
Proof. vm_compute. reflexivity. Qed.
Example md5_abc : md5 [97; 98; 99] = [144; 1; 80; 152; 60; 210; 79; 176; 214; 150; 63; 125; 40; 225; 127; 114].
Proof. vm_compute. reflexivity. Qed.

(** *** One block *)
Definition word (x : Z) : Prop := 0 <= x < W.
Lemma u32_word : forall x, word (u32 x).
Proof. intros x. unfold u32, word, W. apply Z.mod_pos_bound. lia. Qed.
Lemma u32_small : forall x, word x -> u32 x = x.
Proof. intros x H. apply Z.mod_small. exact H. Qed.
Lemma not32_eq : forall x, word x -> not32 x = compl x.
Proof.
  intros x H. unfold not32, u32, compl, Z.lnot, W. unfold word, W in H. rewrite <- Z.sub_1_r.
  symmetry. apply (Z.mod_unique _ _ (-1)); lia.
Qed.
Lemma lor_add : forall a b n, 0 <= n -> 0 <= b < 2 ^ n -> (2 ^ n | a) -> Z.lor a b = a + b.
Proof.
  intros a b n N B [k ->]. assert (Z.land (k * 2 ^ n) b = 0) as L.
  { apply Z.bits_inj'. intros i I. rewrite Z.land_spec, Z.bits_0. destruct (Z.ltb_spec i n) as [H|H].
    - rewrite <- Z.shiftl_mul_pow2 by lia. rewrite Z.shiftl_spec_low by lia. reflexivity.
    - rewrite andb_comm. assert (Z.testbit b i = false) as ->; [|reflexivity]. destruct (Z.eq_dec b 0) as [->|NB]; [apply Z.bits_0|].
      apply Z.bits_above_log2; [lia|]. apply Z.log2_lt_pow2; [lia|]. eapply Z.lt_le_trans; [apply B|]. apply Z.pow_le_mono_r; lia. }
  rewrite <- Z.lxor_lor by exact L. symmetry. apply Z.add_nocarry_lxor. exact L.
Qed.
Lemma rotate_eq : forall x s, word x -> 0 < s < 32 -> rotate_left x s = rotl x s.
Proof.
  intros x s H S. unfold rotate_left, rotl. rewrite Z.shiftl_mul_pow2, Z.shiftr_div_pow2 by lia. unfold u32. fold W. unfold word in H. apply (lor_add _ _ s); [lia| |].
  - split; [apply Z.div_pos; [lia|apply Z.pow_pos_nonneg; lia]|]. apply Z.div_lt_upper_bound; [apply Z.pow_pos_nonneg; lia|].
    rewrite <- Z.pow_add_r by lia. replace (32 - s + s) with 32 by lia. exact (proj2 H).
  - exists (x mod 2 ^ (32 - s)). assert (W = 2 ^ (32 - s) * 2 ^ s) as -> by (rewrite <- Z.pow_add_r by lia; replace (32 - s + s) with 32 by lia; reflexivity).
    rewrite Z.mul_mod_distr_r; [reflexivity| |]; apply Z.pow_nonzero; lia.
Qed.
Lemma add32_word : forall x y, word (add32 x y).
Proof. intros. apply u32_word. Qed.
Lemma op_eq : forall f a b x s ac, 0 < s < 32 -> op f a b x s ac = (b + rotl ((a + f + x + ac) mod W) s) mod W.
Proof.
  intros f a b x s ac S. unfold op. rewrite rotate_eq by (auto; apply add32_word). unfold add32, u32. fold W. rewrite (Z.add_comm b). f_equal. f_equal. f_equal.
  rewrite Zplus_mod_idemp_r. replace (a + ((f + x) mod W + ac)) with ((f + x) mod W + (a + ac)) by lia. rewrite Zplus_mod_idemp_l. f_equal. lia.
Qed.

Definition macro_of (i : nat) : macro := if Nat.ltb i 16 then FF else if Nat.ltb i 32 then GG else if Nat.ltb i 48 then HH else II.
Definition reg_of (i : nat) : reg := nth (i mod 4) [Ra; Rd; Rc; Rb] Ra.
Definition instr_of (i : nat) : instr := (macro_of i, reg_of i, index i, shift i, nth i table 0).
Lemma program_eq : program = map instr_of (seq 0 64).
Proof. vm_compute. reflexivity. Qed.
Lemma shift_range : forall i, (i < 64)%nat -> 0 < shift i < 32.
Proof.
  intros i H. assert (forallb (fun i => (0 <? shift i) && (shift i <? 32)) (seq 0 64) = true) as A by (vm_compute; reflexivity).
  rewrite forallb_forall in A. specialize (A i ltac:(apply in_seq; lia)). lia.
Qed.
Lemma macro_eq : forall i a b c d x, (i < 64)%nat -> word b -> word c -> word d ->
  run_macro (macro_of i) a b c d x (shift i) (nth i table 0) = (b + rotl ((a + aux i b c d + x + nth i table 0) mod W) (shift i)) mod W.
Proof.
  intros i a b c d x I B C D. pose proof (shift_range i I) as S. unfold macro_of, aux, run_macro, F_, G_, H_, I_.
  destruct (Nat.ltb i 16); [rewrite op_eq by exact S; rewrite not32_eq by assumption; reflexivity|].
  destruct (Nat.ltb i 32); [rewrite op_eq by exact S; rewrite not32_eq by assumption; reflexivity|].
  destruct (Nat.ltb i 48); [rewrite op_eq by exact S; reflexivity|]. rewrite op_eq by exact S. rewrite not32_eq by assumption. reflexivity.
Qed.
Definition words (st : regs) : Prop := let '(a, b, c, d) := st in word a /\ word b /\ word c /\ word d.
Lemma mod_word : forall x, word (x mod W).
Proof. intros x. apply (u32_word x). Qed.
Lemma group_eq : forall x st g, (g < 16)%nat -> words st ->
  fold_left (exec x) (map instr_of (seq (4 * g) 4)) st = fold_left (operation x) (seq (4 * g) 4) st /\ words (fold_left (operation x) (seq (4 * g) 4) st).
Proof.
  intros x [[[a b] c] d] g G (A & B & C & D). set (i := (4 * g)%nat). assert (i < 61)%nat as I by (unfold i; lia).
  assert (reg_of i = Ra /\ reg_of (S i) = Rd /\ reg_of (S (S i)) = Rc /\ reg_of (S (S (S i))) = Rb) as (R0 & R1 & R2 & R3).
  { unfold reg_of, i. assert (forall k, (k < 4)%nat -> ((k + 4 * g) mod 4)%nat = k) as M by (intros k K; rewrite (Nat.mul_comm 4 g), Nat.mod_add by lia; apply Nat.mod_small; exact K).
    change (4 * g)%nat with (0 + 4 * g)%nat. change (S (0 + 4 * g)) with (1 + 4 * g)%nat. change (S (1 + 4 * g)) with (2 + 4 * g)%nat. change (S (2 + 4 * g)) with (3 + 4 * g)%nat.
    rewrite !M by lia. repeat split. }
  cbn [seq map fold_left]. unfold instr_of. rewrite R0, R1, R2, R3. cbn [exec operation].
  rewrite (macro_eq i) by (auto; lia). set (a' := (b + rotl _ _) mod W). assert (word a') as A' by apply mod_word.
  rewrite (macro_eq (S i)) by (auto; lia). set (d' := (a' + rotl _ _) mod W). assert (word d') as D' by apply mod_word.
  rewrite (macro_eq (S (S i))) by (auto; lia). set (c' := (d' + rotl _ _) mod W). assert (word c') as C' by apply mod_word.
  rewrite (macro_eq (S (S (S i)))) by (auto; lia). set (b' := (c' + rotl _ _) mod W). assert (word b') as B' by apply mod_word.
  split; [reflexivity|]. cbn [words]. auto.
Qed.
Lemma rounds_eq : forall x n k st, (k + n <= 16)%nat -> words st ->
  fold_left (exec x) (map instr_of (seq (4 * k) (4 * n))) st = fold_left (operation x) (seq (4 * k) (4 * n)) st /\ words (fold_left (operation x) (seq (4 * k) (4 * n)) st).
Proof.
  induction n as [|n IH]; intros k st K H; [cbn; auto|]. replace (4 * S n)%nat with (4 + 4 * n)%nat by lia. rewrite seq_app, map_app, !fold_left_app.
  destruct (group_eq x st k) as [E P]; [lia|exact H|]. rewrite E. replace (4 * k + 4)%nat with (4 * S k)%nat by lia. apply IH; [lia|exact P].
Qed.
Lemma decode_word : forall b0 b1 b2 b3, byte b0 -> byte b1 -> byte b2 -> byte b3 ->
  Z.lor (Z.lor (Z.lor b0 (Z.shiftl b1 8)) (Z.shiftl b2 16)) (Z.shiftl b3 24) = le_word [b0; b1; b2; b3].
Proof.
  intros b0 b1 b2 b3 B0 B1 B2 B3. unfold byte in *. rewrite !Z.shiftl_mul_pow2 by lia.
  rewrite (Z.lor_comm b0), (lor_add (b1 * 2 ^ 8) b0 8) by (try lia; try (exists b1; reflexivity)).
  rewrite (Z.lor_comm _ (b2 * 2 ^ 16)), (lor_add (b2 * 2 ^ 16) _ 16) by (try lia; try (exists b2; reflexivity)).
  rewrite (Z.lor_comm _ (b3 * 2 ^ 24)), (lor_add (b3 * 2 ^ 24) _ 24) by (try lia; try (exists b3; reflexivity)).
  cbn [le_word fold_right]. lia.
Qed.
Lemma decode_eq : forall n b, length b = (4 * n)%nat -> Forall byte b -> decode b = map (fun k => le_word (firstn 4 (skipn (4 * k) b))) (seq 0 n).
Proof.
  induction n as [|n IH]; intros b L F; [destruct b; [reflexivity|discriminate]|].
  destruct b as [|b0 [|b1 [|b2 [|b3 r]]]]; try (cbn in L; lia). inversion F as [|? ? F0 Fa]; subst. inversion Fa as [|? ? F1 Fb]; subst. inversion Fb as [|? ? F2 Fc]; subst. inversion Fc as [|? ? F3 Fr]; subst.
  cbn [decode]. rewrite decode_word by assumption. cbn [seq map]. f_equal. rewrite <- seq_shift, map_map. rewrite (IH r) by (auto; cbn in L; lia). apply map_ext. intros k.
  replace (4 * S k)%nat with (4 + 4 * k)%nat by lia. reflexivity.
Qed.
Lemma transform_eq : forall st b, words st -> length b = 64%nat -> Forall byte b -> transform st b = block st b /\ words (block st b).
Proof.
  intros st b H L F. unfold transform, block. rewrite (decode_eq 16 b L F), program_eq. set (x := map _ (seq 0 16)).
  destruct (rounds_eq x 16 0 st ltac:(lia) H) as [E P]. change (4 * 0)%nat with 0%nat in E, P. change (4 * 16)%nat with 64%nat in E, P. rewrite E.
  destruct (fold_left (operation x) (seq 0 64) st) as [[[a b'] c] d]. destruct st as [[[a0 b0] c0] d0]. split; [reflexivity|]. cbn [words]. repeat split; apply mod_word.
Qed.

(** *** Updates *)
(** the context after the bytes [m] *)
Definition absorbed (m : list Z) : regs := blocks (length m / 64) (1732584193, 4023233417, 2562383102, 271733878) m.
Record holds (c : md5_ctx) (m : list Z) : Prop := {
  h_state : c_state c = absorbed m;
  h_words : words (c_state c);
  h_count0 : c_count0 c = (8 * Z.of_nat (length m)) mod W;
  h_count1 : c_count1 c = (8 * Z.of_nat (length m) / W) mod W;
  h_length : length (c_buffer c) = 64%nat;
  h_buffer : firstn (length m mod 64) (c_buffer c) = skipn (64 * (length m / 64)) m;
  h_bytes : Forall byte m }.

Lemma blocks_app : forall n st a b k, length a = (64 * n)%nat -> blocks (n + k) st (a ++ b) = blocks k (blocks n st a) b.
Proof.
  induction n as [|n IH]; intros st a b k L; [destruct a; [reflexivity|discriminate]|]. cbn [Nat.add blocks].
  rewrite firstn_app, skipn_app. replace (64 - length a)%nat with 0%nat by lia. rewrite firstn_O, app_nil_r, skipn_O. apply IH. rewrite skipn_length. lia.
Qed.
Lemma blocks_ignore : forall n st a b, length a = (64 * n)%nat -> blocks n st (a ++ b) = blocks n st a.
Proof. intros n st a b L. replace n with (n + 0)%nat by lia. rewrite blocks_app by lia. cbn [blocks]. rewrite Nat.add_0_r. reflexivity. Qed.
Lemma forall_firstn : forall (P : Z -> Prop) n l, Forall P l -> Forall P (firstn n l).
Proof. intros P n l H. rewrite Forall_forall in *. intros x I. apply H. rewrite <- (firstn_skipn n l); apply in_or_app; left; exact I. Qed.
Lemma blocks_prefix : forall k st a b, (64 * k <= length a)%nat -> blocks k st (a ++ b) = blocks k st a.
Proof.
  induction k as [|k IH]; intros st a b L; [reflexivity|]. cbn [blocks]. rewrite firstn_app, skipn_app. replace (64 - length a)%nat with 0%nat by lia. rewrite firstn_O, app_nil_r, skipn_O.
  apply IH. rewrite skipn_length. lia.
Qed.
Lemma skipn_skipn' : forall (a b : nat) (l : list Z), skipn a (skipn b l) = skipn (b + a) l.
Proof. intros a b. induction b as [|b IH]; intros l; [reflexivity|]. destruct l; [destruct a; reflexivity|]. apply IH. Qed.
Lemma blocks_snoc : forall k st M, blocks (S k) st M = block (blocks k st M) (firstn 64 (skipn (64 * k) M)).
Proof.
  induction k as [|k IH]; intros st M; [reflexivity|]. change (blocks (S (S k)) st M) with (blocks (S k) (block st (firstn 64 M)) (skipn 64 M)). rewrite IH.
  rewrite skipn_skipn'. replace (64 + 64 * k)%nat with (64 * S k)%nat by lia. reflexivity.
Qed.
Lemma input_at_ok : forall l i n, (i + n <= length l)%nat -> input_at l (Z.of_nat i) (Z.of_nat n) = Ok (firstn n (skipn i l)).
Proof. intros l i n H. unfold input_at. replace (_ || _) with false by lia. rewrite !Nat2Z.id. reflexivity. Qed.
Lemma buf_copy_ok : forall b i l, (i + length l <= length b)%nat -> buf_copy b (Z.of_nat i) l = Ok (firstn i b ++ l ++ skipn (i + length l) b).
Proof. intros b i l H. unfold buf_copy. replace (_ || _) with false by lia. rewrite !Nat2Z.id. reflexivity. Qed.
Lemma forall_skipn : forall (P : Z -> Prop) n l, Forall P l -> Forall P (skipn n l).
Proof. intros P n l H. rewrite Forall_forall in *. intros x I. apply H. rewrite <- (firstn_skipn n l). apply in_or_app. right. exact I. Qed.

Definition init_regs : regs := (1732584193, 4023233417, 2562383102, 271733878).
Lemma init_words : words init_regs.
Proof. cbv. repeat split; discriminate. Qed.
Lemma loop_ok : forall m input fuel i k st, Forall byte (m ++ input) -> Z.of_nat (length input) <= 4294967232 -> (length m + i = 64 * k)%nat -> (i <= length input)%nat ->
  (length input - i <= 64 * fuel)%nat -> st = blocks k init_regs (m ++ input) -> words st ->
  exists i' k', update_loop fuel input (Z.of_nat (length input)) (Z.of_nat i) st = Ok (Z.of_nat i', blocks k' init_regs (m ++ input)) /\
    (length m + i' = 64 * k')%nat /\ (i' <= length input)%nat /\ (length input < i' + 64)%nat /\ words (blocks k' init_regs (m ++ input)).
Proof.
  intros m input. induction fuel as [|fuel IH]; intros i k st FB LEN E I FU -> WS.
  - exists i, k. cbn [update_loop]. unfold u32. rewrite Z.mod_small by lia. replace (_ <? _) with false by lia. repeat split; auto; lia.
  - cbn [update_loop]. unfold u32 at 1. rewrite Z.mod_small by lia. destruct (Z.ltb_spec (Z.of_nat i + 63) (Z.of_nat (length input))) as [L|L].
    + change 64 with (Z.of_nat 64). rewrite input_at_ok by lia. cbn [res_bind]. unfold u32. rewrite Z.mod_small by lia. rewrite <- Nat2Z.inj_add.
      assert (firstn 64 (skipn i input) = firstn 64 (skipn (64 * k) (m ++ input))) as SL.
      { rewrite skipn_app. rewrite (skipn_all2 m) by lia. cbn [app]. f_equal. f_equal. lia. }
      rewrite SL. destruct (transform_eq (blocks k init_regs (m ++ input)) (firstn 64 (skipn (64 * k) (m ++ input))) WS) as [T1 T2].
      * rewrite firstn_length, skipn_length, app_length. lia.
      * apply forall_firstn, forall_skipn, FB.
      * rewrite T1. rewrite <- blocks_snoc in *. apply (IH (i + 64)%nat (S k)); auto; lia.
    + exists i, k. repeat split; auto; lia.
Qed.
Lemma index_ok : forall n, Z.land (Z.shiftr ((8 * Z.of_nat n) mod W) 3) 63 = Z.of_nat (n mod 64).
Proof.
  intros n. change 63 with (Z.ones 6). rewrite Z.land_ones by lia. rewrite Z.shiftr_div_pow2 by lia. unfold W. change (2 ^ 3) with 8. change (2 ^ 6) with 64. rewrite Nat2Z.inj_mod.
  change (Z.of_nat 64) with 64. generalize (Z.of_nat n). intros z. Z.div_mod_to_equations. lia.
Qed.
Lemma counts_ok : forall n l, 0 <= n -> 0 <= l < W ->
  let bits := u32 (Z.shiftl l 3) in
  let c0 := add32 ((8 * n) mod W) bits in
  c0 = (8 * (n + l)) mod W /\
  add32 (if c0 <? bits then add32 ((8 * n / W) mod W) 1 else (8 * n / W) mod W) (Z.shiftr l 29) = (8 * (n + l) / W) mod W.
Proof.
  intros n l N L. cbv zeta. rewrite Z.shiftl_mul_pow2, Z.shiftr_div_pow2 by lia. unfold add32, u32. fold W. change (2 ^ 3) with 8. change (2 ^ 29) with 536870912.
  assert (((8 * n) mod W + (l * 8) mod W) mod W = (8 * (n + l)) mod W) as E by (rewrite <- Zplus_mod; f_equal; lia). rewrite E. split; [reflexivity|].
  assert (forall b : bool, (if b then ((8 * n / W) mod W + 1) mod W else (8 * n / W) mod W) = (8 * n / W + (if b then 1 else 0)) mod W) as B.
  { intros []; [apply Zplus_mod_idemp_l|f_equal; lia]. }
  rewrite B. rewrite Zplus_mod_idemp_l. f_equal.
  destruct (Z.ltb_spec ((8 * (n + l)) mod W) ((l * 8) mod W)) as [H|H]; unfold W in *; Z.div_mod_to_equations; lia.
Qed.

Theorem update_ok : forall c m input, holds c m -> Forall byte input -> Z.of_nat (length input) <= 4294967232 ->
  exists c', md5_update c input = Ok c' /\ holds c' (m ++ input).
Proof.
  intros c m input [HS HW H0 H1 HL HB HF] FI LEN. set (M := m ++ input). assert (Forall byte M) as FM by (apply Forall_app; split; assumption).
  pose proof (counts_ok (Z.of_nat (length m)) (Z.of_nat (length input)) ltac:(lia) ltac:(unfold W; lia)) as C. cbv zeta in C. destruct C as [C0 C1].
  assert (length M = (length m + length input)%nat) as LM by (unfold M; apply app_length).
  unfold md5_update. rewrite H0, H1, index_ok. set (idx := (length m mod 64)%nat) in *. set (q := (length m / 64)%nat) in *.
  assert (length m = 64 * q + idx)%nat as DM by (unfold q, idx; apply Nat.div_mod; lia). assert (idx < 64)%nat as IX by (unfold idx; apply Nat.mod_upper_bound; lia).
  rewrite C1, C0. rewrite <- Nat2Z.inj_add, <- LM. clear C0 C1 H0 H1.
  assert (c_state c = blocks q init_regs m) as HS' by exact HS. clear HS. clearbody idx q.
  assert (length (skipn (64 * q) m) = idx) as LS by (rewrite skipn_length; lia).
  destruct (Z.leb_spec (64 - Z.of_nat idx) (Z.of_nat (length input))) as [L|L].
  - replace (64 - Z.of_nat idx) with (Z.of_nat (64 - idx)) by lia. change 0 with (Z.of_nat 0) at 1. rewrite input_at_ok by lia. cbn [res_bind skipn]. 
    assert (length (firstn (64 - idx) input) = 64 - idx)%nat as LP by (rewrite firstn_length; lia).
    rewrite buf_copy_ok by (rewrite LP, HL; lia). cbn [res_bind]. rewrite LP. rewrite HB. rewrite (skipn_all2 (c_buffer c)) by lia. rewrite app_nil_r.
    assert (skipn (64 * q) m ++ firstn (64 - idx) input = firstn 64 (skipn (64 * q) M)) as BL.
    { unfold M. rewrite skipn_app. replace (64 * q - length m)%nat with 0%nat by lia. cbn [skipn]. rewrite firstn_app, LS. rewrite (firstn_all2 (skipn (64 * q) m)) by lia. reflexivity. }
    rewrite BL.
    assert (c_state c = blocks q init_regs M) as ST by (rewrite HS'; unfold M; symmetry; apply blocks_prefix; lia). rewrite ST in HW |- *.
    destruct (transform_eq (blocks q init_regs M) (firstn 64 (skipn (64 * q) M)) HW) as [T1 T2].
    { rewrite firstn_length, skipn_length. lia. } { apply forall_firstn, forall_skipn, FM. }
    rewrite T1. rewrite <- blocks_snoc in *.
    destruct (loop_ok m input (length input) (64 - idx) (S q) (blocks (S q) init_regs M) FM LEN ltac:(lia) ltac:(lia) ltac:(lia) eq_refl T2) as (i' & k' & E1 & E2 & E3 & E4 & E5).
    rewrite E1. cbn [res_bind fst snd]. replace (Z.of_nat (length input) - Z.of_nat i') with (Z.of_nat (length input - i')) by lia. rewrite input_at_ok by lia. cbn [res_bind].
    rewrite (firstn_all2 (skipn i' input)) by (rewrite skipn_length; lia). assert (length (skipn i' input) = length input - i')%nat as LR by apply skipn_length.
    assert (length (firstn 64 (skipn (64 * q) M)) = 64%nat) as LB by (rewrite firstn_length, skipn_length; lia).
    change 0 with (Z.of_nat 0). rewrite buf_copy_ok by (rewrite LR, LB; lia). revert LB. generalize (firstn 64 (skipn (64 * q) M)). intros B LB. cbn [res_bind]. rewrite firstn_O. cbn [app Nat.add].
    assert (length M / 64 = k')%nat as QK by (symmetry; apply (Nat.div_unique _ 64 k' (length input - i')); lia).
    assert (length M mod 64 = length input - i')%nat as RK by (symmetry; apply (Nat.mod_unique _ 64 k' (length input - i')); lia).
    eexists. split; [reflexivity|]. constructor; cbn [c_state c_count0 c_count1 c_buffer]; auto.
    + unfold absorbed. rewrite QK. reflexivity.
    + rewrite app_length, (skipn_length _ B), LR, LB. lia.
    + rewrite QK, RK. rewrite firstn_app, LR, Nat.sub_diag, firstn_O, app_nil_r. rewrite firstn_all2 by lia. unfold M. rewrite skipn_app, (skipn_all2 m) by lia. cbn [app]. f_equal. lia.
  - cbn [res_bind]. change 0 with (Z.of_nat 0) at 1. replace (Z.of_nat (length input) - 0) with (Z.of_nat (length input)) by lia. rewrite input_at_ok by lia. cbn [res_bind skipn].
    rewrite firstn_all. rewrite buf_copy_ok by lia. cbn [res_bind].
    assert (length M / 64 = q)%nat as QK by (symmetry; apply (Nat.div_unique _ 64 q (idx + length input)); lia).
    assert (length M mod 64 = idx + length input)%nat as RK by (symmetry; apply (Nat.mod_unique _ 64 q (idx + length input)); lia).
    eexists. split; [reflexivity|]. constructor; cbn [c_state c_count0 c_count1 c_buffer]; auto.
    + unfold absorbed. rewrite QK. rewrite HS'. unfold M. symmetry. apply blocks_prefix. lia.
    + rewrite !app_length, firstn_length, skipn_length, HL. lia.
    + rewrite QK, RK. rewrite HB. rewrite app_assoc. rewrite firstn_app. rewrite firstn_all2 by (rewrite app_length; lia). rewrite app_length, LS, Nat.sub_diag, firstn_O, app_nil_r.
      unfold M. rewrite skipn_app. replace (64 * q - length m)%nat with 0%nat by lia. reflexivity.
Qed.

Lemma init_holds : forall junk, length junk = 64%nat -> holds (md5_init junk) [].
Proof. intros junk L. constructor; cbn [md5_init c_state c_count0 c_count1 c_buffer]; auto; try reflexivity. exact init_words. Qed.

Lemma updates_ok : forall chunks c m, holds c m -> Forall (fun x => Forall byte x /\ Z.of_nat (length x) <= 4294967232) chunks ->
  exists c', md5_updates c chunks = Ok c' /\ holds c' (m ++ concat chunks).
Proof.
  induction chunks as [|x r IH]; intros c m H F; cbn [md5_updates concat].
  - exists c. rewrite app_nil_r. auto.
  - inversion F as [|? ? [F1 F2] FR]; subst. destruct (update_ok c m x H F1 F2) as (c1 & E1 & H1). rewrite E1. cbn [res_bind].
    destruct (IH c1 (m ++ x) H1 FR) as (c2 & E2 & H2). exists c2. rewrite app_assoc. auto.
Qed.

Lemma encode_word : forall w, 0 <= w < W -> [Z.land w 255; Z.land (Z.shiftr w 8) 255; Z.land (Z.shiftr w 16) 255; Z.land (Z.shiftr w 24) 255] = le_bytes 4 w.
Proof.
  intros w H. change 255 with (Z.ones 8). rewrite !Z.land_ones, !Z.shiftr_div_pow2 by lia. cbn [le_bytes]. change (2 ^ 8) with 256. change (2 ^ 16) with (256 * 256). change (2 ^ 24) with (256 * 256 * 256).
  rewrite <- !Z.div_div by lia. reflexivity.
Qed.
Lemma le_bytes_byte : forall n x, Forall byte (le_bytes n x).
Proof. induction n as [|n IH]; intros x; cbn [le_bytes]; constructor; auto. unfold byte. apply Z.mod_pos_bound. lia. Qed.
Lemma le_bytes_length : forall n x, length (le_bytes n x) = n.
Proof. induction n as [|n IH]; intros x; cbn [le_bytes length]; auto. Qed.
Lemma le_bytes_mod : forall n x, le_bytes n (x mod 256 ^ Z.of_nat n) = le_bytes n x.
Proof.
  induction n as [|n IH]; intros x; [reflexivity|]. cbn [le_bytes]. rewrite Nat2Z.inj_succ, Z.pow_succ_r by lia. rewrite Z.rem_mul_r by lia.
  replace ((x mod 256 + 256 * ((x / 256) mod 256 ^ Z.of_nat n)) mod 256) with (x mod 256).
  2:{ rewrite Z.mul_comm, Z_mod_plus_full. symmetry. apply Zmod_mod. }
  replace ((x mod 256 + 256 * ((x / 256) mod 256 ^ Z.of_nat n)) / 256) with ((x / 256) mod 256 ^ Z.of_nat n).
  2:{ rewrite (Z.mul_comm 256), Z_div_plus_full by lia. rewrite (Z.div_small (x mod 256)); [reflexivity|]. apply Z.mod_pos_bound. lia. }
  rewrite IH. reflexivity.
Qed.
Lemma le_bytes_app : forall n k x, le_bytes (n + k) x = le_bytes n x ++ le_bytes k (x / 256 ^ Z.of_nat n).
Proof.
  induction n as [|n IH]; intros k x; cbn [le_bytes Nat.add app]; [rewrite Z.div_1_r; reflexivity|]. rewrite IH. rewrite Z.div_div by lia.
  rewrite Nat2Z.inj_succ, Z.pow_succ_r by lia. reflexivity.
Qed.
Lemma encode_counts : forall b, encode [b mod W; (b / W) mod W] = le_bytes 8 b.
Proof.
  intros b. change 8%nat with (4 + 4)%nat. rewrite le_bytes_app. change (256 ^ Z.of_nat 4) with W. rewrite <- (le_bytes_mod 4 b), <- (le_bytes_mod 4 (b / W)). change (256 ^ Z.of_nat 4) with W.
  rewrite <- !encode_word by (apply Z.mod_pos_bound; reflexivity). reflexivity.
Qed.
Lemma padding_ok : forall n, (n <= 64)%nat -> (0 < n)%nat -> input_at PADDING 0 (Z.of_nat n) = Ok ([128] ++ repeat 0 (n - 1)).
Proof.
  intros n L P. change 0 with (Z.of_nat 0) at 1. rewrite input_at_ok by (cbn; lia). cbn [skipn]. unfold PADDING. destruct n as [|n]; [lia|]. cbn [firstn app]. f_equal. f_equal.
  replace (S n - 1)%nat with n by lia. replace 63%nat with (n + (63 - n))%nat by lia. rewrite repeat_app, firstn_app, repeat_length, Nat.sub_diag, firstn_O, app_nil_r. apply firstn_all2. rewrite repeat_length. lia.
Qed.
Lemma final_ok : forall c m, holds c m -> md5_final c = Ok (md5 m).
Proof.
  intros c m H. pose proof H as [HS HW H0 H1 HL HB HF]. unfold md5_final. rewrite H0, H1, encode_counts, index_ok.
  set (k := Z.to_nat ((55 - Z.of_nat (length m)) mod 64)).
  assert ((if Z.of_nat (length m mod 64) <? 56 then 56 - Z.of_nat (length m mod 64) else 120 - Z.of_nat (length m mod 64)) = Z.of_nat (S k)) as PL.
  { unfold k. rewrite Nat2Z.inj_succ, Z2Nat.id by (apply Z.mod_pos_bound; lia). rewrite Nat2Z.inj_mod. change (Z.of_nat 64) with 64. generalize (Z.of_nat (length m)). clear. intros z.
    destruct (Z.ltb_spec (z mod 64) 56); Z.div_mod_to_equations; lia. }
  rewrite PL. assert (k < 64)%nat as K by (unfold k; pose proof (Z.mod_pos_bound (55 - Z.of_nat (length m)) 64 ltac:(lia)); lia).
  rewrite padding_ok by lia. replace (S k - 1)%nat with k by lia. cbn [res_bind].
  destruct (update_ok c m ([128] ++ repeat 0 k) H) as (c1 & E1 & I1).
  { apply Forall_app. split; [constructor; [unfold byte; lia|constructor]|]. apply Forall_forall. intros x I. apply repeat_spec in I. subst. unfold byte. lia. }
  { rewrite app_length, repeat_length. cbn [length]. lia. }
  rewrite E1. cbn [res_bind]. destruct (update_ok c1 _ (le_bytes 8 (8 * Z.of_nat (length m))) I1 (le_bytes_byte _ _)) as (c2 & E2 & I2).
  { rewrite le_bytes_length. lia. }
  rewrite E2. cbn [res_bind]. destruct I2 as [JS JW _ _ _ _ _]. unfold md5, pad. fold k. rewrite <- app_assoc in JS. rewrite <- app_assoc in JS.
  unfold absorbed in JS. rewrite <- JS. destruct (c_state c2) as [[[a b] cc] d]. destruct JW as (WA & WB & WC & WD). unfold encode. cbn [flat_map]. rewrite !encode_word by assumption. rewrite app_nil_r. reflexivity.
Qed.

(** C47: after MD5Init, any division of any message over calls of MD5Update (chunks of fewer than 2^32-63 bytes,
    whose number and total length are not bounded) gives, by MD5Final, the digest RFC 1321 defines of the whole
    message; no call reads or writes outside its arrays; what the buffer held before does not matter *)
Theorem C47_digest_partial : forall junk chunks, length junk = 64%nat ->
  Forall (fun x => Forall byte x /\ Z.of_nat (length x) <= 2 ^ 32 - 64) chunks ->
  (do c <- md5_updates (md5_init junk) chunks ; md5_final c) = Ok (md5 (concat chunks)).
Proof.
  intros junk chunks L F. destruct (updates_ok chunks (md5_init junk) [] (init_holds junk L) F) as (c & E & H). rewrite E. cbn [res_bind]. apply final_ok. exact H.
Qed.
(** so the digest depends on the message only, not on how it was cut *)
Theorem C47_chunking_partial : forall junk1 junk2 chunks1 chunks2, length junk1 = 64%nat -> length junk2 = 64%nat -> concat chunks1 = concat chunks2 ->
  Forall (fun x => Forall byte x /\ Z.of_nat (length x) <= 2 ^ 32 - 64) chunks1 -> Forall (fun x => Forall byte x /\ Z.of_nat (length x) <= 2 ^ 32 - 64) chunks2 ->
  (do c <- md5_updates (md5_init junk1) chunks1 ; md5_final c) = (do c <- md5_updates (md5_init junk2) chunks2 ; md5_final c).
Proof. intros. rewrite !C47_digest_partial by assumption. congruence. Qed.
Lemma md5_length : forall m, length (md5 m) = 16%nat.
Proof. intros m. unfold md5. destruct (blocks _ _ _) as [[[a b] c] d]. rewrite !app_length, !le_bytes_length. reflexivity. Qed.
(** 70 bytes as 1 + 0 + 63 + 6: the hypotheses hold and both sides evaluate *)
Example C47_example : let chunks := [[97]; []; repeat 98 63; repeat 255 6] in
  Forall (fun x => Forall byte x /\ Z.of_nat (length x) <= 2 ^ 32 - 64) chunks /\
  (do c <- md5_updates (md5_init (repeat 7 64)) chunks ; md5_final c) = (do c <- md5_updates (md5_init (repeat 9 64)) [concat chunks] ; md5_final c).
Proof. split; [repeat constructor; unfold byte; cbn; lia|vm_compute; reflexivity]. Qed.

Lemma loop_wraps : forall n fuel input st, Z.of_nat (length input) = 4294967295 -> Z.of_nat n <= 67108863 -> (n < fuel)%nat ->
  update_loop fuel input 4294967295 (4294967295 - 64 * Z.of_nat n) st = UB.
Proof.
  induction n as [|n IH]; intros fuel input st L B F; (destruct fuel as [|fuel]; [lia|]); cbn [update_loop].
  - replace (4294967295 - 64 * Z.of_nat 0) with 4294967295 by reflexivity. replace (u32 (4294967295 + 63) <? 4294967295) with true by reflexivity. unfold input_at. rewrite L. reflexivity.
  - unfold u32 at 1. rewrite Z.mod_small by lia. replace (_ <? _) with true by lia. destruct (input_at input (4294967295 - 64 * Z.of_nat (S n)) 64) as [blk|e|] eqn:E.
    + cbn [res_bind]. unfold u32. rewrite Z.mod_small by lia. replace (4294967295 - 64 * Z.of_nat (S n) + 64) with (4294967295 - 64 * Z.of_nat n) by lia. apply IH; auto; lia.
    + unfold input_at in E. destruct (_ || _); discriminate.
    + reflexivity.
Qed.
(** Finding: the bound on the chunks is needed.  Once one byte is buffered, a chunk of 2^32-1 bytes (an
    unsigned int can hold that length) makes [i + 63] wrap around, and the next block is read past the input *)
Theorem C47_huge_chunk_refuted : exists m x, Forall byte m /\ Forall byte x /\ Z.of_nat (length x) < 2 ^ 32 /\
  forall c, holds c m -> md5_update c x = UB.
Proof.
  destruct (Z_of_nat_complete 4294967295 ltac:(lia)) as [N EN]. destruct (Z_of_nat_complete 67108863 ltac:(lia)) as [K EK]. exists [0], (repeat 0 N).
  assert (Forall byte (repeat 0 N)) as FB by (apply Forall_forall; intros x I; apply repeat_spec in I; subst; unfold byte; lia).
  assert (Z.of_nat (length (repeat 0 N)) = 4294967295) as L by (rewrite repeat_length; auto). revert FB L. generalize (repeat 0 N). intros x FB L.
  split; [constructor; [unfold byte; lia|constructor]|]. split; [exact FB|]. split; [lia|]. intros c [HS HW H0 H1 HL HB HF]. unfold md5_update. rewrite H0. rewrite L.
  replace (Z.land (Z.shiftr ((8 * Z.of_nat (length [0])) mod W) 3) 63) with 1 by reflexivity. replace (64 - 1 <=? 4294967295) with true by reflexivity.
  change (64 - 1) with (Z.of_nat 63). change 0 with (Z.of_nat 0) at 1. rewrite input_at_ok by lia. cbn [res_bind]. rewrite skipn_O.
  assert (length (firstn 63 x) = 63%nat) as LP by (rewrite firstn_length; lia). change 1 with (Z.of_nat 1). rewrite buf_copy_ok by (rewrite LP, HL; lia). cbn [res_bind].
  replace (Z.of_nat 63) with (4294967295 - 64 * Z.of_nat K) by (rewrite <- EK; reflexivity).
  generalize (transform (c_state c) (firstn 1 (c_buffer c) ++ firstn 63 x ++ skipn (1 + length (firstn 63 x)) (c_buffer c))). intros st.
  rewrite loop_wraps; [reflexivity|exact L| |]; lia.
Qed.
Print Assumptions C47_digest_partial.
Print Assumptions C47_chunking_partial.
Print Assumptions C47_huge_chunk_refuted.

(** C83: searching and comparing regardless of case; C84: reason phrases; C85: trace levels *)
From Coq Require Import ZArith Ascii String Bool List Arith Lia.
From Verif Require Import Base Str StrLemmas HelpModel.
Import ListNotations.
Local Open Scope string_scope.
Local Open Scope list_scope.
Local Open Scope nat_scope.

(** *** C83 *)
(** the texts are the same but for upper and lower case letters A to Z *)
Definition same_letter (a b : ascii) : Prop := tolower a = tolower b.
Definition same_text (a b : str) : Prop := Forall2 same_letter a b.
(** [needle] is found in [h] after [i] characters *)
Definition found_at (h needle : str) (i : nat) : Prop := exists a b c, h = a ++ b ++ c /\ List.length a = i /\ same_text b needle.

Lemma strneq_map n : forall a b, strneq n (map tolower a) (map tolower b) = true -> List.length b = n -> exists x y, a = x ++ y /\ same_text x b.
Proof.
  induction n as [|n IH]; intros a b E L.
  - destruct b; [|discriminate]. exists [], a. split; [reflexivity|constructor].
  - destruct b as [|y b]; [discriminate|]. destruct a as [|x a]; [discriminate|]. cbn in E. apply andb_true_iff in E. destruct E as [E1 E2].
    apply Ascii.eqb_eq in E1. injection L as L. destruct (IH a b E2 L) as (u & v & -> & S). exists (x :: u), v. split; [reflexivity|]. now constructor.
Qed.
Lemma strneq_map' a b c : same_text a b -> strneq (List.length b) (map tolower (a ++ c)) (map tolower b) = true.
Proof. intros S. induction S as [|x y a b E S IH]; [reflexivity|]. cbn. rewrite E. now rewrite (proj2 (Ascii.eqb_eq _ _) eq_refl). Qed.

Lemma find_from_spec h c n : forall k, match find_from k h (tolower c) n with
  | Some i => k <= i /\ found_at h (c :: n) (i - k) /\ forall j, j < i - k -> ~ found_at h (c :: n) j
  | None => forall j, ~ found_at h (c :: n) j
  end.
Proof.
  induction h as [|x h IH]; intros k; cbn.
  - intros j (a & b & e & E & L & S). inversion S; subst. destruct a; discriminate.
  - destruct (Ascii.eqb (tolower x) (tolower c) && strncaseeq (List.length n) h n) eqn:T.
    + apply andb_true_iff in T. destruct T as [T1 T2]. apply Ascii.eqb_eq in T1.
      destruct (strneq_map _ _ _ T2 eq_refl) as (u & v & -> & S).
      split; [lia|]. rewrite Nat.sub_diag. split; [|intros; lia].
      exists [], (x :: u), v. split; [reflexivity|]. split; [reflexivity|]. now constructor.
    + assert (Z : ~ found_at (x :: h) (c :: n) 0).
      { intros (a & b & e & E & L & S). destruct a; [|discriminate]. inversion S as [|y z b' n' Y S']; subst. cbn in E. injection E as -> ->.
        apply andb_false_iff in T. destruct T as [T|T].
        - apply Ascii.eqb_neq in T. apply T. exact Y.
        - unfold strncaseeq in T. rewrite strneq_map' in T by exact S'. discriminate. }
      assert (N : forall j, found_at (x :: h) (c :: n) (S j) -> found_at h (c :: n) j).
      { intros j (a & b & e & E & L & S). destruct a as [|y a]; [discriminate|]. cbn in E. injection E as -> ->. injection L as L. now exists a, b, e. }
      specialize (IH (S k)). destruct (find_from (S k) h (tolower c) n) as [i|].
      * destruct IH as (K & (a & b & e & E & L & S) & M). split; [lia|]. split.
        { exists (x :: a), b, e. split; [now rewrite E|]. split; [cbn; lia|exact S]. }
        intros [|j] J F; [now apply Z|]. apply N in F. apply (M j); [lia|exact F].
      * intros [|j] F; [now apply Z|]. now apply N, IH in F.
Qed.

(** osip_strcasestr answers the first place where the needle is, and NULL only if it is nowhere *)
Theorem C83_first_place : forall h n, match strcasestr h n with
  | Some i => found_at h n i /\ forall j, j < i -> ~ found_at h n j
  | None => forall j, ~ found_at h n j
  end.
Proof.
  intros h [|c n]; cbn.
  - split; [|intros; lia]. exists [], [], h. split; [reflexivity|]. split; [reflexivity|constructor].
  - pose proof (find_from_spec h c n 0) as F. destruct (find_from 0 h (tolower c) n); [|exact F]. rewrite Nat.sub_0_r in F. tauto.
Qed.
Print Assumptions C83_first_place.
Example C83_example : strcasestr ($"Content-TYPE: text") ($"type") = Some 8 /\ strcasestr ($"aaB") ($"ab") = Some 1 /\ strcasestr ($"abc") ($"bd") = None.
Proof. repeat split; reflexivity. Qed.

(** the comparisons oSIP has for systems without strcasecmp answer 0 for the same texts as those of the system *)
Lemma tolower_nul c : tolower c = NUL <-> c = NUL.
Proof. split; [|intros ->; reflexivity]. destruct c as [[] [] [] [] [] [] [] []]; vm_compute; congruence. Qed.
Definition is_text (s : str) : Prop := ~ In NUL s.
Theorem C83_strcasecmp : forall a b, is_text a -> is_text b -> vx_strcaseeq a b = strcaseeq a b.
Proof.
  unfold is_text. induction a as [|x a IH]; intros b A B; cbn [vx_strcaseeq].
  - destruct b as [|y b]; [reflexivity|]. cbn [head]. unfold strcaseeq. cbn [map str_eqb].
    apply Ascii.eqb_neq. intros E. symmetry in E.
    assert (y = NUL) by (apply tolower_nul; exact E). subst. apply B. now left.
  - destruct b as [|y b]; cbn [head tl].
    + destruct (Ascii.eqb_spec (tolower x) (tolower NUL)) as [E|E]; [|reflexivity].
      assert (x = NUL) by (apply tolower_nul; exact E). subst. elim A. now left.
    + unfold strcaseeq in *. cbn [map str_eqb]. destruct (Ascii.eqb (tolower x) (tolower y)); [|reflexivity]. cbn. apply IH; intros I; [apply A|apply B]; now right.
Qed.
Print Assumptions C83_strcasecmp.
Theorem C83_strncasecmp : forall n a b, is_text a -> is_text b -> vx_strncaseeq n a b = strncaseeq n a b.
Proof.
  unfold is_text. intros [|n] a b A B; [reflexivity|]. unfold vx_strncaseeq. cbn [Nat.eqb].
  revert a b A B. induction n as [|n IH]; intros a b A B.
  - cbn [vx_loop]. unfold strncaseeq.
    destruct a as [|x a], b as [|y b]; cbn [head map strneq]; rewrite ?andb_true_r.
    + reflexivity.
    + destruct (Ascii.eqb_spec (tolower NUL) (tolower y)) as [E|E]; [|reflexivity].
      assert (y = NUL) by (apply tolower_nul; now symmetry). subst. elim B. now left.
    + destruct (Ascii.eqb_spec (tolower x) (tolower NUL)) as [E|E]; [|reflexivity].
      assert (x = NUL) by (apply tolower_nul; exact E). subst. elim A. now left.
    + destruct (Ascii.eqb (tolower x) (tolower y)); reflexivity.
  - change (vx_loop (S (S n)) a b) with
      (let same := Ascii.eqb (tolower (head a)) (tolower (head b)) in
       if same then if (S n =? 0) || Ascii.eqb (head a) NUL || Ascii.eqb (head b) NUL then same else vx_loop (S n) (tl a) (tl b) else same).
    cbv zeta. unfold strncaseeq in *.
    destruct a as [|x a], b as [|y b]; cbn [head tl].
    + reflexivity.
    + destruct (Ascii.eqb_spec (tolower NUL) (tolower y)) as [E|E]; [|reflexivity].
      assert (y = NUL) by (apply tolower_nul; now symmetry). subst. elim B. now left.
    + destruct (Ascii.eqb_spec (tolower x) (tolower NUL)) as [E|E]; [|reflexivity].
      assert (x = NUL) by (apply tolower_nul; exact E). subst. elim A. now left.
    + assert (X : Ascii.eqb x NUL = false) by (apply Ascii.eqb_neq; intros ->; apply A; now left).
      assert (Y : Ascii.eqb y NUL = false) by (apply Ascii.eqb_neq; intros ->; apply B; now left).
      rewrite X, Y. cbn [Nat.eqb orb]. rewrite IH by (intros I; first [apply A; now right|apply B; now right]).
      change (strneq (S (S n)) (map tolower (x :: a)) (map tolower (y :: b))) with
        (Ascii.eqb (tolower x) (tolower y) && strneq (S n) (map tolower a) (map tolower b)).
      destruct (Ascii.eqb (tolower x) (tolower y)); reflexivity.
Qed.
Print Assumptions C83_strncasecmp.
Example C83_compare_example : vx_strncaseeq 4 ($"SIPs:a") ($"sips;b") = true /\ vx_strcaseeq ($"Via") ($"VIA") = true /\ vx_strcaseeq ($"Via") ($"Vi") = false.
Proof. repeat split; reflexivity. Qed.

(** *** C84.  The phrases of RFC 3261, chapter 21 *)
Open Scope Z_scope.
Definition rfc3261 : list (Z * str) :=
  [(100, $"Trying"); (180, $"Ringing"); (181, $"Call Is Being Forwarded"); (182, $"Queued"); (183, $"Session Progress");
   (200, $"OK");
   (300, $"Multiple Choices"); (301, $"Moved Permanently"); (302, $"Moved Temporarily"); (305, $"Use Proxy"); (380, $"Alternative Service");
   (400, $"Bad Request"); (401, $"Unauthorized"); (402, $"Payment Required"); (403, $"Forbidden"); (404, $"Not Found");
   (405, $"Method Not Allowed"); (406, $"Not Acceptable"); (407, $"Proxy Authentication Required"); (408, $"Request Timeout");
   (410, $"Gone"); (413, $"Request Entity Too Large"); (414, $"Request-URI Too Long"); (415, $"Unsupported Media Type");
   (416, $"Unsupported URI Scheme"); (420, $"Bad Extension"); (421, $"Extension Required"); (423, $"Interval Too Brief");
   (480, $"Temporarily Unavailable"); (481, $"Call/Transaction Does Not Exist"); (482, $"Loop Detected"); (483, $"Too Many Hops");
   (484, $"Address Incomplete"); (485, $"Ambiguous"); (486, $"Busy Here"); (487, $"Request Terminated"); (488, $"Not Acceptable Here");
   (491, $"Request Pending"); (493, $"Undecipherable");
   (500, $"Server Internal Error"); (501, $"Not Implemented"); (502, $"Bad Gateway"); (503, $"Service Unavailable"); (504, $"Server Time-out");
   (505, $"Version Not Supported"); (513, $"Message Too Large");
   (600, $"Busy Everywhere"); (603, $"Decline"); (604, $"Does Not Exist Anywhere"); (606, $"Not Acceptable")].
(** and those of later and earlier documents the library knows *)
Definition others : list (Z * str) :=
  [(202, $"Accepted"); (409, $"Conflict"); (411, $"Length Required"); (412, $"Conditional Request Failed"); (417, $"Unknown Resource-Priority");
   (422, $"Session Interval Too Small"); (469, $"Bad Info Package"); (489, $"Bad Event"); (687, $"Dialog Terminated")].

Lemma scan_in l code r : scan l code = Some r -> In (code, r) l.
Proof. induction l as [|[c x] l IH]; cbn; [discriminate|]. destruct (Z.eqb_spec c code) as [->|]; [intros [= ->]; now left|auto]. Qed.
(** osip_message_get_reason knows exactly these codes; for any other number it answers NULL *)
Theorem C84_reasons : forall code phrase, get_reason code = Some phrase <-> In (code, phrase) (rfc3261 ++ others).
Proof.
  intros code phrase. split.
  - unfold get_reason. intros H.
    assert (K : In (code, phrase) (reasons1xx ++ reasons2xx ++ reasons3xx ++ reasons4xx ++ reasons5xx ++ reasons6xx)).
    { rewrite !in_app_iff. destruct (Z.quot code 100) as [|p|p]; try discriminate.
      repeat (destruct p as [p|p|]; try discriminate); apply scan_in in H; tauto. }
    cbn in K. cbn. tauto.
  - intros H. cbn in H. repeat (destruct H as [H|H]; [injection H as <- <-; reflexivity|]). contradiction.
Qed.
Print Assumptions C84_reasons.
Example C84_example : get_reason 486 = Some ($"Busy Here") /\ get_reason 499 = None /\ get_reason (-486) = None /\ get_reason 2147483647 = None.
Proof. repeat split; reflexivity. Qed.
Close Scope Z_scope.

(** *** C85.  What the last call that concerns a level says about it *)
Definition says (level : nat) (c : tcall) : option bool :=
  match c with
  | Until l => Some (level <? l)
  | Enable l => if level =? l then Some true else None
  | Disable l => if level =? l then Some false else None
  end.
Fixpoint last_word (level : nat) (l : list tcall) (before : bool) : bool :=
  match l with [] => before | c :: l => last_word level l (match says level c with Some b => b | None => before end) end.
Definition legal (c : tcall) : Prop := match c with Until _ => True | Enable l | Disable l => l < END_TRACE_LEVEL end.

Lemma fill_nth l n : forall i k, k < n -> nth_error (fill l i n) k = Some (i + k <? l).
Proof.
  induction n as [|n IH]; intros i k K; [lia|]. destruct k as [|k]; cbn [fill nth_error]; [now rewrite Nat.add_0_r|].
  rewrite IH by lia. now replace (S i + k) with (i + S k) by lia.
Qed.
Lemma fill_length l n : forall i, List.length (fill l i n) = n. Proof. induction n; intros i; cbn; auto. Qed.
Lemma set_at_ok b : forall t i, i < List.length t -> exists t', set_at i b t = Ok t' /\ List.length t' = List.length t /\
  forall k, nth_error t' k = if k =? i then Some b else nth_error t k.
Proof.
  induction t as [|x t IH]; intros i L; cbn in L; [lia|]. destruct i as [|i]; cbn.
  - eexists. split; [reflexivity|]. split; [reflexivity|]. intros [|k]; reflexivity.
  - destruct (IH i ltac:(lia)) as (t' & -> & E & N). cbn. eexists. split; [reflexivity|]. split; [cbn; congruence|]. intros [|k]; [reflexivity|]. apply N.
Qed.
Lemma trace_call_ok t c : List.length t = END_TRACE_LEVEL -> legal c -> exists t', trace_call t c = Ok t' /\ List.length t' = END_TRACE_LEVEL /\
  forall k b, nth_error t k = Some b -> nth_error t' k = Some (match says k c with Some b => b | None => b end).
Proof.
  intros L V. destruct c as [l|l|l]; cbn [trace_call says legal] in *.
  - eexists. split; [reflexivity|]. split; [apply fill_length|]. intros k b K.
    assert (k < END_TRACE_LEVEL) by (rewrite <- L; apply nth_error_Some; congruence). rewrite fill_nth by auto. reflexivity.
  - destruct (set_at_ok true t l ltac:(lia)) as (t' & E & F & N). exists t'. split; [exact E|]. split; [congruence|]. intros k b K. rewrite N. destruct (k =? l); auto.
  - destruct (set_at_ok false t l ltac:(lia)) as (t' & E & F & N). exists t'. split; [exact E|]. split; [congruence|]. intros k b K. rewrite N. destruct (k =? l); auto.
Qed.
(** The full claim: after any calls the levels are as the last call about each of them said.  False for the level END_TRACE_LEVEL, which is
    a value of the type: it is written past the table *)
Theorem C85_levels_partial : forall l, Forall legal l -> exists t, trace_calls table_start l = Ok t /\
  forall level, level < END_TRACE_LEVEL -> is_active t level = Ok (last_word level l false).
Proof.
  intros l F.
  assert (K : forall l t, Forall legal l -> List.length t = END_TRACE_LEVEL -> exists t', trace_calls t l = Ok t' /\
    forall k b, nth_error t k = Some b -> nth_error t' k = Some (last_word k l b)).
  { clear. induction l as [|c l IH]; intros t F L; cbn; [eexists; split; [reflexivity|auto]|].
    inversion F as [|? ? V F']; subst. destruct (trace_call_ok t c L V) as (t' & -> & L' & N). cbn.
    destruct (IH t' F' L') as (t'' & -> & M). exists t''. split; [reflexivity|]. intros k b Kb. apply M, N, Kb. }
  destruct (K l table_start F eq_refl) as (t & E & N). exists t. split; [exact E|]. intros level V. unfold is_active.
  rewrite (N level false); [reflexivity|]. unfold table_start, END_TRACE_LEVEL in *. do 8 (destruct level as [|level]; [reflexivity|]). lia.
Qed.
Print Assumptions C85_levels_partial.
Theorem C85_levels_refuted : trace_calls table_start [Until 4; Enable END_TRACE_LEVEL] = UB.
Proof. reflexivity. Qed.
Print Assumptions C85_levels_refuted.
Example C85_example : exists t, trace_calls table_start [Until 4; Enable 6; Disable 2] = Ok t /\
  map (is_active t) [0; 2; 3; 4; 6] = [Ok true; Ok false; Ok true; Ok false; Ok true].
Proof. eexists. split; reflexivity. Qed.

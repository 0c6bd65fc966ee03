(** C29, the remaining case of osip_clrncpy: the copied bytes include the terminator of the source
    (as in osip_cseq_parse).  It is not white space, so the end of the text is not trimmed. *)
From Coq Require Import String ZArith NArith Ascii Bool List Lia ZifyBool ZifyNat.
From Verif Require Import Base Str StrLemmas MemModel MemLemmas PortModel PortBuf PortProps.
Import ListNotations.
Open Scope Z_scope.

Theorem C29_clrncpy_with_terminator : forall s rest dst, cstr s -> (length s + 1 < length dst)%nat -> exists b w d',
  s = b ++ w /\ forallb is_blank b = true /\ (forall c w', w = c :: w' -> is_blank c = false) /\
  clrncpy dst (s ++ NUL :: rest) (len s + 1) = Ok d' /\ length d' = length dst /\ c_string d' = Ok w /\
  skipn (length s + 2) d' = skipn (length s + 2) dst.
Proof.
  intros s rest dst C L. destruct (ltrim_split s) as (b & E & B). exists b, (ltrim s).
  assert (cstr (ltrim s)) as Cw by (rewrite E in C; apply cstr_app in C; tauto).
  assert (exists c r, ltrim s ++ NUL :: rest = c :: r /\ is_blank c = false) as (c & r & X & Bc).
  { destruct (ltrim s) as [|c r] eqn:Lt; [exists NUL, rest; split; reflexivity|]. exists c, (r ++ NUL :: rest). split; [reflexivity|]. eapply ltrim_head; eauto. }
  remember (ltrim s) as w eqn:Ew.
  unfold clrncpy. replace (len s + 1 =? 0) with false by (pose proof (len_nonneg _ s); lia).
  assert (skip_fwd (fuel_of (s ++ NUL :: rest)) (s ++ NUL :: rest) 0 = Ok (len b)) as F.
  { replace (s ++ NUL :: rest) with ([] ++ b ++ c :: r) at 2 by (rewrite <- X, E; cbn [app]; rewrite <- app_assoc; reflexivity).
    rewrite skip_fwd_at; [reflexivity|exact B|exact Bc| |reflexivity]. unfold fuel_of. rewrite E, !app_length. lia. }
  rewrite F. cbn [res_bind].
  assert (skip_back (fuel_of (s ++ NUL :: rest)) (s ++ NUL :: rest) (len b) (len s + 1 - 1) = Ok (Some (len s))) as K.
  { unfold fuel_of. cbn [skip_back]. rewrite (rd_at s NUL rest) by lia. cbn [res_bind]. change (is_blank NUL) with false. cbn [andb]. f_equal. f_equal. lia. }
  rewrite K. cbn [res_bind]. assert (len s = len b + len w) as Ls by (rewrite E at 1; apply len_app).
  replace (len s - len b + 1) with (len (w ++ [NUL])) by (rewrite len_app; cbn; lia).
  replace (s ++ NUL :: rest) with (b ++ (w ++ [NUL]) ++ rest) by (rewrite E; rewrite <- !app_assoc; reflexivity).
  rewrite rd_range_at by reflexivity. cbn [res_bind].
  destruct (cut _ dst (length s + 2)) as (d1 & d2 & Ed & Ld); [lia|].
  assert (length s = length b + length w)%nat as Ln by (rewrite E at 1; apply app_length).
  destruct (cut _ d1 (length (w ++ [NUL]))) as (p & q & Epq & Lp); [rewrite app_length; cbn; lia|].
  assert (length q = S (length b)) as Lq.
  { apply (f_equal (@length _)) in Epq. rewrite app_length in Epq. rewrite app_length in Lp. cbn in Lp. lia. }
  destruct q as [|q0 q]; [discriminate|]. cbn [length] in Lq.
  assert (dst = [] ++ p ++ (q0 :: q ++ d2)) as Ed' by (rewrite Ed, Epq, <- app_assoc; reflexivity).
  assert (wr_range dst 0 (w ++ [NUL]) = Ok ((w ++ [NUL]) ++ q0 :: q ++ d2)) as W by (rewrite Ed'; rewrite wr_range_at by auto; reflexivity).
  rewrite W. cbn [res_bind].
  rewrite (wr_at (w ++ [NUL])) by reflexivity. cbn [res_bind].
  assert (forall z, length z = length b -> exists d', Ok ((w ++ [NUL]) ++ NUL :: z ++ d2) = Ok d' /\ length d' = length dst /\ c_string d' = Ok w /\
    skipn (length s + 2) d' = skipn (length s + 2) dst) as Fin.
  { intros z Lz. eexists. split; [reflexivity|]. split; [|split].
    - rewrite Ed, !app_length. cbn [length]. rewrite app_length. cbn. lia.
    - rewrite <- app_assoc. cbn [app]. apply c_string_at, Cw.
    - rewrite Ed. rewrite <- Ld at 2. rewrite skipn_len_app.
      replace (length s + 2)%nat with (length ((w ++ [NUL]) ++ NUL :: z)) by (rewrite !app_length; cbn; lia).
      replace ((w ++ [NUL]) ++ NUL :: z ++ d2) with (((w ++ [NUL]) ++ NUL :: z) ++ d2) by (rewrite <- !app_assoc; reflexivity).
      apply skipn_len_app. }
  cut (exists d', (if len (w ++ [NUL]) + 1 <? len s + 1 then pad (Z.to_nat (len s + 1)) ((w ++ [NUL]) ++ NUL :: q ++ d2) (len (w ++ [NUL])) (len (w ++ [NUL]) + 1) (len s + 1)
              else Ok ((w ++ [NUL]) ++ NUL :: q ++ d2)) = Ok d' /\ length d' = length dst /\ c_string d' = Ok w /\ skipn (length s + 2) d' = skipn (length s + 2) dst).
  { intros (d' & Y). exists d'. split; [exact E|]. split; [exact B|]. split; [intros c' w' Ew'; apply (ltrim_head s c' w'); congruence|]. exact Y. }
  destruct (Z.ltb_spec (len (w ++ [NUL]) + 1) (len s + 1)) as [G|G].
  - rewrite len_app in G. cbn in G.
    destruct (snoc_case _ q) as [->|(q1 & q2 & Eq)]; [unfold len in *; cbn in *; lia|].
    subst q. rewrite app_length in Lq. cbn in Lq.
    replace ((w ++ [NUL]) ++ NUL :: (q1 ++ [q2]) ++ d2) with (((w ++ [NUL]) ++ [NUL]) ++ q1 ++ q2 :: d2) by (rewrite <- !app_assoc; reflexivity).
    rewrite pad_at.
    + destruct (Fin (repeat NUL (length q1) ++ [q2])) as (d' & X1 & X2); [rewrite app_length, repeat_length; cbn; lia|].
      exists d'. split; [|exact X2]. injection X1 as <-. f_equal. rewrite <- !app_assoc. reflexivity.
    + rewrite !len_app. cbn. lia.
    + rewrite !len_app. cbn. lia.
    + intros ->. cbn in Lq. unfold len in *. lia.
    + rewrite len_app. unfold len in *. cbn. lia.
    + unfold len in *. lia.
  - apply Fin. lia.
Qed.
Example C29_terminator_witness : 
  exists d, clrncpy (repeat "."%char 10) ($" INVITE " ++ [NUL]) 9 = Ok d /\ c_string d = Ok ($"INVITE ").
Proof. eexists; split; vm_compute; reflexivity. Qed.
Print Assumptions C29_clrncpy_with_terminator.

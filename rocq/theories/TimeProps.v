(** C04: timer arithmetic. *)
From Coq Require Import ZArith Bool List Lia ZifyBool.
From Verif Require Import Base TimeModel.
Import ListNotations.
Open Scope Z_scope.

Lemma add_exact : forall t ms, tv_ok t -> 0 <= ms < 1000000 ->
  tv_ok (add_gettimeofday t ms) /\ usecs (add_gettimeofday t ms) = usecs t + ms * 1000.
Proof.
  intros [s u] ms (H1 & H2) Hm. unfold add_gettimeofday, tv_ok, usecs in *. cbn [tv_sec tv_usec] in *.
  destruct (1000000 <=? ms) eqn:E; [lia|]. cbn [tv_sec tv_usec].
  rewrite Z.quot_div_nonneg, Z.rem_mod_nonneg by lia.
  pose proof (Z.div_mod (u + ms * 1000) 1000000 ltac:(lia)).
  pose proof (Z.mod_pos_bound (u + ms * 1000) 1000000 ltac:(lia)).
  pose proof (Z.div_pos (u + ms * 1000) 1000000 ltac:(lia) ltac:(lia)).
  lia.
Qed.

(** Below 1000 seconds (every delay the library itself uses) the sum is exact and normalised. *)
Theorem C04_add_partial : forall t ms, tv_ok t -> 0 <= ms < 1000000 ->
  tv_ok (add_gettimeofday t ms) /\ usecs (add_gettimeofday t ms) = usecs t + ms * 1000.
Proof. exact add_exact. Qed.

(** For any delay the result is normalised, never late, and early by less than two seconds. *)
Theorem C04_never_late : forall t ms, tv_ok t -> 0 <= ms ->
  tv_ok (add_gettimeofday t ms) /\
  usecs t + ms * 1000 - 2000000 < usecs (add_gettimeofday t ms) <= usecs t + ms * 1000.
Proof.
  intros t ms Ht Hm. destruct (Z_lt_ge_dec ms 1000000) as [Hl|Hl].
  - destruct (add_exact t ms Ht) as (H1 & H2); [lia|]. split; [exact H1|]. lia.
  - destruct t as [s u]. unfold add_gettimeofday, tv_ok, usecs in *. cbn [tv_sec tv_usec] in *.
    destruct (1000000 <=? ms) eqn:E; [|lia]. cbn [tv_sec tv_usec].
    pose proof (Z.div_mod ms 1000 ltac:(lia)). pose proof (Z.mod_pos_bound ms 1000 ltac:(lia)). lia.
Qed.

(** From 1000 seconds on the fraction of the start time and of the delay is dropped. *)
Theorem C04_add_refuted : exists t ms, tv_ok t /\ 0 <= ms /\
  usecs (add_gettimeofday t ms) <> usecs t + ms * 1000.
Proof. exists (TV 5 700000), 1000900. repeat split; cbn; try lia; discriminate. Qed.

Lemma usecs_lt : forall a b, tv_ok a -> tv_ok b -> timer_lt a b = (usecs a <? usecs b).
Proof. intros [s u] [s' u'] (H1 & H2) (H3 & H4). unfold timer_lt, usecs in *. cbn [tv_sec tv_usec] in *. destruct (s =? s') eqn:?; lia. Qed.

Lemma usecs_gt : forall a b, tv_ok a -> tv_ok b -> timer_gt a b = (usecs b <? usecs a).
Proof. intros [s u] [s' u'] (H1 & H2) (H3 & H4). unfold timer_gt, usecs in *. cbn [tv_sec tv_usec] in *. destruct (s =? s') eqn:?; lia. Qed.

(** Comparing two normalised times compares the instants. *)
Theorem C04_compare : forall a b, tv_ok a -> tv_ok b ->
  (timer_lt a b = true <-> usecs a < usecs b) /\ (timer_gt a b = true <-> usecs b < usecs a).
Proof. intros a b Ha Hb. rewrite usecs_lt, usecs_gt by auto. lia. Qed.

Example C04_witness : add_gettimeofday (TV 10 900000) 500 = TV 11 400000 /\ tv_ok (TV 10 900000).
Proof. repeat split; cbn; lia. Qed.

Print Assumptions C04_add_partial.
Print Assumptions C04_never_late.
Print Assumptions C04_add_refuted.
Print Assumptions C04_compare.

(** C82: the clock of oSIP includes the time a device slept *)
From Coq Require Import ZArith List Bool Lia.
From Verif Require Import ClockModel.
Import ListNotations.
Open Scope Z_scope.

(** a device whose clocks run for more than a second, at the moment the program first asks for the time *)
Definition first (r m : Z) : device := go (mkDev r m clock_start) Ask.
Definition running (r m : Z) : Prop := second <= r /\ second <= m.
(** how much of the time that passed since then the clock of oSIP has missed *)
Definition behind (r m : Z) (d : device) : Z := (real d - r) - (time d - m).

(** *** The clock never goes back, whatever the real time clock says *)
Theorem C82_never_back : forall c real mono mono', mono <= mono' -> now c mono <= now (compensate c real mono') mono'.
Proof.
  intros c real mono mono' L. unfold now, compensate, second.
  repeat match goal with |- context [?a =? ?b] => destruct (Z.eqb_spec a b) | |- context [?a <? ?b] => destruct (Z.ltb_spec a b) end; cbn [offset]; lia.
Qed.
Print Assumptions C82_never_back.
Theorem C82_never_back_history : forall l d, time d <= time (goes d l).
Proof.
  induction l as [|m l IH]; intros d; [cbn; lia|]. cbn. etransitivity; [|apply IH].
  destruct m; unfold time; cbn [go clk mono]; [unfold now; lia|lia|]. apply C82_never_back. lia.
Qed.
Print Assumptions C82_never_back_history.

(** *** What is known of the device after the first question *)
Definition inv (r m : Z) (d : device) : Prop :=
  let c := clk d in
  0 < last_mono c /\ second <= real d /\ last_mono c * second <= mono d /\ last_real c * second <= real d /\ r <= real d /\ m <= mono d /\ r - m <= real d - mono d /\
  0 <= offset c /\ offset c = (last_real c - last_mono c) - (r / second - m / second) /\
  (* when the clock was corrected the clocks read [x] and [y] *)
  exists x y, last_real c = x / second /\ last_mono c = y / second /\ x <= real d /\ y <= mono d /\ x - y <= real d - mono d.
Lemma first_inv r m : running r m -> inv r m (first r m).
Proof.
  intros [R M]. unfold second in *.
  pose proof (Z.div_mod r 1000000 ltac:(lia)). pose proof (Z.mod_pos_bound r 1000000 ltac:(lia)).
  pose proof (Z.div_mod m 1000000 ltac:(lia)). pose proof (Z.mod_pos_bound m 1000000 ltac:(lia)).
  assert (E : first r m = mkDev r m (mkClock 0 (m / 1000000) (r / 1000000))).
  { unfold first. cbn [go real mono clk]. unfold compensate, clock_start, second. cbn [last_mono].
    destruct (Z.eqb_spec (r / 1000000) 0); [lia|]. reflexivity. }
  rewrite E. unfold inv, second. cbn [clk real mono last_mono offset last_real].
  repeat split; try lia. exists r, m. repeat split; lia.
Qed.
Lemma go_inv r m d a : inv r m d -> inv r m (go d a).
Proof.
  intros (A & B & C & D & E & F & G & H & I & x & y & J & K & L & M & N).
  destruct a as [t|t|]; cbn [go]; unfold inv; cbn [clk real mono].
  - repeat split; try lia. exists x, y. repeat split; lia.
  - repeat split; try lia. exists x, y. repeat split; lia.
  - unfold compensate. unfold second in *.
    pose proof (Z.div_mod (real d) 1000000 ltac:(lia)). pose proof (Z.mod_pos_bound (real d) 1000000 ltac:(lia)).
    pose proof (Z.div_mod (mono d) 1000000 ltac:(lia)). pose proof (Z.mod_pos_bound (mono d) 1000000 ltac:(lia)).
    destruct (Z.eqb_spec (real d / 1000000) 0); [lia|]. destruct (Z.eqb_spec (last_mono (clk d)) 0); [lia|].
    assert (S : inv r m (mkDev (real d) (mono d) (clk d))).
    { unfold inv, second. cbn [clk real mono]. repeat split; try lia. exists x, y. repeat split; lia. }
    unfold inv, second in S. cbn [clk real mono] in S.
    repeat (match goal with |- context [?a <? ?b] => destruct (Z.ltb_spec a b) end; [exact S|]).
    cbn [offset last_mono last_real]. repeat split; try lia. exists (real d), (mono d). repeat split; lia.
Qed.
Lemma goes_inv r m l : running r m -> inv r m (goes (first r m) l).
Proof.
  intros R. assert (K : forall l d, inv r m d -> inv r m (goes d l)).
  { clear. induction l as [|a l IH]; intros d I; [exact I|]. cbn. apply IH, go_inv, I. }
  now apply K, first_inv.
Qed.

(** *** It is never two seconds ahead *)
Theorem C82_not_ahead : forall r m l, running r m -> - (2 * second) < behind r m (goes (first r m) l).
Proof.
  intros r m l R. destruct (goes_inv r m l R) as (A & B & C & D & E & F & G & H & I & x & y & J & K & L & M & N).
  unfold behind, time, now. set (d := goes (first r m) l) in *. clearbody d. unfold second in *.
  pose proof (Z.div_mod x 1000000 ltac:(lia)). pose proof (Z.mod_pos_bound x 1000000 ltac:(lia)).
  pose proof (Z.div_mod y 1000000 ltac:(lia)). pose proof (Z.mod_pos_bound y 1000000 ltac:(lia)).
  pose proof (Z.div_mod r 1000000 ltac:(lia)). pose proof (Z.mod_pos_bound r 1000000 ltac:(lia)).
  pose proof (Z.div_mod m 1000000 ltac:(lia)). pose proof (Z.mod_pos_bound m 1000000 ltac:(lia)).
  lia.
Qed.
Print Assumptions C82_not_ahead.

(** *** The full claim: after a question the clock is less than three seconds behind.  Proved for a question asked between five seconds
    and an hour after the last correction (or the first question); false later *)
Theorem C82_catches_up_partial : forall r m l, running r m -> let d := goes (first r m) l in
  5 <= real d / second - last_real (clk d) <= 3600 -> behind r m (go d Ask) < 3 * second.
Proof.
  intros r m l R d Q. destruct (goes_inv r m l R) as (A & B & C & D & E & F & G & H & I & x & y & J & K & L & M & N).
  fold d in A, B, C, D, E, F, G, H, I, J, K, L, M, N. clearbody d. unfold behind, time, now. cbn [go clk mono real]. unfold compensate.
  unfold second in *.
  pose proof (Z.div_mod (real d) 1000000 ltac:(lia)). pose proof (Z.mod_pos_bound (real d) 1000000 ltac:(lia)).
  pose proof (Z.div_mod (mono d) 1000000 ltac:(lia)). pose proof (Z.mod_pos_bound (mono d) 1000000 ltac:(lia)).
  pose proof (Z.div_mod r 1000000 ltac:(lia)). pose proof (Z.mod_pos_bound r 1000000 ltac:(lia)).
  pose proof (Z.div_mod m 1000000 ltac:(lia)). pose proof (Z.mod_pos_bound m 1000000 ltac:(lia)).
  destruct (Z.eqb_spec (real d / 1000000) 0); [lia|]. destruct (Z.eqb_spec (last_mono (clk d)) 0); [lia|].
  repeat match goal with |- context [?a <? ?b] => destruct (Z.ltb_spec a b) end; cbn [offset]; lia.
Qed.
Print Assumptions C82_catches_up_partial.

(** after an hour without sleep the clock is never corrected again: ten minutes of sleep are missing for ever *)
Lemma late d l : (forall t, 3600 < (real d + Z.of_N t) / second - last_real (clk d)) -> 0 < last_mono (clk d) -> second <= real d -> clk (goes d l) = clk d.
Proof.
  revert d. induction l as [|a l IH]; intros d L M S; [reflexivity|]. change (goes d (a :: l)) with (goes (go d a) l).
  destruct a as [t|t|]; cbn [go].
  - rewrite IH; cbn [clk real]; auto; [|lia]. intros u. replace (real d + Z.of_N t + Z.of_N u) with (real d + Z.of_N (t + u)) by lia. apply L.
  - rewrite IH; cbn [clk real]; auto; [|lia]. intros u. replace (real d + Z.of_N t + Z.of_N u) with (real d + Z.of_N (t + u)) by lia. apply L.
  - assert (E : compensate (clk d) (real d) (mono d) = clk d).
    { unfold compensate. destruct (_ =? 0); [reflexivity|]. destruct (Z.eqb_spec (last_mono (clk d)) 0); [lia|].
      specialize (L 0%N). replace (real d + Z.of_N 0%N) with (real d) in L by lia.
      repeat match goal with |- context [?a <? ?b] => destruct (Z.ltb_spec a b) end; try reflexivity; lia. }
    rewrite E. rewrite IH; cbn [clk real]; auto.
Qed.
Lemma sleeps_count l : forall d, real d - mono d <= real (goes d l) - mono (goes d l).
Proof. induction l as [|a l IH]; intros d; [cbn; lia|]. cbn. etransitivity; [|apply IH]. destruct a; cbn; lia. Qed.
Theorem C82_catches_up_refuted : exists r m l, running r m /\ forall more, 600 * second <= behind r m (goes (goes (first r m) l) more).
Proof.
  exists second, second, [Awake (Z.to_N (3602 * second)); Ask; Asleep (Z.to_N (600 * second)); Ask].
  split; [unfold running, second; lia|]. intros more.
  set (d := goes (first second second) _).
  assert (D : real d = 4203 * second /\ mono d = 3603 * second /\ clk d = mkClock 0 1 1).
  { unfold d. cbn [goes fold_left]. unfold first. cbn [go]. cbn [real mono clk]. rewrite !Z2N.id by (unfold second; lia). repeat split; reflexivity. }
  destruct D as (R & M & C). clearbody d.
  assert (L : clk (goes d more) = clk d).
  { apply late.
    - intros t. rewrite R, C. cbn [last_real]. unfold second.
      pose proof (Z.div_le_mono (4203 * 1000000) (4203 * 1000000 + Z.of_N t) 1000000 ltac:(lia) ltac:(lia)) as X.
      replace (4203 * 1000000 / 1000000) with 4203 in X by reflexivity. lia.
    - rewrite C. cbn. lia.
    - rewrite R. unfold second. lia. }
  pose proof (sleeps_count more d). unfold behind, time, now. rewrite L, C. cbn [offset]. rewrite R, M in H. unfold second in *. lia.
Qed.
Print Assumptions C82_catches_up_refuted.

(** twenty minutes of sleep within the first hour are noticed at the next question *)
Example C82_example : let d := goes (first (100 * second) (50 * second)) [Awake (Z.to_N 60500000); Asleep (Z.to_N 1200000000); Ask] in
  (time d, real d, offset (clk d)) = (1310500000, 1360500000, 1200).
Proof. reflexivity. Qed.

(** C92: the callback called is the one registered last *)
From Coq Require Import ZArith Bool List Lia.
From Verif Require Import Base CallbackModel.
Import ListNotations.
Open Scope Z_scope.

(** Specification: a history of registrations; the types there are are those below the count *)
Definition reg := (cb_kind * Z * option nat)%type.
Definition same_kind (a b : cb_kind) : bool := match a, b with CbMessage, CbMessage | CbKill, CbKill | CbError, CbError => true | _, _ => false end.
Definition valid (k : cb_kind) (type : Z) : Prop := 0 <= type < cb_count k.
Fixpoint last_registered (h : list reg) (k : cb_kind) (type : Z) (before : option nat) : option nat :=
  match h with
  | [] => before
  | (k', type', cb) :: h => last_registered h k type (if same_kind k' k && (type' =? type) then cb else before)
  end.
(** the registrations one after the other, with the values returned *)
Fixpoint registered (c : callbacks) (h : list reg) : res (callbacks * list Z) :=
  match h with
  | [] => Ok (c, [])
  | (k, type, cb) :: h => do x <- cb_set c k type cb ; do y <- registered (fst x) h ; Ok (fst y, snd x :: snd y)
  end.

Definition tab (c : callbacks) (k : cb_kind) := match k with CbMessage => msg_callbacks c | CbKill => kill_callbacks c | CbError => tp_error_callbacks c end.
Definition sized (c : callbacks) : Prop := forall k, Z.of_nat (length (tab c k)) = cb_count k.
Lemma set_nth {A} (a : list A) i x : 0 <= i < Z.of_nat (length a) ->
  exists a', arr_set a i x = Ok a' /\ length a' = length a /\ (forall j, 0 <= j < Z.of_nat (length a) -> arr_get a' j = if i =? j then Ok x else arr_get a j).
Proof.
  intros I. unfold arr_set. destruct (Z.ltb_spec i 0); [lia|]. destruct (Z.leb_spec (Z.of_nat (length a)) i); [lia|]. cbn [orb]. eexists. split; [reflexivity|].
  set (n := Z.to_nat i). assert (N : (n < length a)%nat) by (unfold n; lia). split; [rewrite app_length, firstn_length_le by lia; cbn [length]; rewrite skipn_length; lia|].
  intros j J. unfold arr_get. destruct (Z.ltb_spec j 0); [lia|]. destruct (Z.eqb_spec i j) as [->|D].
  - fold n. rewrite nth_error_app2; rewrite firstn_length_le by lia; [|lia]. rewrite Nat.sub_diag. reflexivity.
  - assert (E : nth_error (firstn n a ++ x :: skipn (S n) a) (Z.to_nat j) = nth_error a (Z.to_nat j)); [|rewrite E; reflexivity].
    rewrite <- (firstn_skipn n a) at 3. destruct (Nat.lt_ge_cases (Z.to_nat j) n) as [L|L].
    + rewrite !nth_error_app1 by (rewrite firstn_length_le; lia). reflexivity.
    + rewrite !nth_error_app2 by (rewrite firstn_length_le; lia). rewrite firstn_length_le by lia. assert (Z.to_nat j <> n) by (unfold n; lia).
      destruct (Z.to_nat j - n)%nat eqn:E; [lia|]. cbn [nth_error]. clear - N. revert a N. induction n as [|m IH]; intros a N; destruct a as [|y a]; cbn in N; try lia; cbn [skipn]; [reflexivity|]. apply IH. lia.
Qed.
Lemma cb_set_ok c k type cb : sized c -> valid k type ->
  exists c', cb_set c k type cb = Ok (c', 0) /\ sized c' /\
  (forall k' t, valid k' t -> arr_get (tab c' k') t = if same_kind k k' && (type =? t) then Ok cb else arr_get (tab c k') t).
Proof.
  intros S0 V. unfold cb_set. destruct (Z.geb_spec type (cb_count k)) as [X|_]; [unfold valid in V; lia|].
  destruct (set_nth (tab c k) type cb) as (a & E & L & G); [rewrite (S0 k); exact V|].
  destruct k; cbn [tab] in *; rewrite E; cbn [res_bind]; (eexists; split; [reflexivity|]; split;
    [intros []; cbn [tab msg_callbacks kill_callbacks tp_error_callbacks]; rewrite ?L; first [exact (S0 CbMessage)|exact (S0 CbKill)|exact (S0 CbError)]
    |intros [] t W; cbn [tab msg_callbacks kill_callbacks tp_error_callbacks same_kind andb]; try reflexivity; apply G; unfold valid in W; pose proof (S0 CbMessage); pose proof (S0 CbKill); pose proof (S0 CbError); cbn [tab] in *; lia]).
Qed.
Lemma start_sized : sized cbs_start.
Proof. intros []; cbn [tab cbs_start msg_callbacks kill_callbacks tp_error_callbacks]; rewrite repeat_length; apply Z2Nat.id; cbn; lia. Qed.

(** The full claim: after every history of registrations, an event calls exactly the function registered last for its kind and type,
    with its type; a type that does not exist is refused and changes nothing.  Proved when no type is negative *)
Theorem C92_last_partial : forall h, Forall (fun r => 0 <= snd (fst r)) h -> exists c rs, registered cbs_start h = Ok (c, rs) /\
  Forall2 (fun r v => v = 0 <-> valid (fst (fst r)) (snd (fst r))) h rs /\
  forall k type, valid k type -> cb_call c k type = Ok (match last_registered h k type None with None => None | Some f => Some (f, type) end).
Proof.
  intros h F.
  assert (G : forall c, sized c -> exists c' rs, registered c h = Ok (c', rs) /\
    Forall2 (fun r v => v = 0 <-> valid (fst (fst r)) (snd (fst r))) h rs /\
    forall k type b, valid k type -> arr_get (tab c k) type = Ok b -> arr_get (tab c' k) type = Ok (last_registered h k type b)).
  { induction F as [|[[k t] cb] h V F IH]; intros c S0; [exists c, []; repeat split; auto|]. cbn [fst snd] in V. cbn [registered].
    destruct (Z.lt_ge_cases t (cb_count k)) as [L|L].
    - destruct (cb_set_ok c k t cb S0 (conj V L)) as (c1 & -> & S1 & G1). cbn [res_bind fst snd].
      destruct (IH c1 S1) as (c' & rs & -> & R & G2). cbn [res_bind fst snd]. exists c', (0 :: rs). split; [reflexivity|]. split; [constructor; [cbn; unfold valid; split; auto|exact R]|].
      intros k' t' b W B. cbn [last_registered]. apply G2; [exact W|]. rewrite G1 by exact W. destruct (same_kind k k' && (t =? t')); [reflexivity|exact B].
    - unfold cb_set at 1. replace (t >=? cb_count k) with true by lia. cbn [res_bind fst snd].
      destruct (IH c S0) as (c' & rs & -> & R & G2). cbn [res_bind fst snd]. exists c', (-2 :: rs). split; [reflexivity|]. split; [constructor; [cbn; unfold valid; split; [discriminate|lia]|exact R]|].
      intros k' t' b W B. cbn [last_registered]. replace (same_kind k k' && (t =? t')) with false; [apply G2; assumption|].
      symmetry. apply andb_false_iff. destruct (Z.eqb_spec t t') as [->|]; [left|now right]. unfold valid in W. destruct k, k'; try reflexivity; lia. }
  destruct (G cbs_start start_sized) as (c & rs & E & R & H). exists c, rs. split; [exact E|]. split; [exact R|].
  intros k t V. specialize (H k t None V). unfold cb_call. destruct (Z.geb_spec t (cb_count k)) as [X|_]; [unfold valid in V; lia|].
  change (match k with CbMessage => msg_callbacks c | CbKill => kill_callbacks c | CbError => tp_error_callbacks c end) with (tab c k). rewrite H; [reflexivity|].
  pose proof (start_sized k) as L. unfold arr_get. unfold valid in V. destruct (Z.ltb_spec t 0); [lia|].
  assert (K : exists n, tab cbs_start k = repeat None n) by (destruct k; eexists; reflexivity). destruct K as (n & K). rewrite K in *. rewrite repeat_length in L.
  rewrite (nth_error_nth' _ None) by (rewrite repeat_length; lia). now rewrite nth_repeat.
Qed.
Print Assumptions C92_last_partial.
(** Finding.  A negative type is not refused: a place before the table is written, or read and called *)
Theorem C92_negative_refuted : forall c k type cb, type < 0 -> cb_set c k type cb = UB /\ cb_call c k type = UB.
Proof.
  intros c k type cb N. assert (type < cb_count k) by (destruct k; cbn; lia). unfold cb_set, cb_call, arr_set, arr_get.
  replace (type >=? cb_count k) with false by lia. replace (type <? 0) with true by lia. destruct k; split; reflexivity.
Qed.
Print Assumptions C92_negative_refuted.
Example C92_example : exists c, registered cbs_start [(CbKill, 1, Some 7%nat); (CbMessage, 1, Some 8%nat); (CbKill, 4, Some 9%nat); (CbKill, 1, Some 5%nat)] = Ok (c, [0; 0; -2; 0]) /\
  cb_call c CbKill 1 = Ok (Some (5%nat, 1)) /\ cb_call c CbMessage 1 = Ok (Some (8%nat, 1)) /\ cb_call c CbMessage 2 = Ok None.
Proof. eexists. split; [reflexivity|]. repeat split. Qed.

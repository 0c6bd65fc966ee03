(** Properties C01-C03: the list container. *)
From Coq Require Import ZArith List Bool Lia.
From Verif Require Import Base ListModel ListSpec ListProofs.
Import ListNotations.
Local Open Scope Z_scope.

(** C01: every legal history on a fresh list is free of undefined behaviour and returns
    exactly what the sequence specification returns. *)
Theorem C01_list_refines_sequence : forall (E : Type) (h : heap E) (ops : list (lop E)),
  Forall pos_ok ops -> malloc_ok (list_init h) ops ->
  exists l', lrun (list_init h) ops = Some (l', snd (seq_run [] ops)).
Proof. intros E h ops Hp Hm. exact (rep_behaves _ _ _ _ (rep_init _ h) ops Hp Hm). Qed.

(** C01, memory side: a list never changes a node that was allocated by somebody else. *)
Theorem C01_list_frame : forall (E : Type) (h : heap E) (ops : list (lop E)) l' rs,
  Forall pos_ok ops -> malloc_ok (list_init h) ops -> lrun (list_init h) ops = Some (l', rs) ->
  forall b, h b <> None -> mem l' b = h b.
Proof.
  intros E h ops l' rs Hp Hm He b Hb.
  exact (lrun_frame E h ops _ _ _ l' rs (rep_init _ h) (fun a (H : In a []) => match H with end)
           (fun _ _ => eq_refl) Hp Hm He b Hb).
Qed.

(** A concrete legal history with inserts at all kinds of positions, removals, a failed
    allocation and address reuse. *)
Definition ex_ops : list (lop nat) :=
  [LAdd (Some 7%nat) 10%nat 5; LAdd (Some 8%nat) 11%nat (-1); LAdd (Some 9%nat) 12%nat 1;
   LAdd None 99%nat 0; LAdd (Some 6%nat) 13%nat 0; LRemove 2; LAdd (Some 9%nat) 14%nat 100;
   LGet 0; LGet 1; LGet 2; LGet 3; LGet 4; LRemove 17; LRemove 0; LSize].

Example C01_witness :
  Forall pos_ok ex_ops /\ malloc_ok (list_init (fun _ => None)) ex_ops /\
  fst (seq_run [] ex_ops) = [10; 11; 14]%nat /\
  snd (seq_run [] ex_ops) =
    [RInt 1; RInt 2; RInt 3; RInt (-4); RInt 4; RInt 3; RInt 4;
     RElt (Some 13%nat); RElt (Some 10%nat); RElt (Some 11%nat); RElt (Some 14%nat); RElt None;
     RInt (-1); RInt 3; RInt 3].
Proof.
  split; [|split; [|split]]; try reflexivity.
  - repeat constructor; simpl; try lia.
  - unfold ex_ops. repeat first
     [ exact I
     | split; [first [exact I | reflexivity]|];
       let H := fresh in intros ? ? H; vm_compute in H; injection H as <- <- ].
Qed.

(** C02: a visiting loop that removes an arbitrary, history dependent choice of the visited
    elements sees every element once in order, and leaves exactly the others. *)
Theorem C02_iteration_with_removal : forall (E : Type) (l : lst E) (s : list E)
    (dec : list E -> E -> bool) (fuel : nat),
  reachable l s -> (length s < fuel)%nat ->
  exists l', visit fuel dec l = Some (l', s) /\ behaves l' (seq_kept dec [] s).
Proof.
  intros E l s dec fuel Hr Hf. destruct (reachable_rep _ _ _ Hr) as (ads & Hrep).
  destruct (visit_ok _ dec _ _ _ fuel Hrep Hf) as (l' & ads' & Hv & Hk).
  exists l'. split; [exact Hv | exact (rep_behaves _ _ _ _ Hk)].
Qed.

(** What is kept by a decision that only looks at the element is a filter. *)
Theorem C02_kept_is_filter : forall (E : Type) (p : E -> bool) (s seen : list E),
  seq_kept (fun _ e => p e) seen s = filter (fun e => negb (p e)) s.
Proof. induction s; simpl; intros; auto. rewrite IHs. destruct (p a); auto. Qed.

Definition ex_list : lst nat :=
  match lrun (list_init (fun _ => None)) ex_ops with Some (l, _) => l | None => list_init (fun _ => None) end.

Example C02_witness : reachable ex_list [10; 11; 14]%nat /\
  seq_kept (fun _ e => Nat.eqb e 10 || Nat.eqb e 14)%nat [] [10; 11; 14]%nat = [11]%nat.
Proof.
  split; [|reflexivity].
  destruct C01_witness as (H1 & H2 & H3 & _).
  exists (fun _ => None), ex_ops. eexists. split; [exact H1|]. split; [exact H2|]. split; [|symmetry; exact H3].
  vm_compute. reflexivity.
Qed.

(** C03: out-of-range get and remove fail and change nothing. *)
Theorem C03_out_of_range : forall (E : Type) (l : lst E) (s : list E) (pos : Z),
  reachable l s -> (pos < 0 \/ Z.of_nat (length s) <= pos) ->
  list_get l pos = Some None /\ list_remove l pos = Some (l, OSIP_UNDEFINED_ERROR).
Proof.
  intros E l s pos Hr Hp. destruct (reachable_rep _ _ _ Hr) as (ads & H1 & H2 & H3).
  unfold list_get, list_remove.
  assert (((pos <? 0) || (nb_elt l <=? pos))%bool = true) as ->.
  { rewrite H3. destruct Hp; [apply Bool.orb_true_iff; left; apply Z.ltb_lt; auto
     | apply Bool.orb_true_iff; right; apply Z.leb_le; auto]. }
  auto.
Qed.

(** C03, add: for the documented positions (-1 and >= 0).  Missing: positions below -1. *)
Theorem C03_add_appends_partial : forall (E : Type) (l : lst E) (s : list E) (el : E) (pos : Z) (a : addr),
  reachable l s -> mem l a = None -> -1 <= pos -> (pos < 0 \/ Z.of_nat (length s) <= pos) ->
  exists l', list_add (Some a) l el pos = Some (l', Z.of_nat (S (length s))) /\ behaves l' (s ++ [el]).
Proof.
  intros E l s el pos a Hr Ha Hp Hout. destruct (reachable_rep _ _ _ Hr) as (ads & Hrep).
  destruct (list_add_ok _ _ _ _ el pos a Hrep Ha Hp) as (l' & ads' & He & Hr' & _).
  assert (Hs : seq_insert s el pos = s ++ [el]).
  { unfold seq_insert. destruct Hout.
    - rewrite (proj2 (Z.leb_gt 0 pos)) by lia. reflexivity.
    - rewrite (proj2 (Z.ltb_ge pos (Z.of_nat (length s)))) by lia. rewrite Bool.andb_false_r. reflexivity. }
  rewrite Hs in *. exists l'. split.
  - rewrite He. rewrite app_length. simpl. f_equal. f_equal. lia.
  - exact (rep_behaves _ _ _ _ Hr').
Qed.

(** C03 is false as stated for positions below -1: osip_list_add inserts at position 1. *)
Theorem C03_add_appends_refuted : exists (l : lst nat) (s : list nat) (a : addr) l',
  reachable l s /\ mem l a = None /\
  list_add (Some a) l 99%nat (-2) = Some (l', 4) /\
  list_get l' 1 = Some (Some 99%nat) /\ list_get l' 3 = Some (Some 14%nat).
Proof.
  exists ex_list, [10; 11; 14]%nat, 1%nat. eexists.
  split; [exact (proj1 C02_witness)|]. split; [reflexivity|].
  split; [vm_compute; reflexivity|]. split; vm_compute; reflexivity.
Qed.

Print Assumptions C01_list_refines_sequence.
Print Assumptions C01_list_frame.
Print Assumptions C02_iteration_with_removal.
Print Assumptions C02_kept_is_filter.
Print Assumptions C03_out_of_range.
Print Assumptions C03_add_appends_partial.
Print Assumptions C03_add_appends_refuted.

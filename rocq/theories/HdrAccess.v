(** C41, where a header goes: osip_message_set_header and osip_message_set_topheader, seen through osip_message_get_header *)
From Coq Require Import String ZArith Ascii Bool List Lia.
From Verif Require Import Base Str PortModel Types TransModel MsgFields MsgModel.
Import ListNotations.
Open Scope Z_scope.

(** A header set at the top is the first one, and every other moves one place back *)
Theorem C41_top : forall m name hv,
  get_header (set_topheader m name hv) 0 = Some (mkHeader (Some (trim name)) (option_map trim hv)) /\
  forall pos, 0 <= pos -> get_header (set_topheader m name hv) (pos + 1) = get_header m pos.
Proof.
  intros m name hv. split; [reflexivity|]. intros pos P. unfold get_header, set_topheader. destruct (Z.ltb_spec (pos + 1) 0); [lia|]. destruct (Z.ltb_spec pos 0); [lia|].
  replace (Z.to_nat (pos + 1)) with (S (Z.to_nat pos)) by lia. reflexivity.
Qed.
(** A header set is the last one, and the others stay where they are *)
Theorem C41_last : forall m name hv n, n = Z.of_nat (List.length (m_headers m)) ->
  get_header (set_header m name hv) n = Some (mkHeader (Some (trim name)) (option_map trim hv)) /\
  get_header (set_header m name hv) (n + 1) = None /\
  forall pos, pos < n -> get_header (set_header m name hv) pos = get_header m pos.
Proof.
  intros m name hv n ->. unfold get_header, set_header. cbn [m_headers with_headers]. split; [|split].
  - destruct (Z.ltb_spec (Z.of_nat (List.length (m_headers m))) 0); [lia|]. rewrite Nat2Z.id, nth_error_app2, Nat.sub_diag by lia. reflexivity.
  - destruct (Z.ltb_spec (Z.of_nat (List.length (m_headers m)) + 1) 0); [lia|]. apply nth_error_None. rewrite app_length. cbn. lia.
  - intros pos P. destruct (Z.ltb_spec pos 0); [reflexivity|]. apply nth_error_app1. lia.
Qed.
Print Assumptions C41_top.
Print Assumptions C41_last.

Example C41_access_example : let m := set_topheader (set_header msg_init ($"A") (Some ($" 1 "))) ($"B") None in
  get_header m 0 = Some (mkHeader (Some ($"B")) None) /\ get_header m 1 = Some (mkHeader (Some ($"A")) (Some ($"1"))) /\ get_header m 2 = None.
Proof. repeat split. Qed.

(** Matching of messages with each other and with transactions: osip_call_id.c, osip_cseq.c,
    osip_from.c, osip_via.c and osip_transaction.c 566-777.  Configuration: FWDSUPPORT and
    AC_BUG not defined.  A result 0 (OSIP_SUCCESS) means "matches". *)
From Coq Require Import String ZArith Ascii Bool List.
From Verif Require Import Base Str Types TimeModel PortModel CloneModel TransModel ViaModel.
Import ListNotations.
Open Scope Z_scope.

(** osip_call_id_match: osip_call_id.c 203-225 *)
Definition call_id_match (a b : option call_id) : Z :=
  match a, b with
  | Some a, Some b =>
    match ci_number a, ci_number b with
    | Some x, Some y =>
      if negb (streq x y) then OSIP_UNDEFINED_ERROR
      else match ci_host a, ci_host b with
           | None, None => OSIP_SUCCESS
           | Some h, Some k => if streq h k then OSIP_SUCCESS else OSIP_UNDEFINED_ERROR
           | _, _ => OSIP_UNDEFINED_ERROR
           end
    | _, _ => OSIP_BADPARAMETER
    end
  | _, _ => OSIP_BADPARAMETER
  end.

(** osip_cseq_match: osip_cseq.c 195-215 *)
Definition inv_or_ack (m : str) : bool := streq m ($"INVITE") || streq m ($"ACK").
Definition cseq_match (a b : option cseq) : Z :=
  match a, b with
  | Some a, Some b =>
    match cs_number a, cs_number b, cs_method a, cs_method b with
    | Some n1, Some n2, Some m1, Some m2 =>
      if streq n1 n2 then
        if inv_or_ack m2 then (if inv_or_ack m1 then OSIP_SUCCESS else OSIP_UNDEFINED_ERROR)
        else (if streq m1 m2 then OSIP_SUCCESS else OSIP_UNDEFINED_ERROR)
      else OSIP_UNDEFINED_ERROR
    | _, _, _, _ => OSIP_BADPARAMETER
    end
  | _, _ => OSIP_BADPARAMETER
  end.

(** osip_from_tag_match (osip_from.c 683-704), osip_to_tag_match (osip_to.c 102-106) *)
Definition tag_match (a b : option nameaddr) : Z :=
  match a, b with
  | Some a, Some b =>
    match param_get (na_params a) ($"tag"), param_get (na_params b) ($"tag") with
    | None, None => OSIP_SUCCESS
    | Some (_, Some x), Some (_, Some y) => if streq x y then OSIP_SUCCESS else OSIP_UNDEFINED_ERROR
    | _, _ => OSIP_UNDEFINED_ERROR
    end
  | _, _ => OSIP_BADPARAMETER
  end.

(** osip_via_match: osip_via.c 474-503 *)
Definition via_match (a b : via) : Z :=
  match via_to_str a with
  | Ok x => match via_to_str b with
            | Ok y => if streq x y then OSIP_SUCCESS else OSIP_UNDEFINED_ERROR
            | Err c => c
            | UB => OSIP_UNDEFINED_ERROR
            end
  | Err c => c
  | UB => OSIP_UNDEFINED_ERROR
  end.

Definition is_client (k : fsm) : bool := match k with ICT | NICT => true | _ => false end.

(** __osip_transaction_matching_response_osip_to_xict_17_1_3: osip_transaction.c 565-642 *)
Definition match_response (t : trans) (r : message) : Z :=
  if negb (is_client (t_type t)) then OSIP_BADPARAMETER
  else match m_cseq r with
  | None => OSIP_BADPARAMETER
  | Some c =>
    match cs_method c with
    | None => OSIP_BADPARAMETER
    | Some meth =>
      match m_vias r with
      | [] => OSIP_SYNTAXERROR
      | v :: _ =>
        match param_get (v_params (t_topvia t)) ($"branch") with
        | None => OSIP_SYNTAXERROR
        | Some (_, b1) =>
          match param_get (v_params v) ($"branch") with
          | None => OSIP_SYNTAXERROR
          | Some (_, b2) =>
            match b1, b2 with
            | Some b1, Some b2 =>
              if negb (streq b1 b2) then OSIP_UNDEFINED_ERROR
              else match cs_method (t_cseq t) with
                   | Some tm => if streq meth tm then OSIP_SUCCESS else OSIP_UNDEFINED_ERROR
                   | None => OSIP_UNDEFINED_ERROR (* osip_cseq_clone refused such a CSeq *)
                   end
            | _, _ => OSIP_SYNTAXERROR
            end
          end
        end
      end
    end
  end.

(** The sent-by comparison of osip_transaction.c 710-727; [a] is the transaction's Via *)
Definition sent_by_eq (a b : via) : bool :=
  match v_host b, v_host a with
  | Some hb, Some ha =>
    if negb (streq ha hb) then false
    else match v_port b, v_port a with
         | Some pb, None => streq pb ($"5060")
         | None, Some pa => streq pa ($"5060")
         | Some pb, Some pa => streq pa pb
         | None, None => true
         end
  | _, _ => false
  end.

Definition magic : str := $"z9hG4bK".

(** The RFC 2543 part: osip_transaction.c 742-776.  [UB]: the To header of an ACK is
    dereferenced without a check (line 750). *)
Definition match_request_2543 (t : trans) (q : message) (v : via) : res Z :=
  if negb (call_id_match (Some (t_cid t)) (m_call_id q) =? 0) then Ok OSIP_UNDEFINED_ERROR
  else
    let rest (_ : unit) :=
      if negb (tag_match (Some (t_from t)) (m_from q) =? 0) then OSIP_UNDEFINED_ERROR
      else if negb (cseq_match (Some (t_cseq t)) (m_cseq q) =? 0) then OSIP_UNDEFINED_ERROR
      else if negb (via_match (t_topvia t) v =? 0) then OSIP_UNDEFINED_ERROR
      else OSIP_SUCCESS in
    if is_method ($"ACK") q then
      match m_to q with
      | None => UB
      | Some qto =>
        match param_get (na_params (t_to t)) ($"tag"), param_get (na_params qto) ($"tag") with
        | None, Some _ => Ok (rest tt)
        | Some _, None => Ok OSIP_UNDEFINED_ERROR
        | _, _ => if negb (tag_match (Some (t_to t)) (m_to q) =? 0) then Ok OSIP_UNDEFINED_ERROR else Ok (rest tt)
        end
      end
    else
      match t_orig t with
      | None => Ok OSIP_UNDEFINED_ERROR
      | Some o => match m_to (mc o) with
                  | None => Ok OSIP_UNDEFINED_ERROR
                  | Some oto => if negb (tag_match (Some oto) (m_to q) =? 0) then Ok OSIP_UNDEFINED_ERROR else Ok (rest tt)
                  end
      end.

(** __osip_transaction_matching_request_osip_to_xist_17_2_3: osip_transaction.c 644-777 *)
Definition match_request (t : trans) (q : message) : res Z :=
  if is_client (t_type t) then Ok OSIP_BADPARAMETER
  else match m_cseq q with
  | None => Ok OSIP_BADPARAMETER
  | Some c =>
    match cs_method c with
    | None => Ok OSIP_BADPARAMETER
    | Some meth =>
      match m_vias q with
      | [] => Ok OSIP_SYNTAXERROR
      | v :: _ =>
        match param_get (v_params v) ($"branch"), param_get (v_params (t_topvia t)) ($"branch") with
        | None, None => match_request_2543 t q v
        | Some _, None | None, Some _ => Ok OSIP_SYNTAXERROR
        | Some (_, b), Some (_, b0) =>
          match b0, b with
          | Some b0, Some b =>
            if negb (Nat.eqb (length b0) (length b)) then Ok OSIP_UNDEFINED_ERROR
            else if strneq 7 b0 magic && strneq 7 b magic then
              if negb (streq b0 b) then Ok OSIP_UNDEFINED_ERROR
              else if negb (sent_by_eq (t_topvia t) v) then Ok OSIP_UNDEFINED_ERROR
              else match cs_method (t_cseq t) with
                   | None => Ok OSIP_UNDEFINED_ERROR (* osip_cseq_clone refused such a CSeq *)
                   | Some tm =>
                     if negb (streq tm ($"INVITE") && streq meth ($"ACK")) && negb (streq tm meth)
                     then Ok OSIP_UNDEFINED_ERROR else Ok OSIP_SUCCESS
                   end
            else match_request_2543 t q v
          | _, _ => Ok OSIP_UNDEFINED_ERROR
          end
        end
      end
    end
  end.

(** The access functions of sdp_accessor.c on session descriptions.

    The description is a valid (non NULL) pointer here; the sdp_message_m_* functions do not check
    it, the others answer OSIP_BADPARAMETER or NULL without touching anything.  Which strings are
    freed is not modelled.  The plain getters and setters of one pointer of the session
    (v_version, o_*, s_name, u_uri, z_adjustments, lines 26-171 and 435-450) are the record fields
    and [with_*] functions of SdpModel. *)
From Coq Require Import String ZArith NArith Ascii Bool List.
From Verif Require Import Base Str SdpModel.
Import ListNotations.
Open Scope Z_scope.

(** osip_list_size: osip_list.c 80-87 *)
Definition size {A} (l : list A) : Z := Z.of_nat (length l).
(** osip_list_get: osip_list.c 177-198 *)
Definition get {A} (l : list A) (pos : Z) : option A :=
  if (pos <? 0) || (size l <=? pos) then None else nth_error l (Z.to_nat pos).
(** osip_list_remove: osip_list.c 258-297 *)
Definition remove {A} (l : list A) (pos : Z) : list A :=
  if (pos <? 0) || (size l <=? pos) then l else firstn (Z.to_nat pos) l ++ skipn (S (Z.to_nat pos)) l.
(** a change to the element a pointer of which osip_list_get gave *)
Definition change {A} (l : list A) (pos : Z) (f : A -> A) : list A :=
  match get l pos with
  | None => l
  | Some x => firstn (Z.to_nat pos) l ++ f x :: skipn (S (Z.to_nat pos)) l
  end.
Definition change_media (d : sdp) (pos : Z) (f : sdp_media -> sdp_media) : sdp :=
  with_m (change (m_medias d) pos f) d.

(** "(pos_media != -1) && (osip_list_size (&sdp->m_medias) < pos_media + 1)": [None] when the sum
    is not an [int] *)
Definition no_such_media (d : sdp) (pos : Z) : option bool :=
  if pos =? -1 then Some false
  else if INT_MAX <? pos + 1 then None
  else Some (size (m_medias d) <? pos + 1).
(** the frame common to sdp_message_c_connection_add, sdp_message_b_bandwidth_add,
    sdp_message_k_key_set and sdp_message_a_attribute_add; a NULL med is dereferenced *)
Definition add_at (d : sdp) (pos : Z) (session : sdp -> sdp) (media : sdp_media -> sdp_media) : res sdp :=
  match no_such_media d pos with
  | None => UB
  | Some true => Err OSIP_UNDEFINED_ERROR
  | Some false =>
      if pos =? -1 then Ok (session d)
      else match get (m_medias d) pos with
           | None => UB
           | Some _ => Ok (change_media d pos media)
           end
  end.

(** sdp_message_i_info_set: sdp_accessor.c 122-138 *)
Definition i_info_set (d : sdp) (pos_media : Z) (info : option str) : res sdp :=
  if pos_media =? -1 then Ok (with_i info d)
  else match get (m_medias d) pos_media with
       | None => Err OSIP_UNDEFINED_ERROR
       | Some _ => Ok (change_media d pos_media (media_i info))
       end.
(** sdp_message_i_info_get: sdp_accessor.c 140-154 *)
Definition i_info_get (d : sdp) (pos_media : Z) : option str :=
  if pos_media =? -1 then i_info d
  else match get (m_medias d) pos_media with None => None | Some m => m_info m end.

(** sdp_message_e_email_add, sdp_message_e_email_get: sdp_accessor.c 173-190 *)
Definition e_email_add (d : sdp) (email : str) : sdp := with_e (e_emails d ++ [email]) d.
Definition e_email_get (d : sdp) (pos : Z) : option str :=
  if pos <? size (e_emails d) then get (e_emails d) pos else None.
(** sdp_message_p_phone_add, sdp_message_p_phone_get: sdp_accessor.c 192-209 *)
Definition p_phone_add (d : sdp) (phone : str) : sdp := with_p (p_phones d ++ [phone]) d.
Definition p_phone_get (d : sdp) (pos : Z) : option str :=
  if pos <? size (p_phones d) then get (p_phones d) pos else None.

(** sdp_message_c_connection_add: sdp_accessor.c 211-237 *)
Definition c_connection_add (d : sdp) (pos_media : Z) (conn : sdp_connection) : res sdp :=
  add_at d pos_media (with_c (Some conn)) (fun m => media_c (m_connections m ++ [conn]) m).
(** sdp_message_connection_get: sdp_accessor.c 239-253 *)
Definition connection_get (d : sdp) (pos_media pos : Z) : option sdp_connection :=
  if pos_media =? -1 then c_connection d
  else match get (m_medias d) pos_media with None => None | Some m => get (m_connections m) pos end.
(** sdp_message_b_bandwidth_add: sdp_accessor.c 305-328 *)
Definition b_bandwidth_add (d : sdp) (pos_media : Z) (band : sdp_bandwidth) : res sdp :=
  add_at d pos_media (fun d => with_b (b_bandwidths d ++ [band]) d)
                     (fun m => media_b (m_bandwidths m ++ [band]) m).
(** sdp_message_bandwidth_get: sdp_accessor.c 330-343 *)
Definition bandwidth_get (d : sdp) (pos_media pos : Z) : option sdp_bandwidth :=
  if pos_media =? -1 then get (b_bandwidths d) pos
  else match get (m_medias d) pos_media with None => None | Some m => get (m_bandwidths m) pos end.

(** sdp_message_t_time_descr_add: sdp_accessor.c 365-380 *)
Definition t_time_descr_add (d : sdp) (start stop : option str) : sdp :=
  with_t (t_descrs d ++ [mkTime start stop []]) d.
(** sdp_message_t_start_time_get, sdp_message_t_stop_time_get: sdp_accessor.c 382-406 *)
Definition t_start_time_get (d : sdp) (pos : Z) : option str :=
  match get (t_descrs d) pos with None => None | Some t => t_start t end.
Definition t_stop_time_get (d : sdp) (pos : Z) : option str :=
  match get (t_descrs d) pos with None => None | Some t => t_stop t end.
(** sdp_message_r_repeat_add: sdp_accessor.c 408-420 *)
Definition r_repeat_add (d : sdp) (pos : Z) (field : str) : res sdp :=
  match get (t_descrs d) pos with
  | None => Err OSIP_UNDEFINED_ERROR
  | Some _ => Ok (with_t (change (t_descrs d) pos
                    (fun t => mkTime (t_start t) (t_stop t) (t_repeats t ++ [field]))) d)
  end.
(** sdp_message_r_repeat_get: sdp_accessor.c 422-433 *)
Definition r_repeat_get (d : sdp) (pos pos_repeat : Z) : option str :=
  match get (t_descrs d) pos with None => None | Some t => get (t_repeats t) pos_repeat end.

(** sdp_message_k_key_set: sdp_accessor.c 452-475 *)
Definition k_key_set (d : sdp) (pos_media : Z) (key : sdp_key) : res sdp :=
  add_at d pos_media (with_k (Some key)) (media_k (Some key)).
(** sdp_message_k_keytype_get, sdp_message_k_keydata_get: sdp_accessor.c 477-515 *)
Definition k_get (d : sdp) (pos_media : Z) (field : sdp_key -> option str) : res (option str) :=
  if pos_media =? -1 then Ok (match k_key d with None => None | Some k => field k end)
  else match no_such_media d pos_media with
       | None => UB
       | Some true => Ok None
       | Some false =>
           match get (m_medias d) pos_media with
           | None => UB
           | Some m => Ok (match m_key m with None => None | Some k => field k end)
           end
       end.
Definition k_keytype_get (d : sdp) (pos_media : Z) := k_get d pos_media k_keytype.
Definition k_keydata_get (d : sdp) (pos_media : Z) := k_get d pos_media k_keydata.

(** sdp_message_a_attribute_add: sdp_accessor.c 517-540 *)
Definition a_attribute_add (d : sdp) (pos_media : Z) (attr : sdp_attribute) : res sdp :=
  add_at d pos_media (fun d => with_a (a_attributes d ++ [attr]) d)
                     (fun m => media_a (m_attributes m ++ [attr]) m).
(** sdp_message_attribute_get: sdp_accessor.c 631-644 *)
Definition attribute_get (d : sdp) (pos_media pos : Z) : option sdp_attribute :=
  if pos_media =? -1 then get (a_attributes d) pos
  else match get (m_medias d) pos_media with None => None | Some m => get (m_attributes m) pos end.

(** A loop that has not ended within the steps given to it *)
Inductive run (A : Type) := Running | Ended (r : res A).
Arguments Running {A}.
Arguments Ended {A} r.
(** "for (i = 0; i < osip_list_size (l);) ... strcmp ...": sdp_accessor.c 554-562, 568-576,
    593-601 and 612-621.  strcmp of a NULL field is UB *)
Fixpoint del_field (fuel : nat) (l : list sdp_attribute) (i : Z) (field : str) : run (list sdp_attribute) :=
  match fuel with
  | O => Running
  | S fuel =>
      if i <? size l then
        match get l i with
        | None => Ended UB
        | Some a =>
            match a_field a with
            | None => Ended UB
            | Some f => if streq f field then del_field fuel (remove l i) i field
                        else del_field fuel l (i + 1) field
            end
        end
      else Ended (Ok l)
  end.
(** the same loop with an index: sdp_accessor.c 611-626, the branch 622-625.  [i] stays 0 *)
Fixpoint del_index (fuel : nat) (l : list sdp_attribute) (i pos_attr : Z) : run (list sdp_attribute) :=
  match fuel with
  | O => Running
  | S fuel =>
      if i <? size l then
        match get l pos_attr with
        | None => del_index fuel l i pos_attr
        | Some _ => del_index fuel (remove l pos_attr) i pos_attr
        end
      else Ended (Ok l)
  end.
Definition on_run {A B} (f : A -> B) (r : run A) : run B :=
  match r with
  | Running => Running
  | Ended (Ok a) => Ended (Ok (f a))
  | Ended (Err e) => Ended (Err e)
  | Ended UB => Ended UB
  end.
(** sdp_message_a_attribute_del: sdp_accessor.c 542-578 *)
Definition a_attribute_del (fuel : nat) (d : sdp) (pos_media : Z) (field : str) : run sdp :=
  match no_such_media d pos_media with
  | None => Ended UB
  | Some true => Ended (Err OSIP_UNDEFINED_ERROR)
  | Some false =>
      if pos_media =? -1 then
        on_run (fun l => with_a l d) (del_field fuel (a_attributes d) 0 field)
      else match get (m_medias d) pos_media with
           | None => Ended (Err OSIP_UNDEFINED_ERROR)
           | Some m => on_run (fun l => change_media d pos_media (media_a l))
                              (del_field fuel (m_attributes m) 0 field)
           end
  end.
(** sdp_message_a_attribute_del_at_index: sdp_accessor.c 580-628 *)
Definition a_attribute_del_at_index (fuel : nat) (d : sdp) (pos_media : Z) (field : str)
  (pos_attr : Z) : run sdp :=
  match no_such_media d pos_media with
  | None => Ended UB
  | Some true => Ended (Err OSIP_UNDEFINED_ERROR)
  | Some false =>
      if pos_media =? -1 then
        if pos_attr =? -1 then on_run (fun l => with_a l d) (del_field fuel (a_attributes d) 0 field)
        else match get (a_attributes d) pos_attr with
             | None => Ended (Ok d)
             | Some _ => Ended (Ok (with_a (remove (a_attributes d) pos_attr) d))
             end
      else match get (m_medias d) pos_media with
           | None => Ended (Err OSIP_UNDEFINED_ERROR)
           | Some m =>
               on_run (fun l => change_media d pos_media (media_a l))
                 (if pos_attr =? -1 then del_field fuel (m_attributes m) 0 field
                  else del_index fuel (m_attributes m) 0 pos_attr)
           end
  end.

(** sdp_message_m_media_add: sdp_accessor.c 678-693 *)
Definition m_media_add (d : sdp) (media port number proto : option str) : sdp :=
  with_m (m_medias d ++ [mkMedia media port number proto [] None [] [] [] None]) d.
(** sdp_message_m_media_get, _m_port_get, _m_number_of_port_get, _m_proto_get: sdp_accessor.c
    695-723 and 738-746 *)
Definition m_get (d : sdp) (pos_media : Z) (field : sdp_media -> option str) : option str :=
  match get (m_medias d) pos_media with None => None | Some m => field m end.
(** sdp_message_m_port_set: sdp_accessor.c 725-736 *)
Definition m_port_set (d : sdp) (pos_media : Z) (port : option str) : res sdp :=
  match get (m_medias d) pos_media with
  | None => Err OSIP_BADPARAMETER
  | Some _ => Ok (change_media d pos_media (media_port port))
  end.
(** sdp_message_m_payload_add: sdp_accessor.c 748-757 *)
Definition m_payload_add (d : sdp) (pos_media : Z) (payload : str) : res sdp :=
  match get (m_medias d) pos_media with
  | None => Err OSIP_BADPARAMETER
  | Some _ => Ok (change_media d pos_media (fun m => media_payloads (m_payloads m ++ [payload]) m))
  end.
(** sdp_message_m_payload_get: sdp_accessor.c 759-767 *)
Definition m_payload_get (d : sdp) (pos_media pos : Z) : option str :=
  match get (m_medias d) pos_media with None => None | Some m => get (m_payloads m) pos end.
(** sdp_message_m_payload_del: sdp_accessor.c 769-782 *)
Definition m_payload_del (d : sdp) (pos_media pos : Z) : res sdp :=
  match get (m_medias d) pos_media with
  | None => Err OSIP_BADPARAMETER
  | Some m =>
      match get (m_payloads m) pos with
      | None => Err OSIP_UNDEFINED_ERROR
      | Some _ => Ok (change_media d pos_media (media_payloads (remove (m_payloads m) pos)))
      end
  end.
(** sdp_message_endof_media: sdp_accessor.c 666-676 *)
Definition endof_media (d : sdp) (i : Z) : Z :=
  if i =? -1 then OSIP_SUCCESS
  else if i <? size (m_medias d) then OSIP_SUCCESS else OSIP_UNDEFINED_ERROR.

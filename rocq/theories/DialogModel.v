(** Dialogs: src/osip2/osip_dialog.c, with osip_call_id_to_str and osip_from_compare.
    A message passed in is never NULL; the dialog neither.  [UB] marks a NULL dereference. *)
From Coq Require Import String ZArith Ascii Bool List.
From Verif Require Import Base Str Types PortModel CloneModel.
Import ListNotations.
Open Scope Z_scope.

(** osip_call_id_to_str: osip_call_id.c 130-150 *)
Definition call_id_to_str (c : option call_id) : res str :=
  match c with
  | None => Err OSIP_BADPARAMETER
  | Some c => match ci_number c with
              | None => Err OSIP_BADPARAMETER
              | Some n => Ok (match ci_host c with None => n | Some h => n ++ "@"%char :: h end)
              end
  end.

(** The loops of osip_from.c 463-485: value of the first parameter whose name starts with "tag" *)
Definition cmp_tag (ps : list param) : option str :=
  match find (fun p => strneq 3 (fst p) ($"tag")) ps with Some (_, v) => v | None => None end.

(** osip_from_compare: osip_from.c 433-503; true = OSIP_SUCCESS *)
Definition from_compare (a b : option nameaddr) : bool :=
  match a, b with
  | Some a, Some b =>
    match na_url a, na_url b with
    | Some u, Some w =>
      match u_host u, u_host w with
      | None, None => match u_string u, u_string w with Some x, Some y => streq x y | _, _ => false end
      | Some h, Some k =>
        if negb (streq h k) then false
        else if match u_username u, u_username w with Some x, Some y => negb (streq x y) | _, _ => false end then false
        else match cmp_tag (na_params a), cmp_tag (na_params b) with
             | Some x, Some y => streq x y
             | _, _ => true
             end
      | _, _ => false
      end
    | _, _ => false
    end
  | _, _ => false
  end.

(** DIALOG_EARLY, DIALOG_CONFIRMED, DIALOG_CLOSE: osip.h 88-91; CALLER, CALLEE: osip_dialog.h 47-51 *)
Inductive dstate := DIALOG_EARLY | DIALOG_CONFIRMED | DIALOG_CLOSE.
Inductive dtype := CALLER | CALLEE.

(** struct osip_dialog: osip_dialog.h 60-77 (without [secure] and [your_instance]) *)
Record dialog := mkDlg {
  d_call_id : option str; d_local_tag : option str; d_remote_tag : option str; d_line : option str;
  d_route_set : list nameaddr; d_local_cseq : Z; d_remote_cseq : Z;
  d_remote_uri : option nameaddr; d_local_uri : option nameaddr; d_contact : option nameaddr;
  d_type : dtype; d_state : dstate }.

Definition set_contact (d : dialog) (c : option nameaddr) : dialog :=
  mkDlg (d_call_id d) (d_local_tag d) (d_remote_tag d) (d_line d) (d_route_set d) (d_local_cseq d)
        (d_remote_cseq d) (d_remote_uri d) (d_local_uri d) c (d_type d) (d_state d).
Definition set_routes (d : dialog) (l : list nameaddr) : dialog :=
  mkDlg (d_call_id d) (d_local_tag d) (d_remote_tag d) (d_line d) l (d_local_cseq d)
        (d_remote_cseq d) (d_remote_uri d) (d_local_uri d) (d_contact d) (d_type d) (d_state d).
Definition set_remote_cseq (d : dialog) (n : Z) : dialog :=
  mkDlg (d_call_id d) (d_local_tag d) (d_remote_tag d) (d_line d) (d_route_set d) (d_local_cseq d)
        n (d_remote_uri d) (d_local_uri d) (d_contact d) (d_type d) (d_state d).
Definition set_local_cseq (d : dialog) (n : Z) : dialog :=
  mkDlg (d_call_id d) (d_local_tag d) (d_remote_tag d) (d_line d) (d_route_set d) n
        (d_remote_cseq d) (d_remote_uri d) (d_local_uri d) (d_contact d) (d_type d) (d_state d).
Definition set_type (d : dialog) (t : dtype) : dialog :=
  mkDlg (d_call_id d) (d_local_tag d) (d_remote_tag d) (d_line d) (d_route_set d) (d_local_cseq d)
        (d_remote_cseq d) (d_remote_uri d) (d_local_uri d) (d_contact d) t (d_state d).
Definition set_remote_tag (d : dialog) (t : option str) : dialog :=
  mkDlg (d_call_id d) (d_local_tag d) t (d_line d) (d_route_set d) (d_local_cseq d)
        (d_remote_cseq d) (d_remote_uri d) (d_local_uri d) (d_contact d) (d_type d) (d_state d).

(** osip_dialog_set_state: osip_dialog.c 27-33 *)
Definition dialog_set_state (d : dialog) (s : dstate) : dialog :=
  mkDlg (d_call_id d) (d_local_tag d) (d_remote_tag d) (d_line d) (d_route_set d) (d_local_cseq d)
        (d_remote_cseq d) (d_remote_uri d) (d_local_uri d) (d_contact d) (d_type d) s.

(** The contact part of the two update functions: osip_dialog.c 46-58, 88-101.  osip_contact_clone
    and osip_record_route_clone are osip_from_clone. *)
Definition update_contact (d : dialog) (m : message) : Z * dialog :=
  match m_contacts m with
  | [] => (OSIP_SUCCESS, d)
  | c :: _ => match from_clone (Some c) with
              | Ok c' => (OSIP_SUCCESS, set_contact d (Some c'))
              | Err e => (e, set_contact d None)
              | UB => (OSIP_UNDEFINED_ERROR, set_contact d None)
              end
  end.

(** osip_dialog_update_route_set_as_uas: osip_dialog.c 35-60 *)
Definition update_route_set_as_uas (d : dialog) (m : message) : Z * dialog := update_contact d m.

(** osip_dialog_update_osip_cseq_as_uas: osip_dialog.c 62-72 *)
Definition update_cseq_as_uas (d : dialog) (m : message) : Z * dialog :=
  match m_cseq m with
  | Some c => match cs_number c with
              | Some n => (OSIP_SUCCESS, set_remote_cseq d (osip_atoi n))
              | None => (OSIP_BADPARAMETER, d)
              end
  | None => (OSIP_BADPARAMETER, d)
  end.

(** The copying loop of osip_dialog.c 108-121: each copy is inserted in front *)
Fixpoint prepend_routes (acc l : list nameaddr) : Z * list nameaddr :=
  match l with
  | [] => (OSIP_SUCCESS, acc)
  | r :: l' => match from_clone (Some r) with
               | Ok r' => prepend_routes (r' :: acc) l'
               | Err e => (e, acc)
               | UB => (OSIP_UNDEFINED_ERROR, acc)
               end
  end.

Definition is_early (s : dstate) : bool := match s with DIALOG_EARLY => true | _ => false end.

(** osip_dialog_update_route_set_as_uac: osip_dialog.c 74-126 *)
Definition update_route_set_as_uac (d : dialog) (m : message) : Z * dialog :=
  let '(i, d) := update_contact d m in
  if negb (i =? 0) then (i, d)
  else
    let '(i, d) := if is_early (d_state d)
                   then let r := prepend_routes [] (m_record_routes m) in (fst r, set_routes d (snd r))
                   else (OSIP_SUCCESS, d) in
    if negb (i =? 0) then (i, d)
    else (OSIP_SUCCESS, if is_2xx m then dialog_set_state d DIALOG_CONFIRMED else d).

(** osip_dialog_update_tag_as_uac: osip_dialog.c 128-152 *)
Definition update_tag_as_uac (d : dialog) (m : message) : Z * dialog :=
  match m_to m with
  | None => (OSIP_BADPARAMETER, d)
  | Some to =>
    match d_remote_tag d with
    | Some _ => (OSIP_WRONG_STATE, d)
    | None => match param_get (na_params to) ($"tag") with
              | Some (_, Some v) => (OSIP_SUCCESS, set_remote_tag d (Some v))
              | _ => (OSIP_SUCCESS, set_remote_tag d None)
              end
    end
  end.

(** The part of the two matching functions after the local tag: osip_dialog.c 194-227, 265-295.
    [mine] and [theirs] are the header with the local and the remote identity. *)
Definition match_remote (d : dialog) (mine theirs : nameaddr) : res Z :=
  let compare := if from_compare (d_local_uri d) (Some mine) && from_compare (d_remote_uri d) (Some theirs)
                 then OSIP_SUCCESS else OSIP_UNDEFINED_ERROR in
  match param_get (na_params theirs) ($"tag"), d_remote_tag d with
  | None, Some _ => Ok OSIP_SYNTAXERROR
  | None, None => Ok compare
  | Some _, None => Ok compare
  | Some (_, None), Some _ => UB
  | Some (_, Some v), Some r => Ok (if streq v r then OSIP_SUCCESS else OSIP_UNDEFINED_ERROR)
  end.

(** osip_dialog_match_as_uac: osip_dialog.c 154-228 *)
Definition match_as_uac (d : dialog) (m : message) : res Z :=
  match d_call_id d, m_call_id m, m_from m, m_to m with
  | Some cid, Some mcid, Some from, Some to =>
    match call_id_to_str (Some mcid) with
    | Ok s =>
      if negb (streq cid s) then Ok OSIP_UNDEFINED_ERROR
      else match param_get (na_params from) ($"tag") with
           | None => Ok OSIP_SYNTAXERROR
           | Some (_, v) =>
             match d_local_tag d with
             | None => Ok OSIP_SYNTAXERROR
             | Some lt => match v with
                          | None => UB
                          | Some v => if negb (streq v lt) then Ok OSIP_UNDEFINED_ERROR
                                      else match_remote d from to
                          end
             end
           end
    | Err e => Ok e
    | UB => UB
    end
  | _, _, _, _ => Ok OSIP_BADPARAMETER
  end.

(** osip_dialog_match_as_uas: osip_dialog.c 230-296.  The To tag is not looked at. *)
Definition match_as_uas (d : dialog) (m : message) : res Z :=
  match d_call_id d, m_call_id m, m_from m, m_to m with
  | Some cid, Some mcid, Some from, Some to =>
    match call_id_to_str (Some mcid) with
    | Ok s =>
      if negb (streq cid s) then Ok OSIP_UNDEFINED_ERROR
      else match d_local_tag d with
           | None => Ok OSIP_SYNTAXERROR
           | Some _ => match_remote d to from
           end
    | Err e => Ok e
    | UB => UB
    end
  | _, _, _, _ => Ok OSIP_BADPARAMETER
  end.

(** __osip_dialog_init: osip_dialog.c 298-418.  [invite]: the request, for the callee's side. *)
Definition dialog_init (invite : option message) (resp : message) (local remote : option nameaddr)
    (remote_msg : message) (ty : dtype) : res dialog :=
  match m_cseq resp, local, remote with
  | Some cs, Some local, Some remote =>
    do cid <- call_id_to_str (m_call_id resp) ;
    match param_get (na_params local) ($"tag") with
    | None => Err OSIP_UNDEFINED_ERROR
    | Some (_, ltag) =>
      let rtag := match param_get (na_params remote) ($"tag") with Some (_, v) => v | None => None end in
      do line <- match invite with
                 | None => Ok None
                 | Some inv => match m_uri inv with
                               | None => UB
                               | Some u => Ok (match param_get (u_params u) ($"line") with
                                               | Some (_, v) => v | None => None end)
                               end
                 end ;
      do routes <- match invite with
                   | None => match prepend_routes [] (m_record_routes resp) with
                             | (0, l) => Ok l
                             | (e, _) => Err e
                             end
                   | Some _ => list_clone (fun r => from_clone (Some r)) [] (m_record_routes resp)
                   end ;
      match cs_number cs with
      | None => UB
      | Some n =>
        do ruri <- from_clone (Some remote) ;
        do luri <- from_clone (Some local) ;
        do contact <- match m_contacts remote_msg with
                      | [] => Ok None
                      | c :: _ => do c' <- from_clone (Some c) ; Ok (Some c')
                      end ;
        Ok (mkDlg (Some cid) ltag rtag line routes (osip_atoi n) 0 (Some ruri) (Some luri) contact ty
                  (if is_2xx resp then DIALOG_CONFIRMED else DIALOG_EARLY))
      end
    end
  | _, _, _ => Err OSIP_SYNTAXERROR
  end.

(** osip_dialog_init_as_uac: osip_dialog.c 420-436 *)
Definition init_as_uac (resp : message) : res dialog :=
  do d <- dialog_init None resp (m_from resp) (m_to resp) resp CALLER ;
  Ok (set_remote_cseq d (-1)).

(** osip_dialog_init_as_uac_with_remote_request: osip_dialog.c 439-462 *)
Definition init_as_uac_with_remote_request (req : message) (local_cseq : Z) : res dialog :=
  match m_cseq req with
  | None => Err OSIP_BADPARAMETER
  | Some cs =>
    do d <- dialog_init (Some req) req (m_to req) (m_from req) req CALLER ;
    match cs_number cs with
    | None => UB
    | Some n => Ok (set_remote_cseq (set_local_cseq (dialog_set_state d DIALOG_CONFIRMED) local_cseq) (osip_atoi n))
    end
  end.

(** osip_dialog_init_as_uas: osip_dialog.c 464-484 *)
Definition init_as_uas (invite resp : message) : res dialog :=
  match m_cseq resp with
  | None => Err OSIP_SYNTAXERROR
  | Some cs =>
    do d <- dialog_init (Some invite) resp (m_to resp) (m_from resp) invite CALLEE ;
    match cs_number cs with
    | None => UB
    | Some n => Ok (set_remote_cseq d (osip_atoi n))
    end
  end.

(** A history of updates of one dialog *)
Inductive dop :=
| DContact (m : message)      (* osip_dialog_update_route_set_as_uas *)
| DCseq (m : message)         (* osip_dialog_update_osip_cseq_as_uas *)
| DRoutes (m : message)       (* osip_dialog_update_route_set_as_uac *)
| DTag (m : message)          (* osip_dialog_update_tag_as_uac *)
| DState (s : dstate).        (* osip_dialog_set_state *)

Definition dstep (d : dialog) (a : dop) : Z * dialog :=
  match a with
  | DContact m => update_route_set_as_uas d m
  | DCseq m => update_cseq_as_uas d m
  | DRoutes m => update_route_set_as_uac d m
  | DTag m => update_tag_as_uac d m
  | DState s => (OSIP_SUCCESS, dialog_set_state d s)
  end.

Fixpoint dsteps (d : dialog) (l : list dop) : dialog :=
  match l with [] => d | a :: l' => dsteps (snd (dstep d a)) l' end.

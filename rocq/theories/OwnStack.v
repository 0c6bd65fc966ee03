(** What events, transactions, dialogs and the stack itself allocate, own and free: src/osip2, with the copying functions of
    src/osipparser2 they use.  As in OwnModel.v only memory is modelled and every test on the contents of a message is a choice, except
    whether its top Via has a protocol, which is looked at twice. *)
From Coq Require Import Bool List Arith.
From Verif Require Import OwnModel.
Import ListNotations.

(** *** Copies: src/osipparser2 *)
(** "if (...) return error;" in a function that makes a structure *)
Definition refuse {A} (k : prog (option A)) : prog (option A) := bad <~ test ;; if bad : bool then ret None else k.
(** "if (x != NULL) y = osip_strdup (x);", the answer not looked at *)
Definition copy_opt : prog (option block) := has <~ test ;; if has : bool then new else ret None.
(** osip_uri_param_clone (osip_generic_param_clone): osip_uri.c 872-893 *)
Definition param_clone : prog (option param) :=
  refuse (o <~ new ;; match o with None => ret None | Some b => n <~ new ;; v <~ copy_opt ;; ret (Some (mkParam b n v)) end).
(** osip_list_clone: osip_list.c 35-49 *)
Definition clone_round {A} (clone : prog (option A)) (l : olist A) : prog (bool * olist A) :=
  o <~ clone ;; match o with None => ret (false, l) | Some x => l <~ list_add l x ;; ret (true, l) end.
Definition list_clone {A} (clone : prog (option A)) (l : olist A) : prog (bool * olist A) := n <~ ask ;; loop n (clone_round clone) l.
(** osip_uri_clone: osip_uri.c 741-780 *)
Fixpoint copies (n : nat) : prog (list (option block)) := match n with O => ret [] | S n => o <~ copy_opt ;; l <~ copies n ;; ret (o :: l) end.
Definition uri_clone : prog (option obj) :=
  refuse (o <~ uri_init ;; match o with None => ret None | Some u =>
  l <~ copies (length (fs u)) ;; let u := mkObj (self u) l (ps u) (hs u) in
  r <~ list_clone param_clone (ps u) ;; let u := with_ps (snd r) u in
  if negb (fst r) then _ <~ obj_free u ;; ret None else
  r <~ list_clone param_clone (hs u) ;; let u := with_hs (snd r) u in
  if negb (fst r) then _ <~ obj_free u ;; ret None else ret (Some u) end).
(** a text that must be copied, and one that is copied if it is there: osip_via.c 435-463 *)
Definition must (i : nat) (v : obj) (k : obj -> prog (option obj)) : prog (option obj) :=
  o <~ new ;; match o with None => _ <~ obj_free v ;; ret None | Some b => k (put i b v) end.
Definition maybe (i : nat) (v : obj) (k : obj -> prog (option obj)) : prog (option obj) := has <~ test ;; if has : bool then must i v k else k v.
(** osip_via_clone: osip_via.c 417-472; [protocol]: the Via has a protocol *)
Definition via_clone (protocol : bool) : prog (option obj) :=
  if negb protocol then ret None else
  refuse (o <~ via_init ;; match o with None => ret None | Some v =>
  must 0 v (fun v => must 1 v (fun v => must 2 v (fun v => maybe 3 v (fun v => maybe 4 v (fun v =>
  r <~ list_clone param_clone (ps v) ;; let v := with_ps (snd r) v in
  if negb (fst r) then _ <~ obj_free v ;; ret None else ret (Some v)))))) end).
(** osip_from_clone (osip_to_clone, osip_record_route_clone), osip_contact_clone: osip_from.c 396-431, osip_contact.c 127-130 *)
Definition from_clone : prog (option addr) :=
  refuse (o <~ from_init ;; match o with None => ret None | Some a =>
  has <~ test ;;
  o <~ (if has : bool then new else ret None) ;;
  let a := mkAddr (match o with Some b => put 0 b (a_obj a) | None => a_obj a end) (a_url a) in
  if has && match o with None => true | Some _ => false end then _ <~ from_free a ;; ret None else
  has <~ test ;;
  u <~ (if has : bool then uri_clone else ret None) ;; let a := mkAddr (a_obj a) u in
  if has && match u with None => true | Some _ => false end then _ <~ from_free a ;; ret None else
  r <~ list_clone param_clone (ps (a_obj a)) ;; let a := mkAddr (with_ps (snd r) (a_obj a)) (a_url a) in
  if negb (fst r) then _ <~ from_free a ;; ret None else ret (Some a) end).
(** osip_call_id_clone: osip_call_id.c 181-201 *)
Definition call_id_clone : prog (option obj) :=
  refuse (o <~ call_id_init ;; match o with None => ret None | Some c =>
  n <~ new ;; h <~ copy_opt ;; ret (Some (mkObj (self c) [n; h] (ps c) (hs c))) end).
(** osip_cseq_clone: osip_cseq.c 170-193; osip_cseq_free accepts the NULL that a failed osip_cseq_init leaves *)
Definition cseq_clone : prog (option obj) :=
  refuse (o <~ cseq_init ;; match o with None => _ <~ opt_free obj_free o ;; ret None | Some c =>
  m <~ new ;; n <~ new ;; ret (Some (mkObj (self c) [m; n] (ps c) (hs c))) end).

(** *** Events: osip_event.c *)
Record evt := mkEvt { e_self : block; e_sip : option msgo }.
(** osip_event_free: osip_event.c 153-160 *)
Definition evt_free (e : evt) : prog unit := _ <~ opt_free msg_free (e_sip e) ;; free (Some (e_self e)).
(** __osip_event_new: osip_event.c 73-85 *)
Definition evt_new : prog (option evt) := o <~ new ;; match o with None => ret None | Some b => ret (Some (mkEvt b None)) end.
(** osip_parse: osip_event.c 28-64 *)
Definition evt_parse : prog (option evt) :=
  o <~ evt_new ;; match o with None => ret None | Some e =>
  o <~ msg_init ;; match o with None => _ <~ free (Some (e_self e)) ;; ret None | Some g =>
  r <~ msg_parse false g ;;
  if negb (fst r) then _ <~ msg_free (snd r) ;; _ <~ free (Some (e_self e)) ;; ret None else
  bad <~ test ;;
  if bad : bool then _ <~ msg_free (snd r) ;; _ <~ free (Some (e_self e)) ;; ret None else
  ret (Some (mkEvt (e_self e) (Some (snd r)))) end end.

(** *** Transactions *)
Inductive kind := Ict | Ist | Nict | Nist.
(** a context and its destination (NULL for server transactions) *)
Record ctx := mkCtx { c_self : block; c_dest : option block }.
(** __osip_ict_free: ict.c 151-161; __osip_ist_free: ist.c 75-83; __osip_nict_free: nict.c 142-152; __osip_nist_free: nist.c 68-77 *)
Definition ctx_free (c : ctx) : prog unit := _ <~ free (c_dest c) ;; free (Some (c_self c)).
(** __osip_ict_init: ict.c 26-149; __osip_ist_init: ist.c 26-73; __osip_nict_init: nict.c 27-140; __osip_nist_init: nist.c 27-66.
    The context is freed when the Via has no protocol; only __osip_ict_init leaves the pointer (ict.c 46, 51).  The destination is
    copied from the route, the Request-URI or a parameter of it; the answer of osip_strdup is not looked at *)
Definition ctx_init (k : kind) (protocol : bool) : prog (bool * option ctx) :=
  o <~ new ;; match o with
  | None => ret (false, None)
  | Some b =>
    if negb protocol then _ <~ free (Some b) ;; ret (false, match k with Ict => Some (mkCtx b None) | _ => None end) else
    d <~ match k with Ict | Nict => copy_opt | _ => ret None end ;; ret (true, Some (mkCtx b d))
  end.
(** a queue, its lock and its semaphore: port_fifo.c 29-41 *)
Record fifo := mkFifo { q_self : block; q_lock : option block; q_sem : option block; q_events : olist evt }.
Definition fifo_init (b : block) : prog fifo := l <~ new ;; s <~ new ;; ret (mkFifo b l s []).
(** osip_fifo_tryget until it answers NULL (port_fifo.c 132-169): without a semaphore it answers NULL at once (osip_sem_trywait:
    port_sema.c 216-222) and what is in the queue is lost; then osip_fifo_free (port_fifo.c 171-182).  osip_transaction.c 296-305 *)
Definition fifo_free (q : fifo) : prog unit :=
  _ <~ match q_sem q with
       | Some _ => list_free evt_free (q_events q)
       | None => match q_events q with [] => ret tt | _ :: _ => lose_type end
       end ;;
  _ <~ free (q_lock q) ;; _ <~ free (q_sem q) ;; free (Some (q_self q)).
(** [t_node]: the node of the list of the stack the transaction is in *)
Record trn := mkTrn { t_self : block; t_kind : kind; t_ctx : option ctx; t_fifo : option fifo; t_via : option obj; t_from : option addr; t_to : option addr;
  t_call_id : option obj; t_cseq : option obj; t_node : option block }.
(** osip_transaction_free, osip_transaction_free2: osip_transaction.c 255-319; the messages of a transaction are C54 *)
Definition trn_free (t : trn) : prog unit :=
  _ <~ free (t_node t) ;; _ <~ opt_free ctx_free (t_ctx t) ;; _ <~ opt_free fifo_free (t_fifo t) ;;
  _ <~ opt_free obj_free (t_via t) ;; _ <~ opt_free from_free (t_from t) ;; _ <~ opt_free from_free (t_to t) ;;
  _ <~ opt_free obj_free (t_call_id t) ;; _ <~ opt_free obj_free (t_cseq t) ;; free (Some (t_self t)).
Definition drop (t : trn) : prog (option trn) := _ <~ trn_free t ;; ret None.
(** osip_transaction_init: osip_transaction.c 110-239.  [protocol]: what osip_via_clone sees; [protocol']: what the context sees.  The
    list of the stack may fail to grow (osip.c 380-408 and the same for the other kinds) *)
Definition trn_init (k : kind) (protocol protocol' : bool) : prog (option trn) :=
  refuse (o <~ new ;; match o with None => ret None | Some b =>
  let t := mkTrn b k None None None None None None None None in
  no_via <~ test ;; if no_via : bool then drop t else
  v <~ via_clone protocol ;; match v with None => drop t | Some _ =>
  let t := mkTrn b k None None v None None None None None in
  f <~ from_clone ;; match f with None => drop t | Some _ =>
  let t := mkTrn b k None None v f None None None None in
  o <~ from_clone ;; match o with None => drop t | Some _ =>
  let t := mkTrn b k None None v f o None None None in
  i <~ call_id_clone ;; match i with None => drop t | Some _ =>
  let t := mkTrn b k None None v f o i None None in
  s <~ cseq_clone ;; match s with None => drop t | Some _ =>
  let t := mkTrn b k None None v f o i s None in
  q <~ new ;; match q with None => drop t | Some q =>
  q <~ fifo_init q ;;
  c <~ ctx_init k protocol' ;;
  let t := mkTrn b k (snd c) (Some q) v f o i s None in
  if negb (fst c) then drop t else
  n <~ new ;;
  ret (Some (mkTrn b k (snd c) (Some q) v f o i s n)) end end end end end end end).
(** osip_transaction_add_event: osip_transaction.c 321-331; osip_fifo_add does not look at the answer of osip_list_add (port_fifo.c 43-58);
    without a queue it reads through NULL *)
Definition add_event (t : trn) (e : evt) : prog trn :=
  match t_fifo t with
  | None => fun _ => None
  | Some q => l <~ list_add (q_events q) e ;;
    ret (mkTrn (t_self t) (t_kind t) (t_ctx t) (Some (mkFifo (q_self q) (q_lock q) (q_sem q) l)) (t_via t) (t_from t) (t_to t) (t_call_id t) (t_cseq t) (t_node t))
  end.
(** osip_ict_set_destination with a copied text: ict.c 163-173; osip_nict_set_destination: nict.c 154-164 *)
Definition set_destination (t : trn) : prog trn :=
  match t_kind t, t_ctx t with
  | Ict, Some c | Nict, Some c => o <~ new ;; _ <~ free (c_dest c) ;;
    ret (mkTrn (t_self t) (t_kind t) (Some (mkCtx (c_self c) o)) (t_fifo t) (t_via t) (t_from t) (t_to t) (t_call_id t) (t_cseq t) (t_node t))
  | _, _ => ret t
  end.
(** osip_remove_transaction: osip.c 498-516 *)
Definition unlink (t : trn) : prog trn :=
  _ <~ free (t_node t) ;; ret (mkTrn (t_self t) (t_kind t) (t_ctx t) (t_fifo t) (t_via t) (t_from t) (t_to t) (t_call_id t) (t_cseq t) None).
(** what the program does with a transaction: give it received messages and timer events, set its destination, remove it from the stack *)
Definition trn_step (t : trn) : prog (bool * trn) :=
  k <~ ask ;;
  t <~ match k with
       | 0 => o <~ evt_parse ;; match o with Some e => add_event t e | None => ret t end
       | 1 => o <~ evt_new ;; match o with Some e => add_event t e | None => ret t end
       | 2 => set_destination t
       | 3 => unlink t
       | _ => ret t
       end ;; ret (true, t).
Definition trn_steps (t : trn) : prog (bool * trn) := n <~ ask ;; loop n trn_step t.

(** *** Dialogs: osip_dialog.c *)
(** [l_texts]: call_id 0, local_tag 1, remote_tag 2, line_param 3 *)
Record dlg := mkDlg { l_self : block; l_texts : list (option block); l_routes : olist addr; l_remote : option addr; l_local : option addr; l_contact : option addr }.
(** osip_dialog_free: osip_dialog.c 486-500 *)
Definition dlg_free (l : dlg) : prog unit :=
  _ <~ opt_free from_free (l_contact l) ;; _ <~ opt_free from_free (l_local l) ;; _ <~ opt_free from_free (l_remote l) ;;
  _ <~ list_free from_free (l_routes l) ;; _ <~ free_all (rev (l_texts l)) ;; free (Some (l_self l)).
Definition dlg_drop (l : dlg) : prog (option dlg) := _ <~ dlg_free l ;; ret None.
(** __osip_dialog_init: osip_dialog.c 298-418, for osip_dialog_init_as_uac, _as_uas and _as_uac_with_remote_request (420-484) *)
Definition dlg_init : prog (option dlg) :=
  refuse (o <~ new ;; match o with None => ret None | Some b =>
  let l := mkDlg b [None; None; None; None] [] None None None in
  bad <~ test ;; o <~ (if bad : bool then ret None else new) ;;
  match o with None => dlg_drop l | Some _ =>
  let l := mkDlg b [o; None; None; None] [] None None None in
  no_tag <~ test ;; if no_tag : bool then dlg_drop l else
  t <~ copy_opt ;; u <~ copy_opt ;; p <~ copy_opt ;;
  r <~ list_clone from_clone [] ;;
  let l := mkDlg b [o; t; u; p] (snd r) None None None in
  if negb (fst r) then dlg_drop l else
  x <~ from_clone ;; match x with None => dlg_drop l | Some _ =>
  let l := mkDlg b [o; t; u; p] (snd r) x None None in
  y <~ from_clone ;; match y with None => dlg_drop l | Some _ =>
  let l := mkDlg b [o; t; u; p] (snd r) x y None in
  has <~ test ;; if negb has then ret (Some l) else
  z <~ from_clone ;; match z with None => dlg_drop l | Some _ => ret (Some (mkDlg b [o; t; u; p] (snd r) x y z)) end
  end end end end).
(** the remote target is replaced: osip_dialog.c 47-57, 86-99 *)
Definition dlg_target (l : dlg) : prog (bool * dlg) :=
  none <~ test ;; if none : bool then ret (true, l) else
  _ <~ opt_free from_free (l_contact l) ;; z <~ from_clone ;;
  ret (match z with Some _ => true | None => false end, mkDlg (l_self l) (l_texts l) (l_routes l) (l_remote l) (l_local l) z).
(** osip_dialog_update_route_set_as_uac: osip_dialog.c 74-126; [early]: the dialog is early *)
Definition dlg_update_uac (l : dlg) : prog (bool * dlg) :=
  r <~ dlg_target l ;; if negb (fst r) then ret r else let l := snd r in
  early <~ test ;; if negb early then ret (true, l) else
  _ <~ list_free from_free (l_routes l) ;;
  r <~ list_clone from_clone [] ;;
  ret (fst r, mkDlg (l_self l) (l_texts l) (snd r) (l_remote l) (l_local l) (l_contact l)).
(** osip_dialog_update_tag_as_uac: osip_dialog.c 128-152 *)
Definition dlg_update_tag (l : dlg) : prog (bool * dlg) :=
  match l_texts l with
  | [c; t; None; p] => u <~ copy_opt ;; ret (true, mkDlg (l_self l) [c; t; u; p] (l_routes l) (l_remote l) (l_local l) (l_contact l))
  | _ => ret (false, l)
  end.
(** any number of updates, whatever they answer *)
Definition dlg_step (l : dlg) : prog (bool * dlg) :=
  k <~ ask ;; r <~ match k with 0 => dlg_target l | 1 => dlg_update_uac l | _ => dlg_update_tag l end ;; ret (true, snd r).
Definition dlg_steps (l : dlg) : prog (bool * dlg) := n <~ ask ;; loop n dlg_step l.

(** *** The stack: osip_init and osip_release, osip.c 966-1025: six locks, none of them tested *)
Fixpoint locks (n : nat) : prog (list (option block)) := match n with O => ret [] | S n => o <~ new ;; l <~ locks n ;; ret (o :: l) end.
Definition stack_init : prog (option obj) :=
  o <~ obj_init 6 ;; match o with None => ret None | Some s => l <~ locks 6 ;; ret (Some (mkObj (self s) l (ps s) (hs s))) end.

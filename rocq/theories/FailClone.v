(** The clone functions when memory may run out: every allocation can fail, and a clone function that
    gives up frees its partial copy.

    The programs are those of [CloneHeap] with what the C text does about failures: whether the result of
    osip_strdup is tested, and which free function releases the partial copy.  [erase] forgets this again. *)
From Coq Require Import String ZArith NArith Ascii Bool List Lia.
From Verif Require Import Base Str CloneHeap FreeHeap.
Import ListNotations.
Local Open Scope nat_scope.

(** the heap, the number of allocations tried so far, and the number of failed allocations the program did
    not notice (osip_strdup without a test, osip_list_add in osip_list_clone) *)
Record memory := mkMem { hp : heap; tries : nat; unseen : nat }.
(** a call: it succeeds, or answers an error code, both with a new memory; or its behaviour is undefined *)
Inductive out (A : Type) := Done (m : memory) (x : A) | Fail (m : memory) (code : Z) | Bad.
Arguments Done {A}. Arguments Fail {A}. Arguments Bad {A}.

(** the tests before anything is allocated *)
Inductive check :=
| CNeed (i : nat)                                    (* if (x->i == NULL) return OSIP_BADPARAMETER; *)
| CNeedOne (i j : nat)                               (* if (x->i == NULL && x->j == NULL) return OSIP_BADPARAMETER; *)
| CNeedLen (i : nat).                                (* if (x->length <= 0) return OSIP_BADPARAMETER; *)
Inductive cop :=
| CDeref (i : nat)                                   (* x->i is used as if not NULL *)
| CDup (tested : bool) (i : nat)                     (* copy->i = osip_strdup (x->i); if tested: if (x->i && !copy->i) { free (copy); return OSIP_NOMEM; } *)
| CCopy (i : nat)                                    (* copy->i = x->i; *)
| CMem (i : nat)                                     (* malloc (length + 2), tested; memcpy (..., length) *)
| CSub (i : nat) (fs : list shape) (chk : list check) (p : list cop) (fr : list fop)   (* if (x->i != NULL) { r = clone (x->i, &copy->i); if (r != 0) { free (copy); return r; } } *)
| CEach (i : nat) (fs : list shape) (chk : list check) (p : list cop) (fr : list fop). (* r = osip_list_clone (&x->i, &copy->i, clone); if (r != 0) { free (copy); return r; } *)

Section Memory.
(** the n-th allocation, in the given heap: [None] when it fails *)
Variable malloc : nat -> heap -> option addr.

Definition tick (m : memory) (h : heap) : memory := mkMem h (S (tries m)) (unseen m).
Definition overlook (m : memory) : memory := mkMem (hp m) (S (tries m)) (S (unseen m)).
Definition store (m : memory) (dst : addr) (i : nat) (w : word) : out unit :=
  match set_field (hp m) dst i w with Ok h => Done (mkMem h (tries m) (unseen m)) tt | _ => Bad end.

(** osip_list_add (dst, data2, -1) in osip_list_clone: src/osipparser2/osip_list.c 46, 100-163: when the node cannot be
    allocated the list stays as it is; the answer is not looked at, the element is lost *)
Definition tadd (m : memory) (dst : addr) (i : nat) (el : word) : out unit :=
  match malloc (tries m) (hp m) with
  | None => Done (overlook m) tt
  | Some d => match list_add (fun _ => d) (hp m) dst i el with Ok h => Done (tick m h) tt | _ => Bad end
  end.
(** osip_list_clone: src/osipparser2/osip_list.c 35-49 *)
Fixpoint teach (clone : memory -> word -> out word) (dst : addr) (i : nat) (k : nat) (cur : option addr) (m : memory) : out unit :=
  match k, cur with
  | S k, Some a =>
    match node (hp m) a with
    | Ok (e, _) =>
      match clone m e with
      | Done m w =>
        match tadd m dst i w with
        | Done m _ => match node (hp m) a with Ok (_, next) => teach clone dst i k next m | _ => Bad end
        | Fail m c => Fail m c
        | Bad => Bad
        end
      | Fail m c => Fail m c
      | Bad => Bad
      end
    | _ => Bad
    end
  | _, _ => Done m tt
  end.

Definition passes (h : heap) (a : addr) (c : check) : res bool :=
  match c with
  | CNeed i => do w <- field h a i ; Ok (negb (is_null w))
  | CNeedOne i j => do w <- field h a i ; do v <- field h a j ; Ok (negb (is_null w && is_null v))
  | CNeedLen i => do w <- field h a i ; match w with Null | Buf _ O => Ok false | Buf _ _ => Ok true | _ => UB end
  end.
Fixpoint pass_all (h : heap) (a : addr) (l : list check) : res bool :=
  match l with [] => Ok true | c :: l => do b <- passes h a c ; if b : bool then pass_all h a l else Ok false end.

(** a clone function: NULL is refused, the tests, the structure, its fields; after an error the partial copy is freed *)
Definition tclone_with (chk : list check) (run : addr -> addr -> memory -> out unit) (fs : list shape) (fr : list fop) (m : memory) (w : word) : out word :=
  match w with
  | Null => Fail m OSIP_BADPARAMETER
  | Ptr a =>
    match pass_all (hp m) a chk with
    | Ok true =>
      match malloc (tries m) (hp m) with
      | None => Fail (tick m (hp m)) OSIP_NOMEM
      | Some d =>
        match run a d (tick m (put (hp m) d (BRec (map init_word fs)))) with
        | Done m _ => Done m (Ptr d)
        | Fail m c => match destroy fr (hp m) (Ptr d) with Ok h => Fail (mkMem h (tries m) (unseen m)) c | _ => Bad end
        | Bad => Bad
        end
      end
    | Ok false => Fail m OSIP_BADPARAMETER
    | _ => Bad
    end
  | _ => Bad
  end.

Fixpoint cstep (o : cop) (src dst : addr) (m : memory) {struct o} : out unit :=
  let cruns := fix cruns (p : list cop) (src dst : addr) (m : memory) {struct p} : out unit :=
    match p with [] => Done m tt | o :: p => match cstep o src dst m with Done m _ => cruns p src dst m | r => r end end in
  match o with
  | CDeref i => match field (hp m) src i with Ok w => if is_null w then Bad else Done m tt | _ => Bad end
  | CDup tested i =>
    match field (hp m) src i with
    | Ok Null => store m dst i Null
    | Ok (Ptr a) =>
      match text (hp m) a with
      | Ok s => match malloc (tries m) (hp m) with
                | Some d => store (tick m (put (hp m) d (BText (cut s)))) dst i (Ptr d)
                | None => if tested then Fail (tick m (hp m)) OSIP_NOMEM else store (overlook m) dst i Null
                end
      | _ => Bad
      end
    | _ => Bad
    end
  | CCopy i => match field (hp m) src i with Ok w => store m dst i w | _ => Bad end
  | CMem i =>
    match field (hp m) src i with
    | Ok (Buf a n) =>
      match text (hp m) a with
      | Ok s => if Nat.ltb (length s) n then Bad else
                match malloc (tries m) (hp m) with
                | Some d => store (tick m (put (hp m) d (BText (firstn n s)))) dst i (Buf d n)
                | None => Fail (tick m (hp m)) OSIP_NOMEM
                end
      | _ => Bad
      end
    | Ok Null => Fail m OSIP_BADPARAMETER          (* the tests do not let this through *)
    | _ => Bad
    end
  | CSub i fs chk p fr =>
    match field (hp m) src i with
    | Ok w => if is_null w then Done m tt else
              match tclone_with chk (cruns p) fs fr m w with Done m w => store m dst i w | Fail m c => Fail m c | Bad => Bad end
    | _ => Bad
    end
  | CEach i fs chk p fr =>
    match field (hp m) src i with Ok (Lst n first) => teach (tclone_with chk (cruns p) fs fr) dst i n first m | _ => Bad end
  end.
Definition cruns := fix cruns (p : list cop) (src dst : addr) (m : memory) {struct p} : out unit :=
  match p with [] => Done m tt | o :: p => match cstep o src dst m with Done m _ => cruns p src dst m | r => r end end.
Definition tclone (chk : list check) (p : list cop) (fs : list shape) (fr : list fop) (m : memory) (w : word) : out word := tclone_with chk (cruns p) fs fr m w.
End Memory.

(** the same program when nothing can fail *)
Definition erase_check (c : check) : op := match c with CNeed i => Need i | CNeedOne i j => NeedOne i j | CNeedLen i => NeedLen i end.
Fixpoint erase (o : cop) : op :=
  match o with
  | CDeref i => Deref i | CDup _ i => Dup i | CCopy i => Copy i | CMem i => Mem i
  | CSub i fs chk p _ => Sub i fs (map erase_check chk ++ map erase p)
  | CEach i fs chk p _ => Each i fs (map erase_check chk ++ map erase p)
  end.

(** osip_uri_param_clone: src/osipparser2/osip_uri.c 871-893 *)
Definition param_checks := [CNeed 0].
Definition param_tries := [CDup false 0; CDup false 1].
(** osip_uri_clone: src/osipparser2/osip_uri.c 740-780 *)
Definition uri_checks := [CNeedOne 3 7].
Definition uri_tries := [CDup false 0; CDup false 1; CDup false 2; CDup false 3; CDup false 4; CDup false 7;
  CEach 5 param_fields param_checks param_tries param_free; CEach 6 param_fields param_checks param_tries param_free].
(** osip_from_clone: src/osipparser2/osip_from.c 395-431 *)
Definition from_tries := [CDup true 0; CSub 1 uri_fields uri_checks uri_tries uri_free; CEach 2 param_fields param_checks param_tries param_free].
(** osip_via_clone: src/osipparser2/osip_via.c 416-472 *)
Definition via_checks := [CNeed 0; CNeed 1; CNeed 2].
Definition via_tries := [CDup true 0; CDup true 1; CDup true 2; CDup true 3; CDup true 4; CEach 5 param_fields param_checks param_tries param_free].
(** osip_cseq_clone: src/osipparser2/osip_cseq.c 169-193 *)
Definition cseq_checks := [CNeed 0; CNeed 1].
Definition cseq_tries := [CDup false 0; CDup false 1].
(** osip_call_id_clone: src/osipparser2/osip_call_id.c 180-201 *)
Definition call_id_checks := [CNeed 0].
Definition call_id_tries := [CDup false 0; CDup false 1].
(** osip_content_length_clone: src/osipparser2/osip_content_length.c 117-143 *)
Definition content_length_tries := [CDup true 0].
(** osip_content_type_clone: src/osipparser2/osip_content_type.c 210-244 *)
Definition content_type_tries := [CDup false 0; CDup false 1; CEach 2 param_fields param_checks param_tries param_free].
(** osip_accept_encoding_clone: src/osipparser2/osip_accept_encoding.c 165-200; osip_call_info_clone: src/osipparser2/osip_call_info.c 173-201 *)
Definition elem_checks := [CNeed 0].
Definition elem_tries := [CDup true 0; CEach 1 param_fields param_checks param_tries param_free].
(** osip_header_clone: src/osipparser2/osip_header.c 284-315 *)
Definition header_checks := [CNeed 0].
Definition header_tries := [CDup true 0; CDup true 1].
(** osip_www_authenticate_clone: src/osipparser2/osip_www_authenticate.c 644-730 *)
Definition www_checks := [CNeed 0].
Definition www_tries := [CDup true 0; CDup true 1; CDup true 2; CDup true 3; CDup true 4; CDup true 5; CDup true 6; CDup true 7; CDup true 8; CDup true 9; CDup true 10].
(** osip_authorization_clone: src/osipparser2/osip_authorization.c 719-866; for twelve fields the test after osip_strdup looks at the
    original instead of the copy (757, 764, 778, 792, 806, 813, 820, 828, 835, 842, 849, 856) *)
Definition authz_tries := [CDup true 0; CDup true 1; CDup false 2; CDup false 3; CDup true 4; CDup false 5; CDup true 6; CDup false 7; CDup true 8; CDup false 9; CDup false 10; CDup false 11;
  CDup false 12; CDup false 13; CDup false 14; CDup false 15; CDup false 16].
(** osip_authentication_info_clone: src/osipparser2/osip_authentication_info.c 529-568 *)
Definition authinfo_tries := [CDup false 0; CDup false 1; CDup false 4; CDup false 3; CDup false 5; CDup false 2; CDup false 6; CDup false 7; CDup false 9; CDup false 8; CDup false 10].
(** osip_body_clone: src/osipparser2/osip_body.c 75-113.  As in [CloneHeap], the list that headers points to is allocated when it is copied. *)
Definition body_checks := [CNeedLen 0].
Definition body_tries := [CMem 0; CSub 2 content_type_fields [] content_type_tries content_type_free; CDeref 1;
  CSub 1 [KList header_fields] [] [CEach 0 header_fields header_checks header_tries header_free] headers_free].
(** osip_message_clone: src/osipparser2/osip_message.c 172-373 *)
Definition message_tries := [CDup true 2; CDup true 0; CCopy 3; CDup true 4; CSub 1 uri_fields uri_checks uri_tries uri_free;
  CEach 5 content_type_fields [] content_type_tries content_type_free; CEach 6 elem_fields elem_checks elem_tries elem_free; CEach 7 elem_fields elem_checks elem_tries elem_free; CEach 8 elem_fields elem_checks elem_tries elem_free;
  CEach 9 content_length_fields [] content_length_tries content_length_free; CEach 10 authinfo_fields [] authinfo_tries authinfo_free; CEach 15 content_length_fields [] content_length_tries content_length_free;
  CEach 19 elem_fields elem_checks elem_tries elem_free; CEach 23 authinfo_fields [] authinfo_tries authinfo_free; CEach 13 elem_fields elem_checks elem_tries elem_free; CEach 11 authz_fields [] authz_tries authz_free;
  CSub 12 call_id_fields call_id_checks call_id_tries call_id_free; CEach 14 from_fields [] from_tries from_free; CSub 16 content_length_fields [] content_length_tries content_length_free;
  CSub 17 content_type_fields [] content_type_tries content_type_free; CSub 18 cseq_fields cseq_checks cseq_tries cseq_free; CSub 20 from_fields [] from_tries from_free;
  CSub 21 content_length_fields [] content_length_tries content_length_free; CEach 22 www_fields www_checks www_tries www_free; CEach 24 authz_fields [] authz_tries authz_free; CEach 25 from_fields [] from_tries from_free;
  CEach 26 from_fields [] from_tries from_free; CSub 27 from_fields [] from_tries from_free; CEach 28 via_fields via_checks via_tries via_free; CEach 29 www_fields www_checks www_tries www_free;
  CEach 30 header_fields header_checks header_tries header_free; CEach 31 body_fields body_checks body_tries body_free; CCopy 34; CDup true 33; CCopy 32; CCopy 35].

(** the programs are those of [CloneHeap] *)
Example same_message : map erase message_tries = message_clone. Proof. reflexivity. Qed.
Example same_body : map erase_check body_checks ++ map erase body_tries = body_clone. Proof. reflexivity. Qed.

(** Model of src/osipparser2/osip_list.c: singly linked list in an explicit heap.

    Simplifications: a NULL list argument is not modelled (each function starts with a
    NULL check that returns an error); [int] counters are unbounded integers. *)
From Coq Require Import ZArith List Bool.
From Verif Require Import Base.
Import ListNotations.

Definition addr := nat.

(** struct __node (include/osipparser2/osip_list.h 55-58): next pointer and element.
    [None] as a pointer is NULL. *)
Definition node (E : Type) : Type := (option addr * E)%type.

(** The heap of nodes; [None] = not allocated, reading or writing it is UB. *)
Definition heap (E : Type) : Type := addr -> option (node E).

(** struct osip_list (include/osipparser2/osip_list.h 81-86), with the heap it lives in. *)
Record lst (E : Type) : Type := mk_lst {
  mem : heap E;
  nb_elt : Z;
  head : option addr }.
Arguments mk_lst {E} _ _ _.
Arguments mem {E} _.
Arguments nb_elt {E} _.
Arguments head {E} _.

Definition upd {E} (h : heap E) (a : addr) (v : option (node E)) : heap E :=
  fun b => if Nat.eqb a b then v else h b.

(** osip_list_init, osip_list.c 25-32 (memset 0). *)
Definition list_init {E} (h : heap E) : lst E := mk_lst h 0 None.

(** Dereference: UB ([None]) on NULL or on an unallocated/freed node. *)
Definition deref {E} (h : heap E) (p : option addr) : option (addr * node E) :=
  match p with
  | None => None
  | Some a => match h a with None => None | Some n => Some (a, n) end
  end.

(** [n] times "ntmp = ntmp->next" (the while loops at 140-144, 193-196, 281-284). *)
Fixpoint walk {E} (h : heap E) (n : nat) (p : option addr) : option (option addr) :=
  match n with
  | O => Some p
  | S n' => match deref h p with
            | None => None
            | Some (_, (nx, _)) => walk h n' nx
            end
  end.

(** osip_list_size, osip_list.c 80-87. *)
Definition list_size {E} (l : lst E) : Z := nb_elt l.

(** osip_list_eol, osip_list.c 89-97. *)
Definition list_eol {E} (l : lst E) (i : Z) : Z := if Z.ltb i (nb_elt l) then 0%Z else 1%Z.

(** osip_list_add, osip_list.c 100-174.  [al] is malloc's answer for this call
    ([None] = NULL).  Outer [None] = undefined behaviour. *)
Definition list_add {E} (al : option addr) (l : lst E) (el : E) (pos : Z)
  : option (lst E * Z) :=
  if Z.eqb (nb_elt l) 0 then                                       (* 109-118 *)
    match al with
    | None => Some (mk_lst (mem l) (nb_elt l) None, OSIP_NOMEM)
    | Some a => Some (mk_lst (upd (mem l) a (Some (None, el))) (nb_elt l + 1) (Some a),
                      (nb_elt l + 1)%Z)
    end
  else
    let pos := if orb (Z.eqb pos (-1)) (Z.leb (nb_elt l) pos) then nb_elt l else pos in (* 120-122 *)
    if Z.eqb pos 0 then                                            (* 126-137 *)
      match al with
      | None => Some (l, OSIP_NOMEM)
      | Some a => Some (mk_lst (upd (mem l) a (Some (head l, el))) (nb_elt l + 1) (Some a),
                        (nb_elt l + 1)%Z)
      end
    else
      match walk (mem l) (Z.to_nat (pos - 1)) (head l) with        (* 124, 140-144 *)
      | None => None
      | Some ntmp =>
        match deref (mem l) ntmp with
        | None => None
        | Some (t, (nextnode, te)) =>
          if Z.eqb pos (nb_elt l) then                             (* 147-156 *)
            match al with
            | None => Some (mk_lst (upd (mem l) t (Some (None, te))) (nb_elt l) (head l),
                            OSIP_NOMEM)
            | Some a =>
              Some (mk_lst (upd (upd (mem l) t (Some (Some a, te))) a (Some (None, el)))
                           (nb_elt l + 1) (head l), (nb_elt l + 1)%Z)
            end
          else                                                     (* 159-173 *)
            match al with
            | None => Some (mk_lst (upd (mem l) t (Some (nextnode, te))) (nb_elt l) (head l),
                            OSIP_NOMEM)
            | Some a =>
              Some (mk_lst (upd (upd (mem l) t (Some (Some a, te))) a (Some (nextnode, el)))
                           (nb_elt l + 1) (head l), (nb_elt l + 1)%Z)
            end
        end
      end.

(** osip_list_get, osip_list.c 177-198.  Inner [None] = NULL returned. *)
Definition list_get {E} (l : lst E) (pos : Z) : option (option E) :=
  if orb (Z.ltb pos 0) (Z.leb (nb_elt l) pos) then Some None
  else match walk (mem l) (Z.to_nat pos) (head l) with
       | None => None
       | Some p => match deref (mem l) p with
                   | None => None
                   | Some (_, (_, e)) => Some (Some e)
                   end
       end.

(** osip_list_remove, osip_list.c 258-296.  Freed nodes become unallocated. *)
Definition list_remove {E} (l : lst E) (pos : Z) : option (lst E * Z) :=
  if orb (Z.ltb pos 0) (Z.leb (nb_elt l) pos) then Some (l, OSIP_UNDEFINED_ERROR)
  else if Z.eqb pos 0 then                                         (* 274-279 *)
    match deref (mem l) (head l) with
    | None => None
    | Some (t, (nx, _)) =>
      Some (mk_lst (upd (mem l) t None) (nb_elt l - 1) nx, (nb_elt l - 1)%Z)
    end
  else
    match walk (mem l) (Z.to_nat (pos - 1)) (head l) with          (* 281-284 *)
    | None => None
    | Some p =>
      match deref (mem l) p with
      | None => None
      | Some (t, (nx, te)) =>
        match deref (mem l) nx with                                (* 290-292 *)
        | None => None
        | Some (r, (rnx, _)) =>
          Some (mk_lst (upd (upd (mem l) t (Some (rnx, te))) r None) (nb_elt l - 1) (head l),
                (nb_elt l - 1)%Z)
        end
      end
    end.

(** The place an iterator's [prev] field points to: the list head or a node's next field
    (osip_list.h 70-75). *)
Inductive loc := LHead | LNext (a : addr).

(** osip_list_iterator_t, osip_list.h 70-75 (the [li] field is the list itself). *)
Record iter : Type := mk_iter { actual : option addr; prev : loc; ipos : Z }.

(** osip_list_iterator_has_elem, osip_list.h (macro). *)
Definition has_elem {E} (l : lst E) (it : iter) : bool :=
  match actual it with None => false | Some _ => Z.ltb (ipos it) (nb_elt l) end.

(** osip_list_get_first, osip_list.c 201-215.  [None] = UB; inner option = returned pointer. *)
Definition list_get_first {E} (l : lst E) : option (iter * option E) :=
  if Z.leb (nb_elt l) 0 then Some (mk_iter None LHead 0, None)
  else match deref (mem l) (head l) with
       | None => None
       | Some (_, (_, e)) => Some (mk_iter (head l) LHead 0, Some e)
       end.

(** osip_list_get_next, osip_list.c 218-235. *)
Definition list_get_next {E} (l : lst E) (it : iter) : option (iter * option E) :=
  match actual it with
  | None => Some (it, None)
  | Some a =>
    match mem l a with
    | None => None
    | Some (nx, _) =>
      let it' := mk_iter nx (LNext a) (ipos it + 1) in
      if has_elem l it' then
        match deref (mem l) nx with
        | None => None
        | Some (_, (_, e)) => Some (it', Some e)
        end
      else Some (mk_iter None (LNext a) (ipos it + 1), None)
    end
  end.

(** Store through [prev]. *)
Definition set_prev {E} (l : lst E) (p : loc) (v : option addr) : option (lst E) :=
  match p with
  | LHead => Some (mk_lst (mem l) (nb_elt l) v)
  | LNext a => match mem l a with
               | None => None
               | Some (_, e) => Some (mk_lst (upd (mem l) a (Some (v, e))) (nb_elt l) (head l))
               end
  end.

(** osip_list_iterator_remove, osip_list.c 238-255. *)
Definition list_iterator_remove {E} (l : lst E) (it : iter)
  : option (lst E * iter * option E) :=
  match
    (if has_elem l it then
       match deref (mem l) (actual it) with
       | None => None
       | Some (a, (nx, _)) =>
         match set_prev (mk_lst (mem l) (nb_elt l - 1) (head l)) (prev it) nx with
         | None => None
         | Some l1 => Some (mk_lst (upd (mem l1) a None) (nb_elt l1) (head l1),
                            mk_iter nx (prev it) (ipos it))
         end
       end
     else Some (l, it))
  with
  | None => None
  | Some (l', it') =>
    if has_elem l' it' then
      match deref (mem l') (actual it') with
      | None => None
      | Some (_, (_, e)) => Some (l', it', Some e)
      end
    else Some (l', it', None)
  end.

(** A client loop: visit, and at each visited element either remove it or move on, as the
    client decides ([dec] sees everything visited so far).  Returns the visited elements. *)
Fixpoint visit_loop {E} (fuel : nat) (dec : list E -> E -> bool) (seen : list E)
         (l : lst E) (it : iter) (cur : option E) : option (lst E * list E) :=
  match fuel with
  | O => None
  | S fuel' =>
    if has_elem l it then
      match cur with
      | None => None
      | Some e =>
        if dec seen e then
          match list_iterator_remove l it with
          | None => None
          | Some (l', it', cur') => visit_loop fuel' dec (seen ++ [e]) l' it' cur'
          end
        else
          match list_get_next l it with
          | None => None
          | Some (it', cur') => visit_loop fuel' dec (seen ++ [e]) l it' cur'
          end
      end
    else Some (l, seen)
  end.

Definition visit {E} (fuel : nat) (dec : list E -> E -> bool) (l : lst E)
  : option (lst E * list E) :=
  match list_get_first l with
  | None => None
  | Some (it, cur) => visit_loop fuel dec [] l it cur
  end.

(** Histories of calls. *)
Inductive lop (E : Type) : Type :=
| LAdd (al : option addr) (el : E) (pos : Z)
| LGet (pos : Z)
| LRemove (pos : Z)
| LSize.
Arguments LAdd {E} _ _ _.
Arguments LGet {E} _.
Arguments LRemove {E} _.
Arguments LSize {E}.

(** What a call returned. *)
Inductive lret (E : Type) : Type := RInt (z : Z) | RElt (e : option E).
Arguments RInt {E} z.
Arguments RElt {E} e.

Definition lstep {E} (l : lst E) (o : lop E) : option (lst E * lret E) :=
  match o with
  | LAdd al el pos =>
    match list_add al l el pos with None => None | Some (l', z) => Some (l', RInt z) end
  | LGet pos => match list_get l pos with None => None | Some e => Some (l, RElt e) end
  | LRemove pos =>
    match list_remove l pos with None => None | Some (l', z) => Some (l', RInt z) end
  | LSize => Some (l, RInt (list_size l))
  end.

Fixpoint lrun {E} (l : lst E) (ops : list (lop E)) : option (lst E * list (lret E)) :=
  match ops with
  | [] => Some (l, [])
  | o :: ops' =>
    match lstep l o with
    | None => None
    | Some (l', r) =>
      match lrun l' ops' with None => None | Some (l'', rs) => Some (l'', r :: rs) end
    end
  end.

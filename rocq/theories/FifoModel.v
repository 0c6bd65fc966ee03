(** The event queue: src/osip2/port_fifo.c, multi-thread build (OSIP_MONOTHREAD not defined),
    shared by any number of threads. *)
From Coq Require Import ZArith Bool List.
From Verif Require Import Base.
Import ListNotations.

(** osip_fifo_t: osip_fifo.h 63-75.  The list is a Coq list (C01).  [f_sem] is the value of the
    semaphore qisempty; [f_empty] is the test state == osip_empty. *)
Record fifo (A : Type) := mkFifo { f_queue : list A; f_sem : nat; f_empty : bool }.
Arguments mkFifo {A}. Arguments f_queue {A}. Arguments f_sem {A}. Arguments f_empty {A}.

(** osip_fifo_init: port_fifo.c 29-41 *)
Definition fifo_init {A} : fifo A := mkFifo [] 0 true.

(** osip_fifo_add: port_fifo.c 43-58 (one critical section of qislocked) *)
Definition fifo_add {A} (x : A) (f : fifo A) : fifo A := mkFifo (f_queue f ++ [x]) (S (f_sem f)) false.

(** osip_fifo_insert: port_fifo.c 61-76 *)
Definition fifo_insert {A} (x : A) (f : fifo A) : fifo A := mkFifo (x :: f_queue f) (S (f_sem f)) false.

(** osip_sem_wait at port_fifo.c 103 and osip_sem_trywait at 140: take one unit; [None]: the
    caller blocks (wait) or is refused (trywait). *)
Definition fifo_claim {A} (f : fifo A) : option (fifo A) :=
  match f_sem f with O => None | S n => Some (mkFifo (f_queue f) n (f_empty f)) end.

(** The critical section of osip_fifo_get (port_fifo.c 107-131) and osip_fifo_tryget (143-171)
    after the semaphore was passed: the element, or NULL ([None]) when state is osip_empty. *)
Definition fifo_take {A} (f : fifo A) : option A * fifo A :=
  if f_empty f then (None, f)
  else let q := tl (f_queue f) in
       (hd_error (f_queue f), mkFifo q (f_sem f) (match q with [] => true | _ => false end)).

(** osip_fifo_size: port_fifo.c 79-94 *)
Definition fifo_size {A} (f : fifo A) : nat := length (f_queue f).

(** What a thread is doing: nothing, or between the semaphore and the critical section. *)
Inductive fthread := FIdle | FClaimed.

(** The threads' calls as they interleave.  [LWait]: a thread passes the semaphore in
    osip_fifo_get or osip_fifo_tryget; [LRefused]: osip_fifo_tryget finds it zero and returns
    NULL; [LTake r]: the thread that passed it ends its call, returning [r]. *)
Inductive flabel (A : Type) :=
| LAdd (x : A) | LInsert (x : A) | LWait | LRefused | LTake (r : option A) | LSize (n : nat).
Arguments LAdd {A}. Arguments LInsert {A}. Arguments LWait {A}. Arguments LRefused {A}.
Arguments LTake {A}. Arguments LSize {A}.

Record fsys (A : Type) := FSys { fs_fifo : fifo A; fs_thr : nat -> fthread }.
Arguments FSys {A}. Arguments fs_fifo {A}. Arguments fs_thr {A}.

Definition set_thr (h : nat -> fthread) (i : nat) (x : fthread) : nat -> fthread :=
  fun j => if Nat.eqb j i then x else h j.

(** One atomic step of thread [i] (each call holds the queue mutex during its critical section). *)
Inductive fstep {A} : fsys A -> nat -> flabel A -> fsys A -> Prop :=
| fs_add : forall f h i x, h i = FIdle -> fstep (FSys f h) i (LAdd x) (FSys (fifo_add x f) h)
| fs_ins : forall f h i x, h i = FIdle -> fstep (FSys f h) i (LInsert x) (FSys (fifo_insert x f) h)
| fs_wait : forall f h i f', h i = FIdle -> fifo_claim f = Some f' ->
    fstep (FSys f h) i LWait (FSys f' (set_thr h i FClaimed))
| fs_refused : forall f h i, h i = FIdle -> fifo_claim f = None -> fstep (FSys f h) i LRefused (FSys f h)
| fs_take : forall f h i r f', h i = FClaimed -> fifo_take f = (r, f') ->
    fstep (FSys f h) i (LTake r) (FSys f' (set_thr h i FIdle))
| fs_size : forall f h i, h i = FIdle -> fstep (FSys f h) i (LSize (fifo_size f)) (FSys f h).

Inductive fruns {A} : fsys A -> list (nat * flabel A) -> fsys A -> Prop :=
| fr_nil : forall s, fruns s [] s
| fr_snoc : forall s l s1 i lb s2, fruns s l s1 -> fstep s1 i lb s2 -> fruns s (l ++ [(i, lb)]) s2.

(** A new queue, every thread idle. *)
Definition fsys_init {A} : fsys A := FSys fifo_init (fun _ => FIdle).

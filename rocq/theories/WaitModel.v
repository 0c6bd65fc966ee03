(** The two synchronisation objects oSIP builds itself instead of taking them from the system: the counting semaphore for ARC processors
    (src/osip2/port_sema.c, "__arc__") and the condition variable for Windows (src/osip2/port_condv.c, WIN32).  Any number of threads; one
    step is one operation of the system or one access to the shared data.  A call in the schedule that cannot go on (the mutex is taken, the
    semaphore is 0) has no effect. *)
From Coq Require Import Bool List Arith ZArith.
From Verif Require Import Base.
Import ListNotations.

Definition tid := nat.
Definition upd {A} (f : tid -> A) (t : tid) (a : A) : tid -> A := fun u => if Nat.eqb u t then a else f u.

(** *** The semaphore *)
(** osip_sem_post, osip_sem_wait, osip_sem_trywait *)
Inductive op := Post | Wait | Try.
(** where a thread is: outside; about to lock; holding the mutex; having read the counter; about to unlock, with its answer; in
    osip_usleep *)
Inductive spc := Out | Lock (o : op) | Body (o : op) | Got (o : op) (n : nat) | Unlock (o : op) (ok : bool) | Nap.
(** include/osip2/internal.h 225-228; [cnt] is an int in C: more than 2^31 - 1 posts that nobody took are not modelled *)
Record sem := mkSem { cnt : nat; holder : option tid; spos : tid -> spc }.
(** what a program sees: calls and answers *)
Inductive ev := Call (t : tid) (o : op) | Ret (t : tid) (o : op) (ok : bool).
(** osip_sem_init: port_sema.c 86-100; [value] is not used *)
Definition sem_init (value : nat) : sem := mkSem 0 None (fun _ => Out).
(** osip_sem_post 114-125, osip_sem_wait 127-147, osip_sem_trywait 149-164 *)
Definition sem_move (t : tid) (o : op) (s : sem) : option (sem * list ev) :=
  let at_ p := upd (spos s) t p in
  match spos s t with
  | Out => Some (mkSem (cnt s) (holder s) (at_ (Lock o)), [Call t o])
  | Lock o => match holder s with None => Some (mkSem (cnt s) (Some t) (at_ (Body o)), []) | Some _ => None end
  | Body o => Some (mkSem (cnt s) (holder s) (at_ (Got o (cnt s))), [])
  | Got Post n => Some (mkSem (S n) (holder s) (at_ (Unlock Post true)), [])
  | Got o n => match n with
               | S n => Some (mkSem n (holder s) (at_ (Unlock o true)), [])
               | O => Some (mkSem (cnt s) (holder s) (at_ (Unlock o false)), [])
               end
  | Unlock Wait false => Some (mkSem (cnt s) None (at_ Nap), [])
  | Unlock o ok => Some (mkSem (cnt s) None (at_ Out), [Ret t o ok])
  | Nap => Some (mkSem (cnt s) (holder s) (at_ (Lock Wait)), [])
  end.
(** a schedule: which thread goes on, and what it calls if it is outside *)
Fixpoint sem_run (l : list (tid * op)) (s : sem) : sem * list ev :=
  match l with
  | [] => (s, [])
  | (t, o) :: l =>
    match sem_move t o s with
    | None => sem_run l s
    | Some (s', e) => let r := sem_run l s' in (fst r, e ++ snd r)
    end
  end.

(** *** The condition variable *)
(** where a thread is: outside; owning the mutex of the program; before each statement of osip_cond_wait (port_condv.c 146-176) and of
    osip_cond_timedwait (port_condv.c 211-258) *)
Inductive wpc := Idle | Mine
  | W_lock (* 155 *) | W_release (* 159 *) | W_sleep (* 163 *) | W_again (* 165 *) | W_done (* 167 *)
  | T_release (* 237 *) | T_sleep (* 241 *) | T_again (woken : bool) (* 243 *).
(** the mutex of the program, the mutex and the semaphore inside the condition variable: include/osip2/internal.h 317-320 *)
Record cond := mkCond { mut : option tid; inner : option tid; csem : nat; wpos : tid -> wpc }.
(** osip_cond_init: port_condv.c 105-117 *)
Definition cond_init : cond := mkCond None None 0 (fun _ => Idle).
(** what a thread does next: lock or unlock the mutex of the program, osip_cond_signal, osip_cond_wait, osip_cond_timedwait with so many
    milliseconds to go, or (inside) go on, [Expire]: the time is over *)
Inductive act := DoLock | DoUnlock | DoSignal | DoWait | DoTimed (ms : Z) | Go | Expire.
Inductive cev := Signal (t : tid) | Back (t : tid) (woken : bool).
Definition cond_move (t : tid) (a : act) (s : cond) : option (cond * list cev) :=
  let to p := upd (wpos s) t p in
  match wpos s t, a with
  | Idle, DoLock => match mut s with None => Some (mkCond (Some t) (inner s) (csem s) (to Mine), []) | Some _ => None end
  | Idle, DoSignal | Mine, DoSignal => Some (mkCond (mut s) (inner s) (S (csem s)) (wpos s), [Signal t])  (* 137-143 *)
  | Mine, DoUnlock => Some (mkCond None (inner s) (csem s) (to Idle), [])
  | Mine, DoWait => Some (mkCond (mut s) (inner s) (csem s) (to W_lock), [])
  | Mine, DoTimed ms =>
    if (ms <=? 0)%Z then Some (s, [Back t false])  (* 234-235 *) else Some (mkCond (mut s) (inner s) (csem s) (to T_release), [])
  | W_lock, _ => match inner s with None => Some (mkCond (mut s) (Some t) (csem s) (to W_release), []) | Some _ => None end
  | W_release, _ => Some (mkCond None (inner s) (csem s) (to W_sleep), [])
  | W_sleep, _ => match csem s with S n => Some (mkCond (mut s) (inner s) n (to W_again), []) | O => None end
  | W_again, _ => match mut s with None => Some (mkCond (Some t) (inner s) (csem s) (to W_done), []) | Some _ => None end
  | W_done, _ => Some (mkCond (mut s) None (csem s) (to Mine), [Back t true])
  | T_release, _ => Some (mkCond None (inner s) (csem s) (to T_sleep), [])
  | T_sleep, Expire => Some (mkCond (mut s) (inner s) (csem s) (to (T_again false)), [])
  | T_sleep, _ => match csem s with S n => Some (mkCond (mut s) (inner s) n (to (T_again true)), []) | O => None end
  | T_again w, _ => match mut s with None => Some (mkCond (Some t) (inner s) (csem s) (to Mine), [Back t w]) | Some _ => None end
  | _, _ => None
  end.
Fixpoint cond_run (l : list (tid * act)) (s : cond) : cond * list cev :=
  match l with
  | [] => (s, [])
  | (t, a) :: l =>
    match cond_move t a s with
    | None => cond_run l s
    | Some (s', e) => let r := cond_run l s' in (fst r, e ++ snd r)
    end
  end.

(** _delta_time: port_condv.c 197-208; long and int have 32 bits on Windows, an overflow is undefined *)
Definition fits (z : Z) : res Z := if ((-2147483648 <=? z) && (z <=? 2147483647))%Z then Ok z else UB.
Record timespec := mkTime { tv_sec : Z; tv_nsec : Z }.
Definition delta_time (start stop : timespec) : res Z :=
  res_bind (fits (tv_sec stop - tv_sec start)) (fun d =>
  res_bind (fits (d * 1000)) (fun m =>
  res_bind (fits (tv_nsec stop - tv_nsec start)) (fun n =>
  fits (m + Z.quot n 1000000)))).

(** The tables of callbacks: src/osip2/osip.c 1570-1646 *)
From Coq Require Import ZArith Bool List.
From Verif Require Import Base.
Import ListNotations.
Open Scope Z_scope.

(** the three kinds: of messages, of ended transactions, of transport errors *)
Inductive cb_kind := CbMessage | CbKill | CbError.
(** OSIP_MESSAGE_CALLBACK_COUNT, OSIP_KILL_CALLBACK_COUNT, OSIP_TRANSPORT_ERROR_CALLBACK_COUNT: osip.h 408-499 *)
Definition cb_count (k : cb_kind) : Z := match k with CbMessage => 60 | CbKill => 4 | CbError => 4 end.

(** msg_callbacks, kill_callbacks, tp_error_callbacks of osip_t: osip.h 578-580; functions have numbers, None is NULL *)
Record callbacks := mkCbs { msg_callbacks : list (option nat); kill_callbacks : list (option nat); tp_error_callbacks : list (option nat) }.
(** osip_init clears the structure: osip.c 981 *)
Definition cbs_start : callbacks := mkCbs (repeat None (Z.to_nat (cb_count CbMessage))) (repeat None (Z.to_nat (cb_count CbKill))) (repeat None (Z.to_nat (cb_count CbError))).

(** a[i] = x and a[i], undefined outside of the array *)
Definition arr_set {A} (a : list A) (i : Z) (x : A) : res (list A) :=
  if (i <? 0) || (Z.of_nat (length a) <=? i) then UB else Ok (firstn (Z.to_nat i) a ++ x :: skipn (S (Z.to_nat i)) a).
Definition arr_get {A} (a : list A) (i : Z) : res A :=
  if i <? 0 then UB else match nth_error a (Z.to_nat i) with Some x => Ok x | None => UB end.

(** osip_set_message_callback, osip_set_kill_transaction_callback, osip_set_transport_error_callback: osip.c 1614-1646.
    Result: the tables and the value returned; OSIP_BADPARAMETER is -2 *)
Definition cb_set (c : callbacks) (k : cb_kind) (type : Z) (cb : option nat) : res (callbacks * Z) :=
  if type >=? cb_count k then Ok (c, -2)
  else
    match k with
    | CbMessage => do a <- arr_set (msg_callbacks c) type cb ; Ok (mkCbs a (kill_callbacks c) (tp_error_callbacks c), 0)
    | CbKill => do a <- arr_set (kill_callbacks c) type cb ; Ok (mkCbs (msg_callbacks c) a (tp_error_callbacks c), 0)
    | CbError => do a <- arr_set (tp_error_callbacks c) type cb ; Ok (mkCbs (msg_callbacks c) (kill_callbacks c) a, 0)
    end.

(** __osip_message_callback, __osip_kill_transaction_callback, __osip_transport_error_callback: osip.c 1570-1611.
    Result: the function called, if any, with the type it is given; the other arguments are passed on as they are *)
Definition cb_call (c : callbacks) (k : cb_kind) (type : Z) : res (option (nat * Z)) :=
  if type >=? cb_count k then Ok None
  else
    do f <- arr_get (match k with CbMessage => msg_callbacks c | CbKill => kill_callbacks c | CbError => tp_error_callbacks c end) type ;
    Ok (match f with None => None | Some f => Some (f, type) end).

(** Specification side of C73: what each application is told, what each application handed over. *)
From Coq Require Import String ZArith Ascii Bool List.
From Verif Require Import Base Str Types TimeModel PortModel CloneModel TransModel TransSpec TransProps PairModel.
Import ListNotations.
Open Scope Z_scope.

(** Everything a side did, in order *)
Definition did (l : list ran) : list out := flat_map r_out l.

(** The application of this side handed [m] to its transaction. *)
Definition handed (l : list ran) (m : msg) : Prop :=
  exists r, In r l /\ new_outgoing (Some m) = Some (r_ev r).

(** The application of the server is told of a new request. *)
Definition is_new (o : out) : bool := is_invite_announced o || is_request_announced o.

(** The application of the server is told of an ACK. *)
Definition is_ack_told (o : out) : bool :=
  match o with OCb (IST_ACK_RECEIVED | IST_ACK_RECEIVED_AGAIN) _ => true | _ => false end.

(** The application of the server is told that its final answer [m] was sent. *)
Definition final_sent (m : msg) (o : out) : Prop :=
  exists c, o = OCb c (Some m) /\
  In c [IST_STATUS_2XX_SENT; IST_STATUS_3XX_SENT; IST_STATUS_4XX_SENT; IST_STATUS_5XX_SENT; IST_STATUS_6XX_SENT;
        IST_STATUS_2XX_SENT_AGAIN; IST_STATUS_3456XX_SENT_AGAIN;
        NIST_STATUS_2XX_SENT; NIST_STATUS_3XX_SENT; NIST_STATUS_4XX_SENT; NIST_STATUS_5XX_SENT; NIST_STATUS_6XX_SENT;
        NIST_STATUS_2XX_SENT_AGAIN; NIST_STATUS_3456XX_SENT_AGAIN].

(** The application of the client is told of a final answer, or of its copy. *)
Definition final_names : list cb :=
  [ICT_STATUS_2XX_RECEIVED; ICT_STATUS_3XX_RECEIVED; ICT_STATUS_4XX_RECEIVED; ICT_STATUS_5XX_RECEIVED;
   ICT_STATUS_6XX_RECEIVED;
   NICT_STATUS_2XX_RECEIVED; NICT_STATUS_3XX_RECEIVED; NICT_STATUS_4XX_RECEIVED; NICT_STATUS_5XX_RECEIVED;
   NICT_STATUS_6XX_RECEIVED].
Definition final_told (m : msg) (o : out) : Prop := exists c, o = OCb c (Some m) /\ In c final_names.

(** The application of the client is told of any answer. *)
Definition answer_told (m : msg) (o : out) : Prop :=
  exists c, o = OCb c (Some m) /\
  In c (final_names ++ [ICT_STATUS_1XX_RECEIVED; NICT_STATUS_1XX_RECEIVED; ICT_STATUS_2XX_RECEIVED_AGAIN;
        ICT_STATUS_3456XX_RECEIVED_AGAIN; NICT_STATUS_2XX_RECEIVED_AGAIN; NICT_STATUS_3456XX_RECEIVED_AGAIN]).

Definition is_final_told (o : out) : bool :=
  match o with
  | OCb (ICT_STATUS_2XX_RECEIVED | ICT_STATUS_3XX_RECEIVED | ICT_STATUS_4XX_RECEIVED | ICT_STATUS_5XX_RECEIVED
         | ICT_STATUS_6XX_RECEIVED | NICT_STATUS_2XX_RECEIVED | NICT_STATUS_3XX_RECEIVED | NICT_STATUS_4XX_RECEIVED
         | NICT_STATUS_5XX_RECEIVED | NICT_STATUS_6XX_RECEIVED) _ => true
  | _ => false
  end.

(** A client transaction as osip_transaction_init leaves it. *)
Definition client (t : trans) : Prop := fresh t /\ (t_type t = ICT \/ t_type t = NICT).

(** [p] is what some moves lead to from a client transaction just created. *)
Definition reached (t0 : trans) (l : list move) (p : pair) : Prop := client t0 /\ plays (begin t0) l = Ok p.

(** The network delivers nothing that was sent before [p]. *)
Definition from_now (p : pair) (mv : move) : Prop :=
  match mv with
  | CNet _ _ i => (length (wire (p_sall p)) <= i)%nat
  | SNet _ _ i => (length (wire (p_clog p)) <= i)%nat
  | _ => True
  end.
Definition no_forget (mv : move) : Prop := mv <> Forget.

(** The clock of a move *)
Definition clock_ok (mv : move) : Prop :=
  match mv with
  | CApp e _ | CNet e _ _ | CTimer e _ | SApp e _ | SNet e _ _ | STimer e _ => tv_ok (e_now e)
  | Forget => True
  end.

(** The transport of a message, by its top Via, does not deliver reliably. *)
Definition unreliable (m : message) : Prop := exists q, top_proto m = Proto q /\ reliable q = false.

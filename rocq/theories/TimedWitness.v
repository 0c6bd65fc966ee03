(** Concrete histories in real time: each theorem of TimedIct, TimedEnd, TimedIst and TimedNict has
    histories that meet its hypotheses, and the statements that hold only when timers are polled
    with an empty queue fail otherwise. *)
From Coq Require Import String ZArith Ascii Bool List Lia ZifyBool.
From Verif Require Import Base Str StrLemmas Types TimeModel TimeProps PortModel CloneModel TransModel TransSpec
  MatchModel DialogModel StackModel TransProofs TransSteps TransProps TransServer
  TimedSpec TimedIct TimedGen TimedEnd TimedIst TimedNict.
Import ListNotations.
Open Scope Z_scope.

(** ** Running a script *)
Inductive act := AAdd (ev : event) | APoll (now : timeval) | AExec (e : env).

Definition tv_okb (t : timeval) : bool := (0 <=? tv_sec t) && (0 <=? tv_usec t) && (tv_usec t <? 1000000).
Definition laterb (a b : timeval) : bool := tv_okb b && (usecs a <=? usecs b).

Fixpoint play (idle : bool) (k : fsm) (en : entry) (now : timeval) (tr : list stamped) (l : list act)
  : option (entry * timeval * list stamped) :=
  match l with
  | [] => Some (en, now, tr)
  | AAdd ev :: r => if is_timeout (ev_type ev) then None else play idle k (En (en_t en) (en_q en ++ [ev])) now tr r
  | APoll now' :: r =>
      if laterb now now' && (negb idle || fsm_eqb k ICT || match en_q en with [] => true | _ => false end)
      then play idle k (poll_entry k now' en) now' tr r else None
  | AExec e :: r =>
      match en_q en with
      | [] => None
      | ev :: q =>
          if laterb now (e_now e) then
            match execute e (en_t en) ev with
            | Ok (_, t', o) => play idle k (En t' q) (e_now e) (tr ++ map (pair (usecs (e_now e))) o) r
            | _ => None
            end
          else None
      end
  end.

Lemma laterb_later : forall a b, laterb a b = true -> later a b.
Proof. intros a b H. unfold laterb, tv_okb in H. unfold later, tv_ok. lia. Qed.

Definition added (l : list act) : list event := flat_map (fun a => match a with AAdd ev => [ev] | _ => [] end) l.

Lemma play_timed : forall idle k c m l en now tr en' now' tr', timed idle k c m en now tr -> Forall api_event (added l) ->
  play idle k en now tr l = Some (en', now', tr') -> timed idle k c m en' now' tr'.
Proof.
  intros idle k c m. induction l as [|a l IH]; intros en now tr en' now' tr' T A H.
  - injection H as <- <- <-. exact T.
  - destruct a as [ev|p|e]; cbn in A, H.
    + inversion A as [|? ? A1 A2]; subst. destruct (is_timeout (ev_type ev)) eqn:X; [discriminate|]. destruct en as [t q].
      eapply IH; [|exact A2|exact H]. apply tm_add; auto.
    + destruct (laterb now p && (negb idle || fsm_eqb k ICT || match en_q en with [] => true | _ => false end)) eqn:X; [|discriminate].
      eapply IH; [|exact A|exact H]. apply andb_prop in X as [X1 X2]. eapply tm_poll; [exact T|apply laterb_later, X1|].
      intros ->. destruct k; cbn in X2; auto; right; destruct (en_q en); auto; discriminate.
    + destruct en as [t [|ev q]]; cbn [en_q en_t] in H; [discriminate|]. destruct (laterb now (e_now e)) eqn:X; [|discriminate].
      destruct (execute e t ev) as [[[r t'] o]| |] eqn:X2; try discriminate.
      eapply IH; [|exact A|exact H]. eapply tm_exec; eauto. apply laterb_later, X.
Qed.

(** ** Scripts; the transactions are created at time 100 s *)
Definition start (k : fsm) (m : message) : entry :=
  En (match trans_init k (TV 100 0) 1 (Some m) with Ok t => t | _ => ex_t k end) [].
Lemma start_timed : forall idle k m, (exists t, trans_init k (TV 100 0) 1 (Some m) = Ok t) -> timed idle k (TV 100 0) m (start k m) (TV 100 0) [].
Proof. intros idle k m [t H]. unfold start. rewrite H. eapply tm_init; [unfold tv_ok; cbn; lia|exact H]. Qed.

Definition at_ (s us : Z) : env := mkEnv (TV s us) 0 1000.
Definition fails_at (s us : Z) : env := mkEnv (TV s us) 1 1000.

Ltac apis := repeat (apply Forall_cons; [api_ev|]); apply Forall_nil.
Lemma script_ok : forall idle k m l (P : entry -> timeval -> list stamped -> Prop),
  (exists t, trans_init k (TV 100 0) 1 (Some m) = Ok t) -> Forall api_event (added l) ->
  match play idle k (start k m) (TV 100 0) [] l with Some (en, now, tr) => P en now tr | None => False end ->
  exists en now tr, timed idle k (TV 100 0) m en now tr /\ P en now tr.
Proof.
  intros idle k m l P H A X. destruct (play idle k (start k m) (TV 100 0) [] l) as [[[en now] tr]|] eqn:Y; [|contradiction].
  exists en, now, tr. split; [|exact X]. eapply play_timed; [apply start_timed; exact H|exact A|exact Y].
Qed.
Ltac script l :=
  apply (script_ok _ _ _ l);
    [ eexists; vm_compute; reflexivity | unfold added; cbn; apis | vm_compute ].

Notation rq n m := (Some (Msg n m)) (only parsing).
Definition UDP := ex_via ($"UDP").
Definition udp_invite := ex_invite ($"UDP").
Definition tcp_invite := ex_invite ($"TCP").
Definition ex_opt (p : str) : message := ex_msg (Some ($"SIP/2.0")) (Some ($"OPTIONS")) 0 (ex_via p) ex_to ($"OPTIONS").
Definition ex_ack : message := ex_msg (Some ($"SIP/2.0")) (Some ($"ACK")) 0 UDP ex_to ($"ACK").

(** C12: sent at 100 s, again 0.6 s and 1.7 s later, answered 486, ended by timer D. *)
Definition ict_script : list act :=
  [ AAdd (Ev SND_REQINVITE (rq 1 udp_invite)); AExec (at_ 100 0);
    APoll (TV 100 400000); APoll (TV 100 600000); AExec (at_ 100 600000);
    APoll (TV 101 700000); AExec (at_ 101 700000);
    AAdd (Ev RCV_STATUS_3456XX (rq 2 (ex_resp 486 ($"UDP")))); AExec (at_ 102 0);
    APoll (TV 134 0); APoll (TV 134 1); AExec (at_ 134 1) ].
Example C12_witness : exists en now tr, timed true ICT (TV 100 0) udp_invite en now tr /\
  times is_invite_send tr = [100000000; 100600000; 101700000] /\ times is_ack_sent tr = [102000000] /\
  times is_kill tr = [134000001] /\ times is_tperr tr = [].
Proof. script ict_script. repeat split. Qed.

(** C12_retransmits: still waiting after the first retransmission. *)
Example C12_retransmits_witness : exists en now tr, timed true ICT (TV 100 0) udp_invite en now tr /\
  en_q en = [] /\ t_state (en_t en) = ICT_CALLING /\ times is_invite_send tr = [100000000; 100600000].
Proof.
  script [ AAdd (Ev SND_REQINVITE (rq 1 udp_invite)); AExec (at_ 100 0); APoll (TV 100 600000); AExec (at_ 100 600000) ].
  repeat split.
Qed.
(** C12_times_out, C12_timeout_not_before *)
Example C12_timeout_witness : exists en now tr, timed true ICT (TV 100 0) udp_invite en now tr /\
  times is_ict_timeout tr = [132000001].
Proof. script [ AAdd (Ev SND_REQINVITE (rq 1 udp_invite)); AExec (at_ 100 0); APoll (TV 132 1); AExec (at_ 132 1) ]. repeat split. Qed.
(** C12_reliable: over TCP *)
Example C12_reliable_witness : exists en now tr, timed true ICT (TV 100 0) tcp_invite en now tr /\
  times is_invite_send tr = [100000000] /\ t_state (en_t en) = ICT_CALLING /\ reliable_top tcp_invite.
Proof.
  script [ AAdd (Ev SND_REQINVITE (rq 1 tcp_invite)); AExec (at_ 100 0); APoll (TV 131 0) ].
  repeat split. eexists _, _, _. repeat split.
Qed.

(** C12 as stated counts from the first send; the code counts from the creation of the transaction. *)
Theorem C12_refuted : exists en now tr, timed true ICT (TV 100 0) udp_invite en now tr /\
  times is_invite_send tr = [100400000; 100500001] /\ 100500001 < 100400000 + ms T1.
Proof.
  script [ AAdd (Ev SND_REQINVITE (rq 1 udp_invite)); AExec (at_ 100 400000); APoll (TV 100 500001); AExec (at_ 100 500001) ].
  repeat split.
Qed.

(** C14: refused with 486, resent after 0.6 s and 1.7 s, acknowledged, ended by timer I. *)
Definition ist_script : list act :=
  [ AAdd (Ev RCV_REQINVITE (rq 1 udp_invite)); AExec (at_ 100 0);
    AAdd (Ev SND_STATUS_3456XX (rq 2 (ex_resp 486 ($"UDP")))); AExec (at_ 101 0);
    APoll (TV 101 600000); AExec (at_ 101 600000); APoll (TV 102 700000); AExec (at_ 102 700000) ].
Example C14_witness : exists en now tr, timed true IST (TV 100 0) udp_invite en now tr /\
  times is_ist_refused tr = [101000000] /\ resends false false tr = [101600000; 102700000] /\ via_reliable udp_invite = false.
Proof. script ist_script. repeat split. Qed.
Example C14_ack_witness : exists en now tr, timed true IST (TV 100 0) udp_invite en now tr /\
  times is_ack_received tr = [103000000] /\ times is_kill tr = [108000001] /\ times is_tperr tr = [].
Proof. script (ist_script ++ [AAdd (Ev RCV_REQACK (rq 3 ex_ack)); AExec (at_ 103 0); APoll (TV 108 0); APoll (TV 108 1); AExec (at_ 108 1)]). repeat split. Qed.
Example C14_H_witness : exists en now tr, timed true IST (TV 100 0) udp_invite en now tr /\
  times is_ist_refused tr = [101000000] /\ times is_kill tr = [133000001] /\ times is_tperr tr = [] /\ times is_ack_received tr = [].
Proof. script (ist_script ++ [APoll (TV 133 1); AExec (at_ 133 1)]). repeat split. Qed.

(** When timers are polled twice before the queue is worked off, an answer is resent at once. *)
Theorem C14_refuted : exists en now tr, timed false IST (TV 100 0) udp_invite en now tr /\
  times is_ist_refused tr = [101000000] /\ resends false false tr = [101700000; 101700001] /\ 101700001 < 101700000 + ms T1.
Proof.
  script [ AAdd (Ev RCV_REQINVITE (rq 1 udp_invite)); AExec (at_ 100 0);
    AAdd (Ev SND_STATUS_3456XX (rq 2 (ex_resp 486 ($"UDP")))); AExec (at_ 101 0);
    APoll (TV 101 600000); APoll (TV 101 700000); AExec (at_ 101 700000); AExec (at_ 101 700001) ].
  repeat split.
Qed.
(** ... and timer I can end the transaction right after an ACK. *)
Theorem C14_timer_I_refuted : exists en now tr, timed false IST (TV 100 0) udp_invite en now tr /\
  times is_ack_received tr = [103000000; 108000002] /\ times is_kill tr = [108000003] /\ times is_tperr tr = [] /\
  108000003 < 108000002 + ms T4.
Proof.
  script (ist_script ++ [AAdd (Ev RCV_REQACK (rq 3 ex_ack)); AExec (at_ 103 0); AAdd (Ev RCV_REQACK (rq 4 ex_ack)); APoll (TV 108 1);
    AExec (at_ 108 2); AExec (at_ 108 3)]).
  repeat split.
Qed.

(** C15: OPTIONS resent after 0.6 s, then T2 after a 180; answered; ended by timer K. *)
Definition nict_script : list act :=
  [ AAdd (Ev SND_REQUEST (rq 1 (ex_opt ($"UDP")))); AExec (at_ 100 0);
    APoll (TV 100 600000); AExec (at_ 100 600000);
    AAdd (Ev RCV_STATUS_1XX (rq 2 (ex_resp 180 ($"UDP")))); AExec (at_ 101 0);
    APoll (TV 104 900000); APoll (TV 105 1); AExec (at_ 105 1) ].
Example C15_witness : exists en now tr, timed true NICT (TV 100 0) (ex_opt ($"UDP")) en now tr /\
  times is_send tr = [100000000; 100600000; 105000001] /\ (exists r, first_send tr = Some (100000000, Msg 1 (ex_opt ($"UDP")), r)) /\
  t_state (en_t en) = NICT_PROCEEDING /\ en_q en = [] /\ unreliable_top (ex_opt ($"UDP")).
Proof. script nict_script. repeat split; [eexists; reflexivity|]. eexists _, _, _. repeat split. Qed.
Example C15_final_witness : exists en now tr, timed true NICT (TV 100 0) (ex_opt ($"UDP")) en now tr /\
  times is_nict_final tr = [106000000] /\ times is_kill tr = [111000001] /\ times is_tperr tr = [].
Proof. script (nict_script ++ [AAdd (Ev RCV_STATUS_2XX (rq 3 (ex_resp 200 ($"UDP")))); AExec (at_ 106 0); APoll (TV 111 1); AExec (at_ 111 1)]). repeat split. Qed.
Example C15_timeout_witness : exists en now tr, timed true NICT (TV 100 0) (ex_opt ($"UDP")) en now tr /\
  times is_nict_timeout tr = [132000001].
Proof. script (nict_script ++ [APoll (TV 132 1); AExec (at_ 132 1)]). repeat split. Qed.
Example C15_reliable_witness : exists en now tr, timed true NICT (TV 100 0) (ex_opt ($"TCP")) en now tr /\
  times is_send tr = [100000000] /\ t_state (en_t en) = NICT_TRYING /\ reliable_top (ex_opt ($"TCP")).
Proof. script [ AAdd (Ev SND_REQUEST (rq 1 (ex_opt ($"TCP")))); AExec (at_ 100 0); APoll (TV 131 0) ]. repeat split. eexists _, _, _. repeat split. Qed.

Theorem C15_refuted : exists en now tr, timed false NICT (TV 100 0) (ex_opt ($"UDP")) en now tr /\
  times is_send tr = [100000000; 100700000; 100700001] /\ 100700001 < 100700000 + ms T1.
Proof.
  script [ AAdd (Ev SND_REQUEST (rq 1 (ex_opt ($"UDP")))); AExec (at_ 100 0);
    APoll (TV 100 600000); APoll (TV 100 700000); AExec (at_ 100 700000); AExec (at_ 100 700001) ].
  repeat split.
Qed.

(** C16: answered 200 at 101 s, ended by timer J. *)
Example C16_J_witness : exists en now tr, timed true NIST (TV 100 0) (ex_opt ($"UDP")) en now tr /\
  times is_nist_final tr = [101000000] /\ times is_kill tr = [133000001] /\ times is_tperr tr = [].
Proof.
  script [ AAdd (Ev RCV_REQUEST (rq 1 (ex_opt ($"UDP")))); AExec (at_ 100 0);
    AAdd (Ev SND_STATUS_2XX (rq 2 (ex_resp 200 ($"UDP")))); AExec (at_ 101 0); APoll (TV 133 0); APoll (TV 133 1); AExec (at_ 133 1) ].
  repeat split.
Qed.

(** C66: freeing a structure releases exactly the memory it owns, once. *)
From Coq Require Import String ZArith NArith Ascii Bool List Lia.
From Verif Require Import Base Str CloneHeap CloneSpec CloneHeapProofs CloneProps FreeHeap FreeSpec FreeHeapProofs.
Import ListNotations.
Local Open Scope nat_scope.

(** auth_param is not freed: these are the structures in which it was never set (the library itself never sets it) *)
Definition www_own us := at_ 11 us = Nul.
Definition authz_own us := at_ 17 us = Nul.
Definition message_own us := all authz_own (at_ 11 us) /\ all authz_own (at_ 24 us) /\ all www_own (at_ 22 us) /\ all www_own (at_ 29 us).
Definition event_own us := opt message_own (at_ 2 us).
Definition fifo_own us := all event_own (at_ 2 us).
(** only the context of the transaction's own type is allocated, as osip_transaction_init does *)
Definition transaction_own us := opt fifo_own (at_ 2 us) /\ opt message_own (at_ 8 us) /\ opt message_own (at_ 9 us) /\ opt message_own (at_ 10 us) /\
  exists z, at_ 17 us = Num z /\ (z <> 0%Z -> at_ 18 us = Nul) /\ (z <> 1%Z -> at_ 19 us = Nul) /\ (z <> 2%Z -> at_ 20 us = Nul) /\ (z <> 3%Z -> at_ 21 us = Nul) /\ (0 <= z <= 3)%Z.
Definition ixt_own us := opt message_own (at_ 1 us) /\ opt message_own (at_ 2 us).

Definition owned fs p us := spare fs p us /\ owns fs p us.
Lemma spare_all : forall fs p us, forallb (fun i => match nth_error fs i with Some KStr => mem i (ftargets p) | _ => true end) (seq 0 (length fs)) = true -> spare fs p us.
Proof.
  intros fs p us B i s K _. rewrite forallb_forall in B. assert (i < length fs) as L by (apply nth_error_Some; congruence). specialize (B i ltac:(apply in_seq; lia)). rewrite K in B. apply mem_in. exact B.
Qed.
Lemma spare_but : forall fs p us j, forallb (fun i => match nth_error fs i with Some KStr => mem i (j :: ftargets p) | _ => true end) (seq 0 (length fs)) = true -> at_ j us = Nul -> spare fs p us.
Proof.
  intros fs p us j B N i s K T. rewrite forallb_forall in B. assert (i < length fs) as L by (apply nth_error_Some; congruence). specialize (B i ltac:(apply in_seq; lia)). rewrite K in B. apply mem_in in B.
  destruct B as [->|B]; [|exact B]. apply at_nth in T. congruence.
Qed.
Lemma sub_any : forall fs i p us, (forall gs, nth_error fs i = Some (KRec gs) -> forall vs, owned gs p vs) -> owns_op fs (FreeSub i p) us.
Proof. intros fs i p us H gs vs K T. exact (H gs K vs). Qed.
Lemma sub_if : forall (ok : list tree -> Prop) fs i p us, opt ok (at_ i us) -> (forall gs, nth_error fs i = Some (KRec gs) -> forall vs, ok vs -> owned gs p vs) -> owns_op fs (FreeSub i p) us.
Proof. intros ok fs i p us O H gs vs K T. apply (H gs K vs). apply O. exact (at_nth _ _ _ T). Qed.
Lemma each_any : forall fs i p us, (forall gs, nth_error fs i = Some (KList gs) -> forall vs, owned gs p vs) -> owns_op fs (FreeEach i p) us.
Proof. intros fs i p us H gs l vs K T I. exact (H gs K vs). Qed.
Lemma each_if : forall (ok : list tree -> Prop) fs i p us, all ok (at_ i us) -> (forall gs, nth_error fs i = Some (KList gs) -> forall vs, ok vs -> owned gs p vs) -> owns_op fs (FreeEach i p) us.
Proof. intros ok fs i p us O H gs l vs K T I. apply (H gs K vs). apply (O l); [exact (at_nth _ _ _ T)|exact I]. Qed.
Ltac leaf := split; [apply spare_all; vm_compute; reflexivity|repeat split].
Lemma param_owned : forall us, owned param_fields param_free us. Proof. intros. leaf. Qed.
Ltac kind := let gs := fresh "gs" in let K := fresh "K" in intros gs K; vm_compute in K; injection K as <-.
Ltac here := match goal with
  | |- owns_op _ (FreeEach _ param_free) _ => apply each_any; kind; exact param_owned
  | |- _ => exact I
  end.
Ltac walk := hnf; lazymatch goal with |- _ /\ _ => split; [|walk] | |- True => exact I end.
Ltac go := split; [apply spare_all; vm_compute; reflexivity|walk].
Lemma uri_owned : forall us, owned uri_fields uri_free us. Proof. intros. go; here. Qed.
Lemma from_owned : forall us, owned from_fields from_free us. Proof. intros. go; try here. apply sub_any. kind. exact uri_owned. Qed.
Lemma via_owned : forall us, owned via_fields via_free us. Proof. intros. go; here. Qed.
Lemma cseq_owned : forall us, owned cseq_fields cseq_free us. Proof. intros. leaf. Qed.
Lemma call_id_owned : forall us, owned call_id_fields call_id_free us. Proof. intros. leaf. Qed.
Lemma content_length_owned : forall us, owned content_length_fields content_length_free us. Proof. intros. leaf. Qed.
Lemma content_type_owned : forall us, owned content_type_fields content_type_free us. Proof. intros. go; here. Qed.
Lemma elem_owned : forall us, owned elem_fields elem_free us. Proof. intros. go; here. Qed.
Lemma header_owned : forall us, owned header_fields header_free us. Proof. intros. leaf. Qed.
Lemma authinfo_owned : forall us, owned authinfo_fields authinfo_free us. Proof. intros. leaf. Qed.
Lemma www_owned : forall us, www_own us -> owned www_fields www_free us.
Proof. intros us H. split; [apply (spare_but _ _ _ 11); [vm_compute; reflexivity|exact H]|repeat split]. Qed.
Lemma authz_owned : forall us, authz_own us -> owned authz_fields authz_free us.
Proof. intros us H. split; [apply (spare_but _ _ _ 17); [vm_compute; reflexivity|exact H]|repeat split]. Qed.
Lemma headers_owned : forall us, owned [KList header_fields] headers_free us. Proof. intros. go; try here. apply each_any. kind. exact header_owned. Qed.
Lemma body_owned : forall us, owned body_fields body_free us.
Proof. intros. go; try here; apply sub_any; kind; [exact content_type_owned|exact headers_owned]. Qed.
Ltac any := first [apply sub_any | apply each_any]; kind;
  first [exact uri_owned|exact from_owned|exact via_owned|exact cseq_owned|exact call_id_owned|exact content_length_owned|exact content_type_owned|exact elem_owned|exact header_owned|exact authinfo_owned|exact body_owned].
Lemma message_owned : forall us, message_own us -> owned message_fields message_free us.
Proof.
  intros us (A & B & C & D). go; first [exact I|any|apply (each_if authz_own); [assumption|kind; exact authz_owned]|apply (each_if www_own); [assumption|kind; exact www_owned]].
Qed.
Lemma pair_owned : forall us, owned pair_fields pair_free us. Proof. intros. leaf. Qed.
Lemma time_descr_owned : forall us, owned time_descr_fields time_descr_free us. Proof. intros. leaf. Qed.
Lemma connection_owned : forall us, owned connection_fields connection_free us. Proof. intros. leaf. Qed.
Ltac sdp_any := first [apply sub_any | apply each_any]; kind; first [exact pair_owned|exact time_descr_owned|exact connection_owned].
Lemma media_owned : forall us, owned media_fields media_free us. Proof. intros. go; first [exact I|sdp_any]. Qed.
Lemma sdp_owned : forall us, owned sdp_fields sdp_free us. Proof. intros. go; first [exact I|sdp_any|apply each_any; kind; exact media_owned]. Qed.
Lemma dialog_owned : forall us, owned dialog_fields dialog_free us. Proof. intros. go; first [exact I|any]. Qed.
Lemma event_owned : forall us, event_own us -> owned event_fields event_free us.
Proof. intros us H. go; try here. apply (sub_if message_own); [exact H|kind; exact message_owned]. Qed.
Lemma queued_owned : forall us, event_own us -> owned event_fields [FreeSub 2 message_free; FreeSelf] us.
Proof. intros us H. go; try here. apply (sub_if message_own); [exact H|kind; exact message_owned]. Qed.
Lemma fifo_owned : forall us, fifo_own us -> owned fifo_fields fifo_free us.
Proof. intros us H. go; try here. apply (each_if event_own); [exact H|kind; exact queued_owned]. Qed.
Lemma client_owned : forall us, owned client_fields client_free us. Proof. intros. leaf. Qed.
Lemma ist_owned : forall us, owned ist_fields server_free us. Proof. intros. leaf. Qed.
Lemma nist_owned : forall us, owned nist_fields server_free us. Proof. intros. leaf. Qed.
Lemma transaction_owned : forall us, transaction_own us -> owned transaction_fields transaction_free2 us.
Proof.
  intros us (A & B & C & D & z & Z & N0 & N1 & N2 & N3 & R). go; try exact I; try any.
  1-4: split; [intros gs vs K T; vm_compute in K; injection K as <-; first [apply client_owned|apply ist_owned|apply nist_owned]|].
  1-4: intros z' vs T1 T2; apply at_nth in T1; apply at_nth in T2; assert (z' = z) as -> by congruence.
  - destruct (Z.eqb_spec z 0) as [E|E]; [reflexivity|]. rewrite (N0 E) in T2. discriminate.
  - destruct (Z.eqb_spec z 1) as [E|E]; [reflexivity|]. rewrite (N1 E) in T2. discriminate.
  - destruct (Z.eqb_spec z 2) as [E|E]; [reflexivity|]. rewrite (N2 E) in T2. discriminate.
  - destruct (Z.eq_dec z 3) as [->|E]; [reflexivity|]. rewrite (N3 E) in T2. discriminate.
  - apply (sub_if fifo_own); [exact A|kind; exact fifo_owned].
  - apply (sub_if message_own); [exact B|kind; exact message_owned].
  - apply (sub_if message_own); [exact C|kind; exact message_owned].
  - apply (sub_if message_own); [exact D|kind; exact message_owned].
Qed.
Lemma ixt_owned : forall us, ixt_own us -> owned ixt_fields ixt_free us.
Proof. intros us (A & B). go; try exact I; apply (sub_if message_own); auto; kind; exact message_owned. Qed.

Ltac freeing H := destruct H as [SP OW]; apply destroy_destroyed; [vm_compute; reflexivity|exact SP|exact OW].
(** osip_uri_param_free, osip_generic_param_free *)
Theorem C66_param : forall us, destroyed (destroy param_free) param_fields us.
Proof. intros us. freeing (param_owned us). Qed.
(** osip_uri_free *)
Theorem C66_uri : forall us, destroyed (destroy uri_free) uri_fields us.
Proof. intros us. freeing (uri_owned us). Qed.
(** osip_from_free, osip_to_free, osip_contact_free, osip_route_free, osip_record_route_free *)
Theorem C66_from : forall us, destroyed (destroy from_free) from_fields us.
Proof. intros us. freeing (from_owned us). Qed.
(** osip_via_free *)
Theorem C66_via : forall us, destroyed (destroy via_free) via_fields us.
Proof. intros us. freeing (via_owned us). Qed.
(** osip_cseq_free *)
Theorem C66_cseq : forall us, destroyed (destroy cseq_free) cseq_fields us.
Proof. intros us. freeing (cseq_owned us). Qed.
(** osip_call_id_free *)
Theorem C66_call_id : forall us, destroyed (destroy call_id_free) call_id_fields us.
Proof. intros us. freeing (call_id_owned us). Qed.
(** osip_content_length_free, osip_allow_free, osip_content_encoding_free, osip_mime_version_free *)
Theorem C66_content_length : forall us, destroyed (destroy content_length_free) content_length_fields us.
Proof. intros us. freeing (content_length_owned us). Qed.
(** osip_content_type_free, osip_accept_free *)
Theorem C66_content_type : forall us, destroyed (destroy content_type_free) content_type_fields us.
Proof. intros us. freeing (content_type_owned us). Qed.
(** osip_accept_encoding_free, osip_accept_language_free, osip_call_info_free, osip_alert_info_free, osip_error_info_free *)
Theorem C66_elem : forall us, destroyed (destroy elem_free) elem_fields us.
Proof. intros us. freeing (elem_owned us). Qed.
(** osip_header_free *)
Theorem C66_header : forall us, destroyed (destroy header_free) header_fields us.
Proof. intros us. freeing (header_owned us). Qed.
(** osip_authentication_info_free, osip_proxy_authentication_info_free *)
Theorem C66_authinfo : forall us, destroyed (destroy authinfo_free) authinfo_fields us.
Proof. intros us. freeing (authinfo_owned us). Qed.
(** osip_www_authenticate_free, osip_proxy_authenticate_free: when auth_param is NULL *)
Theorem C66_www_partial : forall us, www_own us -> destroyed (destroy www_free) www_fields us.
Proof. intros us H. freeing (www_owned us H). Qed.
(** osip_authorization_free, osip_proxy_authorization_free: when auth_param is NULL *)
Theorem C66_authz_partial : forall us, authz_own us -> destroyed (destroy authz_free) authz_fields us.
Proof. intros us H. freeing (authz_owned us H). Qed.
(** osip_body_free *)
Theorem C66_body : forall us, destroyed (destroy body_free) body_fields us.
Proof. intros us. freeing (body_owned us). Qed.
(** osip_message_free: when auth_param is NULL in all its credentials *)
Theorem C66_message_partial : forall us, message_own us -> destroyed (destroy message_free) message_fields us.
Proof. intros us H. freeing (message_owned us H). Qed.
(** sdp_message_free *)
Theorem C66_sdp : forall us, destroyed (destroy sdp_free) sdp_fields us.
Proof. intros us. freeing (sdp_owned us). Qed.
(** osip_dialog_free *)
Theorem C66_dialog : forall us, destroyed (destroy dialog_free) dialog_fields us.
Proof. intros us. freeing (dialog_owned us). Qed.
(** osip_event_free *)
Theorem C66_event_partial : forall us, event_own us -> destroyed (destroy event_free) event_fields us.
Proof. intros us H. freeing (event_owned us H). Qed.
(** osip_transaction_free2 *)
Theorem C66_transaction_partial : forall us, transaction_own us -> destroyed (destroy transaction_free2) transaction_fields us.
Proof. intros us H. freeing (transaction_owned us H). Qed.
(** ixt_free *)
Theorem C66_ixt_partial : forall us, ixt_own us -> destroyed (destroy ixt_free) ixt_fields us.
Proof. intros us H. freeing (ixt_owned us H). Qed.

(** Freeing NULL does nothing (osip_uri_param_free and ixt_free are the exceptions: they look at the structure first) *)
Theorem C66_null : forall p, In p [uri_free; from_free; via_free; cseq_free; call_id_free; content_length_free; content_type_free; elem_free; header_free; authinfo_free; www_free;
  authz_free; body_free; message_free; sdp_free; dialog_free; event_free] -> forall h, destroy p h Null = Ok h.
Proof. intros p I h. cbn [In] in I. repeat (destruct I as [<-|I]; [reflexivity|]). destruct I. Qed.
Theorem C66_param_null_refuted : forall h, destroy param_free h Null = UB.
Proof. reflexivity. Qed.

(** Cloning and then freeing the copy gives every block of memory back: the heap is as it was before *)
Theorem C66_clone_then_free : forall cl free fs h w us fp, cloned cl fs h w us fp -> destroyed free fs us ->
  exists h1 w1 h2, cl h w = Ok (h1, w1) /\ free h1 w1 = Ok h2 /\ forall x, h2 x = h x.
Proof.
  intros cl free fs h w us fp (h1 & w1 & fp1 & C & H1 & H2 & ND & FR & DJ & K) D. inversion H1; subst. destruct (D h1 a _ H1 ND) as (h2 & E & F1 & F2). exists h1, (Ptr a), h2.
  split; [exact C|]. split; [exact E|]. intros x. destruct (in_dec Nat.eq_dec x (a :: fp0)) as [I|I]; [rewrite F1, FR; auto|]. rewrite F2 by exact I. apply K. exact I.
Qed.
(** Freeing the original after cloning leaves the copy whole *)
Theorem C66_free_original : forall cl free fs h w us fp, holds h (KRec fs) w (Rec us) fp -> NoDup fp -> cloned cl fs h w us fp -> destroyed free fs us ->
  exists (h1 : heap) w1 h2 fp1, cl h w = Ok (h1, w1) /\ free h1 w = Ok h2 /\ holds h2 (KRec fs) w1 (Rec us) fp1 /\ (forall x, In x fp -> h2 x = None).
Proof.
  intros cl free fs h w us fp H ND (h1 & w1 & fp1 & C & H1 & H2 & ND1 & FR & DJ & K) D. inversion H2; subst. destruct (D h1 a _ H2 ND) as (h2 & E & F1 & F2). exists h1, w1, h2, fp1.
  split; [exact C|]. split; [exact E|]. split; [|exact F1]. apply (frame h1); [exact H1|]. intros x I. apply F2. intros J. exact (DJ x J I).
Qed.
(** for messages *)
Theorem C66_message_clone_then_free_partial : forall malloc h a us fp, fresh malloc -> holds h (KRec message_fields) (Ptr a) (Rec us) fp -> message_ok us ->
  exists h1 w1 h2, clone malloc message_fields message_clone h (Ptr a) = Ok (h1, w1) /\ destroy message_free h1 w1 = Ok h2 /\ forall x, h2 x = h x.
Proof.
  intros malloc h a us fp F H K. apply (C66_clone_then_free _ _ message_fields h (Ptr a) us fp); [apply C48_message_partial; assumption|]. apply C66_message_partial.
  unfold message_ok in K. repeat match goal with H : _ /\ _ |- _ => destruct H end. unfold message_own, all in *. repeat split; intros l vs E I;
  match goal with H : forall l us, _ = Seq l -> In (Rec us) l -> authz_ok us |- authz_own _ => exact (H l vs E I) | H : forall l us, _ = Seq l -> In (Rec us) l -> www_ok us |- www_own _ => exact (proj2 (H l vs E I)) end.
Qed.

(** the request of [CloneProps]: all its hypotheses hold, and freeing it empties the heap *)
Example C66_example : (exists fp, holds ex_heap (KRec message_fields) (Ptr 0) (Rec ex_value) fp /\ NoDup fp /\ length fp = 29) /\ message_own ex_value /\
  destroy message_free ex_heap (Ptr 0) = Ok (mkHeap []).
Proof.
  split; [|split; [|vm_compute; reflexivity]].
  - eexists. split; [unfold ex_value, message_fields; hold|]. split; [|reflexivity]. cbn [app]. repeat (constructor; [cbn; intuition discriminate|]). constructor.
  - unfold message_own, all, ex_value, at_. repeat split; cbn; intros l us E I; injection E as <-; destruct I.
Qed.
(** freeing it a second time is an error the model sees *)
Example C66_twice : match destroy message_free ex_heap (Ptr 0) with Ok h => destroy message_free h (Ptr 0) = UB | _ => False end.
Proof. vm_compute. reflexivity. Qed.
(** a client transaction with its timers' context, an event with a message in its queue, and a request *)
Definition bare_message (version : nat) : block := BRec (Ptr version :: map init_word (tl message_fields)).
Definition bare_value (version : str) : tree := Rec (Text version :: [Nul; Nul; Num 0; Nul; Seq []; Seq []; Seq []; Seq []; Seq []; Seq []; Seq []; Nul; Seq []; Seq []; Seq [];
   Nul; Nul; Nul; Seq []; Nul; Nul; Seq []; Seq []; Seq []; Seq []; Seq []; Nul; Seq []; Seq []; Seq []; Seq []; Num 0; Nul; Num 0; Num 0]).
Definition tr_heap : heap := mkHeap
  [(0, BRec ([Int 0; Int 7; Ptr 1] ++ [Ptr 10; Null; Null; Null; Ptr 14; Ptr 20; Null; Null] ++ map Int [0; 0; 0; 0; 0; 9]%Z ++ [Int 2; Null; Null; Ptr 30; Null; Int 0; Int 0; Int 0]));
   (1, BRec [Int 0; Int 0; Lst 1 (Some 2); Int 1; Int 1]); (2, BNode (Ptr 3) None); (3, BRec [Int 5; Int 7; Ptr 4]); (4, bare_message 5); (5, BText $"SIP/2.0");
   (10, BRec [Ptr 11; Ptr 12; Ptr 13; Null; Null; Lst 0 None]); (11, BText $"2.0"); (12, BText $"UDP"); (13, BText $"h"); (14, BRec [Ptr 15; Ptr 16]); (15, BText $"BYE"); (16, BText $"2");
   (20, bare_message 21); (21, BText $"SIP/2.0"); (30, BRec (map Int [0; 0; 0; 0; 0; 0]%Z ++ [Ptr 31; Int 5060])); (31, BText $"10.0.0.1")].
Definition tr_value : list tree :=
  [Num 0; Num 7; Rec [Num 0; Num 0; Seq [Rec [Num 5; Num 7; bare_value $"SIP/2.0"]]; Num 1; Num 1]; Rec [Text $"2.0"; Text $"UDP"; Text $"h"; Nul; Nul; Seq []]; Nul; Nul; Nul; Rec [Text $"BYE"; Text $"2"];
   bare_value $"SIP/2.0"; Nul; Nul; Num 0; Num 0; Num 0; Num 0; Num 0; Num 9; Num 2; Nul; Nul; Rec [Num 0; Num 0; Num 0; Num 0; Num 0; Num 0; Text $"10.0.0.1"; Num 5060]; Nul; Num 0; Num 0; Num 0].
Lemma bare_own : forall s vs, bare_value s = Rec vs -> message_own vs.
Proof. intros s vs E. unfold bare_value in E. injection E as <-. unfold message_own, all, at_. repeat split; cbn; intros l us E I; injection E as <-; destruct I. Qed.
Example C66_transaction_example : (exists fp, holds tr_heap (KRec transaction_fields) (Ptr 0) (Rec tr_value) fp /\ NoDup fp) /\ transaction_own tr_value /\
  destroy transaction_free2 tr_heap (Ptr 0) = Ok (mkHeap []).
Proof.
  split; [|split; [|vm_compute; reflexivity]].
  - eexists. split; [unfold tr_value, bare_value, transaction_fields, fifo_fields, event_fields, message_fields; hold|]. cbn [app]. repeat (constructor; [cbn; intuition discriminate|]). constructor.
  - unfold transaction_own, tr_value, at_. cbn [nth]. split; [|split; [|split; [|split]]].
    + intros vs E. injection E as <-. unfold fifo_own, all, at_. cbn [nth]. intros l us E I. injection E as <-. destruct I as [I|[]]. injection I as <-.
      unfold event_own, at_. cbn [nth]. intros vs E. exact (bare_own _ _ E).
    + intros vs E. exact (bare_own _ _ E).
    + intros vs E. discriminate.
    + intros vs E. discriminate.
    + exists 2%Z. repeat split; auto; lia.
Qed.
(** a session description with two e-mail addresses, a repeat time and a media with two payloads and an attribute *)
Definition sd_heap : heap := mkHeap
  [(0, BRec ([Ptr 1] ++ repeat Null 9 ++ [Lst 2 (Some 2); Lst 0 None; Null; Lst 0 None; Lst 1 (Some 6); Null; Null; Lst 0 None; Lst 1 (Some 12)]));
   (1, BText $"0"); (2, BNode (Ptr 3) (Some 4)); (3, BText $"a@b"); (4, BNode (Ptr 5) None); (5, BText $"c@d"); (6, BNode (Ptr 7) None); (7, BRec [Ptr 8; Ptr 9; Lst 1 (Some 10)]); (8, BText $"0"); (9, BText $"0");
   (10, BNode (Ptr 11) None); (11, BText $"7d 1h"); (12, BNode (Ptr 13) None); (13, BRec [Ptr 14; Null; Null; Null; Lst 2 (Some 15); Null; Lst 0 None; Lst 0 None; Lst 1 (Some 19); Null]); (14, BText $"audio");
   (15, BNode (Ptr 16) (Some 17)); (16, BText $"0"); (17, BNode (Ptr 18) None); (18, BText $"8"); (19, BNode (Ptr 20) None); (20, BRec [Ptr 21; Null]); (21, BText $"sendrecv")].
Definition sd_value : list tree := [Text $"0"] ++ repeat Nul 9 ++ [Seq (map Text [$"a@b"; $"c@d"]); Seq (map Text []); Nul; Seq []; Seq [Rec [Text $"0"; Text $"0"; Seq (map Text [$"7d 1h"])]]; Nul; Nul; Seq [];
  Seq [Rec [Text $"audio"; Nul; Nul; Nul; Seq (map Text [$"0"; $"8"]); Nul; Seq []; Seq []; Seq [Rec [Text $"sendrecv"; Nul]]; Nul]]].
Lemma a_strs : forall h n first ss fp, n = length ss -> hstrs h first ss fp -> holds h KStrs (Lst n first) (Seq (map Text ss)) fp.
Proof. intros; subst. constructor. assumption. Qed.
Example C66_sdp_example : (exists fp, holds sd_heap (KRec sdp_fields) (Ptr 0) (Rec sd_value) fp /\ NoDup fp /\ length fp = 22) /\ destroy sdp_free sd_heap (Ptr 0) = Ok (mkHeap []).
Proof.
  split; [|vm_compute; reflexivity]. eexists. split; [unfold sd_value, sdp_fields, time_descr_fields, media_fields; cbn [app repeat]; repeat first [apply a_strs; [reflexivity|]|eapply s_cons|eapply s_nil|progress hold]|].
  split; [|reflexivity]. cbn [app]. repeat (constructor; [cbn; intuition discriminate|]). constructor.
Qed.
(** Finding: a credential in which the application stored auth_param is not freed completely *)
Theorem C66_auth_param_refuted : exists h', destroy www_free auth_heap (Ptr 0) = Ok h' /\ h' 2 = auth_heap 2 /\ h' 2 <> None.
Proof. eexists. split; [vm_compute; reflexivity|]. split; [reflexivity|discriminate]. Qed.
Print Assumptions C66_param.
Print Assumptions C66_uri.
Print Assumptions C66_from.
Print Assumptions C66_via.
Print Assumptions C66_cseq.
Print Assumptions C66_call_id.
Print Assumptions C66_content_length.
Print Assumptions C66_content_type.
Print Assumptions C66_elem.
Print Assumptions C66_header.
Print Assumptions C66_authinfo.
Print Assumptions C66_www_partial.
Print Assumptions C66_authz_partial.
Print Assumptions C66_body.
Print Assumptions C66_message_partial.
Print Assumptions C66_sdp.
Print Assumptions C66_dialog.
Print Assumptions C66_event_partial.
Print Assumptions C66_transaction_partial.
Print Assumptions C66_ixt_partial.
Print Assumptions C66_null.
Print Assumptions C66_param_null_refuted.
Print Assumptions C66_clone_then_free.
Print Assumptions C66_free_original.
Print Assumptions C66_message_clone_then_free_partial.
Print Assumptions C66_auth_param_refuted.

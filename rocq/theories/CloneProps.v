(** C48: clones are equal to, and independent of, what they were made from. *)
From Coq Require Import String ZArith NArith Ascii Bool List Lia.
From Verif Require Import Base Str CloneHeap CloneSpec CloneHeapProofs.
Import ListNotations.
Local Open Scope nat_scope.

(** the mandatory fields of each structure; field numbers are those of CloneHeap.v *)
Definition at_ (i : nat) (us : list tree) : tree := nth i us Nul.
Definition all (ok : list tree -> Prop) (t : tree) : Prop := forall l us, t = Seq l -> In (Rec us) l -> ok us.
Definition opt (ok : list tree -> Prop) (t : tree) : Prop := forall us, t = Rec us -> ok us.
(** a parameter has a name *)
Definition param_ok us := at_ 0 us <> Nul.
(** a URI has a host or the text of another scheme *)
Definition uri_ok us := (at_ 3 us <> Nul \/ at_ 7 us <> Nul) /\ all param_ok (at_ 5 us) /\ all param_ok (at_ 6 us).
Definition from_ok us := opt uri_ok (at_ 1 us) /\ all param_ok (at_ 2 us).
(** a Via has version, protocol and host *)
Definition via_ok us := at_ 0 us <> Nul /\ at_ 1 us <> Nul /\ at_ 2 us <> Nul /\ all param_ok (at_ 5 us).
Definition cseq_ok us := at_ 0 us <> Nul /\ at_ 1 us <> Nul.
Definition call_id_ok us := at_ 0 us <> Nul.
Definition content_type_ok us := all param_ok (at_ 2 us).
Definition elem_ok us := at_ 0 us <> Nul /\ all param_ok (at_ 1 us).
Definition header_ok us := at_ 0 us <> Nul.
(** WWW-Authenticate has a scheme; the field auth_param, which no function of the library sets, is NULL *)
Definition www_ok us := at_ 0 us <> Nul /\ at_ 11 us = Nul.
Definition authz_ok us := at_ 17 us = Nul.
(** a body is not empty; its header list is allocated *)
Definition body_ok us := at_ 0 us <> Nul /\ at_ 0 us <> Bytes [] /\ at_ 1 us <> Nul /\ opt (fun us => all header_ok (at_ 0 us)) (at_ 1 us) /\ opt content_type_ok (at_ 2 us).
Definition message_ok us :=
  opt uri_ok (at_ 1 us) /\ all content_type_ok (at_ 5 us) /\ all elem_ok (at_ 6 us) /\ all elem_ok (at_ 7 us) /\ all elem_ok (at_ 8 us) /\ all authz_ok (at_ 11 us) /\
  opt call_id_ok (at_ 12 us) /\ all elem_ok (at_ 13 us) /\ all from_ok (at_ 14 us) /\ opt content_type_ok (at_ 17 us) /\ opt cseq_ok (at_ 18 us) /\ all elem_ok (at_ 19 us) /\
  opt from_ok (at_ 20 us) /\ all www_ok (at_ 22 us) /\ all authz_ok (at_ 24 us) /\ all from_ok (at_ 25 us) /\ all from_ok (at_ 26 us) /\ opt from_ok (at_ 27 us) /\
  all via_ok (at_ 28 us) /\ all www_ok (at_ 29 us) /\ all header_ok (at_ 30 us) /\ all body_ok (at_ 31 us).

Definition fresh (malloc : heap -> addr) : Prop := forall h : heap, h (malloc h) = None.

Lemma at_nth : forall us i t, nth_error us i = Some t -> at_ i us = t.
Proof. intros us i t E. unfold at_. apply nth_error_nth. exact E. Qed.
Definition good (fs : list shape) (p : list op) (us : list tree) : Prop := accepts p us /\ untouched fs p us.
Lemma use_all : forall (ok : list tree -> Prop) fs p us i, all ok (at_ i us) -> (forall vs, ok vs -> good fs p vs) -> accepts_op (Each i fs p) us.
Proof. intros ok fs p us i A G. cbn. intros l vs E I. apply G. exact (A l vs (at_nth _ _ _ E) I). Qed.
Lemma use_opt : forall (ok : list tree -> Prop) fs p us i, opt ok (at_ i us) -> (forall vs, ok vs -> good fs p vs) -> accepts_op (Sub i fs p) us.
Proof. intros ok fs p us i A G. cbn. intros vs E. apply G. exact (A vs (at_nth _ _ _ E)). Qed.
Lemma use_any : forall fs p us i, (forall vs, good fs p vs) -> accepts_op (Each i fs p) us.
Proof. intros fs p us i G. cbn. intros. apply G. Qed.
Lemma use_any_opt : forall fs p us i, (forall vs, good fs p vs) -> accepts_op (Sub i fs p) us.
Proof. intros fs p us i G. cbn. intros. apply G. Qed.
Lemma use_need : forall us i, at_ i us <> Nul -> accepts_op (Need i) us.
Proof. intros us i N E. exact (N (at_nth _ _ _ E)). Qed.

Ltac whole := let i := fresh "i" in let N := fresh "N" in intros i ? ? ? ? N;
  repeat (destruct i as [|i]; [exfalso; apply N; cbn; tauto|]); exfalso; match goal with H : nth_error _ _ = Some ?k, H2 : nth_error _ _ = Some _ |- _ => cbn in H; destruct i; discriminate end.
Lemma param_good : forall us, param_ok us -> good param_fields param_clone us.
Proof. intros us H. split; [|whole]. repeat split. apply use_need. exact H. Qed.
Lemma uri_good : forall us, uri_ok us -> good uri_fields uri_clone us.
Proof.
  intros us (H & P1 & P2). split; [|whole]. split; [destruct H as [H|H]; [left|right]; intros E; exact (H (at_nth _ _ _ E))|]. do 6 (split; [exact I|]).
  split; [exact (use_all _ _ _ _ _ P1 param_good)|]. split; [exact (use_all _ _ _ _ _ P2 param_good)|exact I].
Qed.
Lemma from_good : forall us, from_ok us -> good from_fields from_clone us.
Proof. intros us (H & P). split; [|whole]. split; [exact I|]. split; [exact (use_opt _ _ _ _ _ H uri_good)|]. split; [exact (use_all _ _ _ _ _ P param_good)|exact I]. Qed.
Lemma via_good : forall us, via_ok us -> good via_fields via_clone us.
Proof.
  intros us (H0 & H1 & H2 & P). split; [|whole]. do 3 (split; [apply use_need; assumption|]). do 5 (split; [exact I|]). split; [exact (use_all _ _ _ _ _ P param_good)|exact I].
Qed.
Lemma cseq_good : forall us, cseq_ok us -> good cseq_fields cseq_clone us.
Proof. intros us (H0 & H1). split; [|whole]. do 2 (split; [apply use_need; assumption|]). repeat split. Qed.
Lemma call_id_good : forall us, call_id_ok us -> good call_id_fields call_id_clone us.
Proof. intros us H. split; [|whole]. split; [apply use_need; assumption|]. repeat split. Qed.
Lemma content_length_good : forall us, good content_length_fields content_length_clone us.
Proof. intros us. split; [|whole]. repeat split. Qed.
Lemma content_type_good : forall us, content_type_ok us -> good content_type_fields content_type_clone us.
Proof. intros us P. split; [|whole]. do 2 (split; [exact I|]). split; [exact (use_all _ _ _ _ _ P param_good)|exact I]. Qed.
Lemma elem_good : forall us, elem_ok us -> good elem_fields elem_clone us.
Proof. intros us (H & P). split; [|whole]. split; [apply use_need; exact H|]. split; [exact I|]. split; [exact (use_all _ _ _ _ _ P param_good)|exact I]. Qed.
Lemma header_good : forall us, header_ok us -> good header_fields header_clone us.
Proof. intros us H. split; [|whole]. split; [apply use_need; assumption|]. repeat split. Qed.
Lemma www_good : forall us, www_ok us -> good www_fields www_clone us.
Proof.
  intros us (H & P). split; [split; [apply use_need; assumption|]; repeat split|]. intros i k t K T N. do 11 (destruct i as [|i]; [exfalso; apply N; cbn; tauto|]).
  destruct i as [|i]; [|destruct i; discriminate]. cbn in K. injection K as <-. cbn. rewrite <- (at_nth _ _ _ T). exact P.
Qed.
Lemma authz_good : forall us, authz_ok us -> good authz_fields authz_clone us.
Proof.
  intros us P. split; [repeat split|]. intros i k t K T N. do 17 (destruct i as [|i]; [exfalso; apply N; cbn; tauto|]).
  destruct i as [|i]; [|destruct i; discriminate]. cbn in K. injection K as <-. cbn. rewrite <- (at_nth _ _ _ T). exact P.
Qed.
Lemma authinfo_good : forall us, good authinfo_fields authinfo_clone us.
Proof. intros us. split; [|whole]. repeat split. Qed.
Lemma body_good : forall us, body_ok us -> good body_fields body_clone us.
Proof.
  intros us (H0 & H1 & H2 & P & Q). split; [|whole]. assert (accepts_op (NeedLen 0) us) as NL by (split; intros E; [exact (H0 (at_nth _ _ _ E))|exact (H1 (at_nth _ _ _ E))]).
  split; [exact NL|]. split; [exact NL|]. split; [exact (use_opt _ _ _ _ _ Q content_type_good)|]. split; [exact (use_need _ _ H2)|]. split; [|exact I].
  apply (use_opt _ _ _ _ _ P). intros vs A. split; [|whole]. split; [exact (use_all _ _ _ _ _ A header_good)|exact I].
Qed.
Lemma message_good : forall us, message_ok us -> good message_fields message_clone us.
Proof.
  intros us (P1 & P5 & P6 & P7 & P8 & P11 & P12 & P13 & P14 & P17 & P18 & P19 & P20 & P22 & P24 & P25 & P26 & P27 & P28 & P29 & P30 & P31). split; [|whole].
  do 4 (split; [exact I|]). split; [exact (use_opt _ _ _ _ _ P1 uri_good)|]. split; [exact (use_all _ _ _ _ _ P5 content_type_good)|].
  split; [exact (use_all _ _ _ _ _ P6 elem_good)|]. split; [exact (use_all _ _ _ _ _ P7 elem_good)|]. split; [exact (use_all _ _ _ _ _ P8 elem_good)|].
  split; [exact (use_any _ _ _ _ content_length_good)|]. split; [exact (use_any _ _ _ _ authinfo_good)|]. split; [exact (use_any _ _ _ _ content_length_good)|].
  split; [exact (use_all _ _ _ _ _ P19 elem_good)|]. split; [exact (use_any _ _ _ _ authinfo_good)|]. split; [exact (use_all _ _ _ _ _ P13 elem_good)|].
  split; [exact (use_all _ _ _ _ _ P11 authz_good)|]. split; [exact (use_opt _ _ _ _ _ P12 call_id_good)|]. split; [exact (use_all _ _ _ _ _ P14 from_good)|].
  split; [exact (use_any_opt _ _ _ _ content_length_good)|]. split; [exact (use_opt _ _ _ _ _ P17 content_type_good)|]. split; [exact (use_opt _ _ _ _ _ P18 cseq_good)|].
  split; [exact (use_opt _ _ _ _ _ P20 from_good)|]. split; [exact (use_any_opt _ _ _ _ content_length_good)|]. split; [exact (use_all _ _ _ _ _ P22 www_good)|].
  split; [exact (use_all _ _ _ _ _ P24 authz_good)|]. split; [exact (use_all _ _ _ _ _ P25 from_good)|]. split; [exact (use_all _ _ _ _ _ P26 from_good)|].
  split; [exact (use_opt _ _ _ _ _ P27 from_good)|]. split; [exact (use_all _ _ _ _ _ P28 via_good)|]. split; [exact (use_all _ _ _ _ _ P29 www_good)|].
  split; [exact (use_all _ _ _ _ _ P30 header_good)|]. split; [exact (use_all _ _ _ _ _ P31 body_good)|]. repeat split.
Qed.

Ltac fitting := cbn; repeat match goal with |- _ /\ _ => split | |- NoDup _ => repeat (constructor; [cbn; intuition discriminate|]); constructor | |- exists _, _ => eexists | |- True => exact I | |- _ = _ => reflexivity end.
Lemma param_fits : fits param_fields param_clone /\ NoDup (targets param_clone). Proof. fitting. Qed.
Lemma uri_fits : fits uri_fields uri_clone /\ NoDup (targets uri_clone). Proof. fitting. Qed.
Lemma from_fits : fits from_fields from_clone /\ NoDup (targets from_clone). Proof. fitting. Qed.
Lemma via_fits : fits via_fields via_clone /\ NoDup (targets via_clone). Proof. fitting. Qed.
Lemma cseq_fits : fits cseq_fields cseq_clone /\ NoDup (targets cseq_clone). Proof. fitting. Qed.
Lemma call_id_fits : fits call_id_fields call_id_clone /\ NoDup (targets call_id_clone). Proof. fitting. Qed.
Lemma content_length_fits : fits content_length_fields content_length_clone /\ NoDup (targets content_length_clone). Proof. fitting. Qed.
Lemma content_type_fits : fits content_type_fields content_type_clone /\ NoDup (targets content_type_clone). Proof. fitting. Qed.
Lemma elem_fits : fits elem_fields elem_clone /\ NoDup (targets elem_clone). Proof. fitting. Qed.
Lemma header_fits : fits header_fields header_clone /\ NoDup (targets header_clone). Proof. fitting. Qed.
Lemma www_fits : fits www_fields www_clone /\ NoDup (targets www_clone). Proof. fitting. Qed.
Lemma authz_fits : fits authz_fields authz_clone /\ NoDup (targets authz_clone). Proof. fitting. Qed.
Lemma authinfo_fits : fits authinfo_fields authinfo_clone /\ NoDup (targets authinfo_clone). Proof. fitting. Qed.
Lemma body_fits : fits body_fields body_clone /\ NoDup (targets body_clone). Proof. fitting. Qed.
Lemma message_fits : fits message_fields message_clone /\ NoDup (targets message_clone). Proof. fitting. Qed.

(** C48, for each clone function: for every allocator, heap, and structure held in it with its mandatory fields,
    the call succeeds and gives a copy of the same value in fresh blocks, all else unchanged ([cloned], CloneSpec.v).
    The suffix _partial: fields the library never fills (auth_param) must be NULL, texts contain no NUL. *)
(** osip_uri_param_clone (osip_generic_param_clone) *)
Theorem C48_param : forall malloc h a us fp, fresh malloc -> holds h (KRec param_fields) (Ptr a) (Rec us) fp -> param_ok us ->
  cloned (clone malloc param_fields param_clone) param_fields h (Ptr a) us fp.
Proof. intros malloc h a us fp F H K. destruct (param_good us K) as [A U]. apply clone_cloned; auto; apply param_fits. Qed.
(** osip_uri_clone *)
Theorem C48_uri : forall malloc h a us fp, fresh malloc -> holds h (KRec uri_fields) (Ptr a) (Rec us) fp -> uri_ok us ->
  cloned (clone malloc uri_fields uri_clone) uri_fields h (Ptr a) us fp.
Proof. intros malloc h a us fp F H K. destruct (uri_good us K) as [A U]. apply clone_cloned; auto; apply uri_fits. Qed.
(** osip_from_clone (To, Contact, Route, Record-Route) *)
Theorem C48_from : forall malloc h a us fp, fresh malloc -> holds h (KRec from_fields) (Ptr a) (Rec us) fp -> from_ok us ->
  cloned (clone malloc from_fields from_clone) from_fields h (Ptr a) us fp.
Proof. intros malloc h a us fp F H K. destruct (from_good us K) as [A U]. apply clone_cloned; auto; apply from_fits. Qed.
(** osip_via_clone *)
Theorem C48_via : forall malloc h a us fp, fresh malloc -> holds h (KRec via_fields) (Ptr a) (Rec us) fp -> via_ok us ->
  cloned (clone malloc via_fields via_clone) via_fields h (Ptr a) us fp.
Proof. intros malloc h a us fp F H K. destruct (via_good us K) as [A U]. apply clone_cloned; auto; apply via_fits. Qed.
(** osip_cseq_clone *)
Theorem C48_cseq : forall malloc h a us fp, fresh malloc -> holds h (KRec cseq_fields) (Ptr a) (Rec us) fp -> cseq_ok us ->
  cloned (clone malloc cseq_fields cseq_clone) cseq_fields h (Ptr a) us fp.
Proof. intros malloc h a us fp F H K. destruct (cseq_good us K) as [A U]. apply clone_cloned; auto; apply cseq_fits. Qed.
(** osip_call_id_clone *)
Theorem C48_call_id : forall malloc h a us fp, fresh malloc -> holds h (KRec call_id_fields) (Ptr a) (Rec us) fp -> call_id_ok us ->
  cloned (clone malloc call_id_fields call_id_clone) call_id_fields h (Ptr a) us fp.
Proof. intros malloc h a us fp F H K. destruct (call_id_good us K) as [A U]. apply clone_cloned; auto; apply call_id_fits. Qed.
(** osip_content_length_clone (Allow, Content-Encoding, Mime-Version) *)
Theorem C48_content_length : forall malloc h a us fp, fresh malloc -> holds h (KRec content_length_fields) (Ptr a) (Rec us) fp ->
  cloned (clone malloc content_length_fields content_length_clone) content_length_fields h (Ptr a) us fp.
Proof. intros malloc h a us fp F H. destruct (content_length_good us) as [A U]. apply clone_cloned; auto; apply content_length_fits. Qed.
(** osip_content_type_clone (Accept) *)
Theorem C48_content_type : forall malloc h a us fp, fresh malloc -> holds h (KRec content_type_fields) (Ptr a) (Rec us) fp -> content_type_ok us ->
  cloned (clone malloc content_type_fields content_type_clone) content_type_fields h (Ptr a) us fp.
Proof. intros malloc h a us fp F H K. destruct (content_type_good us K) as [A U]. apply clone_cloned; auto; apply content_type_fits. Qed.
(** osip_accept_encoding_clone, osip_call_info_clone (Accept-Language, Alert-Info, Error-Info) *)
Theorem C48_elem : forall malloc h a us fp, fresh malloc -> holds h (KRec elem_fields) (Ptr a) (Rec us) fp -> elem_ok us ->
  cloned (clone malloc elem_fields elem_clone) elem_fields h (Ptr a) us fp.
Proof. intros malloc h a us fp F H K. destruct (elem_good us K) as [A U]. apply clone_cloned; auto; apply elem_fits. Qed.
(** osip_header_clone *)
Theorem C48_header : forall malloc h a us fp, fresh malloc -> holds h (KRec header_fields) (Ptr a) (Rec us) fp -> header_ok us ->
  cloned (clone malloc header_fields header_clone) header_fields h (Ptr a) us fp.
Proof. intros malloc h a us fp F H K. destruct (header_good us K) as [A U]. apply clone_cloned; auto; apply header_fits. Qed.
(** osip_www_authenticate_clone *)
Theorem C48_www_partial : forall malloc h a us fp, fresh malloc -> holds h (KRec www_fields) (Ptr a) (Rec us) fp -> www_ok us ->
  cloned (clone malloc www_fields www_clone) www_fields h (Ptr a) us fp.
Proof. intros malloc h a us fp F H K. destruct (www_good us K) as [A U]. apply clone_cloned; auto; apply www_fits. Qed.
(** osip_authorization_clone *)
Theorem C48_authz_partial : forall malloc h a us fp, fresh malloc -> holds h (KRec authz_fields) (Ptr a) (Rec us) fp -> authz_ok us ->
  cloned (clone malloc authz_fields authz_clone) authz_fields h (Ptr a) us fp.
Proof. intros malloc h a us fp F H K. destruct (authz_good us K) as [A U]. apply clone_cloned; auto; apply authz_fits. Qed.
(** osip_authentication_info_clone *)
Theorem C48_authinfo : forall malloc h a us fp, fresh malloc -> holds h (KRec authinfo_fields) (Ptr a) (Rec us) fp ->
  cloned (clone malloc authinfo_fields authinfo_clone) authinfo_fields h (Ptr a) us fp.
Proof. intros malloc h a us fp F H. destruct (authinfo_good us) as [A U]. apply clone_cloned; auto; apply authinfo_fits. Qed.
(** osip_body_clone *)
Theorem C48_body : forall malloc h a us fp, fresh malloc -> holds h (KRec body_fields) (Ptr a) (Rec us) fp -> body_ok us ->
  cloned (clone malloc body_fields body_clone) body_fields h (Ptr a) us fp.
Proof. intros malloc h a us fp F H K. destruct (body_good us K) as [A U]. apply clone_cloned; auto; apply body_fits. Qed.
(** osip_message_clone *)
Theorem C48_message_partial : forall malloc h a us fp, fresh malloc -> holds h (KRec message_fields) (Ptr a) (Rec us) fp -> message_ok us ->
  cloned (clone malloc message_fields message_clone) message_fields h (Ptr a) us fp.
Proof. intros malloc h a us fp F H K. destruct (message_good us K) as [A U]. apply clone_cloned; auto; apply message_fits. Qed.

(** Independence: whatever happens later to the blocks of the original (writing, freeing, reuse), the copy keeps its value, and
    the other way round *)
Theorem C48_independent : forall cl fs h w us fp, holds h (KRec fs) w (Rec us) fp -> cloned cl fs h w us fp ->
  exists (h' : heap) w' fp', cl h w = Ok (h', w') /\
    (forall later : heap, (forall x, ~ In x fp -> later x = h' x) -> holds later (KRec fs) w' (Rec us) fp') /\
    (forall later : heap, (forall x, ~ In x fp' -> later x = h' x) -> holds later (KRec fs) w (Rec us) fp).
Proof.
  intros cl fs h w us fp H (h' & w' & fp' & C & H1 & H2 & ND & FR & DJ & K). exists h', w', fp'. split; [exact C|]. split; intros later L.
  - apply (frame h'); [exact H1|]. intros x I. apply L. intros J. exact (DJ x J I).
  - apply (frame h'); [exact H2|]. intros x I. apply L. exact (DJ x I).
Qed.

(** an allocator as the theorems ask for *)
Definition next_free (h : heap) : addr := S (list_max (map fst (cells h))).
Lemma next_free_fresh : fresh next_free.
Proof.
  intros h. unfold next_free, look. destruct (find (fun c => Nat.eqb (S (list_max (map fst (cells h)))) (fst c)) (cells h)) as [[a b]|] eqn:E; [|reflexivity]. apply find_some in E. destruct E as [I E]. cbn [fst] in E. apply Nat.eqb_eq in E. subst.
  pose proof (proj1 (list_max_le (map fst (cells h)) (list_max (map fst (cells h)))) (le_n _)) as M. rewrite Forall_forall in M. specialize (M _ (in_map fst _ _ I)). cbn in M. lia.
Qed.

(** a request with a URI, two Vias (one with a parameter), an extra header, a body with a NUL byte, and a cached text *)
Definition ex_heap : heap := mkHeap
  [(0, BRec [Ptr 1; Ptr 2; Ptr 5; Int 0; Null; Lst 0 None; Lst 0 None; Lst 0 None; Lst 0 None; Lst 0 None; Lst 0 None; Lst 0 None; Null; Lst 0 None; Lst 0 None; Lst 0 None;
             Null; Null; Null; Lst 0 None; Null; Null; Lst 0 None; Lst 0 None; Lst 0 None; Lst 0 None; Lst 0 None; Null; Lst 2 (Some 6); Lst 0 None; Lst 1 (Some 20);
             Lst 1 (Some 24); Int 1; Ptr 29; Int 4; Int 77]);
   (1, BText $"SIP/2.0"); (2, BRec [Ptr 3; Null; Null; Ptr 4; Null; Lst 0 None; Lst 0 None; Null]); (3, BText $"sip"); (4, BText $"b.org"); (5, BText $"MESSAGE");
   (6, BNode (Ptr 7) (Some 14)); (7, BRec [Ptr 8; Ptr 9; Ptr 10; Null; Null; Lst 1 (Some 11)]); (8, BText $"2.0"); (9, BText $"UDP"); (10, BText $"h1");
   (11, BNode (Ptr 12) None); (12, BRec [Ptr 13; Null]); (13, BText $"rport");
   (14, BNode (Ptr 15) None); (15, BRec [Ptr 16; Ptr 17; Ptr 18; Ptr 19; Null; Lst 0 None]); (16, BText $"2.0"); (17, BText $"TCP"); (18, BText $"h2"); (19, BText $"5070");
   (20, BNode (Ptr 21) None); (21, BRec [Ptr 22; Ptr 23]); (22, BText $"Subject"); (23, BText $"x");
   (24, BNode (Ptr 25) None); (25, BRec [Buf 26 3; Ptr 27; Null]); (26, BText ["a"; zero; "b"]%char); (27, BRec [Lst 0 None]); (29, BText $"text")].
Definition ex_value : list tree :=
  [Text $"SIP/2.0"; Rec [Text $"sip"; Nul; Nul; Text $"b.org"; Nul; Seq []; Seq []; Nul]; Text $"MESSAGE"; Num 0; Nul; Seq []; Seq []; Seq []; Seq []; Seq []; Seq []; Seq []; Nul; Seq []; Seq []; Seq [];
   Nul; Nul; Nul; Seq []; Nul; Nul; Seq []; Seq []; Seq []; Seq []; Seq []; Nul;
   Seq [Rec [Text $"2.0"; Text $"UDP"; Text $"h1"; Nul; Nul; Seq [Rec [Text $"rport"; Nul]]]; Rec [Text $"2.0"; Text $"TCP"; Text $"h2"; Text $"5070"; Nul; Seq []]]; Seq [];
   Seq [Rec [Text $"Subject"; Text $"x"]]; Seq [Rec [Bytes ["a"; zero; "b"]%char; Rec [Seq []]; Nul]]; Num 1; Text $"text"; Num 4; Num 77].
Lemma a_list : forall h fs n first ts fp, n = length ts -> hchain h fs first ts fp -> holds h (KList fs) (Lst n first) (Seq ts) fp.
Proof. intros; subst. constructor. assumption. Qed.
Lemma a_buf : forall (h : heap) a n s, n = length s -> h a = Some (BText s) -> holds h KBuf (Buf a n) (Bytes s) [a].
Proof. intros; subst. constructor. assumption. Qed.
Ltac hold := repeat first [apply a_list; [reflexivity|] | apply a_buf; [reflexivity|] | eapply c_cons | eapply c_nil | eapply f_cons | eapply f_nil | eapply h_rec | eapply h_rec_null | eapply h_str | eapply h_str_null | eapply h_int | eapply h_buf_null | reflexivity].
Example C48_example : exists fp, holds ex_heap (KRec message_fields) (Ptr 0) (Rec ex_value) fp /\ message_ok ex_value /\
  cloned (clone next_free message_fields message_clone) message_fields ex_heap (Ptr 0) ex_value fp.
Proof.
  assert (exists fp, holds ex_heap (KRec message_fields) (Ptr 0) (Rec ex_value) fp) as [fp H] by (eexists; unfold ex_value, message_fields; hold).
  exists fp. split; [exact H|]. assert (message_ok ex_value) as K.
  { clear fp H. unfold message_ok, all, opt. repeat first [discriminate | match goal with E : Seq _ = Seq _ |- _ => injection E as <- | E : Rec _ = Rec _ |- _ => injection E as <- | J : In _ _ |- _ => progress cbn in J | E : at_ _ _ = _ |- _ => progress cbn in E | J : _ \/ _ |- _ => destruct J as [J|J] | J : False |- _ => destruct J end
      | match goal with |- _ /\ _ => split | |- forall _, _ => intro | |- _ \/ _ => left; cbn; discriminate end
      | progress unfold uri_ok, param_ok, header_ok, via_ok, body_ok, all, opt | cbn; discriminate | progress cbn in *]. }
  split; [exact K|]. apply C48_message_partial; auto. exact next_free_fresh.
Qed.

(** Finding: the text cached by osip_message_to_str is copied with strdup but its length is copied as a number, so when the text
    contains a NUL byte (a binary body) the copy has a message_length its own message does not have; the cached text of the copy
    is then read past its end by osip_message_to_str (osip_message_to_str.c 341-353) *)
Definition cached_heap : heap := mkHeap [(0, BRec (map init_word (firstn 32 message_fields) ++ [Int 1; Ptr 1; Int 5; Int 0])); (1, BText ["a"; "b"; zero; "c"; "d"]%char)].
Theorem C48_cached_text_refuted : exists h' d x t, clone next_free message_fields message_clone cached_heap (Ptr 0) = Ok (h', Ptr d) /\
  field h' d 33 = Ok (Ptr x) /\ h' x = Some (BText t) /\ field h' d 34 = Ok (Int 5) /\ length t = 2.
Proof. do 4 eexists. vm_compute. repeat split; reflexivity. Qed.
(** Finding: auth_param, a public field, is lost *)
Definition auth_heap : heap := mkHeap [(0, BRec (Ptr 1 :: repeat Null 10 ++ [Ptr 2])); (1, BText $"Digest"); (2, BText $"x=y")].
Theorem C48_auth_param_refuted : exists h' d, clone next_free www_fields www_clone auth_heap (Ptr 0) = Ok (h', Ptr d) /\ field h' d 11 = Ok Null.
Proof. do 2 eexists. vm_compute. split; reflexivity. Qed.
(** Finding: a message whose body is empty (osip_message_set_body accepts length 0) cannot be cloned at all *)
Definition empty_body_heap : heap := mkHeap [(0, BRec (map init_word (firstn 31 message_fields) ++ [Lst 1 (Some 1); Int 2; Null; Int 0; Int 0]));
  (1, BNode (Ptr 2) None); (2, BRec [Buf 3 0; Ptr 4; Null]); (3, BText []); (4, BRec [Lst 0 None])].
Theorem C48_empty_body_refuted : exists us fp, holds empty_body_heap (KRec message_fields) (Ptr 0) (Rec us) fp /\
  clone next_free message_fields message_clone empty_body_heap (Ptr 0) = Err OSIP_BADPARAMETER.
Proof.
  do 2 eexists. split; [|vm_compute; reflexivity]. unfold message_fields.
  eapply (h_rec _ _ _ _ [Nul; Nul; Nul; Num 0; Nul; Seq []; Seq []; Seq []; Seq []; Seq []; Seq []; Seq []; Nul; Seq []; Seq []; Seq [];
   Nul; Nul; Nul; Seq []; Nul; Nul; Seq []; Seq []; Seq []; Seq []; Seq []; Nul; Seq []; Seq []; Seq []; Seq [Rec [Bytes []; Rec [Seq []]; Nul]]; Num 2; Nul; Num 0; Num 0]); [reflexivity|]. hold.
Qed.
Print Assumptions C48_param.
Print Assumptions C48_uri.
Print Assumptions C48_from.
Print Assumptions C48_via.
Print Assumptions C48_cseq.
Print Assumptions C48_call_id.
Print Assumptions C48_content_length.
Print Assumptions C48_content_type.
Print Assumptions C48_elem.
Print Assumptions C48_header.
Print Assumptions C48_www_partial.
Print Assumptions C48_authz_partial.
Print Assumptions C48_authinfo.
Print Assumptions C48_body.
Print Assumptions C48_message_partial.
Print Assumptions C48_independent.
Print Assumptions C48_cached_text_refuted.

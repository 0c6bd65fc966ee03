(** C68: the clone functions when memory runs out. *)
From Coq Require Import String ZArith NArith Ascii Bool List Lia.
From Verif Require Import Base Str CloneHeap CloneSpec CloneHeapProofs CloneProps FreeHeap FreeSpec FreeHeapProofs FreeProps FailClone FailSpec FailProofs.
Import ListNotations.
Local Open Scope nat_scope.

Definition always (us : list tree) : Prop := True.
(** a body has its list of headers (osip_body_clone looks into it without a test; osip_body_init allocates it) *)
Definition has_headers us := at_ 1 us <> Nul.
Definition bodies_have_headers us := all has_headers (at_ 31 us).

(** what a structure without auth_param is to the proofs *)
Ltac made_steps := hnf; lazymatch goal with |- _ /\ _ => split; [let i := fresh "i" in let v := fresh "v" in let J := fresh "J" in let E := fresh "E" in intros i v J E; cbn [ctarget In] in J; first [contradiction|destruct J as [<-|[]]]; try exact I|made_steps] | |- True => exact I end.
Ltac part L := cbn [made_val]; first [intros ? ? _ _; apply L | intros ? _; apply L].
Lemma param_clean : forall us, clean param_fields param_tries us. Proof. intros us. split; [whole|]. made_steps. Qed.
Lemma uri_clean : forall us, clean uri_fields uri_tries us. Proof. intros us. split; [whole|]. made_steps; part param_clean. Qed.
Lemma from_clean : forall us, clean from_fields from_tries us. Proof. intros us. split; [whole|]. made_steps; [part uri_clean|part param_clean]. Qed.
Lemma via_clean : forall us, clean via_fields via_tries us. Proof. intros us. split; [whole|]. made_steps; part param_clean. Qed.
Lemma cseq_clean : forall us, clean cseq_fields cseq_tries us. Proof. intros us. split; [whole|]. made_steps. Qed.
Lemma call_id_clean : forall us, clean call_id_fields call_id_tries us. Proof. intros us. split; [whole|]. made_steps. Qed.
Lemma content_length_clean : forall us, clean content_length_fields content_length_tries us. Proof. intros us. split; [whole|]. made_steps. Qed.
Lemma content_type_clean : forall us, clean content_type_fields content_type_tries us. Proof. intros us. split; [whole|]. made_steps; part param_clean. Qed.
Lemma elem_clean : forall us, clean elem_fields elem_tries us. Proof. intros us. split; [whole|]. made_steps; part param_clean. Qed.
Lemma header_clean : forall us, clean header_fields header_tries us. Proof. intros us. split; [whole|]. made_steps. Qed.
Lemma authinfo_clean : forall us, clean authinfo_fields authinfo_tries us. Proof. intros us. split; [whole|]. made_steps. Qed.
Lemma headers_clean : forall us, clean [KList header_fields] [CEach 0 header_fields header_checks header_tries header_free] us. Proof. intros us. split; [whole|]. made_steps; part header_clean. Qed.
Lemma body_clean : forall us, clean body_fields body_tries us. Proof. intros us. split; [whole|]. made_steps; [part content_type_clean|part headers_clean]. Qed.
Lemma www_clean : forall us, www_own us <-> clean www_fields www_tries us.
Proof.
  intros us. split.
  - intros P. split; [|made_steps]. intros i k t K T N. do 11 (destruct i as [|i]; [exfalso; apply N; cbn; tauto|]).
    destruct i as [|i]; [|destruct i; discriminate]. cbn in K. injection K as <-. cbn. rewrite <- (at_nth _ _ _ T). exact P.
  - intros [U _]. unfold www_own, at_. destruct (nth_error us 11) as [t|] eqn:E; [rewrite (nth_error_nth _ _ _ E); apply (U 11 KStr t eq_refl E); cbn; intuition discriminate|]. apply nth_overflow. apply nth_error_None. exact E.
Qed.
Lemma authz_clean : forall us, authz_own us <-> clean authz_fields authz_tries us.
Proof.
  intros us. split.
  - intros P. split; [|made_steps]. intros i k t K T N. do 17 (destruct i as [|i]; [exfalso; apply N; cbn; tauto|]).
    destruct i as [|i]; [|destruct i; discriminate]. cbn in K. injection K as <-. cbn. rewrite <- (at_nth _ _ _ T). exact P.
  - intros [U _]. unfold authz_own, at_. destruct (nth_error us 17) as [t|] eqn:E; [rewrite (nth_error_nth _ _ _ E); apply (U 17 KStr t eq_refl E); cbn; intuition discriminate|]. apply nth_overflow. apply nth_error_None. exact E.
Qed.
Ltac parts := first [part uri_clean|part from_clean|part via_clean|part cseq_clean|part call_id_clean|part content_length_clean|part content_type_clean|part elem_clean|part header_clean|part authinfo_clean|part body_clean].
Lemma message_clean : forall us, message_own us -> clean message_fields message_tries us.
Proof.
  intros us (A & B & C & D). split; [whole|]. made_steps; first [parts|cbn [made_val]; intros l vs EL J; subst;
    match goal with E : nth_error us ?k = Some _, P : all _ (at_ ?k us) |- _ => specialize (P _ vs (at_nth _ _ _ E) J); first [apply authz_clean; exact P|apply www_clean; exact P] end].
Qed.
Lemma clean_message : forall us, clean message_fields message_tries us -> message_own us.
Proof.
  intros us [_ M]. pose proof (proj1 (made_all _ _) M) as A. unfold message_own, all. repeat split; intros l vs E I.
  - apply authz_clean. apply (A (CEach 11 authz_fields [] authz_tries authz_free) 11 (Seq l) ltac:(cbn; tauto) ltac:(cbn; tauto)) with (l := l); auto. unfold at_ in E. destruct (nth_error us 11) eqn:N; [rewrite (nth_error_nth _ _ _ N) in E; congruence|apply nth_error_None in N; rewrite nth_overflow in E by exact N; discriminate].
  - apply authz_clean. apply (A (CEach 24 authz_fields [] authz_tries authz_free) 24 (Seq l) ltac:(cbn; tauto) ltac:(cbn; tauto)) with (l := l); auto. unfold at_ in E. destruct (nth_error us 24) eqn:N; [rewrite (nth_error_nth _ _ _ N) in E; congruence|apply nth_error_None in N; rewrite nth_overflow in E by exact N; discriminate].
  - apply www_clean. apply (A (CEach 22 www_fields www_checks www_tries www_free) 22 (Seq l) ltac:(cbn; tauto) ltac:(cbn; tauto)) with (l := l); auto. unfold at_ in E. destruct (nth_error us 22) eqn:N; [rewrite (nth_error_nth _ _ _ N) in E; congruence|apply nth_error_None in N; rewrite nth_overflow in E by exact N; discriminate].
  - apply www_clean. apply (A (CEach 29 www_fields www_checks www_tries www_free) 29 (Seq l) ltac:(cbn; tauto) ltac:(cbn; tauto)) with (l := l); auto. unfold at_ in E. destruct (nth_error us 29) eqn:N; [rewrite (nth_error_nth _ _ _ N) in E; congruence|apply nth_error_None in N; rewrite nth_overflow in E by exact N; discriminate].
Qed.

Definition suits fs chk p fr := (forall c, In c chk -> fits_check fs c) /\ cfits fs p /\ NoDup (ctargets p) /\ freeable fs p fr.
Ltac checks := let c := fresh "c" in let J := fresh "J" in intros c J; cbn [In] in J; repeat (destruct J as [J|J]; [subst c; first [reflexivity|split; reflexivity]|]); contradiction.
Ltac nodup := repeat (constructor; [cbn; intuition discriminate|]); constructor.
Ltac fit_steps sub := hnf; lazymatch goal with |- _ /\ _ => split; [first [reflexivity | sub | (cbn [fits_cop]; eexists; reflexivity)]|fit_steps sub] | |- True => exact I end.
Lemma fits_sub : forall fs i gs chk p fr, nth_error fs i = Some (KRec gs) -> suits gs chk p fr -> fits_cop fs (CSub i gs chk p fr).
Proof. intros fs i gs chk p fr E S. split; [exact E|exact S]. Qed.
Lemma fits_each : forall fs i gs chk p fr, nth_error fs i = Some (KList gs) -> suits gs chk p fr -> fits_cop fs (CEach i gs chk p fr).
Proof. intros fs i gs chk p fr E S. split; [exact E|exact S]. Qed.
Ltac by_suits L := first [apply fits_sub|apply fits_each]; [reflexivity|exact L].
Lemma param_suits : suits param_fields param_checks param_tries param_free.
Proof. split; [checks|]. split; [fit_steps idtac|]. split; [nodup|]. intros us _. apply C66_param. Qed.
Lemma uri_suits : suits uri_fields uri_checks uri_tries uri_free.
Proof. split; [checks|]. split; [fit_steps ltac:(by_suits param_suits)|]. split; [nodup|]. intros us _. apply C66_uri. Qed.
Lemma from_suits : suits from_fields [] from_tries from_free.
Proof. split; [checks|]. split; [fit_steps ltac:(first [by_suits param_suits|by_suits uri_suits])|]. split; [nodup|]. intros us _. apply C66_from. Qed.
Lemma via_suits : suits via_fields via_checks via_tries via_free.
Proof. split; [checks|]. split; [fit_steps ltac:(by_suits param_suits)|]. split; [nodup|]. intros us _. apply C66_via. Qed.
Lemma cseq_suits : suits cseq_fields cseq_checks cseq_tries cseq_free.
Proof. split; [checks|]. split; [fit_steps idtac|]. split; [nodup|]. intros us _. apply C66_cseq. Qed.
Lemma call_id_suits : suits call_id_fields call_id_checks call_id_tries call_id_free.
Proof. split; [checks|]. split; [fit_steps idtac|]. split; [nodup|]. intros us _. apply C66_call_id. Qed.
Lemma content_length_suits : suits content_length_fields [] content_length_tries content_length_free.
Proof. split; [checks|]. split; [fit_steps idtac|]. split; [nodup|]. intros us _. apply C66_content_length. Qed.
Lemma content_type_suits : suits content_type_fields [] content_type_tries content_type_free.
Proof. split; [checks|]. split; [fit_steps ltac:(by_suits param_suits)|]. split; [nodup|]. intros us _. apply C66_content_type. Qed.
Lemma elem_suits : suits elem_fields elem_checks elem_tries elem_free.
Proof. split; [checks|]. split; [fit_steps ltac:(by_suits param_suits)|]. split; [nodup|]. intros us _. apply C66_elem. Qed.
Lemma header_suits : suits header_fields header_checks header_tries header_free.
Proof. split; [checks|]. split; [fit_steps idtac|]. split; [nodup|]. intros us _. apply C66_header. Qed.
Lemma authinfo_suits : suits authinfo_fields [] authinfo_tries authinfo_free.
Proof. split; [checks|]. split; [fit_steps idtac|]. split; [nodup|]. intros us _. apply C66_authinfo. Qed.
Lemma www_suits : suits www_fields www_checks www_tries www_free.
Proof. split; [checks|]. split; [fit_steps idtac|]. split; [nodup|]. intros us CL. apply C66_www_partial. apply www_clean. exact CL. Qed.
Lemma authz_suits : suits authz_fields [] authz_tries authz_free.
Proof. split; [checks|]. split; [fit_steps idtac|]. split; [nodup|]. intros us CL. apply C66_authz_partial. apply authz_clean. exact CL. Qed.
Lemma headers_suits : suits [KList header_fields] [] [CEach 0 header_fields header_checks header_tries header_free] headers_free.
Proof. split; [checks|]. split; [fit_steps ltac:(by_suits header_suits)|]. split; [nodup|]. intros us _. freeing (headers_owned us). Qed.
Lemma body_suits : suits body_fields body_checks body_tries body_free.
Proof. split; [checks|]. split; [fit_steps ltac:(first [by_suits content_type_suits|by_suits headers_suits])|]. split; [nodup|]. intros us _. apply C66_body. Qed.
Lemma message_suits : suits message_fields [] message_tries message_free.
Proof.
  split; [checks|]. split; [fit_steps ltac:(first [by_suits uri_suits|by_suits from_suits|by_suits via_suits|by_suits cseq_suits|by_suits call_id_suits|by_suits content_length_suits|by_suits content_type_suits|by_suits elem_suits|by_suits header_suits|by_suits authinfo_suits|by_suits www_suits|by_suits authz_suits|by_suits body_suits])|].
  split; [nodup|]. intros us CL. apply C66_message_partial. apply clean_message. exact CL.
Qed.

Ltac safe_steps sub := hnf; lazymatch goal with |- _ /\ _ => split; [first [exact I|sub]|safe_steps sub] | |- True => exact I end.
Ltac safe_part L := cbn [safe_cop]; fold csafe; first [intros ? ? _ _; apply L|intros ? _; apply L].
Lemma param_safe : forall us, csafe param_tries us. Proof. intros us. safe_steps idtac. Qed.
Lemma uri_safe : forall us, csafe uri_tries us. Proof. intros us. safe_steps ltac:(safe_part param_safe). Qed.
Lemma from_safe : forall us, csafe from_tries us. Proof. intros us. safe_steps ltac:(first [safe_part uri_safe|safe_part param_safe]). Qed.
Lemma via_safe : forall us, csafe via_tries us. Proof. intros us. safe_steps ltac:(safe_part param_safe). Qed.
Lemma cseq_safe : forall us, csafe cseq_tries us. Proof. intros us. safe_steps idtac. Qed.
Lemma call_id_safe : forall us, csafe call_id_tries us. Proof. intros us. safe_steps idtac. Qed.
Lemma content_length_safe : forall us, csafe content_length_tries us. Proof. intros us. safe_steps idtac. Qed.
Lemma content_type_safe : forall us, csafe content_type_tries us. Proof. intros us. safe_steps ltac:(safe_part param_safe). Qed.
Lemma elem_safe : forall us, csafe elem_tries us. Proof. intros us. safe_steps ltac:(safe_part param_safe). Qed.
Lemma header_safe : forall us, csafe header_tries us. Proof. intros us. safe_steps idtac. Qed.
Lemma authinfo_safe : forall us, csafe authinfo_tries us. Proof. intros us. safe_steps idtac. Qed.
Lemma www_safe : forall us, csafe www_tries us. Proof. intros us. safe_steps idtac. Qed.
Lemma authz_safe : forall us, csafe authz_tries us. Proof. intros us. safe_steps idtac. Qed.
Lemma headers_safe : forall us, csafe [CEach 0 header_fields header_checks header_tries header_free] us. Proof. intros us. safe_steps ltac:(safe_part header_safe). Qed.
Lemma body_safe : forall us, has_headers us -> csafe body_tries us.
Proof. intros us H. safe_steps ltac:(first [safe_part content_type_safe|safe_part headers_safe|(cbn [safe_cop]; intros E; exact (H (at_nth _ _ _ E)))]). Qed.
Ltac safe_parts := first [safe_part uri_safe|safe_part from_safe|safe_part via_safe|safe_part cseq_safe|safe_part call_id_safe|safe_part content_length_safe|safe_part content_type_safe|safe_part elem_safe|safe_part header_safe|safe_part authinfo_safe|safe_part www_safe|safe_part authz_safe].
Lemma message_safe : forall us, bodies_have_headers us -> csafe message_tries us.
Proof. intros us H. safe_steps ltac:(first [safe_parts|cbn [safe_cop]; fold csafe; intros l vs E J; apply body_safe; exact (H l vs (at_nth _ _ _ E) J)]). Qed.

Lemma tried_weaken : forall malloc cl fs (c c' p p' : list tree -> Prop) m w us, (c' us -> c us) -> (p' us -> p us) -> tried malloc cl fs c p m w us -> tried malloc cl fs c' p' m w us.
Proof.
  intros malloc cl fs c c' p p' m w us C P T. unfold tried in *. destruct (cl m w); [| |exact T].
  - destruct T as (us' & fp' & lost & T1 & T2 & T3 & T4 & T5 & T6). exists us', fp', lost. do 5 (split; [assumption|]). intros U. destruct (T6 U) as [E K]. auto.
  - destruct T as (lost & T1 & T2 & T3 & T4 & T5). exists lost. do 4 (split; [assumption|]). destruct T5 as [T5|[E K]]; [left; exact T5|right; auto].
Qed.
Lemma apply_tried : forall malloc fs chk p fr (c pl : list tree -> Prop) m a us fp, sane malloc -> suits fs chk p fr -> csafe p us -> (c us -> takes chk p us) -> (pl us -> clean fs p us) ->
  holds (hp m) (KRec fs) (Ptr a) (Rec us) fp -> tried malloc (tclone malloc chk p fs fr) fs c pl m (Ptr a) us.
Proof. intros malloc fs chk p fr c pl m a us fp S (S1 & S2 & S3 & S4) SF C P H. apply (tried_weaken _ _ _ (takes chk p) _ (clean fs p)); auto. apply (clone_tried malloc S chk p fs fr m a us fp); auto. Qed.

(** osip_uri_param_clone, osip_generic_param_clone *)
Theorem C68_param_partial : forall malloc m a us fp, sane malloc -> holds (hp m) (KRec param_fields) (Ptr a) (Rec us) fp ->
  tried malloc (tclone malloc param_checks param_tries param_fields param_free) param_fields param_ok always m (Ptr a) us.
Proof. intros malloc m a us fp S H. apply (apply_tried _ _ _ _ _ _ _ _ _ _ fp S param_suits (param_safe us)); auto; [intros O; exact (proj1 (param_good us O))|intros _; apply param_clean]. Qed.
(** osip_uri_clone *)
Theorem C68_uri_partial : forall malloc m a us fp, sane malloc -> holds (hp m) (KRec uri_fields) (Ptr a) (Rec us) fp ->
  tried malloc (tclone malloc uri_checks uri_tries uri_fields uri_free) uri_fields uri_ok always m (Ptr a) us.
Proof. intros malloc m a us fp S H. apply (apply_tried _ _ _ _ _ _ _ _ _ _ fp S uri_suits (uri_safe us)); auto; [intros O; exact (proj1 (uri_good us O))|intros _; apply uri_clean]. Qed.
(** osip_from_clone, osip_to_clone, osip_contact_clone, osip_route_clone, osip_record_route_clone *)
Theorem C68_from_partial : forall malloc m a us fp, sane malloc -> holds (hp m) (KRec from_fields) (Ptr a) (Rec us) fp ->
  tried malloc (tclone malloc [] from_tries from_fields from_free) from_fields from_ok always m (Ptr a) us.
Proof. intros malloc m a us fp S H. apply (apply_tried _ _ _ _ _ _ _ _ _ _ fp S from_suits (from_safe us)); auto; [intros O; exact (proj1 (from_good us O))|intros _; apply from_clean]. Qed.
(** osip_via_clone *)
Theorem C68_via_partial : forall malloc m a us fp, sane malloc -> holds (hp m) (KRec via_fields) (Ptr a) (Rec us) fp ->
  tried malloc (tclone malloc via_checks via_tries via_fields via_free) via_fields via_ok always m (Ptr a) us.
Proof. intros malloc m a us fp S H. apply (apply_tried _ _ _ _ _ _ _ _ _ _ fp S via_suits (via_safe us)); auto; [intros O; exact (proj1 (via_good us O))|intros _; apply via_clean]. Qed.
(** osip_cseq_clone *)
Theorem C68_cseq_partial : forall malloc m a us fp, sane malloc -> holds (hp m) (KRec cseq_fields) (Ptr a) (Rec us) fp ->
  tried malloc (tclone malloc cseq_checks cseq_tries cseq_fields cseq_free) cseq_fields cseq_ok always m (Ptr a) us.
Proof. intros malloc m a us fp S H. apply (apply_tried _ _ _ _ _ _ _ _ _ _ fp S cseq_suits (cseq_safe us)); auto; [intros O; exact (proj1 (cseq_good us O))|intros _; apply cseq_clean]. Qed.
(** osip_call_id_clone *)
Theorem C68_call_id_partial : forall malloc m a us fp, sane malloc -> holds (hp m) (KRec call_id_fields) (Ptr a) (Rec us) fp ->
  tried malloc (tclone malloc call_id_checks call_id_tries call_id_fields call_id_free) call_id_fields call_id_ok always m (Ptr a) us.
Proof. intros malloc m a us fp S H. apply (apply_tried _ _ _ _ _ _ _ _ _ _ fp S call_id_suits (call_id_safe us)); auto; [intros O; exact (proj1 (call_id_good us O))|intros _; apply call_id_clean]. Qed.
(** osip_content_length_clone, osip_allow_clone, osip_content_encoding_clone, osip_mime_version_clone *)
Lemma content_length_tried : forall malloc m a us fp, sane malloc -> holds (hp m) (KRec content_length_fields) (Ptr a) (Rec us) fp ->
  tried malloc (tclone malloc [] content_length_tries content_length_fields content_length_free) content_length_fields always always m (Ptr a) us.
Proof. intros malloc m a us fp S H. apply (apply_tried _ _ _ _ _ _ _ _ _ _ fp S content_length_suits (content_length_safe us)); auto; [intros O; exact (proj1 (content_length_good us))|intros _; apply content_length_clean]. Qed.
(** osip_content_type_clone, osip_accept_clone *)
Theorem C68_content_type_partial : forall malloc m a us fp, sane malloc -> holds (hp m) (KRec content_type_fields) (Ptr a) (Rec us) fp ->
  tried malloc (tclone malloc [] content_type_tries content_type_fields content_type_free) content_type_fields content_type_ok always m (Ptr a) us.
Proof. intros malloc m a us fp S H. apply (apply_tried _ _ _ _ _ _ _ _ _ _ fp S content_type_suits (content_type_safe us)); auto; [intros O; exact (proj1 (content_type_good us O))|intros _; apply content_type_clean]. Qed.
(** osip_accept_encoding_clone, osip_accept_language_clone, osip_call_info_clone, osip_alert_info_clone, osip_error_info_clone *)
Theorem C68_elem_partial : forall malloc m a us fp, sane malloc -> holds (hp m) (KRec elem_fields) (Ptr a) (Rec us) fp ->
  tried malloc (tclone malloc elem_checks elem_tries elem_fields elem_free) elem_fields elem_ok always m (Ptr a) us.
Proof. intros malloc m a us fp S H. apply (apply_tried _ _ _ _ _ _ _ _ _ _ fp S elem_suits (elem_safe us)); auto; [intros O; exact (proj1 (elem_good us O))|intros _; apply elem_clean]. Qed.
(** osip_header_clone *)
Lemma header_tried : forall malloc m a us fp, sane malloc -> holds (hp m) (KRec header_fields) (Ptr a) (Rec us) fp ->
  tried malloc (tclone malloc header_checks header_tries header_fields header_free) header_fields header_ok always m (Ptr a) us.
Proof. intros malloc m a us fp S H. apply (apply_tried _ _ _ _ _ _ _ _ _ _ fp S header_suits (header_safe us)); auto; [intros O; exact (proj1 (header_good us O))|intros _; apply header_clean]. Qed.
(** osip_authentication_info_clone, osip_proxy_authentication_info_clone *)
Theorem C68_authinfo_partial : forall malloc m a us fp, sane malloc -> holds (hp m) (KRec authinfo_fields) (Ptr a) (Rec us) fp ->
  tried malloc (tclone malloc [] authinfo_tries authinfo_fields authinfo_free) authinfo_fields always always m (Ptr a) us.
Proof. intros malloc m a us fp S H. apply (apply_tried _ _ _ _ _ _ _ _ _ _ fp S authinfo_suits (authinfo_safe us)); auto; [intros O; exact (proj1 (authinfo_good us))|intros _; apply authinfo_clean]. Qed.
(** osip_www_authenticate_clone, osip_proxy_authenticate_clone; the copy is equal only when auth_param is NULL *)
Theorem C68_www_partial : forall malloc m a us fp, sane malloc -> holds (hp m) (KRec www_fields) (Ptr a) (Rec us) fp ->
  tried malloc (tclone malloc www_checks www_tries www_fields www_free) www_fields www_ok www_own m (Ptr a) us.
Proof. intros malloc m a us fp S H. apply (apply_tried _ _ _ _ _ _ _ _ _ _ fp S www_suits (www_safe us)); auto; [intros O; exact (proj1 (www_good us O))|apply www_clean]. Qed.
(** osip_authorization_clone, osip_proxy_authorization_clone; the copy is equal only when auth_param is NULL *)
Theorem C68_authz_partial : forall malloc m a us fp, sane malloc -> holds (hp m) (KRec authz_fields) (Ptr a) (Rec us) fp ->
  tried malloc (tclone malloc [] authz_tries authz_fields authz_free) authz_fields authz_ok authz_own m (Ptr a) us.
Proof. intros malloc m a us fp S H. apply (apply_tried _ _ _ _ _ _ _ _ _ _ fp S authz_suits (authz_safe us)); auto; [intros O; exact (proj1 (authz_good us O))|apply authz_clean]. Qed.
(** osip_body_clone *)
Theorem C68_body_partial : forall malloc m a us fp, sane malloc -> holds (hp m) (KRec body_fields) (Ptr a) (Rec us) fp -> has_headers us ->
  tried malloc (tclone malloc body_checks body_tries body_fields body_free) body_fields body_ok always m (Ptr a) us.
Proof. intros malloc m a us fp S H HH. apply (apply_tried _ _ _ _ _ _ _ _ _ _ fp S body_suits (body_safe us HH)); auto; [intros O; exact (proj1 (body_good us O))|intros _; apply body_clean]. Qed.
(** osip_message_clone *)
Theorem C68_message_partial : forall malloc m a us fp, sane malloc -> holds (hp m) (KRec message_fields) (Ptr a) (Rec us) fp -> bodies_have_headers us ->
  tried malloc (tclone malloc [] message_tries message_fields message_free) message_fields message_ok message_own m (Ptr a) us.
Proof. intros malloc m a us fp S H HH. apply (apply_tried _ _ _ _ _ _ _ _ _ _ fp S message_suits (message_safe us HH)); auto; [intros O; exact (proj1 (message_good us O))|apply message_clean]. Qed.

(** What [tried] comes to. *)
(** an error after which no failure was overlooked leaves the memory as it was *)
Theorem C68_error_leaves_nothing : forall malloc cl fs c p m w us m' code, tried malloc cl fs c p m w us -> cl m w = Fail m' code -> unseen m' = unseen m -> forall x, hp m' x = hp m x.
Proof. intros malloc cl fs c p m w us m' code T E U x. unfold tried in T. rewrite E in T. destruct T as (lost & T1 & T2 & T3 & T4 & T5). apply T2. rewrite (T4 U). intros []. Qed.
(** the original is never changed, whatever happens *)
Theorem C68_original_kept : forall malloc cl fs c p m w us fp, tried malloc cl fs c p m w us -> holds (hp m) (KRec fs) w (Rec us) fp ->
  match cl m w with Done m' _ | Fail m' _ => holds (hp m') (KRec fs) w (Rec us) fp | Bad => False end.
Proof.
  intros malloc cl fs c p m w us fp T H. unfold tried in T. destruct (cl m w) as [m' w'|m' code|]; [| |exact T].
  - destruct T as (us' & fp' & lost & T1 & T2 & T3 & T4 & _). apply (frame (hp m)); [exact H|]. intros x I. apply T4; intros J; apply (used _ _ _ _ _ _ H I); apply T3; auto.
  - destruct T as (lost & T1 & T2 & _). apply (frame (hp m)); [exact H|]. intros x I. apply T2. intros J. apply (used _ _ _ _ _ _ H I). apply T1. exact J.
Qed.
(** when every allocation succeeds, a complete structure is copied, and an incomplete one is refused without a trace *)
Theorem C68_enough_memory : forall malloc cl fs (c p : list tree -> Prop) m w us, (forall n h, malloc n h <> None) -> tried malloc cl fs c p m w us ->
  match cl m w with
  | Done m' w' => p us -> exists fp', holds (hp m') (KRec fs) w' (Rec us) fp' /\ NoDup fp' /\ (forall x, In x fp' -> hp m x = None) /\ (forall x, ~ In x fp' -> hp m' x = hp m x)
  | Fail m' code => code = OSIP_BADPARAMETER /\ ~ c us /\ forall x, hp m' x = hp m x
  | Bad => False
  end.
Proof.
  intros malloc cl fs c p m w us NF T. unfold tried in T. assert (NR : forall m m', ~ ran_out malloc m m') by (intros m1 m2 (n & h & _ & E); exact (NF n h E)).
  assert (NU : forall m', later malloc m m' -> unseen m' = unseen m) by (intros m' (A & B & C); destruct (Nat.eq_dec (unseen m') (unseen m)); [assumption|]; exfalso; apply (NR m m'); apply C; lia).
  destruct (cl m w) as [m' w'|m' code|]; [| |exact T].
  - destruct T as (us' & fp' & lost & T1 & T2 & T3 & T4 & T5 & T6). destruct (T6 (NU _ T5)) as [-> K]. intros P. rewrite (K P) in T1. exists fp'. split; [exact T1|]. split; [exact T2|]. split; auto.
  - destruct T as (lost & T1 & T2 & T3 & T4 & T5). rewrite (T4 (NU _ T3)) in T2. destruct T5 as [[_ R]|[-> N]]; [destruct (NR _ _ R)|]. split; [reflexivity|]. split; [exact N|]. intros x. apply T2. intros [].
Qed.

(** The functions that test every allocation: nothing is overlooked.  Then the whole claim holds: a complete and equal copy, or an error and the memory as before. *)
Definition all_or_nothing (malloc : nat -> heap -> option addr) (clone : memory -> word -> out word) (fs : list shape) (complete plain : list tree -> Prop) (m : memory) (w : word) (us : list tree) : Prop :=
  match clone m w with
  | Done m' w' => plain us -> exists fp', holds (hp m') (KRec fs) w' (Rec us) fp' /\ NoDup fp' /\ (forall x, In x fp' -> hp m x = None) /\ (forall x, ~ In x fp' -> hp m' x = hp m x)
  | Fail m' c => (forall x, hp m' x = hp m x) /\ (c = OSIP_NOMEM /\ ran_out malloc m m' \/ c = OSIP_BADPARAMETER /\ ~ complete us)
  | Bad => False
  end.
Definition careful (p : list cop) : Prop := Forall (fun o => match o with CDup true _ => True | _ => False end) p.
Lemma careful_runs : forall malloc p src dst m, careful p -> match cruns malloc p src dst m with Done m' _ | Fail m' _ => unseen m' = unseen m | Bad => True end.
Proof.
  intros malloc p src dst. induction p as [|o p IH]; intros m C; cbn [cruns]; [reflexivity|]. inversion C as [|? ? CO C']; subst. destruct o as [|[] i| | | |]; try contradiction. cbn [cstep].
  assert (ST : forall m1 w, unseen m1 = unseen m -> match match store m1 dst i w with Done m2 _ => cruns malloc p src dst m2 | r => r end with Done m' _ | Fail m' _ => unseen m' = unseen m | Bad => True end).
  { intros m1 w U. unfold store. destruct (set_field (hp m1) dst i w) as [h| |]; [|exact I|exact I]. pose proof (IH (mkMem h (tries m1) (unseen m1)) C') as R. destruct (cruns malloc p src dst _); [rewrite R; exact U|rewrite R; exact U|exact I]. }
  destruct (field (hp m) src i) as [[|a| | |]| |]; try exact I; [apply ST; reflexivity|]. destruct (text (hp m) a) as [s| |]; try exact I. destruct (malloc (tries m) (hp m)); [apply ST; reflexivity|reflexivity].
Qed.
Lemma careful_clone : forall malloc chk p fs fr m w, careful p -> match tclone malloc chk p fs fr m w with Done m' _ | Fail m' _ => unseen m' = unseen m | Bad => True end.
Proof.
  intros malloc chk p fs fr m w C. unfold tclone, tclone_with. destruct w as [|a| | |]; try exact I; [reflexivity|]. destruct (pass_all (hp m) a chk) as [[]| |]; try exact I; [|reflexivity].
  destruct (malloc (tries m) (hp m)) as [d|]; [|reflexivity]. pose proof (careful_runs malloc p a d (tick m (put (hp m) d (BRec (map init_word fs)))) C) as R.
  destruct (cruns malloc p a d _) as [m'|m' c|]; [exact R| |exact I]. destruct (destroy fr (hp m') (Ptr d)); try exact I. exact R.
Qed.
Lemma strict : forall malloc chk p fs fr (c pl : list tree -> Prop) m w us, careful p -> tried malloc (tclone malloc chk p fs fr) fs c pl m w us -> all_or_nothing malloc (tclone malloc chk p fs fr) fs c pl m w us.
Proof.
  intros malloc chk p fs fr c pl m w us C T. pose proof (careful_clone malloc chk p fs fr m w C) as U. unfold tried, all_or_nothing in *. destruct (tclone malloc chk p fs fr m w) as [m' w'|m' code|]; [| |exact T].
  - destruct T as (us' & fp' & lost & T1 & T2 & T3 & T4 & T5 & T6). destruct (T6 U) as [-> K]. intros P. rewrite (K P) in T1. exists fp'. split; [exact T1|]. split; [exact T2|]. split; auto.
  - destruct T as (lost & T1 & T2 & T3 & T4 & T5). rewrite (T4 U) in T2. split; [|exact T5]. intros x. apply T2. intros [].
Qed.
(** osip_content_length_clone, osip_allow_clone, osip_content_encoding_clone, osip_mime_version_clone *)
Theorem C68_content_length : forall malloc m a us fp, sane malloc -> holds (hp m) (KRec content_length_fields) (Ptr a) (Rec us) fp ->
  all_or_nothing malloc (tclone malloc [] content_length_tries content_length_fields content_length_free) content_length_fields always always m (Ptr a) us.
Proof. intros. apply strict; [repeat constructor|]. apply (content_length_tried _ _ _ _ fp); assumption. Qed.
(** osip_header_clone *)
Theorem C68_header : forall malloc m a us fp, sane malloc -> holds (hp m) (KRec header_fields) (Ptr a) (Rec us) fp ->
  all_or_nothing malloc (tclone malloc header_checks header_tries header_fields header_free) header_fields header_ok always m (Ptr a) us.
Proof. intros. apply strict; [repeat constructor|]. apply (header_tried _ _ _ _ fp); assumption. Qed.
(** osip_www_authenticate_clone, osip_proxy_authenticate_clone *)
Theorem C68_www : forall malloc m a us fp, sane malloc -> holds (hp m) (KRec www_fields) (Ptr a) (Rec us) fp ->
  all_or_nothing malloc (tclone malloc www_checks www_tries www_fields www_free) www_fields www_ok www_own m (Ptr a) us.
Proof. intros. apply strict; [repeat constructor|]. apply (C68_www_partial _ _ _ _ fp); assumption. Qed.

(** an allocator that fails at the [n]-th call only, and one that fails from the [n]-th call on *)
Definition but (n k : nat) (h : heap) : option addr := if Nat.eqb k n then None else Some (next_free h).
Definition until (n k : nat) (h : heap) : option addr := if Nat.ltb k n then Some (next_free h) else None.
Lemma but_sane : forall n, sane (but n).
Proof. intros n k h a E. unfold but in E. destruct (Nat.eqb k n); [discriminate|]. injection E as <-. apply next_free_fresh. Qed.
Lemma until_sane : forall n, sane (until n).
Proof. intros n k h a E. unfold until in E. destruct (Nat.ltb k n); [|discriminate]. injection E as <-. apply next_free_fresh. Qed.
Definition start (h : heap) : memory := mkMem h 0 0.

(** the request of [CloneProps] in a memory for 20 more blocks: the copy of the extra header fails, the 20 blocks are given back; 29 blocks are enough *)
Example C68_example : (exists fp, holds (hp (start ex_heap)) (KRec message_fields) (Ptr 0) (Rec ex_value) fp) /\ bodies_have_headers ex_value /\ message_own ex_value /\
  match tclone (until 20) [] message_tries message_fields message_free (start ex_heap) (Ptr 0) with Fail m c => c = OSIP_NOMEM /\ tries m = 21 /\ unseen m = 0 /\ hp m = ex_heap | _ => False end /\
  match tclone (until 28) [] message_tries message_fields message_free (start ex_heap) (Ptr 0) with Fail m c => c = OSIP_NOMEM /\ tries m = 29 /\ unseen m = 0 /\ hp m = ex_heap | _ => False end /\
  match tclone (until 29) [] message_tries message_fields message_free (start ex_heap) (Ptr 0) with Done m _ => unseen m = 0 /\ length (cells (hp m)) <> 0 | _ => False end.
Proof.
  split; [destruct C48_example as (fp & H & _); exists fp; exact H|]. split; [intros l us E J; cbn in E; injection E as <-; destruct J as [J|[]]; injection J as <-; cbn; discriminate|].
  split; [unfold message_own, all, ex_value, at_; repeat split; cbn; intros l us E I; injection E as <-; destruct I|]. vm_compute. repeat split; discriminate.
Qed.

(** Findings. *)
(** osip_uri_clone succeeds with a copy that has no host when the memory for the host cannot be had (its osip_strdup results are not tested; the same holds for
    osip_uri_param_clone, osip_cseq_clone, osip_call_id_clone, osip_content_type_clone and osip_authentication_info_clone) *)
Definition uri_heap : heap := mkHeap [(0, BRec [Ptr 1; Null; Null; Ptr 2; Null; Lst 1 (Some 3); Lst 0 None; Null]); (1, BText $"sip"); (2, BText $"b.org"); (3, BNode (Ptr 4) None); (4, BRec [Ptr 5; Null]); (5, BText $"lr")].
Definition uri_value : list tree := [Text $"sip"; Nul; Nul; Text $"b.org"; Nul; Seq [Rec [Text $"lr"; Nul]]; Seq []; Nul].
Lemma uri_holds : exists fp, holds uri_heap (KRec uri_fields) (Ptr 0) (Rec uri_value) fp.
Proof. eexists. unfold uri_value, uri_fields. hold. Qed.
Theorem C68_uri_refuted : exists m d fp', tclone (but 2) uri_checks uri_tries uri_fields uri_free (start uri_heap) (Ptr 0) = Done m (Ptr d) /\ uri_ok uri_value /\
  holds (hp m) (KRec uri_fields) (Ptr d) (Rec [Text $"sip"; Nul; Nul; Nul; Nul; Seq [Rec [Text $"lr"; Nul]]; Seq []; Nul]) fp'.
Proof.
  do 3 eexists. split; [vm_compute; reflexivity|]. split; [|cbn [hp]; unfold uri_fields; hold]. split; [left; discriminate|]. split; intros l us E J; cbn in E; injection E as <-; [destruct J as [J|[]]; injection J as <-; discriminate|destruct J].
Qed.
(** osip_list_clone succeeds when the node for an element cannot be had: the element is missing in the copy, and its blocks stay allocated for ever (osip_list_add answers an error, which is not looked at) *)
Theorem C68_list_refuted : exists m d fp' x y, tclone (but 5) uri_checks uri_tries uri_fields uri_free (start uri_heap) (Ptr 0) = Done m (Ptr d) /\
  holds (hp m) (KRec uri_fields) (Ptr d) (Rec [Text $"sip"; Nul; Nul; Text $"b.org"; Nul; Seq []; Seq []; Nul]) fp' /\
  uri_heap x = None /\ hp m x = Some (BRec [Ptr y; Null]) /\ uri_heap y = None /\ hp m y = Some (BText $"lr") /\ ~ In x fp' /\ ~ In y fp'.
Proof.
  do 3 eexists. exists 9, 10. split; [vm_compute; reflexivity|]. split; [cbn [hp]; unfold uri_fields; hold|]. repeat split; try reflexivity; cbn; intuition discriminate.
Qed.
(** osip_authorization_clone tests the realm of the original instead of that of the copy (and so for eleven more fields): credentials without realm, and success *)
Definition authz_heap : heap := mkHeap [(0, BRec ([Ptr 1; Ptr 2; Ptr 3] ++ repeat Null 15)); (1, BText $"Digest"); (2, BText $"bob"); (3, BText $"r")].
Theorem C68_authz_refuted : exists m d fp fp', holds authz_heap (KRec authz_fields) (Ptr 0) (Rec ([Text $"Digest"; Text $"bob"; Text $"r"] ++ repeat Nul 15)) fp /\
  tclone (but 3) [] authz_tries authz_fields authz_free (start authz_heap) (Ptr 0) = Done m (Ptr d) /\ holds (hp m) (KRec authz_fields) (Ptr d) (Rec ([Text $"Digest"; Text $"bob"] ++ repeat Nul 16)) fp'.
Proof.
  do 4 eexists. split; [cbn [app repeat]; unfold authz_fields; cbn [repeat]; hold|]. split; [vm_compute; reflexivity|]. cbn [hp app repeat]. unfold authz_fields. cbn [repeat]. hold.
Qed.
(** the username, whose copy is tested, is reported *)
Example C68_authz_seen : match tclone (but 2) [] authz_tries authz_fields authz_free (start authz_heap) (Ptr 0) with Fail m c => c = OSIP_NOMEM /\ hp m = authz_heap | _ => False end.
Proof. vm_compute. split; reflexivity. Qed.
(** a message whose body is refused (it is empty): everything copied before is given back *)
Example C68_refused : match tclone (until 1000) [] message_tries message_fields message_free (start empty_body_heap) (Ptr 0) with Fail m c => c = OSIP_BADPARAMETER /\ hp m = empty_body_heap | _ => False end.
Proof. vm_compute. split; reflexivity. Qed.
Print Assumptions C68_param_partial.
Print Assumptions C68_uri_partial.
Print Assumptions C68_from_partial.
Print Assumptions C68_via_partial.
Print Assumptions C68_cseq_partial.
Print Assumptions C68_call_id_partial.
Print Assumptions C68_content_length.
Print Assumptions C68_content_type_partial.
Print Assumptions C68_elem_partial.
Print Assumptions C68_header.
Print Assumptions C68_www_partial.
Print Assumptions C68_www.
Print Assumptions C68_authz_partial.
Print Assumptions C68_authinfo_partial.
Print Assumptions C68_body_partial.
Print Assumptions C68_message_partial.
Print Assumptions C68_error_leaves_nothing.
Print Assumptions C68_original_kept.
Print Assumptions C68_enough_memory.
Print Assumptions C68_uri_refuted.
Print Assumptions C68_list_refuted.
Print Assumptions C68_authz_refuted.

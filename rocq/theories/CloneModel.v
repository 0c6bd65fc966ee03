(** The clone functions.  osip_strdup is the identity on string values; allocation always
    succeeds.  [Err] is returned exactly where the C code refuses to clone. *)
From Coq Require Import String ZArith Ascii Bool List.
From Verif Require Import Base Str Types.
Import ListNotations.

(** osip_strdup (osip_port.c 345-359) of a possibly NULL string *)
Definition strdup (s : option str) : option str := s.

(** osip_list_clone (osip_list.c 35-49): clone each element in order, append to the copy *)
Fixpoint list_clone {A} (f : A -> res A) (acc l : list A) : res (list A) :=
  match l with
  | [] => Ok acc
  | x :: l' => do y <- f x ; list_clone f (acc ++ [y]) l'
  end.

(** osip_uri_param_clone (osip_uri.c 872-893), also osip_generic_param_clone *)
Definition param_clone (p : param) : res param := Ok (fst p, strdup (snd p)).

(** osip_uri_clone (osip_uri.c 741-780) *)
Definition uri_clone (u : option uri) : res uri :=
  match u with
  | None => Err OSIP_BADPARAMETER
  | Some u =>
    match u_host u, u_string u with
    | None, None => Err OSIP_BADPARAMETER
    | _, _ =>
      do ps <- list_clone param_clone [] (u_params u) ;
      do hs <- list_clone param_clone [] (u_headers u) ;
      Ok (mkUri (strdup (u_scheme u)) (strdup (u_username u)) (strdup (u_password u))
                (strdup (u_host u)) (strdup (u_port u)) ps hs (strdup (u_string u)))
    end
  end.

(** A pointer copied only when not NULL: "if (x->f != NULL) { i = clone (...); if (i != 0) return i; }" *)
Definition opt_clone {A} (f : A -> res A) (x : option A) : res (option A) :=
  match x with None => Ok None | Some a => do b <- f a ; Ok (Some b) end.

(** osip_from_clone (osip_from.c 396-431); osip_to_clone, osip_contact_clone,
    osip_route_clone, osip_record_route_clone call it *)
Definition from_clone (f : option nameaddr) : res nameaddr :=
  match f with
  | None => Err OSIP_BADPARAMETER
  | Some f =>
    do u <- opt_clone (fun u => uri_clone (Some u)) (na_url f) ;
    do ps <- list_clone param_clone [] (na_params f) ;
    Ok (mkNA (strdup (na_display f)) u ps)
  end.

(** osip_via_clone (osip_via.c 417-472) *)
Definition via_clone (v : option via) : res via :=
  match v with
  | None => Err OSIP_BADPARAMETER
  | Some v =>
    match v_version v, v_protocol v, v_host v with
    | Some _, Some _, Some _ =>
      do ps <- list_clone param_clone [] (v_params v) ;
      Ok (mkVia (strdup (v_version v)) (strdup (v_protocol v)) (strdup (v_host v))
                (strdup (v_port v)) (strdup (v_comment v)) ps)
    | _, _, _ => Err OSIP_BADPARAMETER
    end
  end.

(** osip_cseq_clone (osip_cseq.c 170-193) *)
Definition cseq_clone (c : option cseq) : res cseq :=
  match c with
  | Some c => match cs_method c, cs_number c with
              | Some m, Some n => Ok (mkCSeq (Some m) (Some n))
              | _, _ => Err OSIP_BADPARAMETER
              end
  | None => Err OSIP_BADPARAMETER
  end.

(** osip_call_id_clone (osip_call_id.c 181-201) *)
Definition call_id_clone (c : option call_id) : res call_id :=
  match c with
  | Some c => match ci_number c with
              | Some n => Ok (mkCid (Some n) (strdup (ci_host c)))
              | None => Err OSIP_BADPARAMETER
              end
  | None => Err OSIP_BADPARAMETER
  end.

(** osip_content_length_clone (osip_content_length.c 118-142); also osip_allow_clone,
    osip_content_encoding_clone, osip_mime_version_clone *)
Definition content_length_clone (c : option str) : res (option str) := Ok (strdup c).

(** osip_content_type_clone (osip_content_type.c 211-243); osip_accept_clone *)
Definition content_type_clone (c : content_type) : res content_type :=
  do ps <- list_clone param_clone [] (ct_params c) ;
  Ok (mkCT (strdup (ct_type c)) (strdup (ct_subtype c)) ps).

(** osip_accept_encoding_clone (osip_accept_encoding.c 166-200), osip_call_info_clone
    (osip_call_info.c 174-201) and their aliases (accept_language, alert_info, error_info) *)
Definition elem_clone (e : elem) : res elem :=
  match el_element e with
  | None => Err OSIP_BADPARAMETER
  | Some x => do ps <- list_clone param_clone [] (el_params e) ; Ok (mkElem (Some x) ps)
  end.

(** osip_header_clone (osip_header.c 285-315) *)
Definition header_clone (h : header) : res header :=
  match h_name h with
  | None => Err OSIP_BADPARAMETER
  | Some n => Ok (mkHeader (Some n) (strdup (h_value h)))
  end.

(** osip_www_authenticate_clone (osip_www_authenticate.c 645-729) *)
Definition www_clone (w : www_auth) : res www_auth :=
  match w_auth_type w with
  | None => Err OSIP_BADPARAMETER
  | Some t => Ok (mkWww (Some t) (strdup (w_realm w)) (strdup (w_domain w)) (strdup (w_nonce w))
                   (strdup (w_opaque w)) (strdup (w_stale w)) (strdup (w_algorithm w)) (strdup (w_qop w))
                   (strdup (w_version w)) (strdup (w_targetname w)) (strdup (w_gssapi w)))
  end.

(** osip_authorization_clone (osip_authorization.c 720-880) *)
Definition authz_clone (a : authz) : res authz :=
  Ok (mkAuthz (strdup (a_auth_type a)) (strdup (a_username a)) (strdup (a_realm a)) (strdup (a_nonce a))
        (strdup (a_uri a)) (strdup (a_response a)) (strdup (a_digest a)) (strdup (a_algorithm a))
        (strdup (a_cnonce a)) (strdup (a_opaque a)) (strdup (a_message_qop a)) (strdup (a_nonce_count a))
        (strdup (a_version a)) (strdup (a_targetname a)) (strdup (a_gssapi a)) (strdup (a_crand a))
        (strdup (a_cnum a))).

(** osip_authentication_info_clone (osip_authentication_info.c 530-575) *)
Definition authinfo_clone (a : authinfo) : res authinfo :=
  Ok (mkAI (strdup (ai_auth_type a)) (strdup (ai_nextnonce a)) (strdup (ai_qop a)) (strdup (ai_rspauth a))
        (strdup (ai_cnonce a)) (strdup (ai_nonce_count a)) (strdup (ai_snum a)) (strdup (ai_srand a))
        (strdup (ai_realm a)) (strdup (ai_targetname a)) (strdup (ai_opaque a))).

(** osip_body_clone (osip_body.c 76-113) *)
Definition body_clone (b : body) : res body :=
  match b_body b with
  | [] => Err OSIP_BADPARAMETER
  | _ => do ct <- opt_clone content_type_clone (b_ctype b) ;
         do hs <- list_clone header_clone [] (b_headers b) ;
         Ok (mkBody (b_body b) hs ct)
  end.

(** osip_message_clone (osip_message.c 173-373), without the cached text. *)
Definition msg_clone (m : message) : res message :=
  do u <- opt_clone (fun u => uri_clone (Some u)) (m_uri m) ;
  do accepts <- list_clone content_type_clone [] (m_accepts m) ;
  do aenc <- list_clone elem_clone [] (m_accept_encodings m) ;
  do alang <- list_clone elem_clone [] (m_accept_languages m) ;
  do alert <- list_clone elem_clone [] (m_alert_infos m) ;
  do allows <- list_clone content_length_clone [] (m_allows m) ;
  do ainfos <- list_clone authinfo_clone [] (m_auth_infos m) ;
  do cenc <- list_clone content_length_clone [] (m_content_encodings m) ;
  do einfo <- list_clone elem_clone [] (m_error_infos m) ;
  do pai <- list_clone authinfo_clone [] (m_proxy_auth_infos m) ;
  do cinfo <- list_clone elem_clone [] (m_call_infos m) ;
  do auths <- list_clone authz_clone [] (m_authorizations m) ;
  do cid <- opt_clone (fun c => call_id_clone (Some c)) (m_call_id m) ;
  do contacts <- list_clone (fun f => from_clone (Some f)) [] (m_contacts m) ;
  do cl <- opt_clone content_length_clone (m_content_length m) ;
  do ct <- opt_clone content_type_clone (m_content_type m) ;
  do cs <- opt_clone (fun c => cseq_clone (Some c)) (m_cseq m) ;
  do fr <- opt_clone (fun f => from_clone (Some f)) (m_from m) ;
  do mv <- opt_clone content_length_clone (m_mime_version m) ;
  do pauth <- list_clone www_clone [] (m_proxy_authenticates m) ;
  do pauthz <- list_clone authz_clone [] (m_proxy_authorizations m) ;
  do rr <- list_clone (fun f => from_clone (Some f)) [] (m_record_routes m) ;
  do ro <- list_clone (fun f => from_clone (Some f)) [] (m_routes m) ;
  do to <- opt_clone (fun f => from_clone (Some f)) (m_to m) ;
  do vias <- list_clone (fun v => via_clone (Some v)) [] (m_vias m) ;
  do www <- list_clone www_clone [] (m_www_authenticates m) ;
  do hs <- list_clone header_clone [] (m_headers m) ;
  do bs <- list_clone body_clone [] (m_bodies m) ;
  Ok (mkMsg (strdup (m_version m)) u (strdup (m_method m)) (m_status m) (strdup (m_reason m))
        accepts aenc alang alert allows ainfos auths cid cinfo contacts cenc cl ct cs einfo fr mv
        pauth pai pauthz rr ro to vias www hs bs).

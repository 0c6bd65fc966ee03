(** The C structures of the code, as records.  A C list (osip_list_t) of elements is a Coq list
    (justified by C01), a [char *] that may be NULL is an [option str]. *)
From Coq Require Import String ZArith Ascii Bool List.
From Verif Require Import Base Str.
Import ListNotations.

(** osip_uri_param_t / osip_generic_param_t: osip_uri.h 55-59.  Simplification: [gname] is
    never NULL (every constructor in the parsers sets it). *)
Definition param := (str * option str)%type.

(** osip_uri_t: osip_uri.h 167-181 *)
Record uri := mkUri {
  u_scheme : option str; u_username : option str; u_password : option str;
  u_host : option str; u_port : option str;
  u_params : list param; u_headers : list param;
  u_string : option str }.

(** osip_from_t, and osip_to_t, osip_contact_t, osip_route_t, osip_record_route_t which are
    the same structure: osip_from.h 48-53 *)
Record nameaddr := mkNA { na_display : option str; na_url : option uri; na_params : list param }.

(** osip_via_t: osip_via.h 47-55 *)
Record via := mkVia {
  v_version : option str; v_protocol : option str; v_host : option str;
  v_port : option str; v_comment : option str; v_params : list param }.

(** osip_cseq_t: osip_cseq.h 45-49 *)
Record cseq := mkCSeq { cs_method : option str; cs_number : option str }.

(** osip_call_id_t: osip_call_id.h 45-49 *)
Record call_id := mkCid { ci_number : option str; ci_host : option str }.

(** osip_content_type_t, osip_accept_t: osip_content_type.h 47-52 *)
Record content_type := mkCT { ct_type : option str; ct_subtype : option str; ct_params : list param }.

(** osip_accept_encoding_t, osip_accept_language_t, osip_call_info_t, osip_alert_info_t,
    osip_error_info_t: osip_accept_encoding.h, osip_call_info.h *)
Record elem := mkElem { el_element : option str; el_params : list param }.

(** osip_header_t: osip_header.h *)
Record header := mkHeader { h_name : option str; h_value : option str }.

(** osip_www_authenticate_t (and Proxy-Authenticate): osip_www_authenticate.h *)
Record www_auth := mkWww {
  w_auth_type : option str; w_realm : option str; w_domain : option str; w_nonce : option str;
  w_opaque : option str; w_stale : option str; w_algorithm : option str; w_qop : option str;
  w_version : option str; w_targetname : option str; w_gssapi : option str }.

(** osip_authorization_t (and Proxy-Authorization): osip_authorization.h *)
Record authz := mkAuthz {
  a_auth_type : option str; a_username : option str; a_realm : option str; a_nonce : option str;
  a_uri : option str; a_response : option str; a_digest : option str; a_algorithm : option str;
  a_cnonce : option str; a_opaque : option str; a_message_qop : option str;
  a_nonce_count : option str; a_version : option str; a_targetname : option str;
  a_gssapi : option str; a_crand : option str; a_cnum : option str }.

(** osip_authentication_info_t: osip_authentication_info.h *)
Record authinfo := mkAI {
  ai_auth_type : option str; ai_nextnonce : option str; ai_qop : option str; ai_rspauth : option str;
  ai_cnonce : option str; ai_nonce_count : option str; ai_snum : option str; ai_srand : option str;
  ai_realm : option str; ai_targetname : option str; ai_opaque : option str }.

(** osip_body_t: osip_body.h 48-54 (binary contents: [b_length] = length of [b_body]) *)
Record body := mkBody { b_body : str; b_headers : list header; b_ctype : option content_type }.

(** osip_message_t: osip_message.h 55-113 without the cache (message, message_length,
    message_property) and application_data. *)
Record message := mkMsg {
  m_version : option str; m_uri : option uri; m_method : option str;
  m_status : Z; m_reason : option str;
  m_accepts : list content_type; m_accept_encodings : list elem; m_accept_languages : list elem;
  m_alert_infos : list elem; m_allows : list (option str); m_auth_infos : list authinfo;
  m_authorizations : list authz; m_call_id : option call_id; m_call_infos : list elem;
  m_contacts : list nameaddr; m_content_encodings : list (option str);
  m_content_length : option (option str); m_content_type : option content_type;
  m_cseq : option cseq; m_error_infos : list elem; m_from : option nameaddr;
  m_mime_version : option (option str); m_proxy_authenticates : list www_auth;
  m_proxy_auth_infos : list authinfo; m_proxy_authorizations : list authz;
  m_record_routes : list nameaddr; m_routes : list nameaddr; m_to : option nameaddr;
  m_vias : list via; m_www_authenticates : list www_auth;
  m_headers : list header; m_bodies : list body }.

(** osip_message_init (osip_message.c 28-75): every list empty, every pointer NULL. *)
Definition msg_init : message :=
  mkMsg None None None 0 None [] [] [] [] [] [] [] None [] [] [] None None None [] None None
        [] [] [] [] [] None [] [] [] [].

(** MSG_IS_REQUEST / MSG_IS_RESPONSE: osip_message.h 240-245 *)
Definition is_request (m : message) : bool := Z.eqb (m_status m) 0.

(** The status classes: osip_message.h 332-367 *)
Definition status_in (lo hi : Z) (m : message) : bool := (lo <=? m_status m)%Z && (m_status m <? hi)%Z.
Definition is_1xx := status_in 100 200.
Definition is_2xx := status_in 200 300.
Definition is_3xx := status_in 300 400.
Definition is_4xx := status_in 400 500.
Definition is_5xx := status_in 500 600.

(** MSG_IS_INVITE, MSG_IS_ACK, MSG_IS_REGISTER ...: osip_message.h 251-325.
    strcmp on a NULL sip_method is undefined behaviour in C; the event constructors
    (osip_event.c 54-60, 99-104) refuse requests without a method, so NULL answers false here. *)
Definition is_method (name : str) (m : message) : bool :=
  is_request m && match m_method m with Some x => streq x name | None => false end.

(** osip_uri_param_get_byname (osip_uri.c 844-869): first parameter with this name,
    compared without case.  The caller's name is never empty. *)
Definition param_get (ps : list param) (name : str) : option param :=
  find (fun p => strcaseeq (fst p) name) ps.

(** Assignments to one field of an osip_message_t (osip_message.h 55-113). *)
From Coq Require Import ZArith List.
From Verif Require Import Base Str Types.

(** sip->version = x: osip_message.h 55-113 *)
Definition with_version x (m : message) : message :=
  mkMsg x (m_uri m) (m_method m) (m_status m) (m_reason m) (m_accepts m) (m_accept_encodings m) (m_accept_languages m) (m_alert_infos m) (m_allows m) (m_auth_infos m) (m_authorizations m) (m_call_id m) (m_call_infos m) (m_contacts m) (m_content_encodings m) (m_content_length m) (m_content_type m) (m_cseq m) (m_error_infos m) (m_from m) (m_mime_version m) (m_proxy_authenticates m) (m_proxy_auth_infos m) (m_proxy_authorizations m) (m_record_routes m) (m_routes m) (m_to m) (m_vias m) (m_www_authenticates m) (m_headers m) (m_bodies m).
(** sip->uri = x: osip_message.h 55-113 *)
Definition with_uri x (m : message) : message :=
  mkMsg (m_version m) x (m_method m) (m_status m) (m_reason m) (m_accepts m) (m_accept_encodings m) (m_accept_languages m) (m_alert_infos m) (m_allows m) (m_auth_infos m) (m_authorizations m) (m_call_id m) (m_call_infos m) (m_contacts m) (m_content_encodings m) (m_content_length m) (m_content_type m) (m_cseq m) (m_error_infos m) (m_from m) (m_mime_version m) (m_proxy_authenticates m) (m_proxy_auth_infos m) (m_proxy_authorizations m) (m_record_routes m) (m_routes m) (m_to m) (m_vias m) (m_www_authenticates m) (m_headers m) (m_bodies m).
(** sip->method = x: osip_message.h 55-113 *)
Definition with_method x (m : message) : message :=
  mkMsg (m_version m) (m_uri m) x (m_status m) (m_reason m) (m_accepts m) (m_accept_encodings m) (m_accept_languages m) (m_alert_infos m) (m_allows m) (m_auth_infos m) (m_authorizations m) (m_call_id m) (m_call_infos m) (m_contacts m) (m_content_encodings m) (m_content_length m) (m_content_type m) (m_cseq m) (m_error_infos m) (m_from m) (m_mime_version m) (m_proxy_authenticates m) (m_proxy_auth_infos m) (m_proxy_authorizations m) (m_record_routes m) (m_routes m) (m_to m) (m_vias m) (m_www_authenticates m) (m_headers m) (m_bodies m).
(** sip->status = x: osip_message.h 55-113 *)
Definition with_status x (m : message) : message :=
  mkMsg (m_version m) (m_uri m) (m_method m) x (m_reason m) (m_accepts m) (m_accept_encodings m) (m_accept_languages m) (m_alert_infos m) (m_allows m) (m_auth_infos m) (m_authorizations m) (m_call_id m) (m_call_infos m) (m_contacts m) (m_content_encodings m) (m_content_length m) (m_content_type m) (m_cseq m) (m_error_infos m) (m_from m) (m_mime_version m) (m_proxy_authenticates m) (m_proxy_auth_infos m) (m_proxy_authorizations m) (m_record_routes m) (m_routes m) (m_to m) (m_vias m) (m_www_authenticates m) (m_headers m) (m_bodies m).
(** sip->reason = x: osip_message.h 55-113 *)
Definition with_reason x (m : message) : message :=
  mkMsg (m_version m) (m_uri m) (m_method m) (m_status m) x (m_accepts m) (m_accept_encodings m) (m_accept_languages m) (m_alert_infos m) (m_allows m) (m_auth_infos m) (m_authorizations m) (m_call_id m) (m_call_infos m) (m_contacts m) (m_content_encodings m) (m_content_length m) (m_content_type m) (m_cseq m) (m_error_infos m) (m_from m) (m_mime_version m) (m_proxy_authenticates m) (m_proxy_auth_infos m) (m_proxy_authorizations m) (m_record_routes m) (m_routes m) (m_to m) (m_vias m) (m_www_authenticates m) (m_headers m) (m_bodies m).
(** sip->accepts = x: osip_message.h 55-113 *)
Definition with_accepts x (m : message) : message :=
  mkMsg (m_version m) (m_uri m) (m_method m) (m_status m) (m_reason m) x (m_accept_encodings m) (m_accept_languages m) (m_alert_infos m) (m_allows m) (m_auth_infos m) (m_authorizations m) (m_call_id m) (m_call_infos m) (m_contacts m) (m_content_encodings m) (m_content_length m) (m_content_type m) (m_cseq m) (m_error_infos m) (m_from m) (m_mime_version m) (m_proxy_authenticates m) (m_proxy_auth_infos m) (m_proxy_authorizations m) (m_record_routes m) (m_routes m) (m_to m) (m_vias m) (m_www_authenticates m) (m_headers m) (m_bodies m).
(** sip->accept_encodings = x: osip_message.h 55-113 *)
Definition with_accept_encodings x (m : message) : message :=
  mkMsg (m_version m) (m_uri m) (m_method m) (m_status m) (m_reason m) (m_accepts m) x (m_accept_languages m) (m_alert_infos m) (m_allows m) (m_auth_infos m) (m_authorizations m) (m_call_id m) (m_call_infos m) (m_contacts m) (m_content_encodings m) (m_content_length m) (m_content_type m) (m_cseq m) (m_error_infos m) (m_from m) (m_mime_version m) (m_proxy_authenticates m) (m_proxy_auth_infos m) (m_proxy_authorizations m) (m_record_routes m) (m_routes m) (m_to m) (m_vias m) (m_www_authenticates m) (m_headers m) (m_bodies m).
(** sip->accept_languages = x: osip_message.h 55-113 *)
Definition with_accept_languages x (m : message) : message :=
  mkMsg (m_version m) (m_uri m) (m_method m) (m_status m) (m_reason m) (m_accepts m) (m_accept_encodings m) x (m_alert_infos m) (m_allows m) (m_auth_infos m) (m_authorizations m) (m_call_id m) (m_call_infos m) (m_contacts m) (m_content_encodings m) (m_content_length m) (m_content_type m) (m_cseq m) (m_error_infos m) (m_from m) (m_mime_version m) (m_proxy_authenticates m) (m_proxy_auth_infos m) (m_proxy_authorizations m) (m_record_routes m) (m_routes m) (m_to m) (m_vias m) (m_www_authenticates m) (m_headers m) (m_bodies m).
(** sip->alert_infos = x: osip_message.h 55-113 *)
Definition with_alert_infos x (m : message) : message :=
  mkMsg (m_version m) (m_uri m) (m_method m) (m_status m) (m_reason m) (m_accepts m) (m_accept_encodings m) (m_accept_languages m) x (m_allows m) (m_auth_infos m) (m_authorizations m) (m_call_id m) (m_call_infos m) (m_contacts m) (m_content_encodings m) (m_content_length m) (m_content_type m) (m_cseq m) (m_error_infos m) (m_from m) (m_mime_version m) (m_proxy_authenticates m) (m_proxy_auth_infos m) (m_proxy_authorizations m) (m_record_routes m) (m_routes m) (m_to m) (m_vias m) (m_www_authenticates m) (m_headers m) (m_bodies m).
(** sip->allows = x: osip_message.h 55-113 *)
Definition with_allows x (m : message) : message :=
  mkMsg (m_version m) (m_uri m) (m_method m) (m_status m) (m_reason m) (m_accepts m) (m_accept_encodings m) (m_accept_languages m) (m_alert_infos m) x (m_auth_infos m) (m_authorizations m) (m_call_id m) (m_call_infos m) (m_contacts m) (m_content_encodings m) (m_content_length m) (m_content_type m) (m_cseq m) (m_error_infos m) (m_from m) (m_mime_version m) (m_proxy_authenticates m) (m_proxy_auth_infos m) (m_proxy_authorizations m) (m_record_routes m) (m_routes m) (m_to m) (m_vias m) (m_www_authenticates m) (m_headers m) (m_bodies m).
(** sip->auth_infos = x: osip_message.h 55-113 *)
Definition with_auth_infos x (m : message) : message :=
  mkMsg (m_version m) (m_uri m) (m_method m) (m_status m) (m_reason m) (m_accepts m) (m_accept_encodings m) (m_accept_languages m) (m_alert_infos m) (m_allows m) x (m_authorizations m) (m_call_id m) (m_call_infos m) (m_contacts m) (m_content_encodings m) (m_content_length m) (m_content_type m) (m_cseq m) (m_error_infos m) (m_from m) (m_mime_version m) (m_proxy_authenticates m) (m_proxy_auth_infos m) (m_proxy_authorizations m) (m_record_routes m) (m_routes m) (m_to m) (m_vias m) (m_www_authenticates m) (m_headers m) (m_bodies m).
(** sip->authorizations = x: osip_message.h 55-113 *)
Definition with_authorizations x (m : message) : message :=
  mkMsg (m_version m) (m_uri m) (m_method m) (m_status m) (m_reason m) (m_accepts m) (m_accept_encodings m) (m_accept_languages m) (m_alert_infos m) (m_allows m) (m_auth_infos m) x (m_call_id m) (m_call_infos m) (m_contacts m) (m_content_encodings m) (m_content_length m) (m_content_type m) (m_cseq m) (m_error_infos m) (m_from m) (m_mime_version m) (m_proxy_authenticates m) (m_proxy_auth_infos m) (m_proxy_authorizations m) (m_record_routes m) (m_routes m) (m_to m) (m_vias m) (m_www_authenticates m) (m_headers m) (m_bodies m).
(** sip->call_id = x: osip_message.h 55-113 *)
Definition with_call_id x (m : message) : message :=
  mkMsg (m_version m) (m_uri m) (m_method m) (m_status m) (m_reason m) (m_accepts m) (m_accept_encodings m) (m_accept_languages m) (m_alert_infos m) (m_allows m) (m_auth_infos m) (m_authorizations m) x (m_call_infos m) (m_contacts m) (m_content_encodings m) (m_content_length m) (m_content_type m) (m_cseq m) (m_error_infos m) (m_from m) (m_mime_version m) (m_proxy_authenticates m) (m_proxy_auth_infos m) (m_proxy_authorizations m) (m_record_routes m) (m_routes m) (m_to m) (m_vias m) (m_www_authenticates m) (m_headers m) (m_bodies m).
(** sip->call_infos = x: osip_message.h 55-113 *)
Definition with_call_infos x (m : message) : message :=
  mkMsg (m_version m) (m_uri m) (m_method m) (m_status m) (m_reason m) (m_accepts m) (m_accept_encodings m) (m_accept_languages m) (m_alert_infos m) (m_allows m) (m_auth_infos m) (m_authorizations m) (m_call_id m) x (m_contacts m) (m_content_encodings m) (m_content_length m) (m_content_type m) (m_cseq m) (m_error_infos m) (m_from m) (m_mime_version m) (m_proxy_authenticates m) (m_proxy_auth_infos m) (m_proxy_authorizations m) (m_record_routes m) (m_routes m) (m_to m) (m_vias m) (m_www_authenticates m) (m_headers m) (m_bodies m).
(** sip->contacts = x: osip_message.h 55-113 *)
Definition with_contacts x (m : message) : message :=
  mkMsg (m_version m) (m_uri m) (m_method m) (m_status m) (m_reason m) (m_accepts m) (m_accept_encodings m) (m_accept_languages m) (m_alert_infos m) (m_allows m) (m_auth_infos m) (m_authorizations m) (m_call_id m) (m_call_infos m) x (m_content_encodings m) (m_content_length m) (m_content_type m) (m_cseq m) (m_error_infos m) (m_from m) (m_mime_version m) (m_proxy_authenticates m) (m_proxy_auth_infos m) (m_proxy_authorizations m) (m_record_routes m) (m_routes m) (m_to m) (m_vias m) (m_www_authenticates m) (m_headers m) (m_bodies m).
(** sip->content_encodings = x: osip_message.h 55-113 *)
Definition with_content_encodings x (m : message) : message :=
  mkMsg (m_version m) (m_uri m) (m_method m) (m_status m) (m_reason m) (m_accepts m) (m_accept_encodings m) (m_accept_languages m) (m_alert_infos m) (m_allows m) (m_auth_infos m) (m_authorizations m) (m_call_id m) (m_call_infos m) (m_contacts m) x (m_content_length m) (m_content_type m) (m_cseq m) (m_error_infos m) (m_from m) (m_mime_version m) (m_proxy_authenticates m) (m_proxy_auth_infos m) (m_proxy_authorizations m) (m_record_routes m) (m_routes m) (m_to m) (m_vias m) (m_www_authenticates m) (m_headers m) (m_bodies m).
(** sip->content_length = x: osip_message.h 55-113 *)
Definition with_content_length x (m : message) : message :=
  mkMsg (m_version m) (m_uri m) (m_method m) (m_status m) (m_reason m) (m_accepts m) (m_accept_encodings m) (m_accept_languages m) (m_alert_infos m) (m_allows m) (m_auth_infos m) (m_authorizations m) (m_call_id m) (m_call_infos m) (m_contacts m) (m_content_encodings m) x (m_content_type m) (m_cseq m) (m_error_infos m) (m_from m) (m_mime_version m) (m_proxy_authenticates m) (m_proxy_auth_infos m) (m_proxy_authorizations m) (m_record_routes m) (m_routes m) (m_to m) (m_vias m) (m_www_authenticates m) (m_headers m) (m_bodies m).
(** sip->content_type = x: osip_message.h 55-113 *)
Definition with_content_type x (m : message) : message :=
  mkMsg (m_version m) (m_uri m) (m_method m) (m_status m) (m_reason m) (m_accepts m) (m_accept_encodings m) (m_accept_languages m) (m_alert_infos m) (m_allows m) (m_auth_infos m) (m_authorizations m) (m_call_id m) (m_call_infos m) (m_contacts m) (m_content_encodings m) (m_content_length m) x (m_cseq m) (m_error_infos m) (m_from m) (m_mime_version m) (m_proxy_authenticates m) (m_proxy_auth_infos m) (m_proxy_authorizations m) (m_record_routes m) (m_routes m) (m_to m) (m_vias m) (m_www_authenticates m) (m_headers m) (m_bodies m).
(** sip->cseq = x: osip_message.h 55-113 *)
Definition with_cseq x (m : message) : message :=
  mkMsg (m_version m) (m_uri m) (m_method m) (m_status m) (m_reason m) (m_accepts m) (m_accept_encodings m) (m_accept_languages m) (m_alert_infos m) (m_allows m) (m_auth_infos m) (m_authorizations m) (m_call_id m) (m_call_infos m) (m_contacts m) (m_content_encodings m) (m_content_length m) (m_content_type m) x (m_error_infos m) (m_from m) (m_mime_version m) (m_proxy_authenticates m) (m_proxy_auth_infos m) (m_proxy_authorizations m) (m_record_routes m) (m_routes m) (m_to m) (m_vias m) (m_www_authenticates m) (m_headers m) (m_bodies m).
(** sip->error_infos = x: osip_message.h 55-113 *)
Definition with_error_infos x (m : message) : message :=
  mkMsg (m_version m) (m_uri m) (m_method m) (m_status m) (m_reason m) (m_accepts m) (m_accept_encodings m) (m_accept_languages m) (m_alert_infos m) (m_allows m) (m_auth_infos m) (m_authorizations m) (m_call_id m) (m_call_infos m) (m_contacts m) (m_content_encodings m) (m_content_length m) (m_content_type m) (m_cseq m) x (m_from m) (m_mime_version m) (m_proxy_authenticates m) (m_proxy_auth_infos m) (m_proxy_authorizations m) (m_record_routes m) (m_routes m) (m_to m) (m_vias m) (m_www_authenticates m) (m_headers m) (m_bodies m).
(** sip->from = x: osip_message.h 55-113 *)
Definition with_from x (m : message) : message :=
  mkMsg (m_version m) (m_uri m) (m_method m) (m_status m) (m_reason m) (m_accepts m) (m_accept_encodings m) (m_accept_languages m) (m_alert_infos m) (m_allows m) (m_auth_infos m) (m_authorizations m) (m_call_id m) (m_call_infos m) (m_contacts m) (m_content_encodings m) (m_content_length m) (m_content_type m) (m_cseq m) (m_error_infos m) x (m_mime_version m) (m_proxy_authenticates m) (m_proxy_auth_infos m) (m_proxy_authorizations m) (m_record_routes m) (m_routes m) (m_to m) (m_vias m) (m_www_authenticates m) (m_headers m) (m_bodies m).
(** sip->mime_version = x: osip_message.h 55-113 *)
Definition with_mime_version x (m : message) : message :=
  mkMsg (m_version m) (m_uri m) (m_method m) (m_status m) (m_reason m) (m_accepts m) (m_accept_encodings m) (m_accept_languages m) (m_alert_infos m) (m_allows m) (m_auth_infos m) (m_authorizations m) (m_call_id m) (m_call_infos m) (m_contacts m) (m_content_encodings m) (m_content_length m) (m_content_type m) (m_cseq m) (m_error_infos m) (m_from m) x (m_proxy_authenticates m) (m_proxy_auth_infos m) (m_proxy_authorizations m) (m_record_routes m) (m_routes m) (m_to m) (m_vias m) (m_www_authenticates m) (m_headers m) (m_bodies m).
(** sip->proxy_authenticates = x: osip_message.h 55-113 *)
Definition with_proxy_authenticates x (m : message) : message :=
  mkMsg (m_version m) (m_uri m) (m_method m) (m_status m) (m_reason m) (m_accepts m) (m_accept_encodings m) (m_accept_languages m) (m_alert_infos m) (m_allows m) (m_auth_infos m) (m_authorizations m) (m_call_id m) (m_call_infos m) (m_contacts m) (m_content_encodings m) (m_content_length m) (m_content_type m) (m_cseq m) (m_error_infos m) (m_from m) (m_mime_version m) x (m_proxy_auth_infos m) (m_proxy_authorizations m) (m_record_routes m) (m_routes m) (m_to m) (m_vias m) (m_www_authenticates m) (m_headers m) (m_bodies m).
(** sip->proxy_auth_infos = x: osip_message.h 55-113 *)
Definition with_proxy_auth_infos x (m : message) : message :=
  mkMsg (m_version m) (m_uri m) (m_method m) (m_status m) (m_reason m) (m_accepts m) (m_accept_encodings m) (m_accept_languages m) (m_alert_infos m) (m_allows m) (m_auth_infos m) (m_authorizations m) (m_call_id m) (m_call_infos m) (m_contacts m) (m_content_encodings m) (m_content_length m) (m_content_type m) (m_cseq m) (m_error_infos m) (m_from m) (m_mime_version m) (m_proxy_authenticates m) x (m_proxy_authorizations m) (m_record_routes m) (m_routes m) (m_to m) (m_vias m) (m_www_authenticates m) (m_headers m) (m_bodies m).
(** sip->proxy_authorizations = x: osip_message.h 55-113 *)
Definition with_proxy_authorizations x (m : message) : message :=
  mkMsg (m_version m) (m_uri m) (m_method m) (m_status m) (m_reason m) (m_accepts m) (m_accept_encodings m) (m_accept_languages m) (m_alert_infos m) (m_allows m) (m_auth_infos m) (m_authorizations m) (m_call_id m) (m_call_infos m) (m_contacts m) (m_content_encodings m) (m_content_length m) (m_content_type m) (m_cseq m) (m_error_infos m) (m_from m) (m_mime_version m) (m_proxy_authenticates m) (m_proxy_auth_infos m) x (m_record_routes m) (m_routes m) (m_to m) (m_vias m) (m_www_authenticates m) (m_headers m) (m_bodies m).
(** sip->record_routes = x: osip_message.h 55-113 *)
Definition with_record_routes x (m : message) : message :=
  mkMsg (m_version m) (m_uri m) (m_method m) (m_status m) (m_reason m) (m_accepts m) (m_accept_encodings m) (m_accept_languages m) (m_alert_infos m) (m_allows m) (m_auth_infos m) (m_authorizations m) (m_call_id m) (m_call_infos m) (m_contacts m) (m_content_encodings m) (m_content_length m) (m_content_type m) (m_cseq m) (m_error_infos m) (m_from m) (m_mime_version m) (m_proxy_authenticates m) (m_proxy_auth_infos m) (m_proxy_authorizations m) x (m_routes m) (m_to m) (m_vias m) (m_www_authenticates m) (m_headers m) (m_bodies m).
(** sip->routes = x: osip_message.h 55-113 *)
Definition with_routes x (m : message) : message :=
  mkMsg (m_version m) (m_uri m) (m_method m) (m_status m) (m_reason m) (m_accepts m) (m_accept_encodings m) (m_accept_languages m) (m_alert_infos m) (m_allows m) (m_auth_infos m) (m_authorizations m) (m_call_id m) (m_call_infos m) (m_contacts m) (m_content_encodings m) (m_content_length m) (m_content_type m) (m_cseq m) (m_error_infos m) (m_from m) (m_mime_version m) (m_proxy_authenticates m) (m_proxy_auth_infos m) (m_proxy_authorizations m) (m_record_routes m) x (m_to m) (m_vias m) (m_www_authenticates m) (m_headers m) (m_bodies m).
(** sip->to = x: osip_message.h 55-113 *)
Definition with_to x (m : message) : message :=
  mkMsg (m_version m) (m_uri m) (m_method m) (m_status m) (m_reason m) (m_accepts m) (m_accept_encodings m) (m_accept_languages m) (m_alert_infos m) (m_allows m) (m_auth_infos m) (m_authorizations m) (m_call_id m) (m_call_infos m) (m_contacts m) (m_content_encodings m) (m_content_length m) (m_content_type m) (m_cseq m) (m_error_infos m) (m_from m) (m_mime_version m) (m_proxy_authenticates m) (m_proxy_auth_infos m) (m_proxy_authorizations m) (m_record_routes m) (m_routes m) x (m_vias m) (m_www_authenticates m) (m_headers m) (m_bodies m).
(** sip->vias = x: osip_message.h 55-113 *)
Definition with_vias x (m : message) : message :=
  mkMsg (m_version m) (m_uri m) (m_method m) (m_status m) (m_reason m) (m_accepts m) (m_accept_encodings m) (m_accept_languages m) (m_alert_infos m) (m_allows m) (m_auth_infos m) (m_authorizations m) (m_call_id m) (m_call_infos m) (m_contacts m) (m_content_encodings m) (m_content_length m) (m_content_type m) (m_cseq m) (m_error_infos m) (m_from m) (m_mime_version m) (m_proxy_authenticates m) (m_proxy_auth_infos m) (m_proxy_authorizations m) (m_record_routes m) (m_routes m) (m_to m) x (m_www_authenticates m) (m_headers m) (m_bodies m).
(** sip->www_authenticates = x: osip_message.h 55-113 *)
Definition with_www_authenticates x (m : message) : message :=
  mkMsg (m_version m) (m_uri m) (m_method m) (m_status m) (m_reason m) (m_accepts m) (m_accept_encodings m) (m_accept_languages m) (m_alert_infos m) (m_allows m) (m_auth_infos m) (m_authorizations m) (m_call_id m) (m_call_infos m) (m_contacts m) (m_content_encodings m) (m_content_length m) (m_content_type m) (m_cseq m) (m_error_infos m) (m_from m) (m_mime_version m) (m_proxy_authenticates m) (m_proxy_auth_infos m) (m_proxy_authorizations m) (m_record_routes m) (m_routes m) (m_to m) (m_vias m) x (m_headers m) (m_bodies m).
(** sip->headers = x: osip_message.h 55-113 *)
Definition with_headers x (m : message) : message :=
  mkMsg (m_version m) (m_uri m) (m_method m) (m_status m) (m_reason m) (m_accepts m) (m_accept_encodings m) (m_accept_languages m) (m_alert_infos m) (m_allows m) (m_auth_infos m) (m_authorizations m) (m_call_id m) (m_call_infos m) (m_contacts m) (m_content_encodings m) (m_content_length m) (m_content_type m) (m_cseq m) (m_error_infos m) (m_from m) (m_mime_version m) (m_proxy_authenticates m) (m_proxy_auth_infos m) (m_proxy_authorizations m) (m_record_routes m) (m_routes m) (m_to m) (m_vias m) (m_www_authenticates m) x (m_bodies m).
(** sip->bodies = x: osip_message.h 55-113 *)
Definition with_bodies x (m : message) : message :=
  mkMsg (m_version m) (m_uri m) (m_method m) (m_status m) (m_reason m) (m_accepts m) (m_accept_encodings m) (m_accept_languages m) (m_alert_infos m) (m_allows m) (m_auth_infos m) (m_authorizations m) (m_call_id m) (m_call_infos m) (m_contacts m) (m_content_encodings m) (m_content_length m) (m_content_type m) (m_cseq m) (m_error_infos m) (m_from m) (m_mime_version m) (m_proxy_authenticates m) (m_proxy_auth_infos m) (m_proxy_authorizations m) (m_record_routes m) (m_routes m) (m_to m) (m_vias m) (m_www_authenticates m) (m_headers m) x.

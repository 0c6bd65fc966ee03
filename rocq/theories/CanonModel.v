(** * The canonical text of a URI: src/osipparser2/osip_uri.c 1034-1055 *)
From Coq Require Import String ZArith List.
From Verif Require Import Base Str MemModel Types UriModel.
Import ListNotations.
Open Scope Z_scope.

(** osip_uri_to_str_canonical: osip_uri.c 1036-1054: the text of osip_uri_to_str, unescaped in place *)
Definition uri_to_str_canonical (u : uri) : res str :=
  do t <- uri_to_str u ;
  do b <- unescape_buf (t ++ [NUL]) ;
  c_string b.


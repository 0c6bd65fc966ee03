(** The authentication headers: WWW-Authenticate / Proxy-Authenticate, Authorization /
    Proxy-Authorization, Authentication-Info / Proxy-Authentication-Info. *)
From Coq Require Import String ZArith NArith Ascii Bool List.
From Verif Require Import Base Str MemModel Types PortModel PortBuf CString UriModel HdrModel.
Import ListNotations.
Open Scope Z_scope.

(** "for (; *tmp == ' ' || *tmp == '\t'; tmp++)" *)
Definition skip_blanks (s : str) (p : Z) : res Z :=
  scan_fwd (S (length s)) s p (slen s) (fun c => negb (is_ch c " "%char || is_ch c tab)).
(** "for (; *tmp == '\n' || *tmp == '\r'; tmp++)" *)
Definition skip_eol (s : str) (p : Z) : res Z :=
  scan_fwd (S (length s)) s p (slen s) (fun c => negb (is_ch c lf || is_ch c cr)).
(** "while ((' ' == *str) || ('\t' == *str) || (',' == *str)) str++": osip_www_authenticate.c 72-76
    and 171-175; the test of *str inside that loop always succeeds. *)
Definition skip_sep (s : str) (p : Z) : res Z :=
  scan_fwd (S (length s)) s p (slen s) (fun c => negb (is_ch c " "%char || is_ch c tab || is_ch c ","%char)).

(** Where the next element starts, NULL at the end of the header: osip_www_authenticate.c
    100-118, 127-146 and 193-211 (three copies of the same text) *)
Definition next_element (s : str) (tmp : Z) : res (option Z) :=
  do tmp <- skip_blanks s tmp ;
  do tmp <- skip_eol s tmp ;
  do c <- ch s tmp ;
  if is_ch c NUL then Ok None
  else if negb (is_ch c tab) && negb (is_ch c " "%char) then Ok (Some tmp)
  else do tmp <- skip_blanks s tmp ;
       do c <- ch s tmp ;
       if is_ch c NUL then Ok None else Ok (Some tmp).

(** "while (' ' == *(hack - 1)) hack--": osip_www_authenticate.c 87-88 *)
Fixpoint back_spaces (fuel : nat) (s : str) (hack : Z) : res Z :=
  match fuel with
  | O => UB
  | S f => do c <- ch s (hack - 1) ; if is_ch c " "%char then back_spaces f s (hack - 1) else Ok hack
  end.

(** __osip_quoted_string_set: osip_www_authenticate.c 65-152.  [p]: str; [cur]: *result.
    Returns the new *result and *next. *)
Definition quoted_string_set (name s : str) (p : Z) (cur : option str) : res (option str * option Z) :=
  match cur with
  | Some _ => Ok (cur, Some p)
  | None =>
    do p <- skip_sep s p ;
    do t <- tail_at s p ;
    if strncaseeq (length name) name t then
      do hack <- strchr_at s p "="%char ;
      match hack with
      | None => Err OSIP_SYNTAXERROR
      | Some hack =>
        do hack <- back_spaces (S (length s)) s hack ;
        if negb (hack - p =? slen name) then Ok (None, Some p)
        else
          do quote1 <- quote_at s p ;
          match quote1 with
          | None => Err OSIP_SYNTAXERROR
          | Some quote1 =>
            do quote2 <- quote_at s (quote1 + 1) ;
            match quote2 with
            | None => Err OSIP_SYNTAXERROR
            | Some quote2 =>
              if quote2 - quote1 =? 1 then
                do n <- next_element s (quote2 + 1) ; Ok (None, n)
              else
                do v <- copy_at s quote1 (quote2 - quote1 + 1) (quote2 - quote1 + 3) ;
                do n <- next_element s (quote2 + 1) ; Ok (Some v, n)
            end
          end
      end
    else Ok (None, Some p)
  end.

(** __osip_token_set: osip_www_authenticate.c 154-215 *)
Definition token_set (name s : str) (p : Z) (cur : option str) : res (option str * option Z) :=
  match cur with
  | Some _ => Ok (cur, Some p)
  | None =>
    do beg <- strchr_at s p "="%char ;
    match beg with
    | None => Err OSIP_SYNTAXERROR
    | Some beg =>
      if slen s - p <? 6 then Ok (None, None)
      else
        do p <- skip_sep s p ;
        do t <- tail_at s p ;
        if strncaseeq (length name) name t then
          do e <- strchr_at s p ","%char ;
          let e := match e with Some e => e | None => slen s end in
          if e - beg <? 2 then Err OSIP_SYNTAXERROR
          else
            do v <- clrncpy_at s (beg + 1) (e - beg - 1) (e - beg) ;
            do c <- ch s e ;
            do n <- next_element s (if is_ch c NUL then e else e + 1) ;
            Ok (Some v, n)
        else Ok (None, Some p)
    end
  end.

(** One round of the "for (;;)" of the three parsers: the same nine lines per parameter, here a
    table of (quoted?, parameter name) in the order of the calls.  [vals]: the fields, in the same
    order; [ok]: parse_ok.  The result is None when the header ends inside the round. *)
Fixpoint auth_pass (specs : list (bool * str)) (vals : list (option str)) (s : str) (space : Z) (ok : bool)
    : res (list (option str) * option (Z * bool)) :=
  match specs, vals with
  | (quoted, name) :: specs, cur :: vals =>
    do r <- (if quoted then quoted_string_set name s space cur else token_set name s space cur) ;
    let '(v, next) := r in
    match next with
    | None => Ok (v :: vals, None)
    | Some n =>
      do r <- (if n =? space then auth_pass specs vals s space ok else auth_pass specs vals s n true) ;
      let '(vs, e) := r in
      Ok (v :: vs, e)
    end
  | _, _ => Ok (vals, Some (space, ok))
  end.

(** The part for a parameter that is not understood: osip_www_authenticate.c 337-365,
    osip_authorization.c 241-269, osip_authentication_info.c 186-214 *)
Definition auth_bypass (s : str) (space : Z) : res (option Z) :=
  if slen s - space <? 1 then Ok None
  else
    do tmp <- strchr_at s (space + 1) ","%char ;
    match tmp with
    | None => Ok None
    | Some tmp =>
      do quote1 <- quote_at s space ;
      match quote1 with
      | None => Ok (Some tmp)
      | Some quote1 =>
        if quote1 <? tmp then
          do quote2 <- quote_at s (quote1 + 1) ;
          match quote2 with
          | None => Err OSIP_SYNTAXERROR
          | Some quote2 => if tmp <? quote2 then strchr_at s quote2 ","%char else Ok (Some tmp)
          end
        else Ok (Some tmp)
      end
    end.

Fixpoint auth_loop (fuel : nat) (specs : list (bool * str)) (vals : list (option str)) (s : str) (space : Z)
    : res (list (option str)) :=
  match fuel with
  | O => UB
  | S f =>
    do r <- auth_pass specs vals s space false ;
    let '(vals, e) := r in
    match e with
    | None => Ok vals
    | Some (space, true) => auth_loop f specs vals s space
    | Some (space, false) =>
      do n <- auth_bypass s space ;
      match n with
      | None => Ok vals
      | Some space => auth_loop f specs vals s space
      end
    end
  end.

(** auth-scheme, then the parameters: osip_www_authenticate.c 232-241, osip_authorization.c 80-89 *)
Definition auth_parse (specs : list (bool * str)) (s : str) : res (str * list (option str)) :=
  do space <- strchr_at s 0 " "%char ;
  match space with
  | None => Err OSIP_SYNTAXERROR
  | Some space =>
    if space + 1 <? 2 then Err OSIP_SYNTAXERROR
    else
      do ty <- copy_at s 0 space (space + 1) ;
      do vals <- auth_loop (S (S (length s))) specs (map (fun _ => None) specs) s space ;
      Ok (ty, vals)
  end.

(** The calls of osip_www_authenticate_parse: osip_www_authenticate.c 245-336 *)
Definition www_specs : list (bool * str) :=
  [ (true, $"realm"); (true, $"domain"); (true, $"nonce"); (true, $"opaque"); (false, $"stale");
    (false, $"algorithm"); (true, $"qop"); (false, $"version"); (true, $"targetname"); (true, $"gssapi-data") ].
Definition www_of (ty : option str) (v : list (option str)) : www_auth :=
  let g i := nth i v None in
  mkWww ty (g 0%nat) (g 1%nat) (g 2%nat) (g 3%nat) (g 4%nat) (g 5%nat) (g 6%nat) (g 7%nat) (g 8%nat) (g 9%nat).
(** osip_www_authenticate_parse: osip_www_authenticate.c 225-368 *)
Definition www_parse (s : str) : res www_auth :=
  do r <- auth_parse www_specs s ; let '(ty, v) := r in Ok (www_of (Some ty) v).

(** The calls of osip_authorization_parse: osip_authorization.c 93-236 *)
Definition authz_specs : list (bool * str) :=
  [ (true, $"username"); (true, $"realm"); (true, $"nonce"); (true, $"uri"); (true, $"response");
    (true, $"digest"); (false, $"algorithm"); (true, $"cnonce"); (true, $"opaque"); (false, $"qop");
    (false, $"nc"); (false, $"version"); (true, $"targetname"); (true, $"gssapi-data"); (true, $"crand");
    (true, $"cnum") ].
Definition authz_of (ty : option str) (v : list (option str)) : authz :=
  let g i := nth i v None in
  mkAuthz ty (g 0%nat) (g 1%nat) (g 2%nat) (g 3%nat) (g 4%nat) (g 5%nat) (g 6%nat) (g 7%nat) (g 8%nat) (g 9%nat)
          (g 10%nat) (g 11%nat) (g 12%nat) (g 13%nat) (g 14%nat) (g 15%nat).
(** osip_authorization_parse: osip_authorization.c 73-272 *)
Definition authz_parse (s : str) : res authz :=
  do r <- auth_parse authz_specs s ; let '(ty, v) := r in Ok (authz_of (Some ty) v).

(** The calls of osip_authentication_info_parse: osip_authentication_info.c 97-185 *)
Definition ainfo_specs : list (bool * str) :=
  [ (true, $"nextnonce"); (true, $"cnonce"); (true, $"rspauth"); (false, $"nc"); (false, $"qop");
    (true, $"snum"); (true, $"srand"); (true, $"targetname"); (true, $"realm"); (true, $"opaque") ].
Definition ainfo_of (ty : option str) (v : list (option str)) : authinfo :=
  let g i := nth i v None in
  mkAI ty (g 0%nat) (g 4%nat) (g 2%nat) (g 1%nat) (g 3%nat) (g 5%nat) (g 6%nat) (g 8%nat) (g 7%nat) (g 9%nat).
(** osip_authentication_info_parse: osip_authentication_info.c 77-217 *)
Definition ainfo_parse (s : str) : res authinfo :=
  do space <- strchr_at s 0 " "%char ;
  do hack <- strchr_at s 0 "="%char ;
  do r <- match space, hack with
          | Some sp, Some h => if h >? sp then do ty <- copy_at s 0 sp (sp + 1) ; Ok (Some ty, sp) else Ok (None, 0)
          | _, _ => Ok (None, 0)
          end ;
  let '(ty, space) := r in
  do v <- auth_loop (S (S (length s))) ainfo_specs (map (fun _ => None) ainfo_specs) s space ;
  Ok (ainfo_of ty v).

(** * Printing.  A row: the text in front of the value, the number of bytes counted for it when the
    buffer is allocated, the value. *)
Definition auth_row := (str * Z * option str)%type.
Definition rows_len (rows : list auth_row) : Z :=
  fold_right (fun r n => match r with (_, k, Some v) => k + slen v + n | _ => n end) 0 rows.

(** The rows of osip_www_authenticate_to_str, in print order: osip_www_authenticate.c 542-609 *)
Definition www_rows (w : www_auth) : list auth_row :=
  [ ($" realm=", 7, w_realm w); ($", domain=", 9, w_domain w); ($", nonce=", 8, w_nonce w);
    ($", opaque=", 9, w_opaque w); ($", stale=", 8, w_stale w); ($", algorithm=", 12, w_algorithm w);
    ($", qop=", 6, w_qop w); ($", version=", 10, w_version w); ($", targetname=", 13, w_targetname w);
    ($", gssapi-data=", 14, w_gssapi w) ].
Fixpoint www_emit (rows : list auth_row) (o : out) : res out :=
  match rows with
  | [] => Ok o
  | (n, _, Some v) :: rows => do o <- emit o n ; do o <- emit o v ; www_emit rows o
  | (_, _, None) :: rows => www_emit rows o
  end.
(** s[i] = c *)
Definition set_nth (i : nat) (c : ascii) (s : str) : str :=
  match skipn i s with [] => s | _ :: r => firstn i s ++ c :: r end.
(** osip_www_authenticate_to_str: osip_www_authenticate.c 530-619 *)
Definition www_to_str (w : www_auth) : res str :=
  match w_auth_type w with
  | None => Err OSIP_BADPARAMETER
  | Some ty =>
    do o <- out_new (slen ty + 1 + rows_len (www_rows w) + 2) ;
    do o <- emit o ty ;
    do o <- www_emit (www_rows w) o ;
    match w_realm w with
    | Some _ => Ok (o_text o)
    | None => do c <- ch (o_text o) (slen ty) ;
              if is_ch c ","%char then Ok (set_nth (length ty) " "%char (o_text o)) else Ok (o_text o)
    end
  end.

(** osip_authorization_to_str: osip_authorization.c 527-688 *)
Definition authz_rows (a : authz) : list auth_row :=
  [ ($" username=", 10, a_username a); ($" realm=", 8, a_realm a); ($" nonce=", 8, a_nonce a);
    ($" uri=", 6, a_uri a); ($" response=", 11, a_response a); ($" digest=", 9, a_digest a);
    ($" algorithm=", 12, a_algorithm a); ($" cnonce=", 9, a_cnonce a); ($" opaque=", 9, a_opaque a);
    ($" qop=", 6, a_message_qop a); ($" nc=", 5, a_nonce_count a); ($" version=", 10, a_version a);
    ($" targetname=", 13, a_targetname a); ($" gssapi-data=", 14, a_gssapi a); ($" crand=", 8, a_crand a);
    ($" cnum=", 7, a_cnum a) ].
(** [first]: nothing was printed yet; [sep]: what is printed between two parameters *)
Fixpoint sep_emit (sep : str) (rows : list auth_row) (first : bool) (o : out) : res out :=
  match rows with
  | [] => Ok o
  | (n, _, Some v) :: rows =>
    do o <- (if first then Ok o else emit o sep) ;
    do o <- emit o n ; do o <- emit o v ; sep_emit sep rows false o
  | (_, _, None) :: rows => sep_emit sep rows first o
  end.
(** osip_authorization_to_str: osip_authorization.c 505-690 *)
Definition authz_to_str (a : authz) : res str :=
  match a_auth_type a with
  | None => Err OSIP_BADPARAMETER
  | Some ty =>
    do o <- out_new (slen ty + 1 + rows_len (authz_rows a) + 2) ;
    do o <- emit o ty ;
    do o <- sep_emit ($",") (authz_rows a) true o ;
    Ok (o_text o)
  end.

(** osip_authentication_info_to_str: osip_authentication_info.c 394-414 (sizes), 421-503 (text) *)
Definition ainfo_rows (a : authinfo) : list auth_row :=
  [ ($"qop=", 6, ai_qop a); ($"nextnonce=", 11, ai_nextnonce a); ($"rspauth=", 10, ai_rspauth a);
    ($"cnonce=", 9, ai_cnonce a); ($"nc=", 5, ai_nonce_count a); ($"snum=", 7, ai_snum a);
    ($"srand=", 8, ai_srand a); ($"targetname=", 13, ai_targetname a); ($"realm=", 8, ai_realm a);
    ($"opaque=", 8, ai_opaque a) ].
(** osip_authentication_info_to_str: osip_authentication_info.c 383-505 *)
Definition ainfo_to_str (a : authinfo) : res str :=
  let n := opt_len (ai_auth_type a) (fun l => l + 1) + rows_len (ainfo_rows a) in
  if n =? 0 then Err OSIP_BADPARAMETER
  else
    do o <- out_new n ;
    do o <- match ai_auth_type a with None => Ok o | Some ty => do o <- emit o ty ; emit o ($" ") end ;
    do o <- sep_emit ($", ") (ainfo_rows a) true o ;
    Ok (o_text o).

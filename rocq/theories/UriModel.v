(** SIP URIs: src/osipparser2/osip_uri.c. *)
From Coq Require Import String ZArith NArith Ascii Bool List.
From Verif Require Import Base Str MemModel Types PortModel CString.
Import ListNotations.
Open Scope Z_scope.

(** * Escaping *)

(** _MARK__USER_UNRESERVED_ and the other sets: osip_uri.c 900-903 *)
Definition userinfo_def : str := $"-_.!~*'()&=+$,;?/".
Definition password_def : str := $"-_.!~*'()&=+$,".
Definition uri_param_def : str := $"-_.!~*'()[]/:&+$".
Definition header_param_def : str := $"-_.!~*'()[]/?:+$".

(** The byte is copied: osip_is_alphanum or found in [def] (osip_uri.c 905-908, 929-940) *)
Definition allowed (def : str) (c : ascii) : bool := is_alnum c || existsb (Ascii.eqb c) def.

(** sprintf "%02X" of one byte *)
Definition hex_digit (n : N) : ascii := if (n <? 10)%N then chr (48 + n) else chr (55 + n).
Definition percent (c : ascii) : str := ["%"%char; hex_digit (code c / 16); hex_digit (code c mod 16)].

(** The loop of __osip_uri_escape_nonascii_and_nondef (osip_uri.c 927-961): [ns] is what was
    written, [alloc] the size of the buffer *)
Fixpoint escape_loop (def s : str) (alloc newlen : Z) (ns : str) : res str :=
  match s with
  | [] => if slen ns <? alloc then Ok ns else UB
  | c :: s' =>
    if allowed def c then
      if slen ns <? alloc then escape_loop def s' alloc newlen (ns ++ [c]) else UB
    else
      let newlen := newlen + 2 in
      let alloc := if newlen >? alloc then alloc * 2 else alloc in
      (* sprintf writes three bytes and a NUL *)
      if slen ns + 3 <? alloc then escape_loop def s' alloc newlen (ns ++ percent c) else UB
  end.
(** __osip_uri_escape_nonascii_and_nondef: osip_uri.c 911-964 *)
Definition uri_escape (def s : str) : res str :=
  let alloc := slen s + 1 in escape_loop def s alloc alloc [].

Definition hexval (c : ascii) : option N :=
  if is_digit c then Some (code c - 48)%N
  else if (65 <=? code c)%N && (code c <=? 70)%N then Some (code c - 55)%N
  else if (97 <=? code c)%N && (code c <=? 102)%N then Some (code c - 87)%N
  else None.
Definition is_hex (c : ascii) : bool := match hexval c with Some _ => true | None => false end.

(** sscanf (r, "%02X", &hex) == 1, then (unsigned char) hex: leading white space is skipped, a
    sign counts in the width of two, "0x" is read as 0 (glibc) *)
Definition sscanf_hex (r : str) : option ascii :=
  match skip_space r with
  | [] => None
  | c :: r1 =>
    if Ascii.eqb c "+"%char || Ascii.eqb c "-"%char then
      match r1 with
      | d :: _ => match hexval d with
                  | Some v => Some (chr (if Ascii.eqb c "-"%char then (256 - v) mod 256 else v)%N)
                  | None => None
                  end
      | [] => None
      end
    else
      match hexval c with
      | None => None
      | Some v => match r1 with
                  | d :: _ => match hexval d with Some w => Some (chr (16 * v + w)) | None => Some (chr v) end
                  | [] => Some (chr v)
                  end
      end
  end.

(** The bytes __osip_uri_unescape leaves in the string (osip_uri.c 997-1030), before its
    terminator.  [unescape_buf] below is the version in memory. *)
Fixpoint unescape (s : str) : str :=
  match s with
  | [] => []
  | c :: r =>
    if Ascii.eqb c "%"%char then
      match r with
      | a :: ((b :: r2) as r1) =>
        match sscanf_hex r with
        | Some x => x :: (if is_hex b then unescape r2 else unescape r1)
        | None => []
        end
      | _ => []
      end
    else c :: unescape r
  end.

(** The C string in a memory area: up to the first NUL *)
Fixpoint until_nul (s : str) : str :=
  match s with
  | [] => []
  | c :: s' => if Ascii.eqb c NUL then [] else c :: until_nul s'
  end.
Definition uri_unescape (s : str) : str := until_nul (unescape s).

(** __osip_uri_unescape in memory: osip_uri.c 997-1030 *)
Fixpoint unescape_loop (fuel : nat) (b : buffer) (ptr index alloc : Z) : res (buffer * Z) :=
  match fuel with
  | O => UB
  | S f =>
    let alloc := alloc - 1 in
    if alloc >? 0 then
      do c <- rd b ptr ;
      if Ascii.eqb c "%"%char then
        if alloc >? 2 then
          do r <- c_string (skipn (Z.to_nat (ptr + 1)) b) ;
          match sscanf_hex r with
          | Some x =>
            do c2 <- rd b (ptr + 2) ;
            do b1 <- wr b index x ;
            if is_hex c2 then unescape_loop f b1 (ptr + 3) (index + 1) (alloc - 2)
            else unescape_loop f b1 (ptr + 2) (index + 1) (alloc - 1)
          | None => Ok (b, index)
          end
        else Ok (b, index)
      else do b1 <- wr b index c ; unescape_loop f b1 (ptr + 1) (index + 1) alloc
    else Ok (b, index)
  end.
Definition unescape_buf (b : buffer) : res buffer :=
  do n <- strlen b ;
  do x <- unescape_loop (S (length b)) b 0 0 (n + 1) ;
  wr (fst x) (snd x) NUL.

(** * Parameters *)

(** osip_uri_param_set: osip_uri.c 801-810; appended by osip_uri_param_add (813-828) *)
Definition param_set (name : str) (value : option str) : param := (trim name, option_map trim value).

(** osip_uri_parse_params: osip_uri.c 427-518.  The result is the list of parameters after the
    call and the code returned: on a syntax error those found before it stay in the list. *)
Fixpoint parse_params_loop (fuel : nat) (s : str) (params : Z) (acc : list param) : res (list param * Z) :=
  match fuel with
  | O => UB
  | S f =>
    do equal <- next_separator s (params + 1) "="%char ";"%char ;
    do comma <- strchr_at s (params + 1) ";"%char ;
    let e := match comma with None => slen s | Some c => c end in
    let add (equal : Z) (v : option str) :=
      if equal - params <? 2 then Ok (acc, OSIP_SYNTAXERROR)
      else
        do n <- copy_at s (params + 1) (equal - params - 1) (equal - params) ;
        let acc := acc ++ [param_set (uri_unescape n) v] in
        match comma with
        | None => Ok (acc, OSIP_SUCCESS)
        | Some c => parse_params_loop f s c acc
        end in
    match equal with
    | None => add e None
    | Some q => if e - q <? 2 then Ok (acc, OSIP_SYNTAXERROR)
                else do v <- copy_at s (q + 1) (e - q - 1) (e - q) ; add q (Some (uri_unescape v))
    end
  end.
Definition parse_params (s : str) : res (list param * Z) := parse_params_loop (S (length s)) s 0 [].

(** osip_uri_parse_headers: osip_uri.c 352-424, [s] from the question mark on *)
Fixpoint parse_headers_loop (fuel : nat) (s : str) (headers : Z) (acc : list param) : res (list param * Z) :=
  match fuel with
  | O => UB
  | S f =>
    do equal <- strchr_at s headers "="%char ;
    do and_ <- strchr_at s (headers + 1) "&"%char ;
    match equal with
    | None => Ok (acc, OSIP_SYNTAXERROR)
    | Some e =>
      do n <- copy_at s (headers + 1) (e - headers - 1) (e - headers) ;
      match and_ with
      | Some a =>
        if a - e <? 2 then Ok (acc, OSIP_SYNTAXERROR)
        else
          do v <- copy_at s (e + 1) (a - e - 1) (a - e) ;
          parse_headers_loop f s a (acc ++ [param_set (uri_unescape n) (Some (uri_unescape v))])
      | None =>
        if slen s - e + 1 <? 2 then Ok (acc, OSIP_SYNTAXERROR)
        else
          do v <- copy_at s (e + 1) (slen s - e) (slen s - e + 1) ;
          Ok (acc ++ [param_set (uri_unescape n) (Some (uri_unescape v))], OSIP_SUCCESS)
      end
    end
  end.
Definition parse_headers (s : str) : res (list param * Z) := parse_headers_loop (S (length s)) s 0 [].

(** * Parsing *)

(** The user information: osip_uri.c 166-207.  [col]: the first colon.  Result: user name,
    password, and the offset of the character before the host. *)
Definition uri_userinfo (s : str) (col : Z) : res (option str * option str * Z) :=
  do at_ <- strchr_at s 0 "@"%char ;
  match at_ with
  | None => Ok (None, None, col)
  | Some host =>
    do c1 <- ch s (col + 1) ;
    if Ascii.eqb c1 "@"%char then Ok (None, None, col + 1)
    else
      do pw <- next_separator s (col + 1) ":"%char "@"%char ;
      do p <- match pw with
              | None => Ok (host, None)
              | Some p => if host - p <? 2 then Err OSIP_SYNTAXERROR
                          else do t <- copy_at s (p + 1) (host - p - 1) (host - p) ; Ok (p, Some (uri_unescape t))
              end ;
      let (password, pwtext) := p in
      if password - col <? 2 then Err OSIP_SYNTAXERROR
      else
        do t <- copy_at s (col + 1) (password - col - 1) (password - col) ;
        Ok (Some (uri_unescape t), pwtext, host)
  end.

(** Host and port, between the offsets [host] and [params]: osip_uri.c 235-266 *)
Definition uri_hostport (s : str) (host params : Z) : res (str * option str) :=
  do port <- scan_back (S (length s)) s host (params - 1) (fun c => Ascii.eqb c "]"%char || Ascii.eqb c ":"%char) ;
  do c <- ch s port ;
  do pp <- (if Ascii.eqb c ":"%char then
              if host =? port then Ok (params, None)
              else if (params - port <? 2) || (params - port >? 8) then Err OSIP_SYNTAXERROR
              else do t <- clrncpy_at s (port + 1) (params - port - 1) (params - port) ; Ok (port, Some t)
            else Ok (params, None)) ;
  let (port, porttext) := pp in
  do tmp <- scan_back (S (length s)) s host port (fun c => Ascii.eqb c "]"%char) ;
  do c <- ch s tmp ;
  do hp <- (if Ascii.eqb c "]"%char then
              do h <- scan_fwd (S (length s)) s host tmp (fun c => Ascii.eqb c "["%char) ;
              if h >=? tmp then Err OSIP_SYNTAXERROR else Ok (h, tmp)
            else Ok (host, port)) ;
  let (host, port) := hp in
  if port - host <? 2 then Err OSIP_SYNTAXERROR
  else do h <- clrncpy_at s (host + 1) (port - host - 1) (port - host) ; Ok (h, porttext).

(** The part after the scheme of a SIP URI: osip_uri.c 154-268.  [col]: the first colon. *)
Definition uri_parse_sip (s scheme : str) (col : Z) : res uri :=
  do ui <- uri_userinfo s col ;
  let '(user, pw, host) := ui in
  do q <- strchr_at s host "?"%char ;
  do hd <- match q with
           | None => Ok (slen s, [])
           | Some q => do t <- tail_at s q ; do l <- parse_headers t ; Ok (q, fst l)
           end ;
  let (headers, hlist) := (hd : Z * list param) in
  do sc <- strchr_at s host ";"%char ;
  do pd <- match sc with
           | None => Ok (headers, [])
           | Some p => if headers - p + 1 <? 2 then Err OSIP_SYNTAXERROR
                       else do t <- copy_at s p (headers - p) (headers - p + 1) ;
                            do l <- parse_params t ; Ok (p, fst l)
           end ;
  let (params, plist) := (pd : Z * list param) in
  do hp <- uri_hostport s host params ;
  let (h, port) := (hp : str * option str) in
  Ok (mkUri (Some scheme) user pw (Some h) port plist hlist None).

(** osip_uri_parse: osip_uri.c 101-268, into a structure fresh from osip_uri_init.
    Simplification: on an error the fields already filled are not represented. *)
Definition uri_parse (s : str) : res uri :=
  match s with
  | [] => Err OSIP_BADPARAMETER
  | _ =>
    do tmp <- strchr_at s 0 ":"%char ;
    match tmp with
    | None => Err OSIP_SYNTAXERROR
    | Some tmp =>
      if tmp <? 2 then Err OSIP_SYNTAXERROR
      else if negb (forallb is_alpha (firstn (Z.to_nat tmp) s)) then Err OSIP_SYNTAXERROR
      else
        do scheme <- copy_at s 0 tmp (tmp + 1) ;
        match strchr scheme " "%char with
        | Some _ => Err OSIP_SYNTAXERROR
        | None =>
          if (slen scheme <? 3) || (negb (strncaseeq 3 scheme ($"sip")) && negb (strncaseeq 4 scheme ($"sips"))) then
            do t <- tail_at s (tmp + 1) ;
            if slen t <? 2 then Err OSIP_SYNTAXERROR
            else do c <- copy_at s (tmp + 1) (slen t) (slen t + 1) ;
                 Ok (mkUri (Some scheme) None None None None [] [] (Some c))
          else uri_parse_sip s scheme tmp
        end
    end
  end.

(** * Printing *)

(** x-obr and x-obp are not printed: osip_uri.c 609-613 *)
Definition hidden_param (p : param) : bool := strcaseeq (fst p) ($"x-obr") || strcaseeq (fst p) ($"x-obp").

(** The parameter loop: osip_uri.c 600-655.  [len]: the size of the buffer *)
Fixpoint print_uparams (ps : list param) (o : out) (len : Z) : res (out * Z) :=
  match ps with
  | [] => Ok (o, len)
  | p :: ps' =>
    if hidden_param p then print_uparams ps' o len
    else
      do t1 <- uri_escape uri_param_def (fst p) ;
      match snd p with
      | None =>
        let len := len + (slen t1 + 2) in
        do o <- out_grow o len ; do o <- emit o (";"%char :: t1) ; print_uparams ps' o len
      | Some v =>
        do t2 <- uri_escape uri_param_def v ;
        let len := len + (slen t1 + slen t2 + 3) in
        do o <- out_grow o len ; do o <- emit o (";"%char :: t1 ++ "="%char :: t2) ; print_uparams ps' o len
      end
  end.

(** snprintf (tmp, len - (tmp - buf), ...) at the end of the text *)
Definition emit_n (o : out) (len : Z) (t : str) : res out :=
  let n := len - slen (o_text o) in
  if n <? 1 then UB else emit o (firstn (Z.to_nat (n - 1)) t).

(** The header loop: osip_uri.c 658-702; [pos]: it.pos *)
Fixpoint print_uheaders (hs : list param) (pos : nat) (o : out) (len : Z) : res (out * Z) :=
  match hs with
  | [] => Ok (o, len)
  | h :: hs' =>
    do t1 <- uri_escape header_param_def (fst h) ;
    match snd h with
    | None => UB (* strlen (NULL) *)
    | Some v =>
      do t2 <- uri_escape header_param_def v ;
      let len := len + (slen t1 + slen t2 + 4) in
      do o <- out_grow o len ;
      do o <- emit_n o len ((if Nat.eqb pos 0 then "?"%char else "&"%char) :: t1 ++ "="%char :: t2) ;
      print_uheaders hs' (S pos) o len
    end
  end.

Definition opt_len (s : option str) (f : Z -> Z) : Z := match s with None => 0 | Some x => f (slen x) end.

(** osip_uri_to_str: osip_uri.c 520-709 *)
Definition uri_to_str (u : uri) : res str :=
  match u_host u, u_string u with
  | None, None => Err OSIP_BADPARAMETER
  | _, Some st =>
    match u_scheme u with
    | None => Err OSIP_BADPARAMETER
    | Some scheme =>
      do o <- out_new (slen scheme + slen st + 3) ;
      do o <- emit o (scheme ++ $":") ; do o <- emit o st ; Ok (o_text o)
    end
  | Some host, None =>
    let scheme := match u_scheme u with None => $"sip" | Some s => s end in
    let len := slen scheme + 1 + slen host + 5 + opt_len (u_username u) (fun n => n * 3 + 1)
               + opt_len (u_password u) (fun n => n * 3 + 1) + opt_len (u_port u) (fun n => n + 3) in
    do o <- out_new len ;
    do o <- emit o (scheme ++ $":") ;
    do o <- match u_username u with
            | None => Ok o
            | Some user => do t <- uri_escape userinfo_def user ; emit o t
            end ;
    do o <- match u_password u, u_username u with
            | Some pw, Some _ => do t <- uri_escape password_def pw ; emit o (":"%char :: t)
            | _, _ => Ok o
            end ;
    do o <- match u_username u with None => Ok o | Some _ => emit o ($"@") end ;
    do o <- match strchr host ":"%char with
            | Some _ => emit o ("["%char :: host ++ $"]")
            | None => emit o host
            end ;
    do o <- match u_port u with None => Ok o | Some p => emit o (":"%char :: p) end ;
    do r <- print_uparams (u_params u) o len ;
    do r <- print_uheaders (u_headers u) 0 (fst r) (snd r) ;
    Ok (o_text (fst r))
  end.

(** osip_uri_clone: see CloneModel. *)

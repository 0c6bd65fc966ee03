(** Session descriptions: the parser and the printer of sdp_message.c and the access functions
    of sdp_accessor.c.

    A pointer into the parsed text is the part of the text from that pointer up to the
    terminating NUL; two such pointers are compared by the lengths of these parts.  The byte just
    before a pointer is carried along where the code reads it ("equal[-1]").  Memory allocation
    never fails, and FIREFLY_BUG_SUPPORT, which nothing in the project defines, is off. *)
From Coq Require Import String ZArith NArith Ascii Bool List.
From Verif Require Import Base Str.
Import ListNotations.
Open Scope Z_scope.

(** *** Data: include/osipparser2/sdp_message.h 40-190.  [None] is a NULL pointer.  The elements
    of lists of strings are taken to be non NULL. *)
(** struct sdp_bandwidth *)
Record sdp_bandwidth := mkBand { b_bwtype : option str; b_bandwidth : option str }.
(** struct sdp_time_descr *)
Record sdp_time := mkTime { t_start : option str; t_stop : option str; t_repeats : list str }.
(** struct sdp_key *)
Record sdp_key := mkKey { k_keytype : option str; k_keydata : option str }.
(** struct sdp_attribute *)
Record sdp_attribute := mkAttr { a_field : option str; a_value : option str }.
(** struct sdp_connection *)
Record sdp_connection := mkConn { c_nettype : option str; c_addrtype : option str;
  c_addr : option str; c_ttl : option str; c_int : option str }.
(** struct sdp_media *)
Record sdp_media := mkMedia { m_media : option str; m_port : option str;
  m_number : option str; m_proto : option str; m_payloads : list str; m_info : option str;
  m_connections : list sdp_connection; m_bandwidths : list sdp_bandwidth;
  m_attributes : list sdp_attribute; m_key : option sdp_key }.
(** struct sdp_message *)
Record sdp := mkSdp { v_version : option str;
  o_username : option str; o_sess_id : option str; o_sess_version : option str;
  o_nettype : option str; o_addrtype : option str; o_addr : option str;
  s_name : option str; i_info : option str; u_uri : option str;
  e_emails : list str; p_phones : list str; c_connection : option sdp_connection;
  b_bandwidths : list sdp_bandwidth; t_descrs : list sdp_time; z_adjustments : option str;
  k_key : option sdp_key; a_attributes : list sdp_attribute; m_medias : list sdp_media }.

(** sdp_message_init: sdp_message.c 235-318 *)
Definition sdp_init : sdp :=
  mkSdp None None None None None None None None None None [] [] None [] [] None None [] [].

(** Assignments to one field of the message ("sdp->v_version = ..." and so on) *)
Definition with_v x (d : sdp) := mkSdp x (o_username d) (o_sess_id d) (o_sess_version d)
  (o_nettype d) (o_addrtype d) (o_addr d) (s_name d) (i_info d) (u_uri d) (e_emails d)
  (p_phones d) (c_connection d) (b_bandwidths d) (t_descrs d) (z_adjustments d) (k_key d)
  (a_attributes d) (m_medias d).
Definition with_o x1 x2 x3 x4 x5 x6 (d : sdp) := mkSdp (v_version d) x1 x2 x3 x4 x5 x6 (s_name d)
  (i_info d) (u_uri d) (e_emails d)
  (p_phones d) (c_connection d) (b_bandwidths d) (t_descrs d) (z_adjustments d) (k_key d)
  (a_attributes d) (m_medias d).
Definition with_s x (d : sdp) := mkSdp (v_version d) (o_username d) (o_sess_id d) (o_sess_version d)
  (o_nettype d) (o_addrtype d) (o_addr d) x (i_info d) (u_uri d) (e_emails d)
  (p_phones d) (c_connection d) (b_bandwidths d) (t_descrs d) (z_adjustments d) (k_key d)
  (a_attributes d) (m_medias d).
Definition with_i x (d : sdp) := mkSdp (v_version d) (o_username d) (o_sess_id d) (o_sess_version d)
  (o_nettype d) (o_addrtype d) (o_addr d) (s_name d) x (u_uri d) (e_emails d)
  (p_phones d) (c_connection d) (b_bandwidths d) (t_descrs d) (z_adjustments d) (k_key d)
  (a_attributes d) (m_medias d).
Definition with_u x (d : sdp) := mkSdp (v_version d) (o_username d) (o_sess_id d) (o_sess_version d)
  (o_nettype d) (o_addrtype d) (o_addr d) (s_name d) (i_info d) x (e_emails d)
  (p_phones d) (c_connection d) (b_bandwidths d) (t_descrs d) (z_adjustments d) (k_key d)
  (a_attributes d) (m_medias d).
Definition with_e x (d : sdp) := mkSdp (v_version d) (o_username d) (o_sess_id d) (o_sess_version d)
  (o_nettype d) (o_addrtype d) (o_addr d) (s_name d) (i_info d) (u_uri d) x
  (p_phones d) (c_connection d) (b_bandwidths d) (t_descrs d) (z_adjustments d) (k_key d)
  (a_attributes d) (m_medias d).
Definition with_p x (d : sdp) := mkSdp (v_version d) (o_username d) (o_sess_id d) (o_sess_version d)
  (o_nettype d) (o_addrtype d) (o_addr d) (s_name d) (i_info d) (u_uri d) (e_emails d)
  x (c_connection d) (b_bandwidths d) (t_descrs d) (z_adjustments d) (k_key d)
  (a_attributes d) (m_medias d).
Definition with_c x (d : sdp) := mkSdp (v_version d) (o_username d) (o_sess_id d) (o_sess_version d)
  (o_nettype d) (o_addrtype d) (o_addr d) (s_name d) (i_info d) (u_uri d) (e_emails d)
  (p_phones d) x (b_bandwidths d) (t_descrs d) (z_adjustments d) (k_key d)
  (a_attributes d) (m_medias d).
Definition with_b x (d : sdp) := mkSdp (v_version d) (o_username d) (o_sess_id d) (o_sess_version d)
  (o_nettype d) (o_addrtype d) (o_addr d) (s_name d) (i_info d) (u_uri d) (e_emails d)
  (p_phones d) (c_connection d) x (t_descrs d) (z_adjustments d) (k_key d)
  (a_attributes d) (m_medias d).
Definition with_t x (d : sdp) := mkSdp (v_version d) (o_username d) (o_sess_id d) (o_sess_version d)
  (o_nettype d) (o_addrtype d) (o_addr d) (s_name d) (i_info d) (u_uri d) (e_emails d)
  (p_phones d) (c_connection d) (b_bandwidths d) x (z_adjustments d) (k_key d)
  (a_attributes d) (m_medias d).
Definition with_z x (d : sdp) := mkSdp (v_version d) (o_username d) (o_sess_id d) (o_sess_version d)
  (o_nettype d) (o_addrtype d) (o_addr d) (s_name d) (i_info d) (u_uri d) (e_emails d)
  (p_phones d) (c_connection d) (b_bandwidths d) (t_descrs d) x (k_key d)
  (a_attributes d) (m_medias d).
Definition with_k x (d : sdp) := mkSdp (v_version d) (o_username d) (o_sess_id d) (o_sess_version d)
  (o_nettype d) (o_addrtype d) (o_addr d) (s_name d) (i_info d) (u_uri d) (e_emails d)
  (p_phones d) (c_connection d) (b_bandwidths d) (t_descrs d) (z_adjustments d) x
  (a_attributes d) (m_medias d).
Definition with_a x (d : sdp) := mkSdp (v_version d) (o_username d) (o_sess_id d) (o_sess_version d)
  (o_nettype d) (o_addrtype d) (o_addr d) (s_name d) (i_info d) (u_uri d) (e_emails d)
  (p_phones d) (c_connection d) (b_bandwidths d) (t_descrs d) (z_adjustments d) (k_key d)
  x (m_medias d).
Definition with_m x (d : sdp) := mkSdp (v_version d) (o_username d) (o_sess_id d) (o_sess_version d)
  (o_nettype d) (o_addrtype d) (o_addr d) (s_name d) (i_info d) (u_uri d) (e_emails d)
  (p_phones d) (c_connection d) (b_bandwidths d) (t_descrs d) (z_adjustments d) (k_key d)
  (a_attributes d) x.
Definition media_i x (m : sdp_media) := mkMedia (m_media m) (m_port m) (m_number m) (m_proto m)
  (m_payloads m) x (m_connections m) (m_bandwidths m) (m_attributes m) (m_key m).
Definition media_c x (m : sdp_media) := mkMedia (m_media m) (m_port m) (m_number m) (m_proto m)
  (m_payloads m) (m_info m) x (m_bandwidths m) (m_attributes m) (m_key m).
Definition media_b x (m : sdp_media) := mkMedia (m_media m) (m_port m) (m_number m) (m_proto m)
  (m_payloads m) (m_info m) (m_connections m) x (m_attributes m) (m_key m).
Definition media_a x (m : sdp_media) := mkMedia (m_media m) (m_port m) (m_number m) (m_proto m)
  (m_payloads m) (m_info m) (m_connections m) (m_bandwidths m) x (m_key m).
Definition media_k x (m : sdp_media) := mkMedia (m_media m) (m_port m) (m_number m) (m_proto m)
  (m_payloads m) (m_info m) (m_connections m) (m_bandwidths m) (m_attributes m) x.
Definition media_payloads x (m : sdp_media) := mkMedia (m_media m) (m_port m) (m_number m)
  (m_proto m) x (m_info m) (m_connections m) (m_bandwidths m) (m_attributes m) (m_key m).
Definition media_port x (m : sdp_media) := mkMedia (m_media m) x (m_number m)
  (m_proto m) (m_payloads m) (m_info m) (m_connections m) (m_bandwidths m) (m_attributes m) (m_key m).

(** *** Text scanning *)
(** A pointer into the text, and the byte just before it ([None] at the start of the buffer) *)
Record cursor := mkCur { before : option ascii; ahead : str }.

Definition is_eol (c : ascii) : bool := Ascii.eqb c cr || Ascii.eqb c lf.

(** The loops "while (*p != ... && *p != '\0') p++": the bytes passed over and the pointer reached *)
Fixpoint scan (stop : ascii -> bool) (s : str) : str * str :=
  match s with
  | [] => ([], [])
  | c :: t => if stop c then ([], s) else let (p, r) := scan stop t in (c :: p, r)
  end.

(** strchr, giving the pointer found *)
Fixpoint strchr_p (s : str) (c : ascii) : option str :=
  match s with
  | [] => None
  | x :: t => if Ascii.eqb x c then Some s else strchr_p t c
  end.
(** "p < q" for two pointers into the text *)
Definition ptr_lt (p q : str) : bool := (length q <? length p)%nat.

(** __osip_set_next_token: osip_port.c 597-627 (the token and the pointer after it) *)
Definition set_next_token (buf : str) (end_separator : ascii) : option (str * str) :=
  let (tok, sep) := scan (fun c => Ascii.eqb c end_separator || is_eol c) buf in
  match sep with
  | [] => None
  | c :: r =>
      if is_eol c && negb (Ascii.eqb c end_separator) then None
      else match tok with [] => None | _ :: _ => Some (tok, r) end
  end.
(** The repeated "i = __osip_set_next_token (.., tmp, '\r', ..); if (i != 0)
    i = __osip_set_next_token (.., tmp, '\n', ..);" *)
Definition last_token (tmp : str) : option (str * str) :=
  match set_next_token tmp cr with
  | Some x => Some x
  | None => set_next_token tmp lf
  end.

(** Outcome of one sdp_message_parse_X: ERR_ERROR, ERR_DISCARD, WF (sdp_message.c 28-30) or
    undefined behaviour *)
Inductive line_res :=
| LError
| LDiscard
| LWF (d : sdp) (next : cursor)
| LUB.

(** The start common to the sdp_message_parse_X: find the first '=', look at the byte before it *)
Inductive head_res :=
| HError
| HDiscard
| HFound (after_equal : str)
| HUB.
(** sdp_message.c 482-491 and the same lines of the other functions *)
Definition find_equal (letter : ascii) (c : cursor) : head_res :=
  let (pre, equal) := scan (fun x => Ascii.eqb x "="%char) (ahead c) in
  match equal with
  | [] => HError
  | _ :: v =>
      match (match rev pre with x :: _ => Some x | [] => before c end) with
      | None => HUB                                 (* equal[-1] is before the buffer *)
      | Some x => if Ascii.eqb x letter then HFound v else HDiscard
      end
  end.
(** sdp_message.c 345-359: sdp_message_parse_v alone checks "equal == buf" *)
Definition find_equal_v (c : cursor) : head_res :=
  let (pre, equal) := scan (fun x => Ascii.eqb x "="%char) (ahead c) in
  match equal with
  | [] => HError
  | _ :: v =>
      match rev pre with
      | [] => HDiscard
      | x :: _ => if Ascii.eqb x "v"%char then HFound v else HDiscard
      end
  end.

(** The end of the line: sdp_message.c 493-508 and the same lines of the other functions.  The
    value (the bytes between equal+1 and crlf) and the pointer crlf; [None] is ERR_ERROR *)
Definition find_crlf (v : str) : option (str * str) :=
  let (val, crlf) := scan is_eol v in
  match crlf with
  | [] => None
  | _ :: _ => match val with [] => None | _ :: _ => Some (val, crlf) end
  end.
(** "if (crlf[1] == '\n') *next = crlf + 2; else *next = crlf + 1;", crlf not being at the NUL *)
Definition after_crlf (crlf : str) : cursor :=
  match crlf with
  | [] => mkCur None []
  | c :: [] => mkCur (Some c) []
  | c :: x :: r => if Ascii.eqb x lf then mkCur (Some x) r else mkCur (Some c) (x :: r)
  end.

(** A line with a letter and a value; [k] gets the value (and text from equal+1) and crlf *)
Definition with_line (h : head_res) (k : str -> str -> str -> line_res) : line_res :=
  match h with
  | HError => LError
  | HDiscard => LDiscard
  | HUB => LUB
  | HFound v => match find_crlf v with None => LError | Some (val, crlf) => k v val crlf end
  end.

(** "i = osip_list_size (&sdp->m_medias); if (i == 0) ... else last_sdp_media = osip_list_get (.., i - 1)" *)
Definition on_place (d : sdp) (session : sdp -> sdp) (media : sdp_media -> sdp_media) : sdp :=
  match rev (m_medias d) with
  | [] => session d
  | m :: ms => with_m (rev ms ++ [media m]) d
  end.

(** *** The lines *)
(** sdp_message_parse_v: sdp_message.c 339-378 *)
Definition parse_v (d : sdp) (c : cursor) : line_res :=
  with_line (find_equal_v c) (fun _ val crlf => LWF (with_v (Some val) d) (after_crlf crlf)).

(** sdp_message_parse_o: sdp_message.c 380-469.  A failure after some tokens leaves them in the
    message; the parse then fails as a whole, so this is not modelled *)
Definition parse_o (d : sdp) (c : cursor) : line_res :=
  with_line (find_equal "o"%char c) (fun tmp _ crlf =>
    match set_next_token tmp sp with None => LError | Some (user, tmp) =>
    match set_next_token tmp sp with None => LError | Some (id, tmp) =>
    match set_next_token tmp sp with None => LError | Some (ver, tmp) =>
    match set_next_token tmp sp with None => LError | Some (net, tmp) =>
    match set_next_token tmp sp with None => LError | Some (typ, tmp) =>
    match last_token tmp with None => LError | Some (addr, _) =>
      LWF (with_o (Some user) (Some id) (Some ver) (Some net) (Some typ) (Some addr) d)
          (after_crlf crlf)
    end end end end end end).

(** sdp_message_parse_s: sdp_message.c 471-523 *)
Definition parse_s (d : sdp) (c : cursor) : line_res :=
  with_line (find_equal "s"%char c) (fun _ val crlf => LWF (with_s (Some val) d) (after_crlf crlf)).

(** sdp_message_parse_i: sdp_message.c 525-581 *)
Definition parse_i (d : sdp) (c : cursor) : line_res :=
  with_line (find_equal "i"%char c) (fun _ val crlf =>
    LWF (on_place d (with_i (Some val)) (media_i (Some val))) (after_crlf crlf)).

(** sdp_message_parse_u: sdp_message.c 583-622 *)
Definition parse_u (d : sdp) (c : cursor) : line_res :=
  with_line (find_equal "u"%char c) (fun _ val crlf => LWF (with_u (Some val) d) (after_crlf crlf)).

(** sdp_message_parse_e: sdp_message.c 624-666 *)
Definition parse_e (d : sdp) (c : cursor) : line_res :=
  with_line (find_equal "e"%char c) (fun _ val crlf =>
    LWF (with_e (e_emails d ++ [val]) d) (after_crlf crlf)).

(** sdp_message_parse_p: sdp_message.c 668-710 *)
Definition parse_p (d : sdp) (c : cursor) : line_res :=
  with_line (find_equal "p"%char c) (fun _ val crlf =>
    LWF (with_p (p_phones d ++ [val]) d) (after_crlf crlf)).

(** The address part of "c=": sdp_message.c 767-819 *)
Definition parse_c_addr (net typ tmp crlf : str) : option sdp_connection :=
  let unicast := match last_token tmp with
                 | None => None
                 | Some (a, _) => Some (mkConn (Some net) (Some typ) (Some a) None None)
                 end in
  match strchr_p tmp "/"%char with
  | Some slash =>
      if ptr_lt slash crlf then
        match set_next_token tmp "/"%char with
        | None => None
        | Some (a, tmp) =>
            let ttl_only := match last_token tmp with
                            | None => None
                            | Some (t, _) => Some (mkConn (Some net) (Some typ) (Some a) (Some t) None)
                            end in
            match strchr_p (tl slash) "/"%char with
            | Some slash =>
                if ptr_lt slash crlf then
                  match set_next_token tmp "/"%char with
                  | None => None
                  | Some (t, tmp) =>
                      match last_token tmp with
                      | None => None
                      | Some (n, _) => Some (mkConn (Some net) (Some typ) (Some a) (Some t) (Some n))
                      end
                  end
                else ttl_only
            | None => ttl_only
            end
        end
      else unicast
  | None => unicast
  end.

(** sdp_message_parse_c: sdp_message.c 712-838 *)
Definition parse_c (d : sdp) (c : cursor) : line_res :=
  with_line (find_equal "c"%char c) (fun tmp _ crlf =>
    match set_next_token tmp sp with None => LError | Some (net, tmp) =>
    match set_next_token tmp sp with None => LError | Some (typ, tmp) =>
    match parse_c_addr net typ tmp crlf with None => LError | Some conn =>
      LWF (on_place d (with_c (Some conn)) (fun m => media_c (m_connections m ++ [conn]) m))
          (after_crlf crlf)
    end end end).

(** sdp_message_parse_b: sdp_message.c 840-912 *)
Definition parse_b (d : sdp) (c : cursor) : line_res :=
  with_line (find_equal "b"%char c) (fun tmp _ crlf =>
    match set_next_token tmp ":"%char with None => LError | Some (typ, tmp) =>
    match last_token tmp with None => LError | Some (bw, _) =>
      let band := mkBand (Some typ) (Some bw) in
      LWF (on_place d (fun d => with_b (b_bandwidths d ++ [band]) d)
                      (fun m => media_b (m_bandwidths m ++ [band]) m))
          (after_crlf crlf)
    end end).

(** sdp_message_parse_t: sdp_message.c 914-975 *)
Definition parse_t (d : sdp) (c : cursor) : line_res :=
  with_line (find_equal "t"%char c) (fun tmp _ crlf =>
    match set_next_token tmp sp with None => LError | Some (start, tmp) =>
    match last_token tmp with None => LError | Some (stop, _) =>
      LWF (with_t (t_descrs d ++ [mkTime (Some start) (Some stop) []]) d) (after_crlf crlf)
    end end).

(** sdp_message_parse_r: sdp_message.c 977-1026 *)
Definition parse_r (d : sdp) (c : cursor) : line_res :=
  match find_equal "r"%char c with
  | HError => LError
  | HDiscard => LDiscard
  | HUB => LUB
  | HFound v =>
      match rev (t_descrs d) with
      | [] => LError
      | t :: ts =>
          match find_crlf v with
          | None => LError
          | Some (val, crlf) =>
              LWF (with_t (rev ts ++ [mkTime (t_start t) (t_stop t) (t_repeats t ++ [val])]) d)
                  (after_crlf crlf)
          end
      end
  end.

(** sdp_message_parse_z: sdp_message.c 1028-1069 *)
Definition parse_z (d : sdp) (c : cursor) : line_res :=
  with_line (find_equal "z"%char c) (fun _ val crlf => LWF (with_z (Some val) d) (after_crlf crlf)).

(** The common part of "k=" and "a=": sdp_message.c 1109-1138 and 1200-1229 *)
Definition parse_pair (tmp crlf : str) : option (str * option str) :=
  let alone := match last_token tmp with None => None | Some (f, _) => Some (f, None) end in
  match strchr_p tmp ":"%char with
  | Some colon =>
      if ptr_lt colon crlf then
        match set_next_token tmp ":"%char with
        | None => None
        | Some (f, tmp) =>
            match last_token tmp with None => None | Some (v, _) => Some (f, Some v) end
        end
      else alone
  | None => alone
  end.

(** sdp_message_parse_k: sdp_message.c 1071-1159 *)
Definition parse_k (d : sdp) (c : cursor) : line_res :=
  with_line (find_equal "k"%char c) (fun tmp _ crlf =>
    match parse_pair tmp crlf with
    | None => LError
    | Some (f, v) =>
        let key := mkKey (Some f) v in
        LWF (on_place d (with_k (Some key)) (media_k (Some key))) (after_crlf crlf)
    end).

(** sdp_message_parse_a: sdp_message.c 1161-1250 *)
Definition parse_a (d : sdp) (c : cursor) : line_res :=
  with_line (find_equal "a"%char c) (fun tmp _ crlf =>
    match parse_pair tmp crlf with
    | None => LError
    | Some (f, v) =>
        let attr := mkAttr (Some f) v in
        LWF (on_place d (fun d => with_a (a_attributes d ++ [attr]) d)
                        (fun m => media_a (m_attributes m ++ [attr]) m))
            (after_crlf crlf)
    end).

(** The loop over the payloads of "m=": sdp_message.c 1346-1380, [tmp_next] being equal to [tmp]
    at each test.  [fuel] bounds the iterations; running out of it is reported as UB *)
Fixpoint parse_payloads (fuel : nat) (tmp crlf : str) (acc : list str) : res (list str) :=
  match fuel with
  | O => UB
  | S fuel =>
      match tmp with
      | [] => UB                                     (* tmp + 1 is past the NUL *)
      | _ :: after =>
          let more := match strchr_p after sp with
                      | None => false
                      | Some space => negb (ptr_lt crlf space)
                      end in
          if more then
            match set_next_token tmp sp with
            | None => Err OSIP_UNDEFINED_ERROR
            | Some (p, tmp) => parse_payloads fuel tmp crlf (acc ++ [p])
            end
          else if ptr_lt tmp crlf then
            match last_token tmp with
            | None => Err OSIP_UNDEFINED_ERROR
            | Some (p, _) => Ok (acc ++ [p])
            end
          else Ok acc
      end
  end.

(** The port part of "m=": sdp_message.c 1291-1328 *)
Definition parse_m_port (tmp : str) : option (str * option str * str) :=
  match strchr_p tmp sp with
  | None => None
  | Some space =>
      match (match strchr_p tmp "/"%char with Some slash => ptr_lt slash space | None => false end) with
      | true =>
          match set_next_token tmp "/"%char with None => None | Some (port, tmp) =>
          match set_next_token tmp sp with None => None | Some (number, tmp) =>
            Some (port, Some number, tmp) end end
      | false =>
          match set_next_token tmp sp with None => None | Some (port, tmp) =>
            Some (port, None, tmp) end
      end
  end.

(** The protocol of "m=": sdp_message.c 1330-1342 *)
Definition parse_m_proto (tmp : str) : option (str * str) :=
  match set_next_token tmp sp with
  | Some x => Some x
  | None => last_token tmp
  end.

(** sdp_message_parse_m: sdp_message.c 1252-1393 *)
Definition parse_m (d : sdp) (c : cursor) : line_res :=
  with_line (find_equal "m"%char c) (fun tmp _ crlf =>
    match set_next_token tmp sp with None => LError | Some (media, tmp) =>
    match parse_m_port tmp with None => LError | Some (port, number, tmp) =>
    match parse_m_proto tmp with None => LError | Some (proto, tmp) =>
    match parse_payloads (S (length tmp)) tmp crlf [] with
    | UB => LUB
    | Err _ => LError
    | Ok ps =>
        LWF (with_m (m_medias d ++ [mkMedia (Some media) (Some port) number (Some proto) ps None
                                            [] [] [] None]) d)
            (after_crlf crlf)
    end end end end).

(** *** sdp_message_parse: sdp_message.c 1396-1636 *)
(** Control flow of the function body: it returns, or goes on *)
Inductive flow :=
| Return (d : sdp)             (* return OSIP_SUCCESS *)
| Continue (i : bool) (d : sdp) (c : cursor).   (* [i]: the last line function answered WF *)

(** "i = sdp_message_parse_X (sdp, ptr, &next_buf); if (i == -1) return -1; ptr = next_buf;" *)
Definition line_step (f : sdp -> cursor -> line_res) (d : sdp) (c : cursor) : res flow :=
  match f d c with
  | LError => Err OSIP_UNDEFINED_ERROR
  | LUB => UB
  | LDiscard => Ok (Continue false d c)
  | LWF d c => Ok (Continue true d c)
  end.
(** the same with "else if (0 == i) return -1;" *)
Definition must_line (f : sdp -> cursor -> line_res) (d : sdp) (c : cursor) : res flow :=
  match f d c with
  | LWF d c => Ok (Continue true d c)
  | LUB => UB
  | _ => Err OSIP_UNDEFINED_ERROR
  end.
(** "if ( *ptr == '\0' || ( *ptr == '\r') || ( *ptr == '\n')) return OSIP_SUCCESS;" *)
Definition end_check (i : bool) (d : sdp) (c : cursor) : flow :=
  match ahead c with
  | [] => Return d
  | x :: _ => if is_eol x then Return d else Continue i d c
  end.
(** line_step followed by end_check *)
Definition line_end (f : sdp -> cursor -> line_res) (d : sdp) (c : cursor) : res flow :=
  do r <- line_step f d c ;
  match r with Return d => Ok (Return d) | Continue i d c => Ok (end_check i d c) end.
(** sequencing: what follows runs only if the function did not return *)
Definition andthen (r : res flow) (k : bool -> sdp -> cursor -> res flow) : res flow :=
  do f <- r ;
  match f with Return d => Ok (Return d) | Continue i d c => k i d c end.

(** "i = 1; while (i == 1) ...": [fuel] bounds the iterations; running out of it is UB *)
Fixpoint repeat_line (step : sdp -> cursor -> res flow) (fuel : nat) (d : sdp) (c : cursor) : res flow :=
  match fuel with
  | O => UB
  | S fuel =>
      andthen (step d c) (fun i d c =>
        if i then repeat_line step fuel d c else Ok (Continue false d c))
  end.
Definition loop (step : sdp -> cursor -> res flow) (d : sdp) (c : cursor) : res flow :=
  repeat_line step (S (length (ahead c))) d c.

(** the "t" lines after the first with their "r" lines: sdp_message.c 1528-1550 *)
Fixpoint repeat_t (fuel : nat) (d : sdp) (c : cursor) : res flow :=
  match fuel with
  | O => UB
  | S fuel =>
      andthen (loop (line_end parse_r) d c) (fun _ d c =>
      andthen (line_end parse_t d c) (fun i d c =>
        if i then repeat_t fuel d c else Ok (Continue false d c)))
  end.
(** the media: sdp_message.c 1578-1632 *)
Fixpoint repeat_m (fuel : nat) (d : sdp) (c : cursor) : res flow :=
  match fuel with
  | O => UB
  | S fuel =>
      andthen (line_end parse_m d c) (fun more d c =>
      andthen (line_end parse_i d c) (fun _ d c =>
      andthen (loop (line_end parse_c) d c) (fun _ d c =>
      andthen (loop (line_end parse_b) d c) (fun _ d c =>
      andthen (line_end parse_k d c) (fun _ d c =>
      andthen (loop (line_end parse_a) d c) (fun _ d c =>
        if more then repeat_m fuel d c else Ok (Continue false d c)))))))
  end.

Definition sdp_parse (d : sdp) (buf : str) : res sdp :=
  do r <-
    andthen (must_line parse_v d (mkCur None buf)) (fun _ d c =>
    andthen (line_step parse_s d c) (fun _ d c =>
    andthen (must_line parse_o d c) (fun _ d c =>
    andthen (line_step parse_s d c) (fun _ d c =>
    andthen (line_step parse_i d c) (fun _ d c =>
    andthen (line_step parse_u d c) (fun _ d c =>
    andthen (loop (line_step parse_e) d c) (fun _ d c =>
    andthen (loop (line_step parse_p) d c) (fun _ d c =>
    andthen (line_step parse_c d c) (fun _ d c =>
    andthen (loop (line_step parse_b) d c) (fun _ d c =>
    andthen (must_line parse_t d c) (fun i d c =>
    andthen (Ok (end_check i d c)) (fun _ d c =>
    andthen (loop (line_end parse_r) d c) (fun _ d c =>
    andthen (line_end parse_t d c) (fun _ d c =>
    andthen (repeat_t (S (length (ahead c))) d c) (fun _ d c =>
    andthen (line_end parse_z d c) (fun _ d c =>
    andthen (line_end parse_k d c) (fun _ d c =>
    andthen (loop (line_end parse_a) d c) (fun _ d c =>
            repeat_m (S (length (ahead c))) d c)))))))))))))))))) ;
  match r with Return d => Ok d | Continue _ d _ => Ok d end.

(** *** sdp_message_to_str *)
(** The buffer being filled: its allocated size and the text written so far *)
Record outbuf := mkOut { o_size : Z; o_text : str }.
Definition INT_MAX : Z := 2147483647.
Definition slen (s : str) : Z := Z.of_nat (length s).

(** __osip_sdp_append_string: sdp_message.c 320-337.  The lengths and the size are [int]; writing
    the string and its NUL past the allocated size is UB *)
Definition append (o : outbuf) (s : str) : res outbuf :=
  let cur := slen (o_text o) in
  let length := slen s in
  if INT_MAX <? cur + length + 1 then UB else
  let size := if o_size o <? cur + length + 1 then o_size o + length + 500 else o_size o in
  if INT_MAX <? size then UB
  else if size <? cur + length + 1 then UB
  else Ok (mkOut size (o_text o ++ s)).

(** several calls of __osip_sdp_append_string in a row *)
Fixpoint appends (o : outbuf) (l : list str) : res outbuf :=
  match l with [] => Ok o | s :: t => do o <- append o s ; appends o t end.

Definition CRLF : str := [cr; lf].
(** "return -1" *)
Definition fail {A} : res A := Err OSIP_UNDEFINED_ERROR.
(** "if (x != NULL) append (prefix); append (x); append (suffix)" *)
Definition opt_part (prefix : str) (x : option str) (suffix : list str) : list str :=
  match x with None => [] | Some v => [prefix; v] ++ suffix end.

(** sdp_append_connection: sdp_message.c 1638-1665 *)
Definition append_connection (o : outbuf) (c : sdp_connection) : res outbuf :=
  match c_nettype c, c_addrtype c, c_addr c with
  | Some net, Some typ, Some addr =>
      appends o ([$"c="; net; $" "; typ; $" "; addr] ++ opt_part $"/" (c_ttl c) []
                 ++ opt_part $"/" (c_int c) [] ++ [CRLF])
  | _, _, _ => fail
  end.
(** sdp_append_bandwidth: sdp_message.c 1667-1683 *)
Definition append_bandwidth (o : outbuf) (b : sdp_bandwidth) : res outbuf :=
  match b_bwtype b, b_bandwidth b with
  | Some t, Some w => appends o [$"b="; t; $":"; w; CRLF]
  | _, _ => fail
  end.
(** sdp_append_time_descr: sdp_message.c 1685-1715 *)
Definition append_time (o : outbuf) (t : sdp_time) : res outbuf :=
  match t_start t, t_stop t with
  | Some a, Some b =>
      appends o ([$"t="; a; $" "; b; CRLF] ++ flat_map (fun r => [$"r="; r; CRLF]) (t_repeats t))
  | _, _ => fail
  end.
(** sdp_append_key: sdp_message.c 1717-1732 *)
Definition append_key (o : outbuf) (k : sdp_key) : res outbuf :=
  match k_keytype k with
  | Some t => appends o ([$"k="; t] ++ opt_part $":" (k_keydata k) [] ++ [CRLF])
  | None => fail
  end.
(** sdp_append_attribute: sdp_message.c 1734-1750 *)
Definition append_attribute (o : outbuf) (a : sdp_attribute) : res outbuf :=
  match a_field a with
  | Some f => appends o ([$"a="; f] ++ opt_part $":" (a_value a) [] ++ [CRLF])
  | None => fail
  end.
(** the loops "while (!osip_list_eol (list, pos)) { i = sdp_append_x (..); if (i != 0) return -1; }" *)
Fixpoint append_all {A} (f : outbuf -> A -> res outbuf) (o : outbuf) (l : list A) : res outbuf :=
  match l with [] => Ok o | x :: t => do o <- f o x ; append_all f o t end.
(** "if (x != NULL) sdp_append_x (..)" *)
Definition append_opt {A} (f : outbuf -> A -> res outbuf) (o : outbuf) (x : option A) : res outbuf :=
  match x with None => Ok o | Some x => f o x end.
(** sdp_append_media: sdp_message.c 1753-1842 *)
Definition append_media (o : outbuf) (m : sdp_media) : res outbuf :=
  match m_media m, m_port m, m_proto m with
  | Some media, Some port, Some proto =>
      do o <- appends o ([$"m="; media; $" "; port] ++ opt_part $"/" (m_number m) []
                         ++ [$" "; proto] ++ flat_map (fun p => [$" "; p]) (m_payloads m) ++ [CRLF]) ;
      do o <- appends o (opt_part $"i=" (m_info m) [CRLF]) ;
      do o <- append_all append_connection o (m_connections m) ;
      do o <- append_all append_bandwidth o (m_bandwidths m) ;
      do o <- append_opt append_key o (m_key m) ;
      append_all append_attribute o (m_attributes m)
  | _, _, _ => fail
  end.
(** BODY_MESSAGE_MAX_SIZE: osip_message.h 119-124 *)
Definition BODY_MESSAGE_MAX_SIZE : Z := 4000.

(** sdp_message_to_str: sdp_message.c 1844-2010 *)
Definition sdp_to_str (d : sdp) : res str :=
  match v_version d, o_username d, o_sess_id d, o_sess_version d, o_nettype d, o_addrtype d, o_addr d with
  | Some v, Some user, Some id, Some ver, Some net, Some typ, Some addr =>
      let o := mkOut BODY_MESSAGE_MAX_SIZE [] in
      do o <- appends o [$"v="; v; CRLF; $"o="; user; $" "; id; $" "; ver; $" "; net; $" "; typ;
                         $" "; addr; CRLF] ;
      do o <- appends o (opt_part $"s=" (s_name d) [CRLF]) ;
      do o <- appends o (opt_part $"i=" (i_info d) [CRLF]) ;
      do o <- appends o (opt_part $"u=" (u_uri d) [CRLF]) ;
      do o <- appends o (flat_map (fun e => [$"e="; e; CRLF]) (e_emails d)) ;
      do o <- appends o (flat_map (fun p => [$"p="; p; CRLF]) (p_phones d)) ;
      do o <- append_opt append_connection o (c_connection d) ;
      do o <- append_all append_bandwidth o (b_bandwidths d) ;
      do o <- append_all append_time o (t_descrs d) ;
      do o <- appends o (opt_part $"z=" (z_adjustments d) [CRLF]) ;
      do o <- append_opt append_key o (k_key d) ;
      do o <- append_all append_attribute o (a_attributes d) ;
      do o <- append_all append_media o (m_medias d) ;
      Ok (o_text o)
  | _, _, _, _, _, _, _ => fail
  end.

(** sdp_message_clone: sdp_message.c 2048-2072 *)
Definition sdp_clone (d : sdp) : res sdp :=
  match sdp_to_str d with
  | UB => UB
  | Err _ => fail
  | Ok body =>
      match sdp_parse sdp_init body with
      | UB => UB
      | Err _ => fail
      | Ok d => Ok d
      end
  end.

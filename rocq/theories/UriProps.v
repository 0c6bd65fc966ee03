(** C33, C40, C56 for SIP URIs. *)
From Coq Require Import String ZArith NArith Ascii Bool List Lia ZifyBool ZifyNat.
From Verif Require Import Base Str StrLemmas MemModel MemLemmas Types PortModel CString CStringLemmas UriModel EscapeProps.
Import ListNotations.
Open Scope Z_scope.

(** * Printing stays in its buffers (C40) *)

(** Specification: the printed forms *)
Definition uparam_text (p : param) : str :=
  ";"%char :: esc uri_param_def (fst p) ++ match snd p with None => [] | Some v => "="%char :: esc uri_param_def v end.
Definition uheader_text (sep : ascii) (p : param) : str :=
  sep :: esc header_param_def (fst p) ++ "="%char :: esc header_param_def (match snd p with None => [] | Some v => v end).
Definition uheaders_text (hs : list param) : str :=
  match hs with [] => [] | h :: hs' => uheader_text "?"%char h ++ flat_map (uheader_text "&"%char) hs' end.
Definition shown (ps : list param) : list param := filter (fun p => negb (hidden_param p)) ps.

Definition user_text (u : uri) : str :=
  match u_username u with
  | None => []
  | Some n => esc userinfo_def n ++ match u_password u with None => [] | Some p => ":"%char :: esc password_def p end ++ ["@"%char]
  end.
Definition host_text (h : str) : str := match strchr h ":"%char with Some _ => "["%char :: h ++ ["]"%char] | None => h end.
Definition port_text (p : option str) : str := match p with None => [] | Some p => ":"%char :: p end.
Definition uri_text (u : uri) (scheme host : str) : str :=
  scheme ++ ":"%char :: user_text u ++ host_text host ++ port_text (u_port u)
  ++ flat_map uparam_text (shown (u_params u)) ++ uheaders_text (u_headers u).

Lemma esc_length : forall def s, slen (esc def s) <= 3 * slen s.
Proof.
  intros def s. induction s as [|c s IH]; [cbn; lia|]. unfold esc in *. cbn [flat_map].
  assert (slen (enc def c) <= 3) by (unfold enc; destruct (allowed def c); unfold percent; sl). sl.
Qed.

Lemma print_uparams_ok : forall ps t len, slen t + 1 <= len ->
  exists len', slen (t ++ flat_map uparam_text (shown ps)) + 1 <= len' /\
  print_uparams ps (mkOut t len) len = Ok (mkOut (t ++ flat_map uparam_text (shown ps)) len', len').
Proof.
  induction ps as [|p ps IH]; intros t len L.
  - exists len. cbn [shown filter flat_map print_uparams]. rewrite app_nil_r. auto.
  - cbn [print_uparams]. unfold shown. cbn [filter]. destruct (hidden_param p); cbn [negb].
    + apply IH. exact L.
    + rewrite escape_ok. cbn [res_bind flat_map]. fold (shown ps). destruct p as [n [v|]]; cbn [fst snd].
      * rewrite escape_ok. cbn [res_bind].
        rewrite grow_ok by sl. cbn [res_bind]. rewrite emit_ok by sl. cbn [res_bind].
        change (";"%char :: esc uri_param_def n ++ "="%char :: esc uri_param_def v) with (uparam_text (n, Some v)).
        rewrite app_assoc. apply IH. unfold uparam_text. cbn [fst snd]. sl.
      * rewrite grow_ok by sl. cbn [res_bind]. rewrite emit_ok by sl. cbn [res_bind].
        assert (";"%char :: esc uri_param_def n = uparam_text (n, None)) as -> by (unfold uparam_text; cbn [fst snd]; rewrite app_nil_r; reflexivity).
        rewrite app_assoc. apply IH. unfold uparam_text. cbn [fst snd]. sl.
Qed.

Lemma emit_n_ok : forall t len s, slen t + slen s + 1 <= len -> emit_n (mkOut t len) len s = Ok (mkOut (t ++ s) len).
Proof.
  intros t len s H. unfold emit_n. cbn [o_text]. replace (len - slen t <? 1) with false by sl.
  rewrite firstn_all2 by (pose proof (slen_nonneg _ t); unfold slen in *; lia). apply emit_ok. exact H.
Qed.

Definition more_headers (pos : nat) (hs : list param) : str :=
  match pos with O => uheaders_text hs | S _ => flat_map (uheader_text "&"%char) hs end.
Lemma print_uheaders_ok : forall hs pos t len, slen t + 1 <= len -> Forall (fun h => snd h <> None) hs ->
  exists len', slen (t ++ more_headers pos hs) + 1 <= len' /\
  print_uheaders hs pos (mkOut t len) len
  = Ok (mkOut (t ++ more_headers pos hs) len', len').
Proof.
  induction hs as [|[n v] hs IH]; intros pos t len L F.
  - exists len. cbn [print_uheaders]. unfold more_headers. destruct pos; cbn [flat_map uheaders_text]; rewrite app_nil_r; auto.
  - inversion F as [|? ? F1 F2]; subst. cbn [snd] in F1. destruct v as [v|]; [|contradiction F1; reflexivity].
    cbn [print_uheaders fst snd]. rewrite !escape_ok. cbn [res_bind].
    rewrite grow_ok by sl. cbn [res_bind]. rewrite emit_n_ok by sl. cbn [res_bind].
    change ((if Nat.eqb pos 0 then "?"%char else "&"%char) :: esc header_param_def n ++ "="%char :: esc header_param_def v)
      with (uheader_text (if Nat.eqb pos 0 then "?"%char else "&"%char) (n, Some v)).
    assert (more_headers pos ((n, Some v) :: hs)
      = uheader_text (if Nat.eqb pos 0 then "?"%char else "&"%char) (n, Some v) ++ flat_map (uheader_text "&"%char) hs) as -> by (destruct pos; reflexivity).
    rewrite app_assoc.
    apply (IH (S pos)); [|exact F2]. unfold uheader_text. cbn [fst snd]. sl.
Qed.

Definition default_scheme (s : option str) : str := match s with None => $"sip" | Some s => s end.

Lemma uri_to_str_ok : forall u host, u_host u = Some host -> u_string u = None -> Forall (fun h => snd h <> None) (u_headers u) ->
  uri_to_str u = Ok (uri_text u (default_scheme (u_scheme u)) host).
Proof.
  intros u host H S F. unfold uri_to_str. rewrite H, S. fold (default_scheme (u_scheme u)).
  set (scheme := default_scheme (u_scheme u)). remember (slen scheme + 1 + slen host + 5 + opt_len (u_username u) (fun n => n * 3 + 1) + opt_len (u_password u) (fun n => n * 3 + 1) + opt_len (u_port u) (fun n => n + 3)) as len eqn:Elen.
  assert (0 <= opt_len (u_port u) (fun n => n + 3)) by (unfold opt_len; destruct (u_port u); sl).
  assert (0 <= opt_len (u_username u) (fun n => n * 3 + 1)) by (unfold opt_len; destruct (u_username u); sl).
  assert (0 <= opt_len (u_password u) (fun n => n * 3 + 1)) by (unfold opt_len; destruct (u_password u); sl).
  unfold out_new. replace (len <? 1) with false by sl. cbn [res_bind].
  rewrite emit_ok by (change ($":") with [":"%char]; sl). cbn [res_bind app].
  assert (exists t, (do o <- match u_username u with None => Ok (mkOut (scheme ++ $":") len) | Some user => do t <- uri_escape userinfo_def user ; emit (mkOut (scheme ++ $":") len) t end ;
    do o <- match u_password u, u_username u with | Some pw, Some _ => do t <- uri_escape password_def pw ; emit o (":"%char :: t) | _, _ => Ok o end ;
    match u_username u with None => Ok o | Some _ => emit o ($"@") end) = Ok (mkOut t len) /\
    t = scheme ++ ":"%char :: user_text u /\ slen t + slen host + 3 + opt_len (u_port u) (fun n => n + 1) <= len) as (t & E & Et & Lt).
  { exists (scheme ++ ":"%char :: user_text u). unfold user_text. destruct (u_username u) as [n|] eqn:U.
    - rewrite escape_ok. cbn [res_bind]. pose proof (esc_length userinfo_def n).
      assert (len = slen scheme + 1 + slen host + 5 + (slen n * 3 + 1) + opt_len (u_password u) (fun n => n * 3 + 1) + opt_len (u_port u) (fun n => n + 3)) as El by exact Elen.
      assert (opt_len (u_port u) (fun n => n + 1) + 0 <= opt_len (u_port u) (fun n => n + 3)) by (unfold opt_len; destruct (u_port u); sl).
      change ($":") with [":"%char]. change ($"@") with ["@"%char].
      rewrite emit_ok by sl. cbn [res_bind]. destruct (u_password u) as [pw|] eqn:P.
      + rewrite escape_ok. cbn [res_bind]. pose proof (esc_length password_def pw). cbn [opt_len] in El.
        rewrite emit_ok by sl. cbn [res_bind]. rewrite emit_ok by sl. split; [f_equal; f_equal; cat|]. split; [reflexivity|sl].
      + cbn [res_bind opt_len] in *. rewrite emit_ok by sl. split; [f_equal; f_equal; cat|]. split; [reflexivity|sl].
    - cbn [res_bind]. destruct (u_password u); cbn [res_bind]; (split; [reflexivity|]); (split; [reflexivity|]);
      assert (opt_len (u_port u) (fun n => n + 1) <= opt_len (u_port u) (fun n => n + 3)) by (unfold opt_len; destruct (u_port u); sl);
      cbn [opt_len] in *; sl. }
  transitivity (do o <- Ok (mkOut t len) ;
    do o <- match strchr host ":"%char with | Some _ => emit o ("["%char :: host ++ $"]") | None => emit o host end ;
    do o <- match u_port u with None => Ok o | Some p => emit o (":"%char :: p) end ;
    do r <- print_uparams (u_params u) o len ;
    do r <- print_uheaders (u_headers u) 0 (fst r) (snd r) ; Ok (o_text (fst r))).
  { rewrite <- E. destruct (u_username u) as [n|]; cbn [res_bind].
    - rewrite escape_ok. cbn [res_bind]. destruct (emit _ _) as [o| |]; cbn [res_bind]; try reflexivity.
      destruct (u_password u); [rewrite escape_ok; cbn [res_bind]; destruct (emit o _); cbn [res_bind]; reflexivity|cbn [res_bind]; reflexivity].
    - destruct (u_password u); reflexivity. }
  cbn [res_bind].
  assert (match strchr host ":"%char with | Some _ => emit (mkOut t len) ("["%char :: host ++ $"]") | None => emit (mkOut t len) host end = Ok (mkOut (t ++ host_text host) len)) as ->.
  { change ($"]") with ["]"%char]. unfold host_text. assert (0 <= opt_len (u_port u) (fun n => n + 1)) by (unfold opt_len; destruct (u_port u); sl). destruct (strchr host ":"%char); rewrite emit_ok by sl; reflexivity. }
  cbn [res_bind]. assert (slen (host_text host) <= slen host + 2) by (unfold host_text; destruct (strchr host ":"%char); sl).
  assert (match u_port u with None => Ok (mkOut (t ++ host_text host) len) | Some p => emit (mkOut (t ++ host_text host) len) (":"%char :: p) end
    = Ok (mkOut (t ++ host_text host ++ port_text (u_port u)) len) /\ slen (t ++ host_text host ++ port_text (u_port u)) + 1 <= len) as [-> L2].
  { unfold port_text, opt_len in *. destruct (u_port u) as [p|].
    - rewrite emit_ok by sl. split; [f_equal; f_equal; cat|sl].
    - rewrite app_nil_r. split; [reflexivity|sl]. }
  cbn [res_bind]. destruct (print_uparams_ok (u_params u) _ _ L2) as (l1 & M1 & ->). cbn [res_bind fst snd].
  destruct (print_uheaders_ok (u_headers u) 0 _ _ M1 F) as (l2 & M2 & ->). cbn [res_bind fst snd o_text].
  f_equal. rewrite Et. unfold uri_text. cat.
Qed.

(** Whatever the lengths and the number of parameters and headers, osip_uri_to_str writes only
    inside the buffers it allocates and produces exactly the text.  The API never makes a URI
    header without a value. *)
Theorem C40_uri : forall u, Forall (fun h => snd h <> None) (u_headers u) ->
  uri_to_str u <> UB /\
  forall host, u_host u = Some host -> u_string u = None ->
    uri_to_str u = Ok (uri_text u (default_scheme (u_scheme u)) host).
Proof.
  intros u F. split.
  - destruct (u_string u) as [st|] eqn:S.
    + unfold uri_to_str. rewrite S. assert (match u_scheme u with
      | Some scheme => do o <- out_new (slen scheme + slen st + 3) ; do o <- emit o (scheme ++ $":") ; do o <- emit o st ; Ok (o_text o)
      | None => Err OSIP_BADPARAMETER end <> UB).
      { destruct (u_scheme u) as [sc|]; [|discriminate]. unfold out_new. replace (_ <? 1) with false by sl. cbn [res_bind].
        change ($":") with [":"%char]. rewrite emit_ok by sl. cbn [res_bind]. rewrite emit_ok by sl. discriminate. }
      destruct (u_host u); exact H.
    + destruct (u_host u) as [h|] eqn:H; [rewrite (uri_to_str_ok u h) by auto; discriminate|]. unfold uri_to_str. rewrite H, S. discriminate.
  - intros host H S. apply uri_to_str_ok; auto.
Qed.

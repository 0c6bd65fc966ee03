(** C87: the canonical text of a URI (osip_uri_to_str_canonical) *)
From Coq Require Import String ZArith NArith Ascii Bool List Lia.
From Verif Require Import Base Str StrLemmas MemModel MemLemmas Types PortModel CString CStringLemmas UriModel CanonModel EscapeProps UriProps UriRound.
Import ListNotations.
Open Scope Z_scope.

(** *** Specification: the parts of the URI as they are, with the signs between them *)
Definition plain_param (p : param) : str := $";" ++ fst p ++ match snd p with None => [] | Some v => $"=" ++ v end.
Definition plain_header (sep : str) (p : param) : str := sep ++ fst p ++ $"=" ++ match snd p with None => [] | Some v => v end.
Definition plain_headers (l : list param) : str :=
  match l with [] => [] | h :: l => plain_header ($"?") h ++ flat_map (plain_header ($"&")) l end.
Definition plain_user (u : uri) : str :=
  match u_username u with
  | None => []
  | Some n => n ++ match u_password u with None => [] | Some p => $":" ++ p end ++ $"@"
  end.
(** an IPv6 address is the kind of host that has a colon *)
Definition plain_host (h : str) : str := if existsb (Ascii.eqb ":") h then $"[" ++ h ++ $"]" else h.
Definition plain_port (p : option str) : str := match p with None => [] | Some p => $":" ++ p end.
Definition plain (u : uri) (scheme host : str) : str :=
  scheme ++ $":" ++ plain_user u ++ plain_host host ++ plain_port (u_port u) ++ flat_map plain_param (u_params u) ++ plain_headers (u_headers u).
(** the host and the port, which are printed as they are, have no percent sign *)
Definition no_percent (u : uri) (host : str) : Prop :=
  cstr host /\ ~ In "%"%char host /\ match u_port u with None => True | Some p => cstr p /\ ~ In "%"%char p end.

(** *** [t] is read as [x] *)
Definition reads (t x : str) : Prop := (forall r, unescape (t ++ r) = x ++ unescape r) /\ cstr t /\ cstr x.
Lemma reads_nil : reads [] []. Proof. split; [reflexivity|]. split; intros []. Qed.
Lemma reads_app a b x y : reads a x -> reads b y -> reads (a ++ b) (x ++ y).
Proof.
  intros (A & A1 & A2) (B & B1 & B2). split; [|split; apply cstr_app; auto]. intros r. rewrite <- app_assoc, A, B, app_assoc. reflexivity.
Qed.
Lemma reads_cons c t x : c <> "%"%char -> c <> NUL -> reads t x -> reads (c :: t) (c :: x).
Proof.
  intros P N (A & A1 & A2). split; [|split; apply cstr_cons; auto]. intros r. cbn [app unescape]. destruct (Ascii.eqb_spec c "%"%char); [contradiction|]. now rewrite A.
Qed.
Lemma reads_same t : ~ In "%"%char t -> cstr t -> reads t t.
Proof.
  induction t as [|c t IH]; intros P C; [apply reads_nil|]. apply cstr_cons in C. destruct C as [C1 C2].
  apply reads_cons; [intros ->; apply P; now left|exact C1|]. apply IH; [intros I; apply P; now right|exact C2].
Qed.
Lemma reads_esc def s : ~ In "%"%char def -> cstr s -> reads (esc def s) s.
Proof.
  intros P. induction s as [|c s IH]; intros C; [apply reads_nil|]. apply cstr_cons in C. destruct C as [C1 C2].
  unfold esc. cbn [flat_map]. fold (esc def s). unfold enc. destruct (allowed def c) eqn:A.
  - apply reads_cons; [|exact C1|exact (IH C2)]. intros ->. unfold allowed in A. apply orb_true_iff in A. destruct A as [A|A]; [discriminate A|].
    apply existsb_exists in A. destruct A as (x & Hx & E). apply Ascii.eqb_eq in E. subst x. contradiction.
  - destruct (IH C2) as (I1 & I2 & I3). split; [|split].
    + intros r. rewrite <- app_assoc, unescape_percent, I1. reflexivity.
    + apply cstr_app. split; [|exact I2]. intros I. unfold percent in I. cbn [In] in I.
      assert (H : forall n, (n < 16)%N -> hex_digit n <> NUL).
      { intros n L E. pose proof (hex_allowed [] n L) as K. rewrite E in K. discriminate K. }
      destruct I as [I|[I|[I|[]]]]; [discriminate I|apply (H _ (hi_lt c) I)|apply (H _ (lo_lt c) I)].
    + apply cstr_cons. auto.
Qed.
Ltac nopc := let I := fresh in intros I; cbn in I; repeat (destruct I as [I|I]; [discriminate I|]); exact I.
Lemma reads_param p : uparam_wf p -> reads (uparam_text p) (plain_param p).
Proof.
  intros (_ & _ & C & _ & V). unfold uparam_text, plain_param. apply reads_cons; [discriminate|discriminate|].
  apply reads_app; [apply reads_esc; [nopc|exact C]|]. destruct (snd p) as [v|]; [|apply reads_nil].
  apply reads_cons; [discriminate|discriminate|]. apply reads_esc; [nopc|tauto].
Qed.
Lemma reads_header c p : c <> "%"%char -> c <> NUL -> uheader_wf p -> reads (uheader_text c p) (plain_header [c] p).
Proof.
  intros P N (_ & C & V). unfold uheader_text, plain_header. apply reads_cons; [exact P|exact N|].
  apply reads_app; [apply reads_esc; [nopc|exact C]|]. apply reads_cons; [discriminate|discriminate|]. destruct (snd p) as [v|]; [|contradiction]. apply reads_esc; [nopc|tauto].
Qed.
Lemma reads_flat {A} (f g : A -> str) l : Forall (fun a => reads (f a) (g a)) l -> reads (flat_map f l) (flat_map g l).
Proof. induction 1; [apply reads_nil|]. cbn [flat_map]. now apply reads_app. Qed.
Lemma colon_host h : host_text h = plain_host h.
Proof.
  unfold host_text, plain_host. destruct (strchr h ":"%char) as [i|] eqn:E; destruct (existsb (Ascii.eqb ":") h) eqn:F; try reflexivity; exfalso.
  - rewrite strchr_absent in E; [discriminate|]. intros I. assert (existsb (Ascii.eqb ":") h = true) by (apply existsb_exists; exists ":"%char; auto). congruence.
  - apply existsb_exists in F. destruct F as (x & I & X). apply Ascii.eqb_eq in X. subst x. apply strchr_none in E. contradiction.
Qed.
Lemma reads_uri u scheme host : uri_wf u scheme host -> no_percent u host -> reads (uri_text u scheme host) (plain u scheme host).
Proof.
  intros [W1 W2 W3 W5 W6 W7 W10 W11 W12 W13] (H1 & H2 & H3). unfold uri_text, plain. rewrite (shown_all _ W11).
  apply reads_app; [apply reads_same; [apply (alpha_notin _ _ W2); reflexivity|apply (alpha_notin _ _ W2); reflexivity]|].
  apply reads_cons; [discriminate|discriminate|].
  apply reads_app.
  { unfold user_text, plain_user. destruct (u_username u) as [n|]; [|apply reads_nil]. destruct W5 as (_ & N & P).
    apply reads_app; [apply reads_esc; [nopc|exact N]|]. apply reads_app; [|apply reads_same; [intros [X|[]]; discriminate X|intros [X|[]]; discriminate X]].
    destruct (u_password u) as [p|]; [|apply reads_nil]. apply reads_cons; [discriminate|discriminate|]. apply reads_esc; [nopc|tauto]. }
  apply reads_app.
  { rewrite colon_host. unfold plain_host. destruct (existsb _ _); [|now apply reads_same]. apply reads_cons; [discriminate|discriminate|].
    apply reads_app; [now apply reads_same|apply reads_same; intros [X|[]]; discriminate X]. }
  apply reads_app.
  { unfold port_text, plain_port. destruct (u_port u) as [p|]; [|apply reads_nil]. apply reads_cons; [discriminate|discriminate|]. apply reads_same; tauto. }
  apply reads_app; [apply reads_flat; eapply Forall_impl; [|exact W11]; exact reads_param|].
  unfold uheaders_text, plain_headers. destruct (u_headers u) as [|h l]; [apply reads_nil|]. inversion W12 as [|? ? V F]; subst.
  apply reads_app; [apply reads_header; [discriminate|discriminate|exact V]|]. apply reads_flat. eapply Forall_impl; [|exact F].
  intros p. apply reads_header; discriminate.
Qed.

(** The canonical text is made of the parts as they are; the buffer is not left *)
Theorem C87_text_partial : forall u scheme host, uri_wf u scheme host -> no_percent u host -> uri_to_str_canonical u = Ok (plain u scheme host).
Proof.
  intros u scheme host W N. pose proof (reads_uri u scheme host W N) as (R1 & R2 & R3). unfold uri_to_str_canonical.
  rewrite (uri_to_str_ok u host (wf_host _ _ _ W) (wf_string _ _ _ W)).
  2:{ eapply Forall_impl; [|exact (wf_headers _ _ _ W)]. intros [n v] (_ & _ & V). destruct v; [discriminate|contradiction]. }
  rewrite (wf_scheme _ _ _ W). cbn [default_scheme res_bind].
  destruct (C32_unescape_in_place (uri_text u scheme host) [] R2) as (b & -> & _ & C & _). cbn [res_bind]. rewrite C. unfold uri_unescape.
  specialize (R1 []). rewrite !app_nil_r in R1. rewrite R1. rewrite until_nul_id by exact R3. reflexivity.
Qed.
Print Assumptions C87_text_partial.

Lemma unescape_len : forall n s, (List.length s <= n)%nat -> (List.length (unescape s) <= List.length s)%nat.
Proof.
  induction n as [|n IH]; intros s L; [destruct s; [cbn; lia|cbn in L; lia]|]. destruct s as [|c r]; [cbn; lia|]. cbn [List.length] in L. cbn [unescape].
  destruct (Ascii.eqb c "%"%char); [|pose proof (IH r); cbn [List.length]; lia].
  destruct r as [|a [|b r]]; [cbn; lia|cbn; lia|]. destruct (sscanf_hex _); [|cbn; lia].
  cbn [List.length] in *. pose proof (IH r). pose proof (IH (b :: r)) as K. cbn [List.length] in K. destruct (is_hex b); lia.
Qed.
Lemma until_nul_len s : (List.length (until_nul s) <= List.length s)%nat.
Proof. induction s as [|c s IH]; [cbn; lia|]. cbn [until_nul]. destruct (Ascii.eqb c NUL); cbn [List.length]; lia. Qed.
(** Whatever the URI and whatever stands after a percent sign: once it has a text, it has a canonical text,
    no longer than it, and no access leaves the buffer *)
Theorem C87_safe : forall u t, uri_to_str u = Ok t -> cstr t -> exists x, uri_to_str_canonical u = Ok x /\ slen x <= slen t.
Proof.
  intros u t E C. unfold uri_to_str_canonical. rewrite E. cbn [res_bind]. destruct (C32_unescape_in_place t [] C) as (b & -> & _ & H & L). cbn [res_bind].
  exists (uri_unescape t). split; [exact H|]. unfold slen, uri_unescape. pose proof (until_nul_len (unescape t)). pose proof (unescape_len _ t (le_n _)). lia.
Qed.
Print Assumptions C87_safe.

(** The full claim: different URIs have different canonical texts.  Proved for URIs of which no part needs an escape; false in general *)
Definition needs_none (def s : str) : Prop := forall c, In c s -> allowed def c = true.
Definition nothing_escaped (u : uri) : Prop :=
  match u_username u with None => True | Some n => needs_none userinfo_def n end /\
  match u_password u with None => True | Some n => needs_none password_def n end /\
  Forall (fun p => needs_none uri_param_def (fst p) /\ match snd p with None => True | Some v => needs_none uri_param_def v end) (u_params u) /\
  Forall (fun p => needs_none header_param_def (fst p) /\ match snd p with None => True | Some v => needs_none header_param_def v end) (u_headers u).
Lemma esc_none def s : needs_none def s -> esc def s = s.
Proof.
  induction s as [|c s IH]; intros N; [reflexivity|]. unfold esc. cbn [flat_map]. fold (esc def s). unfold enc. rewrite (N c (or_introl eq_refl)). cbn [app]. f_equal.
  apply IH. intros x I. apply N. now right.
Qed.
Lemma flat_map_same {A} (f g : A -> str) (P : A -> Prop) l : (forall a, P a -> f a = g a) -> Forall P l -> flat_map f l = flat_map g l.
Proof. intros H F. induction F as [|a l Pa F IH]; [reflexivity|]. cbn [flat_map]. now rewrite H, IH. Qed.
Theorem C87_parsed_back_partial : forall u scheme host, uri_wf u scheme host -> no_percent u host -> nothing_escaped u ->
  exists t, uri_to_str_canonical u = Ok t /\ uri_parse t = Ok u.
Proof.
  intros u scheme host W N (E1 & E2 & E3 & E4). exists (plain u scheme host). split; [now apply C87_text_partial|].
  destruct (C33_round_trip u scheme host W) as (t & T & P).
  rewrite (uri_to_str_ok u host (wf_host _ _ _ W) (wf_string _ _ _ W)) in T.
  2:{ eapply Forall_impl; [|exact (wf_headers _ _ _ W)]. intros [n v] (_ & _ & V). destruct v; [discriminate|contradiction]. }
  rewrite (wf_scheme _ _ _ W) in T. cbn [default_scheme] in T. injection T as <-.
  assert (uri_text u scheme host = plain u scheme host) as <-; [|exact P].
  unfold uri_text, plain. rewrite (shown_all _ (wf_params _ _ _ W)), colon_host. f_equal. cbn [list_ascii_of_string app]. f_equal. f_equal.
  { unfold user_text, plain_user. destruct (u_username u); [|reflexivity]. rewrite esc_none by exact E1. destruct (u_password u); [rewrite esc_none by exact E2|]; reflexivity. }
  f_equal. f_equal. f_equal.
  - apply flat_map_same with (2 := E3). intros p (A & B). unfold uparam_text, plain_param. rewrite esc_none by exact A. destruct (snd p); [rewrite esc_none by exact B|]; reflexivity.
  - assert (K : forall c p, needs_none header_param_def (fst p) /\ match snd p with None => True | Some v => needs_none header_param_def v end -> uheader_text c p = plain_header [c] p).
    { intros c p (A & B). unfold uheader_text, plain_header. rewrite esc_none by exact A. destruct (snd p); [rewrite esc_none by exact B|]; reflexivity. }
    unfold uheaders_text, plain_headers. destruct (u_headers u) as [|h l]; [reflexivity|]. inversion E4 as [|? ? V F]; subst. rewrite (K _ _ V). f_equal.
    apply flat_map_same with (2 := F). intros p. apply K.
Qed.
Print Assumptions C87_parsed_back_partial.
Theorem C87_distinct_partial : forall u s h u' s' h' t, uri_wf u s h -> no_percent u h -> nothing_escaped u ->
  uri_wf u' s' h' -> no_percent u' h' -> nothing_escaped u' -> uri_to_str_canonical u = Ok t -> uri_to_str_canonical u' = Ok t -> u = u'.
Proof.
  intros u s h u' s' h' t W N E W' N' E' T T'. destruct (C87_parsed_back_partial u s h W N E) as (x & X1 & X2). destruct (C87_parsed_back_partial u' s' h' W' N' E') as (y & Y1 & Y2). congruence.
Qed.
Print Assumptions C87_distinct_partial.

(** Finding.  A parameter whose value has a semicolon, and two parameters, give the same canonical text *)
Definition ex_one : uri := mkUri (Some ($"sip")) (Some ($"a")) None (Some ($"b")) None [($"x", Some ($"y;lr"))] [] None.
Definition ex_two : uri := mkUri (Some ($"sip")) (Some ($"a")) None (Some ($"b")) None [($"x", Some ($"y")); ($"lr", None)] [] None.
Ltac cs := let I := fresh in intros I; cbn in I; repeat (destruct I as [I|I]; [discriminate I|]); exact I.
Lemma without_now cs s : forallb (fun c => negb (existsb (Ascii.eqb c) s)) cs = true -> without cs s.
Proof.
  intros H c I J. rewrite forallb_forall in H. specialize (H _ I). apply negb_true_iff in H.
  assert (existsb (Ascii.eqb c) s = true) by (apply existsb_exists; exists c; split; [exact J|apply Ascii.eqb_refl]). congruence.
Qed.
Ltac wf_now := constructor;
  [reflexivity|reflexivity|split; [vm_compute; discriminate|reflexivity]|split; [discriminate|]; split; [cs|exact Logic.I]|reflexivity
  |split; [discriminate|]; split; [reflexivity|apply without_now; reflexivity]|exact Logic.I
  |repeat (constructor; [split; [discriminate|]; split; [reflexivity|]; split; [cs|]; split; [reflexivity|];
     first [exact Logic.I|split; [discriminate|]; split; [reflexivity|cs]]|]); constructor|constructor|reflexivity].
Lemma ex_one_wf : uri_wf ex_one ($"sip") ($"b"). Proof. wf_now. Qed.
Lemma ex_two_wf : uri_wf ex_two ($"sip") ($"b"). Proof. wf_now. Qed.
Lemma ex_np u : u_port u = None -> no_percent u ($"b"). Proof. intros E. split; [cs|]. split; [cs|]. rewrite E. exact Logic.I. Qed.
Theorem C87_distinct_refuted : uri_wf ex_one ($"sip") ($"b") /\ uri_wf ex_two ($"sip") ($"b") /\ ex_one <> ex_two /\
  no_percent ex_one ($"b") /\ no_percent ex_two ($"b") /\
  uri_to_str_canonical ex_one = Ok ($"sip:a@b;x=y;lr") /\ uri_to_str_canonical ex_two = Ok ($"sip:a@b;x=y;lr").
Proof.
  split; [exact ex_one_wf|]. split; [exact ex_two_wf|]. split; [discriminate|]. split; [now apply ex_np|]. split; [now apply ex_np|]. split; vm_compute; reflexivity.
Qed.
Print Assumptions C87_distinct_refuted.
Example C87_example : uri_wf ex_two ($"sip") ($"b") /\ no_percent ex_two ($"b") /\ nothing_escaped ex_two.
Proof.
  split; [exact ex_two_wf|]. split; [now apply ex_np|].
  assert (K : forall def s, forallb (allowed def) s = true -> needs_none def s) by (intros def s F; exact (proj1 (forallb_forall _ _) F)).
  split; [apply K; reflexivity|]. split; [exact Logic.I|]. split; [|constructor].
  repeat (constructor; [split; [apply K; reflexivity|first [apply K; reflexivity|exact Logic.I]]|]). constructor.
Qed.
Example C87_escaped_example : uri_to_str_canonical (mkUri (Some ($"sip")) (Some ($"al ice")) None (Some ($"b")) (Some ($"5070")) [] [] None) = Ok ($"sip:al ice@b:5070").
Proof. vm_compute. reflexivity. Qed.

(** Finding.  [no_percent] cannot be dropped: the zone of an IPv6 address is printed as it is but unescaped, and the text stops there *)
Definition ex_zone : uri := mkUri (Some ($"sip")) (Some ($"a")) None (Some ($"fe80::1%zone")) (Some ($"5070")) [] [] None.
Theorem C87_text_refuted : uri_wf ex_zone ($"sip") ($"fe80::1%zone") /\
  uri_to_str ex_zone = Ok ($"sip:a@[fe80::1%zone]:5070") /\ uri_to_str_canonical ex_zone = Ok ($"sip:a@[fe80::1").
Proof.
  split; [|split; vm_compute; reflexivity].
  constructor; [reflexivity|reflexivity|split; [vm_compute; discriminate|reflexivity]|split; [discriminate|]; split; [cs|exact Logic.I]|reflexivity
  |split; [discriminate|]; split; [reflexivity|apply without_now; reflexivity]|split; [split; vm_compute; discriminate|]; split; [reflexivity|apply without_now; reflexivity]|constructor|constructor|reflexivity].
Qed.
Print Assumptions C87_text_refuted.

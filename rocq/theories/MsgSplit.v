(** Comma separated header values (C43). *)
From Coq Require Import String ZArith NArith Ascii Bool List Lia ZifyBool ZifyNat.
From Verif Require Import Base Str StrLemmas Types MemModel CString CStringLemmas PortModel UriModel HdrModel AuthModel ViaRound MsgFields MsgModel MsgProps.
Import ListNotations.
Open Scope Z_scope.

(** The pieces put back together, with commas between them *)
Fixpoint join (l : list str) : str :=
  match l with [] => [] | [x] => x | x :: l' => x ++ ","%char :: join l' end.

Lemma join_cons : forall x l, l <> [] -> join (x :: l) = x ++ ","%char :: join l.
Proof. intros x [|y l] H; [congruence|reflexivity]. Qed.
Lemma split_nonempty : forall s q u beg, split_loop s q u beg <> [].
Proof.
  induction s as [|c s IH]; intros q u beg; cbn [split_loop]; [discriminate|].
  destruct (is_ch c dquote); [apply IH|]. destruct (is_ch c "<"); [apply IH|]. destruct (is_ch c ">"); [apply IH|].
  destruct (is_ch c ","); [|apply IH]. destruct (q || u); [apply IH|discriminate].
Qed.
Lemma split_join : forall s q u beg, join (split_loop s q u beg) = rev beg ++ s.
Proof.
  induction s as [|c s IH]; intros q u beg; cbn [split_loop]; [cbn; rewrite app_nil_r; reflexivity|].
  assert (forall q u, join (split_loop s q u (c :: beg)) = rev beg ++ c :: s) as A.
  { intros. rewrite IH. cbn [rev]. rewrite <- app_assoc. reflexivity. }
  destruct (is_ch c dquote); [apply A|]. destruct (is_ch c "<"); [apply A|]. destruct (is_ch c ">"); [apply A|].
  destruct (is_ch c ",") eqn:E; [|apply A]. destruct (q || u); [apply A|].
  rewrite join_cons by apply split_nonempty. rewrite IH. apply Ascii.eqb_eq in E. subst c. reflexivity.
Qed.

(** Nothing but commas is lost by the splitting, whatever the value. *)
Theorem C43_join : forall v, join (split_loop v false false []) = v.
Proof. intros. apply split_join. Qed.
Print Assumptions C43_join.

(** A header whose value may contain commas is never split (RFC 3261 7.3.1, 20.17, 20.36 ...). *)
Theorem C43_unsplit : forall m n hv,
  In (map tolower n) [ $"date"; $"t"; $"to"; $"f"; $"from"; $"i"; $"call-id"; $"cseq"; $"s"; $"subject"; $"expires";
    $"server"; $"user-agent"; $"organization"; $"r"; $"refer-to"; $"b"; $"referred-by";
    $"authorization"; $"proxy-authorization"; $"www-authenticate"; $"proxy-authenticate";
    $"authentication-info"; $"proxy-authentication-info" ] ->
  set_multiple_header m n hv = set_known_header m (map tolower n) hv.
Proof.
  intros m n hv H. unfold set_multiple_header. destruct hv as [v|]; [|reflexivity].
  replace (existsb (streq (map tolower n)) unsplit_names) with true; [rewrite orb_true_r; reflexivity|].
  symmetry. apply existsb_exists. exists (map tolower n). split; [|apply streq_refl].
  unfold unsplit_names. cbn [In] in *. tauto.
Qed.
Print Assumptions C43_unsplit.

(** Neither is a value without a comma. *)
Theorem C43_no_comma : forall m n v, ~ In ","%char v -> set_multiple_header m n (Some v) = set_known_header m (map tolower n) (Some v).
Proof.
  intros m n v H. unfold set_multiple_header. replace (existsb (Ascii.eqb ",") v) with false; [reflexivity|].
  symmetry. apply not_true_is_false. intros E. apply existsb_exists in E. destruct E as (x & I & E).
  apply Ascii.eqb_eq in E. subst x. contradiction.
Qed.
Print Assumptions C43_no_comma.

(** An element of a comma separated list: text without separators, quoted strings, and URIs of
    the known schemes between angle brackets, themselves possibly containing quoted strings.  An
    escaped quote inside a quoted string is excluded, see C43_escape_refuted. *)
Definition known_scheme (s : str) : Prop := In (map tolower s) [ $"sip"; $"sips"; $"http"; $"https"; $"tel" ].
Inductive uri_text : str -> Prop :=
| ut_nil : uri_text []
| ut_char : forall c u, c <> ">"%char -> c <> dquote -> uri_text u -> uri_text (c :: u)
| ut_quoted : forall q u, ~ In dquote q -> uri_text u -> uri_text (dquote :: q ++ dquote :: u).
Inductive element : str -> Prop :=
| el_nil : element []
| el_char : forall c e, c <> ","%char -> c <> "<"%char -> c <> dquote -> element e -> element (c :: e)
| el_quoted : forall q e, ~ In dquote q -> element e -> element (dquote :: q ++ dquote :: e)
| el_uri : forall sch u e, known_scheme sch -> uri_text u -> element e ->
    element ("<"%char :: sch ++ ":"%char :: u ++ ">"%char :: e).

Lemma is_ch_no : forall c d, c <> d -> is_ch c d = false.
Proof. intros. unfold is_ch. apply Ascii.eqb_neq. assumption. Qed.

Lemma split_quoted : forall q k u beg, ~ In dquote q ->
  split_loop (q ++ dquote :: k) true u beg = split_loop k false u (dquote :: rev q ++ beg).
Proof.
  induction q as [|c q IH]; intros k u beg H.
  - cbn [app split_loop rev]. change (is_ch dquote dquote) with true. cbv iota. reflexivity.
  - cbn [app split_loop]. rewrite is_ch_no by (intros ->; apply H; left; reflexivity).
    assert (~ In dquote q) as H' by (intros I; apply H; right; exact I).
    cbn [rev]. rewrite <- app_assoc. cbn [app].
    destruct (is_ch c "<"); [cbn [negb andb]; rewrite orb_false_r; apply IH; exact H'|].
    destruct (is_ch c ">"); [cbn [andb]; apply IH; exact H'|].
    destruct (is_ch c ","); [cbn [orb]; apply IH; exact H'|]. apply IH. exact H'.
Qed.

Lemma split_uri : forall u, uri_text u -> forall k beg,
  split_loop (u ++ ">"%char :: k) false true beg = split_loop k false false (">"%char :: rev u ++ beg).
Proof.
  induction 1 as [|c u H1 H2 H IH|q u Hq H IH]; intros k beg.
  - cbn [app split_loop]. reflexivity.
  - cbn [app split_loop]. rewrite is_ch_no by exact H2. rewrite (is_ch_no c ">") by exact H1. cbn [rev]. rewrite <- app_assoc. cbn [app].
    destruct (is_ch c "<"); [cbn [orb]; apply IH|]. destruct (is_ch c ","); [cbn [orb]; apply IH|]. apply IH.
  - cbn [app split_loop]. change (is_ch dquote dquote) with true. cbv iota. rewrite <- app_assoc. cbn [app negb].
    rewrite split_quoted by exact Hq. rewrite IH. f_equal. f_equal. cbn [rev]. rewrite rev_app_distr. cbn [rev]. rewrite <- !app_assoc. reflexivity.
Qed.

Lemma starts_scheme : forall sch k, known_scheme sch -> starts_uri ("<"%char :: sch ++ ":"%char :: k) = true.
Proof.
  intros sch k H. unfold starts_uri. apply existsb_exists. exists ("<"%char :: map tolower sch ++ [":"%char]). split.
  - unfold known_scheme in H. unfold uri_schemes. cbn [In] in *.
    destruct H as [H|[H|[H|[H|[H|[]]]]]]; rewrite <- H; cbn; auto 10.
  - unfold strncaseeq. cbn [length map]. rewrite !map_app. cbn [map].
    change (tolower "<") with "<"%char. change (tolower ":") with ":"%char.
    unfold known_scheme in H. cbn [In] in H.
    destruct H as [H|[H|[H|[H|[H|[]]]]]]; rewrite <- H; reflexivity.
Qed.

Lemma scheme_chars : forall sch, known_scheme sch -> Forall (fun c => c <> ","%char /\ c <> "<"%char /\ c <> ">"%char /\ c <> dquote) sch.
Proof.
  intros sch H. apply Forall_forall. intros c I.
  assert (In (tolower c) (map tolower sch)) as J by (apply in_map; exact I).
  assert (is_alpha (tolower c) = true) as K.
  { unfold known_scheme in H. cbn [In] in H.
    destruct H as [H|[H|[H|[H|[H|[]]]]]]; rewrite <- H in J; cbn [list_ascii_of_string In] in J;
      repeat (destruct J as [J|J]; [rewrite <- J; reflexivity|]); contradiction. }
  repeat split; intros ->; discriminate.
Qed.

Lemma split_element : forall e, element e -> forall k beg,
  split_loop (e ++ k) false false beg = split_loop k false false (rev e ++ beg).
Proof.
  induction 1 as [|c e H1 H2 H3 H IH|q e Hq H IH|sch u e Hs Hu H IH]; intros k beg.
  - reflexivity.
  - cbn [app split_loop]. rewrite (is_ch_no c dquote), (is_ch_no c "<"), (is_ch_no c ",") by assumption.
    cbn [rev]. rewrite <- app_assoc. cbn [app andb]. destruct (is_ch c ">"); apply IH.
  - cbn [app split_loop]. change (is_ch dquote dquote) with true. cbv iota. rewrite <- app_assoc. cbn [app negb].
    rewrite split_quoted by exact Hq. rewrite IH. f_equal. cbn [rev]. rewrite rev_app_distr. cbn [rev]. rewrite <- !app_assoc. reflexivity.
  - cbn [app split_loop]. change (is_ch "<" dquote) with false. change (is_ch "<" "<") with true. cbv iota.
    replace ((sch ++ ":"%char :: u ++ ">"%char :: e) ++ k) with (sch ++ ":"%char :: (u ++ ">"%char :: e ++ k)) by (rewrite <- app_assoc; cbn [app]; rewrite <- app_assoc; reflexivity).
    rewrite starts_scheme by exact Hs.
    replace (existsb (Ascii.eqb ">") ("<"%char :: sch ++ ":"%char :: u ++ ">"%char :: e ++ k)) with true
      by (symmetry; apply existsb_exists; exists ">"%char; split; [|reflexivity]; right; apply in_or_app; right; right; apply in_or_app; right; left; reflexivity).
    cbn [negb andb orb].
    assert (uri_text (sch ++ ":"%char :: u)) as Hu'.
    { pose proof (scheme_chars sch Hs) as F. clear Hs. induction F as [|c l (F1 & F2 & F3 & F4) F IHF]; cbn [app].
      - constructor; [discriminate|discriminate|exact Hu].
      - constructor; assumption. }
    replace (sch ++ ":"%char :: u ++ ">"%char :: e ++ k) with ((sch ++ ":"%char :: u) ++ ">"%char :: e ++ k) by (rewrite <- app_assoc; reflexivity).
    rewrite split_uri by exact Hu'. rewrite IH. f_equal.
    replace (sch ++ ":"%char :: u ++ ">"%char :: e) with ((sch ++ ":"%char :: u) ++ ">"%char :: e) by (rewrite <- app_assoc; reflexivity).
    generalize (sch ++ ":"%char :: u). intros w.
    cbn [rev]. rewrite rev_app_distr. cbn [rev]. rewrite <- !app_assoc. reflexivity.
Qed.

(** The value is cut exactly at the commas between its elements. *)
Theorem C43_split_partial : forall es, es <> [] -> Forall element es -> split_loop (join es) false false [] = es.
Proof.
  induction es as [|e es IH]; intros N F; [congruence|]. inversion F as [|? ? H1 H2]; subst.
  destruct es as [|e' es].
  - cbn [join]. rewrite <- (app_nil_r e) at 1. rewrite split_element by exact H1. cbn [split_loop]. rewrite app_nil_r, rev_involutive. reflexivity.
  - rewrite join_cons by discriminate. rewrite split_element by exact H1. cbn [split_loop].
    change (is_ch "," dquote) with false. change (is_ch "," "<") with false. change (is_ch "," ">") with false. change (is_ch "," ",") with true.
    cbv iota. cbn [orb]. rewrite app_nil_r, rev_involutive. f_equal. apply IH; [discriminate|exact H2].
Qed.
Print Assumptions C43_split_partial.

(** ... and each non-empty element, without the white space around it, becomes one header of the
    message, in the order of the text. *)
Fixpoint store_all (m : message) (name : str) (l : list str) : res message :=
  match l with
  | [] => Ok m
  | e :: l' => do m' <- set_known_header m name (Some (trim e)) ; store_all m' name l'
  end.
Theorem C43_store_partial : forall m n es, (2 <= length es)%nat -> Forall element es ->
  ~ In (map tolower n) unsplit_names ->
  set_multiple_header m n (Some (join es)) = store_all m (map tolower n) (filter (fun e => negb (streq e [])) es).
Proof.
  intros m n es L F U. unfold set_multiple_header.
  replace (existsb (Ascii.eqb ",") (join es)) with true.
  2: { destruct es as [|a [|b es]]; cbn [length] in L; try lia. rewrite join_cons by discriminate. symmetry.
       apply existsb_exists. exists ","%char. split; [apply in_or_app; right; left; reflexivity|reflexivity]. }
  replace (existsb (streq (map tolower n)) unsplit_names) with false.
  2: { symmetry. apply not_true_is_false. intros E. apply existsb_exists in E. destruct E as (x & I & E). apply streq_eq in E. subst x. contradiction. }
  cbn [negb orb]. rewrite C43_split_partial; [|destruct es; [cbn in L; lia|discriminate]|exact F].
  clear. revert m. induction es as [|e es IH]; intros m; [reflexivity|]. cbn [set_pieces filter]. destruct e as [|c e].
  - change (streq [] []) with true. cbn [negb]. apply IH.
  - change (streq (c :: e) []) with false. cbn [negb store_all].
    destruct (set_known_header m (map tolower n) (Some (trim (c :: e)))); [|reflexivity|reflexivity]. cbn [res_bind]. apply IH.
Qed.
Print Assumptions C43_store_partial.

Example C43_example :
  let v := [ $" <sip:a@x;p=1,2>;q=1 "; dquote :: $"B, b" ++ [dquote] ++ $" <sips:b@y>"; []; $"sip:c@z" ] in
  Forall element v /\ split_loop (join v) false false [] = v.
Proof.
  cbn zeta. assert (Forall element [ $" <sip:a@x;p=1,2>;q=1 "; dquote :: $"B, b" ++ [dquote] ++ $" <sips:b@y>"; []; $"sip:c@z" ]) as F.
  { assert (forall u, forallb (fun c => negb (is_ch c ">") && negb (is_ch c dquote)) u = true -> uri_text u) as UT.
    { induction u; cbn [forallb]; intros H; [constructor|]. apply andb_prop in H. destruct H as [H1 H2]. apply andb_prop in H1.
      constructor; [intros ->; destruct H1; discriminate|intros ->; destruct H1; discriminate|auto]. }
    assert (forall u, forallb (fun c => negb (is_ch c ",") && negb (is_ch c "<") && negb (is_ch c dquote)) u = true -> element u) as EL.
    { induction u; cbn [forallb]; intros H; [constructor|]. apply andb_prop in H. destruct H as [H1 H2]. apply andb_prop in H1. destruct H1 as [H0 H1]. apply andb_prop in H0.
      constructor; [intros ->; destruct H0; discriminate|intros ->; destruct H0; discriminate|intros ->; discriminate|auto]. }
    constructor; [|constructor; [|constructor; [constructor|constructor; [apply EL; reflexivity|constructor]]]].
    - apply el_char; [discriminate|discriminate|discriminate|].
      apply (el_uri ($"sip") ($"a@x;p=1,2") ($";q=1 ")); [left; reflexivity|apply UT; reflexivity|apply EL; reflexivity].
    - apply (el_quoted ($"B, b") ($" <sips:b@y>")); [cbn; intros H; repeat (destruct H as [H|H]; [discriminate|]); exact H|].
      apply el_char; [discriminate|discriminate|discriminate|].
      apply (el_uri ($"sips") ($"b@y") []); [right; left; reflexivity|apply UT; reflexivity|constructor]. }
  split; [exact F|]. apply C43_split_partial; [discriminate|exact F].
Qed.

(** RFC 3261 25.1: inside a quoted string, a backslash escapes the next character.  The parser
    forgets it: a comma in such a string cuts the element. *)
Theorem C43_escape_refuted : exists q, q = dquote :: $"a" ++ [bslash; dquote] ++ $",b" ++ [dquote] /\
  split_loop q false false [] = [dquote :: $"a" ++ [bslash; dquote]; $"b" ++ [dquote]].
Proof. eexists. split; [reflexivity|]. vm_compute. reflexivity. Qed.
Print Assumptions C43_escape_refuted.
(** A comma between angle brackets is taken as a separator when the scheme of the URI is another
    one. *)
Theorem C43_scheme_refuted : split_loop ($"<im:a,b>") false false [] = [$"<im:a"; $"b>"].
Proof. vm_compute. reflexivity. Qed.
Print Assumptions C43_scheme_refuted.

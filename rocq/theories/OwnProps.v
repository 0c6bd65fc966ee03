(** C77: parsing gives back its memory.

    A structure is made, a text is parsed into it, and it is freed, whatever the answer of the parser was.  The text and
    the success of every allocation are arbitrary (a stream of choices, OwnModel.v). *)
From Coq Require Import Bool List Arith Lia Permutation Ascii.
From Verif Require Import OwnModel OwnFacts OwnMsg.
Import ListNotations.

(** *** Specification *)
(** no block is freed that is not allocated, and what the program held before it still holds, ... *)
Definition sound (p : prog unit) : Prop := forall m, exists m', p m = Some (tt, m') /\
  (forall b, count_occ Nat.eq_dec (live m) b <= count_occ Nat.eq_dec (live m') b) /\
  (* ... and nothing more is allocated than before, if no list failed to grow and no Content-Type of a part was replaced; ... *)
  (nodes_lost m' = nodes_lost m -> types_lost m' = types_lost m -> Permutation (live m) (live m')) /\
  (* ... so in particular if every allocation succeeds and no Content-Type of a part is replaced *)
  (failed m' = failed m -> types_lost m' = types_lost m -> Permutation (live m) (live m')).
(** the same for a program that replaces no Content-Type *)
Definition returns_memory (p : prog unit) : Prop := forall m, exists m', p m = Some (tt, m') /\
  (forall b, count_occ Nat.eq_dec (live m) b <= count_occ Nat.eq_dec (live m') b) /\
  (nodes_lost m' = nodes_lost m -> Permutation (live m) (live m')) /\
  (failed m' = failed m -> Permutation (live m) (live m')).
(** the same for a program that fills no list: all the memory comes back, whatever fails *)
Definition returns_all (p : prog unit) : Prop := forall m, exists m', p m = Some (tt, m') /\ Permutation (live m) (live m').

Lemma sound_life A (own : A -> list block) (fresh : A -> Prop) init parse fr : makes own fresh init -> keeps_fresh own fresh parse -> frees own fr ->
  forall m, exists m', life init parse fr m = Some (tt, m') /\
  (forall b, count_occ Nat.eq_dec (live m) b <= count_occ Nat.eq_dec (live m') b) /\
  (lost m' = lost m -> Permutation (live m) (live m')) /\ lost m <= lost m' /\ nodes_lost m' + failed m <= failed m' + nodes_lost m.
Proof.
  intros I P F m. destruct (life_ok A own fresh init parse fr I P F m) as (m' & E & L & C & D & Z & N). exists m'. split; [exact E|].
  assert (forall b, count_occ Nat.eq_dec (live m') b = count_occ Nat.eq_dec (live m) b + count_occ Nat.eq_dec L b) as C' by exact C.
  split; [intro b; rewrite C'; lia|]. split; [|split; [exact D|exact N]].
  intro E'. apply (Permutation_count_occ Nat.eq_dec). intro b. rewrite C', (Z E'). cbn. lia.
Qed.

(** *** Programs that replace no Content-Type and lose nothing backwards *)
(** which counters of losses may grow *)
Record may := { types : bool; nodes : bool }.
Definition within (t : bool) (n n' : nat) : Prop := if t then n <= n' else n' = n.
Lemma within_refl t n : within t n n. Proof. destruct t; cbn; lia. Qed.
Lemma within_trans t n k l : within t n k -> within t k l -> within t n l. Proof. destruct t; cbn; lia. Qed.
Definition quiet (t : may) {A} (p : prog A) : Prop := forall m x m', p m = Some (x, m') ->
  within (types t) (types_lost m) (types_lost m') /\ within (nodes t) (nodes_lost m) (nodes_lost m') /\ failed m <= failed m'.
Definition none := {| types := false; nodes := false |}.
Definition only_nodes := {| types := false; nodes := true |}.
Definition both := {| types := true; nodes := true |}.
Section Quiet.
Variable t : may.
Local Notation quiet := (quiet t).
Lemma quiet_ret A (x : A) : quiet (ret x). Proof. intros m y m' E. injection E as <- <-. repeat split; try apply within_refl; cbn; lia. Qed.
Lemma quiet_bind A B (p : prog A) (k : A -> prog B) : quiet p -> (forall x, quiet (k x)) -> quiet (bind p k).
Proof.
  intros P K m y m' E. unfold bind in E. destruct (p m) as [[x m1]|] eqn:M; [|discriminate]. destruct (P _ _ _ M) as (A1 & A2 & A3). destruct (K x _ _ _ E) as (B1 & B2 & B3).
  split; [exact (within_trans _ _ _ _ A1 B1)|]. split; [exact (within_trans _ _ _ _ A2 B2)|lia].
Qed.
Lemma quiet_ask : quiet ask. Proof. intros m y m' E. injection E as <- <-. repeat split; try apply within_refl; cbn; lia. Qed.
Lemma quiet_new : quiet new.
Proof.
  unfold new, test. repeat (apply quiet_bind; [|intro]); try apply quiet_ask; try apply quiet_ret. destruct (_ : bool); repeat (apply quiet_bind; [|intro]); try apply quiet_ret.
  - intros m y m' E. injection E as <- <-. repeat split; try apply within_refl; cbn; lia.
  - intros m y m' E. injection E as <- <-. repeat split; try apply within_refl; cbn; lia.
Qed.
Lemma quiet_lose_node : nodes t = true -> quiet lose_node.
Proof. intros T m y m' E. injection E as <- <-. rewrite T. repeat split; try apply within_refl; cbn; lia. Qed.
Lemma quiet_free o : quiet (free o).
Proof.
  destruct o as [b|]; [|apply quiet_ret]. intros m y m' E. cbn [free] in E. destruct (remove_one b (live m)); [|discriminate]. injection E as <- <-. repeat split; try apply within_refl; cbn; lia.
Qed.
Lemma quiet_loop A n (p : A -> prog (bool * A)) : (forall x, quiet (p x)) -> forall x, quiet (loop n p x).
Proof.
  intro P. induction n as [|n IH]; intro x; cbn [loop]; [apply quiet_ret|]. apply quiet_bind; [apply P|]. intros [[] r]; cbn [fst snd]; [apply IH|apply quiet_ret].
Qed.
Lemma quiet_list_free A (fr : A -> prog unit) : (forall x, quiet (fr x)) -> forall l, quiet (list_free fr l).
Proof.
  intro F. induction l as [|[b x] l IH]; cbn [list_free]; [apply quiet_ret|]. apply quiet_bind; [apply quiet_free|intro]. apply quiet_bind; [apply F|intro; exact IH].
Qed.
Lemma quiet_free_all l : quiet (free_all l).
Proof. induction l as [|o l IH]; cbn [free_all]; [apply quiet_ret|]. apply quiet_bind; [apply quiet_free|intro; exact IH]. Qed.
End Quiet.
Ltac hush := repeat match goal with
  | |- quiet _ (bind _ _) => apply quiet_bind; [|intro]
  | |- quiet _ (ret _) => apply quiet_ret
  | |- quiet _ ask => apply quiet_ask
  | |- quiet _ test => unfold test
  | |- quiet _ new => apply quiet_new
  | |- quiet _ lose_node => apply quiet_lose_node; assumption
  | |- quiet _ (free _) => apply quiet_free
  | |- quiet _ (unless _ _) => unfold unless
  | |- quiet _ (obtain _ _) => unfold obtain
  | |- quiet _ (loop _ _ _) => apply quiet_loop; intro
  | |- quiet _ (list_add _ _) => unfold list_add
  | |- quiet _ (list_free _ _) => apply quiet_list_free; intro
  | |- quiet _ (free_all _) => apply quiet_free_all
  | |- quiet _ (if ?b then _ else _) => destruct b
  | |- quiet _ (match ?o with _ => _ end) => destruct o
  | |- quiet _ (let _ := _ in _) => cbv zeta
  end.
Section Parsers.
Variable t : may.
(** these fill no list *)
Lemma quiet_param_free p : quiet t (param_free p). Proof. unfold param_free. hush. Qed.
Lemma quiet_obj_free o : quiet t (obj_free o). Proof. unfold obj_free. hush; apply quiet_param_free. Qed.
Lemma quiet_from_free a : quiet t (from_free a). Proof. unfold from_free. hush; apply quiet_obj_free. Qed.
Lemma quiet_obj_init k : quiet t (obj_init k). Proof. unfold obj_init. hush. Qed.
Lemma quiet_from_init : quiet t from_init. Proof. unfold from_init. hush. apply quiet_obj_init. Qed.
Lemma quiet_fill is : forall o, quiet t (fill is o). Proof. induction is as [|i is IH]; intro o; cbn [fill]; hush. apply IH. Qed.
Lemma quiet_set_all l : quiet t (set_all l).
Proof. induction l as [|o l IH]; cbn [set_all]; [apply quiet_ret|]. apply quiet_bind; [unfold set_one; hush|]. intros [[] q]; cbn [fst]; hush; exact IH. Qed.
Lemma quiet_auth_rounds n : forall l, quiet t (auth_rounds n l).
Proof. induction n as [|n IH]; intro l; cbn [auth_rounds]; [apply quiet_ret|]. apply quiet_bind; [apply quiet_set_all|]. intros [[] q]; cbn [fst]; hush; apply IH. Qed.
Lemma quiet_auth_rest o : quiet t (auth_rest o). Proof. unfold auth_rest. hush. apply quiet_auth_rounds. Qed.
Lemma quiet_auth_parse o : quiet t (auth_parse o). Proof. unfold auth_parse. hush. apply quiet_auth_rest. Qed.
Lemma quiet_ainfo_parse o : quiet t (ainfo_parse o). Proof. unfold ainfo_parse. hush; apply quiet_auth_rest. Qed.
Lemma quiet_clen_parse o : quiet t (clen_parse o). Proof. unfold clen_parse. hush. apply quiet_fill. Qed.
Lemma quiet_cseq_parse o : quiet t (cseq_parse o). Proof. unfold cseq_parse. hush. apply quiet_fill. Qed.
Lemma quiet_call_id_parse o : quiet t (call_id_parse o). Proof. unfold call_id_parse. hush; apply quiet_fill. Qed.
Lemma quiet_header_fill o : quiet t (header_fill o). Proof. unfold header_fill. hush. Qed.
(** these fill lists *)
Hypothesis T : nodes t = true.
Lemma quiet_param_round l : quiet t (param_round l). Proof. unfold param_round, param_add. hush. Qed.
Lemma quiet_gen_params l : quiet t (gen_params l). Proof. unfold gen_params. hush; apply quiet_param_round. Qed.
Lemma quiet_uri_params l : quiet t (uri_params l). Proof. unfold uri_params. hush; apply quiet_param_round. Qed.
Lemma quiet_uri_headers l : quiet t (uri_headers l). Proof. unfold uri_headers, uheader_round, param_add. hush. Qed.
Lemma quiet_with_params o k : (forall o, quiet t (k o)) -> quiet t (with_params o k).
Proof. intro K. unfold with_params. hush; try apply quiet_gen_params; apply K. Qed.
Local Ltac parser := hush; try apply quiet_gen_params; try apply quiet_uri_params; try apply quiet_uri_headers; try apply quiet_fill; try (apply quiet_with_params; intro; apply quiet_fill); try apply quiet_obj_free; try apply quiet_obj_init.
Lemma quiet_uri_parse u : quiet t (uri_parse u). Proof. unfold uri_parse. parser. Qed.
Lemma quiet_from_parse a : quiet t (from_parse a). Proof. unfold from_parse, uri_init. parser. apply quiet_uri_parse. Qed.
Lemma quiet_via_parse o : quiet t (via_parse o). Proof. unfold via_parse. parser. Qed.
Lemma quiet_ctype_parse o : quiet t (ctype_parse o). Proof. unfold ctype_parse. parser. Qed.
Lemma quiet_aenc_parse o : quiet t (aenc_parse o). Proof. unfold aenc_parse. parser. Qed.
Lemma quiet_cinfo_parse o : quiet t (cinfo_parse o). Proof. unfold cinfo_parse. parser. Qed.
Lemma quiet_body_free y : quiet t (body_free y). Proof. unfold body_free. parser. Qed.
Lemma quiet_elem_free e : quiet t (elem_free e). Proof. destruct e; cbn [elem_free]; [apply quiet_obj_free|apply quiet_from_free]. Qed.
Lemma quiet_msg_free g : quiet t (msg_free g).
Proof. unfold msg_free, opt_free. parser; try apply quiet_from_free; try apply quiet_elem_free; apply quiet_body_free. Qed.
Lemma quiet_set_single A (old : option A) set init parse fr g : quiet t init -> (forall x, quiet t (parse x)) -> (forall x, quiet t (fr x)) -> quiet t (set_single old set init parse fr g).
Proof. intros I P F. unfold set_single. hush; try exact I; try apply P; apply F. Qed.
Lemma quiet_set_many A (wrap : A -> elem) init parse fr g : quiet t init -> (forall x, quiet t (parse x)) -> (forall x, quiet t (fr x)) -> quiet t (set_many wrap init parse fr g).
Proof. intros I P F. unfold set_many. hush; try exact I; try apply P; apply F. Qed.
Lemma quiet_set_header g : quiet t (set_header g).
Proof.
  unfold set_header. apply quiet_bind; [apply quiet_ask|]. intro k.
  do 16 (destruct k as [|k]; [first [apply quiet_set_single|apply quiet_set_many]; intros;
    first [apply quiet_obj_init|apply quiet_from_init|apply quiet_obj_free|apply quiet_from_free|apply quiet_from_parse|apply quiet_ctype_parse|apply quiet_clen_parse|apply quiet_call_id_parse|
      apply quiet_cseq_parse|apply quiet_via_parse|apply quiet_aenc_parse|apply quiet_cinfo_parse|apply quiet_auth_parse|apply quiet_ainfo_parse]|]).
  apply quiet_bind; [|intro; apply quiet_ret]. apply quiet_set_many; intros; [apply quiet_obj_init|apply quiet_header_fill|apply quiet_obj_free].
Qed.
Lemma quiet_set_multiple g : quiet t (set_multiple g).
Proof. unfold set_multiple, comma_round. hush; apply quiet_set_header. Qed.
Lemma quiet_line_round g : quiet t (line_round g).
Proof. unfold line_round. hush; apply quiet_set_multiple. Qed.
Lemma quiet_start_request g : quiet t (start_request g).
Proof. unfold start_request, drop_method, drop_uri, opt_free, uri_init. cbv zeta. parser; apply quiet_uri_parse. Qed.
Lemma quiet_start_answer g : quiet t (start_answer g).
Proof. unfold start_answer, drop_version. cbv zeta. parser. Qed.
Lemma quiet_set_clen g : quiet t (set_clen g).
Proof. unfold set_clen. apply quiet_set_single; intros; [apply quiet_obj_init|apply quiet_clen_parse|apply quiet_obj_free]. Qed.
Hypothesis T' : types t = true.
Lemma quiet_lose_type : quiet t lose_type.
Proof. intros m y m' E. injection E as <- <-. rewrite T'. repeat split; try apply within_refl; cbn; lia. Qed.
Lemma quiet_part_round y : quiet t (part_round y).
Proof.
  unfold part_round, body_set_type, body_set_header, ctype_init, header_init. cbv zeta. parser; try apply quiet_lose_type; try apply quiet_ctype_parse.
Qed.
Lemma quiet_msg_body g : quiet t (msg_body g).
Proof.
  unfold msg_body, parts_round, set_body, body_parse_mime, body_parse, body_init. cbv zeta. hush; try apply quiet_part_round; try apply quiet_body_free; try apply quiet_set_clen.
Qed.
Lemma quiet_msg_parse frag g : quiet t (msg_parse frag g).
Proof.
  unfold msg_parse, opt_free. cbv zeta. hush; try apply quiet_start_request; try apply quiet_start_answer; try apply quiet_line_round; try apply quiet_obj_free; try apply quiet_msg_body; try apply quiet_set_clen.
Qed.
Lemma quiet_life A init (parse : A -> prog (bool * A)) fr : quiet t init -> (forall x, quiet t (parse x)) -> (forall x, quiet t (fr x)) -> quiet t (life init parse fr).
Proof. intros I P F. unfold life. apply quiet_bind; [exact I|]. intros [x|]; [|apply quiet_ret]. apply quiet_bind; [apply P|intro; apply F]. Qed.
End Parsers.

Lemma returns A (own : A -> list block) (fresh : A -> Prop) init parse fr : makes own fresh init -> keeps_fresh own fresh parse -> frees own fr ->
  quiet only_nodes init -> (forall x, quiet only_nodes (parse x)) -> (forall x, quiet only_nodes (fr x)) -> returns_memory (life init parse fr).
Proof.
  intros I P F QI QP QF m. destruct (sound_life A own fresh init parse fr I P F m) as (m' & E & C & Z & D & N). exists m'. split; [exact E|]. split; [exact C|].
  destruct (quiet_life only_nodes A init parse fr QI QP QF _ _ _ E) as (X & N' & F'). cbn in X, N'. unfold lost in *. split; intro H; apply Z; lia.
Qed.
Lemma returns_everything A (own : A -> list block) (fresh : A -> Prop) init parse fr : makes own fresh init -> keeps_fresh own fresh parse -> frees own fr ->
  quiet none init -> (forall x, quiet none (parse x)) -> (forall x, quiet none (fr x)) -> returns_all (life init parse fr).
Proof.
  intros I P F QI QP QF m. destruct (sound_life A own fresh init parse fr I P F m) as (m' & E & C & Z & D & N). exists m'. split; [exact E|].
  destruct (quiet_life none A init parse fr QI QP QF _ _ _ E) as (X & N' & F'). cbn in X, N'. unfold lost in *. apply Z; lia.
Qed.
Ltac flat L k := refine (returns _ own_obj (fresh_obj k) _ _ _ (obj_init_ok k) L obj_free_ok (quiet_obj_init _ k) _ (quiet_obj_free _)); intro.
Ltac flat_all L k := refine (returns_everything _ own_obj (fresh_obj k) _ _ _ (obj_init_ok k) L obj_free_ok (quiet_obj_init _ k) _ (quiet_obj_free _)); intro.

(** *** C77 *)
(** every block comes back, whatever the text is and whatever fails *)
Theorem C77_call_id : returns_all (life call_id_init call_id_parse obj_free).
Proof. flat_all call_id_parse_ok 2. apply quiet_call_id_parse. Qed.
Theorem C77_cseq : returns_all (life cseq_init cseq_parse obj_free).
Proof. flat_all cseq_parse_ok 2. apply quiet_cseq_parse. Qed.
Theorem C77_content_length : returns_all (life clen_init clen_parse obj_free).
Proof. flat_all clen_parse_ok 1. apply quiet_clen_parse. Qed.
Theorem C77_www_authenticate : returns_all (life www_init auth_parse obj_free).
Proof. flat_all (auth_parse_ok 10) 11. apply quiet_auth_parse. Qed.
Theorem C77_authorization : returns_all (life authz_init auth_parse obj_free).
Proof. flat_all (auth_parse_ok 16) 17. apply quiet_auth_parse. Qed.
Theorem C77_authentication_info : returns_all (life ainfo_init ainfo_parse obj_free).
Proof. flat_all (ainfo_parse_ok 10) 11. apply quiet_ainfo_parse. Qed.
(** every block comes back, whatever the text is, unless the allocation of a list node fails *)
Theorem C77_uri_partial : returns_memory (life uri_init uri_parse obj_free).
Proof. flat uri_parse_ok 6. apply quiet_uri_parse. reflexivity. Qed.
Theorem C77_address_partial : returns_memory (life from_init from_parse from_free).
Proof.
  apply (returns _ own_addr fresh_addr _ _ _ from_init_ok from_parse_ok from_free_ok); intros; [apply quiet_from_init|apply quiet_from_parse; reflexivity|apply quiet_from_free].
Qed.
Theorem C77_via_partial : returns_memory (life via_init via_parse obj_free).
Proof. flat via_parse_ok 5. apply quiet_via_parse. reflexivity. Qed.
Theorem C77_content_type_partial : returns_memory (life ctype_init ctype_parse obj_free).
Proof. flat ctype_parse_ok 2. apply quiet_ctype_parse. reflexivity. Qed.
Theorem C77_accept_encoding_partial : returns_memory (life aenc_init aenc_parse obj_free).
Proof. flat aenc_parse_ok 1. apply quiet_aenc_parse. reflexivity. Qed.
Theorem C77_call_info_partial : returns_memory (life cinfo_init cinfo_parse obj_free).
Proof. flat cinfo_parse_ok 1. apply quiet_cinfo_parse. reflexivity. Qed.
(** a whole message, or a fragment: every block comes back, whatever the text is, unless the allocation of a list node fails or a part
    of a multipart body has two Content-Type lines *)
Theorem C77_message_partial : forall frag, sound (life msg_init (msg_parse frag) msg_free).
Proof.
  intros frag m. destruct (sound_life _ own_msg fresh_msg _ _ _ msg_init_ok (msg_parse_ok frag) msg_free_ok m) as (m' & E & C & Z & D & N).
  exists m'. split; [exact E|]. split; [exact C|].
  assert (quiet both msg_init) as QI by (unfold msg_init; hush).
  destruct (quiet_life both _ _ _ _ QI (quiet_msg_parse both eq_refl eq_refl frag) (quiet_msg_free both) _ _ _ E) as (X & N' & F'). cbn in X, N'. unfold lost in *.
  split; intros H H'; apply Z; lia.
Qed.

(** *** The exceptions are real *)
Fixpoint stream (l : list nat) (k : nat) : nat := match l, k with [], _ => 1 | x :: _, O => x | _ :: l, S k => stream l k end.
Definition start (l : list nat) : mem := mkMem [] 0 0 0 0 (stream l).
(** a request with a Content-Type with one parameter, and one part with [k] Content-Type lines; every allocation succeeds *)
Definition part_line : list nat := [1; 1; 0; 1; 0; 0; 0; 1; 1; 1; 1; 0; 1; 0].
Definition request_with_parts (k : nat) : list nat :=
  [0; 0; 1; 1; 0; 1; 0; 0; 1; 0; 1; 0; 1; 1; 1; 1; 1; 0; 1; 0] ++
  [1; 1; 0; 0; 0; 0; 2; 1; 0; 1; 1; 0; 0; 1; 0; 1; 0; 1; 0; 0; 0; 1; 0; 1; 0] ++
  [1; 1; 0; 1; 0; 1; 0; 0; 1; 0; 0; 0; pred k] ++ concat (repeat part_line k) ++ [1; 1; 0; 0; 1; 0; 1; 1; 0].
(** a message whose only part has two Content-Type lines: three blocks are never freed, and no allocation failed *)
Theorem C77_message_refuted : exists m m', live m = [] /\ life msg_init (msg_parse false) msg_free m = Some (tt, m') /\ failed m' = failed m /\ length (live m') = 3.
Proof.
  exists (start (request_with_parts 2)). destruct (life msg_init (msg_parse false) msg_free (start (request_with_parts 2))) as [[[] m']|] eqn:E.
  - exists m'. assert (option_map (fun r => (failed (snd r), length (live (snd r)))) (life msg_init (msg_parse false) msg_free (start (request_with_parts 2))) = Some (0, 3)) as V by (vm_compute; reflexivity).
    rewrite E in V. cbn in V. injection V as V1 V2. repeat split; assumption.
  - exfalso. assert (option_map (fun r => failed (snd r)) (life msg_init (msg_parse false) msg_free (start (request_with_parts 2))) = Some 0) as V by (vm_compute; reflexivity).
    rewrite E in V. discriminate.
Qed.

(** the witness of C77_message_refuted with one line instead of two loses nothing, and neither does the empty stream of choices *)
Example C77_message_example :
  option_map (fun r => (failed (snd r), types_lost (snd r), live (snd r))) (life msg_init (msg_parse false) msg_free (start (request_with_parts 1))) = Some (0, 0, [])
  /\ option_map (fun r => length (g_bodies (snd r)))
       (match (o <~ msg_init ;; match o with Some g => msg_parse false g | None => ret (false, mkMsgo 0 [] None None None None None None None None [] []) end) (start (request_with_parts 1)) with
        | Some (r, _) => Some r | None => None end) = Some 1
  /\ option_map (fun r => (failed (snd r), live (snd r))) (life msg_init (msg_parse false) msg_free (start (firstn 44 (request_with_parts 1)))) = Some (1, []).
Proof. split; [|split]; vm_compute; reflexivity. Qed.
(** a Content-Type whose parameter list cannot grow: the parameter and its two texts are never freed *)
Theorem C77_list_refuted : exists m m', live m = [] /\ life ctype_init ctype_parse obj_free m = Some (tt, m') /\ failed m' = S (failed m) /\ length (live m') = 3.
Proof.
  exists (start [0; 1; 1; 0; 0; 1; 0; 1; 0; 1; 0; 0; 1; 1; 0; 1; 0]).
  eexists. split; [reflexivity|]. split; [vm_compute; reflexivity|]. split; reflexivity.
Qed.
(** an address with a display name, a parameter and a URI with a parameter: all of it comes back *)
Example C77_address_example :
  let c := [0; 1; 1; 1; 0; 0; 1; 0; 0; 1; 0; 1; 0; 1; 0; 0; 0; 1; 0; 0; 1; 0; 1; 0; 1; 1; 0; 1; 0; 0; 0; 1; 0; 1; 0; 0; 0; 1; 1; 0] in
  option_map (fun r => (failed (snd r), live (snd r))) (life from_init from_parse from_free (start c)) = Some (0, []) /\
  option_map (fun r => (fst r, length (live (snd r)))) ((o <~ from_init ;; match o with Some a => r <~ from_parse a ;; ret (fst r) | None => ret false end) (start c)) = Some (true, 13).
Proof. split; vm_compute; reflexivity. Qed.
Example C77_auth_example :
  let c := [0; 1; 1; 0; 1; 1; 0; 1; 0; 1] ++ [1; 0; 1; 0; 0] in
  option_map (fun r => live (snd r)) (life www_init auth_parse obj_free (start c)) = Some [] /\
  option_map (fun r => (fst r, length (live (snd r)))) ((o <~ www_init ;; match o with Some a => r <~ auth_parse a ;; ret (fst r) | None => ret false end) (start c)) = Some (true, 4).
Proof. split; vm_compute; reflexivity. Qed.

From Coq Require Import String.
From Verif Require Import Base Str.
Local Open Scope string_scope.
Local Open Scope list_scope.
From Verif Require MsgModel.
Definition crlf : str := ascii_of_nat 13 :: ascii_of_nat 10 :: nil.
(** such a text is accepted by the parser of MsgModel.v: the second Content-Type is kept, the first is gone *)
Example C77_message_refuted_text :
  match MsgModel.message_parse ($"INVITE sip:a@b SIP/2.0" ++ crlf ++ $"Content-Type: multipart/mixed;boundary=b" ++ crlf ++ crlf ++ crlf ++
    $"--b" ++ crlf ++ $"Content-Type: text/plain" ++ crlf ++ $"Content-Type: text/html" ++ crlf ++ crlf ++ $"hi" ++ crlf ++ $"--b--" ++ crlf) with
  | Ok m => map (fun b => option_map Types.ct_subtype (Types.b_ctype b)) (Types.m_bodies m) = [Some (Some ($"html"))]
  | _ => False
  end.
Proof. vm_compute. reflexivity. Qed.

Print Assumptions C77_call_id.
Print Assumptions C77_cseq.
Print Assumptions C77_content_length.
Print Assumptions C77_www_authenticate.
Print Assumptions C77_authorization.
Print Assumptions C77_authentication_info.
Print Assumptions C77_uri_partial.
Print Assumptions C77_address_partial.
Print Assumptions C77_via_partial.
Print Assumptions C77_content_type_partial.
Print Assumptions C77_accept_encoding_partial.
Print Assumptions C77_call_info_partial.
Print Assumptions C77_message_partial.
Print Assumptions C77_message_refuted.
Print Assumptions C77_list_refuted.

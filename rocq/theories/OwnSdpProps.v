(** C78: parsing an SDP description gives back its memory.  The text and the success of every allocation are arbitrary. *)
From Coq Require Import Bool List Arith Lia Permutation Ascii.
From Verif Require Import OwnModel OwnFacts OwnMsg OwnProps OwnSdp OwnSdpFacts.
Import ListNotations.

(** *** Specification *)
(** a description is made, a text is parsed into it, and it is freed *)
Definition description : prog unit := life sdp_init sdp_parse sdp_free.

(** no block is freed that is not allocated, what the program held before it still holds, and nothing more is allocated than before unless
    the node of a list could not be allocated or a line replaced what an earlier line had set ([sound], OwnProps.v) *)
Theorem C78_sdp_partial : sound description.
Proof.
  intro m. destruct (sound_life _ own_sdp whole _ _ _ sdp_init_ok sdp_parse_ok sdp_free_ok m) as (m' & E & C & Z & D & N).
  exists m'. split; [exact E|]. split; [exact C|]. unfold lost in *. split; intros H H'; apply Z; lia.
Qed.
(** what one connection, bandwidth, attribute, key, time or media line builds comes back in full, or up to the nodes of lists *)
Theorem C78_connection : returns_all (life (obj_init 5) conn_parse obj_free).
Proof.
  refine (returns_everything _ own_obj (fresh_obj 5) _ _ _ (obj_init_ok 5) conn_parse_ok obj_free_ok (quiet_obj_init _ 5) _ (quiet_obj_free _)).
  intro. unfold conn_parse, both_tokens, token2, token, both_tokens. hush.
Qed.
Theorem C78_pair : returns_all (life (obj_init 2) pair_parse obj_free) /\ returns_all (life (obj_init 2) (both_tokens (token 0) (token2 1)) obj_free).
Proof.
  split.
  - refine (returns_everything _ own_obj (fresh_obj 2) _ _ _ (obj_init_ok 2) pair_parse_ok obj_free_ok (quiet_obj_init _ 2) _ (quiet_obj_free _)).
    intro. unfold pair_parse, both_tokens, token2, token. hush.
  - refine (returns_everything _ own_obj (fresh_obj 2) _ _ _ (obj_init_ok 2) band_parse_ok obj_free_ok (quiet_obj_init _ 2) _ (quiet_obj_free _)).
    intro. unfold both_tokens, token2, token. hush.
Qed.
Theorem C78_media_partial : returns_memory (life media_init media_parse media_free).
Proof.
  refine (returns _ own_media fresh_media _ _ _ media_init_ok media_parse_ok media_free_ok _ _ _).
  - unfold media_init. hush. apply quiet_obj_init.
  - intro. assert (nodes only_nodes = true) by reflexivity. unfold media_parse, media_tokens, last_payload, payload, both_tokens, token2, token. hush.
  - intro. unfold media_free, text_free, opt_free. hush; apply quiet_obj_free.
Qed.

(** *** The exceptions are real *)
(** v, [s], o, s and t lines; every allocation succeeds *)
Definition plain (early : bool) : list nat :=
  [0] ++ [1; 1; 1; 0] ++ (if early then [1; 1; 1; 0] else [1; 0]) ++ [1; 1; 1; 1; 0; 1; 0; 1; 0; 1; 0; 1; 0; 1; 0] ++ [1; 1; 1; 0] ++
  [1; 0] ++ [1; 0] ++ [1; 1; 0] ++ [1; 1; 0] ++ [1; 0] ++ [1; 1; 0] ++ [1; 1; 1; 0; 1; 0; 1; 0; 0; 0].
(** a description with an s line before and after the o line: the first is never freed, and no allocation failed *)
Theorem C78_sdp_refuted : exists m m', live m = [] /\ description m = Some (tt, m') /\ failed m' = failed m /\ nodes_lost m' = nodes_lost m /\ length (live m') = 1.
Proof.
  exists (start (plain true)). destruct (description (start (plain true))) as [[[] m']|] eqn:E.
  - exists m'. assert (option_map (fun r => (failed (snd r), nodes_lost (snd r), length (live (snd r)))) (description (start (plain true))) = Some (0, 0, 1)) as V by (vm_compute; reflexivity).
    rewrite E in V. cbn in V. injection V as V1 V2 V3. repeat split; assumption.
  - exfalso. assert (option_map (fun r => failed (snd r)) (description (start (plain true))) = Some 0) as V by (vm_compute; reflexivity).
    rewrite E in V. discriminate.
Qed.
(** with one s line it all comes back; the parser accepts both *)
Example C78_sdp_example :
  option_map (fun r => (failed (snd r), types_lost (snd r), live (snd r))) (description (start (plain false))) = Some (0, 0, [])
  /\ map (fun early => option_map (fun r => (fst r, length (live (snd r)))) ((o <~ sdp_init ;; match o with Some s => r <~ sdp_parse s ;; ret (fst r) | None => ret false end) (start (plain early)))) [false; true]
     = [Some (true, 13); Some (true, 14)].
Proof. split; vm_compute; reflexivity. Qed.
(** a media line with two payloads, and one that is refused after its port *)
Example C78_media_example :
  map (fun c => option_map (fun r => live (snd r)) (life media_init media_parse media_free (start c))) [[0; 1; 0; 1; 1; 1; 0; 1; 0; 1; 1; 0; 0; 0; 1; 0; 0]; [0; 1; 0; 1; 1; 1; 0; 0; 0; 0]] = [Some []; Some []]
  /\ map (fun c => option_map (fun r => (fst r, length (live (snd r)))) ((o <~ media_init ;; match o with Some s => r <~ media_parse s ;; ret (fst r) | None => ret false end) (start c)))
     [[0; 1; 0; 1; 1; 1; 0; 1; 0; 1; 1; 0; 0; 0; 1; 0; 0]; [0; 1; 0; 1; 1; 1; 0; 0; 0; 0]] = [Some (true, 8); Some (false, 3)].
Proof. split; vm_compute; reflexivity. Qed.

From Coq Require Import String.
From Verif Require Import Base Str.
From Verif Require SdpModel.
Local Open Scope string_scope.
Local Open Scope list_scope.
Definition lines (l : list string) : str := flat_map (fun s => $s ++ crlf) l.
Definition v_o := ["v=0"; "o=a 1 1 IN IP4 h"].
(** texts that the parser of SdpModel.v accepts and of which it keeps the second value only: two s lines; two i lines after a media line;
    two c lines, or a second k line, in a description without media *)
Example C78_sdp_refuted_text :
  let keeps {A} (l : list string) (get : SdpModel.sdp -> A) (v : A) := match SdpModel.sdp_parse SdpModel.sdp_init (lines l) with Ok d => get d = v | _ => False end in
  keeps ["v=0"; "s=one"; "o=a 1 1 IN IP4 h"; "s=two"; "t=0 0"] SdpModel.s_name (Some ($"two"))
  /\ keeps (v_o ++ ["s=x"; "t=0 0"; "m=audio 9 RTP/AVP 0"; "i=one"; "i=two"]) (fun d => map SdpModel.m_info (SdpModel.m_medias d)) [Some ($"two")]
  /\ keeps (v_o ++ ["s=x"; "c=IN IP4 one"; "t=0 0"; "c=IN IP4 two"]) (fun d => option_map SdpModel.c_addr (SdpModel.c_connection d)) (Some (Some ($"two")))
  /\ keeps (v_o ++ ["s=x"; "t=0 0"; "k=one"; "a=b"; "k=two"]) (fun d => option_map SdpModel.k_keytype (SdpModel.k_key d)) (Some (Some ($"two"))).
Proof. cbv zeta. repeat split; vm_compute; reflexivity. Qed.

Print Assumptions C78_sdp_partial.
Print Assumptions C78_connection.
Print Assumptions C78_pair.
Print Assumptions C78_media_partial.
Print Assumptions C78_sdp_refuted.

(** What the SDP parser allocates, owns and frees: src/osipparser2/sdp_message.c.  Same conventions as OwnModel.v: the text
    and the allocator are an arbitrary stream of choices.  [types_lost] counts here how often a pointer that was not NULL
    is overwritten. *)
From Coq Require Import Bool List Arith.
From Verif Require Import OwnModel.
Import ListNotations.

(** *** Structures *)
(** sdp_time_descr_t: t_start_time 0, t_stop_time 1; r_repeats *)
Record timed := mkTimed { t_obj : obj; t_repeats : olist block }.
(** sdp_media_t: m_media 0, m_port 1, m_number_of_port 2, m_proto 3; the connections, bandwidths and attributes are one list here *)
Record media := mkMedia { d_obj : obj; d_info : option block; d_payloads : olist block; d_key : option obj; d_flats : olist obj }.
(** sdp_message_t: v_version 0, o_username 1, o_sess_id 2, o_sess_version 3, o_nettype 4, o_addrtype 5, o_addr 6, s_name 7, i_info 8,
    u_uri 9, z_adjustments 10; the emails and phones are one list here, the bandwidths and attributes another *)
Record sdpo := mkSdpo { z_obj : obj; z_texts : olist block; z_conn : option obj; z_key : option obj; z_flats : olist obj;
  z_times : olist timed; z_medias : olist media }.
(** sdp_message_init: sdp_message.c 236-318; osip_list_init allocates nothing *)
Definition sdp_init : prog (option sdpo) := o <~ obj_init 11 ;; match o with Some o => ret (Some (mkSdpo o [] None None [] [] [])) | None => ret None end.
(** sdp_time_descr_init: 78-88; sdp_media_init: 170-215 *)
Definition timed_init : prog (option timed) := o <~ obj_init 2 ;; match o with Some o => ret (Some (mkTimed o [])) | None => ret None end.
Definition media_init : prog (option media) := o <~ obj_init 4 ;; match o with Some o => ret (Some (mkMedia o None [] None [])) | None => ret None end.
(** osip_list_ofchar_free: osip_list.c 66-83 *)
Definition text_free (b : block) : prog unit := free (Some b).
(** sdp_time_descr_free: 90-99; sdp_media_free: 217-233; sdp_message_free: 2013-2047; sdp_connection_free, sdp_bandwidth_free,
    sdp_key_free and sdp_attribute_free are [obj_free] *)
Definition timed_free (t : timed) : prog unit := _ <~ list_free text_free (t_repeats t) ;; obj_free (t_obj t).
Definition media_free (d : media) : prog unit :=
  _ <~ list_free text_free (d_payloads d) ;; _ <~ free (d_info d) ;; _ <~ list_free obj_free (d_flats d) ;; _ <~ opt_free obj_free (d_key d) ;; obj_free (d_obj d).
Definition sdp_free (s : sdpo) : prog unit :=
  _ <~ list_free text_free (z_texts s) ;; _ <~ opt_free obj_free (z_conn s) ;; _ <~ list_free timed_free (z_times s) ;; _ <~ opt_free obj_free (z_key s) ;;
  _ <~ list_free obj_free (z_flats s) ;; _ <~ list_free media_free (z_medias s) ;; obj_free (z_obj s).

Definition with_obj o s := mkSdpo o (z_texts s) (z_conn s) (z_key s) (z_flats s) (z_times s) (z_medias s).
Definition with_texts l s := mkSdpo (z_obj s) l (z_conn s) (z_key s) (z_flats s) (z_times s) (z_medias s).
Definition with_conn c s := mkSdpo (z_obj s) (z_texts s) c (z_key s) (z_flats s) (z_times s) (z_medias s).
Definition with_key k s := mkSdpo (z_obj s) (z_texts s) (z_conn s) k (z_flats s) (z_times s) (z_medias s).
Definition with_flats l s := mkSdpo (z_obj s) (z_texts s) (z_conn s) (z_key s) l (z_times s) (z_medias s).
Definition with_times l s := mkSdpo (z_obj s) (z_texts s) (z_conn s) (z_key s) (z_flats s) l (z_medias s).
Definition with_medias l s := mkSdpo (z_obj s) (z_texts s) (z_conn s) (z_key s) (z_flats s) (z_times s) l.

(** *** Assignments *)
(** "p = ...": what [p] was is lost *)
Definition forget {A} (o : option A) : prog unit := match o with Some _ => lose_type | None => ret tt end.
Fixpoint set_nth (i : nat) (o : option block) (l : list (option block)) : list (option block) :=
  match l, i with [], _ => [] | _ :: l, O => o :: l | x :: l, S i => x :: set_nth i o l end.
Definition over (i : nat) (o : option block) (s : sdpo) : prog sdpo :=
  _ <~ forget (nth i (fs (z_obj s)) None) ;; ret (with_obj (mkObj (self (z_obj s)) (set_nth i o (fs (z_obj s))) (ps (z_obj s)) (hs (z_obj s))) s).
(** the last element of a list: osip_list_get (l, size - 1) *)
Fixpoint on_last {A} (p : A -> prog A) (l : olist A) : prog (olist A) :=
  match l with
  | [] => ret []
  | [(b, x)] => y <~ p x ;; ret [(b, y)]
  | e :: l => l <~ on_last p l ;; ret (e :: l)
  end.
(** __osip_set_next_token into a NULL pointer of a new structure: osip_port.c 598-624; [token2]: the end of the line may
    be CR or LF *)
Definition token (i : nat) (o : obj) : prog (bool * obj) := unless o (obtain o (fun b => ret (true, put i b o))).
Definition token2 (i : nat) (o : obj) : prog (bool * obj) := r <~ token i o ;; if fst r then ret r else token i (snd r).
(** two tokens one after the other *)
Definition both_tokens (p q : obj -> prog (bool * obj)) (o : obj) : prog (bool * obj) := r <~ p o ;; if fst r then q (snd r) else ret r.
(** a token of the o line, into any pointer of the description *)
Definition token_at (i : nat) (s : sdpo) : prog (bool * sdpo) :=
  bad <~ test ;; if bad : bool then ret (false, s) else
  o <~ new ;; s <~ over i o s ;; ret (match o with Some _ => true | None => false end, s).
Fixpoint tokens_at (is : list nat) (s : sdpo) : prog (bool * sdpo) :=
  match is with [] => ret (true, s) | i :: is => r <~ token_at i s ;; if fst r then tokens_at is (snd r) else ret r end.

(** *** Lines *)
(** ERR_ERROR, ERR_DISCARD, WF: sdp_message.c 27-29; [Short]: OSIP_NOMEM *)
Inductive outcome := Bad | Other | Good | Short.
(** every line starts like this: no "=", another letter, no end of line or no value (e.g. 347-368) *)
Definition line (s : sdpo) (k : prog (outcome * sdpo)) : prog (outcome * sdpo) :=
  bad <~ test ;; if bad : bool then ret (Bad, s) else
  other <~ test ;; if other : bool then ret (Other, s) else
  bad <~ test ;; if bad : bool then ret (Bad, s) else k.
(** sdp_message_parse_v, _s, _u: 339-378, 471-523, 583-622: the pointer is assigned before it is tested *)
Definition direct_line (i : nat) (s : sdpo) : prog (outcome * sdpo) :=
  line s (o <~ new ;; s <~ over i o s ;; ret (match o with Some _ => Good | None => Short end, s)).
(** sdp_message_parse_o: 380-469; the last token is looked for twice *)
Definition o_line (s : sdpo) : prog (outcome * sdpo) :=
  line s (r <~ tokens_at [1; 2; 3; 4; 5] s ;; if negb (fst r) then ret (Bad, snd r) else
          r <~ token_at 6 (snd r) ;; if fst r then ret (Good, snd r) else
          r <~ token_at 6 (snd r) ;; ret (if fst r : bool then Good else Bad, snd r)).
(** sdp_message_parse_z: 1028-1069 *)
Definition z_line (s : sdpo) : prog (outcome * sdpo) :=
  line s (o <~ new ;; match o with None => ret (Short, s) | Some b => s <~ over 10 (Some b) s ;; ret (Good, s) end).
(** sdp_message_parse_i: 525-581 *)
Definition media_info (b : block) (d : media) : prog media := _ <~ forget (d_info d) ;; ret (mkMedia (d_obj d) (Some b) (d_payloads d) (d_key d) (d_flats d)).
Definition i_line (s : sdpo) : prog (outcome * sdpo) :=
  line s (o <~ new ;; match o with
    | None => ret (Short, s)
    | Some b => match z_medias s with
                | [] => s <~ over 8 (Some b) s ;; ret (Good, s)
                | l => l <~ on_last (media_info b) l ;; ret (Good, with_medias l s) end end).
(** sdp_message_parse_e, _p: 624-666, 668-710 *)
Definition text_line (s : sdpo) : prog (outcome * sdpo) :=
  line s (o <~ new ;; match o with None => ret (Short, s) | Some b => l <~ list_add (z_texts s) b ;; ret (Good, with_texts l s) end).
(** a structure of its own: made, filled, freed if it is bad, given to the description *)
Definition made {A} (s : sdpo) (init : prog (option A)) (parse : A -> prog (bool * A)) (fr : A -> prog unit) (give : A -> prog sdpo) : prog (outcome * sdpo) :=
  o <~ init ;; match o with
  | None => ret (Bad, s)
  | Some x => r <~ parse x ;; if fst r then s <~ give (snd r) ;; ret (Good, s) else _ <~ fr (snd r) ;; ret (Bad, s)
  end.
(** sdp_message_parse_c: 712-838; c_nettype 0, c_addrtype 1, c_addr 2, c_addr_multicast_ttl 3, c_addr_multicast_int 4 *)
Definition conn_parse : obj -> prog (bool * obj) :=
  both_tokens (token 0) (both_tokens (token 1) (fun o =>
    multicast <~ test ;;
    if multicast : bool then both_tokens (token 2) (fun o =>
      number <~ test ;; if number : bool then both_tokens (token 3) (token2 4) o else token2 3 o) o
    else token2 2 o)).
Definition media_flat (o : obj) (d : media) : prog media := l <~ list_add (d_flats d) o ;; ret (mkMedia (d_obj d) (d_info d) (d_payloads d) (d_key d) l).
Definition give_conn (s : sdpo) (c : obj) : prog sdpo :=
  match z_medias s with
  | [] => _ <~ forget (z_conn s) ;; ret (with_conn (Some c) s)
  | l => l <~ on_last (media_flat c) l ;; ret (with_medias l s)
  end.
Definition c_line (s : sdpo) : prog (outcome * sdpo) := line s (made s (obj_init 5) conn_parse obj_free (give_conn s)).
(** sdp_message_parse_b: 840-912; b_bwtype 0, b_bandwidth 1.  sdp_message_parse_a: 1161-1250; a_att_field 0, a_att_value 1 *)
Definition give_flat (s : sdpo) (o : obj) : prog sdpo :=
  match z_medias s with
  | [] => l <~ list_add (z_flats s) o ;; ret (with_flats l s)
  | l => l <~ on_last (media_flat o) l ;; ret (with_medias l s)
  end.
Definition pair_parse (o : obj) : prog (bool * obj) := colon <~ test ;; if colon : bool then both_tokens (token 0) (token2 1) o else token2 0 o.
Definition b_line (s : sdpo) : prog (outcome * sdpo) := line s (made s (obj_init 2) (both_tokens (token 0) (token2 1)) obj_free (give_flat s)).
Definition a_line (s : sdpo) : prog (outcome * sdpo) := line s (made s (obj_init 2) pair_parse obj_free (give_flat s)).
(** sdp_message_parse_k: 1071-1159; k_keytype 0, k_keydata 1 *)
Definition media_key (k : obj) (d : media) : prog media := _ <~ forget (d_key d) ;; ret (mkMedia (d_obj d) (d_info d) (d_payloads d) (Some k) (d_flats d)).
Definition give_key (s : sdpo) (k : obj) : prog sdpo :=
  match z_medias s with
  | [] => _ <~ forget (z_key s) ;; ret (with_key (Some k) s)
  | l => l <~ on_last (media_key k) l ;; ret (with_medias l s)
  end.
Definition k_line (s : sdpo) : prog (outcome * sdpo) := line s (made s (obj_init 2) pair_parse obj_free (give_key s)).
(** sdp_message_parse_t: 914-975 *)
Definition timed_parse (t : timed) : prog (bool * timed) := r <~ both_tokens (token 0) (token2 1) (t_obj t) ;; ret (fst r, mkTimed (snd r) (t_repeats t)).
Definition t_line (s : sdpo) : prog (outcome * sdpo) :=
  line s (made s timed_init timed_parse timed_free (fun t => l <~ list_add (z_times s) t ;; ret (with_times l s))).
(** sdp_message_parse_r: 977-1026 *)
Definition time_repeat (b : block) (t : timed) : prog timed := l <~ list_add (t_repeats t) b ;; ret (mkTimed (t_obj t) l).
Definition r_line (s : sdpo) : prog (outcome * sdpo) :=
  line s (match z_times s with
          | [] => ret (Bad, s)
          | l => o <~ new ;; match o with None => ret (Short, s) | Some b => l <~ on_last (time_repeat b) l ;; ret (Good, with_times l s) end end).
(** sdp_message_parse_m: 1252-1393 *)
Definition payload (d : media) : prog (bool * media) :=
  unless d (obtain d (fun b => l <~ list_add (d_payloads d) b ;; ret (true, mkMedia (d_obj d) (d_info d) l (d_key d) (d_flats d)))).
(** the last payload ends at CR or LF: 1373-1383 *)
Definition last_payload (d : media) : prog (bool * media) :=
  bad <~ test ;; if bad : bool then payload d else
  o <~ new ;; match o with None => payload d | Some b => l <~ list_add (d_payloads d) b ;; ret (true, mkMedia (d_obj d) (d_info d) l (d_key d) (d_flats d)) end.
Definition media_tokens (o : obj) : prog (bool * obj) :=
  r <~ token 0 o ;; if negb (fst r) then ret r else let o := snd r in
  unless o (
  slash <~ test ;;
  r <~ (if slash : bool then both_tokens (token 1) (token 2) o else token 1 o) ;; if negb (fst r) then ret r else let o := snd r in
  r <~ token 3 o ;; if fst r then ret r else token2 3 (snd r)).
Definition media_parse (d : media) : prog (bool * media) :=
  r <~ media_tokens (d_obj d) ;;
  let d := mkMedia (snd r) (d_info d) (d_payloads d) (d_key d) (d_flats d) in
  if negb (fst r) then ret (false, d) else
  n <~ ask ;; r <~ loop n payload d ;; if negb (fst r) then ret r else
  more <~ test ;; if more : bool then last_payload (snd r) else ret r.
Definition m_line (s : sdpo) : prog (outcome * sdpo) :=
  line s (made s media_init media_parse media_free (fun d => l <~ list_add (z_medias s) d ;; ret (with_medias l s))).

(** *** sdp_message_parse: sdp_message.c 1396-1636 *)
(** a part of it: [Some b] is "return", [None] goes on *)
Definition stage := sdpo -> prog (option bool * sdpo).
(** one line; [need]: it must be there; [fin]: the text may end after it (e.g. 1483-1491) *)
Definition once (need fin : bool) (p : sdpo -> prog (outcome * sdpo)) : stage := fun s =>
  r <~ p s ;;
  match fst r with
  | Bad => ret (Some false, snd r)
  | o => if need && match o with Other => true | _ => false end then ret (Some false, snd r) else
         over <~ (if fin then test else ret false) ;; ret (if over : bool then Some true else None, snd r)
  end.
(** "while (i == 1)" *)
Fixpoint many_lines (n : nat) (fin : bool) (p : sdpo -> prog (outcome * sdpo)) : stage := fun s =>
  match n with
  | O => ret (None, s)
  | S n => r <~ p s ;;
    match fst r with
    | Bad => ret (Some false, snd r)
    | o => over <~ (if fin then test else ret false) ;; if over : bool then ret (Some true, snd r) else
           match o with Good => many_lines n fin p (snd r) | _ => ret (None, snd r) end
    end
  end.
Definition many (fin : bool) (p : sdpo -> prog (outcome * sdpo)) : stage := fun s => n <~ ask ;; many_lines n fin p s.
Fixpoint stages (l : list stage) : stage := fun s =>
  match l with [] => ret (None, s) | p :: l => r <~ p s ;; match fst r with Some b => ret r | None => stages l (snd r) end end.
(** "while (more_t_header == 1)": 1510-1533 *)
Fixpoint time_blocks (n : nat) : stage := fun s =>
  match n with
  | O => ret (None, s)
  | S n => r <~ many true r_line s ;; match fst r with Some b => ret r | None =>
           r <~ t_line (snd r) ;;
           match fst r with
           | Bad => ret (Some false, snd r)
           | o => over <~ test ;; if over : bool then ret (Some true, snd r) else
                  match o with Other => ret (None, snd r) | _ => time_blocks n (snd r) end
           end end
  end.
(** "while (more_m_header == 1)": 1563-1632; the lines are looked for whether there was an m line or not *)
Fixpoint media_blocks (n : nat) : stage := fun s =>
  match n with
  | O => ret (None, s)
  | S n => r <~ m_line s ;;
    match fst r with
    | Bad => ret (Some false, snd r)
    | o => over <~ test ;; if over : bool then ret (Some true, snd r) else
           r <~ stages [once false true i_line; many true c_line; many true b_line; once false true k_line; many true a_line] (snd r) ;;
           match fst r with Some b => ret r | None => match o with Good => media_blocks n (snd r) | _ => ret (None, snd r) end end
    end
  end.
Definition sdp_parse (s : sdpo) : prog (bool * sdpo) :=
  r <~ stages [once true false (direct_line 0); once false false (direct_line 7); once true false o_line; once false false (direct_line 7);
    once false false i_line; once false false (direct_line 9); many false text_line; many false text_line; once false false c_line; many false b_line;
    once true true t_line; many true r_line; once false true t_line; (fun s => n <~ ask ;; time_blocks n s);
    once false true z_line; once false true k_line; many true a_line; (fun s => n <~ ask ;; media_blocks n s)] s ;;
  ret (match fst r with Some b => b | None => true end, snd r).

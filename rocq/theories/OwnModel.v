(** What the parsers allocate, own and free: src/osipparser2.

    Only memory is modelled here.  A block is a number; what the text says is not modelled: every test on the
    text is a choice, and so is the number of rounds of every loop and the success of every allocation.  The
    choices are an arbitrary stream, so every text and every way of running out of memory is one of the streams
    (not conversely: some streams ask for answers that no text gives).  Error codes are not told apart: a call
    answers [true] for OSIP_SUCCESS, [false] for an error.

    A structure is its block, its character pointers in a list (NULL is [None]) and its lists; an osip_list is
    a list of pairs of the node and the element. *)
From Coq Require Import Bool List Arith.
Import ListNotations.

Definition block := nat.
(** [live]: the allocated blocks.  [next]: the block the next allocation gives.  [nodes_lost]: how often
    osip_list_add could not allocate its node and the caller did not look at the answer.  [types_lost]: how often
    the content_type pointer of a body was overwritten.  [failed]: how many allocations failed.  The three counters
    influence nothing. *)
Record mem := mkMem { live : list block; next : block; nodes_lost : nat; types_lost : nat; failed : nat; choices : nat -> nat }.
(** [None]: a block is freed that is not allocated *)
Definition prog (A : Type) := mem -> option (A * mem).
Definition ret {A} (x : A) : prog A := fun m => Some (x, m).
Definition bind {A B} (p : prog A) (f : A -> prog B) : prog B := fun m => match p m with Some (x, m) => f x m | None => None end.
Notation "x <~ p ;; q" := (bind p (fun x => q)) (at level 100, p at next level, right associativity).

(** a number chosen by the text or the allocator *)
Definition ask : prog nat := fun m => Some (choices m 0, mkMem (live m) (next m) (nodes_lost m) (types_lost m) (failed m) (fun k => choices m (S k))).
Definition test : prog bool := n <~ ask ;; ret (Nat.eqb n 0).
(** osip_malloc, osip_strdup *)
Definition grab : prog block := fun m => Some (next m, mkMem (next m :: live m) (S (next m)) (nodes_lost m) (types_lost m) (failed m) (choices m)).
Definition fail_once : prog unit := fun m => Some (tt, mkMem (live m) (next m) (nodes_lost m) (types_lost m) (S (failed m)) (choices m)).
Definition new : prog (option block) := ok <~ test ;; if ok then b <~ grab ;; ret (Some b) else _ <~ fail_once ;; ret None.
Fixpoint remove_one (b : block) (l : list block) : option (list block) :=
  match l with
  | [] => None
  | c :: l => if Nat.eqb b c then Some l else match remove_one b l with Some l => Some (c :: l) | None => None end
  end.
(** osip_free: NULL is allowed *)
Definition free (o : option block) : prog unit :=
  match o with
  | None => ret tt
  | Some b => fun m => match remove_one b (live m) with Some l => Some (tt, mkMem l (next m) (nodes_lost m) (types_lost m) (failed m) (choices m)) | None => None end
  end.
Definition lose_node : prog unit := fun m => Some (tt, mkMem (live m) (next m) (S (nodes_lost m)) (types_lost m) (failed m) (choices m)).
Definition lose_type : prog unit := fun m => Some (tt, mkMem (live m) (next m) (nodes_lost m) (S (types_lost m)) (failed m) (choices m)).

(** "if (...) return error;" and "p = osip_malloc (...); if (p == NULL) return OSIP_NOMEM;" in a function on [x] *)
Definition unless {A} (x : A) (k : prog (bool * A)) : prog (bool * A) := bad <~ test ;; if bad then ret (false, x) else k.
Definition obtain {A} (x : A) (k : block -> prog (bool * A)) : prog (bool * A) :=
  o <~ new ;; match o with Some b => k b | None => ret (false, x) end.
(** any number of rounds, until one fails *)
Fixpoint loop {A} (n : nat) (f : A -> prog (bool * A)) (x : A) : prog (bool * A) :=
  match n with O => ret (true, x) | S n => r <~ f x ;; if fst r then loop n f (snd r) else ret r end.

(** *** Lists: osip_list.c *)
Definition olist (A : Type) := list (block * A).
(** osip_list_add, the answer not looked at: osip_list.c 100-174 *)
Definition list_add {A} (l : olist A) (x : A) : prog (olist A) :=
  o <~ new ;; match o with Some b => ret (l ++ [(b, x)]) | None => _ <~ lose_node ;; ret l end.
(** osip_list_special_free: osip_list.c 51-64; the node is freed by osip_list_remove, 258-296 *)
Fixpoint list_free {A} (fr : A -> prog unit) (l : olist A) : prog unit :=
  match l with [] => ret tt | (b, x) :: l => _ <~ free (Some b) ;; _ <~ fr x ;; list_free fr l end.

(** *** Parameters: osip_uri.c, osip_from.c *)
Record param := mkParam { p_self : block; p_name : option block; p_value : option block }.
(** osip_uri_param_free: osip_uri.c 793-799 *)
Definition param_free (p : param) : prog unit := _ <~ free (p_name p) ;; _ <~ free (p_value p) ;; free (Some (p_self p)).
(** osip_uri_param_add: osip_uri.c 813-829; osip_uri_param_set always succeeds (801-811) *)
Definition param_add (l : olist param) (name value : option block) : prog (bool * olist param) :=
  obtain l (fun b => l <~ list_add l (mkParam b name value) ;; ret (true, l)).
(** one parameter: osip_uri.c 442-471 and 481-513; osip_from.c 541-576 and 604-640.  The value is NULL without "=",
    and in osip_from.c also with an empty value *)
Definition param_round (l : olist param) : prog (bool * olist param) :=
  has <~ test ;;
  if has then
    unless l (obtain l (fun v =>
      bad <~ test ;; if bad then _ <~ free (Some v) ;; ret (false, l) else
      o <~ new ;; match o with None => _ <~ free (Some v) ;; ret (false, l) | Some n =>
      r <~ param_add l (Some n) (Some v) ;;
      if fst r then ret r else _ <~ free (Some n) ;; _ <~ free (Some v) ;; ret (false, snd r) end))
  else
    bad <~ test ;; if bad then _ <~ free None ;; ret (false, l) else
    o <~ new ;; match o with None => _ <~ free None ;; ret (false, l) | Some n =>
    r <~ param_add l (Some n) None ;;
    if fst r then ret r else _ <~ free (Some n) ;; _ <~ free None ;; ret (false, snd r) end.
(** osip_uri_parse_params: osip_uri.c 426-518 *)
Definition uri_params (l : olist param) : prog (bool * olist param) :=
  n <~ ask ;; r <~ loop n param_round l ;; if fst r then param_round (snd r) else ret r.
(** __osip_generic_param_parseall: osip_from.c 505-650; the last parameter may be empty (598-603) *)
Definition gen_params (l : olist param) : prog (bool * olist param) :=
  n <~ ask ;; r <~ loop n param_round l ;; if fst r then (empty <~ test ;; if empty then ret (true, snd r) else param_round (snd r)) else ret r.
(** one header of a URI: osip_uri.c 369-420 *)
Definition uheader_round (l : olist param) : prog (bool * olist param) :=
  obtain l (fun n =>
    bad <~ test ;; if bad then _ <~ free (Some n) ;; ret (false, l) else
    o <~ new ;; match o with None => _ <~ free (Some n) ;; ret (false, l) | Some v =>
    r <~ param_add l (Some n) (Some v) ;;
    if fst r then unless (snd r) (ret r) else _ <~ free (Some n) ;; _ <~ free (Some v) ;; ret (false, snd r) end).
(** osip_uri_parse_headers: osip_uri.c 351-424 *)
Definition uri_headers (l : olist param) : prog (bool * olist param) := unless l (n <~ ask ;; loop (S n) uheader_round l).

(** *** Structures of character pointers and parameters *)
(** [fs]: the character pointers, in the order named at each structure; [hs]: the headers of a URI *)
Record obj := mkObj { self : block; fs : list (option block); ps : olist param; hs : olist param }.
Fixpoint put_nth (i : nat) (b : block) (l : list (option block)) : list (option block) :=
  match l, i with [], _ => [] | _ :: l, O => Some b :: l | x :: l, S i => x :: put_nth i b l end.
Definition put (i : nat) (b : block) (o : obj) : obj := mkObj (self o) (put_nth i b (fs o)) (ps o) (hs o).
Definition with_ps (l : olist param) (o : obj) : obj := mkObj (self o) (fs o) l (hs o).
Definition with_hs (l : olist param) (o : obj) : obj := mkObj (self o) (fs o) (ps o) l.
(** the init functions: a structure of [k] NULL pointers and empty lists *)
Definition obj_init (k : nat) : prog (option obj) := o <~ new ;; match o with Some b => ret (Some (mkObj b (repeat None k) [] [])) | None => ret None end.
Fixpoint free_all (l : list (option block)) : prog unit := match l with [] => ret tt | o :: l => _ <~ free o ;; free_all l end.
(** the free functions: every pointer, the lists, the structure.  osip_uri_free: osip_uri.c 712-738; osip_via_free:
    osip_via.c 110-123; osip_call_id_free: osip_call_id.c 77-89; osip_cseq_free: osip_cseq.c 159-167; osip_content_type_free:
    osip_content_type.c 194-208; osip_content_length_free: osip_content_length.c 108-115; osip_call_info_free:
    osip_call_info.c 159-171; osip_accept_encoding_free: osip_accept_encoding.c 152-163; osip_header_free:
    osip_header.c 212-223; the free functions of the authentication headers: osip_www_authenticate.c 623-642,
    osip_authorization.c 694-717, osip_authentication_info.c 509-527 *)
Definition obj_free (o : obj) : prog unit :=
  _ <~ free_all (fs o) ;; _ <~ list_free param_free (ps o) ;; _ <~ list_free param_free (hs o) ;; free (Some (self o)).

(** osip_uri_t: scheme 0, username 1, password 2, host 3, port 4, string 5.  osip_uri_init: osip_uri.c 33-51 *)
Definition uri_init : prog (option obj) := obj_init 6.
(** osip_uri_parse: osip_uri.c 101-268.  The answers of the parameter and header parsers are not looked at (205, 227) *)
Definition uri_parse (u : obj) : prog (bool * obj) :=
  unless u (obtain u (fun b => let u := put 0 b u in
  unless u (
  sip <~ test ;;
  if negb sip then unless u (obtain u (fun b => ret (true, put 5 b u))) else
  user <~ test ;;
  r <~ (if user : bool then
          password <~ test ;;
          r <~ (if password : bool then unless u (obtain u (fun b => ret (true, put 2 b u))) else ret (true, u)) ;;
          if fst r then let u := snd r in unless u (obtain u (fun b => ret (true, put 1 b u))) else ret r
        else ret (true, u)) ;;
  if negb (fst r) then ret r else let u := snd r in
  headers <~ test ;;
  u <~ (if headers : bool then r <~ uri_headers (hs u) ;; ret (with_hs (snd r) u) else ret u) ;;
  params <~ test ;;
  r <~ (if params : bool then unless u (obtain u (fun t => r <~ uri_params (ps u) ;; _ <~ free (Some t) ;; ret (true, with_ps (snd r) u))) else ret (true, u)) ;;
  if negb (fst r) then ret r else let u := snd r in
  port <~ test ;;
  r <~ (if port : bool then unless u (obtain u (fun b => ret (true, put 4 b u))) else ret (true, u)) ;;
  if negb (fst r) then ret r else let u := snd r in
  unless u (obtain u (fun b => ret (true, put 3 b u)))))).

(** a structure that is filled by its parameters first, then by a list of pointers, each after a test *)
Fixpoint fill (is : list nat) (o : obj) : prog (bool * obj) :=
  match is with [] => ret (true, o) | i :: is => unless o (obtain o (fun b => fill is (put i b o))) end.
Definition with_params (o : obj) (k : obj -> prog (bool * obj)) : prog (bool * obj) :=
  has <~ test ;; if has : bool then r <~ gen_params (ps o) ;; let o := with_ps (snd r) o in if fst r then k o else ret (false, o) else k o.
(** osip_content_type_t: type 0, subtype 1.  osip_content_type_parse (osip_accept_parse): osip_content_type.c 86-136 *)
Definition ctype_init : prog (option obj) := obj_init 2.
Definition ctype_parse (o : obj) : prog (bool * obj) :=
  empty <~ test ;; if empty : bool then ret (true, o) else unless o (with_params o (fill [0; 1])).
(** osip_accept_encoding_t: element 0.  osip_accept_encoding_parse: osip_accept_encoding.c 80-104; osip_content_disposition_parse: osip_content_disposition.c 28-52 *)
Definition aenc_init : prog (option obj) := obj_init 1.
Definition aenc_parse (o : obj) : prog (bool * obj) := with_params o (fill [0]).
(** osip_call_info_t: element 0.  osip_call_info_parse: osip_call_info.c 76-108 *)
Definition cinfo_init : prog (option obj) := obj_init 1.
Definition cinfo_parse (o : obj) : prog (bool * obj) := unless o (unless o (with_params o (fill [0]))).
(** osip_content_length_t (also Mime-Version, Allow, Content-Encoding): value 0.  osip_content_length.c 64-79 *)
Definition clen_init : prog (option obj) := obj_init 1.
Definition clen_parse (o : obj) : prog (bool * obj) := unless o (fill [0] o).
(** osip_cseq_t: method 0, number 1.  osip_cseq_parse: osip_cseq.c 68-101 *)
Definition cseq_init : prog (option obj) := obj_init 2.
Definition cseq_parse (o : obj) : prog (bool * obj) := unless o (fill [1; 0] o).
(** osip_call_id_t: number 0, host 1.  osip_call_id_parse: osip_call_id.c 95-125 *)
Definition call_id_init : prog (option obj) := obj_init 2.
Definition call_id_parse (o : obj) : prog (bool * obj) :=
  host <~ test ;; r <~ (if host : bool then fill [1] o else ret (true, o)) ;; if fst r then fill [0] (snd r) else ret r.
(** osip_header_t: hname 0, hvalue 1.  Filled in osip_message_set_header: osip_header.c 45-60 *)
Definition header_init : prog (option obj) := obj_init 2.
Definition header_fill (o : obj) : prog (bool * obj) :=
  obtain o (fun b => let o := put 0 b o in has <~ test ;; if has : bool then obtain o (fun b => ret (true, put 1 b o)) else ret (true, o)).
(** osip_via_t: version 0, protocol 1, host 2, port 3, comment 4.  osip_via_parse: osip_via.c 125-272 *)
Definition via_init : prog (option obj) := obj_init 5.
Definition via_parse (v : obj) : prog (bool * obj) :=
  unless v (unless v (unless v (obtain v (fun b => let v := put 0 b v in
  unless v (unless v (obtain v (fun b => let v := put 1 b v in
  comment <~ test ;;
  r <~ (if comment : bool then unless v (unless v (obtain v (fun b => ret (true, put 4 b v)))) else ret (true, v)) ;;
  if negb (fst r) then ret r else let v := snd r in
  params <~ test ;;
  r <~ (if params : bool then unless v (obtain v (fun t => r <~ gen_params (ps v) ;; _ <~ free (Some t) ;; ret (fst r, with_ps (snd r) v))) else ret (true, v)) ;;
  if negb (fst r) then ret r else let v := snd r in
  ipv6 <~ test ;;
  r <~ (if ipv6 : bool then unless v (unless v (obtain v (fun b => ret (true, put 2 b v)))) else ret (true, v)) ;;
  if negb (fst r) then ret r else let v := snd r in
  port <~ test ;;
  r <~ (if port : bool then unless v (obtain v (fun b => let v := put 3 b v in unless v (ret (true, v)))) else ret (true, v)) ;;
  if negb (fst r) then ret r else let v := snd r in
  if ipv6 : bool then ret (true, v) else unless v (obtain v (fun b => ret (true, put 2 b v)))))))))).

(** *** Authentication headers: auth_type 0, then the parameters in the order in which they are looked for *)
Inductive next_step := Go | Stop | Broken.
(** __osip_quoted_string_set, __osip_token_set: osip_www_authenticate.c 65-152, 154-215; "nothing in the quotes" is
    success without a value (100-125) *)
Definition set_one (o : option block) : prog (next_step * option block) :=
  match o with
  | Some b => ret (Go, Some b)
  | None =>
    bad <~ test ;; if bad : bool then ret (Broken, None) else
    mine <~ test ;;
    if mine : bool then
      empty <~ test ;;
      if empty : bool then last <~ test ;; ret (if last : bool then Stop else Go, None) else
      x <~ new ;; match x with None => ret (Broken, None) | Some b => last <~ test ;; ret (if last : bool then Stop else Go, Some b) end
    else last <~ test ;; ret (if last : bool then Stop else Go, None)
  end.
Fixpoint set_all (l : list (option block)) : prog (next_step * list (option block)) :=
  match l with
  | [] => ret (Go, [])
  | o :: l => r <~ set_one o ;; match fst r with
              | Go => q <~ set_all l ;; ret (fst q, snd r :: snd q)
              | s => ret (s, snd r :: l) end
  end.
(** the rounds: osip_www_authenticate.c 243-366; osip_authorization.c 91-270; osip_authentication_info.c 95-215 *)
Fixpoint auth_rounds (n : nat) (l : list (option block)) : prog (bool * list (option block)) :=
  match n with
  | O => ret (true, l)
  | S n => r <~ set_all l ;; match fst r with
           | Broken => ret (false, snd r)
           | Stop => ret (true, snd r)
           | Go => unless (snd r) (over <~ test ;; if over : bool then ret (true, snd r) else auth_rounds n (snd r)) end
  end.
Definition auth_rest (o : obj) : prog (bool * obj) :=
  match fs o with
  | [] => ret (true, o)
  | t :: l => n <~ ask ;; r <~ auth_rounds n l ;; ret (fst r, mkObj (self o) (t :: snd r) (ps o) (hs o))
  end.
(** osip_www_authenticate_parse: osip_www_authenticate.c 225-368; 10 parameters; osip_authorization_parse:
    osip_authorization.c 73-272; 16 parameters *)
Definition www_init : prog (option obj) := obj_init 11.
Definition authz_init : prog (option obj) := obj_init 17.
Definition auth_parse (o : obj) : prog (bool * obj) := unless o (unless o (obtain o (fun b => auth_rest (put 0 b o)))).
(** osip_authentication_info_parse: osip_authentication_info.c 77-217; 10 parameters, auth_type is optional *)
Definition ainfo_init : prog (option obj) := obj_init 11.
Definition ainfo_parse (o : obj) : prog (bool * obj) :=
  typed <~ test ;; if typed : bool then obtain o (fun b => auth_rest (put 0 b o)) else auth_rest o.

(** *** Addresses: From, To, Contact, Route, Record-Route *)
(** osip_from_t: displayname 0; [url] *)
Record addr := mkAddr { a_obj : obj; a_url : option obj }.
(** osip_from_init: osip_from.c 66-78 *)
Definition from_init : prog (option addr) := o <~ obj_init 1 ;; match o with Some o => ret (Some (mkAddr o None)) | None => ret None end.
(** osip_from_free: osip_from.c 82-95 *)
Definition from_free (a : addr) : prog unit :=
  _ <~ match a_url a with Some u => obj_free u | None => ret tt end ;; obj_free (a_obj a).
(** osip_from_parse: osip_from.c 101-288; osip_contact_parse: osip_contact.c 56-69 *)
Definition from_parse (a : addr) : prog (bool * addr) :=
  empty <~ test ;; if empty : bool then ret (true, a) else unless a (
  star <~ test ;;
  if star : bool then obtain a (fun b => ret (true, mkAddr (put 0 b (a_obj a)) (a_url a))) else
  display <~ test ;;
  r <~ (if display : bool then obtain a (fun b => ret (true, mkAddr (put 0 b (a_obj a)) (a_url a))) else ret (true, a)) ;;
  if negb (fst r) then ret r else let a := snd r in
  unless a (
  params <~ test ;;
  r <~ (if params : bool then r <~ gen_params (ps (a_obj a)) ;; ret (fst r, mkAddr (with_ps (snd r) (a_obj a)) (a_url a)) else ret (true, a)) ;;
  if negb (fst r) then ret r else let a := snd r in
  unless a (
  u <~ uri_init ;;
  let a := mkAddr (a_obj a) u in
  match u with
  | None => ret (false, a)
  | Some u => obtain a (fun t => r <~ uri_parse u ;; _ <~ free (Some t) ;; ret (fst r, mkAddr (a_obj a) (Some (snd r))))
  end))).

(** *** Bodies: osip_body.c *)
(** [y_list]: the block of the list of headers; [y_body]: the content *)
Record bodyo := mkBodyo { y_self : block; y_list : block; y_body : option block; y_type : option obj; y_headers : olist obj }.
(** osip_body_init: osip_body.c 30-48 *)
Definition body_init : prog (option bodyo) :=
  o <~ new ;; match o with None => ret None | Some b =>
  o <~ new ;; match o with None => _ <~ free (Some b) ;; ret None | Some l => ret (Some (mkBodyo b l None None [])) end end.
(** osip_body_free: osip_body.c 450-463 *)
Definition body_free (y : bodyo) : prog unit :=
  _ <~ free (y_body y) ;; _ <~ match y_type y with Some c => obj_free c | None => ret tt end ;;
  _ <~ list_free obj_free (y_headers y) ;; _ <~ free (Some (y_list y)) ;; free (Some (y_self y)).
(** osip_body_parse: osip_body.c 276-293 *)
Definition body_parse (y : bodyo) : prog (bool * bodyo) := obtain y (fun b => ret (true, mkBodyo (y_self y) (y_list y) (Some b) (y_type y) (y_headers y))).
(** osip_body_set_contenttype: osip_body.c 136-156; the pointer is overwritten whatever it was *)
Definition body_set_type (y : bodyo) : prog (bool * bodyo) :=
  _ <~ match y_type y with Some _ => lose_type | None => ret tt end ;;
  let with_type c := mkBodyo (y_self y) (y_list y) (y_body y) c (y_headers y) in
  o <~ ctype_init ;;
  match o with
  | None => ret (false, with_type None)
  | Some c => r <~ ctype_parse c ;; if fst r then ret (true, with_type (Some (snd r))) else _ <~ obj_free (snd r) ;; ret (false, with_type None)
  end.
(** osip_body_set_header: osip_body.c 158-188 *)
Definition body_set_header (y : bodyo) : prog (bool * bodyo) :=
  o <~ header_init ;;
  match o with
  | None => ret (false, y)
  | Some h =>
    o <~ new ;; match o with None => _ <~ obj_free h ;; ret (false, y) | Some b => let h := put 0 b h in
    o <~ new ;; match o with None => _ <~ obj_free h ;; ret (false, y) | Some b => let h := put 1 b h in
    l <~ list_add (y_headers y) h ;; ret (true, mkBodyo (y_self y) (y_list y) (y_body y) (y_type y) l) end end
  end.
(** one header of a part: osip_body.c 228-272 *)
Definition part_round (y : bodyo) : prog (bool * bodyo) :=
  unless y (unless y (obtain y (fun n =>
    bad <~ test ;; if bad : bool then _ <~ free (Some n) ;; ret (false, y) else
    o <~ new ;; match o with None => _ <~ free (Some n) ;; ret (false, y) | Some v =>
    is_type <~ test ;;
    r <~ (if is_type : bool then body_set_type y else body_set_header y) ;;
    _ <~ free (Some n) ;; _ <~ free (Some v) ;; ret r end))).
(** osip_body_parse_mime with osip_body_parse_header: osip_body.c 216-340 *)
Definition body_parse_mime (y : bodyo) : prog (bool * bodyo) :=
  n <~ ask ;; r <~ loop (S n) part_round y ;; if negb (fst r) then ret r else let y := snd r in
  unless y (unless y (obtain y (fun b => ret (true, mkBodyo (y_self y) (y_list y) (Some b) (y_type y) (y_headers y))))).

(** *** Messages *)
(** The headers of which a message has several are one list here, of flat structures and addresses.  [g_fs]: sip_method 0,
    sip_version 1, reason_phrase 2, message 3; [g_ones]: content_type, content_length, call_id, cseq, mime_version *)
Inductive elem := Flat (o : obj) | Addr (a : addr).
Definition elem_free (e : elem) : prog unit := match e with Flat o => obj_free o | Addr a => from_free a end.
Record msgo := mkMsgo { g_self : block; g_fs : list (option block); g_uri : option obj; g_from : option addr; g_to : option addr;
  g_type : option obj; g_length : option obj; g_call_id : option obj; g_cseq : option obj; g_mime : option obj;
  g_lists : olist elem; g_bodies : olist bodyo }.
(** osip_message_init: osip_message.c 30-84 *)
Definition msg_init : prog (option msgo) :=
  o <~ new ;; match o with Some b => ret (Some (mkMsgo b (repeat None 4) None None None None None None None None [] [])) | None => ret None end.
Definition opt_free {A} (fr : A -> prog unit) (o : option A) : prog unit := match o with Some x => fr x | None => ret tt end.
(** osip_message_free: osip_message.c 117-170 *)
Definition msg_free (g : msgo) : prog unit :=
  _ <~ free_all (g_fs g) ;; _ <~ opt_free obj_free (g_uri g) ;;
  _ <~ opt_free obj_free (g_call_id g) ;; _ <~ opt_free obj_free (g_length g) ;; _ <~ opt_free obj_free (g_type g) ;;
  _ <~ opt_free obj_free (g_cseq g) ;; _ <~ opt_free from_free (g_from g) ;; _ <~ opt_free obj_free (g_mime g) ;;
  _ <~ opt_free from_free (g_to g) ;; _ <~ list_free elem_free (g_lists g) ;; _ <~ list_free body_free (g_bodies g) ;; free (Some (g_self g)).

Definition set_fs (l : list (option block)) (g : msgo) : msgo := mkMsgo (g_self g) l (g_uri g) (g_from g) (g_to g) (g_type g) (g_length g) (g_call_id g) (g_cseq g) (g_mime g) (g_lists g) (g_bodies g).
Definition set_uri (u : option obj) (g : msgo) : msgo := mkMsgo (g_self g) (g_fs g) u (g_from g) (g_to g) (g_type g) (g_length g) (g_call_id g) (g_cseq g) (g_mime g) (g_lists g) (g_bodies g).
Definition set_from (x : option addr) (g : msgo) : msgo := mkMsgo (g_self g) (g_fs g) (g_uri g) x (g_to g) (g_type g) (g_length g) (g_call_id g) (g_cseq g) (g_mime g) (g_lists g) (g_bodies g).
Definition set_to (x : option addr) (g : msgo) : msgo := mkMsgo (g_self g) (g_fs g) (g_uri g) (g_from g) x (g_type g) (g_length g) (g_call_id g) (g_cseq g) (g_mime g) (g_lists g) (g_bodies g).
Definition set_type (x : option obj) (g : msgo) : msgo := mkMsgo (g_self g) (g_fs g) (g_uri g) (g_from g) (g_to g) x (g_length g) (g_call_id g) (g_cseq g) (g_mime g) (g_lists g) (g_bodies g).
Definition set_length (x : option obj) (g : msgo) : msgo := mkMsgo (g_self g) (g_fs g) (g_uri g) (g_from g) (g_to g) (g_type g) x (g_call_id g) (g_cseq g) (g_mime g) (g_lists g) (g_bodies g).
Definition set_call_id (x : option obj) (g : msgo) : msgo := mkMsgo (g_self g) (g_fs g) (g_uri g) (g_from g) (g_to g) (g_type g) (g_length g) x (g_cseq g) (g_mime g) (g_lists g) (g_bodies g).
Definition set_cseq (x : option obj) (g : msgo) : msgo := mkMsgo (g_self g) (g_fs g) (g_uri g) (g_from g) (g_to g) (g_type g) (g_length g) (g_call_id g) x (g_mime g) (g_lists g) (g_bodies g).
Definition set_mime (x : option obj) (g : msgo) : msgo := mkMsgo (g_self g) (g_fs g) (g_uri g) (g_from g) (g_to g) (g_type g) (g_length g) (g_call_id g) (g_cseq g) x (g_lists g) (g_bodies g).
Definition set_lists (x : olist elem) (g : msgo) : msgo := mkMsgo (g_self g) (g_fs g) (g_uri g) (g_from g) (g_to g) (g_type g) (g_length g) (g_call_id g) (g_cseq g) (g_mime g) x (g_bodies g).
Definition set_bodies (x : olist bodyo) (g : msgo) : msgo := mkMsgo (g_self g) (g_fs g) (g_uri g) (g_from g) (g_to g) (g_type g) (g_length g) (g_call_id g) (g_cseq g) (g_mime g) (g_lists g) x.

(** a header a message has once: osip_message_set_from: osip_from.c 31-52; set_to: osip_to.c 37-58; set_content_type:
    osip_content_type.c 47-69; set_content_length: osip_content_length.c 40-62; set_call_id: osip_call_id.c 30-51; set_cseq:
    osip_cseq.c 41-62; set_mime_version: osip_mime_version.c 31-52: refused if present, taken back if refused *)
Definition set_single {A} (old : option A) (set : option A -> msgo -> msgo) (init : prog (option A)) (parse : A -> prog (bool * A)) (fr : A -> prog unit) (g : msgo) : prog (bool * msgo) :=
  empty <~ test ;; if empty : bool then ret (true, g) else
  match old with
  | Some _ => ret (false, g)
  | None => o <~ init ;; match o with
            | None => ret (false, set None g)
            | Some x => r <~ parse x ;; if fst r then ret (true, set (Some (snd r)) g) else _ <~ fr (snd r) ;; ret (false, set None g) end
  end.
(** a header of which it may have several: osip_message_set_via: osip_via.c 31-51, and the same text in osip_contact.c
    30-50, osip_route.c 38-62, osip_record_route.c 38-58, osip_accept.c 32-50, osip_accept_encoding.c 32-52, osip_allow.c 29-49, osip_call_info.c 27-47,
    osip_www_authenticate.c 41-63, osip_authorization.c 41-63, osip_authentication_info.c 44-67, and the proxy variants *)
Definition set_many {A} (wrap : A -> elem) (init : prog (option A)) (parse : A -> prog (bool * A)) (fr : A -> prog unit) (g : msgo) : prog (bool * msgo) :=
  empty <~ test ;; if empty : bool then ret (true, g) else
  o <~ init ;; match o with
  | None => ret (false, g)
  | Some x => r <~ parse x ;; if fst r then l <~ list_add (g_lists g) (wrap (snd r)) ;; ret (true, set_lists l g) else _ <~ fr (snd r) ;; ret (false, g)
  end.
(** osip_message_set__header: osip_message_parse.c 397-423; the error of an unknown header is not reported (417-420) *)
Definition set_header (g : msgo) : prog (bool * msgo) :=
  k <~ ask ;;
  match k with
  | 0 => set_single (g_from g) set_from from_init from_parse from_free g
  | 1 => set_single (g_to g) set_to from_init from_parse from_free g
  | 2 => set_single (g_type g) set_type ctype_init ctype_parse obj_free g
  | 3 => set_single (g_length g) set_length clen_init clen_parse obj_free g
  | 4 => set_single (g_call_id g) set_call_id call_id_init call_id_parse obj_free g
  | 5 => set_single (g_cseq g) set_cseq cseq_init cseq_parse obj_free g
  | 6 => set_single (g_mime g) set_mime clen_init clen_parse obj_free g
  | 7 => set_many Flat via_init via_parse obj_free g
  | 8 => set_many Addr from_init from_parse from_free g
  | 9 => set_many Flat ctype_init ctype_parse obj_free g
  | 10 => set_many Flat aenc_init aenc_parse obj_free g
  | 11 => set_many Flat cinfo_init cinfo_parse obj_free g
  | 12 => set_many Flat clen_init clen_parse obj_free g
  | 13 => set_many Flat www_init auth_parse obj_free g
  | 14 => set_many Flat authz_init auth_parse obj_free g
  | 15 => set_many Flat ainfo_init ainfo_parse obj_free g
  | _ => r <~ set_many Flat header_init header_fill obj_free g ;; ret (true, snd r)
  end.
(** one element of a header with commas: osip_message_parse.c 537-561 *)
Definition comma_round (g : msgo) : prog (bool * msgo) :=
  skip <~ test ;; if skip : bool then ret (true, g) else
  obtain g (fun v => r <~ set_header g ;; _ <~ free (Some v) ;; ret r).
(** osip_message_set_multiple_header: osip_message_parse.c 425-570 *)
Definition set_multiple (g : msgo) : prog (bool * msgo) :=
  one <~ test ;; if one : bool then set_header g else n <~ ask ;; loop n comma_round g.
(** one header line: osip_message_parse.c 582-657 *)
Definition line_round (g : msgo) : prog (bool * msgo) :=
  unless g (obtain g (fun n =>
    has <~ test ;;
    if has : bool then
      o <~ new ;; match o with None => _ <~ free (Some n) ;; ret (false, g) | Some v =>
      r <~ set_multiple g ;; _ <~ free (Some n) ;; _ <~ free (Some v) ;; ret r end
    else r <~ set_multiple g ;; _ <~ free (Some n) ;; ret r)).
(** __osip_message_startline_parsereq: osip_message_parse.c 32-177 *)
Definition drop_method (g : msgo) : prog msgo :=
  match g_fs g with
  | [o; v; r; t] => _ <~ free o ;; ret (set_fs [None; v; r; t] g)
  | _ => ret g
  end.
Definition drop_uri (g : msgo) : prog msgo := _ <~ opt_free obj_free (g_uri g) ;; ret (set_uri None g).
Definition start_request (g : msgo) : prog (bool * msgo) :=
  let g := match g_fs g with [_; v; _; t] => set_fs [None; v; None; t] g | _ => g end in
  unless g (obtain g (fun b => let g := set_fs (put_nth 0 b (g_fs g)) g in
  bad <~ test ;; if bad : bool then g <~ drop_method g ;; ret (false, g) else
  o <~ new ;; match o with None => g <~ drop_method g ;; ret (false, g) | Some t =>
  u <~ uri_init ;; let g := set_uri u g in
  match u with
  | None => _ <~ free (Some t) ;; g <~ drop_method g ;; ret (false, g)
  | Some u =>
    r <~ uri_parse u ;; let g := set_uri (Some (snd r)) g in
    _ <~ free (Some t) ;;
    if negb (fst r) then g <~ drop_method g ;; g <~ drop_uri g ;; ret (false, g) else
    bad <~ test ;; if bad : bool then g <~ drop_method g ;; g <~ drop_uri g ;; ret (false, g) else
    o <~ new ;; match o with None => g <~ drop_method g ;; g <~ drop_uri g ;; ret (false, g) | Some v =>
    ret (true, set_fs (put_nth 1 v (g_fs g)) g) end
  end end)).
(** __osip_message_startline_parseresp: osip_message_parse.c 179-240 *)
Definition drop_version (g : msgo) : prog msgo :=
  match g_fs g with
  | [o; v; r; t] => _ <~ free v ;; ret (set_fs [o; None; r; t] g)
  | _ => ret g
  end.
Definition start_answer (g : msgo) : prog (bool * msgo) :=
  let g := set_uri None (match g_fs g with [_; v; r; t] => set_fs [None; v; r; t] g | _ => g end) in
  unless g (obtain g (fun b => let g := set_fs (put_nth 1 b (g_fs g)) g in
  bad <~ test ;; if bad : bool then g <~ drop_version g ;; ret (false, g) else
  unless g (
  o <~ new ;; match o with None => g <~ drop_version g ;; ret (false, g) | Some b => ret (true, set_fs (put_nth 2 b (g_fs g)) g) end))).
(** osip_message_set_content_length with a text that is not empty *)
Definition set_clen (g : msgo) : prog (bool * msgo) := set_single (g_length g) set_length clen_init clen_parse obj_free g.
(** osip_message_set_body: osip_body.c 56-73; osip_message_set_body_mime: 194-214 *)
Definition set_body (parse : bodyo -> prog (bool * bodyo)) (g : msgo) : prog (bool * msgo) :=
  o <~ body_init ;; match o with
  | None => ret (false, g)
  | Some y => r <~ parse y ;; if fst r then l <~ list_add (g_bodies g) (snd r) ;; ret (true, set_bodies l g) else _ <~ body_free (snd r) ;; ret (false, g)
  end.
(** one part: osip_message_parse.c 767-816; the boundary text is freed by the caller here *)
Definition parts_round (g : msgo) : prog (bool * msgo) :=
  unless g (obtain g (fun t => r <~ set_body body_parse_mime g ;; _ <~ free (Some t) ;; ret r)).
(** msg_osip_body_parse: osip_message_parse.c 666-820 *)
Definition msg_body (g : msgo) : prog (bool * msgo) :=
  none <~ test ;; if none : bool then ret (true, g) else
  multi <~ test ;;
  if multi : bool then
    unless g (obtain g (fun s => n <~ ask ;; r <~ loop (S n) parts_round g ;; _ <~ free (Some s) ;; ret r))
  else
    unless g (
    r <~ (match g_length g with Some _ => ret (true, g) | None => set_clen g end) ;;
    if negb (fst r) then ret r else let g := snd r in
    unless g (obtain g (fun t => r <~ set_body body_parse g ;; _ <~ free (Some t) ;; ret r))).
(** _osip_message_parse: osip_message_parse.c 823-892 *)
Definition msg_parse (sipfrag : bool) (g : msgo) : prog (bool * msgo) :=
  obtain g (fun beg =>
    answer <~ test ;;
    r <~ (if answer : bool then start_answer g else start_request g) ;;
    if negb (fst r) && negb sipfrag then _ <~ free (Some beg) ;; ret r else
    n <~ ask ;;
    r <~ loop n line_round (snd r) ;;
    bad <~ test ;;
    if negb (fst r) || bad then _ <~ free (Some beg) ;; ret (false, snd r) else
    let g := snd r in
    empty <~ test ;;
    g <~ (if empty : bool then _ <~ opt_free obj_free (g_length g) ;; ret (set_length None g) else ret g) ;;
    has_body <~ test ;;
    if has_body : bool then
      r <~ msg_body g ;; _ <~ free (Some beg) ;;
      if negb (fst r) then ret r else
      match g_length (snd r) with Some _ => ret r | None => q <~ set_clen (snd r) ;; ret (true, snd q) end
    else
      r <~ (match g_length g with Some _ => ret (true, g) | None => set_clen g end) ;; _ <~ free (Some beg) ;; ret (true, snd r)).

(** the life of a structure: made, filled, freed *)
Definition life {A} (init : prog (option A)) (parse : A -> prog (bool * A)) (fr : A -> prog unit) : prog unit :=
  o <~ init ;; match o with None => ret tt | Some x => r <~ parse x ;; fr (snd r) end.

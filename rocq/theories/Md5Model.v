(** MD5: model of src/osipparser2/osip_md5c.c.  Words and bytes are integers; [UINT4] is a 32 bit
    unsigned int (include/osipparser2/osip_md5.h).  Clearing of the context and of [x] at the end
    is not modelled. *)
From Coq Require Import ZArith Bool List.
From Verif Require Import Base.
Import ListNotations.
Open Scope Z_scope.

(** unsigned arithmetic on UINT4 *)
Definition u32 (x : Z) : Z := x mod 4294967296.
Definition add32 (x y : Z) : Z := u32 (x + y).
Definition not32 (x : Z) : Z := u32 (Z.lnot x).

(** S11 ... S44: osip_md5c.c 42-57 *)
Definition S11 := 7.
Definition S12 := 12.
Definition S13 := 17.
Definition S14 := 22.
Definition S21 := 5.
Definition S22 := 9.
Definition S23 := 14.
Definition S24 := 20.
Definition S31 := 4.
Definition S32 := 11.
Definition S33 := 16.
Definition S34 := 23.
Definition S41 := 6.
Definition S42 := 10.
Definition S43 := 15.
Definition S44 := 21.

(** F, G, H, I: osip_md5c.c 73-76 *)
Definition F_ (x y z : Z) : Z := Z.lor (Z.land x y) (Z.land (not32 x) z).
Definition G_ (x y z : Z) : Z := Z.lor (Z.land x z) (Z.land y (not32 z)).
Definition H_ (x y z : Z) : Z := Z.lxor (Z.lxor x y) z.
Definition I_ (x y z : Z) : Z := Z.lxor y (Z.lor x (not32 z)).
(** ROTATE_LEFT: osip_md5c.c 80 *)
Definition rotate_left (x n : Z) : Z := Z.lor (u32 (Z.shiftl x n)) (Z.shiftr x (32 - n)).
(** the body of FF, GG, HH and II, [f] being the value of F, G, H or I: osip_md5c.c 85-104 *)
Definition op (f a b x s ac : Z) : Z :=
  let a := add32 a (add32 (add32 f x) ac) in
  let a := rotate_left a s in
  add32 a b.

(** One line of osip_MD5Transform: the macro, its first argument (the others follow in the cyclic
    order a b c d), the index in [x], the shift and the constant *)
Inductive macro := FF | GG | HH | II.
Inductive reg := Ra | Rd | Rc | Rb.
Definition instr := (macro * reg * nat * Z * Z)%type.
Definition regs := (Z * Z * Z * Z)%type.
Definition run_macro (m : macro) (a b c d x s ac : Z) : Z :=
  match m with
  | FF => op (F_ b c d) a b x s ac
  | GG => op (G_ b c d) a b x s ac
  | HH => op (H_ b c d) a b x s ac
  | II => op (I_ b c d) a b x s ac
  end.
Definition exec (x : list Z) (st : regs) (i : instr) : regs :=
  let '(m, r, k, s, ac) := i in
  let '(a, b, c, d) := st in
  let xk := nth k x 0 in
  match r with
  | Ra => (run_macro m a b c d xk s ac, b, c, d)
  | Rd => (a, b, c, run_macro m d a b c xk s ac)
  | Rc => (a, b, run_macro m c d a b xk s ac, d)
  | Rb => (a, run_macro m b c d a xk s ac, c, d)
  end.

(** the 64 lines of osip_MD5Transform: osip_md5c.c 202-271 *)
Definition program : list instr :=
  [ (FF, Ra, 0%nat, S11, 3614090360);
    (FF, Rd, 1%nat, S12, 3905402710);
    (FF, Rc, 2%nat, S13, 606105819);
    (FF, Rb, 3%nat, S14, 3250441966);
    (FF, Ra, 4%nat, S11, 4118548399);
    (FF, Rd, 5%nat, S12, 1200080426);
    (FF, Rc, 6%nat, S13, 2821735955);
    (FF, Rb, 7%nat, S14, 4249261313);
    (FF, Ra, 8%nat, S11, 1770035416);
    (FF, Rd, 9%nat, S12, 2336552879);
    (FF, Rc, 10%nat, S13, 4294925233);
    (FF, Rb, 11%nat, S14, 2304563134);
    (FF, Ra, 12%nat, S11, 1804603682);
    (FF, Rd, 13%nat, S12, 4254626195);
    (FF, Rc, 14%nat, S13, 2792965006);
    (FF, Rb, 15%nat, S14, 1236535329);
    (GG, Ra, 1%nat, S21, 4129170786);
    (GG, Rd, 6%nat, S22, 3225465664);
    (GG, Rc, 11%nat, S23, 643717713);
    (GG, Rb, 0%nat, S24, 3921069994);
    (GG, Ra, 5%nat, S21, 3593408605);
    (GG, Rd, 10%nat, S22, 38016083);
    (GG, Rc, 15%nat, S23, 3634488961);
    (GG, Rb, 4%nat, S24, 3889429448);
    (GG, Ra, 9%nat, S21, 568446438);
    (GG, Rd, 14%nat, S22, 3275163606);
    (GG, Rc, 3%nat, S23, 4107603335);
    (GG, Rb, 8%nat, S24, 1163531501);
    (GG, Ra, 13%nat, S21, 2850285829);
    (GG, Rd, 2%nat, S22, 4243563512);
    (GG, Rc, 7%nat, S23, 1735328473);
    (GG, Rb, 12%nat, S24, 2368359562);
    (HH, Ra, 5%nat, S31, 4294588738);
    (HH, Rd, 8%nat, S32, 2272392833);
    (HH, Rc, 11%nat, S33, 1839030562);
    (HH, Rb, 14%nat, S34, 4259657740);
    (HH, Ra, 1%nat, S31, 2763975236);
    (HH, Rd, 4%nat, S32, 1272893353);
    (HH, Rc, 7%nat, S33, 4139469664);
    (HH, Rb, 10%nat, S34, 3200236656);
    (HH, Ra, 13%nat, S31, 681279174);
    (HH, Rd, 0%nat, S32, 3936430074);
    (HH, Rc, 3%nat, S33, 3572445317);
    (HH, Rb, 6%nat, S34, 76029189);
    (HH, Ra, 9%nat, S31, 3654602809);
    (HH, Rd, 12%nat, S32, 3873151461);
    (HH, Rc, 15%nat, S33, 530742520);
    (HH, Rb, 2%nat, S34, 3299628645);
    (II, Ra, 0%nat, S41, 4096336452);
    (II, Rd, 7%nat, S42, 1126891415);
    (II, Rc, 14%nat, S43, 2878612391);
    (II, Rb, 5%nat, S44, 4237533241);
    (II, Ra, 12%nat, S41, 1700485571);
    (II, Rd, 3%nat, S42, 2399980690);
    (II, Rc, 10%nat, S43, 4293915773);
    (II, Rb, 1%nat, S44, 2240044497);
    (II, Ra, 8%nat, S41, 1873313359);
    (II, Rd, 15%nat, S42, 4264355552);
    (II, Rc, 6%nat, S43, 2734768916);
    (II, Rb, 13%nat, S44, 1309151649);
    (II, Ra, 4%nat, S41, 4149444226);
    (II, Rd, 11%nat, S42, 3174756917);
    (II, Rc, 2%nat, S43, 718787259);
    (II, Rb, 9%nat, S44, 3951481745) ].

(** osip_Decode: osip_md5c.c 302-309, four bytes at a time *)
Fixpoint decode (b : list Z) : list Z :=
  match b with
  | b0 :: b1 :: b2 :: b3 :: r => Z.lor (Z.lor (Z.lor b0 (Z.shiftl b1 8)) (Z.shiftl b2 16)) (Z.shiftl b3 24) :: decode r
  | _ => []
  end.
(** osip_Encode: osip_md5c.c 286-297 *)
Definition encode (w : list Z) : list Z :=
  flat_map (fun w => [Z.land w 255; Z.land (Z.shiftr w 8) 255; Z.land (Z.shiftr w 16) 255; Z.land (Z.shiftr w 24) 255]) w.

(** osip_MD5Transform: osip_md5c.c 194-281 *)
Definition transform (st : regs) (block : list Z) : regs :=
  let '(a0, b0, c0, d0) := st in
  let '(a, b, c, d) := fold_left (exec (decode block)) program st in
  (add32 a0 a, add32 b0 b, add32 c0 c, add32 d0 d).

(** osip_MD5_CTX: include/osipparser2/osip_md5.h *)
Record md5_ctx := mkCtx { c_state : regs; c_count0 : Z; c_count1 : Z; c_buffer : list Z }.

(** osip_MD5Init: osip_md5c.c 108-119.  The buffer is not initialized: [junk]. *)
Definition md5_init (junk : list Z) : md5_ctx := mkCtx (1732584193, 4023233417, 2562383102, 271733878) 0 0 junk.

(** osip_MD5_memcpy into the 64 bytes of the buffer: osip_md5c.c 314-321 *)
Definition buf_copy (buf : list Z) (at_ : Z) (l : list Z) : res (list Z) :=
  if (at_ <? 0) || (Z.of_nat (length buf) <? at_ + Z.of_nat (length l)) then UB
  else Ok (firstn (Z.to_nat at_) buf ++ l ++ skipn (Z.to_nat at_ + length l) buf).
(** [n] bytes of the input from index [i] *)
Definition input_at (input : list Z) (i n : Z) : res (list Z) :=
  if (i <? 0) || (n <? 0) || (Z.of_nat (length input) <? i + n) then UB
  else Ok (firstn (Z.to_nat n) (skipn (Z.to_nat i) input)).

(** the loop of osip_MD5Update: osip_md5c.c 149-150, with the wrap around of the unsigned index;
    UB when it does not end within [fuel] iterations *)
Fixpoint update_loop (fuel : nat) (input : list Z) (len i : Z) (st : regs) : res (Z * regs) :=
  if u32 (i + 63) <? len then
    match fuel with
    | O => UB
    | S fuel => do blk <- input_at input i 64 ; update_loop fuel input len (u32 (i + 64)) (transform st blk)
    end
  else Ok (i, st).

(** osip_MD5Update: osip_md5c.c 125-159, on an input of [inputLen] bytes *)
Definition md5_update (c : md5_ctx) (input : list Z) : res md5_ctx :=
  let len := Z.of_nat (length input) in
  let index := Z.land (Z.shiftr (c_count0 c) 3) 63 in
  let bits := u32 (Z.shiftl len 3) in
  let count0 := add32 (c_count0 c) bits in
  let count1 := if count0 <? bits then add32 (c_count1 c) 1 else c_count1 c in
  let count1 := add32 count1 (Z.shiftr len 29) in
  let partLen := 64 - index in
  do r <- (if partLen <=? len then
             do part <- input_at input 0 partLen ;
             do buf <- buf_copy (c_buffer c) index part ;
             do r <- update_loop (length input) input len partLen (transform (c_state c) buf) ;
             Ok (buf, fst r, snd r, 0)
           else Ok (c_buffer c, 0, c_state c, index)) ;
  let '(buf, i, st, index) := (r : list Z * Z * regs * Z) in
  do rest <- input_at input i (len - i) ;
  do buf <- buf_copy buf index rest ;
  Ok (mkCtx st count0 count1 buf).

(** PADDING: osip_md5c.c 65-69 *)
Definition PADDING : list Z := 128 :: repeat 0 63.

(** osip_MD5Final: osip_md5c.c 164-190 *)
Definition md5_final (c : md5_ctx) : res (list Z) :=
  let bits := encode [c_count0 c; c_count1 c] in
  let index := Z.land (Z.shiftr (c_count0 c) 3) 63 in
  let padLen := if index <? 56 then 56 - index else 120 - index in
  do pad <- input_at PADDING 0 padLen ;
  do c <- md5_update c pad ;
  do c <- md5_update c bits ;
  let '(a, b, cc, d) := c_state c in
  Ok (encode [a; b; cc; d]).

(** a sequence of calls of osip_MD5Update *)
Fixpoint md5_updates (c : md5_ctx) (chunks : list (list Z)) : res md5_ctx :=
  match chunks with
  | [] => Ok c
  | x :: r => do c <- md5_update c x ; md5_updates c r
  end.

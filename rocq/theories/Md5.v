(** The message digest of the secure plugin (lib/secure/src/md5.c, md5.h and
    lib/secure/src/olsrd_secure.c:87-95, built without OpenSSL).

    Simplifications: clearing memory after use is left out.  [None] stands for an access
    outside an array. *)
From Verif Require Import Base.

(** the variables a, b, c and d or the four words of state, lib/secure/src/md5.h:41-45, lib/secure/src/md5.c:126-128 *)
Record quad := Quad { qa : Z; qb : Z; qc : Z; qd : Z }.
(** MD5_CTX, lib/secure/src/md5.h:41-45: state, count[0], count[1], buffer *)
Record ctx := Ctx { x_state : quad; x_c0 : Z; x_c1 : Z; x_buf : list Z }.

(** F, G, H and I, lib/secure/src/md5.c:58-61, on 32 bit words *)
Definition fF (x y z : Z) : Z := Z.lor (Z.land x y) (Z.land (u32 (Z.lnot x)) z).
(** see above, lib/secure/src/md5.c:58-61 *)
Definition fG (x y z : Z) : Z := Z.lor (Z.land x z) (Z.land y (u32 (Z.lnot z))).
(** see above, lib/secure/src/md5.c:58-61 *)
Definition fH (x y z : Z) : Z := Z.lxor (Z.lxor x y) z.
(** see above, lib/secure/src/md5.c:58-61 *)
Definition fI (x y z : Z) : Z := Z.lxor y (Z.lor x (u32 (Z.lnot z))).
(** ROTATE_LEFT, lib/secure/src/md5.c:65 *)
Definition rotl (x n : Z) : Z := Z.lor (u32 (Z.shiftl x n)) (Z.shiftr x (32 - n)).
(** FF, GG, HH and II, lib/secure/src/md5.c:70-89: the new value of the first variable *)
Definition mix (f : Z -> Z -> Z -> Z) (a b c d x s ac : Z) : Z :=
  u32 (rotl (u32 (a + u32 (u32 (f b c d + x) + ac))) s + b).

(** a line of lib/secure/src/md5.c:133-203: the macro, the variable that is changed (the
    other three follow in the order a, b, c, d, a, b, c), the index into x, s and ac *)
Inductive op := FF | GG | HH | II.
(** see above, lib/secure/src/md5.c:133-203 *)
Inductive var := Va | Vb | Vc | Vd.
(** see above, lib/secure/src/md5.c:133-203 *)
Definition line := (op * var * nat * Z * Z)%type.
(** see above, lib/secure/src/md5.c:133-203 *)
Definition fn (o : op) : Z -> Z -> Z -> Z := match o with FF => fF | GG => fG | HH => fH | II => fI end.
(** see above, lib/secure/src/md5.c:133-203 *)
Definition exec (x : list Z) (q : quad) (l : line) : quad :=
  let '(o, v, k, s, ac) := l in
  let m := mix (fn o) in
  match v with
  | Va => Quad (m (qa q) (qb q) (qc q) (qd q) (nth k x 0) s ac) (qb q) (qc q) (qd q)
  | Vd => Quad (qa q) (qb q) (qc q) (m (qd q) (qa q) (qb q) (qc q) (nth k x 0) s ac)
  | Vc => Quad (qa q) (qb q) (m (qc q) (qd q) (qa q) (qb q) (nth k x 0) s ac) (qd q)
  | Vb => Quad (qa q) (m (qb q) (qc q) (qd q) (qa q) (nth k x 0) s ac) (qc q) (qd q)
  end.

(** lib/secure/src/md5.c:133-203, with S11 to S44 of lines 33-48 *)
Definition lines : list line := [
  (FF, Va, 0%nat, 7, 0xd76aa478); (FF, Vd, 1%nat, 12, 0xe8c7b756); (FF, Vc, 2%nat, 17, 0x242070db);
  (FF, Vb, 3%nat, 22, 0xc1bdceee); (FF, Va, 4%nat, 7, 0xf57c0faf); (FF, Vd, 5%nat, 12, 0x4787c62a);
  (FF, Vc, 6%nat, 17, 0xa8304613); (FF, Vb, 7%nat, 22, 0xfd469501); (FF, Va, 8%nat, 7, 0x698098d8);
  (FF, Vd, 9%nat, 12, 0x8b44f7af); (FF, Vc, 10%nat, 17, 0xffff5bb1); (FF, Vb, 11%nat, 22, 0x895cd7be);
  (FF, Va, 12%nat, 7, 0x6b901122); (FF, Vd, 13%nat, 12, 0xfd987193); (FF, Vc, 14%nat, 17, 0xa679438e);
  (FF, Vb, 15%nat, 22, 0x49b40821);
  (GG, Va, 1%nat, 5, 0xf61e2562); (GG, Vd, 6%nat, 9, 0xc040b340); (GG, Vc, 11%nat, 14, 0x265e5a51);
  (GG, Vb, 0%nat, 20, 0xe9b6c7aa); (GG, Va, 5%nat, 5, 0xd62f105d); (GG, Vd, 10%nat, 9, 0x2441453);
  (GG, Vc, 15%nat, 14, 0xd8a1e681); (GG, Vb, 4%nat, 20, 0xe7d3fbc8); (GG, Va, 9%nat, 5, 0x21e1cde6);
  (GG, Vd, 14%nat, 9, 0xc33707d6); (GG, Vc, 3%nat, 14, 0xf4d50d87); (GG, Vb, 8%nat, 20, 0x455a14ed);
  (GG, Va, 13%nat, 5, 0xa9e3e905); (GG, Vd, 2%nat, 9, 0xfcefa3f8); (GG, Vc, 7%nat, 14, 0x676f02d9);
  (GG, Vb, 12%nat, 20, 0x8d2a4c8a);
  (HH, Va, 5%nat, 4, 0xfffa3942); (HH, Vd, 8%nat, 11, 0x8771f681); (HH, Vc, 11%nat, 16, 0x6d9d6122);
  (HH, Vb, 14%nat, 23, 0xfde5380c); (HH, Va, 1%nat, 4, 0xa4beea44); (HH, Vd, 4%nat, 11, 0x4bdecfa9);
  (HH, Vc, 7%nat, 16, 0xf6bb4b60); (HH, Vb, 10%nat, 23, 0xbebfbc70); (HH, Va, 13%nat, 4, 0x289b7ec6);
  (HH, Vd, 0%nat, 11, 0xeaa127fa); (HH, Vc, 3%nat, 16, 0xd4ef3085); (HH, Vb, 6%nat, 23, 0x4881d05);
  (HH, Va, 9%nat, 4, 0xd9d4d039); (HH, Vd, 12%nat, 11, 0xe6db99e5); (HH, Vc, 15%nat, 16, 0x1fa27cf8);
  (HH, Vb, 2%nat, 23, 0xc4ac5665);
  (II, Va, 0%nat, 6, 0xf4292244); (II, Vd, 7%nat, 10, 0x432aff97); (II, Vc, 14%nat, 15, 0xab9423a7);
  (II, Vb, 5%nat, 21, 0xfc93a039); (II, Va, 12%nat, 6, 0x655b59c3); (II, Vd, 3%nat, 10, 0x8f0ccc92);
  (II, Vc, 10%nat, 15, 0xffeff47d); (II, Vb, 1%nat, 21, 0x85845dd1); (II, Va, 8%nat, 6, 0x6fa87e4f);
  (II, Vd, 15%nat, 10, 0xfe2ce6e0); (II, Vc, 6%nat, 15, 0xa3014314); (II, Vb, 13%nat, 21, 0x4e0811a1);
  (II, Va, 4%nat, 6, 0xf7537e82); (II, Vd, 11%nat, 10, 0xbd3af235); (II, Vc, 2%nat, 15, 0x2ad7d2bb);
  (II, Vb, 9%nat, 21, 0xeb86d391)].

(** Encode, lib/secure/src/md5.c:98-109 *)
Definition encode (ws : list Z) : list Z :=
  flat_map (fun w => [Z.land w 255; Z.land (Z.shiftr w 8) 255; Z.land (Z.shiftr w 16) 255;
                      Z.land (Z.shiftr w 24) 255]) ws.
(** Decode, lib/secure/src/md5.c:114-121 *)
Fixpoint decode (bs : list Z) : list Z :=
  match bs with
  | a :: b :: c :: d :: r =>
      Z.lor (Z.lor (Z.lor a (u32 (Z.shiftl b 8))) (u32 (Z.shiftl c 16))) (u32 (Z.shiftl d 24)) :: decode r
  | _ => []
  end.
(** MD5Transform, lib/secure/src/md5.c:125-212; the block has 64 bytes *)
Definition transform (s : quad) (block : list Z) : quad :=
  let q := fold_left (exec (decode block)) lines s in
  Quad (u32 (qa s + qa q)) (u32 (qb s + qb q)) (u32 (qc s + qc q)) (u32 (qd s + qd q)).

(** MD5Init, lib/secure/src/md5.c:216-227; the buffer is what was in memory *)
Definition init (junk : list Z) : ctx :=
  Ctx (Quad 0x67452301 0xefcdab89 0x98badcfe 0x10325476) 0 0 junk.

(** [n] bytes from position [i] on; lib/secure/src/md5.c:251-262 *)
Definition rd (l : list Z) (i n : Z) : option (list Z) :=
  if (0 <=? i) && (0 <=? n) && (i + n <=? Z.of_nat (length l))
  then Some (firstn (Z.to_nat n) (skipn (Z.to_nat i) l)) else None.
(** memcpy to position [i] of the buffer; lib/secure/src/md5.c:251-262 *)
Definition wr (l : list Z) (i : Z) (d : list Z) : option (list Z) :=
  if (0 <=? i) && (i + Z.of_nat (length d) <=? Z.of_nat (length l))
  then Some (firstn (Z.to_nat i) l ++ d ++ skipn (Z.to_nat i + length d) l) else None.

(** the loop lib/secure/src/md5.c:254-255; at most one turn for 64 bytes, [fuel] *)
Fixpoint middle (fuel : nat) (s : quad) (inp : list Z) (len i : Z) : option (quad * Z) :=
  match fuel with
  | O => None
  | S n =>
      if u32 (i + 63) <? len
      then match rd inp i 64 with
           | Some b => middle n (transform s b) inp len (u32 (i + 64))
           | None => None
           end
      else Some (s, i)
  end.
(** MD5Update, lib/secure/src/md5.c:233-263 *)
Definition update (c : ctx) (inp : list Z) (len : Z) : option ctx :=
  let idx := Z.land (Z.shiftr (x_c0 c) 3) 63 in
  let bits := u32 (Z.shiftl len 3) in
  let c0 := u32 (x_c0 c + bits) in
  let c1 := if c0 <? bits then u32 (x_c1 c + 1) else x_c1 c in
  let c1 := u32 (c1 + Z.shiftr len 29) in
  let part := u32 (64 - idx) in
  let rest (s : quad) (buf : list Z) (idx i : Z) :=
    match rd inp i (u32 (len - i)) with
    | Some d => match wr buf idx d with Some buf => Some (Ctx s c0 c1 buf) | None => None end
    | None => None
    end in
  if part <=? len
  then match rd inp 0 part with
       | None => None
       | Some d =>
           match wr (x_buf c) idx d with
           | None => None
           | Some buf =>
               match middle (S (Z.to_nat len)) (transform (x_state c) buf) inp len part with
               | Some (s, i) => rest s buf 0 i
               | None => None
               end
           end
       end
  else rest (x_state c) (x_buf c) idx 0.
(** PADDING, lib/secure/src/md5.c:50-54 *)
Definition padding : list Z := 128 :: repeat 0 63.
(** MD5Final, lib/secure/src/md5.c:268-292 *)
Definition final (c : ctx) : option (list Z) :=
  let bits := encode [x_c0 c; x_c1 c] in
  let idx := Z.land (Z.shiftr (x_c0 c) 3) 63 in
  let pad := if idx <? 56 then 56 - idx else 120 - idx in
  match update c padding pad with
  | None => None
  | Some c => match update c bits 8 with
              | None => None
              | Some c => Some (encode [qa (x_state c); qb (x_state c); qc (x_state c); qd (x_state c)])
              end
  end.
(** MD5_checksum, lib/secure/src/olsrd_secure.c:87-95; data_len is a uint16_t *)
Definition checksum (junk data : list Z) (len : Z) : option (list Z) :=
  match update (init junk) data (u16 len) with Some c => final c | None => None end.
(** several calls of MD5Update, each with a whole piece of memory, as in
    lib/secure/src/olsrd_secure.c:92-94 with one *)
Fixpoint updates (c : ctx) (l : list (list Z)) : option ctx :=
  match l with
  | [] => Some c
  | d :: r => match update c d (Z.of_nat (length d)) with Some c => updates c r | None => None end
  end.

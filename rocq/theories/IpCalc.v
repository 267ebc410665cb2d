(** Model of src/ipcalc.c and the inline functions of src/ipcalc.h.
    An address is the list of its bytes in network order (4 or 16).
    Definitions only. *)
From Verif Require Import Base.

(** src/ipcalc.c:82-112 prefix_to_netmask: [len] bytes are written; returns
    the bytes and the return value (false = 0). The [len <= 0] case of line 92
    is [len = 0]. *)
Fixpoint prefix_to_netmask (len : nat) (p : Z) : list Z * bool :=
  match len with
  | O => ([], false)
  | S len' =>
      if p >? 8 then let (l, r) := prefix_to_netmask len' (p - 8) in (255 :: l, r)
      else (u8 (Z.shiftl 255 (8 - p)) :: repeat 0 len', true)
  end.

(** src/ipcalc.c:126-158: value of the last (partial) byte; [None] is the
    bogus case. *)
Definition last_byte_bits (b : Z) : option Z :=
  if b =? 0 then Some 0
  else if b =? 128 then Some 1
  else if b =? 192 then Some 2
  else if b =? 224 then Some 3
  else if b =? 240 then Some 4
  else if b =? 248 then Some 5
  else if b =? 252 then Some 6
  else if b =? 254 then Some 7
  else if b =? 255 then Some 8
  else None.

(** src/ipcalc.c:114-164 netmask_to_prefix, with [acc] = prefix so far
    (uint16_t); the result is converted to uint8_t on return. *)
Fixpoint netmask_to_prefix_loop (adr : list Z) (acc : Z) : Z :=
  match adr with
  | [] => acc
  | b :: rest =>
      if b =? 255 then netmask_to_prefix_loop rest (u16 (acc + 8))
      else match last_byte_bits b with
           | Some k => u16 (acc + k)
           | None => 255
           end
  end.
(** see above, src/ipcalc.c:114-164 *)
Definition netmask_to_prefix (adr : list Z) : Z := u8 (netmask_to_prefix_loop adr 0).

(** src/ipcalc.c:227-231 prefix_to_netmask4 (host byte order); a negative or
    too large shift is undefined: [None]. *)
Definition prefix_to_netmask4 (plen : Z) : option Z :=
  if plen =? 0 then Some 0
  else if plen >? 32 then None
  else Some (u32 (Z.shiftl 4294967295 (32 - plen))).

(** A 32-bit word from four bytes in network order (ntohl of the in-memory
    word; src/ipcalc.c:241-242 and 258-259 work on the swapped words, which is
    the same comparison because byte order conversion permutes bits). *)
Definition be32 (b0 b1 b2 b3 : Z) : Z :=
  Z.lor (Z.shiftl b0 24) (Z.lor (Z.shiftl b1 16) (Z.lor (Z.shiftl b2 8) b3)).

(** comparison of one word under a mask, src/ipcalc.c:241-242, 258-259 *)
Definition cmp_word (x y plen : Z) : option bool :=
  match prefix_to_netmask4 plen with
  | None => None
  | Some m => Some (Z.land x m =? Z.land y m)
  end.

(** src/ipcalc.c:245-259: the IPv6 loop over 32-bit words; reading past the
    address is [None]. *)
Fixpoint in_net6 (i n : list Z) (plen : Z) : option bool :=
  match i, n with
  | a0 :: a1 :: a2 :: a3 :: i', b0 :: b1 :: b2 :: b3 :: n' =>
      if plen >? 32 then
        if negb (be32 a0 a1 a2 a3 =? be32 b0 b1 b2 b3) then Some false
        else in_net6 i' n' (plen - 32)
      else cmp_word (be32 a0 a1 a2 a3) (be32 b0 b1 b2 b3) plen
  | _, _ => None
  end.

(** src/ipcalc.c:236-262 ip_in_net; [v6] is olsr_cnf->ip_version. *)
Definition ip_in_net (v6 : bool) (ipaddr net : list Z) (plen : Z) : option bool :=
  if v6 then in_net6 ipaddr net plen
  else match ipaddr, net with
       | a0 :: a1 :: a2 :: a3 :: _, b0 :: b1 :: b2 :: b3 :: _ =>
           cmp_word (be32 a0 a1 a2 a3) (be32 b0 b1 b2 b3) plen
       | _, _ => None
       end.

(** memcmp(x, y, k) == 0; src/ipcalc.h:200-218 *)
Fixpoint memeq (k : nat) (x y : list Z) : bool :=
  match k, x, y with
  | O, _, _ => true
  | S k', a :: x', b :: y' => (a =? b) && memeq k' x' y'
  | _, _, _ => false
  end.

(** src/ipcalc.c:49-68 the well known prefixes *)
Definition ipv4_internet_route : list Z * Z := ([0; 0; 0; 0], 0).
(** see above, src/ipcalc.c:49-68 *)
Definition ipv6_mappedv4_route : list Z * Z := ([0;0;0;0;0;0;0;0;0;0;255;255;0;0;0;0], 96).
(** see above, src/ipcalc.c:49-68 *)
Definition ipv6_internet_route : list Z * Z := ([32;0;0;0;0;0;0;0;0;0;0;0;0;0;0;0], 3).

(** src/ipcalc.h:197-219 ip_prefix_is_mappedv4, ..._mappedv4_inetgw,
    ..._v4_inetgw, ..._v6_inetgw *)
Definition ip_prefix_is_mappedv4 (p : list Z * Z) : bool :=
  (snd p >=? 96) && memeq (Z.to_nat (96 / 8)) (fst p) (fst ipv6_mappedv4_route).
(** see above, src/ipcalc.h:197-219 *)
Definition ip_prefix_is_mappedv4_inetgw (p : list Z * Z) : bool :=
  (snd p =? 96) && memeq (Z.to_nat (96 / 8)) (fst p) (fst ipv6_mappedv4_route).
(** see above, src/ipcalc.h:197-219 *)
Definition ip_prefix_is_v4_inetgw (p : list Z * Z) : bool :=
  (snd p =? 0) && memeq 4 (fst p) (fst ipv4_internet_route).
(** see above, src/ipcalc.h:197-219 *)
Definition ip_prefix_is_v6_inetgw (p : list Z * Z) : bool :=
  (snd p =? 3) && memeq (Z.to_nat (3 / 8)) (fst p) (fst ipv6_internet_route).

(** src/ipcalc.c:264-274 is_prefix_inetgw *)
Definition is_prefix_inetgw (v6 : bool) (p : list Z * Z) : bool :=
  if v6 then ip_prefix_is_v6_inetgw p || ip_prefix_is_mappedv4_inetgw p
  else ip_prefix_is_v4_inetgw p.

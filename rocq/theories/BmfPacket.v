(** The packets of the BMF plugin: fingerprints and checksums (lib/bmf/src/PacketHistory.c:72-171,
    lib/bmf/src/Packet.c:57-175, lib/bmf/src/NetworkInterfaces.c:1868-1945).

    A packet is the memory from its first byte to the end of the buffer it was received
    into; addresses and words are read in network byte order.  An assertion that fails ends
    the daemon ([Aborts]); an access outside the memory is [Outside].  [unsigned long] holds
    the entries of the table without loss. *)
From Verif Require Import Base.

(** a value, an assertion that fails, an access outside of memory, in
    lib/bmf/src/Packet.c:57-175 *)
Inductive outcome (A : Type) := Done (a : A) | Aborts | Outside.
Arguments Done {A} _. Arguments Aborts {A}. Arguments Outside {A}.

(** one byte of memory: read and write; lib/bmf/src/Packet.c:57-175 *)
Definition get (i : Z) (m : list Z) : outcome Z :=
  match nth_error m (Z.to_nat i) with Some x => Done x | None => Outside end.
(** lib/bmf/src/Packet.c:57-175 *)
Definition put (i x : Z) (m : list Z) : outcome (list Z) :=
  if i <? Z.of_nat (length m) then Done (firstn (Z.to_nat i) m ++ x :: skipn (S (Z.to_nat i)) m) else Outside.
(** statements one after the other, lib/bmf/src/Packet.c:57-175 *)
Definition obind {A B} (x : outcome A) (f : A -> outcome B) : outcome B :=
  match x with Done a => f a | Aborts => Aborts | Outside => Outside end.
Notation "'let*' x ':=' e 'in' f" := (obind e (fun x => f)) (at level 200, x pattern, e at level 100, f at level 200).
(** ntohs and htons of a field; lib/bmf/src/Packet.c:57-175 *)
Definition get16 (i : Z) (m : list Z) : outcome Z :=
  let* a := get i m in let* b := get (i + 1) m in Done (a * 256 + b).
(** lib/bmf/src/Packet.c:57-175 *)
Definition put16 (i x : Z) (m : list Z) : outcome (list Z) :=
  let* m := put i (x / 256 mod 256) m in put (i + 1) (x mod 256) m.

(** lib/bmf/src/PacketHistory.c:86-107 GenerateCrc32Table *)
Definition crc_step (crc : Z) : Z :=
  if Z.odd crc then Z.lxor (Z.shiftr crc 1) 0xedb88320 else Z.shiftr crc 1.
(** see above, lib/bmf/src/PacketHistory.c:86-107 *)
Fixpoint crc_steps (n : nat) (crc : Z) : Z :=
  match n with O => crc | S n => crc_steps n (crc_step crc) end.
(** see above, lib/bmf/src/PacketHistory.c:86-107 *)
Definition crc_table : list Z := map (fun i => crc_steps 8 (Z.of_nat i)) (seq 0 256).
(** lib/bmf/src/PacketHistory.c:118-128 CalcCrc32: the loop, then the last line *)
Fixpoint calc_loop (n : nat) (m : list Z) (crc : Z) : outcome Z :=
  match n with
  | O => Done crc
  | S n =>
      match m with
      | [] => Outside
      | x :: m => let* t := get (Z.lxor (Z.land crc 0xff) x) crc_table in calc_loop n m (Z.lxor (Z.shiftr crc 8) t)
      end
  end.
(** see above, lib/bmf/src/PacketHistory.c:118-128 *)
Definition calc_crc32 (m : list Z) (len : Z) : outcome Z :=
  let* crc := calc_loop (Z.to_nat len) m 0xffffffff in Done (Z.lxor crc 0xffffffff).
(** lib/bmf/src/PacketHistory.c:139-171 PacketCrc32 with lib/bmf/src/Packet.c:144-175; also
    gives the packet after it *)
Definition packet_crc32 (m : list Z) (len : Z) : outcome (Z * list Z) :=
  if negb (len >? 0) then Aborts
  else
    let len := if len >? 256 then 256 else len in
    let* ttl := get 8 m in
    let* check := get16 10 m in
    let* m := put 8 0xff m in
    let* m := put16 10 0x5a5a m in
    let* r := calc_crc32 m len in
    let* m := put 8 ttl m in
    let* m := put16 10 check m in
    Done (r, m).

(** [~] of a u_int32_t *)
Definition not32 (x : Z) : Z := 4294967295 - x.
(** lib/bmf/src/NetworkInterfaces.c:1902-1908 and 1929-1933: the new checksum, from the old
    one and the two addresses *)
Definition new_check (check orig new : Z) : Z :=
  let check := not32 (u32 (u32 (not32 check - orig / 65536) + new / 65536)) in
  let check := not32 (u32 (u32 (not32 check - orig mod 65536) + new mod 65536)) in
  let check := u32 (check + check / 65536) in
  u16 check.
(** an address of four bytes; lib/bmf/src/Packet.c:57-175 *)
Definition get32 (i : Z) (m : list Z) : outcome Z :=
  let* a := get16 i m in let* b := get16 (i + 2) m in Done (a * 65536 + b).
(** see above, lib/bmf/src/NetworkInterfaces.c:1902-1908 *)
Definition put32 (i x : Z) (m : list Z) : outcome (list Z) :=
  let* m := put16 i (x / 65536) m in put16 (i + 2) (x mod 65536) m.
(** lib/bmf/src/Address.c:113-118 IsMulticast *)
Definition is_multicast (a : Z) : bool := a / 268435456 =? 14.
(** lib/bmf/src/Packet.c:106-115 GetIpHeaderLength; 84-93 GetIpTotalLength *)
Definition ip_header_length (m : list Z) : outcome Z := let* x := get 0 m in Done (x mod 16 * 4).
(** see above, lib/bmf/src/Packet.c:106-115 *)
Definition ip_total_length (m : list Z) : outcome Z := get16 2 m.
(** lib/bmf/src/NetworkInterfaces.c:1882-1945 CheckAndUpdateLocalBroadcast *)
Definition update_broadcast (m : list Z) (broad : Z) : outcome (list Z) :=
  let* dest := get32 16 m in
  if is_multicast dest then Done m
  else
    let* m := put32 16 broad m in
    let* check := get16 10 m in
    let* m := put16 10 (new_check check dest broad) m in
    let* proto := get 9 m in
    if proto =? 17 then
      let* hl := ip_header_length m in
      let* check := get16 (hl + 6) m in
      put16 (hl + 6) (new_check check dest broad) m
    else Done m.

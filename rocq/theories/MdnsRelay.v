(** The packets of the mDNS plugin: captured into OLSR messages and unpacked from them
    (lib/mdns/src/mdns.c:89-292, 370-606, lib/mdns/src/Packet.c:97-118,
    lib/mdns/src/Address.c:77-83).

    Memory is the bytes from the first one of a packet or message to the end of the buffer it
    is in; words of the host are little-endian.  Sending on an OLSR interface and the size
    limit there, and the debug output, are left out. *)
From Verif Require Import Base BmfPacket MdnsElect.

(** lib/mdns/src/NetworkInterfaces.c:86-87, lib/mdns/src/mdns.c:84 and olsr_cnf: MDNS_TTL,
    TTL_Check, FilteredHost, IP version, main address *)
Record mconf := mkMconf { c_ttl : Z; c_check : bool; c_hosts : list (list Z); c_v6 : bool; c_main : list Z }.

(** lib/mdns/src/mdns.c:89-104 ip_checksum *)
Fixpoint check_loop (n : nat) (m : list Z) (sum : Z) : outcome Z :=
  match n with
  | O => Done sum
  | S n => match m with x :: y :: m => check_loop n m (u32 (sum + (x + 256 * y))) | _ => Outside end
  end.
(** see above, lib/mdns/src/mdns.c:89-104 *)
Definition ip_checksum (m : list Z) (len : Z) : outcome Z :=
  let words := if Z.even len then Z.shiftr len 1 else Z.shiftr len 1 + 1 in
  let* sum := check_loop (Z.to_nat words) m 0 in
  let sum := u32 (Z.shiftr sum 16 + Z.land sum 0xffff) in
  let sum := u32 (sum + Z.shiftr sum 16) in
  Done (u16 (Z.lnot sum)).

(** lib/mdns/src/mdns.c:116-195 PacketReceivedFromOLSR: the loop over the interfaces; gives
    what is sent on which capture socket, and the memory afterwards.  [len] is not used there *)
Fixpoint unpack (check : bool) (ifs : list iface) (m : list Z) (stripped : Z) : outcome (list (Z * list Z) * list Z) :=
  match ifs with
  | [] => Done ([], m)
  | i :: ifs =>
      let* b0 := get 0 m in
      let* (m, stripped) :=
        (if Z.land b0 0xf0 =? 0x40
         then let* t := get16 2 m in let* m := (if check then put 8 1 m else Done m) in Done (m, t)
         else Done (m, stripped)) in
      let* m := put16 10 0 m in
      let* sum := ip_checksum m (4 * Z.land b0 0xf) in
      let* m := put 10 (sum mod 256) m in
      let* m := put 11 (sum / 256) m in
      let* (m, stripped) :=
        (if Z.land b0 0xf0 =? 0x60
         then let* t := get16 4 m in let* m := (if check then put 7 1 m else Done m) in Done (m, 40 + t)
         else Done (m, stripped)) in
      if stripped =? 0 then Done ([], m)
      else if negb (if_active i) then Done ([], m)
      else if stripped >? Z.of_nat (length m) then Outside
      else let* (l, m') := unpack check ifs m stripped in Done ((if_capture i, firstn (Z.to_nat stripped) m) :: l, m')
  end.
(** lib/mdns/src/mdns.c:198-233 olsr_parser: gives also if the message is forwarded.  [m]: the
    memory from the message on; [sym]: it is from a symmetric neighbor *)
Definition mdns_parse (c : mconf) (sym : bool) (ifs : list iface) (m : list Z) : outcome (list (Z * list Z) * list Z * bool) :=
  let hdr := if c_v6 c then 24%nat else 12%nat in
  if Z.of_nat (length m) <? Z.of_nat hdr then Outside
  else if memsame (firstn (if c_v6 c then 16 else 4) (skipn 4 m)) (c_main c) then Done ([], m, false)
  else if negb sym then Done ([], m, false)
  else let* (l, m') := unpack (c_check c) ifs (skipn hdr m) 0 in Done (l, firstn hdr m ++ m', true).

(** lib/mdns/src/mdns.c:236-297 olsr_mdns_gen; [stack] is what was in the buffer before *)
Definition mdns_gen (c : mconf) (vtime seqno : Z) (stack packet : list Z) : outcome (list Z) :=
  let len := Z.of_nat (length packet) in
  let aligned := if len mod 4 =? 0 then len else len - len mod 4 + 4 in
  let ttl := if c_ttl c =? 0 then 255 else u8 (c_ttl c) in
  let hdr := if c_v6 c then 24 else 12 in
  let size := aligned + (if c_v6 c then 12 + 96 else 12) in
  if (size >? Z.of_nat (length stack)) || (hdr + aligned >? Z.of_nat (length stack)) then Outside
  else
    let buffer :=
      [132; vtime; u16 size / 256; u16 size mod 256] ++ c_main c ++ [ttl; 0; seqno / 256; seqno mod 256] ++
      packet ++ repeat 0 (Z.to_nat (aligned - len)) ++ skipn (Z.to_nat (hdr + aligned)) stack in
    Done (firstn (Z.to_nat size) buffer).

(** lib/mdns/src/mdns.c:390-422 isInFilteredList: of the bytes of a union of 16 *)
Definition in_filtered (c : mconf) (src : list Z) : bool :=
  existsb (fun h => memsame (firstn (if c_v6 c then 16 else 4) h) (firstn (if c_v6 c then 16 else 4) src)) (c_hosts c).
(** lib/mdns/src/mdns.c:444-538 BmfPacketCaptured: is it passed on?  [junk] is what is in the
    variable [src] *)
Definition mdns_wanted (c : mconf) (junk m : list Z) : outcome bool :=
  let* b0 := get 0 m in
  if Z.land b0 0xf0 =? 0x40 then
    let* d := get 16 m in
    if negb (Z.land d 0xf0 =? 0xe0) then Done false
    else
      let* p := get 9 m in
      if negb (p =? 17) then Done false
      else
        let* port := get16 (4 * Z.land b0 0xf + 2) m in
        if negb (port =? 5353) then Done false
        else
          let* ttl := get 8 m in
          if c_check c && (ttl <=? 1) then Done false
          else Done (negb (in_filtered c (firstn 4 (skipn 12 m) ++ skipn 4 junk)))
  else if Z.land b0 0xf0 =? 0x60 then
    let* d := get 24 m in
    if negb (d =? 0xff) then Done false
    else
      let* p := get 6 m in
      if negb (p =? 17) then Done false
      else
        let* port := get16 42 m in
        if negb (port =? 5353) then Done false
        else
          let* hops := get 7 m in
          if c_check c && (hops <=? 1) then Done false
          else Done (negb (in_filtered c junk))
  else Done false.
(** lib/mdns/src/mdns.c:550-606 DoMDNS; [old] is what was in the buffer of 2048 bytes before;
    [taken]: the frame is outgoing, multicast or broadcast.  Gives the message, if any *)
Definition do_mdns (c : mconf) (ifs : list iface) (fd vtime seqno : Z) (taken : bool) (old junk stack data : list Z) : outcome (option (list Z)) :=
  let data := firstn 2048 data in
  if Z.of_nat (length data) >? 2040 then Outside
  else if Z.of_nat (length data) <? 20 then Done None
  else if existsb (fun i => (fd =? if_capture i) && negb (if_active i)) ifs then Done None
  else if negb taken then Done None
  else
    let m := data ++ skipn (8 + length data) old in
    let* w := mdns_wanted c junk m in
    if w then let* msg := mdns_gen c vtime seqno stack data in Done (Some msg) else Done None.

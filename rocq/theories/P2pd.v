(** Model of the P2PD plugin, which takes UDP packets from the LAN into the OLSR network and
    back (lib/p2pd/src/p2pd.c, Packet.c, PacketHistory.c, dllist.c).

    A packet is the memory from its first byte to the end of the buffer it is in; [Outside]
    is a read or a write outside of that buffer, [Aborts] an assertion that fails.  The
    lists of messages (dllist.c) and of fingerprints are lists; the latter is without its
    hash table of 32768 lists, in each of which fingerprints are looked for in the same
    way.  There is memory for calloc.  if_nametoindex, the socket and the names of the
    interfaces are left out.  Definitions only. *)
From Verif Require Import Base Bytes Parser Mantissa SchedTime BmfPacket BmfHistory NetBuf.

(** lib/p2pd/src/p2pd.h:84-89 struct UdpDestPort; the address as bytes *)
Record dest := { d_v6 : bool; d_addr : list Z; d_port : Z }.
(** the configuration: olsr_cnf and lib/p2pd/src/p2pd.c:91-97; [c_debug] is a build without
    NDEBUG, Makefile.inc:328-335 *)
Record cfg := { c_v6 : bool; c_main : list Z; c_ttl : Z; c_hash : bool; c_dec : bool; c_dests : list dest; c_debug : bool; c_timeout : Z }.
(** [n] bytes of memory, as read by memcpy or sendto, lib/p2pd/src/p2pd.c:264-269, 494, 506 *)
Definition gets (i n : Z) (m : list Z) : outcome (list Z) :=
  if i + n >? Z.of_nat (length m) then Outside else Done (firstn (Z.to_nat n) (skipn (Z.to_nat i) m)).
(** lib/p2pd/src/p2pd.c:597-618 InUdpDestPortList *)
Definition in_list (c : cfg) (v6 : bool) (a : list Z) (p : Z) : bool :=
  existsb (fun d => Bool.eqb (d_v6 d) v6 && bytes_eqb (d_addr d) a && (d_port d =? p)) (c_dests c).

(** ** The filter with fingerprints *)
(** lib/p2pd/src/Packet.h:74 ENCAP_HDR_LEN *)
Definition ENCAP : nat := 8.
(** lib/p2pd/src/PacketHistory.c:139-171 PacketCrc32 of the packet that
    lib/p2pd/src/p2pd.c:1185-1189 takes, which starts at GetIpPacket of what it was given;
    without assertions the length may be 0.  Also gives the memory after it *)
Definition fingerprint (c : cfg) (m : list Z) : outcome (Z * list Z) :=
  let p := skipn ENCAP m in
  let* len := get16 2 p in
  let* (crc, p') := if len =? 0 then if c_debug c then Aborts else let* _ := get 11 p in Done (0, p) else packet_crc32 p len in
  Done (crc, firstn ENCAP m ++ p').
(** lib/p2pd/src/p2pd.c:1169-1202 check_and_mark_recent_packet with
    lib/p2pd/src/PacketHistory.c:217-298; the entries with their time-outs *)
Definition check_recent (c : cfg) (now : Z) (h : list (Z * Z)) (m : list Z) : outcome (bool * list (Z * Z) * list Z) :=
  if negb (c_hash c) then Done (false, h, m)
  else
    let h := filter (fun e => negb (isTimedOut now (snd e))) h in
    let* (crc, m) := fingerprint c m in
    match refresh now crc h with
    | Some h => Done (true, h, m)
    | None => Done (false, (crc, getTimestamp now 3000) :: h, m)
    end.

(** ** From the LAN *)
(** lib/p2pd/src/p2pd.c:645-649 step 1: the sum of [n] words *)
Fixpoint sum_words (n : nat) (i : Z) (m : list Z) (sum : Z) : outcome Z :=
  match n with O => Done sum | S n => let* w := get16 i m in sum_words n (i + 2) m (u32 (sum + w)) end.
(** lib/p2pd/src/p2pd.c:632-658 recomputeIPv4HeaderChecksum *)
Definition recompute (m : list Z) : outcome (list Z) :=
  let* m := put16 10 0 m in
  let* b := get 0 m in
  let* sum := sum_words (Z.to_nat (b mod 16 * 2)) 0 m 0 in
  let sum := sum / 65536 + sum mod 65536 in
  put16 10 (not32 sum mod 65536) m.
(** lib/p2pd/src/p2pd.c:776-790: the time to live at [i]; None is a packet that goes no
    further *)
Definition decrement (c : cfg) (i : Z) (v4 : bool) (m : list Z) : outcome (option (list Z)) :=
  if negb (c_dec c) then Done (Some m)
  else
    let* t := get i m in
    if t =? 0 then Done None
    else let* m := put i (t - 1) m in
         if t - 1 =? 0 then Done None
         else if v4 then let* m := recompute m in Done (Some m) else Done (Some m).
(** lib/p2pd/src/p2pd.c:672-798 P2pdPacketCaptured for [n] bytes: the bytes for
    olsr_p2pd_gen, if any *)
Definition captured (c : cfg) (now : Z) (h : list (Z * Z)) (m : list Z) (n : Z) : outcome (list (Z * Z) * option (list Z)) :=
  let rest v6 i p dst m h :=
    let* port := get16 (p + 2) m in
    if negb (in_list c v6 dst port) then Done (h, None)
    else let* r := decrement c i (negb v6) m in
         match r with None => Done (h, None) | Some m => let* b := gets 0 n m in Done (h, Some b) end in
  let* b := get 0 m in
  if b / 16 =? 4 then
    let* dst := gets 16 4 m in
    let* proto := get 9 m in
    if negb (proto =? 17) then Done (h, None)
    else
      let* off := get16 6 m in
      if negb (off mod 8192 =? 0) then Done (h, None)
      else
        let* (dup, h, m) := check_recent c now h m in
        if dup : bool then Done (h, None)
        else let* hl := ip_header_length m in rest false 8 hl dst m h
  else if b / 16 =? 6 then
    let* dst := gets 24 16 m in
    if negb (nth 0 dst 0 =? 255) then Done (h, None)
    else
      let* nxt := get 6 m in
      if negb (nxt =? 17) then Done (h, None)
      else
        let* (dup, h, m) := check_recent c now h m in
        if dup : bool then Done (h, None)
        else rest true 7 40 dst m h
  else Done (h, None).
(** lib/p2pd/src/p2pd.c:478-482 the size with padding *)
Definition aligned (n : Z) : Z := if n mod 4 =? 0 then n else n - n mod 4 + 4.
(** src/olsr_protocol.h struct olsrmsg and olsrmsg6: the size of the fields before the
    message *)
Definition hdr (v6 : bool) : Z := if v6 then 24 else 12.
(** the number added to the size, lib/p2pd/src/p2pd.c:492-495 and 504-507 *)
Definition added (v6 : bool) : Z := if v6 then 12 + 96 else 12.
(** lib/p2pd/src/p2pd.c:469-508 olsr_p2pd_gen up to the loop: the message, from a buffer
    with [stack] in it; [seq] is get_msg_seqno() *)
Definition gen (c : cfg) (seq : Z) (stack pkt : list Z) : outcome (list Z) :=
  let n := Z.of_nat (length pkt) in
  let a := aligned n in
  let v6 := c_v6 c in
  match reltime_to_me 180000 with
  | None => Outside
  | Some vt =>
      let head := [132; vt] ++ net16 (a + added v6) ++ c_main c ++ [u8 (if c_ttl c =? 0 then 255 else c_ttl c); 0] ++ net16 seq in
      if hdr v6 + a >? Z.of_nat (length stack) then Outside
      else gets 0 (a + added v6) (head ++ pkt ++ repeat 0 (Z.to_nat (a - n)) ++ skipn (Z.to_nat (hdr v6 + a)) stack)
  end.
(** lib/p2pd/src/p2pd.c:511-521 for one interface; sendto succeeds.  The buffer after it, and
    the packet that was sent to make room *)
Definition emit (ptfs : list ptf) (b : nb) (msg : list Z) : option (nb * option (list Z)) :=
  match net_outbuffer_push b msg with
  | None => None
  | Some (b', r) =>
      if r =? blen msg then Some (b', None)
      else match net_output ptfs true b' with
           | None => None
           | Some (b2, _, pkt) => match net_outbuffer_push b2 msg with None => None | Some (b3, _) => Some (b3, pkt) end
           end
  end.
(** lib/p2pd/src/NetworkInterfaces.h:62 P2PD_BUFFER_SIZE *)
Definition RXBUF : Z := 2048.
(** PACKET_OUTGOING, PACKET_MULTICAST and PACKET_BROADCAST, lib/p2pd/src/p2pd.c:852-854 *)
Definition group (ty : Z) : bool := (ty =? 4) || (ty =? 2) || (ty =? 1).
(** lib/p2pd/src/p2pd.c:811-865 DoP2pd: a frame of type [ty] comes in; [rx] is what is in
    the buffer on the stack *)
Definition do_p2pd (c : cfg) (now : Z) (h : list (Z * Z)) (rx frame : list Z) (ty : Z) : outcome (list (Z * Z) * option (list Z)) :=
  let f := firstn (Z.to_nat RXBUF) frame in
  let n := Z.of_nat (length f) in
  if Z.of_nat ENCAP + n >? RXBUF then Outside
  else if n <? 20 then Done (h, None)
  else if group ty then captured c now h (f ++ skipn (ENCAP + length f) rx) n
  else Done (h, None).

(** ** To the LAN *)
(** a frame: protocol (ETH_P_IP or ETH_P_IPV6), hardware address, bytes;
    lib/p2pd/src/p2pd.c:251-281 *)
Record frame := { f_proto : Z; f_mac : list Z; f_bytes : list Z }.
(** lib/p2pd/src/p2pd.c:141-152: protocol and length, which stay as they were for what is
    neither IPv4 nor IPv6 *)
Definition kind (m : list Z) (len : Z) : outcome (Z * Z) :=
  let* b := get 0 m in
  if b / 16 =? 4 then let* l := get16 2 m in Done (2048, l)
  else if b / 16 =? 6 then let* l := get16 4 m in Done (34525, 40 + l)
  else Done (0, len).
(** lib/p2pd/src/p2pd.c:167-200; IsMulticastv6 of lib/p2pd/src/Packet.c:144-150 is 0 *)
Definition mac (c : cfg) (m : list Z) : outcome (list Z) :=
  if negb (c_v6 c) then
    let* a := get32 16 m in
    Done (if is_multicast a then [1; 0; 94; a / 65536 mod 128; a / 256 mod 256; a mod 256] else repeat 255 6)
  else Done (repeat 0 6).
(** lib/p2pd/src/p2pd.c:202-249: whether address and port are in the list, or what was
    known before *)
Definition listed (c : cfg) (m : list Z) (before : bool) : outcome bool :=
  if negb (c_v6 c) then
    let* proto := get 9 m in
    if negb (proto =? 17) then Done before
    else
      let* off := get16 6 m in
      if negb (off mod 8192 =? 0) then Done before
      else let* hl := ip_header_length m in
           let* dst := gets 16 4 m in
           let* port := get16 (hl + 2) m in
           Done (in_list c false dst port)
  else
    let* nxt := get 6 m in
    if negb (nxt =? 17) then Done before
    else let* dst := gets 24 16 m in let* port := get16 42 m in Done (in_list c true dst port).
(** lib/p2pd/src/p2pd.c:133-282 the loop over the interfaces, each with whether it is
    outside of OLSR (line 135); what is sent on each *)
Fixpoint to_lan (c : cfg) (m : list Z) (len : Z) (known : bool) (ifs : list bool) : outcome (list (option frame)) :=
  match ifs with
  | [] => Done []
  | lan :: ifs =>
      if negb lan then let* r := to_lan c m len known ifs in Done (None :: r)
      else
        let* (proto, len) := kind m len in
        if len =? 0 then Done []
        else
          let* mc := mac c m in
          let* known := listed c m known in
          if negb known then let* r := to_lan c m len known ifs in Done (None :: r)
          else let* b := gets 0 len m in
               let* r := to_lan c m len known ifs in
               Done (Some {| f_proto := proto; f_mac := mc; f_bytes := b |} :: r)
  end.
(** lib/p2pd/src/p2pd.c:113-283 PacketReceivedFromOLSR; its argument len is used for nothing *)
Definition packet_from_olsr (c : cfg) (now : Z) (h : list (Z * Z)) (m : list Z) (ifs : list bool) : outcome (list (Z * Z) * list (option frame)) :=
  let* (dup, h, m) := check_recent c now h m in
  if dup : bool then Done (h, [])
  else let* r := to_lan c m 0 false ifs in Done (h, r).

(** lib/p2pd/src/p2pd.h:76-82 struct DupFilterEntry: originator, type, sequence number as
    bytes; and the time in seconds *)
Definition ident := (list Z * Z * list Z)%type.
(** equality as in lib/p2pd/src/p2pd.c:332-346 *)
Definition ident_eqb (a b : ident) : bool :=
  bytes_eqb (fst (fst a)) (fst (fst b)) && (snd (fst a) =? snd (fst b)) && bytes_eqb (snd a) (snd b).
(** lib/p2pd/src/p2pd.c:302-350 p2pd_message_seen with lib/p2pd/src/dllist.c:85-128 *)
Definition message_seen (c : cfg) (now : Z) (l : list (ident * Z)) (k : ident) : bool * list (ident * Z) :=
  let l := filter (fun e => negb (snd e + c_timeout c <? now)) l in
  (existsb (fun e => ident_eqb (fst e) k) l, l).
(** lib/p2pd/src/p2pd.c:400-410 p2pd_is_duplicate_message with 362-393 and
    lib/p2pd/src/dllist.c:57-72 *)
Definition is_duplicate (c : cfg) (now : Z) (l : list (ident * Z)) (k : ident) : bool * list (ident * Z) :=
  let '(b, l) := message_seen c now l k in
  if b then (true, l) else (false, l ++ [(k, now)]).
(** the identity of a message, lib/p2pd/src/p2pd.c:377-388 *)
Definition ident_of (v6 : bool) (m : list Z) : outcome ident :=
  let n := if v6 then 16 else 4 in
  let* o := gets 4 n m in
  let* t := get 0 m in
  let* s := gets (6 + n) 2 m in
  Done (o, t, s).
(** what the plugin remembers: messages and fingerprints; lib/p2pd/src/p2pd.c:99-101 and
    lib/p2pd/src/PacketHistory.c *)
Definition state := (list (ident * Z) * list (Z * Z))%type.
(** lib/p2pd/src/p2pd.c:424-457 olsr_parser for the message in [m], at [secs] of time() and
    [now] of the scheduler: the state after it, whether it is forwarded, what is sent on
    the interfaces *)
Definition olsr_parser (c : cfg) (secs now : Z) (st : state) (m : list Z) (ifs : list bool) : outcome (state * bool * list (option frame)) :=
  let* k := ident_of (c_v6 c) m in
  if bytes_eqb (fst (fst k)) (c_main c) then Done (st, false, [])
  else
    let '(dup, l) := is_duplicate c secs (fst st) k in
    if dup then Done ((l, snd st), true, [])
    else let* (h, r) := packet_from_olsr c now (snd st) (skipn (Z.to_nat (hdr (c_v6 c))) m) ifs in
         Done ((l, h), true, r).
(** the answers of p2pd_is_duplicate_message for messages that come at the given times,
    lib/p2pd/src/p2pd.c:447 *)
Fixpoint duplicates (c : cfg) (l : list (ident * Z)) (ms : list (ident * Z)) : list bool :=
  match ms with
  | [] => []
  | (k, t) :: r => let '(b, l') := is_duplicate c t l k in b :: duplicates c l' r
  end.

(** What the BMF plugin does with a packet (lib/bmf/src/Bmf.c:139-1155,
    lib/bmf/src/NetworkInterfaces.c:453-982, lib/bmf/src/Address.c:112-171,
    lib/bmf/src/Packet.c:72-103 and 207-244).

    The link set, the MID table, the MPR selectors and the topology are read only, as a
    record of answers.  A socket is ready and takes the whole packet, or not, as
    [e_ready] says for the n-th packet on an interface.  The counters are left out.
    [#ifdef USING_THALES_LINK_COST_ROUTING] is off.  The history is that of BmfHistory,
    the packets those of BmfPacket; the buffer on the stack has 2048 bytes, of which
    those that were not received are whatever was there.  The handlers are called with
    the data of one frame or datagram; a longer one is cut by recvfrom. *)
From Verif Require Import Base BmfPacket BmfHistory.

(** an entry of the link set (src/link_set.h:60-120) as far as BMF reads it *)
Record link := mkLink { l_local : Z; l_nbr : Z; l_cost : Z }.
(** lib/bmf/src/NetworkInterfaces.h:69-119 struct TBmfInterface; [i_id] is the pointer *)
Record intf := mkIntf { i_id : Z; i_olsr : bool; i_addr : Z; i_broad : Z }.
(** what the functions of the daemon answer, and the configuration (lib/bmf/src/Bmf.c:89-91,
    lib/bmf/src/Address.c:71, lib/bmf/src/NetworkInterfaces.c:97-135) *)
Record env := mkEnv {
  e_links : list link;              (* link_entry_head *)
  e_main : Z -> Z;                  (* lib/bmf/src/Bmf.c:139-149 MainAddressOf *)
  e_best : Z -> option nat;         (* get_best_link_to_neighbor: an index into the links *)
  e_mpr : Z -> bool;                (* olsr_lookup_mprs_set(.) != NULL *)
  e_edge : Z -> Z -> option Z;      (* cost of the edge from one main address to another *)
  e_own : Z -> bool;                (* if_ifwithaddr(.) != NULL *)
  e_intfs : list intf;              (* BmfInterfaces *)
  e_ready : Z -> nat -> bool;
  e_lq : Z;                         (* olsr_cnf->lq_level *)
  e_port : Z;                       (* olsr_cnf->olsrport *)
  e_fan : Z;                        (* FanOutLimit *)
  e_again : Z;                      (* BroadcastRetransmitCount *)
  e_promisc : bool;                 (* BmfMechanism == BM_UNICAST_PROMISCUOUS *)
  e_local : bool;                   (* EnableLocalBroadcast != 0 *)
  e_tun : option Z                  (* EtherTunTapFd >= 0, then EtherTunTapIpBroadcast *)
}.
(** what is sent (lib/bmf/src/Bmf.c:213, 363, 741): a raw packet on the capturing socket of an interface, an encapsulated one to an address
    on the encapsulating socket, a packet into the local stack *)
Inductive action := Raw (i : Z) (b : list Z) | Encap (i : Z) (to : Z) (b : list Z) | Local (b : list Z).

(** src/lq_plugin.h:56 *)
Definition BROKEN : Z := 4194304.

(** lib/bmf/src/NetworkInterfaces.c:453-475 the variables of FindNeighbors; the links are
    indices *)
Record found := mkFound { f_best : option nat; f_etx : Z; f_links : list (option nat); f_n : Z }.
(** lib/bmf/src/NetworkInterfaces.c:467-474 *)
Definition found0 : found := mkFound None BROKEN (repeat None 10) 0.
(** lib/bmf/src/NetworkInterfaces.c:498-534 (and 797-832): an address that was passed is that
    of the neighbor *)
Definition same_node (e : env) (nb : Z) (a : option Z) : bool :=
  match a with Some a => e_main e nb =? e_main e a | None => false end.
(** lib/bmf/src/NetworkInterfaces.c:950-953: one more element of the array *)
Definition put_link (e : env) (k : nat) (f : found) : outcome (list (option nat)) :=
  if f_n f <? e_fan e then
    if f_n f <? 10 then Done (firstn (Z.to_nat (f_n f)) (f_links f) ++ Some k :: skipn (S (Z.to_nat (f_n f))) (f_links f)) else Outside
  else Done (f_links f).
(** lib/bmf/src/NetworkInterfaces.c:758-769 previousLinkEtx *)
Definition previous (e : env) (by_ : option Z) : outcome Z :=
  match by_ with
  | None => Done BROKEN
  | Some a =>
      match e_best e a with
      | None => Done BROKEN
      | Some k => match nth_error (e_links e) k with Some l => Done (l_cost l) | None => Outside end
      end
  end.
(** lib/bmf/src/NetworkInterfaces.c:481-556 (lq_level 0) and 771-956: one link *)
Definition consider (e : env) (i : intf) (src by_ to : option Z) (prev : Z) (k : nat) (l : link) (f : found) : outcome found :=
  if negb (i_addr i =? l_local l) then Done f
  else if same_node e (l_nbr l) src then Done f
  else if same_node e (l_nbr l) by_ then Done f
  else if same_node e (l_nbr l) to then Done f
  else if e_lq e =? 0 then
    let* ls := put_link e k f in
    Done (mkFound (match f_best f with None => Some k | b => b end) (f_etx f) ls (f_n f + 1))
  else if l_cost l >=? BROKEN then Done f
  else if negb (match e_best e (l_nbr l) with Some b => Nat.eqb b k | None => false end) then Done f
  else if match by_ with
          | None => false
          | Some a => match e_edge e (e_main e a) (e_main e (l_nbr l)) with
                      | None => false
                      | Some c => u32 (prev + l_cost l) >? c
                      end
          end then Done f
  else
    let* ls := put_link e k f in
    Done (if l_cost l <? f_etx f then mkFound (Some k) (l_cost l) ls (f_n f + 1) else mkFound (f_best f) (f_etx f) ls (f_n f + 1)).
(** lib/bmf/src/NetworkInterfaces.c:453-982 FindNeighbors: the loop, and the function.  At
    debug level 9 the last lines read the address of the best neighbor. *)
Fixpoint find_loop (e : env) (i : intf) (src by_ to : option Z) (prev : Z) (k : nat) (ls : list link) (f : found) : outcome found :=
  match ls with
  | [] => Done f
  | l :: ls => let* f := consider e i src by_ to prev k l f in find_loop e i src by_ to prev (S k) ls f
  end.
(** see above, lib/bmf/src/NetworkInterfaces.c:453-982 *)
Definition find_neighbors (e : env) (i : intf) (src by_ to : option Z) : outcome found :=
  let* prev := if e_lq e =? 0 then Done BROKEN else previous e by_ in
  find_loop e i src by_ to prev 0 (e_links e) found0.

(** lib/bmf/src/Packet.c:241-244 GetEncapsulationUdpDataLength: 16 bits *)
Definition udp_data_length (pkt : list Z) : outcome Z := let* t := ip_total_length pkt in Done (u16 (t + 8)).
(** lib/bmf/src/Bmf.c:213, 363 and 741: the bytes that sendto and write take *)
Definition take (n : Z) (m : list Z) : outcome (list Z) :=
  if n <=? Z.of_nat (length m) then Done (firstn (Z.to_nat n) m) else Outside.
(** lib/bmf/src/Bmf.c:331-384: the links and the loop over the packets to send *)
Definition target (e : env) (links : list (option nat)) (k : nat) : outcome Z :=
  match nth_error links k with
  | Some (Some j) => match nth_error (e_links e) j with Some l => Done (l_nbr l) | None => Outside end
  | _ => Outside
  end.
(** see above, lib/bmf/src/Bmf.c:331-384 *)
Fixpoint send_loop (e : env) (i : intf) (unicast : option (list (option nat))) (len : Z) (data : list Z) (k n : nat) : outcome (list action) :=
  match n with
  | O => Done []
  | S n =>
      let* to := match unicast with Some links => target e links k | None => Done (i_broad i) end in
      if e_ready e (i_id i) k then
        let* b := take len data in
        let* r := send_loop e i unicast len data (S k) n in
        Done (Encap (i_id i) to b :: r)
      else Done []
  end.
(** lib/bmf/src/Bmf.c:250-385 EncapsulateAndForwardPacket; [hdr] and [pkt] are the data *)
Definition encap_forward (e : env) (i : intf) (hdr pkt : list Z) (src by_ to : option Z) : outcome (list action) :=
  let* len := udp_data_length pkt in
  let* f := find_neighbors e i src by_ to in
  if f_n f <=? 0 then Done []
  else if e_promisc e then send_loop e i (Some (f_best f :: tl (f_links f))) len (hdr ++ pkt) 0 1
  else if f_n f <=? e_fan e then send_loop e i (Some (f_links f)) len (hdr ++ pkt) 0 (Z.to_nat (f_n f))
  else send_loop e i None len (hdr ++ pkt) 0 (Z.to_nat (e_again e)).
(** lib/bmf/src/Bmf.c:163-232 ForwardPacket; also gives the packet after it *)
Definition forward (e : env) (i : intf) (pkt : list Z) (len : Z) : outcome (list action * list Z) :=
  let* pkt := update_broadcast pkt (i_broad i) in
  if e_ready e (i_id i) 0 then let* b := take len pkt in Done ([Raw (i_id i) b], pkt) else Done ([], pkt).

(** lib/bmf/src/Packet.c:72-84 IsIpFragment *)
Definition is_fragment (pkt : list Z) : outcome bool := let* o := get16 6 pkt in Done (negb (o mod 8192 =? 0)).
(** lib/bmf/src/Address.c:127-171 IsOlsrOrBmfPacket *)
Definition is_olsr_or_bmf (e : env) (pkt : list Z) : outcome bool :=
  let* p := get 9 pkt in
  if negb (p =? 17) then Done false
  else
    let* hl := ip_header_length pkt in
    let* t := ip_total_length pkt in
    if t <? hl + 8 then Done false
    else let* d := get16 (hl + 2) pkt in Done ((d =? e_port e) || (d =? 50698) || (d =? 51698)).
(** lib/bmf/src/Bmf.c:491-497: the encapsulation header *)
Definition header (crc : Z) : list Z := [1; 6; 0; 0; crc / 16777216 mod 256; crc / 65536 mod 256; crc / 256 mod 256; crc mod 256].
(** lib/bmf/src/Bmf.c:510, 760 and 882: a walk over the interfaces; the packet can change on
    the way *)
Fixpoint walk (step : intf -> list Z -> outcome (list action * list Z)) (is : list intf) (pkt : list Z) : outcome (list action) :=
  match is with
  | [] => Done []
  | i :: is => let* (a, pkt) := step i pkt in let* r := walk step is pkt in Done (a ++ r)
  end.
(** lib/bmf/src/Bmf.c:250-385 does not change the packet *)
Definition keep (pkt : list Z) (a : outcome (list action)) : outcome (list action * list Z) := let* a := a in Done (a, pkt).

(** lib/bmf/src/Bmf.c:510-623: what to do on one interface *)
Definition captured_on (e : env) (from : intf) (outgoing neighbor mpr : bool) (hdr : list Z) (len : Z) (i : intf) (pkt : list Z) : outcome (list action * list Z) :=
  if i_olsr from && i_olsr i then
    if neighbor && negb mpr then Done ([], pkt)
    else if outgoing && (i_id from =? i_id i) then Done ([], pkt)
    else keep pkt (encap_forward e i hdr pkt None None None)
  else if i_olsr from && negb (i_olsr i) then forward e i pkt len
  else if negb (i_olsr from) && i_olsr i then keep pkt (encap_forward e i hdr pkt None None None)
  else if i_id from =? i_id i then Done ([], pkt)
  else forward e i pkt len.
(** lib/bmf/src/Bmf.c:401-624 BmfPacketCaptured *)
Definition captured (e : env) (now : Z) (from : intf) (outgoing : bool) (pkt : list Z) (h : history) : outcome (list action * history) :=
  let* dst := get32 16 pkt in
  if negb (is_multicast dst || (e_local e && (dst =? i_broad from))) then Done ([], h)
  else
    let* fr := is_fragment pkt in
    if fr then Done ([], h)
    else
      let* ob := is_olsr_or_bmf e pkt in
      if ob then Done ([], h)
      else
        let* len := ip_total_length pkt in
        let* src := get32 12 pkt in
        let orig := e_main e src in
        let* (crc, pkt) := packet_crc32 pkt len in
        let (dup, h) := check_and_mark now crc h in
        if dup then Done ([], h)
        else
          let neighbor := i_olsr from && match e_best e orig with Some _ => true | None => false end in
          let* r := walk (captured_on e from outgoing neighbor (e_mpr e orig) (header crc) len) (e_intfs e) pkt in
          Done (r, h).

(** lib/bmf/src/Bmf.c:760-803: what to do on one interface *)
Definition received_on (e : env) (mpr : bool) (hdr : list Z) (len src by_ : Z) (to : option Z) (i : intf) (pkt : list Z) : outcome (list action * list Z) :=
  if negb (i_olsr i) then forward e i pkt len
  else if mpr then keep pkt (encap_forward e i hdr pkt (Some src) (Some by_) to)
  else Done ([], pkt).
(** lib/bmf/src/Bmf.c:722-754: the local delivery, and the packet after it *)
Definition deliver (e : env) (pkt : list Z) (len : Z) : outcome (list action * list Z) :=
  match e_tun e with
  | None => Done ([], pkt)
  | Some broad => let* pkt := update_broadcast pkt broad in let* b := take len pkt in Done ([Local b], pkt)
  end.
(** lib/bmf/src/Bmf.c:642-804 BmfEncapsulationPacketReceived; ntohs(reserved != 0) is
    true exactly if reserved is not 0 *)
Definition received (e : env) (now : Z) (from : intf) (by_ : Z) (to : option Z) (hdr pkt : list Z) (h : history) : outcome (list action * history) :=
  if e_own e by_ then Done ([], h)
  else if negb (i_olsr from) then Done ([], h)
  else
    let* len := ip_total_length pkt in
    let* src := get32 12 pkt in
    let* dst := get32 16 pkt in
    let* ty := get 0 hdr in
    let* ln := get 1 hdr in
    let* rs := get16 2 hdr in
    if negb (ty =? 1) || negb (ln =? 6) || negb (rs =? 0) then Done ([], h)
    else
      let* crc := get32 4 hdr in
      let (dup, h) := check_and_mark now crc h in
      if dup then Done ([], h)
      else
        let* (a, pkt) := deliver e pkt len in
        let* r := walk (received_on e (e_mpr e (e_main e by_)) hdr len src by_ to) (e_intfs e) pkt in
        Done (a ++ r, h).

(** lib/bmf/src/Bmf.c:882-898: what to do on one interface *)
Definition tun_on (e : env) (hdr : list Z) (len : Z) (i : intf) (pkt : list Z) : outcome (list action * list Z) :=
  if i_olsr i then keep pkt (encap_forward e i hdr pkt None None None) else forward e i pkt len.
(** lib/bmf/src/Bmf.c:817-899 BmfTunPacketCaptured; [broad] is EtherTunTapIpBroadcast *)
Definition tun_captured (e : env) (now broad : Z) (pkt : list Z) (h : history) : outcome (list action * history) :=
  let* len := ip_total_length pkt in
  let* dst := get32 16 pkt in
  if negb (is_multicast dst || (e_local e && (dst =? broad))) then Done ([], h)
  else
    let* (crc, pkt) := packet_crc32 pkt len in
    let (dup, h) := check_and_mark now crc h in
    if dup then Done ([], h)
    else let* r := walk (tun_on e (header crc) len) (e_intfs e) pkt in Done (r, h).

(** linux/if_packet.h: the kinds of frames *)
Inductive kind := KHost | KBroadcast | KMulticast | KOther | KOutgoing.
(** lib/bmf/src/Bmf.c:912-928, 965-990, 1067-1082 and 1122-1135: the buffer of 2048 bytes after [data] was received at [off]; [old] is what was there *)
Definition buffer (old data : list Z) (off : nat) : list Z :=
  let data := firstn (2048 - off) data in
  firstn off old ++ data ++ skipn (off + length data) old.
(** lib/bmf/src/Bmf.c:910-961 BMF_handle_captureFd *)
Definition on_capture (e : env) (now : Z) (from : intf) (k : kind) (old data : list Z) (h : history) : outcome (list action * history) :=
  if Z.of_nat (length (firstn 2040 data)) <? 20 then Done ([], h)
  else
    match k with
    | KOutgoing => captured e now from true (skipn 8 (buffer old data 8)) h
    | KMulticast | KBroadcast => captured e now from false (skipn 8 (buffer old data 8)) h
    | _ => Done ([], h)
    end.
(** lib/bmf/src/Bmf.c:963-1063 BMF_handle_listeningFd *)
Definition on_listening (e : env) (now : Z) (from : intf) (k : kind) (old data : list Z) (h : history) : outcome (list action * history) :=
  match k with
  | KOther =>
      let buf := buffer old data 0 in
      let n := Z.of_nat (length (firstn 2048 data)) in
      let* p := get 9 buf in
      if negb (p =? 17) then Done ([], h)
      else
        let* hl := ip_header_length buf in
        let minimum := hl + 8 + 8 + 20 in
        if minimum >? 2048 then Done ([], h)
        else if n <? minimum then Done ([], h)
        else
          let* port := get16 (hl + 2) buf in
          if negb (port =? 50698) then Done ([], h)
          else
            let* by_ := get32 12 buf in
            let* to := get32 16 buf in
            let d := skipn (Z.to_nat (hl + 8)) buf in
            received e now from by_ (Some to) (firstn 8 d) (skipn 8 d) h
  | _ => Done ([], h)
  end.
(** lib/bmf/src/Bmf.c:1065-1117 BMF_handle_encapsulatingFd; [by_] is the address of the sender *)
Definition on_encapsulating (e : env) (now : Z) (from : intf) (by_ : Z) (old data : list Z) (h : history) : outcome (list action * history) :=
  if Z.of_nat (length (firstn 2048 data)) <? 28 then Done ([], h)
  else received e now from by_ None (firstn 8 (buffer old data 0)) (skipn 8 (buffer old data 0)) h.
(** lib/bmf/src/Bmf.c:1119-1155 BMF_handle_tuntapFd; the interface was made, with [broad] *)
Definition on_tuntap (e : env) (now broad : Z) (old data : list Z) (h : history) : outcome (list action * history) :=
  if Z.of_nat (length (firstn 2040 data)) <? 20 then Done ([], h)
  else tun_captured e now broad (skipn 8 (buffer old data 8)) h.

(** Model of the quagga plugin: the messages exchanged with the zebra daemon
    (lib/quagga/src/packet.c, parse.c, client.c, quagga.c) and the list of
    announced networks they change (src/cfgparser/olsrd_conf.c).

    Not modelled: the socket options, the plugin parameters, the logging,
    [update_has_gateway_fields] (a function of the list alone), running out of
    memory. *)
From Verif Require Import Base Bytes.

(** The result of a computation that may leave the program by [olsr_exit]
    (lib/quagga/src/parse.c:95,139,156,181,198,205) or touch memory outside
    an object (undefined behaviour). *)
Inductive zres (A : Type) : Type := ZOk (a : A) | ZExit | ZOob.
Arguments ZOk {A}. Arguments ZExit {A}. Arguments ZOob {A}.
(** sequencing of the above (lib/quagga/src/parse.c:73-160) *)
Definition zbind {A B} (x : zres A) (f : A -> zres B) : zres B :=
  match x with ZOk a => f a | ZExit => ZExit | ZOob => ZOob end.
(** a bounds-checked access as a [zres] (lib/quagga/src/parse.c:98-153) *)
Definition zrd {A} (x : option A) : zres A := match x with Some a => ZOk a | None => ZOob end.

(** lib/quagga/src/packet.h:55,59,63-69,72-74,77-80,83; lib/quagga/src/common.h:58-59;
    src/common/autobuf.h:56 *)
Definition ZEBRA_MAX_PACKET_SIZ := 4096.
(** see above, lib/quagga/src/packet.h:55,59,63-69,72-74,77-80,83 *)
Definition ZEBRA_HEADER_MARKER := 255.  (* lib/quagga/src/packet.h:59 *)
Definition ZEBRA_IPV4_ROUTE_ADD := 7.   (* lib/quagga/src/packet.h:63 *)
Definition ZEBRA_IPV4_ROUTE_DELETE := 8. (* lib/quagga/src/packet.h:64 *)
Definition ZEBRA_IPV6_ROUTE_ADD := 9.   (* lib/quagga/src/packet.h:65 *)
Definition ZEBRA_IPV6_ROUTE_DELETE := 10. (* lib/quagga/src/packet.h:66 *)
Definition ZEBRA_REDISTRIBUTE_ADD := 11. (* lib/quagga/src/packet.h:67 *)
Definition ZEBRA_REDISTRIBUTE_DELETE := 12. (* lib/quagga/src/packet.h:68 *)
Definition ZEBRA_HELLO := 23.           (* lib/quagga/src/packet.h:69 *)
Definition ZEBRA_NEXTHOP_IFINDEX := 1.  (* lib/quagga/src/packet.h:72 *)
Definition ZEBRA_NEXTHOP_IPV4 := 3.     (* lib/quagga/src/packet.h:73 *)
Definition ZEBRA_NEXTHOP_IPV6 := 6.     (* lib/quagga/src/packet.h:74 *)
Definition SAFI_UNICAST := 1.           (* lib/quagga/src/packet.h:83 *)
Definition ZEBRA_ROUTE_OLSR := 11.      (* lib/quagga/src/common.h:58 *)
Definition ZEBRA_ROUTE_MAX := 14.       (* lib/quagga/src/common.h:59 *)
Definition AUTOBUFCHUNK := 4096.        (* autobuf.h:56 *)
(** The bits of the message byte (lib/quagga/src/packet.h:77-80), by number. *)
Definition ZAPI_NEXTHOP := 0.
(** see above, lib/quagga/src/packet.h:77-80 *)
Definition ZAPI_IFINDEX := 1.  (* lib/quagga/src/packet.h:78 *)
Definition ZAPI_DISTANCE := 2. (* lib/quagga/src/packet.h:79 *)
Definition ZAPI_METRIC := 3.   (* lib/quagga/src/packet.h:80 *)
(** the test of a bit of the message byte (lib/quagga/src/packet.c:109,130,132, lib/quagga/src/parse.c:110,124,143,149) *)
Definition zbit (m b : Z) : bool := Z.testbit m b.

(** The configuration the code reads: [zebra.version], [olsr_cnf->ip_version],
    [zebra.flags], [zebra.distance], the two options and
    [zebra.redistribute] (lib/quagga/src/common.h:63-78). *)
Record zcfg := mkZc { z_version : Z; z_v6 : bool; z_flags : Z; z_distance : Z;
                      z_export : bool; z_additional : bool; z_redist : list bool }.

(** [struct zroute] (lib/quagga/src/packet.h:88-101).  Addresses are the 16
    bytes of [union olsr_ip_addr] (the first four are the IPv4 address); the
    two arrays carry their lengths. *)
Record zroute := mkZr { zr_type : Z; zr_flags : Z; zr_message : Z; zr_safi : Z; zr_prefixlen : Z;
                        zr_prefix : list Z; zr_nexthop : list (list Z); zr_ifindex : list Z;
                        zr_metric : Z; zr_distance : Z }.

(** The parts of [struct rt_entry] that are exported: destination, best path
    (gateway, interface, hops) and installed next hop (src/routing_table.h:64-118). *)
Record qroute := mkQ { q_dst : list Z; q_plen : Z; q_best_gw : list Z; q_best_if : Z; q_hops : Z;
                       q_nh_gw : list Z; q_nh_if : Z }.

(** htons and htonl followed by the memcpy (lib/quagga/src/packet.c:77,125,133,137) *)
Definition hton16 (x : Z) : list Z := [u8 (x / 256); u8 x].
(** see above, lib/quagga/src/packet.c:77,125,133,137 *)
Definition hton32 (x : Z) : list Z := [u8 (x / 16777216); u8 (x / 65536); u8 (x / 256); u8 x].

(** The bytes of an address of the configured family
    (lib/quagga/src/packet.c:115-120, lib/quagga/src/parse.c:114-120) *)
Definition alen (v6 : bool) : Z := if v6 then 16 else 4.
(** see above, lib/quagga/src/packet.c:115-120 *)
Definition fam (v6 : bool) (a : list Z) : list Z := firstn (Z.to_nat (alen v6)) a.

(** Everything after the length field is appended to [body]; the length field
    is filled in last.  A message longer than the buffer has been written
    outside of it (lib/quagga/src/packet.c:66,137-138, 149,169-170).  The rest of the buffer
    is zero. *)
Definition zfinish (body : list Z) : zres (list Z) :=
  if 2 + blen body <=? ZEBRA_MAX_PACKET_SIZ then ZOk (hton16 (2 + blen body) ++ body) else ZOob.

(** lib/quagga/src/packet.c:69-84 and 152-167: the header *)
Definition zhead (c : zcfg) (cmd : Z) : zres (list Z) :=
  if z_version c =? 0 then ZOk [u8 cmd]
  else if (z_version c =? 1) || (z_version c =? 2) then ZOk ([ZEBRA_HEADER_MARKER; u8 (z_version c)] ++ hton16 cmd)
  else ZExit.

(** lib/quagga/src/packet.c:57-141 *)
Definition zpacket_route (c : zcfg) (cmd : Z) (r : zroute) : zres (list Z) :=
  zbind (zhead c cmd) (fun h =>
  let len := u8 ((zr_prefixlen r + 7) / 8) in
  if len >? blen (zr_prefix r) then ZOob else
  zfinish (h ++ [zr_type r; zr_flags r; zr_message r]
    ++ (if z_version c =? 2 then hton16 (zr_safi r) else [])
    ++ [zr_prefixlen r] ++ firstn (Z.to_nat len) (zr_prefix r)
    ++ (if zbit (zr_message r) ZAPI_NEXTHOP then
          [u8 (blen (zr_ifindex r) + Z.of_nat (length (zr_nexthop r)))]
          ++ concat (map (fun a => (if z_v6 c then ZEBRA_NEXTHOP_IPV6 else ZEBRA_NEXTHOP_IPV4) :: fam (z_v6 c) a) (zr_nexthop r))
          ++ concat (map (fun i => ZEBRA_NEXTHOP_IFINDEX :: hton32 i) (zr_ifindex r))
        else [])
    ++ (if zbit (zr_message r) ZAPI_DISTANCE then [zr_distance r] else [])
    ++ (if zbit (zr_message r) ZAPI_METRIC then hton32 (zr_metric r) else []))).

(** lib/quagga/src/packet.c:143-173 *)
Definition zpacket_redistribute (c : zcfg) (cmd type : Z) : zres (list Z) :=
  zbind (zhead c cmd) (fun h => zfinish (h ++ [type])).

(** lib/quagga/src/quagga.c:93-130 and 148-185: the route that is packed; [gw], [ifi] and
    [metric] are those of the best path when adding, those installed (and 0)
    when deleting.  The gateway is compared with the destination over the
    length of an address of the family (lib/quagga/src/quagga.c:108-112, 163-167). *)
Definition zebra_route (c : zcfg) (r : qroute) (gw : list Z) (ifi metric : Z) : zroute :=
  let direct := forallb (fun p => fst p =? snd p) (combine (fam (z_v6 c) gw) (fam (z_v6 c) (q_dst r)))
                && (q_plen r =? if z_v6 c then 128 else 32) in
  mkZr ZEBRA_ROUTE_OLSR (z_flags c) (if z_distance c =? 0 then 9 else 13) SAFI_UNICAST (q_plen r) (q_dst r)
       (if direct then [] else [gw]) (if direct then [u32 ifi] else []) (u32 metric)
       (if z_distance c =? 0 then 0 else z_distance c).

(** What a call of write(2) answers: a number of bytes taken, EINTR or EAGAIN,
    another error (lib/quagga/src/client.c:143-156). *)
Inductive wres := WSome (n : Z) | WAgain | WErr.

(** The state of the plugin: [zebra.status & STATUS_CONNECTED], the bytes given
    to the present connection, the message buffers that were never freed, the
    calls of the original (kernel) route functions, and
    [olsr_cnf->hna_entries] (lib/quagga/src/common.h:63-78, lib/quagga/src/quagga.c:133-134,188-189, lib/quagga/src/client.c:134-135). *)
Record zst := mkZs { s_conn : bool; s_sent : list Z; s_leak : Z; s_calls : list (bool * qroute);
                     s_hna : list (list Z * Z) }.

(** How a function that writes ends: it returns a value, with what is left of
    the answers of write(2); it is still in the loop when the answers given
    are used up; it leaves the program; it touches memory outside an object
    (lib/quagga/src/client.c:127-163, lib/quagga/src/quagga.c:87-217). *)
Inductive zwr := WRet (ret : Z) (s : zst) (w : list wres) | WWait (s : zst) | WExit | WOob.

(** lib/quagga/src/client.c:142-159: the loop; [pnt] is what the pointer points at.  After
    EINTR and EAGAIN the [continue] evaluates the condition, with [ret] 0. *)
Fixpoint zwrite_loop (w : list wres) (pnt : list Z) (len : Z) (s : zst) : zwr :=
  match w with
  | [] => WWait s
  | WErr :: w' => WRet (-1) (mkZs false (s_sent s) (s_leak s) (s_calls s) (s_hna s)) w'
  | WAgain :: w' => if len =? 0 then WRet 0 s w' else zwrite_loop w' pnt len s
  | WSome n :: w' =>
    let ret := Z.max 0 (Z.min n len) in
    let s' := mkZs (s_conn s) (s_sent s ++ firstn (Z.to_nat ret) pnt) (s_leak s) (s_calls s) (s_hna s) in
    let len' := u16 (len - ret) in
    if len' =? 0 then WRet 0 s' w' else zwrite_loop w' (skipn (Z.to_nat ret) pnt) len' s'
  end.

(** lib/quagga/src/client.c:127-163 *)
Definition zclient_write (w : list wres) (pkt : list Z) (s : zst) : zwr :=
  if negb (s_conn s) then WRet 0 (mkZs (s_conn s) (s_sent s) (s_leak s + 1) (s_calls s) (s_hna s)) w
  else
    let buf := pkt ++ repeat 0 (Z.to_nat (ZEBRA_MAX_PACKET_SIZ - blen pkt)) in
    match rd16 buf 0 with None => WOob | Some len => zwrite_loop w buf len s end.

(** [zclient_write] of a message under construction (lib/quagga/src/quagga.c:132,187,204,214) *)
Definition zwrite_msg (w : list wres) (m : zres (list Z)) (s : zst) : zwr :=
  match m with ZOk pkt => zclient_write w pkt s | ZExit => WExit | ZOob => WOob end.

(** lib/quagga/src/quagga.c:132-139 and 187-194: write, then call the original function too if
    the option is set; [k] is its answer *)
Definition zebra_send (c : zcfg) (w : list wres) (add : bool) (m : zres (list Z)) (r : qroute) (k : qroute -> Z) (s : zst) : zwr :=
  match zwrite_msg w m s with
  | WRet ret s' w' =>
    if (ret =? 0) && z_additional c
    then WRet (k r) (mkZs (s_conn s') (s_sent s') (s_leak s') (s_calls s' ++ [(add, r)]) (s_hna s')) w'
    else WRet ret s' w'
  | x => x
  end.

(** lib/quagga/src/quagga.c:87-140 *)
Definition zebra_addroute (c : zcfg) (w : list wres) (r : qroute) (k : qroute -> Z) (s : zst) : zwr :=
  zebra_send c w true
    (zpacket_route c (if z_v6 c then ZEBRA_IPV6_ROUTE_ADD else ZEBRA_IPV4_ROUTE_ADD) (zebra_route c r (q_best_gw r) (q_best_if r) (q_hops r))) r k s.

(** lib/quagga/src/quagga.c:142-195 *)
Definition zebra_delroute (c : zcfg) (w : list wres) (r : qroute) (k : qroute -> Z) (s : zst) : zwr :=
  zebra_send c w false
    (zpacket_route c (if z_v6 c then ZEBRA_IPV6_ROUTE_DELETE else ZEBRA_IPV4_ROUTE_DELETE) (zebra_route c r (q_nh_gw r) (q_nh_if r) 0)) r k s.

(** lib/quagga/src/quagga.c:210-217 *)
Definition zebra_hello (c : zcfg) (w : list wres) (cmd : Z) (s : zst) : zwr :=
  match zwrite_msg w (zpacket_redistribute c cmd ZEBRA_ROUTE_OLSR) s with
  | WRet ret s' w' => if ret <? 0 then WExit else WRet ret s' w'
  | x => x
  end.

(** lib/quagga/src/quagga.c:202-206: the loop over the route types, from [type] on; [red] is
    the rest of [zebra.redistribute] *)
Fixpoint redistribute_loop (c : zcfg) (w : list wres) (cmd type : Z) (red : list bool) (s : zst) : zwr :=
  match red with
  | [] => WRet 0 s w
  | false :: red' => redistribute_loop c w cmd (type + 1) red' s
  | true :: red' =>
    match zwrite_msg w (zpacket_redistribute c cmd type) s with
    | WRet ret s' w' => if ret <? 0 then WExit else redistribute_loop c w' cmd (type + 1) red' s'
    | x => x
    end
  end.

(** lib/quagga/src/quagga.c:197-208 *)
Definition zebra_redistribute (c : zcfg) (w : list wres) (cmd : Z) (s : zst) : zwr :=
  redistribute_loop c w cmd 0 (firstn (Z.to_nat ZEBRA_ROUTE_MAX) (z_redist c)) s.

(** lib/quagga/src/client.c:118-120: all routes, the answers ignored *)
Fixpoint addroutes (c : zcfg) (w : list wres) (rs : list qroute) (k : qroute -> Z) (s : zst) : zwr :=
  match rs with
  | [] => WRet 0 s w
  | r :: rs' => match zebra_addroute c w r k s with WRet _ s' w' => addroutes c w' rs' k s' | x => x end
  end.

(** lib/quagga/src/client.c:107-125; [ok] is whether connect(2) succeeds (lib/quagga/src/client.c:93-103).
    The old socket is closed, so nothing has been sent on the new one. *)
Definition zclient_reconnect (c : zcfg) (ok : bool) (w : list wres) (rt : list qroute) (k : qroute -> Z) (s : zst) : zwr :=
  let s0 := mkZs ok [] (s_leak s) (s_calls s) (s_hna s) in
  if negb ok then WRet 0 s0 w else
  match zebra_hello c w ZEBRA_HELLO s0 with
  | WRet _ s1 w1 =>
    match (if z_export c then addroutes c w1 rt k s1 else WRet 0 s1 w1) with
    | WRet _ s2 w2 => zebra_redistribute c w2 ZEBRA_REDISTRIBUTE_ADD s2
    | x => x
    end
  | x => x
  end.

(** ** Reading *)

(** lib/quagga/src/parse.c:113-121: the next hops *)
Fixpoint parse_hops (v6 : bool) (n : nat) (b : list Z) (i : Z) : zres (list (list Z) * Z) :=
  match n with
  | O => ZOk ([], i)
  | S n' =>
    zbind (zrd (rdn b i (alen v6))) (fun a =>
    zbind (parse_hops v6 n' b (i + alen v6)) (fun p =>
    ZOk ((a ++ repeat 0 (Z.to_nat (16 - alen v6))) :: fst p, snd p)))
  end.

(** lib/quagga/src/parse.c:127-131: the interface indices *)
Fixpoint parse_ifs (n : nat) (b : list Z) (i : Z) : zres (list Z * Z) :=
  match n with
  | O => ZOk ([], i)
  | S n' =>
    zbind (zrd (rd32 b i)) (fun x =>
    zbind (parse_ifs n' b (i + 4)) (fun p => ZOk (x :: fst p, snd p)))
  end.

(** lib/quagga/src/parse.c:102-108: the prefix is copied to a [union olsr_ip_addr] (16 bytes)
    without a look at its length; more than 16 bytes are written outside of it *)
Definition parse_prefix (b : list Z) (i plen : Z) : zres (list Z * Z) :=
  let size := (plen + 7) / 8 in
  if size >? 16 then ZOob else
  zbind (zrd (rdn b i size)) (fun p => ZOk (p ++ repeat 0 (Z.to_nat (16 - size)), i + size)).

(** lib/quagga/src/parse.c:73-160; the message starts at [o] *)
Definition zparse_route (c : zcfg) (b : list Z) (o : Z) : zres zroute :=
  zbind (zrd (rd16 b o)) (fun length =>
  let i := o + (if z_version c =? 0 then 3 else 6) in
  if negb ((z_version c =? 0) || (z_version c =? 1) || (z_version c =? 2)) then ZExit else
  zbind (zrd (rd8 b i)) (fun type =>
  zbind (zrd (rd8 b (i + 1))) (fun flags =>
  zbind (zrd (rd8 b (i + 2))) (fun message =>
  zbind (zrd (rd8 b (i + 3))) (fun prefixlen =>
  zbind (parse_prefix b (i + 4) prefixlen) (fun p =>
  zbind (if zbit message ZAPI_NEXTHOP then
           zbind (zrd (rd8 b (snd p))) (fun n => parse_hops (z_v6 c) (Z.to_nat n) b (snd p + 1))
         else ZOk ([], snd p)) (fun h =>
  zbind (if zbit message ZAPI_IFINDEX then
           zbind (zrd (rd8 b (snd h))) (fun n => parse_ifs (Z.to_nat n) b (snd h + 1))
         else ZOk ([], snd h)) (fun x =>
  zbind (if zbit message ZAPI_DISTANCE then
           zbind (zrd (rd8 b (snd x))) (fun d => ZOk (d, snd x + 1))
         else ZOk (0, snd x)) (fun d =>
  zbind (if zbit message ZAPI_METRIC || (z_version c =? 0) then
           zbind (zrd (rd32 b (snd d))) (fun m => ZOk (m, snd d + 4))
         else ZOk (0, snd d)) (fun m =>
  if negb (snd m - o =? length) then ZExit
  else ZOk (mkZr type flags message 0 prefixlen (fst p) (fst h) (fst x) (fst m) (fst d)))))))))))).

(** [ipequal] for the configured family (src/ipcalc.h:77-97) *)
Definition zipequal (v6 : bool) (a b : list Z) : bool :=
  forallb (fun p => fst p =? snd p) (combine (fam v6 a) (fam v6 b)).

(** src/cfgparser/olsrd_conf.c:1463-1477, [ip_prefix_list_add]: in front, whether or not it is there *)
Definition ip_prefix_list_add (l : list (list Z * Z)) (net : list Z) (plen : Z) : list (list Z * Z) := (net, plen) :: l.

(** src/cfgparser/olsrd_conf.c:1479-1503, [ip_prefix_list_remove]: the first that matches *)
Fixpoint ip_prefix_list_remove (v6 : bool) (l : list (list Z * Z)) (net : list Z) (plen : Z) : list (list Z * Z) :=
  match l with
  | [] => []
  | e :: l' => if zipequal v6 net (fst e) && (snd e =? plen) then l' else e :: ip_prefix_list_remove v6 l' net plen
  end.

(** lib/quagga/src/parse.c:190-207: the command of the message at [f] *)
Definition zcommand (c : zcfg) (b : list Z) (f : Z) : zres Z :=
  if z_version c =? 0 then zrd (rd8 b (f + 2))
  else if (z_version c =? 1) || (z_version c =? 2) then
    zbind (zrd (rd8 b (f + 2))) (fun m =>
    if negb (m =? ZEBRA_HEADER_MARKER) then ZExit else
    zbind (zrd (rd8 b (f + 3))) (fun v =>
    if negb (v =? z_version c) then ZExit else zrd (rd16 b (f + 4))))
  else ZExit.

(** lib/quagga/src/parse.c:179-247: one message *)
Definition zparse_one (c : zcfg) (b : list Z) (f : Z) (hna : list (list Z * Z)) : zres (list (list Z * Z)) :=
  zbind (zcommand c b f) (fun cmd =>
  if cmd =? (if z_v6 c then ZEBRA_IPV6_ROUTE_ADD else ZEBRA_IPV4_ROUTE_ADD) then
    zbind (zparse_route c b f) (fun r => ZOk (ip_prefix_list_add hna (zr_prefix r) (zr_prefixlen r)))
  else if cmd =? (if z_v6 c then ZEBRA_IPV6_ROUTE_DELETE else ZEBRA_IPV4_ROUTE_DELETE) then
    zbind (zparse_route c b f) (fun r => ZOk (ip_prefix_list_remove (z_v6 c) hna (zr_prefix r) (zr_prefixlen r)))
  else ZOk hna).

(** lib/quagga/src/parse.c:177-251: the loop over the messages of a buffer, from [f] on; every
    round moves on by at least one byte, so [fuel] more than [len - f] rounds
    are never needed *)
Fixpoint zparse_data (fuel : nat) (c : zcfg) (b : list Z) (len f : Z) (hna : list (list Z * Z)) : zres (list (list Z * Z)) :=
  match fuel with
  | O => ZOk hna
  | S fuel' =>
    zbind (zrd (rd16 b f)) (fun length =>
    if length =? 0 then ZExit else
    zbind (zparse_one c b f hna) (fun hna' =>
    if f + length <? len then zparse_data fuel' c b len (f + length) hna' else ZOk hna'))
  end.

(** What a call of read(2) answers: up to [n] bytes that have arrived (never
    none), nothing there yet, the end of the stream, another error
    (lib/quagga/src/client.c:193-214). *)
Inductive rres := RData (n : Z) | RAgain | REof | RErr.

(** lib/quagga/src/client.c:219-222: the loop over the complete messages; [off] is 16 bits
    wide.  [None]: not over after [fuel] rounds. *)
Fixpoint zscan (fuel : nat) (b : list Z) (size off : Z) : option Z :=
  match fuel with
  | O => None
  | S fuel' =>
    if size >=? off + 2 then
      zscan fuel' b size (u16 (off + match rd16 b off with Some l => l | None => 0 end))
    else Some off
  end.

(** How [zclient_read] ends: with a buffer and its size, with NULL (still
    connected or not), still in the inner loop after [fuel] rounds, or still
    reading when the answers given are used up (lib/quagga/src/client.c:165-232). *)
Inductive zrd_out :=
  | RBuf (b : list Z) (size : Z) (stream : list Z) (ev : list rres)
  | RNull (conn : bool) (stream : list Z) (ev : list rres)
  | RHang
  | RWait.

(** lib/quagga/src/client.c:180-223: the loop; [b] is the buffer ([bufsize] bytes), of which
    [size] are filled; [stream] are the bytes on their way *)
Fixpoint zread_loop (fuel : nat) (ev : list rres) (stream b : list Z) (size off : Z) : zrd_out :=
  match ev with
  | [] => RWait
  | e :: ev' =>
    let b := if size =? blen b then b ++ repeat 0 (Z.to_nat AUTOBUFCHUNK) else b in
    match e with
    | REof => RNull true stream ev'
    | RAgain => RNull true stream ev'
    | RErr => RNull false stream ev'
    | RData n =>
      let k := Z.min n (Z.min (blen b - size) (blen stream)) in
      if k <=? 0 then RNull true stream ev' else
      let b' := firstn (Z.to_nat size) b ++ firstn (Z.to_nat k) stream ++ skipn (Z.to_nat (size + k)) b in
      let stream' := skipn (Z.to_nat k) stream in
      match zscan fuel b' (size + k) off with
      | None => RHang
      | Some off' => if size + k =? off' then RBuf b' (size + k) stream' ev' else zread_loop fuel ev' stream' b' (size + k) off'
      end
    end
  end.

(** lib/quagga/src/client.c:165-232 *)
Definition zclient_read (fuel : nat) (ev : list rres) (stream : list Z) : zrd_out := zread_loop fuel ev stream [] 0 0.

(** How a call of [zparse] ends (lib/quagga/src/parse.c:162-255). *)
Inductive zpo :=
  | PDone (s : zst) (stream : list Z) (ev : list rres)
  | PHang | PExit | POob | PWait.

(** lib/quagga/src/parse.c:175-254: the call when connected *)
Definition zparse_connected (fuel : nat) (c : zcfg) (ev : list rres) (stream : list Z) (s : zst) : zpo :=
  match zclient_read fuel ev stream with
  | RHang => PHang
  | RWait => PWait
  | RNull conn stream' ev' => PDone (mkZs conn (s_sent s) (s_leak s) (s_calls s) (s_hna s)) stream' ev'
  | RBuf b size stream' ev' =>
    match zparse_data (S (Z.to_nat size)) c b size 0 (s_hna s) with
    | ZOk hna => PDone (mkZs (s_conn s) (s_sent s) (s_leak s) (s_calls s) hna) stream' ev'
    | ZExit => PExit
    | ZOob => POob
    end
  end.

(** lib/quagga/src/parse.c:162-255: when not connected the call tries to connect ([ok]), with
    [w] the answers of write(2); the bytes of the old connection are gone and
    [stream'] are on their way on the new one *)
Definition zparse (fuel : nat) (c : zcfg) (ok : bool) (w : list wres) (rt : list qroute) (k : qroute -> Z)
    (ev : list rres) (stream stream' : list Z) (s : zst) : zpo :=
  if negb (s_conn s) then
    match zclient_reconnect c ok w rt k s with
    | WRet _ s' _ => PDone s' (if ok then stream' else stream) ev
    | WWait _ => PWait
    | WExit => PExit
    | WOob => POob
    end
  else zparse_connected fuel c ev stream s.

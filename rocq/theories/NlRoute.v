(** Requests to the kernel through the rtnetlink socket (src/linux/kernel_routes_nl.c):
    the bytes of the requests, reading the answer, and the requests for a route of the
    routing table with the repairs that are tried.  Definitions only.

    Structures are byte lists with the layout of <linux/netlink.h> and
    <linux/rtnetlink.h>; numbers are in host byte order, [le]: little endian.
    Accesses outside are [None].  Addresses are lists of 4 or 16 bytes.  Not modelled:
    log output, Android. *)
From Verif Require Import Base Bytes NetBuf Parser IpCalc.

(** statements one after the other, src/linux/kernel_routes_nl.c *)
Definition bind {A B} (x : option A) (f : A -> option B) : option B := match x with Some a => f a | None => None end.
(** numbers in memory; src/linux/kernel_routes_nl.c:199-210 *)
Definition h16 (le : bool) (n : Z) : list Z := if le then rev (net16 n) else net16 n.
(** src/linux/kernel_routes_nl.c:199-210 *)
Definition h32 (le : bool) (n : Z) : list Z :=
  let l := [u32 n / 16777216; u32 n / 65536 mod 256; u32 n / 256 mod 256; u32 n mod 256] in if le then rev l else l.
(** src/linux/kernel_routes_nl.c:199-210 *)
Definition hval (le : bool) (l : list Z) : Z := be (if le then rev l else l).
(** NLMSG_ALIGN, RTA_ALIGN; src/linux/kernel_routes_nl.c:75-76, 202-207 *)
Definition al4 (n : Z) : Z := (n + 3) / 4 * 4.

(** src/linux/kernel_routes_nl.c:200-211 olsr_netlink_addreq: nlmsg_len is at 0; an
    attribute is rta_len, rta_type, data *)
Definition addreq (le : bool) (b : list Z) (typ : Z) (data : list Z) : option (list Z) :=
  bind (rdn b 0 4) (fun l =>
  let pos := al4 (hval le l) in
  bind (wr b 0 (h32 le (pos + 4 + blen data))) (fun b =>
  bind (wr b (pos + 2) (h16 le typ)) (fun b =>
  bind (wr b pos (h16 le (4 + blen data))) (fun b => wr b (pos + 4) data)))).
(** only under a condition; src/linux/kernel_routes_nl.c:374-440 *)
Definition addif (c : bool) (le : bool) (b : list Z) (typ : Z) (data : list Z) : option (list Z) :=
  if c then addreq le b typ data else Some b.
(** what is handed to sendmsg, src/linux/kernel_routes_nl.c:235-237 *)
Definition sent (le : bool) (b : list Z) : option (list Z) := bind (rdn b 0 4) (fun l => rdn b 0 (hval le l)).

(** the arguments of olsr_new_netlink_route; src/linux/kernel_routes_nl.c:347 *)
Record rtargs := mkRA { a_fam : Z; a_table : Z; a_flags : Z; a_scope : Z; a_if : Z; a_metric : Z; a_proto : Z;
  a_src : option (list Z); a_gw : option (list Z); a_dst : list Z; a_plen : Z; a_set : bool; a_similar : bool; a_black : bool }.
(** AF_INET, src/linux/kernel_routes_nl.c:361 family_size *)
Definition fsize (fam : Z) : Z := if fam =? 2 then 4 else 16.
(** src/linux/kernel_routes_nl.c:82-86 struct olsr_rtreq, 363: nlmsghdr of 16 bytes, rtmsg
    of 12 bytes, 1024 bytes *)
Definition rtreq0 : list Z := repeat 0 28 ++ repeat 0 1024.
(** src/linux/kernel_routes_nl.c:347-447 olsr_new_netlink_route up to olsr_netlink_send *)
Definition new_route (le : bool) (x : rtargs) : option (list Z) :=
  let fs := fsize (a_fam x) in
  bind (wr rtreq0 24 (h32 le (a_flags x))) (fun b =>
  bind (wr b 16 [u8 (a_fam x)]) (fun b =>
  (* lines 369-374 *)
  bind (if a_table x <? 256 then wr b 20 [a_table x]
        else bind (wr b 20 [0]) (fun b => addreq le b 15 (h32 le (a_table x)))) (fun b =>
  bind (wr b 0 (h32 le 28)) (fun b =>
  bind (wr b 6 (h16 le (if a_set x then 1 + 4 + 1024 + 256 else 1 + 4))) (fun b =>
  bind (wr b 4 (h16 le (if a_set x then 24 else 25))) (fun b =>
  bind (wr b 23 [if a_black x then 6 else 1]) (fun b =>
  bind (wr b 17 [u8 (a_plen x)]) (fun b =>
  bind (if a_set x then wr b 21 [u8 (a_proto x)] else Some b) (fun b =>
  bind (wr b 22 [if negb (a_set x) && a_similar x then 255 else u8 (a_scope x)]) (fun b =>
  bind (addif ((a_set x || negb (a_similar x)) && negb (a_black x)) le b 4 (h32 le (a_if x))) (fun b =>
  bind (match a_src x with Some s => bind (rdn s 0 fs) (fun s => addif (a_set x) le b 7 s) | None => Some b end) (fun b =>
  bind (addif (a_metric x >=? 0) le b 6 (h32 le (a_metric x))) (fun b =>
  bind (match a_gw x with
        | Some g => bind (rdn g 0 fs) (addreq le b 5)
        | None =>
            if a_plen x =? 32 then bind (rdn (a_dst x) 0 fs) (addreq le b 5)
            else bind (rdn b 24 4) (fun f => wr b 24 (h32 le (Z.land (hval le f) (Z.lnot 4))))
        end) (fun b =>
  bind (rdn (a_dst x) 0 fs) (fun d =>
  bind (addreq le b 1 d) (sent le)))))))))))))))).

(** src/linux/kernel_routes_nl.c:275-305 olsr_os_policy_rule; the name is given with the
    terminating 0 *)
Definition policy_rule (le : bool) (family rttable prio : Z) (ifname : option (list Z)) (set : bool) : option (list Z) :=
  bind (wr rtreq0 0 (h32 le 28)) (fun b =>
  bind (wr b 6 (h16 le (1 + 1024 + 512 + 4))) (fun b =>
  bind (wr b 4 (h16 le (if set then 32 else 33))) (fun b =>
  bind (wr b 16 [u8 family]) (fun b =>
  bind (wr b 20 [u8 rttable]) (fun b =>
  bind (wr b 23 [1]) (fun b =>
  bind (addreq le b 6 (h32 le prio)) (fun b =>
  bind (match ifname with Some n => addreq le b 3 n | None => Some b end) (sent le)))))))).

(** src/linux/kernel_routes_nl.c:213-273 olsr_netlink_send: [sok]: sendmsg succeeds; the
    answer is what recvmsg puts into the buffer, [None] if it fails.  An answer of no
    bytes is a failure, too (line 247). *)
Definition netlink_send (le : bool) (sok : bool) (reply : option (list Z)) : Z :=
  if negb sok then -1
  else match reply with
       | None => -1
       | Some r0 =>
           let r := firstn 1024 r0 in
           if blen r <=? 0 then -1
           else
             let len := hval le (slice r 0 4) in
             (* NLMSG_OK *)
             if negb ((16 <=? blen r) && (16 <=? len) && (len <=? blen r)) then -1
             else if negb (hval le (slice r 4 2) =? 2) then -1
             else if 36 >? len then -1
             else
               (* int error *)
               let e := hval le (slice r 16 4) in
               - (if e <? 2 ^ 31 then e else e - 2 ^ 32)
       end.

(** what olsr_os_process_rt_entry uses of the configuration: ip_version, FIBM_FLAT,
    fib_metric_default, smart_gw_active, rt_table_default, rt_table, rt_proto,
    use_src_ip_routes, unicast_src_ip; src/linux/kernel_routes_nl.c, olsr_os_process_rt_entry *)
Record ncfg := mkNC { n_v6 : bool; n_flat : bool; n_defmetric : Z; n_sgw : bool; n_tdef : Z; n_table : Z; n_proto : Z; n_usesrc : bool; n_src : list Z }.
(** struct rt_nexthop: gateway, iif_index (src/routing_table.h:70-74) *)
Definition nhop := (list Z * Z)%type.
(** struct rt_entry: rt_dst, rt_nexthop, rt_metric.hops, and nexthop and hops of rt_best;
    src/routing_table.h:82-100 *)
Record rtent := mkRE { e_dst : list Z; e_plen : Z; e_nh : nhop; e_hops : Z; e_best : option (nhop * Z) }.

(** src/linux/kernel_routes_nl.c:510-549: metric, table, next hop, hostRoute, src; a NULL
    rt_best is not read by the caller with [set] *)
Definition nl_metric (c : ncfg) (e : rtent) (set : bool) : Z :=
  (if n_flat c then n_defmetric c else match e_best e with Some (_, h) => if set then h else e_hops e | None => e_hops e end) +
  (if n_sgw c && is_prefix_inetgw (n_v6 c) (e_dst e, e_plen e) then 2 else 0).
(** see above, src/linux/kernel_routes_nl.c:510-549 *)
Definition nl_table (c : ncfg) (e : rtent) : Z := if is_prefix_inetgw (n_v6 c) (e_dst e, e_plen e) then n_tdef c else n_table c.
(** see above, src/linux/kernel_routes_nl.c:510-549 *)
Definition nl_nexthop (e : rtent) (set : bool) : nhop := match e_best e with Some (h, _) => if set then h else e_nh e | None => e_nh e end.
(** see above, src/linux/kernel_routes_nl.c:510-549 *)
Definition nl_host (c : ncfg) (e : rtent) (set : bool) : bool :=
  (e_plen e =? (if n_v6 c then 16 else 4) * 8) && bytes_eqb (fst (nl_nexthop e set)) (e_dst e).
(** see above, src/linux/kernel_routes_nl.c:510-549 *)
Definition nl_src (c : ncfg) : option (list Z) := if n_usesrc c then Some (n_src c) else None.
(** see above, src/linux/kernel_routes_nl.c:510-549 *)
Definition nl_fam (c : ncfg) : Z := if n_v6 c then 10 else 2.
(** the first request, src/linux/kernel_routes_nl.c:551-553 *)
Definition first_req (c : ncfg) (e : rtent) (set : bool) : rtargs :=
  mkRA (nl_fam c) (nl_table c e) 4 0 (snd (nl_nexthop e set)) (nl_metric c e set) (n_proto c) (nl_src c)
       (if nl_host c e set then None else Some (fst (nl_nexthop e set))) (e_dst e) (e_plen e) set false false.
(** src/linux/kernel_routes_nl.c:561: delete similar routes *)
Definition similar_req (c : ncfg) (e : rtent) : rtargs :=
  mkRA (nl_fam c) (nl_table c e) 4 0 0 0 (-1) None None (e_dst e) (e_plen e) false true false.
(** src/linux/kernel_routes_nl.c:597-602: route to the gateway *)
Definition gateway_req (c : ncfg) (e : rtent) (set : bool) : rtargs :=
  mkRA (nl_fam c) (n_table c) 4 0 (snd (nl_nexthop e set)) (nl_metric c e set) (n_proto c) (nl_src c) None
       (fst (nl_nexthop e set)) ((if n_v6 c then 16 else 4) * 8) true false false.
(** src/linux/kernel_routes_nl.c:502-612 olsr_os_process_rt_entry; [a1], [a2], [a3] are the
    answers to the requests in order; the result, and the requests made with their
    answers *)
Definition process_rt_entry (c : ncfg) (e : rtent) (set : bool) (a1 a2 a3 : Z) : Z * list (rtargs * Z) :=
  let r := first_req c e set in
  if set && (a1 =? 17)
  then if a2 =? 0 then (a3, [(r, a1); (similar_req c e, a2); (r, a3)]) else (a2, [(r, a1); (similar_req c e, a2)])
  else if negb set && (a1 =? 3) then (0, [(r, a1)])
  else if negb (nl_host c e set) && n_flat c && ((a1 =? 128) || (a1 =? 101) || (a1 =? 3))
  then if a2 =? 0 then (a3, [(r, a1); (gateway_req c e set, a2); (r, a3)]) else (a2, [(r, a1); (gateway_req c e set, a2)])
  else (a1, [(r, a1)]).

(** The socket: a request makes the kernel queue one answer; recvmsg takes the first one in
    the queue, unless it fails ([rok] false, e.g. interrupted by a signal),
    src/linux/kernel_routes_nl.c:236-250.  One request: answer of the kernel, result. *)
Definition sock_step (le : bool) (queue : list (list Z)) (sok rok : bool) (answer : list Z) : Z * list (list Z) :=
  if negb sok then (netlink_send le false None, queue)
  else let q := queue ++ [answer] in
       if rok then (netlink_send le true (hd_error q), tl q) else (netlink_send le true None, q).
(** a series of requests: whether sendmsg and recvmsg succeed, the answer;
    src/linux/kernel_routes_nl.c:213-273 *)
Fixpoint sock_run (le : bool) (queue : list (list Z)) (l : list (bool * bool * list Z)) : list Z :=
  match l with
  | [] => []
  | (sok, rok, a) :: l' => let (r, q) := sock_step le queue sok rok a in r :: sock_run le q l'
  end.

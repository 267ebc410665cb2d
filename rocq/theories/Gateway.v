(** Model of the smart gateway client, IPv4 (src/gateway.c, src/gateway_list.c,
    src/gateway_default_handler.c).  Definitions only.

    - A gateway_entry is identified by its originator: the tree has no duplicates.
    - A gw_container_entry is identified by a number that is never used twice; it is
      alive exactly while it is in the list, because it is freed right where it is
      removed (src/gateway.c:738, 1434-1435) and added right where it is allocated
      (1574-1577).  Every container in the list has a tunnel (1576, cleared only
      before it is freed).
    - Not modelled: the IPv6 list (always empty with ip_version AF_INET, src/gateway.c:1524),
      doRoutesMultiGw and the names of the tunnels (they do not touch this state),
      the egress interfaces.
    - A use of freed memory, a failing assertion and a signed overflow are faults. *)
From Verif Require Import Base DupSet GwSpeed.

(** use of freed memory, a failed assertion, more gateways than src/gateway_list.h:60-65 allows *)
Inductive fault := Freed | AssertFailed | Overflow.
(** how a function of src/gateway.c ends *)
Inductive res (A : Type) := OK (a : A) | Fault (f : fault).
Arguments OK {A} a.
Arguments Fault {A} f.
(** statements one after the other, src/gateway.c *)
Definition bindr {A B} (x : res A) (f : A -> res B) : res B := match x with OK a => f a | Fault e => Fault e end.

(** src/gateway.h:98-112 struct gateway_entry; timers: running or not *)
Record gw := mkGw { g_ip : Z; g_up : Z; g_down : Z; g_cost : Z; g_v4 : bool; g_nat : bool;
                    g_exp : bool; g_cln : bool; g_seq : Z }.

(** the configuration, src/olsr_cfg.h:326-353 *)
Record gcfg := mkGcfg { c_thresh : Z; c_use : Z; c_takedown : Z; c_nat : bool; c_has4 : bool; c_stable : Z; c_w : gwcfg }.

(** what the rest of the daemon and the kernel answer during one event: the path
    cost of a TC entry (olsr_lookup_tc_entry), tc_tree.count, and whether a tunnel
    can be created (src/linux/kernel_tunnel.c:199-236) *)
Record genv := mkEnv { e_tc : Z -> option Z; e_count : Z; e_tun : Z -> bool }.

(** s_tree: gateway_tree in order; s_list, s_count: gw_list_ipv4 (container, gateway); s_cur:
    current_ipv4_gw; s_next: the next container; s_new4: gw_def_choose_new_ipv4_gw; s_timer:
    gw_def_timer; s_nodes, s_stable: gw_def_nodecount, gw_def_stablecount; s_tun: tunnels in
    the kernel; s_route: the tunnel used by the default route in rt_table_tunnel;
    src/gateway.c:86-152, src/gateway_default_handler.c:54-58 *)
Record gst := mkSt { s_tree : list gw; s_list : list (nat * Z); s_count : Z; s_cur : option nat; s_next : nat;
                     s_new4 : bool; s_timer : bool; s_nodes : Z; s_stable : Z; s_tun : list Z; s_route : option Z }.

(** src/gateway.c:820-937 and src/gateway_default_handler.c:239-246 *)
Definition ginit : gst := mkSt [] [] 0 None 0 true false 0 0 [] None.

(** olsrd_avl_find; src/gateway.c, gateway_tree *)
Definition find_gw (t : list gw) (ip : Z) : option gw := find (fun g => g_ip g =? ip) t.
(** the entry is written through its pointer; src/gateway.h:98-119 *)
Definition store (t : list gw) (g : gw) : list gw := map (fun h => if g_ip h =? g_ip g then g else h) t.
(** olsrd_avl_insert, no duplicates; src/gateway.c, gateway_tree *)
Fixpoint ins_gw (t : list gw) (g : gw) : list gw :=
  match t with
  | [] => [g]
  | h :: t' => if g_ip g <? g_ip h then g :: t else if g_ip g =? g_ip h then t else h :: ins_gw t' g
  end.
(** olsrd_avl_delete in src/gateway.c:707-720 *)
Definition del_gw (t : list gw) (ip : Z) : list gw := filter (fun g => negb (g_ip g =? ip)) t.
(** gw->path_cost through the pointer of a container; src/gateway_list.h:67-72 *)
Definition cost_of (t : list gw) (ip : Z) : Z := match find_gw t ip with Some g => g_cost g | None => 0 end.

(** assignment to a component of the state, src/gateway.c:86-152 *)
Definition set_tree (s : gst) t := mkSt t (s_list s) (s_count s) (s_cur s) (s_next s) (s_new4 s) (s_timer s) (s_nodes s) (s_stable s) (s_tun s) (s_route s).
(** assignment, as above: src/gateway.c:86-152 *)
Definition set_list (s : gst) l n := mkSt (s_tree s) l n (s_cur s) (s_next s) (s_new4 s) (s_timer s) (s_nodes s) (s_stable s) (s_tun s) (s_route s).
(** assignment, src/gateway.c:116 *)
Definition set_cur (s : gst) c := mkSt (s_tree s) (s_list s) (s_count s) c (s_next s) (s_new4 s) (s_timer s) (s_nodes s) (s_stable s) (s_tun s) (s_route s).
(** no counterpart; the next block of src/gateway.c:98 *)
Definition set_next (s : gst) n := mkSt (s_tree s) (s_list s) (s_count s) (s_cur s) n (s_new4 s) (s_timer s) (s_nodes s) (s_stable s) (s_tun s) (s_route s).
(** assignment, src/gateway_default_handler.c:56 *)
Definition set_new4 (s : gst) b := mkSt (s_tree s) (s_list s) (s_count s) (s_cur s) (s_next s) b (s_timer s) (s_nodes s) (s_stable s) (s_tun s) (s_route s).
(** assignment, src/gateway_default_handler.c:58 *)
Definition set_timer (s : gst) b := mkSt (s_tree s) (s_list s) (s_count s) (s_cur s) (s_next s) (s_new4 s) b (s_nodes s) (s_stable s) (s_tun s) (s_route s).
(** assignment, src/gateway_default_handler.c:54-55 *)
Definition set_nodes (s : gst) n k := mkSt (s_tree s) (s_list s) (s_count s) (s_cur s) (s_next s) (s_new4 s) (s_timer s) n k (s_tun s) (s_route s).
(** the kernel behind src/gateway.c *)
Definition set_kern (s : gst) t r := mkSt (s_tree s) (s_list s) (s_count s) (s_cur s) (s_next s) (s_new4 s) (s_timer s) (s_nodes s) (s_stable s) t r.

(** * gateway_list.c *)
(** src/gateway_list.h:111-114 *)
Definition list_full (c : gcfg) (s : gst) : bool := s_count s >=? c_use c.
(** src/gateway_list.c:129-145: the place of a new container *)
Fixpoint place (t : list gw) (l : list (nat * Z)) (e : nat * Z) : list (nat * Z) :=
  match l with
  | [] => [e]
  | h :: l' => if cost_of t (snd e) <=? cost_of t (snd h) then e :: l else h :: place t l' e
  end.
(** src/gateway_list.c:120-147 olsr_gw_list_add *)
Definition list_add (c : gcfg) (s : gst) (e : nat * Z) : res gst :=
  if list_full c s then Fault AssertFailed else OK (set_list s (place (s_tree s) (s_list s) e) (u8 (s_count s + 1))).
(** src/common/list.c list_remove *)
Definition unlink (l : list (nat * Z)) (id : nat) : list (nat * Z) := filter (fun e => negb (Nat.eqb (fst e) id)) l.
(** src/gateway_list.c:177-185 olsr_gw_list_remove *)
Definition list_del (s : gst) (id : nat) : res gst :=
  if s_count s =? 0 then Fault AssertFailed else OK (set_list s (unlink (s_list s) id) (u8 (s_count s - 1))).
(** src/gateway_list.c:156-168 olsr_gw_list_update *)
Definition list_update (c : gcfg) (s : gst) (e : nat * Z) : res gst := bindr (list_del s (fst e)) (fun s => list_add c s e).
(** src/gateway_list.c:93-107 olsr_gw_list_find *)
Definition list_find (s : gst) (ip : Z) : option (nat * Z) := find (fun e => snd e =? ip) (s_list s).
(** src/gateway_list.h:139-148 olsr_gw_list_get_worst_entry: the container before the head *)
Definition list_worst (s : gst) : option (nat * Z) :=
  if s_count s =? 0 then None else match s_list s with [] => None | h :: l => Some (last l h) end.

(** current_ipv4_gw->gw (src/gateway.c:1653-1659) *)
Definition current (s : gst) : res (option Z) :=
  match s_cur s with
  | None => OK None
  | Some id => match find (fun e => Nat.eqb (fst e) id) (s_list s) with Some e => OK (Some (snd e)) | None => Fault Freed end
  end.

(** * the kernel *)
(** src/linux/kernel_tunnel.c:243-258 olsr_os_del_ipip_tunnel: deleting the device
    deletes the routes through it (Linux) *)
Definition del_tunnel (s : gst) (ip : Z) : gst :=
  set_kern s (filter (fun x => negb (x =? ip)) (s_tun s))
             (match s_route s with Some r => if r =? ip then None else Some r | None => None end).
(** see above, src/linux/kernel_tunnel.c:243-258 *)
Definition add_tunnel (s : gst) (ip : Z) : gst := set_kern s (ip :: s_tun s) (s_route s).
(** src/linux/kernel_routes_nl.c:488-500 olsr_os_inetgw_tunnel_route: NLM_F_REPLACE *)
Definition set_route (s : gst) (ip : Z) : gst := set_kern s (s_tun s) (Some ip).
(** see above, src/linux/kernel_routes_nl.c:488-500 *)
Definition del_route (s : gst) (ip : Z) : gst :=
  set_kern s (s_tun s) (match s_route s with Some r => if r =? ip then None else Some r | None => None end).

(** src/gateway.c:727-739 removeGatewayFromList *)
Definition remove_from_list (s : gst) (e : nat * Z) : res gst := list_del (del_tunnel s (snd e)) (fst e).

(** src/gateway.c:761-769: the boundary of takeDownExpensiveGateways *)
Definition boundary (c : gcfg) (cost : Z) : Z :=
  if c_takedown c <? 100 then
    if cost <=? INT64_MAX / 100 then cost * 100 / c_takedown c else cost / c_takedown c * 100 + 99
  else cost.
(** src/gateway.c:772-796: the loop; [n] bounds the number of rounds *)
Fixpoint takedown_loop (n : nat) (id : nat) (b : Z) (s : gst) : res gst :=
  match n with
  | O => OK s
  | S n => if s_count s <=? 1 then OK s
           else match list_worst s with
                | None => Fault AssertFailed
                | Some w => if Nat.eqb (fst w) id || (cost_of (s_tree s) (snd w) <? b) then OK s
                            else bindr (remove_from_list s w) (takedown_loop n id b)
                end
  end.
(** src/gateway.c:749-797 takeDownExpensiveGateways; the boundary can exceed
    int64_t in spite of the scaling *)
Definition takedown (c : gcfg) (s : gst) : res gst :=
  if c_takedown c =? 0 then OK s
  else match s_cur s with
       | None => OK s
       | Some id =>
           if s_count s <=? 1 then OK s
           else bindr (current s) (fun o => match o with
                | None => OK s
                | Some ip => let b := boundary c (cost_of (s_tree s) ip) in
                             if b >? INT64_MAX then Fault Overflow else takedown_loop (length (s_list s)) id b s
                end)
       end.

(** src/gateway.c:1520-1645 olsr_set_inet_gateway (ipv4 part; the callers ignore the result) *)
Definition set_gateway (c : gcfg) (e : genv) (s : gst) (ip : Z) : res gst :=
  match find_gw (s_tree s) ip with
  | None => OK s
  | Some g =>
      if g_v4 g && (negb (g_nat g) || c_nat c) then
        bindr (current s) (fun o =>
        if match o with Some x => x =? ip | None => false end then OK s
        else match list_find s ip with
             | Some k => OK (set_cur (set_route s ip) (Some (fst k)))
             | None =>
                 bindr (if list_full c s then match list_worst s with None => Fault AssertFailed | Some w => remove_from_list s w end
                        else OK s) (fun s1 =>
                 if e_tun e ip then
                   let s2 := set_route (add_tunnel s1 ip) ip in
                   let k := s_next s2 in
                   bindr (list_add c (set_next s2 (S k)) (k, ip)) (fun s3 => OK (set_cur s3 (Some k)))
                 else OK s1)
             end)
      else OK s
  end.

(** * gateway_default_handler.c *)
(** src/gateway_default_handler.c:92-98 gw_default_calc_threshold *)
Definition threshold (c : gcfg) (cost : Z) : res Z :=
  if c_thresh c =? 0 then OK cost
  else if cost * c_thresh c + 50 >? INT64_MAX then Fault Overflow else OK ((cost * c_thresh c + 50) / 100).
(** src/gateway_default_handler.h:56-71 isGwSelectable, IPv4 *)
Definition selectable (c : gcfg) (g : gw) : bool := g_v4 g && (c_nat c || negb (g_nat g)).
(** src/gateway_default_handler.c:130-153: the loop over the gateways *)
Definition better (c : gcfg) (th : option Z) (best : option gw) (g : gw) : option gw :=
  if g_cost g =? INT64_MAX then best
  else if selectable c g && (g_cost g <? match best with Some b => g_cost b | None => INT64_MAX end)
          && match th with Some t => g_cost g <? t | None => true end
       then Some g else best.
(** see above, src/gateway_default_handler.c:130-153 *)
Definition pick (c : gcfg) (th : option Z) (t : list gw) : option gw := fold_left (better c th) t None.
(** src/gateway_default_handler.c:104-176 gw_default_choose_gateway *)
Definition choose (c : gcfg) (e : genv) (s : gst) : res gst :=
  bindr (if c_thresh c =? 0 then OK None
         else bindr (current s) (fun o => match o with
              | None => OK None
              | Some ip => bindr (threshold c (cost_of (s_tree s) ip)) (fun t => OK (Some t))
              end)) (fun th =>
  let p := if s_new4 s then pick c th (s_tree s) else None in
  let s1 := set_new4 s (s_new4 s && match p with None => true | Some _ => false end) in
  bindr (match p with Some g => set_gateway c e s1 (g_ip g) | None => OK s1 end) (fun s2 =>
  OK (if (c_thresh c =? 0) && negb (s_new4 s2) then set_timer s2 false else s2))).
(** src/gateway_default_handler.c:213-226 gw_default_lookup_gateway; the IPv6 flag is
    false after startup and never becomes true with ip_version AF_INET *)
Definition lookup (c : gcfg) (e : genv) (s : gst) (ipv4 : bool) : res gst :=
  let s1 := if ipv4 then set_new4 s true else s in if s_new4 s1 then choose c e s1 else OK s1.
(** src/gateway_default_handler.c:257-274 gw_default_startup_handler *)
Definition startup (c : gcfg) (e : genv) (s : gst) : gst :=
  set_timer (set_new4 (set_nodes s (e_count e) 0) (negb (c_has4 c))) true.
(** src/gateway_default_handler.c:308-314 gw_default_choosegw_handler *)
Definition choose_handler (c : gcfg) (e : genv) (s : gst) (ipv4 : bool) : res gst :=
  bindr (lookup c e s ipv4) (fun s1 => OK (if s_new4 s1 then startup c e s1 else s1)).
(** src/gateway_default_handler.c:321-335 gw_default_update_handler *)
Definition update_handler (c : gcfg) (e : genv) (s : gst) (g : gw) : res gst :=
  if c_thresh c =? 0 then
    bindr (current s) (fun o =>
    if match o with Some x => x =? g_ip g | None => false end && (negb (g_v4 g) || (g_nat g && negb (c_nat c)))
    then lookup c e s true else OK s)
  else lookup c e s true.
(** src/gateway_default_handler.c:342-349 gw_default_delete_handler *)
Definition delete_handler (c : gcfg) (e : genv) (s : gst) (ip : Z) : res gst :=
  bindr (current s) (fun o => if match o with Some x => x =? ip | None => false end then lookup c e s true else OK s).
(** src/gateway_default_handler.c:183-205 gw_default_timer (uint32_t products) *)
Definition timer_handler (c : gcfg) (e : genv) (s : gst) : res gst :=
  if negb (s_timer s) then OK s
  else
    let near := (u32 (e_count e * 10) >=? u32 (s_nodes s * 9)) && (u32 (e_count e * 10) <=? u32 (s_nodes s * 11)) in
    let n := if near then e_count e else s_nodes s in
    let s1 := if e_count e =? n then set_nodes s n (u32 (s_stable s + 1)) else set_nodes s (e_count e) 0 in
    if s_stable s1 >=? c_stable c then choose c e s1 else OK s1.
(** src/gateway_default_handler.c:282-300 gw_default_getcosts *)
Definition getcosts (c : gcfg) (e : genv) (g : gw) : Z :=
  match e_tc e (g_ip g) with
  | None => INT64_MAX
  | Some p => if (p >=? 4294967295) || (g_up g =? 0) || (g_down g =? 0) then INT64_MAX
              else gw_costs_weigh (c_w c) true p (g_up g) (g_down g)
  end.

(** * gateway.c *)
(** src/gateway.c:707-718 cleanup_gateway_handler *)
Definition cleanup (s : gst) (ip : Z) : gst :=
  match find_gw (s_tree s) ip with
  | None => s
  | Some g => if g_v4 g then s else set_tree s (del_gw (s_tree s) ip)
  end.
(** see above, src/gateway.c:707-718 *)
Definition no_v4 (g : gw) : gw := mkGw (g_ip g) (g_up g) (g_down g) (g_cost g) false false (g_exp g) (g_cln g) (g_seq g).
(** see above, src/gateway.c:707-718 *)
Definition timers (g : gw) (x k : bool) : gw := mkGw (g_ip g) (g_up g) (g_down g) (g_cost g) (g_v4 g) (g_nat g) x k (g_seq g).
(** src/gateway.c:1367-1483 olsr_delete_gateway_tree_entry *)
Definition delete_entry (c : gcfg) (e : genv) (s : gst) (ip : Z) (plen : Z) (immediate : bool) : res gst :=
  match find_gw (s_tree s) ip with
  | None => OK s
  | Some g =>
      let g1 := timers g false (if immediate then false else g_cln g) in
      let s1 := set_tree s (store (s_tree s) g1) in
      if g_cln g1 && negb (g_v4 g1) then OK s1
      else
        let change := (plen =? 0) && g_v4 g1 in
        let g2 := if plen =? 0 then no_v4 g1 else g1 in
        if (plen =? 255) || negb (g_v4 g2) then
          let s2 := set_tree s1 (store (s_tree s1) (no_v4 g2)) in
          bindr (delete_handler c e s2 ip) (fun s3 =>
          bindr (match list_find s3 ip with
                 | None => OK s3
                 | Some k =>
                     bindr (current s3) (fun o =>
                     let s4 := if match o with Some x => x =? ip | None => false end then set_cur (del_route s3 ip) None else s3 in
                     list_del (del_tunnel s4 ip) (fst k))
                 end) (fun s5 =>
          let s6 := if immediate then cleanup s5 ip
                    else match find_gw (s_tree s5) ip with
                         | Some h => set_tree s5 (store (s_tree s5) (timers h (g_exp h) true))
                         | None => s5
                         end in
          choose_handler c e s6 (match s_cur s6 with None => true | Some _ => false end)))
        else
          let s2 := set_tree s1 (store (s_tree s1) g2) in
          if change then update_handler c e s2 g2 else OK s2
  end.

(** what an HNA message says about a gateway (GwHna.learn); src/gateway.c,
    olsr_update_gateway_entry *)
Record ann := mkAnnounce { n_ip : Z; n_seq : Z; n_up : Z; n_down : Z; n_v4 : bool; n_nat : bool }.
(** src/gateway.c:1243-1343 olsr_update_gateway_entry, prefix 0.0.0.0/0 *)
Definition update_entry (c : gcfg) (e : genv) (s : gst) (a : ann) : res gst :=
  let old := find_gw (s_tree s) (n_ip a) in
  let g0 := match old with Some g => g | None => mkGw (n_ip a) 0 0 0 false false false false 0 end in
  let s0 := match old with Some _ => s | None => set_tree s (ins_gw (s_tree s) g0) end in
  if match old with Some g => seqno_diff (n_seq a) (g_seq g) <=? 0 | None => false end then OK s
  else
    let g1 := mkGw (n_ip a) (n_up a) (n_down a) INT64_MAX (n_v4 a) (n_nat a) (g_exp g0) (g_cln g0) (n_seq a) in
    let s1 := set_tree s0 (store (s_tree s0) g1) in
    if (n_up a =? 0) || (n_down a =? 0) then delete_entry c e s1 (n_ip a) 255 true
    else
      let g2 := mkGw (n_ip a) (n_up a) (n_down a) (getcosts c e g1) (n_v4 a) (n_nat a) true false (n_seq a) in
      let s2 := set_tree s1 (store (s_tree s1) g2) in
      bindr (if negb (g_cost g2 =? INT64_MAX) then
               match list_find s2 (n_ip a) with Some k => list_update c s2 k | None => OK s2 end
             else OK s2) (fun s3 => update_handler c e s3 g2).

(** src/gateway.c:693-700 expire_gateway_handler: for IPv4 external_prefix.prefix_len is 0 *)
Definition expire (c : gcfg) (e : genv) (s : gst) (ip : Z) : res gst :=
  match find_gw (s_tree s) ip with
  | Some g => if g_exp g then delete_entry c e s ip 0 false else OK s
  | None => OK s
  end.
(** the cleanup timer fires; src/gateway.c:707-720 cleanup_gateway_handler *)
Definition cleanup_timer (s : gst) (ip : Z) : gst :=
  match find_gw (s_tree s) ip with Some g => if g_cln g then cleanup s ip else s | None => s end.
(** src/gateway.c:1489-1506 olsr_trigger_gatewayloss_check *)
Definition loss_check (c : gcfg) (e : genv) (s : gst) : res gst :=
  bindr (current s) (fun o => match o with
  | None => OK s
  | Some ip => if match e_tc e ip with None => true | Some p => p >=? 4294967295 end then choose_handler c e s true else OK s
  end).

(** everything that happens to this part of the daemon: an announcement
    (src/hna_set.c:447-452), the timers of an entry, the timers of the handler and of the
    takedown, the end of a route calculation (src/olsr_spf.c:519) and the deletion of
    a TC entry (src/tc_set.c:289), the start (src/main.c:736) *)
Inductive gev := Ann (a : ann) | Expire (ip : Z) | Cleanup (ip : Z) | Timer | Takedown | LossCheck | TcGone (ip : Z) | Start.
(** see above, src/hna_set.c:447-452 *)
Definition gstep (c : gcfg) (e : genv) (s : gst) (x : gev) : res gst :=
  match x with
  | Ann a => update_entry c e s a
  | Expire ip => expire c e s ip
  | Cleanup ip => OK (cleanup_timer s ip)
  | Timer => timer_handler c e s
  | Takedown => takedown c s
  | LossCheck => loss_check c e s
  | TcGone ip => delete_entry c e s ip 255 false
  | Start => OK (startup c e s)
  end.
(** see above, src/hna_set.c:447-452 *)
Fixpoint grun (c : gcfg) (s : gst) (l : list (genv * gev)) : res gst :=
  match l with
  | [] => OK s
  | (e, x) :: l' => bindr (gstep c e s x) (fun s' => grun c s' l')
  end.

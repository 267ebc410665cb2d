(** Model of the routes for several uplinks (src/gateway.c, the part for
    SmartGatewayUseCount > 1, IPv4).  The interfaces and the egress file are those of
    Egress.v. *)
From Verif Require Import Base Regex GwSpeed Egress.

(** src/egressTypes.h:63-80 the route of struct sgw_route_info.  The fields which are the
    same in all routes (family, metric, protocol, srcSet, del_similar) are left out; all
    routes have a destination, an address and a prefix length *)
Record rt := mkRt { r_table : Z; r_flags : Z; r_scope : Z; r_if : Z; r_gw : option Z; r_dst : Z * Z; r_black : bool }.
(** src/egressTypes.h:60-81 struct sgw_route_info; [None] when the route is all zero *)
Record ri := mkRi { ri_act : bool; ri_rt : option rt }.
(** memset of src/gateway.c:819-822,2097-2098,2130-2131 *)
Definition ri0 : ri := mkRi false None.
(** memcmp of two routes (src/gateway.c:1927,2061,2112) *)
Definition rt_eqb (a b : rt) : bool :=
  (r_table a =? r_table b) && (r_flags a =? r_flags b) && (r_scope a =? r_scope b) && (r_if a =? r_if b) && gw_eqb (r_gw a) (r_gw b)
  && ((fst (r_dst a) =? fst (r_dst b)) && (snd (r_dst a) =? snd (r_dst b))) && eqb (r_black a) (r_black b).
(** routeChanged of src/gateway.c:1925-1927,2059-2061,2110-2112,2143-2145 *)
Definition route_changed (a b : ri) : bool :=
  negb (eqb (ri_act a) (ri_act b)) ||
  negb match ri_rt a, ri_rt b with Some x, Some y => rt_eqb x y | None, None => true | _, _ => false end.

(** src/egressTypes.h:101-135 struct sgw_egress_if with tableNr, upChanged,
    networkRouteCurrent and egressRouteCurrent *)
Record mif := mkM { m_e : eif; m_table : Z; m_upchg : bool; m_net : ri; m_def : ri }.
(** the costs of an interface (src/egressTypes.h:98) *)
Definition m_costs (m : mif) : Z := b_costs (e_cur (m_e m)).
(** the current gateway (current_ipv4_gw, src/gateway.c:116): the gateway, its path_cost and
    the if_index of its tunnel *)
Record gwc := mkGw { gw_id : Z; gw_cost : Z; gw_tun : option Z }.
(** struct BestOverallLink (src/gateway.c:130-138); link: an interface, by its position in
    the list, or a gateway; [None] is NULL *)
Record ov := mkOv { ov_valid : bool; ov_olsr : bool; ov_link : option (nat + Z); ov_tun : Z }.
(** memset of src/gateway.c:848 *)
Definition ov0 : ov := mkOv false false None 0.
(** memcmp of src/gateway.c:1769 *)
Definition ov_eqb (a b : ov) : bool :=
  eqb (ov_valid a) (ov_valid b) && eqb (ov_olsr a) (ov_olsr b) && (ov_tun a =? ov_tun b) &&
  match ov_link a, ov_link b with
  | None, None => true | Some (inl i), Some (inl j) => Nat.eqb i j | Some (inr i), Some (inr j) => i =? j | _, _ => false
  end.

(** the globals (src/gateway.c:116,140-152), cachedStat and reportedErrors of the egress file,
    and the announced speeds (olsr_cnf->smart_gw_uplink and -downlink) *)
Record mgw := mkMg { g_ifs : list mif; g_best : option nat; g_ov : ov; g_broute : ri; g_ovr : ri * ri; g_alldown : bool;
  g_up : Z; g_down : Z; g_gw : option gwc; g_time : Z * Z; g_rep : bool }.
(** the configuration: RtTable and SmartGatewayTablesOffset (olsr_cnf->rt_table,
    src/olsr_cfg.h:339), the weights *)
Record mcfg := mkMc { mc_rt : Z; mc_off : Z; mc_w : gwcfg; mc_p6 : list Z -> option (list Z) }.
(** what the system answers: isInterfaceUp (src/gateway.c:1772-1801), whether a netlink
    request to add (true) or delete a route succeeds, and allOlsrInterfacesDown *)
Record world := mkW { w_up : Z -> bool; w_ok : bool -> rt -> bool; w_alldown : bool }.
(** src/gateway.h:114-118 enum sgw_multi_change_phase *)
Inductive phase := Startup | Runtime | Shutdown.
(** MSGW_ROUTE_FORCED (src/gateway.c:1669) *)
Definition forced (ph : phase) : bool := match ph with Runtime => false | _ => true end.
(** MSGW_ROUTE_ADD_FORCED, MSGW_ROUTE_DEL_FORCED, and the negations of
    MSGW_ROUTE_ADD_ALLOWED and MSGW_ROUTE_DEL_ALLOWED (src/gateway.c:1665-1668) *)
Definition is_start (ph : phase) : bool := match ph with Startup => true | _ => false end.
(** src/gateway.c:1667-1668 *)
Definition is_stop (ph : phase) : bool := match ph with Shutdown => true | _ => false end.
(** a request to the kernel, olsr_new_netlink_route: add or delete, and whether it succeeded;
    src/linux/kernel_routes_nl.c:347 *)
Definition req : Type := bool * rt * bool.

(** src/gateway.c:1811-1840 programRoute *)
Definition programRoute (W : world) (add : bool) (r : ri) : ri * list req :=
  match ri_act r, ri_rt r with
  | true, Some x => if w_up W (r_if x) then (mkRi (w_ok W add x && add) (Some x), [(add, x, w_ok W add x)]) else (r, [])
  | _, _ => (r, [])
  end.
(** src/gateway.c:1929-1935,2063-2069,2114-2120,2147-2153: the previous route is removed and
    the current one added *)
Definition reprogram (W : world) (ph : phase) (prev cur : ri) : ri * list req :=
  let ch := route_changed prev cur in
  let d := if (ch || is_stop ph) && negb (is_start ph) then snd (programRoute W false prev) else [] in
  let a := if (ch || is_start ph) && negb (is_stop ph) then programRoute W true cur else (cur, []) in
  (fst a, d ++ snd a).

(** src/gateway.c:1951-2021 determineEgressLinkRoute; RTNH_F_ONLINK is 4, RT_SCOPE_LINK is
    253, RT_SCOPE_UNIVERSE is 0.  The destination is never NULL *)
Definition determineEgressLinkRoute (net : bool) (i : Z) (gw : option Z) (dst : Z * Z) (table : Z) : ri :=
  mkRi true (Some
    (if i <=? 0 then mkRt table 4 0 0 None dst true
     else match gw with
          | None => mkRt table (if net then 0 else 4) 253 i None dst false
          | Some a => mkRt table 0 0 i (Some a) dst false
          end)).

(** src/gateway.c:1694-1701 the loop of determineBestEgressLink *)
Fixpoint scan (W : world) (i : nat) (b : nat * mif) (ms : list mif) : nat * mif :=
  match ms with
  | [] => b
  | m :: ms' => scan W (S i) (if e_up (m_e m) && ((m_costs m <? m_costs (snd b)) && w_up W (e_index (m_e m))) then (i, m) else b) ms'
  end.
(** src/gateway.c:1685-1706 the new best egress link *)
Definition best_of (W : world) (ph : phase) (ms : list mif) : option nat :=
  match ph, ms with
  | Shutdown, _ | _, [] => None
  | _, m :: ms' => let b := scan W 1 (0%nat, m) ms' in
                   if negb (e_up (m_e (snd b))) || (m_costs (snd b) =? INT64_MAX) then None else Some (fst b)
  end.
(** pointer comparison of src/gateway.c:1711 *)
Definition opt_nat_eqb (a b : option nat) : bool :=
  match a, b with Some i, Some j => Nat.eqb i j | None, None => true | _, _ => false end.
(** an interface of the list, by its position; src/gateway.c:1683-1735 *)
Definition nth_if (ms : list mif) (b : option nat) : option mif := match b with Some i => nth_error ms i | None => None end.
(** src/gateway.c:1683-1726 determineBestEgressLink: the state and [changed] *)
Definition determineBestEgressLink (W : world) (ph : phase) (g : mgw) : mgw * bool :=
  let b := best_of W ph (g_ifs g) in
  let changed := negb (opt_nat_eqb (g_best g) b) ||
                 match nth_if (g_ifs g) b with Some m => m_upchg m || e_bchg (m_e m) | None => false end in
  let (u, d) := if changed || forced ph
                then match nth_if (g_ifs g) b with
                     | Some m => if e_up (m_e m) then (b_up (e_cur (m_e m)), b_down (e_cur (m_e m))) else (0, 0)
                     | None => (0, 0)
                     end
                else (g_up g, g_down g) in
  (mkMg (g_ifs g) b (g_ov g) (g_broute g) (g_ovr g) (g_alldown g) u d (g_gw g) (g_time g) (g_rep g), changed).

(** src/gateway.c:1738-1767 determineBestOverallLink: the new value *)
Definition best_overall (ph : phase) (g : mgw) : ov :=
  let ec := match nth_if (g_ifs g) (g_best g) with Some m => m_costs m | None => INT64_MAX end in
  let oc := match g_gw g with Some c => if g_alldown g then INT64_MAX else gw_cost c | None => INT64_MAX end in
  if (Z.min ec oc =? INT64_MAX) || is_stop ph then ov0
  else if ec <=? oc then mkOv (match g_best g with Some _ => true | None => false end) false (option_map inl (g_best g)) 0
  else match g_gw g with
       | Some c => mkOv true true (Some (inr (gw_id c))) (match gw_tun c with Some t => t | None => 0 end)
       | None => ov0
       end.

(** ipv4_slash_0_route and ipv4_slash_1_routes (src/gateway.c:824-832) *)
Definition slash0 : Z * Z := (0, 0).
(** src/gateway.c:829-830 *)
Definition slash1a : Z * Z := (0, 1).
(** src/gateway.c:831-832 *)
Definition slash1b : Z * Z := (2147483648, 1).
(** src/gateway.c:1851-1874 the interface and the gateway of the best overall link *)
Definition overall_if (g : mgw) : Z * option Z :=
  if negb (ov_valid (g_ov g)) then (0, None)
  else if negb (ov_olsr (g_ov g))
  then match ov_link (g_ov g) with
       | Some (inl i) => match nth_error (g_ifs g) i with Some m => (e_index (m_e m), b_gw (e_cur (m_e m))) | None => (0, None) end
       | _ => (0, None)
       end
  else match g_gw g with Some c => (match gw_tun c with Some t => t | None => 0 end, None) | None => (0, None) end.
(** src/gateway.c:1876-1902 one of the routes of determineBestOverallLinkRoutes *)
Definition overall_route (C : mcfg) (g : mgw) (dst : Z * Z) (old : ri) : ri :=
  let (i, gw) := overall_if g in
  if i =? 0 then mkRi false (ri_rt old)
  else mkRi true (Some (mkRt (mc_rt C) 0 (match gw with None => 253 | Some _ => 0 end) i gw dst false)).
(** src/gateway.c:1912-1938 setupDefaultGatewayOverrideRoutes; [prev] is
    bestOverallLinkPrevious *)
Definition setupOverride (C : mcfg) (W : world) (ph : phase) (prev : ov) (g : mgw) : mgw * list req :=
  if negb (ov_valid prev) && negb (ov_valid (g_ov g)) && negb (forced ph) then (g, [])
  else let (a, b) := g_ovr g in
       let (a', ta) := reprogram W ph a (overall_route C g slash1a a) in
       let (b', tb) := reprogram W ph b (overall_route C g slash1b b) in
       (mkMg (g_ifs g) (g_best g) (g_ov g) (g_broute g) (a', b') (g_alldown g) (g_up g) (g_down g) (g_gw g) (g_time g) (g_rep g), ta ++ tb).

(** src/gateway.c:2049-2056 the route of the best egress link *)
Definition best_route (C : mcfg) (g : mgw) : ri :=
  match nth_if (g_ifs g) (g_best g) with
  | Some m => determineEgressLinkRoute false (e_index (m_e m)) (b_gw (e_cur (m_e m))) slash0 (mc_off C)
  | None => determineEgressLinkRoute false 0 None slash0 (mc_off C)
  end.
(** src/gateway.c:2032-2071 configureBestEgressLinkRoute; [prev] is
    bestEgressLinkPrevious *)
Definition configureBest (C : mcfg) (W : world) (ph : phase) (prev : option nat) (g : mgw) : mgw * list req :=
  match prev, g_best g, forced ph with
  | None, None, false => (g, [])
  | _, _, _ => let (r, t) := reprogram W ph (g_broute g) (best_route C g) in
               (mkMg (g_ifs g) (g_best g) (g_ov g) r (g_ovr g) (g_alldown g) (g_up g) (g_down g) (g_gw g) (g_time g) (g_rep g), t)
  end.

(** src/gateway.c:2096-2108 the network route of an interface *)
Definition net_route (m : mif) : ri :=
  let e := m_e m in
  match b_net (e_cur e) with
  | Some n => if negb (b_rn (e_cur e)) || negb (e_up e) then ri0 else determineEgressLinkRoute true (e_index e) None n (m_table m)
  | None => ri0
  end.
(** src/gateway.c:2129-2141 its default route *)
Definition def_route (m : mif) : ri :=
  let e := m_e m in
  if (b_rg (e_cur e) && match b_gw (e_cur e) with None => true | Some _ => false end) || negb (e_up e) then ri0
  else determineEgressLinkRoute false (e_index e) (b_gw (e_cur e)) slash0 (m_table m).
(** src/gateway.c:2084-2154 configureEgressLinkRoutes, one interface *)
Definition configure_if (W : world) (ph : phase) (m : mif) : mif * list req :=
  let e := m_e m in
  let (n, tn) := if m_upchg m || e_nchg e || forced ph then reprogram W ph (m_net m) (net_route m) else (m_net m, []) in
  let (d, td) := if m_upchg m || e_gchg e || forced ph then reprogram W ph (m_def m) (def_route m) else (m_def m, []) in
  (mkM e (m_table m) (m_upchg m) n d, tn ++ td).
(** src/gateway.c:2079-2158 *)
Fixpoint configure_ifs (W : world) (ph : phase) (ms : list mif) : list mif * list req :=
  match ms with
  | [] => ([], [])
  | m :: ms' => let (m1, t1) := configure_if W ph m in let (ms2, t2) := configure_ifs W ph ms' in (m1 :: ms2, t1 ++ t2)
  end.

(** src/gateway.c:2408-2420 *)
Definition clear_flags (m : mif) : mif :=
  let e := m_e m in
  mkM (mkE (e_name e) (e_index e) (e_up e) (e_prev e) (e_cur e) false false false false (e_in e)) (m_table m) false (m_net m) (m_def m).
(** a state with other interfaces, best overall link or flag; src/gateway.c:140-150 *)
Definition with_ifs (g : mgw) (ms : list mif) : mgw :=
  mkMg ms (g_best g) (g_ov g) (g_broute g) (g_ovr g) (g_alldown g) (g_up g) (g_down g) (g_gw g) (g_time g) (g_rep g).
(** assignment of src/gateway.c:1746-1767 *)
Definition with_ov (g : mgw) (o : ov) : mgw :=
  mkMg (g_ifs g) (g_best g) o (g_broute g) (g_ovr g) (g_alldown g) (g_up g) (g_down g) (g_gw g) (g_time g) (g_rep g).
(** assignment of src/gateway.c:2375 *)
Definition with_alldown (g : mgw) (b : bool) : mgw :=
  mkMg (g_ifs g) (g_best g) (g_ov g) (g_broute g) (g_ovr g) b (g_up g) (g_down g) (g_gw g) (g_time g) (g_rep g).
(** assignments of src/gateway.c:1546,1577,1405 *)
Definition with_gw (g : mgw) (c : option gwc) : mgw :=
  mkMg (g_ifs g) (g_best g) (g_ov g) (g_broute g) (g_ovr g) (g_alldown g) (g_up g) (g_down g) c (g_time g) (g_rep g).

(** src/gateway.c:2383-2404 the part of doRoutesMultiGw in which routes are changed *)
Definition do_routes (C : mcfg) (W : world) (eg ol : bool) (ph : phase) (g : mgw) : mgw * list req :=
  let prev := g_best g in
  let '(g1, be, t1) :=
    if eg || forced ph
    then let (g', c) := determineBestEgressLink W ph g in
         let (ms, t) := configure_ifs W ph (g_ifs g') in (with_ifs g' ms, c, t)
    else (g, false, []) in
  let pov := g_ov g1 in
  let '(g2, bo) :=
    if ol || be || forced ph then let o := best_overall ph g1 in (with_ov g1 o, negb (ov_eqb o pov)) else (g1, false) in
  let (g3, t3) := if bo || forced ph then setupOverride C W ph pov g2 else (g2, []) in
  let (g4, t4) := if be || forced ph then configureBest C W ph prev g3 else (g3, []) in
  (g4, t1 ++ t3 ++ t4).
(** src/gateway.c:2364-2421 doRoutesMultiGw; the log and the status file are left out *)
Definition doRoutesMultiGw (C : mcfg) (W : world) (eg ol : bool) (ph : phase) (g : mgw) : mgw * list req :=
  let ol := ol || negb (eqb (w_alldown W) (g_alldown g)) in
  let g := with_alldown g (w_alldown W) in
  let (g1, t) := if eg || ol || forced ph then do_routes C W eg ol ph g else (g, []) in
  (if eg then with_ifs g1 (map clear_flags (g_ifs g1)) else g1, t).

(** the interfaces after the egress file has been read; src/egressFile.c *)
Fixpoint put_es (ms : list mif) (es : list eif) : list mif :=
  match ms, es with m :: ms', e :: es' => mkM e (m_table m) (m_upchg m) (m_net m) (m_def m) :: put_es ms' es' | _, _ => [] end.
(** readEgressFile on the interfaces (src/egressFile.c:382,435) *)
Definition read_file (C : mcfg) (f : found) (g : mgw) : mgw * bool :=
  let '(s, ch, _) := readEgressFile (mc_w C) (mc_p6 C) (mkS (g_time g) (g_rep g) (map m_e (g_ifs g))) f in
  (mkMg (put_es (g_ifs g) (s_ifs s)) (g_best g) (g_ov g) (g_broute g) (g_ovr g) (g_alldown g) (g_up g) (g_down g) (g_gw g) (s_time s) (s_rep s), ch).
(** src/egressFile.c:381-385 egress_file_timer_callback *)
Definition poll (C : mcfg) (W : world) (f : found) (g : mgw) : mgw * list req :=
  let (g1, ch) := read_file C f g in
  if ch then doRoutesMultiGw C W true false Runtime g1 else (g1, []).

(** src/gateway.c:605-616,637-641 an interface goes up or down *)
Definition set_up (w : gwcfg) (up : bool) (i : Z) (m : mif) : mif :=
  let e := m_e m in
  let c := bw_costs w up (e_cur e) in
  mkM (mkE (e_name e) i up (e_prev e) c (costs_changed (e_cur e) c) (e_nchg e) (e_gchg e) (e_bchg e) (e_in e)) (m_table m) true (m_net m) (m_def m).
(** src/gateway.c:605 *)
Definition set_index (i : Z) (m : mif) : mif :=
  let e := m_e m in
  mkM (mkE (e_name e) i (e_up e) (e_prev e) (e_cur e) (e_cchg e) (e_nchg e) (e_gchg e) (e_bchg e) (e_in e)) (m_table m) (m_upchg m) (m_net m) (m_def m).
(** src/gateway.c:599-616 the first interface with the name; [None]: there is no change *)
Fixpoint if_add (w : gwcfg) (name : list Z) (i : Z) (ms : list mif) : list mif * bool :=
  match ms with
  | [] => ([], false)
  | m :: ms' => if leqb (e_name (m_e m)) name
                then if e_up (m_e m) then (set_index i m :: ms', false) else (set_up w true i m :: ms', true)
                else let (ms2, c) := if_add w name i ms' in (m :: ms2, c)
  end.
(** src/gateway.c:625-641 the first interface with the index *)
Fixpoint if_remove (w : gwcfg) (i : Z) (ms : list mif) : list mif * bool :=
  match ms with
  | [] => ([], false)
  | m :: ms' => if e_index (m_e m) =? i
                then if e_up (m_e m) then (set_up w false i m :: ms', true) else (ms, false)
                else let (ms2, c) := if_remove w i ms' in (m :: ms2, c)
  end.
(** src/interfaces.h:196-200 enum olsr_ifchg_flag; for a new interface the result of
    if_indextoname (src/gateway.c:594) *)
Inductive ifchg := IfAdd (name : option (list Z)) | IfRemove | IfUpdate.
(** src/gateway.c:582-650 doEgressInterface *)
Definition doEgressInterface (C : mcfg) (W : world) (i : Z) (f : ifchg) (g : mgw) : mgw * list req :=
  let '(ms, c) := match f with
                  | IfAdd (Some name) => if_add (mc_w C) name i (g_ifs g)
                  | IfRemove => if_remove (mc_w C) i (g_ifs g)
                  | _ => (g_ifs g, false)
                  end in
  let g1 := with_ifs g ms in
  if c then doRoutesMultiGw C W true false Runtime g1 else (g1, []).
(** src/gateway.c:664-686 smartgw_tunnel_monitor; [olsr]: the interface is one of olsrd *)
Definition monitor (C : mcfg) (W : world) (i : Z) (olsr : bool) (f : ifchg) (g : mgw) : mgw * list req :=
  let (g1, t1) := if olsr then (g, []) else doEgressInterface C W i f g in
  let (g2, t2) := doRoutesMultiGw C W true true Runtime g1 in (g2, t1 ++ t2).

(** src/gateway.c:853-879 an interface at the start: its name, index and state *)
Definition init_if (C : mcfg) (n : nat) (x : list Z * Z * bool) : mif :=
  let '(name, i, up) := x in
  mkM (mkE name i up (bw_clear (mc_w C) up) (bw_clear (mc_w C) up) false false false false false) (u8 (mc_off C + 1 + Z.of_nat n)) false ri0 ri0.
(** src/gateway.c:858-879 *)
Fixpoint init_ifs (C : mcfg) (n : nat) (xs : list (list Z * Z * bool)) : list mif :=
  match xs with [] => [] | x :: xs' => init_if C n x :: init_ifs C (S n) xs' end.
(** src/gateway.c:814-880 olsr_init_gateways *)
Definition init (C : mcfg) (xs : list (list Z * Z * bool)) : mgw :=
  mkMg (init_ifs C 0 xs) None ov0 ri0 (ri0, ri0) false 0 0 None (0, 0) false.
(** src/gateway.c:963-964 startEgressFile and the routes; the check for a race
    (src/gateway.c:968-984) is a sequence of calls of [monitor] *)
Definition startup (C : mcfg) (W : world) (f : found) (g : mgw) : mgw * list req :=
  doRoutesMultiGw C W true false Startup (fst (read_file C f g)).
(** src/gateway.c:1011-1027 an interface at the end *)
Definition stop_if (w : gwcfg) (m : mif) : mif :=
  let e := m_e m in
  let c := bw_clear w false in
  mkM (mkE (e_name e) (e_index e) false (e_cur e) c (costs_changed (e_cur e) c) (net_changed (e_cur e) c) (gw_changed (e_cur e) c)
         (costs_changed (e_cur e) c || net_changed (e_cur e) c || gw_changed (e_cur e) c) false)
      (m_table m) (negb (eqb (e_up e) false)) (m_net m) (m_def m).
(** src/gateway.c:995-1031 olsr_shutdown_gateways *)
Definition shutdown (C : mcfg) (W : world) (g : mgw) : mgw * list req :=
  doRoutesMultiGw C W true false Shutdown (with_ifs g (map (stop_if (mc_w C)) (g_ifs g))).

(** what happens while olsrd runs: the egress file is polled, an interface changes, a
    gateway is set or its costs change (src/gateway.c:1324,1550,1580), or the gateway is
    lost and there is no other one (src/gateway.c:1403-1454: no call of doRoutesMultiGw) *)
Inductive gop := Poll (f : found) | IfChange (i : Z) (olsr : bool) (f : ifchg) | SetGw (c : gwc) | LoseGw.
(** one of them; src/gateway.c *)
Definition gstep (C : mcfg) (W : world) (o : gop) (g : mgw) : mgw * list req :=
  match o with
  | Poll f => poll C W f g
  | IfChange i olsr f => monitor C W i olsr f g
  | SetGw c => doRoutesMultiGw C W false true Runtime (with_gw g (Some c))
  | LoseGw => (with_gw g None, [])
  end.

(** src/cfgparser/olsrd_conf.c:78 valueInRange *)
Definition in_between (v a b : Z) : bool := (a <=? v) && (v <=? b).
(** src/cfgparser/olsrd_conf.c:80-82 rangesOverlap *)
Definition ranges_overlap (a b c d : Z) : bool := in_between a c d || in_between b c d || in_between c a b || in_between d a b.
(** src/cfgparser/olsrd_conf.c:797-835 the check of SmartGatewayTablesOffset: [n] egress
    interfaces, [use] gateways *)
Definition tables_accepted (off n use : Z) : bool :=
  let nr := 1 + n + use in
  negb (off =? 0) && (off <=? 2147483648 - nr + 1) && negb (ranges_overlap off (off + nr) 253 255).

(** Model of the routing table and of its transfer to the kernel
    (src/routing_table.c, src/process_routes.c, src/linux/kernel_routes_nl.c).
    Definitions only.  Not modelled: host emulation, NIIT, replaced route
    functions of plugins, the error codes 17, 101 and 128 of the kernel
    (kernel_routes_nl.c:551-565, 574-606): a request is either executed or
    refused without effect. *)
From Verif Require Import Base Parser Compare RtBest.

(** src/olsr_cfg.h:191-197 olsr_fib_metric_options *)
Inductive fibm := FLAT | CORRECT | APPROX.

(** the configuration that matters, and the properties of the kernel: [cf_gwnet] is
    is_prefix_inetgw, [cf_rep] says that a new route replaces one with the same destination and
    metric; src/olsr_cfg.h, src/linux/kernel_routes_nl.c *)
Record rcfg := mkCf { cf_v6 : bool; cf_le : bool; cf_fib : fibm; cf_default : Z; cf_smart : bool; cf_maxplen : Z;
                      cf_gwnet : list Z * Z -> bool; cf_scale : Z -> Z; cf_rep : bool }.

(** src/routing_table.h:82-90 rt_entry; the best path is named by its originator *)
Record rentry := mkRe { re_dst : list Z * Z; re_paths : list rpath; re_best : option (list Z);
                        re_gw : list Z; re_iif : Z; re_hops : Z; re_cost : Z }.

(** a route of the kernel: destination, metric, gateway, interface;
    src/linux/kernel_routes_nl.c:347 *)
Record kroute := mkKr { k_dst : list Z * Z; k_metric : Z; k_gw : list Z; k_oif : Z }.

(** src/routing_table.c:73-84: routingtree, routingtree_version, current_inetgw;
    and the table of the kernel *)
Record rst := mkRs { rs_ents : list rentry; rs_ver : Z; rs_inetgw : option (list Z * (list Z * Z)); rs_kern : list kroute }.

(** src/routing_table.c, olsr_init_routing_table *)
Definition rs_init : rst := mkRs [] 0 None [].

(** equality of struct olsr_ip_prefix as in src/routing_table.c:107-165 *)
Definition dst_eqb (p q : list Z * Z) : bool := bytes_eqb (fst p) (fst q) && (snd p =? snd q).

(** equality of kernel routes, what a deletion request has to match
    (src/linux/kernel_routes_nl.c:407-447) *)
Definition kr_eqb (r s : kroute) : bool :=
  dst_eqb (k_dst r) (k_dst s) && (k_metric r =? k_metric s) && bytes_eqb (k_gw r) (k_gw s) && (k_oif r =? k_oif s).

(** src/ipcalc.h:191-195 ip_is_linklocal *)
Definition is_linklocal (v6 : bool) (a : list Z) : bool :=
  v6 && match a with x :: y :: _ => (x =? 254) && (Z.land y 192 =? 128) | _ => false end.

(** src/linux/kernel_routes_nl.c:510-521: the metric of a request *)
Definition kmetric (cf : rcfg) (d : list Z * Z) (hops : Z) : Z :=
  (match cf_fib cf with FLAT => cf_default cf | _ => hops end) + (if cf_smart cf && cf_gwnet cf d then 2 else 0).

(** the kernel executes a request to add (NLM_F_CREATE | NLM_F_REPLACE,
    src/linux/kernel_routes_nl.c:384-386) or to delete (387-389); deleting a
    route that does not exist is reported as success (567-573) *)
Definition kadd (cf : rcfg) (r : kroute) (k : list kroute) : list kroute :=
  filter (fun s => negb (cf_rep cf && dst_eqb (k_dst s) (k_dst r) && (k_metric s =? k_metric r))) k ++ [r].
(** see above, src/linux/kernel_routes_nl.c:384-386 *)
Definition kdel (r : kroute) (k : list kroute) : list kroute := filter (fun s => negb (kr_eqb s r)) k.

(** src/linux/kernel_routes_nl.c:502-549 with set = false: the route as stored in the entry *)
Definition stored (cf : rcfg) (e : rentry) : kroute := mkKr (re_dst e) (kmetric cf (re_dst e) (re_hops e)) (re_gw e) (re_iif e).
(** the same with set = true: the route of the best path; src/linux/kernel_routes_nl.c *)
Definition wanted (cf : rcfg) (d : list Z * Z) (p : rpath) : kroute := mkKr d (kmetric cf d (rp_hops p)) (rp_gw p) (rp_iif p).

(** src/process_routes.c:159-189 olsr_delete_kernel_route; [acc add d] says
    whether the kernel executes the request of this update for [d] *)
Definition delete_kernel_route (cf : rcfg) (acc : bool -> list Z * Z -> bool) (e : rentry) (k : list kroute) : list kroute * bool :=
  if (re_hops e >? 1) && is_linklocal (cf_v6 cf) (fst (re_dst e)) then (k, true)
  else if acc false (re_dst e) then (kdel (stored cf e) k, true)
  else (k, false).

(** find a path by its originator; src/routing_table.c:340 *)
Definition find_path (o : list Z) (ps : list rpath) : option rpath := find (fun p => bytes_eqb (rp_orig p) o) ps.

(** src/process_routes.c:196-232 olsr_add_kernel_route; a NULL rt_best is
    dereferenced: [None] *)
Definition add_kernel_route (cf : rcfg) (acc : bool -> list Z * Z -> bool) (e : rentry) (k : list kroute) : option (list kroute * rentry) :=
  match re_best e with
  | None => None
  | Some o =>
    match find_path o (re_paths e) with
    | None => None
    | Some p =>
      if (rp_hops p >? 1) && is_linklocal (cf_v6 cf) (fst (re_dst e)) then Some (k, e)
      else if acc true (re_dst e)
           then Some (kadd cf (wanted cf (re_dst e) p) k,
                      mkRe (re_dst e) (re_paths e) (re_best e) (rp_gw p) (rp_iif p) (rp_hops p) (rp_cost p))
           else Some (k, e)
    end
  end.

(** src/process_routes.c:265-268: are old routes deleted before new ones are added *)
Definition del_first (cf : rcfg) : bool := cf_v6 cf || match cf_fib cf with FLAT => false | _ => true end.

(** src/routing_table.c:206, 318 *)
Definition find_ent (d : list Z * Z) (l : list rentry) : option rentry := find (fun e => dst_eqb (re_dst e) d) l.
(** writing through the pointer to an entry, src/routing_table.h:82-100 *)
Definition set_ent (e : rentry) (l : list rentry) : list rentry := map (fun x => if dst_eqb (re_dst x) (re_dst e) then e else x) l.

(** src/process_routes.c:241-280 olsr_chg_kernel_routes over the queue [c] *)
Fixpoint chg_kernel_routes (cf : rcfg) (acc : bool -> list Z * Z -> bool) (c : list (list Z * Z)) (l : list rentry) (k : list kroute)
  : option (list rentry * list kroute) :=
  match c with
  | [] => Some (l, k)
  | d :: c' =>
    match find_ent d l with
    | None => None
    | Some e =>
      let k1 := if del_first cf && (re_iif e >? -1) then fst (delete_kernel_route cf acc e k) else k in
      match add_kernel_route cf acc e k1 with
      | None => None
      | Some (k2, e') => chg_kernel_routes cf acc c' (set_ent e' l) k2
      end
    end
  end.

(** src/process_routes.c:288-316 olsr_delete_outdated_routes *)
Definition delete_outdated (ver : Z) (e : rentry) : rentry :=
  let ps := filter (fun p => rp_ver p =? ver) (re_paths e) in
  mkRe (re_dst e) ps
       (match re_best e with None => None | Some o => match find_path o (re_paths e) with
                                                       | Some p => if rp_ver p =? ver then Some o else None
                                                       | None => Some o end end)
       (re_gw e) (re_iif e) (re_hops e) (re_cost e).

(** src/routing_table.c:497-519 olsr_rt_best: the path and the new current_inetgw *)
Definition is_inetgw (g : option (list Z * (list Z * Z))) (d : list Z * Z) (o : list Z) : bool :=
  match g with Some (o', d') => bytes_eqb o o' && dst_eqb d d' | None => false end.
(** see above, src/routing_table.c:497-519 *)
Definition best_of (cf : rcfg) (g : option (list Z * (list Z * Z))) (e : rentry) : option rpath :=
  rt_best (cf_scale cf) (is_inetgw g (re_dst e)) (re_paths e).

(** src/process_routes.c:355-356 with src/routing_table.c:389-405 *)
Definition need_chg (cf : rcfg) (e : rentry) (p : rpath) : bool :=
  negb (bytes_eqb (rp_gw p) (re_gw e)) || negb (rp_iif p =? re_iif e) ||
  match cf_fib cf with CORRECT => negb (rp_hops p =? re_hops e) | _ => false end.

(** src/process_routes.c:131-152 olsr_enqueue_rt *)
Definition enqueue (gw : list Z) (d : list Z * Z) (c : list (list Z * Z)) : list (list Z * Z) :=
  if existsb (dst_eqb d) c then c
  else if bytes_eqb (fst d) gw then d :: c else c ++ [d].

(** src/process_routes.c:324-363 olsr_update_rib_routes over the remaining
    entries; [c] is the queue *)
Fixpoint update_rib (cf : rcfg) (acc : bool -> list Z * Z -> bool) (ver : Z) (l : list rentry)
  (g : option (list Z * (list Z * Z))) (k : list kroute) (c : list (list Z * Z))
  : option (list rentry * option (list Z * (list Z * Z)) * list kroute * list (list Z * Z)) :=
  match l with
  | [] => Some ([], g, k, c)
  | e :: l' =>
    let e1 := delete_outdated ver e in
    match re_paths e1 with
    | [] =>
      let (k1, ok) := delete_kernel_route cf acc e1 k in
      match update_rib cf acc ver l' g k1 c with
      | None => None
      | Some (r, g', k', c') => Some (if ok then r else e1 :: r, g', k', c')
      end
    | _ =>
      match best_of cf g e1 with
      | None => None
      | Some p =>
        let e2 := mkRe (re_dst e1) (re_paths e1) (Some (rp_orig p)) (re_gw e1) (re_iif e1) (re_hops e1) (re_cost e1) in
        let g1 := if snd (re_dst e1) =? 0 then Some (rp_orig p, re_dst e1) else g in
        let c1 := if need_chg cf e2 p then enqueue (rp_gw p) (re_dst e1) c else c in
        match update_rib cf acc ver l' g1 k c1 with
        | None => None
        | Some (r, g', k', c') => Some (e2 :: r, g', k', c')
        end
      end
    end
  end.

(** olsr_update_rib_routes followed by olsr_update_kernel_routes
    (src/process_routes.c:409-412, src/olsr_spf.c:389-390, 521-530) *)
Definition update_routes (cf : rcfg) (acc : bool -> list Z * Z -> bool) (s : rst) : option rst :=
  match update_rib cf acc (rs_ver s) (rs_ents s) (rs_inetgw s) (rs_kern s) [] with
  | None => None
  | Some (l, g, k, c) => match chg_kernel_routes cf acc c l k with
                         | None => None
                         | Some (l', k') => Some (mkRs l' (rs_ver s) g k')
                         end
  end.

(** a reachable prefix after the calculation (src/olsr_spf.c:471-516): the node
    that announces it, the prefix, the next hop and the cost of the node *)
Record result := mkRes { rr_orig : list Z; rr_dst : list Z * Z; rr_gw : list Z; rr_iif : Z; rr_hops : Z; rr_cost : Z }.

(** src/routing_table.c:214-229 olsr_update_rt_path *)
Definition path_of (ver : Z) (r : result) : rpath := mkRp (rr_orig r) (rr_gw r) (rr_iif r) (rr_hops r) (rr_cost r) ver.

(** comparison functions of the trees (src/olsr.c:265-269) *)
Definition cmp_orig (cf : rcfg) (a b : list Z) : Z := if cf_v6 cf then ip6cmp a b else ip4cmp (cf_le cf) a b.
(** see above, src/olsr.c:265-269 *)
Definition cmp_dst (cf : rcfg) (a b : list Z * Z) : Z := if cf_v6 cf then comp_ipv6_prefix a b else comp_ipv4_prefix a b.

(** insertion into the ordered trees (the trees are C01-C04) *)
Fixpoint ins_path (cf : rcfg) (p : rpath) (l : list rpath) : list rpath :=
  match l with
  | [] => [p]
  | q :: l' => if cmp_orig cf (rp_orig p) (rp_orig q) <? 0 then p :: l else q :: ins_path cf p l'
  end.
(** src/routing_table.c:251 *)
Fixpoint ins_ent (cf : rcfg) (e : rentry) (l : list rentry) : list rentry :=
  match l with
  | [] => [e]
  | x :: l' => if cmp_dst cf (re_dst e) (re_dst x) <? 0 then e :: l else x :: ins_ent cf e l'
  end.

(** rt_path_tree of src/routing_table.h:88 *)
Definition with_paths (e : rentry) (ps : list rpath) : rentry := mkRe (re_dst e) ps (re_best e) (re_gw e) (re_iif e) (re_hops e) (re_cost e).

(** src/olsr_spf.c:498-514, src/routing_table.c:295-347 olsr_insert_rt_path,
    234-257 olsr_alloc_rt_entry; rtp_rt is set when the entry holds the path *)
Definition apply_result (cf : rcfg) (ver : Z) (l : list rentry) (r : result) : list rentry :=
  let p := path_of ver r in
  match find_ent (rr_dst r) l with
  | Some e =>
    match find_path (rr_orig r) (re_paths e) with
    | Some _ => set_ent (with_paths e (map (fun q => if bytes_eqb (rp_orig q) (rr_orig r) then p else q) (re_paths e))) l
    | None => if (rr_cost r >=? 4294967295) || (snd (rr_dst r) >? cf_maxplen cf) then l
              else set_ent (with_paths e (ins_path cf p (re_paths e))) l
    end
  | None => if (rr_cost r >=? 4294967295) || (snd (rr_dst r) >? cf_maxplen cf) then l
            else ins_ent cf (mkRe (rr_dst r) [p] None [] (-1) 0 0) l
  end.

(** src/olsr_spf.c:367 (version) and 471-530, src/process_routes.c:118-126 with no results *)
Definition calc (cf : rcfg) (acc : bool -> list Z * Z -> bool) (rs : list result) (s : rst) : option rst :=
  let ver := u32 (rs_ver s + 1) in
  update_routes cf acc (mkRs (fold_left (apply_result cf ver) rs (rs_ents s)) ver (rs_inetgw s) (rs_kern s)).

(** src/routing_table.c:352-384 olsr_delete_rt_path *)
Definition delete_rt_path (o : list Z) (d : list Z * Z) (s : rst) : rst :=
  mkRs (map (fun e => if dst_eqb (re_dst e) d
                      then mkRe (re_dst e) (filter (fun p => negb (bytes_eqb (rp_orig p) o)) (re_paths e))
                                (match re_best e with Some b => if bytes_eqb b o then None else Some b | None => None end)
                                (re_gw e) (re_iif e) (re_hops e) (re_cost e)
                      else e) (rs_ents s))
       (rs_ver s)
       (if is_inetgw (rs_inetgw s) d o then None else rs_inetgw s)
       (rs_kern s).

(** src/process_routes.c:366-406: the paths over interface [i] leave the entry;
    returns the entry and whether the best path is gone *)
Definition drop_iface (i : Z) (e : rentry) : rentry * bool :=
  let lost := match re_best e with Some o => match find_path o (re_paths e) with Some p => rp_iif p =? i | None => false end | None => false end in
  (mkRe (re_dst e) (filter (fun p => negb (rp_iif p =? i)) (re_paths e)) (if lost then None else re_best e)
        (re_gw e) (re_iif e) (re_hops e) (re_cost e), lost).

(** src/process_routes.c:365-413 olsr_delete_interface_routes; [flushed] says
    whether the kernel has removed its routes over the interface, as line 402 assumes *)
Definition delete_interface_routes (cf : rcfg) (acc : bool -> list Z * Z -> bool) (i : Z) (flushed : bool) (s : rst) : option rst :=
  let k := if flushed then filter (fun r => negb (k_oif r =? i)) (rs_kern s) else rs_kern s in
  let l := flat_map (fun e => let (e', lost) := drop_iface i e in
                              if lost && match re_paths e' with [] => true | _ => false end then [] else [e']) (rs_ents s) in
  let s' := mkRs l (rs_ver s) (rs_inetgw s) k in
  if existsb (fun e => snd (drop_iface i e)) (rs_ents s) then update_routes cf acc s' else Some s'.

(** src/process_routes.c:429-440 olsr_force_kernelroutes_refresh; the next hop
    used for the place in the queue is src/routing_table.c:427-439 olsr_get_nh *)
Definition get_nh (e : rentry) : list Z :=
  match re_best e with Some o => match find_path o (re_paths e) with Some p => rp_gw p | None => re_gw e end | None => re_gw e end.
(** see above, src/process_routes.c:429-440 *)
Definition force_refresh (cf : rcfg) (acc : bool -> list Z * Z -> bool) (s : rst) : option rst :=
  let c := fold_left (fun c e => enqueue (get_nh e) (re_dst e) c) (rs_ents s) [] in
  match chg_kernel_routes cf acc c (rs_ents s) (rs_kern s) with
  | None => None
  | Some (l, k) => Some (mkRs l (rs_ver s) (rs_inetgw s) k)
  end.

(** the events that touch the table; src/routing_table.c, src/process_routes.c *)
Inductive rop :=
| OCalc (rs : list result) (acc : bool -> list Z * Z -> bool)
| ODelPath (o : list Z) (d : list Z * Z)
| OIfdown (i : Z) (flushed : bool) (acc : bool -> list Z * Z -> bool).
(** src/routing_table.c, src/process_routes.c *)
Definition rstep (cf : rcfg) (s : rst) (o : rop) : option rst :=
  match o with
  | OCalc rs acc => calc cf acc rs s
  | ODelPath o d => Some (delete_rt_path o d s)
  | OIfdown i f acc => delete_interface_routes cf acc i f s
  end.
(** src/routing_table.c, src/process_routes.c *)
Fixpoint rrun (cf : rcfg) (s : rst) (l : list rop) : option rst :=
  match l with [] => Some s | o :: l' => match rstep cf s o with Some s' => rrun cf s' l' | None => None end end.

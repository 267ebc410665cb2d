(** Model of the link set (src/link_set.c) together with the part of the neighbor table
    (src/neighbor_table.c) and of the alias insertion (src/mid_set.c:219-309) that it works on.
    Definitions only.

    Simplifications.  Addresses and interface names are numbers (equality is all the code uses);
    every interface has a name.  The neighbor table is one list with insertion at the head instead
    of a hash table of such lists: an entry always sits in the bucket of its own address.  A
    neighbor entry that is not in the table has been freed, so that using it is the outcome [None].
    What the MID set answers ([mid_main], [mid_ali]) and what the link quality code stores
    ([l_cost]) is set by events; which threshold the hysteresis quality has passed is part of the
    event.  Two-hop lists, TC edges, change flags and the loss timers are not part of the state.
    All (re)starts of the link timer inside one event use the same random number.  Sums of
    validity times are not wrapped. *)
From Verif Require Import Base SchedTime.

(** src/olsr_protocol.h:107-112 *)
Definition UNSPEC_LINK : Z := 0.
(** see above, src/olsr_protocol.h:107-112 *)
Definition ASYM_LINK : Z := 1.
(** see above, src/olsr_protocol.h:107-112 *)
Definition SYM_LINK : Z := 2.
(** see above, src/olsr_protocol.h:107-112 *)
Definition LOST_LINK : Z := 3.
(** see above, src/olsr_protocol.h:107-112 *)
Definition HIDE_LINK : Z := 4.
(** src/olsr_protocol.h:149-150 *)
Definition NOT_SYM : Z := 0.
(** see above, src/olsr_protocol.h:149-150 *)
Definition SYM : Z := 1.
(** src/olsr_protocol.h:72, 87 times MSEC_PER_SEC (src/scheduler.h) *)
Definition HOLD : Z := 20000.
(** src/lq_plugin.h:56 *)
Definition LINK_COST_BROKEN : Z := 4194304.
(** src/interfaces.h:78 *)
Definition MAX_IF_METRIC : Z := 100.
(** src/link_set.h:104-106 *)
Definition OLSR_LINK_JITTER : Z := 5.
(** see above, src/link_set.h:104-106 *)
Definition OLSR_LINK_SYM_JITTER : Z := 0.

(** src/interfaces.h struct interface_olsr: int_name, ip_addr, int_metric *)
Record iface := mkIf { i_name : Z; i_addr : Z; i_metric : Z }.

(** src/link_set.h:62-96 struct link_entry; a timer is the clock at which it fires *)
Record link := mkLink {
  l_id : Z; l_local : Z; l_remote : Z; l_if : Z; l_nbr : Z; l_prev : Z;
  l_sym : option Z; l_asym : Z; l_timer : option Z;
  l_pending : bool; l_lostt : Z; l_cost : Z }.

(** src/neighbor_table.h:63-75 struct neighbor_entry; [n_id] is its address in memory *)
Record nbr := mkNbr { n_id : Z; n_addr : Z; n_status : Z; n_count : Z }.

(** the configuration read: use_hysteresis, lq_level (src/olsr_cfg.h), OLSR_RANDOM_MAX
    (src/olsr_random.h:55) *)
Record lcfg := mkCfg { use_hyst : bool; lq_level : Z; rmax : Z }.

(** [links] is link_entry_head in list order, [nbrs] the neighbor table, [ifs] the list ifnet;
    src/link_set.c:66, src/neighbor_table.c *)
Record lstate := mkL {
  links : list link; nbrs : list nbr; fresh : Z; ifs : list iface;
  mid_main : Z -> option Z; mid_ali : Z -> list Z }.

(** the state after olsr_init_link_set and olsr_init_neighbor_table (src/link_set.c:83-89,
    src/neighbor_table.c:60-69) *)
Definition linit : lstate := mkL [] [] 0 [] (fun _ => None) (fun _ => []).

(** replacing components of the state (no counterpart in the source); src/link_set.c:66 *)
Definition set_links (ls : list link) (s : lstate) : lstate :=
  mkL ls (nbrs s) (fresh s) (ifs s) (mid_main s) (mid_ali s).
(** src/neighbor_table.c *)
Definition set_nbrs (ns : list nbr) (s : lstate) : lstate :=
  mkL (links s) ns (fresh s) (ifs s) (mid_main s) (mid_ali s).
(** writing through a pointer to the link or the neighbor with the given identity;
    src/link_set.h:62 *)
Definition upd_link (i : Z) (f : link -> link) (ls : list link) : list link :=
  map (fun l => if l_id l =? i then f l else l) ls.
(** src/neighbor_table.h:63-75 *)
Definition upd_nbr (i : Z) (f : nbr -> nbr) (ns : list nbr) : list nbr :=
  map (fun n => if n_id n =? i then f n else n) ns.
(** src/link_set.h:62 *)
Definition get_link (i : Z) (ls : list link) : option link := find (fun l => l_id l =? i) ls.
(** reading through a pointer to a neighbor: [None] is a use after free;
    src/neighbor_table.h:63-75 *)
Definition deref (i : Z) (ns : list nbr) : option nbr := find (fun n => n_id n =? i) ns.

(** field updates of a link (no counterpart in the source); src/link_set.h:62 *)
Definition set_nbr (i : Z) (l : link) : link :=
  mkLink (l_id l) (l_local l) (l_remote l) (l_if l) i (l_prev l) (l_sym l) (l_asym l) (l_timer l) (l_pending l) (l_lostt l) (l_cost l).
(** src/link_set.h:62 *)
Definition set_prev (p : Z) (l : link) : link :=
  mkLink (l_id l) (l_local l) (l_remote l) (l_if l) (l_nbr l) p (l_sym l) (l_asym l) (l_timer l) (l_pending l) (l_lostt l) (l_cost l).
(** src/link_set.h:62 *)
Definition set_sym (d : option Z) (l : link) : link :=
  mkLink (l_id l) (l_local l) (l_remote l) (l_if l) (l_nbr l) (l_prev l) d (l_asym l) (l_timer l) (l_pending l) (l_lostt l) (l_cost l).
(** src/link_set.h:62 *)
Definition set_asym (a : Z) (l : link) : link :=
  mkLink (l_id l) (l_local l) (l_remote l) (l_if l) (l_nbr l) (l_prev l) (l_sym l) a (l_timer l) (l_pending l) (l_lostt l) (l_cost l).
(** src/link_set.h:67 *)
Definition set_timer (d : option Z) (l : link) : link :=
  mkLink (l_id l) (l_local l) (l_remote l) (l_if l) (l_nbr l) (l_prev l) (l_sym l) (l_asym l) d (l_pending l) (l_lostt l) (l_cost l).
(** src/link_set.h:62 *)
Definition set_hyst (p : bool) (t : Z) (l : link) : link :=
  mkLink (l_id l) (l_local l) (l_remote l) (l_if l) (l_nbr l) (l_prev l) (l_sym l) (l_asym l) (l_timer l) p t (l_cost l).
(** src/link_set.h:62 *)
Definition set_cost (c : Z) (l : link) : link :=
  mkLink (l_id l) (l_local l) (l_remote l) (l_if l) (l_nbr l) (l_prev l) (l_sym l) (l_asym l) (l_timer l) (l_pending l) (l_lostt l) c.
(** field updates of a neighbor (no counterpart in the source); src/neighbor_table.h:63-75 *)
Definition set_naddr (a : Z) (n : nbr) : nbr := mkNbr (n_id n) a (n_status n) (n_count n).
(** src/neighbor_table.h:63-75 *)
Definition set_nstatus (v : Z) (n : nbr) : nbr := mkNbr (n_id n) (n_addr n) v (n_count n).
(** src/neighbor_table.h:63-75 *)
Definition set_ncount (v : Z) (n : nbr) : nbr := mkNbr (n_id n) (n_addr n) (n_status n) v.

(** src/scheduler.c:1052-1073 olsr_set_timer (with 910-945 and 1018-1045): the new clock of the timer *)
Definition set_tm (c : lcfg) (now rel pct r : Z) : option Z :=
  if rel =? 0 then None else Some (calc_jitter (rmax c) now rel pct r).

(** src/link_set.c:123-173 lookup_link_status for a link that is not NULL *)
Definition link_status (c : lcfg) (now : Z) (ls : list link) (l : link) : Z :=
  if match ls with [] => true | _ => false end then UNSPEC_LINK
  else if use_hyst c && negb (isTimedOut now (l_lostt l)) then LOST_LINK
  else if use_hyst c && l_pending l then HIDE_LINK
  else match l_sym l with
       | Some _ => SYM_LINK
       | None => if negb (isTimedOut now (l_asym l)) then ASYM_LINK else LOST_LINK
       end.

(** src/neighbor_table.c:300-318 olsr_lookup_neighbor_table_alias *)
Definition nbr_lookup_alias (a : Z) (ns : list nbr) : option nbr := find (fun n => n_addr n =? a) ns.
(** src/neighbor_table.c:282-291 olsr_lookup_neighbor_table *)
Definition nbr_lookup (s : lstate) (a : Z) : option nbr :=
  nbr_lookup_alias (match mid_main s a with Some m => m | None => a end) (nbrs s).
(** src/neighbor_table.c:236-273 olsr_insert_neighbor_table: the state and the entry returned *)
Definition nbr_insert (s : lstate) (a : Z) : lstate * Z :=
  match nbr_lookup_alias a (nbrs s) with
  | Some n => (s, n_id n)
  | None => (mkL (links s) (mkNbr (fresh s) a NOT_SYM 0 :: nbrs s) (fresh s + 1) (ifs s) (mid_main s) (mid_ali s), fresh s)
  end.
(** src/neighbor_table.c:180-227 olsr_delete_neighbor_table *)
Fixpoint nbr_delete (a : Z) (ns : list nbr) : list nbr :=
  match ns with
  | [] => []
  | n :: r => if n_addr n =? a then r else n :: nbr_delete a r
  end.
(** src/neighbor_table.c:156-168 olsr_update_neighbor_main_addr: dequeue, rename, insert at the head *)
Definition nbr_rename (n : nbr) (a : Z) (ns : list nbr) : list nbr :=
  set_naddr a n :: filter (fun x => negb (n_id x =? n_id n)) ns.
(** src/neighbor_table.c:320-356 update_neighbor_status *)
Definition nbr_status (i lnk : Z) (ns : list nbr) : option (list nbr) :=
  match deref i ns with
  | None => None
  | Some _ => Some (upd_nbr i (set_nstatus (if lnk =? SYM_LINK then SYM else NOT_SYM)) ns)
  end.

(** the test of src/link_set.c:665-666 *)
Definition key (remote ifn : Z) (l : link) : bool := (l_remote l =? remote) && (l_if l =? ifn).
(** src/link_set.c:659-682 lookup_link_entry without a main address *)
Definition lookup_link (remote ifn : Z) (ls : list link) : option link := find (key remote ifn) ls.
(** src/link_set.c:659-682 lookup_link_entry with a main address *)
Definition lookup_link_main (s : lstate) (remote main ifn : Z) : option (lstate * option link) :=
  match lookup_link remote ifn (links s) with
  | None => Some (s, None)
  | Some l =>
      match deref (l_nbr l) (nbrs s) with
      | None => None
      | Some n => if n_addr n =? main then Some (s, Some l)
                  else Some (set_nbrs (nbr_rename n main (nbrs s)) s, Some l)
      end
  end.

(** src/link_set.c:175-213 get_neighbor_status *)
Definition get_nbr_status (c : lcfg) (now : Z) (s : lstate) (a : Z) : Z :=
  let main := match mid_main s a with Some m => m | None => a end in
  let is_sym (ifn r : Z) := match lookup_link r ifn (links s) with
                            | Some l => link_status c now (links s) l =? SYM_LINK
                            | None => false
                            end in
  if existsb (fun i => existsb (is_sym (i_name i)) (main :: mid_ali s main)) (ifs s) then SYM_LINK else 0.

(** src/link_set.c:508-517 olsr_set_link_timer *)
Definition set_link_timer (c : lcfg) (now rel r : Z) (l : link) : link :=
  set_timer (set_tm c now rel OLSR_LINK_JITTER r) l.

(** src/link_set.c:532-628 add_link_entry; the result names the entry *)
Definition add_link (c : lcfg) (now : Z) (s : lstate) (ifc : iface) (remote main vt r : Z) : option (lstate * Z) :=
  match lookup_link_main s remote main (i_name ifc) with
  | None => None
  | Some (s1, Some l) => Some (s1, l_id l)
  | Some (s1, None) =>
      let i := fresh s1 in
      let s2 := mkL (links s1) (nbrs s1) (fresh s1 + 1) (ifs s1) (mid_main s1) (mid_ali s1) in
      let (s3, n) := match nbr_lookup s2 main with
                     | Some n => (s2, n_id n)
                     | None => nbr_insert s2 main
                     end in
      let l := mkLink i (i_addr ifc) remote (i_name ifc) n ASYM_LINK None 0 (set_tm c now vt OLSR_LINK_JITTER r)
                 (use_hyst c) (if use_hyst c then getTimestamp now vt else 0) LINK_COST_BROKEN in
      let ns := upd_nbr n (fun x => set_ncount (n_count x + 1) x) (nbrs s3) in
      Some (set_nbrs ns (set_links (links s3 ++ [l]) s3), i)
  end.

(** src/link_set.c:784-808 check_link_status; the message's neighbors are (address, link type) *)
Fixpoint check_link_status (ret : Z) (msg : list (Z * Z)) (own : Z) : Z :=
  match msg with
  | [] => ret
  | (a, t) :: r => if (a =? own) && negb (t =? UNSPEC_LINK)
                   then if t =? SYM_LINK then t else check_link_status t r own
                   else check_link_status ret r own
  end.

(** src/hysteresis.c:73-127 olsr_process_hysteresis; [q] is 1 above the upper threshold, -1 below
    the lower one.  [None]: link_timer is NULL. *)
Definition process_hyst (now q : Z) (l : link) : option link :=
  if q =? 1 then Some (set_hyst false (u32 (now - 1)) l)
  else if q =? -1 then
    match l_timer l with
    | None => None
    | Some d => Some (set_hyst true (Z.min (getTimestamp now HOLD) d) l)
    end
  else Some l.

(** src/link_set.c:703-733: what update_link_entry writes into the entry before the hysteresis *)
Definition refresh (c : lcfg) (now vt st r : Z) (l : link) : link :=
  let l1 := set_prev st (set_asym (getTimestamp now vt) l) in
  let l2 := if st =? LOST_LINK then set_sym None l1
            else if (st =? SYM_LINK) || (st =? ASYM_LINK)
            then set_link_timer c now (vt + HOLD) r (set_sym (set_tm c now vt OLSR_LINK_SYM_JITTER r) l1)
            else l1 in
  if match l_timer l2 with None => true | Some d => d <? l_asym l2 end
  then set_link_timer c now (u32 (getTimeDue now (l_asym l2))) r l2
  else l2.

(** src/link_set.c:695-742 update_link_entry; the result names the entry *)
Definition update_link (c : lcfg) (now : Z) (s : lstate) (ifc : iface) (remote main vt : Z)
    (msg : list (Z * Z)) (r q : Z) : option (lstate * Z) :=
  match add_link c now s ifc remote main vt r with
  | None => None
  | Some (s1, i) =>
      match get_link i (links s1) with
      | None => None
      | Some l =>
          let l1 := refresh c now vt (check_link_status UNSPEC_LINK msg (i_addr ifc)) r l in
          match (if use_hyst c then process_hyst now q l1 else Some l1) with
          | None => None
          | Some l2 =>
              let s2 := set_links (upd_link i (fun _ => l2) (links s1)) s1 in
              match nbr_status (l_nbr l2) (get_nbr_status c now s2 remote) (nbrs s2) with
              | None => None
              | Some ns => Some (set_nbrs ns s2, i)
              end
          end
      end
  end.

(** src/link_set.c:368-402 olsr_delete_link_entry *)
Definition delete_link (s : lstate) (l : link) : option lstate :=
  match deref (l_nbr l) (nbrs s) with
  | None => None
  | Some n =>
      let ns := if n_count n =? 1 then nbr_delete (n_addr n) (nbrs s)
                else upd_nbr (n_id n) (set_ncount (n_count n - 1)) (nbrs s) in
      Some (set_nbrs ns (set_links (filter (fun x => negb (l_id x =? l_id l)) (links s)) s))
  end.

(** src/link_set.c:407-422 olsr_delete_link_entry_by_ip: the loop over the entries met *)
Fixpoint delete_all (ls : list link) (a : Z) (s : lstate) : option lstate :=
  match ls with
  | [] => Some s
  | l :: r => if l_local l =? a
              then match delete_link s l with None => None | Some s' => delete_all r a s' end
              else delete_all r a s
  end.
(** see above, src/link_set.c:407-422 *)
Definition delete_by_ip (a : Z) (s : lstate) : option lstate := delete_all (links s) a s.

(** src/link_set.c:446-461 olsr_expire_link_sym_timer *)
Definition expire_sym (c : lcfg) (now : Z) (s : lstate) (i : Z) : option lstate :=
  match get_link i (links s) with
  | None => None
  | Some l =>
      let s1 := set_links (upd_link i (set_sym None) (links s)) s in
      if negb (l_prev l =? SYM_LINK) then Some s1
      else
        let s2 := set_links (upd_link i (set_prev (link_status c now (links s1) (set_sym None l))) (links s1)) s1 in
        match nbr_status (l_nbr l) (get_nbr_status c now s2 (l_remote l)) (nbrs s2) with
        | None => None
        | Some ns => Some (set_nbrs ns s2)
        end
  end.

(** src/link_set.c:494-503 olsr_expire_link_entry *)
Definition expire_link (s : lstate) (i : Z) : option lstate :=
  match get_link i (links s) with
  | None => None
  | Some l => delete_link (set_links (upd_link i (set_timer None) (links s)) s) (set_timer None l)
  end.

(** src/link_set.c:466-489 olsr_expire_link_hello_timer *)
Definition expire_hello (c : lcfg) (now : Z) (s : lstate) (i q : Z) : option lstate :=
  match get_link i (links s) with
  | None => None
  | Some l =>
      match process_hyst now q l with
      | None => None
      | Some l2 =>
          let s2 := set_links (upd_link i (fun _ => l2) (links s)) s in
          match nbr_status (l_nbr l2) (get_nbr_status c now s2 (l_remote l2)) (nbrs s2) with
          | None => None
          | Some ns => Some (set_nbrs ns s2)
          end
      end
  end.

(** src/link_set.c:99-107, first loop of olsr_reset_all_links (is_mpr is not modelled) *)
Fixpoint reset1 (now : Z) (ls : list link) (s : lstate) : option lstate :=
  match ls with
  | [] => Some s
  | l :: r =>
      match deref (l_nbr l) (nbrs s) with
      | None => None
      | Some n => reset1 now r (set_nbrs (upd_nbr (n_id n) (set_nstatus NOT_SYM) (nbrs s))
                   (set_links (upd_link (l_id l) (fun x => set_sym None (set_asym (u32 (now - 1)) x)) (links s)) s))
      end
  end.
(** src/link_set.c:110-113, second loop of olsr_reset_all_links *)
Fixpoint reset2 (c : lcfg) (now : Z) (ls : list link) (s : lstate) : option lstate :=
  match ls with
  | [] => Some s
  | l :: r => match expire_sym c now s (l_id l) with None => None | Some s' => reset2 c now r s' end
  end.
(** src/link_set.c:96-115 olsr_reset_all_links *)
Definition reset_all (c : lcfg) (now : Z) (s : lstate) : option lstate :=
  match reset1 now (links s) s with None => None | Some s1 => reset2 c now (links s1) s1 end.

(** src/link_set.c:753-773 replace_neighbor_link_set *)
Definition replace_nbr (o n : Z) (ls : list link) : list link :=
  map (fun l => if l_nbr l =? o then set_nbr n l else l) ls.

(** src/mid_set.c:286-294 in insert_mid_alias: a neighbor known under the alias *)
Definition alias_old (s : lstate) (main alias : Z) : lstate :=
  match nbr_lookup_alias alias (nbrs s) with
  | None => s
  | Some o => let (s1, n) := nbr_insert (set_nbrs (nbr_delete alias (nbrs s)) s) main in
              set_links (replace_nbr (n_id o) n (links s1)) s1
  end.
(** src/mid_set.c:232-245 in insert_mid_tuple, for one address *)
Definition alias_dup (main : Z) (s : lstate) (a : Z) : lstate :=
  match nbr_lookup_alias a (nbrs s), nbr_lookup_alias main (nbrs s) with
  | Some t, Some n => set_nbrs (filter (fun x => negb (n_id x =? n_id t)) (nbrs s))
                        (set_links (replace_nbr (n_id t) (n_id n) (links s)) s)
  | _, _ => s
  end.
(** src/mid_set.c:266-320 insert_mid_alias, its effect on neighbors and links *)
Definition insert_alias (s : lstate) (main alias : Z) : lstate :=
  let s1 := alias_old s main alias in
  if match mid_main s1 alias with Some m => m =? main | None => false end then s1
  else fold_left (alias_dup main) (alias :: mid_ali s1 main) s1.

(** src/link_set.c:217-311 get_best_link_to_neighbor: the metric used for a link; [None] skips it *)
Definition metric (c : lcfg) (s : lstate) (l : link) : option Z :=
  if lq_level c =? 0
  then match find (fun i => i_name i =? l_if l) (ifs s) with Some i => Some (i_metric i) | None => None end
  else Some (l_cost l).
(** src/link_set.c:239-303: the loop; [cur] is curr_metric or curr_lcost *)
Fixpoint best_loop (c : lcfg) (now : Z) (s : lstate) (main remote : Z) (ls : list link)
    (cur : Z) (good backup : option link) : option (option link) :=
  match ls with
  | [] => Some (match good with Some l => Some l | None => backup end)
  | l :: r =>
      match deref (l_nbr l) (nbrs s) with
      | None => None
      | Some n =>
          if negb (n_addr n =? main) then best_loop c now s main remote r cur good backup
          else match metric c s l with
               | None => best_loop c now s main remote r cur good backup
               | Some m =>
                   if (m <? cur) || ((m =? cur) && (l_local l =? remote))
                   then if link_status c now (links s) l =? SYM_LINK
                        then best_loop c now s main remote r m (Some l) backup
                        else best_loop c now s main remote r m good (Some l)
                   else best_loop c now s main remote r cur good backup
               end
      end
  end.
(** see above, src/link_set.c:239-303 *)
Definition best_link (c : lcfg) (now : Z) (s : lstate) (remote : Z) : option (option link) :=
  best_loop c now s (match mid_main s remote with Some m => m | None => remote end) remote (links s)
    (if lq_level c =? 0 then MAX_IF_METRIC else LINK_COST_BROKEN) None None.

(** src/link_set.c:636-649 check_neighbor_link *)
Definition check_nbr_link (c : lcfg) (now : Z) (s : lstate) (a : Z) : Z :=
  match find (fun l => l_remote l =? a) (links s) with
  | Some l => link_status c now (links s) l
  | None => UNSPEC_LINK
  end.

(** What happens to the link set.
    EHello: src/process_package.c:475; ESymFire, ELinkFire, EHelloFire: the callbacks of the three
    timers (the timer has to be due, src/scheduler.c:703); EAlias: insert_mid_alias; EDelIf:
    src/interfaces.c:387; EReset: src/main.c:232; ECost: src/lq_plugin_*.c; EIfs, EMid: the list of
    interfaces and the MID set change. *)
Inductive lev :=
| EHello (ifc : iface) (remote main vt : Z) (msg : list (Z * Z)) (r q : Z)
| ESymFire (i : Z)
| ELinkFire (i : Z)
| EHelloFire (i q : Z)
| EAlias (main alias : Z)
| EDelIf (a : Z)
| EReset
| ECost (i cost : Z)
| EIfs (l : list iface)
| EMid (m : Z -> option Z) (a : Z -> list Z).

(** One event at the clock [now] (the functions named above); [None]: freed memory or NULL is
    used; src/link_set.c *)
Definition lstep (c : lcfg) (now : Z) (s : lstate) (e : lev) : option lstate :=
  match e with
  | EHello ifc remote main vt msg r q =>
      match update_link c now s ifc remote main vt msg r q with Some (s', _) => Some s' | None => None end
  | ESymFire i => expire_sym c now s i
  | ELinkFire i => expire_link s i
  | EHelloFire i q => expire_hello c now s i q
  | EAlias main alias => Some (insert_alias s main alias)
  | EDelIf a => delete_by_ip a s
  | EReset => reset_all c now s
  | ECost i cost => Some (set_links (upd_link i (set_cost cost) (links s)) s)
  | EIfs l => Some (mkL (links s) (nbrs s) (fresh s) l (mid_main s) (mid_ali s))
  | EMid m a => Some (mkL (links s) (nbrs s) (fresh s) (ifs s) m a)
  end.

(** A timer callback runs only for a live link whose timer runs and is due (src/scheduler.c:695-711). *)
Definition due (now : Z) (d : option Z) : bool := match d with Some x => isTimedOut now x | None => false end.
(** see above, src/scheduler.c:695-711 *)
Definition possible (now : Z) (s : lstate) (e : lev) : bool :=
  match e with
  | ESymFire i => match get_link i (links s) with Some l => due now (l_sym l) | None => false end
  | ELinkFire i => match get_link i (links s) with Some l => due now (l_timer l) | None => false end
  | EHelloFire i _ => match get_link i (links s) with Some _ => true | None => false end
  | ECost i _ => match get_link i (links s) with Some _ => true | None => false end
  | _ => true
  end.

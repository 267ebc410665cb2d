(** Model of the two-hop neighbor table: src/two_hop_neighbor_table.c, the two-hop lists of
    src/neighbor_table.c, the processing of the neighbors listed in a HELLO
    (src/process_package.c:78-287) and what insert_mid_alias does to both tables
    (src/mid_set.c:205-252, 281-312).  Definitions only.

    Simplifications.  Addresses are numbers.  A hash table is one list with insertion at the head; a
    lookup only looks at the elements whose address hashes to the same bucket ([hsh]).  Pointers are
    the numbers given out by the allocations ([fresh]); following one to an object that has been freed
    is the outcome [None].  The entries of all neighbor_2_lists are kept in one list, newest first, so
    that the list of a neighbor is a sublist of it; unlinking an entry whose neighbor has been freed
    counts as a use after free although an entry in the middle of the list would only touch its
    neighbors in the list.  What the tables of other modules answer is part of the event: the
    addresses of our interfaces, mid_lookup_main_addr, mid_lookup_aliases, the cost of the best link. *)
From Verif Require Import Base SchedTime.

(** src/neighbor_table.h:63-75 struct neighbor_entry *)
Record nbe := mkNb { b_id : Z; b_addr : Z; b_sym : bool }.
(** src/neighbor_table.h:53-59 struct neighbor_2_list_entry; the timer is the clock at which it fires *)
Record n2l := mkL { l_id : Z; l_nbr : Z; l_two : Z; l_timer : option Z }.
(** src/two_hop_neighbor_table.h:56-63 struct neighbor_list_entry *)
Record nle := mkE { e_nbr : Z; e_second : Z; e_path : Z; e_saved : Z }.
(** src/two_hop_neighbor_table.h:65-73 struct neighbor_2_entry *)
Record two := mkT { t_id : Z; t_addr : Z; t_cnt : Z; t_list : list nle }.
(** src/neighbor_table.c:54 neighbortable, src/two_hop_neighbor_table.c:54 two_hop_neighbortable *)
Record tstate := mkS { nbs : list nbe; n2ls : list n2l; twos : list two; fresh : Z }.
(** src/neighbor_table.c:60-69, src/two_hop_neighbor_table.c:59-67 *)
Definition tinit : tstate := mkS [] [] [] 0.
(** int16_t (src/two_hop_neighbor_table.h:69) *)
Definition i16 (x : Z) : Z := (x + 32768) mod 65536 - 32768.
(** src/lq_plugin.h:56 *)
Definition LINK_COST_BROKEN : Z := 4194304.
(** src/neighbor_table.h:61 *)
Definition NBR2_LIST_JITTER : Z := 5.

(** field updates (no counterpart in the source); src/two_hop_neighbor_table.h:65-73 *)
Definition set_twos (l : list two) (s : tstate) : tstate := mkS (nbs s) (n2ls s) l (fresh s).
(** src/neighbor_table.h:53-58 *)
Definition set_n2ls (l : list n2l) (s : tstate) : tstate := mkS (nbs s) l (twos s) (fresh s).
(** src/neighbor_table.h:63-75 *)
Definition set_nbs (l : list nbe) (s : tstate) : tstate := mkS l (n2ls s) (twos s) (fresh s).
(** src/two_hop_neighbor_table.h:65-73 *)
Definition upd_two (i : Z) (f : two -> two) (l : list two) : list two := map (fun t => if t_id t =? i then f t else t) l.
(** src/two_hop_neighbor_table.h:65-73 *)
Definition set_cnt (c : Z) (t : two) : two := mkT (t_id t) (t_addr t) c (t_list t).
(** src/two_hop_neighbor_table.h:65-73 *)
Definition set_tlist (l : list nle) (t : two) : two := mkT (t_id t) (t_addr t) (t_cnt t) l.
(** src/neighbor_table.h:53-58 *)
Definition set_ltimer (d : option Z) (l : n2l) : n2l := mkL (l_id l) (l_nbr l) (l_two l) d.

(** following a pointer; src/two_hop_neighbor_table.h:65-73 *)
Definition get_two (i : Z) (s : tstate) : option two := find (fun t => t_id t =? i) (twos s).
(** src/neighbor_table.h:63-75 *)
Definition get_nb (i : Z) (s : tstate) : option nbe := find (fun b => b_id b =? i) (nbs s).
(** neighbor->neighbor_2_list; src/neighbor_table.h:63-75 *)
Definition list_of (n : Z) (s : tstate) : list n2l := filter (fun l => l_nbr l =? n) (n2ls s).

(** src/neighbor_table.c:138-150 olsr_lookup_my_neighbors; the outer [None] is a use after free *)
Fixpoint find_my (s : tstate) (a : Z) (l : list n2l) : option (option n2l) :=
  match l with
  | [] => Some None
  | e :: r => match get_two (l_two e) s with
              | None => None
              | Some t => if t_addr t =? a then Some (Some e) else find_my s a r
              end
  end.
(** see above, src/neighbor_table.c:138-150 *)
Definition lookup_my (n a : Z) (s : tstate) : option (option n2l) := find_my s a (list_of n s).
(** src/two_hop_neighbor_table.c:152-178 olsr_lookup_two_hop_neighbor_table *)
Definition lookup_two (hsh : Z -> Z) (al : Z -> list Z) (a : Z) (s : tstate) : option two :=
  find (fun t => (hsh (t_addr t) =? hsh a) && ((t_addr t =? a) || existsb (Z.eqb a) (al (t_addr t)))) (twos s).
(** src/two_hop_neighbor_table.c:189-204 olsr_lookup_two_hop_neighbor_table_mid *)
Definition lookup_two_mid (a : Z) (s : tstate) : option two := find (fun t => t_addr t =? a) (twos s).
(** src/neighbor_table.c:302-318 olsr_lookup_neighbor_table_alias *)
Definition lookup_nb (a : Z) (s : tstate) : option nbe := find (fun b => b_addr b =? a) (nbs s).

(** src/two_hop_neighbor_table.c:80-97 olsr_delete_neighbor_pointer *)
Definition del_nbr_ptr (n : Z) (t : two) : two := set_tlist (filter (fun e => negb (e_nbr e =? n)) (t_list t)) t.
(** src/neighbor_table.c:74-100 olsr_del_nbr2_list *)
Definition del_n2l (l : n2l) (s : tstate) : option tstate :=
  match get_two (l_two l) s, get_nb (l_nbr l) s with
  | Some t, Some _ =>
      let s1 := if t_cnt t <? 1 then set_twos (filter (fun x => negb (t_id x =? t_id t)) (twos s)) s else s in
      Some (set_n2ls (filter (fun x => negb (l_id x =? l_id l)) (n2ls s1)) s1)
  | _, _ => None
  end.
(** src/neighbor_table.c:110-124 olsr_delete_neighbor_2_pointer *)
Definition del_n2_ptr (n t : Z) (s : tstate) : option tstate :=
  match get_nb n s with
  | None => None
  | Some _ => match find (fun l => l_two l =? t) (list_of n s) with
              | Some l => del_n2l l s
              | None => Some s
              end
  end.
(** src/two_hop_neighbor_table.c:114-122: the loop over the neighbors of [t] *)
Fixpoint del_two_loop (t : Z) (l : list nle) (s : tstate) : option tstate :=
  match l with
  | [] => Some s
  | e :: r => match del_n2_ptr (e_nbr e) t s with
              | None => None
              | Some s1 => match get_two t s1 with
                           | None => None
                           | Some _ => del_two_loop t r s1
                           end
              end
  end.
(** src/two_hop_neighbor_table.c:106-127 olsr_delete_two_hop_neighbor_table *)
Definition del_two (t : two) (s : tstate) : option tstate :=
  match del_two_loop (t_id t) (t_list t) s with
  | None => None
  | Some s1 => Some (set_twos (filter (fun x => negb (t_id x =? t_id t)) (twos s1)) s1)
  end.

(** src/neighbor_table.c:361-378 olsr_expire_nbr2_list, and 206-214 the same for the deletion of a neighbor *)
Definition drop_n2l (l : n2l) (s : tstate) : option tstate :=
  match get_two (l_two l) s with
  | None => None
  | Some _ => del_n2l l (set_twos (upd_two (l_two l) (fun t => del_nbr_ptr (l_nbr l) (set_cnt (i16 (t_cnt t - 1)) t)) (twos s)) s)
  end.
(** src/neighbor_table.c:206-214: the loop *)
Fixpoint drop_all (l : list n2l) (s : tstate) : option tstate :=
  match l with
  | [] => Some s
  | e :: r => match drop_n2l e s with None => None | Some s1 => drop_all r s1 end
  end.
(** src/neighbor_table.c:180-227 olsr_delete_neighbor_table *)
Definition del_nb (a : Z) (s : tstate) : option tstate :=
  match lookup_nb a s with
  | None => Some s
  | Some b => match drop_all (list_of (b_id b) s) s with
              | None => None
              | Some s1 => Some (set_nbs (filter (fun x => negb (b_id x =? b_id b)) (nbs s1)) s1)
              end
  end.
(** src/neighbor_table.c:236-273 olsr_insert_neighbor_table *)
Definition ins_nb (a : Z) (s : tstate) : tstate :=
  match lookup_nb a s with
  | Some _ => s
  | None => mkS (mkNb (fresh s) a false :: nbs s) (n2ls s) (twos s) (fresh s + 1)
  end.
(** src/neighbor_table.c:156-168 olsr_update_neighbor_main_addr *)
Definition rename (n a : Z) (s : tstate) : tstate :=
  match get_nb n s with
  | None => s
  | Some b => set_nbs (mkNb n a (b_sym b) :: filter (fun x => negb (b_id x =? n)) (nbs s)) s
  end.
(** src/neighbor_table.c:320-356 update_neighbor_status *)
Definition set_status (hsh : Z -> Z) (al : Z -> list Z) (n : Z) (sym : bool) (s : tstate) : option tstate :=
  match get_nb n s with
  | None => None
  | Some b =>
      match (if sym && negb (b_sym b) then match lookup_two hsh al (b_addr b) s with Some t => del_two t s | None => Some s end else Some s) with
      | None => None
      | Some s1 => Some (set_nbs (map (fun x => if b_id x =? n then mkNb n (b_addr x) sym else x) (nbs s1)) s1)
      end
  end.

(** src/process_package.c:256-287 linking_this_2_entries; olsr_change_timer does nothing without a
    timer (src/scheduler.c:1018-1024) *)
Definition link2 (n t : Z) (s : tstate) : tstate :=
  mkS (nbs s) (mkL (fresh s) n t None :: n2ls s)
    (upd_two t (fun x => set_cnt (i16 (t_cnt x + 1)) (set_tlist (mkE n LINK_COST_BROKEN LINK_COST_BROKEN LINK_COST_BROKEN :: t_list x) x)) (twos s))
    (fresh s + 1).
(** src/scheduler.c:1052-1073 olsr_set_timer; [rmax] is OLSR_RANDOM_MAX, [r] the random number *)
Definition timer_at (rmax now rel r : Z) : option Z := if rel =? 0 then None else Some (calc_jitter rmax now rel NBR2_LIST_JITTER r).

(** a neighbor listed in a HELLO (src/packet.h struct hello_neighbor): address,
    whether its status is SYM_NEIGH or MPR_NEIGH, cost *)
Record hnb := mkH { h_addr : Z; h_sym : bool; h_cost : Z }.
(** what a HELLO is processed with: our addresses, the MID set, lq_level > 0, validity, random
    number, the cost of get_best_link_to_neighbor; src/process_package.c:78-287 *)
Record henv := mkV { v_own : Z -> bool; v_main : Z -> option Z; v_ali : Z -> list Z; v_lq : bool; v_time : Z; v_rand : Z; v_best : option Z }.

(** src/process_package.c:103-170: one neighbor that is listed as symmetric, its main address [a] *)
Definition add_listed (rmax : Z) (hsh : Z -> Z) (now : Z) (v : henv) (n a : Z) (s : tstate) : option tstate :=
  match lookup_my n a s with
  | None => None
  | Some (Some l) =>
      let s1 := set_n2ls (map (fun x => if l_id x =? l_id l then set_ltimer (timer_at rmax now (v_time v) (v_rand v)) x else x) (n2ls s)) s in
      Some (if v_lq v
            then set_twos (upd_two (l_two l) (fun t => set_tlist (map (fun e => if e_nbr e =? n then mkE n (e_second e) LINK_COST_BROKEN (e_saved e) else e) (t_list t)) t) (twos s1)) s1
            else s1)
  | Some None =>
      match lookup_two hsh (v_ali v) a s with
      | Some t => Some (link2 n (t_id t) s)
      | None => let i := fresh s in Some (link2 n i (mkS (nbs s) (n2ls s) (mkT i a 0 [] :: twos s) (fresh s + 1)))
      end
  end.
(** src/process_package.c:94-101: the address a listed neighbor is taken under *)
Definition main_of (v : henv) (a : Z) : Z := match v_main v a with Some m => m | None => a end.
(** src/process_package.c:83-171: the first pass; the message keeps the addresses found *)
Fixpoint pass1 (rmax : Z) (hsh : Z -> Z) (now : Z) (v : henv) (n : Z) (msg : list hnb) (s : tstate) : option (tstate * list hnb) :=
  match msg with
  | [] => Some (s, [])
  | x :: r =>
      if v_own v (h_addr x)
      then match pass1 rmax hsh now v n r s with Some (s', r') => Some (s', x :: r') | None => None end
      else
        let a := main_of v (h_addr x) in
        match (if h_sym x then add_listed rmax hsh now v n a s else Some s) with
        | None => None
        | Some s1 => match pass1 rmax hsh now v n r s1 with
                     | Some (s', r') => Some (s', mkH a (h_sym x) (h_cost x) :: r')
                     | None => None
                     end
        end
  end.
(** src/process_package.c:213-240: a better path is taken over *)
Definition better (n second path : Z) (e : nle) : nle :=
  if (e_nbr e =? n) && (path <? e_path e) then mkE n second path path else e.
(** src/process_package.c:176-245: the second pass *)
Fixpoint pass2 (v : henv) (n first : Z) (msg : list hnb) (s : tstate) : option tstate :=
  match msg with
  | [] => Some s
  | x :: r =>
      if v_own v (h_addr x) || negb (h_sym x) then pass2 v n first r s
      else match lookup_my n (h_addr x) s with
           | None => None
           | Some None => pass2 v n first r s
           | Some (Some l) =>
               pass2 v n first r
                 (set_twos (upd_two (l_two l) (fun t => set_tlist (map (better n (h_cost x) (u32 (first + h_cost x))) (t_list t)) t) (twos s)) s)
           end
  end.
(** src/process_package.c:78-247 process_message_neighbors *)
Definition process_hello (rmax : Z) (hsh : Z -> Z) (now : Z) (v : henv) (n : Z) (msg : list hnb) (s : tstate) : option tstate :=
  match get_nb n s with
  | None => None
  | Some _ =>
      match pass1 rmax hsh now v n msg s with
      | None => None
      | Some (s1, msg1) =>
          if v_lq v then match v_best v with None => Some s1 | Some c => pass2 v n c msg1 s1 end else Some s1
      end
  end.

(** src/mid_set.c:216-249: the loop over the aliases of [main] *)
Fixpoint mid_loop (main : Z) (l : list Z) (s : tstate) : option tstate :=
  match l with
  | [] => Some s
  | a :: r =>
      match (match lookup_two_mid a s with Some t => del_two t s | None => Some s end) with
      | None => None
      | Some s1 =>
          mid_loop main r
            (match lookup_nb a s1, lookup_nb main s1 with
             | Some b, Some _ => set_nbs (filter (fun x => negb (b_id x =? b_id b)) (nbs s1)) s1   (* freed without its two-hop list *)
             | _, _ => s1
             end)
      end
  end.
(** src/mid_set.c:263-323 insert_mid_alias with 154-252 insert_mid_tuple; [known] says that the alias
    is registered with [main] already, [others] are the aliases [main] has *)
Definition mid_alias (main alias : Z) (known : bool) (others : list Z) (s : tstate) : option tstate :=
  match (match lookup_nb alias s with
         | Some _ => match del_nb alias s with Some s1 => Some (ins_nb main s1) | None => None end
         | None => Some s
         end) with
  | None => None
  | Some s2 => if known then Some s2 else mid_loop main (alias :: others) s2
  end.

(** The events: a neighbor is inserted (src/link_set.c:621), deleted (382), its status (459, 485, 739) or
    main address (674) is set, a HELLO is processed (src/process_package.c:550), a timer fires
    (src/neighbor_table.c:361), an alias is learned (src/mid_set.c:617, src/process_package.c:487). *)
Inductive tev :=
| TInsert (a : Z)
| TDelete (a : Z)
| TStatus (n : Z) (sym : bool) (al : Z -> list Z)
| TRename (n a : Z)
| THello (n : Z) (v : henv) (msg : list hnb)
| TFire (i : Z)
| TMid (main alias : Z) (known : bool) (others : list Z).
(** one event at the clock [now]: the functions above; src/two_hop_neighbor_table.c,
    src/neighbor_table.c, src/process_package.c:78-287 *)
Definition tstep (rmax : Z) (hsh : Z -> Z) (now : Z) (s : tstate) (e : tev) : option tstate :=
  match e with
  | TInsert a => Some (ins_nb a s)
  | TDelete a => del_nb a s
  | TStatus n sym al => set_status hsh al n sym s
  | TRename n a => Some (rename n a s)
  | THello n v msg => process_hello rmax hsh now v n msg s
  | TFire i => match find (fun l => l_id l =? i) (n2ls s) with Some l => drop_n2l l s | None => None end
  | TMid main alias known others => mid_alias main alias known others s
  end.
(** only a running timer that is due is fired (src/scheduler.c:695-711); the neighbors that links point
    to are in the table *)
Definition tpossible (now : Z) (s : tstate) (e : tev) : bool :=
  match e with
  | TFire i => match find (fun l => l_id l =? i) (n2ls s) with
               | Some l => match l_timer l with Some d => isTimedOut now d | None => false end
               | None => false
               end
  | TStatus n _ _ | TRename n _ | THello n _ _ => match get_nb n s with Some _ => true | None => false end
  | _ => true
  end.

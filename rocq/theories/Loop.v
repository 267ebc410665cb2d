(** Model of the MPR selector set, the change flags and what the main loop does
    with them (src/mpr_selector_set.c, src/olsr.c:162-249, src/scheduler.c:535-590,
    src/packet.c:320-401, src/olsr_spf.c:311-356).  Definitions only. *)
From Verif Require Import Base.

(** src/neighbor_table.h:63-75: the fields that decide what is advertised *)
Record nb := mkNb { n_addr : Z; n_sym : bool; n_mpr : bool }.

(** src/olsr.c:79-81 changes_neighborhood, changes_topology, changes_hna;
    src/link_set.c:68 link_changes; src/mpr_selector_set.c:53-56 ansn, mprs_list;
    src/olsr_spf.c:80 spf_backoff_timer (running or not); the neighbor table *)
Record ls := mkLs { f_nb : bool; f_topo : bool; f_hna : bool; f_link : bool; ansn : Z; backoff : bool;
                    mprs : list Z; nbrs : list nb }.

(** src/mpr_selector_set.c:62-72, src/olsr.c:257-306 *)
Definition linit : ls := mkLs false false false false 0 false [] [].

(** assignments to src/olsr.c:79-82 *)
Definition raise (s : ls) (a b c d : bool) : ls :=
  mkLs (f_nb s || a) (f_topo s || b) (f_hna s || c) (f_link s || d) (ansn s) (backoff s) (mprs s) (nbrs s).
(** src/mpr_selector_set.c *)
Definition with_mprs (s : ls) (m : list Z) : ls := mkLs (f_nb s) (f_topo s) (f_hna s) (f_link s) (ansn s) (backoff s) m (nbrs s).
(** src/neighbor_table.c *)
Definition with_nbrs (s : ls) (n : list nb) : ls := mkLs (f_nb s) (f_topo s) (f_hna s) (f_link s) (ansn s) (backoff s) (mprs s) n.
(** src/olsr_spf.c:311-356 *)
Definition with_backoff (s : ls) (b : bool) : ls := mkLs (f_nb s) (f_topo s) (f_hna s) (f_link s) (ansn s) b (mprs s) (nbrs s).

(** src/mpr_selector_set.c:176-193 olsr_lookup_mprs_set *)
Definition lookup_mprs (s : ls) (a : Z) : bool := existsb (Z.eqb a) (mprs s).
(** src/mpr_selector_set.c:204-219 olsr_update_mprs_set, 145-166 olsr_add_mpr_selector *)
Definition update_mprs (s : ls) (a : Z) : ls :=
  if lookup_mprs s a then s else raise (with_mprs s (a :: mprs s)) false false false true.
(** the first entry with this address is unlinked; src/mpr_selector_set.c:117 *)
Fixpoint dequeue (a : Z) (l : list Z) : list Z :=
  match l with [] => [] | x :: l' => if x =? a then l' else x :: dequeue a l' end.
(** src/mpr_selector_set.c:102-122 olsr_expire_mpr_sel_entry *)
Definition expire_mprs (s : ls) (a : Z) : ls :=
  if lookup_mprs s a then raise (with_mprs s (dequeue a (mprs s))) false false false true else s.

(** src/neighbor_table.c:320-356 update_neighbor_status *)
Definition nb_status (red : Z) (s : ls) (a : Z) (sym : bool) : ls :=
  let changed := existsb (fun n => (n_addr n =? a) && negb (Bool.eqb (n_sym n) sym)) (nbrs s) in
  let s1 := with_nbrs s (map (fun n => if n_addr n =? a then mkNb a sym (n_mpr n) else n) (nbrs s)) in
  if changed then raise s1 true true false (red >? 1) else s1.
(** src/neighbor_table.c:236-271 olsr_insert_neighbor_table *)
Definition nb_add (s : ls) (a : Z) : ls :=
  if existsb (fun n => n_addr n =? a) (nbrs s) then s else with_nbrs s (mkNb a false false :: nbrs s).
(** src/neighbor_table.c:180-227 olsr_delete_neighbor_table *)
Definition nb_del (s : ls) (a : Z) : ls :=
  if existsb (fun n => n_addr n =? a) (nbrs s)
  then raise (with_nbrs s (filter (fun n => negb (n_addr n =? a)) (nbrs s))) true false false true else s.

(** src/packet.c:337-387 (and src/lq_packet.c:224-251): the neighbors advertised in a TC message *)
Definition advertised (red : Z) (s : ls) : list Z :=
  map n_addr (filter (fun n => n_sym n &&
    (if red =? 2 then true else if red =? 1 then n_mpr n || lookup_mprs s (n_addr n) else lookup_mprs s (n_addr n))) (nbrs s)).

(** what the outside sees; src/olsr.c:206-242, src/packet.c:320-401 *)
Inductive out := OMpr | ORoutes | OListener (k : nat) (n t h : bool) | OTc (a : Z) (l : list Z).

(** one call of olsr_process_changes: the MPRs selected and whether a change is
    found (src/mpr.c:450-454, src/lq_mpr.c:171), and the flags raised during the route
    calculation (src/tc_set.c:248, 402, src/routing_table.c:586, 640) *)
Record calc := mkCalc { k_mprs : list Z; k_changed : bool; k_topo : bool; k_hna : bool }.
(** src/olsr.c:184-249 olsr_process_changes; [n]: the number of registered
    listeners.  olsr_calculate_routing_table (src/olsr_spf.c:332-356) returns at once
    while its backoff timer is running. *)
Definition process_changes (n : nat) (red : Z) (k : calc) (s : ls) : ls * list out :=
  if negb (f_nb s) && negb (f_topo s) && negb (f_hna s) then (s, [])
  else
    let s1 := if f_nb s
              then raise (with_nbrs s (map (fun x => mkNb (n_addr x) (n_sym x) (existsb (Z.eqb (n_addr x)) (k_mprs k))) (nbrs s)))
                         false false false (k_changed k && (red >? 0))
              else s in
    let s2 := if backoff s1 then s1 else raise (with_backoff s1 true) false (k_topo k) (k_hna k) false in
    (mkLs false false false (f_link s2) (ansn s2) (backoff s2) (mprs s2) (nbrs s2),
     (if f_nb s then [OMpr] else []) ++ (if backoff s1 then [] else [ORoutes]) ++
     map (fun i => OListener i (f_nb s2) (f_topo s2) (f_hna s2)) (seq 0 n)).

(** src/scheduler.c:573-578 and src/mpr_selector_set.c:80-84 *)
Definition check_links (s : ls) : ls :=
  if f_link s then mkLs (f_nb s) (f_topo s) (f_hna s) false (u16 (ansn s + 1)) (backoff s) (mprs s) (nbrs s) else s.

(** everything that happens to this state; src/scheduler.c:535-590, src/mpr_selector_set.c *)
Inductive lev :=
| Selected (a : Z)            (* src/process_package.c:531-533 *)
| SelExpire (a : Z)
| NbStatus (a : Z) (sym : bool)
| NbAdd (a : Z)
| NbDel (a : Z)
| LinkCost                    (* src/lq_plugin.c:516-522 olsr_relevant_linkcost_change *)
| Topology | Networks         (* src/tc_set.c:381, 596, 890; src/hna_set.c:294 *)
| BackoffExpire               (* src/olsr_spf.c:314-318 olsr_expire_spf_backoff *)
| SendTc                      (* src/packet.c:332 *)
| Process (k : calc)          (* src/scheduler.c:567, src/process_package.c:553 *)
| CheckLinks.                 (* src/scheduler.c:573-578, after Process *)
Definition lstep (n : nat) (red : Z) (s : ls) (x : lev) : ls * list out :=
  match x with
  | Selected a => (update_mprs s a, [])
  | SelExpire a => (expire_mprs s a, [])
  | NbStatus a b => (nb_status red s a b, [])
  | NbAdd a => (nb_add s a, [])
  | NbDel a => (nb_del s a, [])
  | LinkCost => (raise s true true false true, [])
  | Topology => (raise s false true false false, [])
  | Networks => (raise s false false true false, [])
  | BackoffExpire => (with_backoff s false, [])
  | SendTc => (s, [OTc (ansn s) (advertised red s)])
  | Process k => process_changes n red k s
  | CheckLinks => (check_links s, [])
  end.
(** see above, src/scheduler.c:573-578 *)
Fixpoint lrun (n : nat) (red : Z) (s : ls) (l : list lev) : ls * list out :=
  match l with
  | [] => (s, [])
  | x :: l' => let (s1, o1) := lstep n red s x in let (s2, o2) := lrun n red s1 l' in (s2, o1 ++ o2)
  end.

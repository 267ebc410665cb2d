(** IPv4 over the IPv6 network: the routes for the niit devices (src/olsr_niit.c,
    src/linux/kernel_routes_nl.c:119-151, 468-487, src/ipcalc.h:168-188,
    src/process_routes.c:160-235, 325-404 as far as they call it), for IPv6.

    Simplifications: a request to the kernel to add a route succeeds exactly if the device
    exists and is up, deletions succeed; the kernel drops the routes of a device that goes
    down; the daemon sees every change of a device before the next one.  Metrics and tables
    are left out.  No host emulation.  Link-local destinations (never mapped) are treated
    like others. *)
From Verif Require Import Base IpCalc.

(** address and length, src/olsr_types.h *)
Definition prefix := (list Z * Z)%type.
(** see above, src/olsr_types.h *)
Definition peq : forall a b : prefix, {a = b} + {a <> b}.
Proof. decide equality; [apply Z.eq_dec|apply list_eq_dec, Z.eq_dec]. Defined.

(** src/ipcalc.h:168-181 is_prefix_niit_ipv6: three words of the address *)
Definition is_niit (p : prefix) : bool :=
  (if list_eq_dec Z.eq_dec (firstn 8 (fst p)) (repeat 0 8) then true else false) &&
  (if list_eq_dec Z.eq_dec (firstn 4 (skipn 8 (fst p))) [0; 0; 255; 255] then true else false) &&
  (snd p >=? 96).
(** src/ipcalc.h:183-188 prefix_mappedv4_to_v4 *)
Definition to_v4 (p : prefix) : prefix := (firstn 4 (skipn 12 (fst p)), u8 (snd p - 96)).

(** the daemon: use_niit, the two interface indices (src/olsr_cfg.h:324, 369-370), the two
    flags src/olsr_niit.c:55, hna_entries, the routing table (an entry is flagged if its own
    route is in the kernel).  The system: the devices niit4to6 and niit6to4 with index and
    whether they are up, and the routes with these devices *)
Record nst := {
  n_use : bool; n_i4 : Z; n_i6 : Z; n_a4 : bool; n_a6 : bool;
  n_hna : list prefix; n_tree : list (prefix * bool);
  d_4 : option (Z * bool); d_6 : option (Z * bool); k_46 : list prefix; k_64 : list prefix }.

(** setters; no counterpart; the kernel behind src/linux/kernel_routes_nl.c *)
Definition with_k (s : nst) (a b : list prefix) : nst :=
  {| n_use := n_use s; n_i4 := n_i4 s; n_i6 := n_i6 s; n_a4 := n_a4 s; n_a6 := n_a6 s;
     n_hna := n_hna s; n_tree := n_tree s; d_4 := d_4 s; d_6 := d_6 s; k_46 := a; k_64 := b |}.
(** src/olsr_niit.c:55 *)
Definition with_flags (s : nst) (a b : bool) : nst :=
  {| n_use := n_use s; n_i4 := n_i4 s; n_i6 := n_i6 s; n_a4 := a; n_a6 := b;
     n_hna := n_hna s; n_tree := n_tree s; d_4 := d_4 s; d_6 := d_6 s; k_46 := k_46 s; k_64 := k_64 s |}.
(** src/routing_table.c, routingtree *)
Definition with_tree (s : nst) (t : list (prefix * bool)) : nst :=
  {| n_use := n_use s; n_i4 := n_i4 s; n_i6 := n_i6 s; n_a4 := n_a4 s; n_a6 := n_a6 s;
     n_hna := n_hna s; n_tree := t; d_4 := d_4 s; d_6 := d_6 s; k_46 := k_46 s; k_64 := k_64 s |}.
(** src/olsr_cfg.h:305 *)
Definition with_hna (s : nst) (h : list prefix) : nst :=
  {| n_use := n_use s; n_i4 := n_i4 s; n_i6 := n_i6 s; n_a4 := n_a4 s; n_a6 := n_a6 s;
     n_hna := h; n_tree := n_tree s; d_4 := d_4 s; d_6 := d_6 s; k_46 := k_46 s; k_64 := k_64 s |}.
(** no counterpart; the devices of the kernel *)
Definition with_dev (s : nst) (a b : option (Z * bool)) : nst :=
  {| n_use := n_use s; n_i4 := n_i4 s; n_i6 := n_i6 s; n_a4 := n_a4 s; n_a6 := n_a6 s;
     n_hna := n_hna s; n_tree := n_tree s; d_4 := a; d_6 := b; k_46 := k_46 s; k_64 := k_64 s |}.

(** what the kernel does with a request for a device: src/linux/kernel_routes_nl.c:468-487 *)
Definition ready (d : option (Z * bool)) (i : Z) : bool :=
  match d with Some (j, up) => (j =? i) && up | None => false end.
(** see above, src/linux/kernel_routes_nl.c:468-487 *)
Definition change (ok : bool) (p : prefix) (set : bool) (l : list prefix) : list prefix :=
  if set then if ok then p :: remove peq p l else l else remove peq p l.
(** olsr_os_niit_4to6_route and olsr_os_niit_6to4_route; src/linux/kernel_routes_nl.c:468-487 *)
Definition os46 (p : prefix) (set : bool) (s : nst) : nst :=
  with_k s (change (ready (d_4 s) (n_i4 s)) p set (k_46 s)) (k_64 s).
(** see above, src/linux/kernel_routes_nl.c:468-487 *)
Definition os64 (p : prefix) (set : bool) (s : nst) : nst :=
  with_k s (k_46 s) (change (ready (d_6 s) (n_i6 s)) p set (k_64 s)).

(** src/olsr_niit.c:84-96 olsr_setup_niit_routes *)
Definition hna_routes (set : bool) (s : nst) : nst :=
  fold_left (fun s p => if ip_prefix_is_mappedv4 p then os64 p set s else s) (n_hna s) s.
(** see above, src/olsr_niit.c:84-96 *)
Definition setup (s : nst) : nst :=
  if negb (n_a4 s) || negb (n_a6 s) then s else hna_routes true s.
(** src/olsr_niit.c:98-109 olsr_cleanup_niit_routes *)
Definition cleanup (s : nst) : nst := if negb (n_a6 s) then s else hna_routes false s.
(** src/olsr_niit.c:111-119 olsr_niit_handle_route, called if use_niit is set *)
Definition handle_route (p : prefix) (set : bool) (s : nst) : nst :=
  if n_use s && n_a4 s && n_a6 s && is_niit p then os46 (to_v4 p) set s else s.
(** src/olsr_niit.c:121-140 refresh_niit4to6_routes *)
Definition refresh (set : bool) (s : nst) : nst :=
  if set && (negb (n_a4 s) || negb (n_a6 s)) then s
  else if negb set && negb (n_a4 s) then s
  else fold_left (fun s e => if is_niit (fst e) then os46 (to_v4 (fst e)) set s else s) (n_tree s) s.
(** src/olsr_niit.c:142-167 handle_niit_ifchange; [up]: the flag is not IFCHG_IF_REMOVE *)
Definition ifchange (i : Z) (up : bool) (s : nst) : nst :=
  let active := n_a4 s && n_a6 s in
  let a4 := if i =? n_i4 s then up else n_a4 s in
  let a6 := if i =? n_i6 s then up else n_a6 s in
  let s := with_flags s a4 a6 in
  if Bool.eqb active (a4 && a6) then s
  else if negb active then refresh true (setup s)
  else refresh false (cleanup s).
(** src/linux/kernel_routes_nl.c:147-150 and src/interfaces.c:118-127: the handler is there
    twice (src/olsr_niit.c:79-80), and only with use_niit *)
Definition trigger (i : Z) (up : bool) (s : nst) : nst :=
  if n_use s then ifchange i up (ifchange i up s) else s.

(** src/olsr_niit.c:57-82 olsr_init_niit with src/main.c:599-602, and src/main.c:739-742 *)
Definition start (d4 d6 : option (Z * bool)) (hna : list prefix) : nst :=
  let s use i4 i6 a4 a6 :=
    {| n_use := use; n_i4 := i4; n_i6 := i6; n_a4 := a4; n_a6 := a6; n_hna := hna;
       n_tree := []; d_4 := d4; d_6 := d6; k_46 := []; k_64 := [] |} in
  match d4, d6 with
  | Some (i4, u4), Some (i6, u6) => setup (s true i4 i6 u4 u6)
  | Some (i4, _), None => s false i4 0 false false
  | None, _ => s false 0 0 false false
  end.

(** what happens to the daemon: a new entry in the routing table; its route is added to or
    deleted from the kernel, with success or not (src/process_routes.c:160-235); it is
    flushed (src/process_routes.c:338-346); it is dropped because its interface is gone
    (src/process_routes.c:383-388); a plugin adds or removes an HNA; a device changes *)
Inductive event :=
  | EInsert (p : prefix) | EAdd (p : prefix) (ok : bool) | EDel (p : prefix) (ok : bool)
  | EFlush (p : prefix) (ok : bool) | ELost (p : prefix)
  | EHna (p : prefix) (add : bool)
  | EDev4 (d : option (Z * bool)) | EDev6 (d : option (Z * bool)).

(** the messages about a change of a device; src/linux/kernel_routes_nl.c:119-151 *)
Definition messages (old new : option (Z * bool)) : list (Z * bool) :=
  match old, new with
  | Some (i, _), None => [(i, false)]
  | None, Some (j, b) => [(j, b)]
  | Some (i, _), Some (j, b) => if i =? j then [(j, b)] else [(i, false); (j, b)]
  | None, None => []
  end.
(** routes stay only with a device that stays up; the kernel; no counterpart in
    src/linux/kernel_routes_nl.c *)
Definition survive (old new : option (Z * bool)) (l : list prefix) : list prefix :=
  match old, new with
  | Some (i, true), Some (j, true) => if i =? j then l else []
  | _, _ => []
  end.
(** src/linux/kernel_routes_nl.c:119-151 *)
Definition tell (l : list (Z * bool)) (s : nst) : nst := fold_left (fun s m => trigger (fst m) (snd m) s) l s.
(** the flag of an entry; an entry goes; src/process_routes.c:160-235, 325-404 *)
Definition mark (p : prefix) (b : bool) (t : list (prefix * bool)) : list (prefix * bool) :=
  map (fun e => if peq (fst e) p then (fst e, b) else e) t.
(** src/process_routes.c:325-404 *)
Definition drop (p : prefix) (t : list (prefix * bool)) : list (prefix * bool) :=
  filter (fun e => if peq (fst e) p then false else true) t.
(** src/process_routes.c:160-235 *)
Definition has (p : prefix) (t : list (prefix * bool)) : bool :=
  existsb (fun e => if peq (fst e) p then true else false) t.

(** src/process_routes.c:160-235, 325-404, src/linux/kernel_routes_nl.c:119-151 *)
Definition step (s : nst) (e : event) : nst :=
  match e with
  | EInsert p => if has p (n_tree s) then s else with_tree s ((p, false) :: n_tree s)
  | EAdd p ok => if has p (n_tree s) && ok then handle_route p true (with_tree s (mark p true (n_tree s))) else s
  | EDel p ok => if has p (n_tree s) && ok then handle_route p false (with_tree s (mark p false (n_tree s))) else s
  | EFlush p ok =>
      if has p (n_tree s) && ok
      then let s := handle_route p false s in with_tree s (drop p (n_tree s)) else s
  | ELost p => with_tree s (drop p (n_tree s))
  | EHna p add => with_hna s (if add then p :: n_hna s else remove peq p (n_hna s))
  | EDev4 d => tell (messages (d_4 s) d) (with_dev (with_k s (survive (d_4 s) d (k_46 s)) (k_64 s)) d (d_6 s))
  | EDev6 d => tell (messages (d_6 s) d) (with_dev (with_k s (k_46 s) (survive (d_6 s) d (k_64 s))) (d_4 s) d)
  end.
(** a history of these, src/scheduler.c:535-590 *)
Definition run (s : nst) (l : list event) : nst := fold_left step l s.

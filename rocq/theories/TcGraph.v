(** The link state database with its pointers (src/tc_set.c:131-345, 435-530,
    src/routing_table.c:262-289, 353-368, 536-642): originators, links with their
    pointer to the link of the other direction, prefixes, reference counts.

    Objects have numbers (their addresses in memory); a number without object is
    freed memory, using it is [None].  The trees are lists of objects, a lookup
    finds the element with the key (C25: trees are sorted multimaps); removing
    an object from a tree it is not in is [None].  A prefix is represented by its
    key in the list of its originator.  Not modelled: timers, gateways, costs,
    the routing tree; allocation does not fail. *)
From Verif Require Import Base Compare Parser.

(** src/tc_set.h:74-94 struct tc_entry: addr, refcount, edge_tree, prefix_tree *)
Record gnode := mkGn { gn_addr : list Z; gn_refs : Z; gn_edges : list Z; gn_pfx : list (list Z * Z) }.
(** src/tc_set.h:62-70 struct tc_edge_entry: T_dest_addr, tc, edge_inv *)
Record gedge := mkGe { ge_dest : list Z; ge_tc : Z; ge_inv : option Z }.
(** memory, tc_tree (src/tc_set.c:64), tc_myself (src/tc_set.c:65), main address
    (olsr_cnf->main_addr), maximal prefix length (olsr_cnf->maxplen) *)
Record gst := mkGs { g_next : Z; g_nodes : Z -> option gnode; g_edges : Z -> option gedge; g_tree : list Z; g_me : option Z; g_main : list Z; g_maxplen : Z }.

(** assignment to memory (used by all functions below; src/tc_set.c:157-170,
    443-462) *)
Definition upd {A} (f : Z -> option A) (i : Z) (v : option A) : Z -> option A := fun x => if x =? i then v else f x.
(** see above, src/tc_set.c:157-170 *)
Definition set_node (s : gst) (n : Z) (v : option gnode) : gst :=
  mkGs (g_next s) (upd (g_nodes s) n v) (g_edges s) (g_tree s) (g_me s) (g_main s) (g_maxplen s).
(** see above, src/tc_set.c:157-170 *)
Definition set_edge (s : gst) (i : Z) (v : option gedge) : gst :=
  mkGs (g_next s) (g_nodes s) (upd (g_edges s) i v) (g_tree s) (g_me s) (g_main s) (g_maxplen s).
(** see above, src/tc_set.c:157-170 *)
Definition set_tree (s : gst) (l : list Z) : gst := mkGs (g_next s) (g_nodes s) (g_edges s) l (g_me s) (g_main s) (g_maxplen s).
(** see above, src/tc_set.c:157-170 *)
Definition set_me (s : gst) (m : option Z) : gst := mkGs (g_next s) (g_nodes s) (g_edges s) (g_tree s) m (g_main s) (g_maxplen s).
(** see above, src/tc_set.c:157-170 *)
Definition set_main (s : gst) (a : list Z) : gst := mkGs (g_next s) (g_nodes s) (g_edges s) (g_tree s) (g_me s) a (g_maxplen s).
(** see above, src/tc_set.c:157-170 *)
Definition set_next (s : gst) (k : Z) : gst := mkGs k (g_nodes s) (g_edges s) (g_tree s) (g_me s) (g_main s) (g_maxplen s).

(** src/tc_set.c:319-329 olsr_lookup_tc_entry *)
Fixpoint lookup_in (s : gst) (a : list Z) (l : list Z) : option (option Z) :=
  match l with
  | [] => Some None
  | n :: l' => match g_nodes s n with
               | None => None
               | Some x => if bytes_eqb (gn_addr x) a then Some (Some n) else lookup_in s a l'
               end
  end.
(** see above, src/tc_set.c:319-329 *)
Definition lookup_tc (s : gst) (a : list Z) : option (option Z) := lookup_in s a (g_tree s).

(** src/tc_set.c:680-688 olsr_lookup_tc_edge *)
Fixpoint lookup_edge_in (s : gst) (b : list Z) (l : list Z) : option (option Z) :=
  match l with
  | [] => Some None
  | i :: l' => match g_edges s i with
               | None => None
               | Some x => if bytes_eqb (ge_dest x) b then Some (Some i) else lookup_edge_in s b l'
               end
  end.
(** see above, src/tc_set.c:680-688 *)
Definition lookup_tc_edge (s : gst) (n : Z) (b : list Z) : option (option Z) :=
  match g_nodes s n with None => None | Some x => lookup_edge_in s b (gn_edges x) end.

(** src/tc_set.c:253-257 olsr_lock_tc_entry *)
Definition lock_tc (s : gst) (n : Z) : option gst :=
  match g_nodes s n with
  | None => None
  | Some x => Some (set_node s n (Some (mkGn (gn_addr x) (gn_refs x + 1) (gn_edges x) (gn_pfx x))))
  end.
(** src/tc_set.c:262-273 olsr_unlock_tc_entry *)
Definition unlock_tc (s : gst) (n : Z) : option gst :=
  match g_nodes s n with
  | None => None
  | Some x => Some (set_node s n (if gn_refs x - 1 =? 0 then None else Some (mkGn (gn_addr x) (gn_refs x - 1) (gn_edges x) (gn_pfx x))))
  end.

(** equality of prefixes, src/routing_table.c:108-136 *)
Definition pfx_eqb (p q : list Z * Z) : bool := bytes_eqb (fst p) (fst q) && (snd p =? snd q).

(** src/routing_table.c:572-590, 262-289 olsr_alloc_rt_path for an unknown prefix *)
Definition add_path (s : gst) (n : Z) (p : list Z * Z) : option gst :=
  match g_nodes s n with
  | None => None
  | Some x => if existsb (pfx_eqb p) (gn_pfx x) then Some s
              else lock_tc (set_node s n (Some (mkGn (gn_addr x) (gn_refs x) (gn_edges x) (p :: gn_pfx x)))) n
  end.

(** src/tc_set.c:137-183 olsr_add_tc_entry.  The own prefix is added by address
    (178), that is to the entry the tree holds for it *)
Definition add_tc (s : gst) (a : list Z) : option (gst * option Z) :=
  if forallb (fun b => b =? 0) (g_main s) then Some (s, None)
  else
    let n := g_next s in
    let s1 := set_node (set_next s (n + 1)) n (Some (mkGn a 0 [] [])) in
    match lookup_tc s a with
    | None => None
    | Some f =>
        let s2 := match f with None => set_tree s1 (n :: g_tree s) | Some _ => s1 end in
        match lock_tc s2 n with
        | None => None
        | Some s3 =>
            match add_path s3 (match f with None => n | Some m => m end) (a, g_maxplen s) with
            | None => None
            | Some s4 => Some (s4, Some n)
            end
        end
    end.

(** src/tc_set.c:334-343 olsr_locate_tc_entry *)
Definition locate (s : gst) (a : list Z) : option (gst * option Z) :=
  match lookup_tc s a with
  | None => None
  | Some (Some n) => Some (s, Some n)
  | Some None => add_tc s a
  end.

(** src/routing_table.c:536-593 olsr_insert_routing_table *)
Definition insert_rt (s : gst) (dst : list Z) (plen : Z) (orig : list Z) : option gst :=
  if plen >? g_maxplen s then Some s
  else match locate s orig with
       | None => None
       | Some (s1, None) => Some s1
       | Some (s1, Some n) => add_path s1 n (dst, plen)
       end.

(** src/routing_table.c:353-368 olsr_delete_rt_path *)
Definition delete_path (s : gst) (n : Z) (p : list Z * Z) : option gst :=
  match g_nodes s n with
  | None => None
  | Some x => if existsb (pfx_eqb p) (gn_pfx x)
              then unlock_tc (set_node s n (Some (mkGn (gn_addr x) (gn_refs x) (gn_edges x) (filter (fun q => negb (pfx_eqb p q)) (gn_pfx x))))) n
              else None
  end.
(** src/routing_table.c:598-642 olsr_delete_routing_table *)
Definition delete_rt (s : gst) (dst : list Z) (plen : Z) (orig : list Z) : option gst :=
  if plen >? g_maxplen s then Some s
  else match lookup_tc s orig with
       | None => None
       | Some None => Some s
       | Some (Some n) =>
           match g_nodes s n with
           | None => None
           | Some x => if existsb (pfx_eqb (dst, plen)) (gn_pfx x) then delete_path s n (dst, plen) else Some s
           end
       end.

(** src/tc_set.c:435-497 olsr_add_tc_edge_entry: [n] the originator.  An edge the
    tree holds already is not inserted again, but is connected *)
Definition add_edge (s : gst) (n : Z) (b : list Z) : option (gst * Z) :=
  match g_nodes s n, lookup_tc_edge s n b with
  | Some x, Some f =>
      let i := g_next s in
      let ins := match f with None => i :: gn_edges x | Some _ => gn_edges x end in
      let s1 := set_edge (set_next s (i + 1)) i (Some (mkGe b n None)) in
      let s2 := set_node s1 n (Some (mkGn (gn_addr x) (gn_refs x + 1) ins (gn_pfx x))) in
      match lookup_tc s2 b with
      | None => None
      | Some None => Some (s2, i)
      | Some (Some m) =>
          match lookup_tc_edge s2 m (gn_addr x) with
          | None => None
          | Some None => Some (s2, i)
          | Some (Some j) =>
              match g_edges s2 j with
              | None => None
              | Some ej =>
                  let s3 := set_edge s2 j (Some (mkGe (ge_dest ej) (ge_tc ej) (Some i))) in
                  match g_edges s3 i with
                  | None => None
                  | Some ei => Some (set_edge s3 i (Some (mkGe (ge_dest ei) (ge_tc ei) (Some j))), i)
                  end
              end
          end
      end
  | _, _ => None
  end.

(** src/tc_set.c:504-529 olsr_delete_tc_edge_entry *)
Definition delete_edge (s : gst) (i : Z) : option gst :=
  match g_edges s i with
  | None => None
  | Some e =>
      match g_nodes s (ge_tc e) with
      | None => None
      | Some x =>
          if negb (existsb (Z.eqb i) (gn_edges x)) then None
          else match unlock_tc (set_node s (ge_tc e) (Some (mkGn (gn_addr x) (gn_refs x) (filter (fun k => negb (i =? k)) (gn_edges x)) (gn_pfx x)))) (ge_tc e) with
               | None => None
               | Some s1 =>
                   match ge_inv e with
                   | None => Some (set_edge s1 i None)
                   | Some j => match g_edges s1 j with
                               | None => None
                               | Some ej => Some (set_edge (set_edge s1 j (Some (mkGe (ge_dest ej) (ge_tc ej) None))) i None)
                               end
                   end
               end
      end
  end.

(** src/tc_set.c:295-301 the loops over the links and prefixes of an entry *)
Fixpoint delete_edges (s : gst) (l : list Z) : option gst :=
  match l with [] => Some s | i :: l' => match delete_edge s i with None => None | Some s' => delete_edges s' l' end end.
(** see above, src/tc_set.c:295-301 *)
Fixpoint delete_paths (s : gst) (n : Z) (l : list (list Z * Z)) : option gst :=
  match l with [] => Some s | p :: l' => match delete_path s n p with None => None | Some s' => delete_paths s' n l' end end.

(** src/tc_set.c:280-313 olsr_delete_tc_entry *)
Definition delete_tc (s : gst) (n : Z) : option gst :=
  match g_nodes s n with
  | None => None
  | Some x =>
      match delete_rt s (gn_addr x) (g_maxplen s) (gn_addr x) with
      | None => None
      | Some s1 =>
          match delete_edges s1 (gn_edges x) with
          | None => None
          | Some s2 =>
              match g_nodes s2 n with
              | None => None
              | Some x2 =>
                  match delete_paths s2 n (gn_pfx x2) with
                  | None => None
                  | Some s3 =>
                      if existsb (Z.eqb n) (g_tree s3) then unlock_tc (set_tree s3 (filter (fun m => negb (n =? m)) (g_tree s3))) n else None
                  end
              end
          end
      end
  end.

(** src/tc_set.c:226-249 olsr_change_myself_tc *)
Definition change_myself (s : gst) : option gst :=
  match g_me s with
  | Some m =>
      match g_nodes s m with
      | None => None
      | Some x =>
          if bytes_eqb (gn_addr x) (g_main s) then Some s
          else match delete_tc s m with
               | None => None
               | Some s1 => match add_tc s1 (g_main s) with None => None | Some (s2, r) => Some (set_me s2 r) end
               end
      end
  | None => match add_tc s (g_main s) with None => None | Some (s2, r) => Some (set_me s2 r) end
  end.

(** src/tc_set.c:189-212 olsr_init_tc *)
Definition init_tc (main : list Z) (maxplen : Z) : option gst :=
  match add_tc (mkGs 0 (fun _ => None) (fun _ => None) [] None main maxplen) main with
  | None => None
  | Some (s, r) => Some (set_me s r)
  end.

(** What the rest of the program does with the database: topology messages
    (src/tc_set.c:816-826, 611-671: look up or create the originator, then look
    up or create the link), links revoked (src/tc_set.c:538-598), entries expired
    (src/tc_set.c:368-382, 930), prefixes of MID and HNA messages
    (src/mid_set.c:182,477,512,621; src/hna_set.c:240,300), links of this node
    (src/olsr_spf.c:402-440, src/link_set.c:374-377), a changed main address
    (src/olsr_spf.c:383). *)
Inductive gop :=
| OEdge (a b : list Z) | ODelEdge (a b : list Z) | ODelEntry (a : list Z)
| OPath (a dst : list Z) (plen : Z) | ODelPath (a dst : list Z) (plen : Z)
| OMyEdge (b : list Z) | ODelMyEdge (b : list Z) | OMain (a : list Z).
(** look up a link, create it if it is not there (src/tc_set.c:626-639,
    src/olsr_spf.c:412, 436-437) *)
Definition ensure_edge (s : gst) (n : Z) (b : list Z) : option gst :=
  match lookup_tc_edge s n b with
  | None => None
  | Some (Some _) => Some s
  | Some None => option_map fst (add_edge s n b)
  end.
(** look up a link, delete it if it is there (src/olsr_spf.c:405-409,
    src/link_set.c:374-377) *)
Definition drop_edge (s : gst) (n : Z) (b : list Z) : option gst :=
  match lookup_tc_edge s n b with
  | None => None
  | Some (Some i) => delete_edge s i
  | Some None => Some s
  end.
(** the operations; see [gop] (src/tc_set.c, src/olsr_spf.c:383-440) *)
Definition gstep (s : gst) (o : gop) : option gst :=
  match o with
  | OEdge a b => match locate s a with
                 | None => None
                 | Some (s1, None) => Some s1
                 | Some (s1, Some n) => ensure_edge s1 n b
                 end
  | ODelEdge a b => match lookup_tc s a with
                    | None => None
                    | Some None => Some s
                    | Some (Some n) => drop_edge s n b
                    end
  | ODelEntry a => match lookup_tc s a with
                   | None => None
                   | Some None => Some s
                   | Some (Some n) => delete_tc s n
                   end
  | OPath a dst plen => insert_rt s dst plen a
  | ODelPath a dst plen => delete_rt s dst plen a
  | OMyEdge b => match g_me s with None => Some s | Some n => ensure_edge s n b end
  | ODelMyEdge b => match g_me s with None => Some s | Some n => drop_edge s n b end
  | OMain a => change_myself (set_main s a)
  end.
(** a history of operations; src/tc_set.c:131-345, 435-530 *)
Fixpoint grun (s : gst) (l : list gop) : option gst :=
  match l with [] => Some s | o :: l' => match gstep s o with None => None | Some s' => grun s' l' end end.

(** Route calculation: src/olsr_spf.c on the link state database of TcGraph.v.
    Not modelled: the backoff timer (349-356), the lookup of the interface of a
    link (427-431), what is done with the result (473-530, see RtBest.v and
    Rib.v).  The candidate tree is the sorted list that C25 shows the tree to be;
    the edges of an entry are visited in the order of the list [gn_edges], about
    which nothing is assumed. *)
From Verif Require Import Base Bytes Parser TcGraph.

(** src/lq_plugin.h:56-57 *)
Definition LINK_COST_BROKEN : Z := 4194304.
(** see above, src/lq_plugin.h:56-57 *)
Definition ROUTE_COST_BROKEN : Z := 4294967295.

(** assignment to a field of all entries (src/tc_set.h:83-89) *)
Definition updf {A} (f : Z -> A) (i : Z) (v : A) : Z -> A := fun x => if x =? i then v else f x.

(** src/tc_set.h:83-89: path cost, hop count and next hop of every entry; the
    candidate tree and the list of finished entries (src/olsr_spf.c:338-340) *)
Record sst := mkSs { s_cost : Z -> Z; s_hops : Z -> Z; s_nh : Z -> option Z; s_cand : list Z; s_path : list Z }.

(** src/olsr_spf.c:110-126 olsr_spf_add_cand_tree: behind entries of equal cost *)
Fixpoint cinsert (cost : Z -> Z) (n : Z) (l : list Z) : list Z :=
  match l with
  | [] => [n]
  | y :: l' => if cost n <? cost y then n :: y :: l' else y :: cinsert cost n l'
  end.
(** src/olsr_spf.c:133-147 olsr_spf_del_cand_tree: removing what is not in the
    tree goes wrong *)
Definition cdel (n : Z) (l : list Z) : option (list Z) :=
  if existsb (Z.eqb n) l then Some (filter (fun m => negb (n =? m)) l) else None.

(** src/olsr_spf.c:238-270: one edge from [p] to [v] of cost [c] *)
Definition relax1 (p : Z) (st : sst) (v c : Z) : option sst :=
  let nc := u32 (s_cost st p + c) in
  if nc <? s_cost st v then
    match (if s_cost st v <? ROUTE_COST_BROKEN then cdel v (s_cand st) else Some (s_cand st)) with
    | None => None
    | Some cd =>
        let cost' := updf (s_cost st) v nc in
        Some (mkSs cost' (updf (s_hops st) v (u8 (s_hops st p + 1)))
                (match s_nh st p with Some l => updf (s_nh st) v (Some l) | None => s_nh st end)
                (cinsert cost' v cd) (s_path st))
    end
  else Some st.

(** src/olsr_spf.c:211-273 the loop over the edges; [ec] the cost of each edge *)
Fixpoint relax_edges (g : gst) (ec : Z -> Z) (p : Z) (l : list Z) (st : sst) : option sst :=
  match l with
  | [] => Some st
  | i :: l' =>
      match g_edges g i with
      | None => None
      | Some e =>
          match ge_inv e with
          | None => relax_edges g ec p l' st
          | Some j =>
              if ec i >=? LINK_COST_BROKEN then relax_edges g ec p l' st
              else match g_edges g j with
                   | None => None
                   | Some ej => match relax1 p st (ge_tc ej) (ec i) with
                                | None => None
                                | Some st' => relax_edges g ec p l' st'
                                end
                   end
          end
      end
  end.
(** src/olsr_spf.c:193-274 olsr_spf_relax *)
Definition relax (g : gst) (ec : Z -> Z) (p : Z) (st : sst) : option sst :=
  match g_nodes g p with None => None | Some x => relax_edges g ec p (gn_edges x) st end.

(** src/olsr_spf.c:288-306 olsr_spf_run_full.  [fuel] bounds the iterations of
    the while loop; that it suffices is part of what is proved *)
Fixpoint run_full (fuel : nat) (g : gst) (ec : Z -> Z) (st : sst) : option sst :=
  match s_cand st with
  | [] => Some st
  | p :: _ =>
      match fuel with
      | O => None
      | S f =>
          match relax g ec p st with
          | None => None
          | Some st1 =>
              match cdel p (s_cand st1) with
              | None => None
              | Some cd => run_full f g ec (mkSs (s_cost st1) (s_hops st1) (s_nh st1) cd (s_path st1 ++ [p]))
              end
          end
      end
  end.

(** A neighbor as the calculation sees it (src/olsr_spf.c:404-421): main
    address, whether symmetric, and the best link to it unless there is none or
    it is lost *)
Record nbr := mkNb { nb_addr : list Z; nb_sym : bool; nb_link : option Z }.

(** src/olsr_spf.c:402-446: one neighbor.  [lcost]: cost of a link, which the
    edge takes over (442-443); [newcost]: cost of an edge just made, whose
    qualities are all zero (438, src/tc_set.c:490) *)
Definition prep1 (lcost : Z -> Z) (newcost : Z) (me : Z) (x : gst * (Z -> Z) * (Z -> option Z)) (b : nbr) : option (gst * (Z -> Z) * (Z -> option Z)) :=
  let '(g, ec, nh) := x in
  match (if nb_sym b then nb_link b else None) with
  | None => match drop_edge g me (nb_addr b) with None => None | Some g' => Some (g', ec, nh) end
  | Some l =>
      match lookup_tc_edge g me (nb_addr b) with
      | None => None
      | Some f =>
          match (match f with
                 | Some i => Some (g, i, updf ec i (lcost l))
                 | None => match add_edge g me (nb_addr b) with None => None | Some (g', i) => Some (g', i, updf ec i newcost) end
                 end) with
          | None => None
          | Some (g', i, ec') =>
              match g_edges g' i with
              | None => None
              | Some e =>
                  match ge_inv e with
                  | None => Some (g', ec', nh)
                  | Some j => match g_edges g' j with None => None | Some ej => Some (g', ec', updf nh (ge_tc ej) (Some l)) end
                  end
              end
          end
      end
  end.
(** see above, src/olsr_spf.c:402-446 *)
Fixpoint prep (lcost : Z -> Z) (newcost : Z) (me : Z) (x : gst * (Z -> Z) * (Z -> option Z)) (l : list nbr) : option (gst * (Z -> Z) * (Z -> option Z)) :=
  match l with [] => Some x | b :: l' => match prep1 lcost newcost me x b with None => None | Some x' => prep lcost newcost me x' l' end end.

(** src/olsr_spf.c:372-377 the initialisation of all entries *)
Definition init_all {A} (f : Z -> A) (v : A) (l : list Z) : Z -> A := fold_left (fun h n => updf h n v) l f.

(** The result: the database with the edges of this node, the costs of the
    edges, and the fields of the entries; [None] inside if there is no main
    address (src/olsr_spf.c:384-392) *)
Record sres := mkSr { sr_g : gst; sr_ec : Z -> Z; sr_st : option sst }.

(** src/olsr_spf.c:333-459 olsr_calculate_routing_table up to the calculated
    path list; [old]: the fields of the entries before *)
Definition calculate (g : gst) (ec : Z -> Z) (nbrs : list nbr) (lcost : Z -> Z) (newcost : Z) (old : sst) : option sres :=
  let cost0 := init_all (s_cost old) ROUTE_COST_BROKEN (g_tree g) in
  let hops0 := init_all (s_hops old) 0 (g_tree g) in
  let nh0 := init_all (s_nh old) None (g_tree g) in
  match change_myself g with
  | None => None
  | Some g1 =>
      match g_me g1 with
      | None => Some (mkSr g1 ec None)
      | Some me =>
          let cost1 := updf cost0 me 0 in
          match prep lcost newcost me (g1, ec, nh0) nbrs with
          | None => None
          | Some (g2, ec2, nh2) =>
              match run_full (S (length (g_tree g2))) g2 ec2 (mkSs cost1 hops0 nh2 (cinsert cost1 me []) []) with
              | None => None
              | Some st => Some (mkSr g2 ec2 (Some st))
              end
          end
      end
  end.

(** Model of the selection of the best path to a prefix (src/routing_table.c).
    Definitions only. *)
From Verif Require Import Base Compare.

(** src/routing_table.h:111-128 rt_path with rt_nexthop (gateway, iif_index) and
    rt_metric (hops, cost); the pointer of a path is identified by its
    destination and its originator (one path object per node and prefix,
    src/routing_table.c:536-577) *)
Record rpath := mkRp { rp_orig : list Z; rp_gw : list Z; rp_iif : Z; rp_hops : Z; rp_cost : Z; rp_ver : Z }.

(** src/routing_table.c:450-455: the cost of a path, scaled if the path is the
    current default gateway.  [scale] is the multiplication with the float
    lq_nat_thresh followed by the conversion to 32 bit: any function. *)
Definition eff_cost (scale : Z -> Z) (isgw : list Z -> bool) (p : rpath) : Z :=
  if isgw (rp_orig p) then scale (rp_cost p) else rp_cost p.

(** src/routing_table.c:447-479 olsr_cmp_rtp *)
Definition cmp_rtp (scale : Z -> Z) (isgw : list Z -> bool) (p q : rpath) : bool :=
  let e1 := eff_cost scale isgw p in
  let e2 := eff_cost scale isgw q in
  if e1 <? e2 then true
  else if e1 >? e2 then false
  else if rp_hops p <? rp_hops q then true
  else if rp_hops p >? rp_hops q then false
  else memcmp (rp_orig p) (rp_orig q) <? 0.

(** src/routing_table.c:497-514 olsr_rt_best over the paths in the order of the
    tree; the assertion of line 503 fails for an empty tree: [None] *)
Definition rt_best (scale : Z -> Z) (isgw : list Z -> bool) (ps : list rpath) : option rpath :=
  match ps with
  | [] => None
  | p :: l => Some (fold_left (fun b q => if cmp_rtp scale isgw q b then q else b) l p)
  end.

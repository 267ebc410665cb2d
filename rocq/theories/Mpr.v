(** Model of the MPR selection of RFC 3626 (src/mpr.c) and of the one with link
    qualities (src/lq_mpr.c).  Definitions only.  Pointers to neighbors and to
    two-hop neighbors are their positions in the order in which the tables are
    walked.  Simplified: what the calculation does not change is in [graph]; the
    counter neighbor_2_pointer is the length of the list (it is C41). *)
From Verif Require Import Base.

(** src/neighbor_table.h:63-75: status == SYM, willingness, neighbor_2_list *)
Record nbr := mkNb { b_sym : bool; b_will : Z; b_two : list nat }.

(** src/two_hop_neighbor_table.h:56-73.  [t_dup]: olsr_lookup_neighbor_table finds
    a symmetric neighbor with this address (src/mpr.c:108-110, 162-164, 336-338,
    492-494; src/lq_mpr.c:97-102); [t_direct]: the cost of its best link
    (src/lq_mpr.c:109-114); [t_nbl]: neighbor_2_nblist with path_linkcost *)
Record two := mkTw { t_dup : bool; t_direct : option Z; t_nbl : list (nat * Z) }.
(** see above, src/two_hop_neighbor_table.h:56-73 *)
Record graph := mkG { g_nbrs : list nbr; g_twos : list two }.

(** the neighbor at a pointer, src/neighbor_table.h:63-75 *)
Definition nb (g : graph) (b : nat) : nbr := nth b (g_nbrs g) (mkNb false 0 []).
(** the two-hop neighbor at a pointer, src/two_hop_neighbor_table.h:65-73 *)
Definition tw (g : graph) (x : nat) : two := nth x (g_twos g) (mkTw false None []).
(** its neighbor list, src/two_hop_neighbor_table.h:65-73 *)
Definition nbl (g : graph) (x : nat) : list nat := map fst (t_nbl (tw g x)).
(** src/mpr.c:60-300: not also a neighbor *)
Definition strict (g : graph) (x : nat) : bool := negb (t_dup (tw g x)).
(** OLSR_FOR_ALL_NBR_ENTRIES, src/neighbor_table.h:77-84 *)
Definition all_nbrs (g : graph) : list nat := seq 0 (length (g_nbrs g)).
(** see above, src/neighbor_table.h:77-84 *)
Definition all_twos (g : graph) : list nat := seq 0 (length (g_twos g)).

(** is_mpr, was_mpr, neighbor_2_nocov (src/neighbor_table.h:67-70) and
    mpr_covered_count (src/two_hop_neighbor_table.h:67) *)
Record mst := mkM { m_mpr : nat -> bool; m_was : nat -> bool; m_nocov : nat -> Z; m_cov : nat -> Z }.
(** see above, src/neighbor_table.h:67-70 *)
Definition upd {A} (f : nat -> A) (i : nat) (v : A) : nat -> A := fun j => if Nat.eqb j i then v else f j.

(** src/mpr.c:240-262 olsr_clear_mprs *)
Definition clear_mprs (g : graph) (s : mst) : mst :=
  fold_left (fun (s : mst) (b : nat) =>
    let s1 := if m_mpr s b then mkM (upd (m_mpr s) b false) (upd (m_was s) b true) (m_nocov s) (m_cov s) else s in
    fold_left (fun (s : mst) (x : nat) => mkM (m_mpr s) (m_was s) (m_nocov s) (upd (m_cov s) x 0)) (b_two (nb g b)) s1) (all_nbrs g) s.

(** src/mpr.c:333-345: one neighbor; [(count, n_count, processed)] *)
Definition count_two (g : graph) (l : list nat) (a : Z * Z * (nat -> bool)) : Z * Z * (nat -> bool) :=
  fold_left (fun (a : Z * Z * (nat -> bool)) x => let '(c, n, p) := a in
    if strict g x then if p x then (c, u16 (n + 1), p) else (u16 (c + 1), u16 (n + 1), upd p x true) else (c, n, p)) l a.

(** src/mpr.c:314-356 olsr_calculate_two_hop_neighbors; neither counter is reset
    between the neighbors *)
Definition two_hop_count (g : graph) (s : mst) : mst * Z :=
  let '(s', _, _, _, sum) :=
    fold_left (fun (a : mst * Z * Z * (nat -> bool) * Z) (b : nat) => let '(s, c, n, p, sum) := a in
      if negb (b_sym (nb g b)) then (mkM (m_mpr s) (m_was s) (upd (m_nocov s) b c) (m_cov s), c, n, p, sum)
      else let '(c', n', p') := count_two g (b_two (nb g b)) (c, n, p) in
           (mkM (m_mpr s) (m_was s) (upd (m_nocov s) b n') (m_cov s), c', n', p', u16 (sum + c')))
      (all_nbrs g) (s, 0, 0, fun _ => false, 0) in
  (s', sum).

(** src/mpr.c:144-200 olsr_chosen_mpr; [c] is olsr_cnf->mpr_coverage *)
Definition dec_nocov (g : graph) (l : list nat) (f : nat -> Z) : nat -> Z :=
  fold_left (fun f b => if b_sym (nb g b) then upd f b (f b - 1) else f) l f.
(** see above, src/mpr.c:144-200 *)
Definition cover1 (g : graph) (c : Z) (a : mst * Z) (x : nat) : mst * Z :=
  let (s, cnt) := a in
  if strict g x then
    let v := u8 (m_cov s x + 1) in
    if v >=? c then (mkM (m_mpr s) (m_was s) (dec_nocov g (nbl g x) (m_nocov s)) (upd (m_cov s) x v), u16 (cnt + 1))
    else (mkM (m_mpr s) (m_was s) (m_nocov s) (upd (m_cov s) x v), cnt)
  else a.
(** see above, src/mpr.c:144-200 *)
Definition chosen_mpr (g : graph) (c : Z) (a : mst * Z) (b : nat) : mst * Z :=
  let (s, cnt) := a in
  fold_left (cover1 g c) (b_two (nb g b)) (mkM (upd (m_mpr s) b true) (m_was s) (m_nocov s) (m_cov s), cnt).

(** src/mpr.c:361-387 add_will_always_nodes *)
Definition add_always (g : graph) (c : Z) (s : mst) : mst * Z :=
  fold_left (fun a b => if negb (b_sym (nb g b)) || negb (b_will (nb g b) =? 7) then a else chosen_mpr g c a b) (all_nbrs g) (s, 0).

(** src/mpr.c:90-138 olsr_find_2_hop_neighbors_with_1_link: the neighbors of the
    entries found, the last one first *)
Definition one_link (g : graph) (w : Z) : list nat :=
  rev (flat_map (fun x => if negb (strict g x) then [] else
    match nbl g x with
    | [b] => if (b_will (nb g b) =? w) && b_sym (nb g b) then [b] else []
    | _ => []
    end) (all_twos g)).

(** src/mpr.c:210-235 olsr_find_maximum_covered *)
Definition find_max (g : graph) (s : mst) (w : Z) : option nat :=
  snd (fold_left (fun (a : Z * option nat) (b : nat) => let (m, r) := a in
    if negb (m_mpr s b) && (b_will (nb g b) =? w) && (m <? m_nocov s b) then (u16 (m_nocov s b), Some b) else a) (all_nbrs g) (0, None)).

(** src/mpr.c:430-439; [None]: not ended after [n] rounds; the flag tells that
    the count was reached *)
Fixpoint max_loop (g : graph) (c total w : Z) (n : nat) (a : mst * Z) : option (mst * Z * bool) :=
  match find_max g (fst a) w with
  | None => Some (a, false)
  | Some b =>
    match n with
    | O => None
    | S n' => let a' := chosen_mpr g c a b in
              if snd a' >=? total then Some (a', true) else max_loop g c total w n' a'
    end
  end.

(** src/mpr.c:410-440, for the values of [ws] *)
Fixpoint will_loop (g : graph) (c total : Z) (ws : list Z) (a : mst * Z) : option (mst * Z) :=
  match ws with
  | [] => Some a
  | w :: ws' =>
    let a1 := fold_left (fun a b => if m_mpr (fst a) b then a else chosen_mpr g c a b) (one_link g w) a in
    if snd a1 >=? total then Some a1
    else match max_loop g c total w (length (g_nbrs g)) a1 with
         | None => None
         | Some (a2, true) => Some a2
         | Some (a2, false) => will_loop g c total ws' a2
         end
  end.

(** src/mpr.c:467-512 olsr_optimize_mpr_set *)
Definition optimize (g : graph) (c : Z) (s : mst) : mst :=
  fold_left (fun (s : mst) w => fold_left (fun (s : mst) b =>
    if negb (b_will (nb g b) =? w) then s
    else if m_mpr s b then
      if existsb (fun x => strict g x && (m_cov s x <=? c)) (b_two (nb g b)) then s
      else mkM (upd (m_mpr s) b false) (m_was s) (m_nocov s) (m_cov s)
    else s) (all_nbrs g) s) [1; 2; 3; 4; 5; 6] s.

(** src/mpr.c:269-290 olsr_check_mpr_changes *)
Definition check_changes (g : graph) (s : mst) : mst * bool :=
  fold_left (fun (a : mst * bool) (b : nat) => let (s, r) := a in
    if m_was s b then (mkM (m_mpr s) (upd (m_was s) b false) (m_nocov s) (m_cov s), r || negb (m_mpr s b)) else a) (all_nbrs g) (s, false).

(** src/mpr.c:393-456 olsr_calculate_mpr: the new state and whether
    signal_link_changes(true) is called; [red] is olsr_cnf->tc_redundancy *)
Definition select (g : graph) (c : Z) (s : mst) : option mst :=
  let (s1, total) := two_hop_count g (clear_mprs g s) in
  option_map fst (will_loop g c total [6; 5; 4; 3; 2; 1] (add_always g c s1)).
(** see above, src/mpr.c:393-456 *)
Definition calculate_mpr (g : graph) (c red : Z) (s : mst) : option (mst * bool) :=
  match select g c s with
  | None => None
  | Some s2 => let (s3, r) := check_changes g (optimize g c s2) in Some (s3, r && (red >? 0))
  end.

(** *** src/lq_mpr.c *)
(** src/lq_plugin.h:56 LINK_COST_BROKEN *)
Definition BROKEN : Z := 4194304.

(** src/lq_mpr.c:145-149: the best neighbor not yet taken *)
Definition lq_best (g : graph) (skip : nat -> bool) (x : nat) : option nat * Z :=
  fold_left (fun a w => if b_sym (nb g (fst w)) && negb (skip (fst w)) && (snd w <? snd a) then (Some (fst w), snd w) else a)
            (t_nbl (tw g x)) (None, BROKEN).

(** src/lq_mpr.c:138-167, [k] more rounds; state: is_mpr, skip, mpr_changes *)
Fixpoint lq_rounds (g : graph) (was : nat -> bool) (x : nat) (b1 : Z) (k : nat) (a : (nat -> bool) * (nat -> bool) * bool)
  : (nat -> bool) * (nat -> bool) * bool :=
  match k with
  | O => a
  | S k' =>
    let '(mpr, skip, chg) := a in
    match lq_best g skip x with
    | (Some b, best) => if best <? b1 then lq_rounds g was x b1 k' (upd mpr b true, upd skip b true, chg || negb (was b)) else a
    | (None, _) => a
    end
  end.

(** src/lq_mpr.c:93-168: one two-hop neighbor *)
Definition lq_two (g : graph) (c : Z) (was : nat -> bool) (a : (nat -> bool) * (nat -> bool) * bool) (x : nat)
  : (nat -> bool) * (nat -> bool) * bool :=
  let '(mpr, skip, chg) := a in
  let start b1 := lq_rounds g was x b1 (Z.to_nat c) (mpr, fold_left (fun f b => upd f b false) (nbl g x) skip, chg) in
  if t_dup (tw g x) then
    match t_direct (tw g x) with
    | None => a
    | Some b1 => if existsb (fun w => snd w <? b1) (t_nbl (tw g x)) then start b1 else a
    end
  else start BROKEN.

(** src/lq_mpr.c:54-173 olsr_calculate_lq_mpr *)
Definition calculate_lq_mpr (g : graph) (c red : Z) (mpr0 skip0 : nat -> bool) : (nat -> bool) * bool :=
  let always b := b_sym (nb g b) && (b_will (nb g b) =? 7) in
  let mpr1 := fold_left (fun f b => upd f b (always b)) (all_nbrs g) mpr0 in
  let chg1 := existsb (fun b => always b && negb (mpr0 b)) (all_nbrs g) in
  let '(mpr, _, chg) := fold_left (lq_two g c mpr0) (all_twos g) (mpr1, skip0, chg1) in
  (mpr, chg && (red >? 0)).

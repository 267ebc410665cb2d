(** Model of the topology set's message handling, src/tc_set.c:84-129, 384-404,
    532-762 and 774-947, and of the border flags of outgoing topology messages,
    src/lq_packet.c:516-543.  Definitions only.  The tree of links of an
    originator is modelled as the list its iteration shows (see Avl*.v), the
    tree of originators as a partial map.  Routing table, gateways, MID and HNA
    sets and the pointers between links (TcGraph.v) are left out; the link
    quality of a link is kept as the bytes read for it.  Reading or writing
    outside a buffer is [None]. *)
From Verif Require Import Base Bytes Compare Mantissa Parser.

(** src/lq_packet.h:55, src/olsr_protocol.h:98 *)
Definition TC_MESSAGE : Z := 2.
(** see above, src/lq_packet.h:55 *)
Definition LQ_TC_MESSAGE : Z := 202.

(** src/tc_set.c:85-95 *)
Definition TC_ANSN_WINDOW : Z := 256.
(** see above, src/tc_set.c:85-95 *)
Definition TC_SEQNO_WINDOW : Z := 1024.
(** see above, src/tc_set.c:85-95 *)
Definition TC_ANSN_WINDOW_MULT : Z := 4.
(** see above, src/tc_set.c:85-95 *)
Definition TC_SEQNO_WINDOW_MULT : Z := 8.

(** src/tc_set.c:97-112 olsr_seq_inrange_low *)
Definition inrange_low (b e seq : Z) : bool :=
  if b <? 0 then (u16 b <=? seq) || (seq <? e)
  else if 65536 <=? e then (b <=? seq) || (seq <? u16 e)
  else (b <=? seq) && (seq <? e).

(** src/tc_set.c:114-129 olsr_seq_inrange_high *)
Definition inrange_high (b e seq : Z) : bool :=
  if b <? 0 then (u16 b <? seq) || (seq <=? e)
  else if 65536 <=? e then (b <? seq) || (seq <=? u16 e)
  else (b <? seq) && (seq <=? e).

(** src/olsr_protocol.h:191-193 SEQNO_GREATER_THAN, MAXVALUE 0xffff (src/olsr_protocol.h:188) *)
Definition seqno_gt (s1 s2 : Z) : bool :=
  ((s1 >? s2) && (s1 - s2 <=? 32767)) || ((s2 >? s1) && (s2 - s1 >? 32767)).

(** src/tc_set.h:62-70 struct tc_edge_entry *)
Record edge := mkEdge { ed_dest : list Z; ed_ansn : Z; ed_lq : list Z }.

(** src/tc_set.h:74-94 struct tc_entry, the fields of message handling *)
Record tcent := mkTc { tc_hops : Z; tc_seq : Z; tc_ansn : Z; tc_ignored : Z; tc_err : Z; tc_errv : bool; tc_edges : list edge }.

(** src/tc_set.c:155-175 the fields of a new entry (zeroed memory) *)
Definition tc_new : tcent := mkTc 0 0 0 0 0 false [].

(** the tree of originators, src/tc_set.c:64 *)
Definition tcdb : Type := list Z -> option tcent.
(** update of one originator (src/tc_set.c:168,311) *)
Definition db_put (d : tcdb) (a : list Z) (t : option tcent) : tcdb := fun x => if bytes_eqb x a then t else d x.

(** configuration: address family, byte order of the host, lq_level, min_tc_vtime
    (src/olsr_cfg.h), denied addresses (src/net_olsr.c) *)
Record tenv := mkTenv { te_v6 : bool; te_little : bool; te_lq : Z; te_minv : Z; te_deny : list (list Z) }.

(** src/olsr.c:263-270 ipsize, olsrd_avl_comp_default *)
Definition ips (e : tenv) : Z := if te_v6 e then 16 else 4.
(** see above, src/olsr.c:263-270 *)
Definition acmp (e : tenv) (a b : list Z) : Z := if te_v6 e then ip6cmp a b else ip4cmp (te_little e) a b.

(** src/tc_set.c:680-688 olsr_lookup_tc_edge *)
Definition find_edge (e : tenv) (l : list edge) (a : list Z) : option edge := find (fun x => acmp e a (ed_dest x) =? 0) l.

(** src/tc_set.c:449-457: a new link goes to its place in the tree *)
Fixpoint ins_edge (e : tenv) (x : edge) (l : list edge) : list edge :=
  match l with
  | [] => [x]
  | y :: l' => if acmp e (ed_dest x) (ed_dest y) <? 0 then x :: y :: l' else y :: ins_edge e x l'
  end.

(** src/tc_set.c:647-654: the known link found by the lookup is changed *)
Fixpoint upd_edge (e : tenv) (a : list Z) (ansn : Z) (lq : option (list Z)) (l : list edge) : list edge :=
  match l with
  | [] => []
  | y :: l' => if acmp e a (ed_dest y) =? 0 then mkEdge (ed_dest y) ansn (match lq with Some q => q | None => ed_lq y end) :: l'
               else y :: upd_edge e a ansn lq l'
  end.

(** src/tc_set.c:611-671 olsr_tc_update_edge: [curr] is the offset in [buf]; links
    after, offset after, address read, whether something changed.  The link
    quality is read from two bytes, two more are skipped
    (src/lq_plugin_default_ff.c:338-347 and alike). *)
Definition update_edge (e : tenv) (l : list edge) (ansn : Z) (buf : list Z) (curr : Z) : option (list edge * Z * list Z * bool) :=
  match rdn buf curr (ips e) with
  | None => None
  | Some a =>
      let curr1 := curr + ips e in
      match find_edge e l a with
      | None =>
          if negb (validate (te_deny e) a) then Some (l, curr1, a, false)
          else match rdn buf curr1 2 with
               | None => None
               | Some q => Some (ins_edge e (mkEdge a ansn q) l, curr1 + 4, a, true)
               end
      | Some _ =>
          if te_lq e >? 0
          then match rdn buf curr1 2 with
               | None => None
               | Some q => Some (upd_edge e a ansn (Some q) l, curr1 + 4, a, true)
               end
          else Some (upd_edge e a ansn None l, curr1, a, false)
      end
  end.

(** src/tc_set.c:888-897 the links of a message; first and last address read *)
Fixpoint walk (fuel : nat) (e : tenv) (l : list edge) (ansn : Z) (buf : list Z) (curr limit : Z) (bord : option (list Z * list Z)) (chg : bool)
  : option (list edge * option (list Z * list Z) * bool) :=
  if curr <? limit then
    match fuel with
    | O => None
    | S fuel' =>
        match update_edge e l ansn buf curr with
        | None => None
        | Some (l', curr', a, c) =>
            walk fuel' e l' ansn buf curr' limit (Some (match bord with None => a | Some (lo, _) => lo end, a)) (chg || c)
        end
    end
  else Some (l, bord, chg).

(** src/tc_set.c:738-746 and 750-759: one border address from its flag; writing
    at an index outside the address is [None] *)
Definition border_ip (n : Z) (flag : Z) (a : list Z) : option (list Z) :=
  let b := u8 (flag - 1) in
  let q := b / 8 in
  if q >=? n then None
  else
    let i := Z.to_nat (n - q - 1) in
    match nth_error a i with
    | None => None
    | Some x => Some (firstn i a ++ [Z.lor (Z.land x (u8 (Z.shiftl 255 (b mod 8)))) (u8 (Z.shiftl 1 (b mod 8)))] ++ repeat 0 (Z.to_nat q))
    end.

(** src/tc_set.c:728-762 olsr_calculate_tc_border; [Some None]: borders not set *)
Definition calculate_tc_border (n lower upper : Z) (lip uip : list Z) : option (option (list Z * list Z)) :=
  if (lower =? 0) && (upper =? 0) then Some None
  else
    match (if lower =? 255 then Some (repeat 0 (Z.to_nat n)) else border_ip n lower lip) with
    | None => None
    | Some lo =>
        match (if upper =? 255 then Some (repeat 255 (Z.to_nat n)) else border_ip n upper uip) with
        | None => None
        | Some up => Some (Some (lo, up))
        end
    end.

(** src/tc_set.c:565-598 olsr_delete_revoked_tc_edges, the loop over the links in
    order, [passed] as passedLowerBorder *)
Fixpoint revoke (e : tenv) (ansn : Z) (lo up : list Z) (passed : bool) (l : list edge) : list edge :=
  match l with
  | [] => []
  | y :: l' =>
      if negb passed && negb (acmp e lo (ed_dest y) <=? 0) then y :: revoke e ansn lo up false l'
      else if acmp e up (ed_dest y) <=? 0 then y :: l'
      else if seqno_gt ansn (ed_ansn y) then revoke e ansn lo up true l' else y :: revoke e ansn lo up true l'
  end.

(** src/tc_set.c:538-553 olsr_delete_outdated_tc_edges *)
Definition delete_outdated (ansn : Z) (l : list edge) : list edge := filter (fun y => negb (seqno_gt ansn (ed_ansn y))) l.

(** src/tc_set.c:831-861: is the message to be processed?  With the entry after
    the check *)
Definition tc_check (t : tcent) (seq ansn : Z) : tcent * bool :=
  match tc_edges t with
  | [] => (t, true)
  | _ =>
      if inrange_high (tc_seq t - TC_SEQNO_WINDOW) (tc_seq t) seq && inrange_high (tc_ansn t - TC_ANSN_WINDOW) (tc_ansn t) ansn then
        if tc_seq t =? seq then (t, false)
        else (mkTc (tc_hops t) (tc_seq t) (tc_ansn t) (u16 (tc_ignored t + 1)) (tc_err t) (tc_errv t) (tc_edges t), negb (tc_ignored t <? 32))
      else if negb (inrange_high (tc_seq t) (tc_seq t + TC_SEQNO_WINDOW * TC_SEQNO_WINDOW_MULT) seq)
              || negb (inrange_low (tc_ansn t) (tc_ansn t + TC_ANSN_WINDOW * TC_ANSN_WINDOW_MULT) ansn) then
        let t' := if tc_errv t then t else mkTc (tc_hops t) (tc_seq t) (tc_ansn t) (tc_ignored t) seq true (tc_edges t) in
        (t', negb (tc_err t' =? seq))
      else (t, true)
  end.

(** what a call does: the set after it, whether the message is to be forwarded
    (src/tc_set.c:808,839,856,946), whether changes_topology is set, the
    validity timer set (address, time), the garbage collection timer set,
    whether MIDs, HNAs and duplicates of the originator are cleaned up *)
Record tcres := mkRes { r_db : tcdb; r_ret : bool; r_chg : bool; r_timer : option (list Z * Z); r_gc : bool; r_clean : bool }.

(** src/tc_set.c:774-947 olsr_input_tc; [sym]: check_neighbor_link of the sender
    is SYM_LINK.  The safety net of olsr_add_tc_entry (148-150) is left out: the
    main address is not zero. *)
Definition input_tc (e : tenv) (sym : bool) (d : tcdb) (buf : list Z) : option tcres :=
  match rd8 buf 0 with
  | None => None
  | Some ty =>
      if negb (ty =? LQ_TC_MESSAGE) && negb (ty =? TC_MESSAGE) then Some (mkRes d false false None false false)
      else if negb sym then Some (mkRes d false false None false false)
      else
        let n := ips e in
        match rd8 buf 1, rd16 buf 2, rdn buf 4 n with
        | Some vt, Some size, Some orig =>
            match rd8 buf (5 + n), rd16 buf (6 + n), rd16 buf (8 + n), rd8 buf (10 + n), rd8 buf (11 + n) with
            | Some hops, Some seq, Some ansn, Some lower, Some upper =>
                let vtime := Z.max (me_to_reltime vt) (te_minv e) in
                let t0 := match d orig with Some t => t | None => tc_new end in
                let (t1, go) := match d orig with Some t => tc_check t seq ansn | None => (tc_new, true) end in
                if negb go then Some (mkRes (db_put d orig (Some t1)) false false None false false)
                else
                  match walk (Z.to_nat size) e (tc_edges t0) ansn buf (12 + n) size None false with
                  | None => None
                  | Some (l, bord, chg) =>
                      let empty := 12 + n >=? size in
                      match (match bord with None => Some None | Some (lo, up) => calculate_tc_border n lower upper lo up end) with
                      | None => None
                      | Some b =>
                          let b := if empty && (lower =? 255) && (upper =? 255)
                                   then Some (repeat 0 (Z.to_nat n), repeat 255 (Z.to_nat n)) else b in
                          let l' := match b with Some (lo, up) => revoke e ansn lo up false l | None => l end in
                          let chg := chg || negb (length l' =? length l)%nat in
                          let set := match b with Some _ => true | None => false end in
                          if empty && set
                          then Some (mkRes (db_put d orig None) true chg (Some (orig, vtime)) (negb set) true)
                          else Some (mkRes (db_put d orig (Some (mkTc hops seq ansn 0 (tc_err t1) false l'))) true chg (Some (orig, vtime)) (negb set) false)
                      end
                  end
            | _, _, _, _, _ => None
            end
        | _, _, _ => None
        end
  end.

(** src/tc_set.c:368-382 olsr_expire_tc_entry; 389-404 olsr_expire_tc_edge_gc;
    334-343 olsr_locate_tc_entry *)
Definition expire_tc (d : tcdb) (a : list Z) : tcdb := db_put d a None.
(** see above, src/tc_set.c:368-382 *)
Definition expire_gc (d : tcdb) (a : list Z) : tcdb :=
  match d a with
  | None => d
  | Some t => db_put d a (Some (mkTc (tc_hops t) (tc_seq t) (tc_ansn t) (tc_ignored t) (tc_err t) (tc_errv t) (delete_outdated (tc_ansn t) (tc_edges t))))
  end.
(** see above, src/tc_set.c:368-382 *)
Definition locate_tc (d : tcdb) (a : list Z) : tcdb :=
  match d a with Some _ => d | None => db_put d a (Some tc_new) end.

(** src/lq_packet.c:524-528: index of the first difference *)
Fixpoint first_diff (a b : list Z) : option (nat * Z * Z) :=
  match a, b with
  | x :: a', y :: b' => if x =? y then option_map (fun '(i, u, v) => (S i, u, v)) (first_diff a' b') else Some (0%nat, x, y)
  | _, _ => None
  end.
(** src/lq_packet.c:534-539: the loop over the bit masks *)
Fixpoint bit_diff (fuel : nat) (bitpos mask x y : Z) : Z :=
  match fuel with
  | O => bitpos
  | S f => if Z.land x mask =? Z.land y mask then bitpos else bit_diff f (bitpos + 1) (u8 (Z.shiftl mask 1)) x y
  end.
(** src/lq_packet.c:516-543 calculate_border_flag *)
Definition calculate_border_flag (n : Z) (lower higher : list Z) : Z :=
  match first_diff lower higher with
  | None => 0
  | Some (part, x, y) => u8 (u8 (bit_diff 8 0 254 x y + 8 * (n - Z.of_nat part - 1)) + 1)
  end.

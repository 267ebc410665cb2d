(** What goes into outgoing HELLO and TC messages with link quality, and when TC
    messages are sent (src/lq_packet.c).  Definitions only. *)
From Verif Require Import Base Bytes SchedTime Compare Parser Tc NetBuf BuildMsg.

(** * TC messages *)

(** what create_lq_tc looks at of an entry of the neighbor table: main address, status = SYM,
    is_mpr, olsr_lookup_mprs_set is not NULL, and the quality (as the first two of four bytes
    the plugin writes, the others are 0) and cost of the link get_best_link_to_neighbor
    returns; src/lq_packet.c, create_lq_tc; src/neighbor_table.h:63-75 *)
Record onb := mkOnb { o_addr : list Z; o_sym : bool; o_mpr : bool; o_sel : bool; o_link : option (list Z * Z) }.
(** src/lq_plugin.h:56 LINK_COST_BROKEN *)
Definition COST_BROKEN : Z := 4194304.
(** src/lq_packet.c:230-273: the entry for a neighbor, or none *)
Definition lq_tc_entry (red : Z) (n : onb) : option (list Z * list Z) :=
  if negb (o_sym n) then None
  else if (red =? 1) && negb (o_mpr n) && negb (o_sel n) then None
  else if (red =? 0) && negb (o_sel n) then None
  else match o_link n with
       | None => None
       | Some (q, cost) => if cost >=? COST_BROKEN then None else Some (o_addr n, q ++ [0; 0])
       end.
(** src/lq_packet.c:279-296: it is put before the first greater one *)
Fixpoint lq_tc_put (e : tenv) (x : list Z * list Z) (l : list (list Z * list Z)) : list (list Z * list Z) :=
  match l with
  | [] => [x]
  | y :: l' => if acmp e (fst y) (fst x) >? 0 then x :: y :: l' else y :: lq_tc_put e x l'
  end.
(** src/lq_packet.c:222-301: the loop over the neighbor table in its order *)
Definition create_lq_tc (e : tenv) (red : Z) (l : list onb) : list (list Z * list Z) :=
  fold_left (fun acc n => match lq_tc_entry red n with Some x => lq_tc_put e x acc | None => acc end) l [].
(** src/lq_packet.c:189, 203-215: the TTL, and ttl_index afterwards; [fish] is lq_fish > 0; [None]: outside of
    the array *)
Definition lq_tc_ttl (fish : bool) (idx : Z) : option (Z * Z) :=
  if fish
  then let idx := if idx >=? 8 then 0 else idx in
       match (if 0 <=? idx then nth_error [2; 8; 2; 16; 2; 8; 2; 255] (Z.to_nat idx) else Some 255) with
       | None => None
       | Some t => Some (t, idx + 1)
       end
  else Some (255, idx).
(** prev_empty (src/lq_packet.c:682), send_empty_tc (src/build_msg.c:76, set and read by 103-117), ttl_index of the
    interface *)
Record tcgen := mkTg { g_empty : bool; g_timer : Z; g_ttl : Z }.
(** src/lq_packet.c:679-719 olsr_output_lq_tc up to the release of the message; [now]: now_times,
    [wait]: max_tc_vtime * 3 * 1000, [ansn]: get_local_ansn *)
Definition output_lq_tc (e : tenv) (red : Z) (fish : bool) (vt : Z) (orig : list Z) (ansn now wait : Z) (l : list onb) (g : tcgen) : M tcgen :=
  match lq_tc_ttl fish (g_ttl g) with
  | None => stuck
  | Some (ttl, idx) =>
      let es := create_lq_tc e red l in
      let send := serialize_lq_tc (te_v6 e) vt orig ttl ansn es in
      match es with
      | _ :: _ => send ;;; ret (mkTg false (g_timer g) idx)
      | [] => if negb (g_empty g) then send ;;; ret (mkTg true (getTimestamp now wait) idx)
              else if negb (isTimedOut now (g_timer g)) then send ;;; ret (mkTg true (g_timer g) idx)
              else ret (mkTg true (g_timer g) idx)
      end
  end.

(** * HELLO messages *)

(** what create_lq_hello looks at of an entry of the link set: the local and the neighbor's
    interface address, lookup_link_status, is_mpr and status = SYM of the neighbor, the quality
    as the four bytes that the plugin writes; src/lq_packet.c, create_lq_hello;
    src/link_set.h:62 *)
Record olnk := mkOl { k_local : list Z; k_addr : list Z; k_status : Z; k_mpr : bool; k_sym : bool; k_lq : list Z }.
(** src/lq_packet.c:116-152: the entry for a link on the interface with address [out] *)
Definition lq_hello_entry (out : list Z) (k : olnk) : lqn :=
  mkLqn (if bytes_eqb (k_local k) out then k_status k else 0) (if k_mpr k then 2 else if k_sym k then 1 else 0) (k_addr k) (k_lq k).
(** src/lq_packet.c:71-84 neigh_find, 118-120, 130: an entry for the address is replaced if
    the new one has a link type and the old one has not *)
Fixpoint lq_hello_merge (x : lqn) (l : list lqn) : option (list lqn) :=
  match l with
  | [] => None
  | y :: l' => if bytes_eqb (l_addr y) (l_addr x)
               then Some ((if (l_link y =? 0) && negb (l_link x =? 0) then x else y) :: l')
               else match lq_hello_merge x l' with Some l'' => Some (y :: l'') | None => None end
  end.
(** src/lq_packet.c:86-165 create_lq_hello: new ones are put in front *)
Definition create_lq_hello (out : list Z) (ks : list olnk) : list lqn :=
  fold_left (fun acc k => let x := lq_hello_entry out k in match lq_hello_merge x acc with Some acc' => acc' | None => x :: acc end) ks [].

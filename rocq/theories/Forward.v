(** Forwarding of messages (src/olsr.c:318-418 olsr_forward_message).

    The lookups in the MID set, neighbor table and MPR selector set are
    parameters; the duplicate set is that of DupSet.v, the output buffers those
    of NetBuf.v (no packet transform functions).  An originator is the number
    its address bytes make up. *)
From Verif Require Import Base Bytes NetBuf SchedTime DupSet.

(** enum olsr_if_mode, src/olsr_cfg.h:199-204 *)
Inductive ifmode := MESH | ETHER | SILENT.
(** struct interface_olsr: identity, mode, output buffer; [if_timer] counts the calls of
    set_buffer_timer; src/interfaces.h:124-190 *)
Record iface := mkIf { if_id : Z; if_mode : ifmode; if_nb : nb; if_timer : Z }.

(** comparison of enum olsr_if_mode, src/olsr_cfg.h:199-202 *)
Definition mode_eqb (a b : ifmode) : bool :=
  match a, b with MESH, MESH => true | ETHER, ETHER => true | SILENT, SILENT => true | _, _ => false end.

(** what forwarding asks of the tables; src/olsr.c:318-418 *)
Record fenv := mkFenv {
  fe_ips : Z;                       (* olsr_cnf->ipsize *)
  fe_main : Z -> option Z;          (* mid_lookup_main_addr *)
  fe_neigh : Z -> option bool;      (* olsr_lookup_neighbor_table, status == SYM *)
  fe_mprs : Z -> bool }.            (* olsr_lookup_mprs_set *)

(** src/olsr.c:332-338 *)
Definition is_ttl_1 (ttl hopcnt : Z) : bool := (ttl <? 2) || (255 <? hopcnt + ttl).

(** src/olsr.c:383-390: skipped interfaces *)
Definition skip_if (in_if : Z) (ttl1 : bool) (i : iface) : bool :=
  mode_eqb (if_mode i) SILENT || ((if_id i =? in_if) && mode_eqb (if_mode i) ETHER) || (ttl1 && negb (mode_eqb (if_mode i) ETHER)).

(** src/olsr.c:420-425 set_buffer_timer *)
Definition set_buffer_timer (i : iface) : iface := mkIf (if_id i) (if_mode i) (if_nb i) (if_timer i + 1).
(** see above, src/olsr.c:420-425 *)
Definition with_nb (i : iface) (b : nb) : iface := mkIf (if_id i) (if_mode i) b (if_timer i).

(** src/olsr.c:392-415 for one interface: new state and packet sent; sendto
    succeeds or not, [ok] *)
Definition fwd_if (ok : bool) (m : list Z) (i : iface) : option (iface * option (list Z)) :=
  if negb (net_output_pending (if_nb i) =? 0) then
    match net_outbuffer_push (if_nb i) m with
    | None => None
    | Some (b, r) =>
        if negb (r =? blen m) then
          match net_output [] ok b with
          | None => None
          | Some (b2, _, pkt) =>
              match net_outbuffer_push b2 m with
              | None => None
              | Some (b3, _) => Some (with_nb (set_buffer_timer i) b3, pkt)
              end
          end
        else Some (with_nb i b, None)
    end
  else
    match net_outbuffer_push (if_nb i) m with
    | None => None
    | Some (b, _) => Some (with_nb (set_buffer_timer i) b, None)
    end.

(** src/olsr.c:382-416 *)
Fixpoint fwd_ifs (ok : bool) (in_if : Z) (ttl1 : bool) (m : list Z) (ifs : list iface) : option (list iface * list (Z * list Z)) :=
  match ifs with
  | [] => Some ([], [])
  | i :: r =>
      match (if skip_if in_if ttl1 i then Some (i, None) else fwd_if ok m i) with
      | None => None
      | Some (i', p) =>
          match fwd_ifs ok in_if ttl1 m r with
          | None => None
          | Some (r', ps) => Some (i' :: r', match p with Some x => (if_id i, x) :: ps | None => ps end)
          end
      end
  end.

(** result of forwarding: return value, duplicate set, interfaces, packets sent;
    src/olsr.c:318-418 *)
Record fres := mkFres { fr_ret : Z; fr_dup : dup_set; fr_ifs : list iface; fr_sent : list (Z * list Z) }.

(** src/olsr.c:318-418 olsr_forward_message; [m] the message from its first
    byte, in the receive buffer *)
Definition forward_message (e : fenv) (ok : bool) (now : Z) (d : dup_set) (ifs : list iface) (m : list Z) (in_if from : Z) : option fres :=
  let ips := fe_ips e in
  match rd8 m (4 + ips), rd8 m (5 + ips), rdn m 4 ips, rd16 m (6 + ips), rd16 m 2 with
  | Some ttl, Some hopcnt, Some orig, Some seq, Some msgsize =>
      let ttl1 := is_ttl_1 ttl hopcnt in
      let src := match fe_main e from with Some s => s | None => from end in
      match fe_neigh e src with
      | None => Some (mkFres 0 d ifs [])
      | Some false => Some (mkFres 0 d ifs [])
      | Some true =>
          if negb (fe_mprs e src) then Some (mkFres 0 d ifs [])
          else
            let (d', dup) := message_is_duplicate now d (be orig) seq in
            if dup then Some (mkFres 0 d' ifs [])
            else
              match (if ttl1 then Some m
                     else match wr m (5 + ips) [u8 (hopcnt + 1)] with
                          | Some m1 => wr m1 (4 + ips) [u8 (ttl - 1)] | None => None end) with
              | None => None
              | Some m' =>
                  match rdn m' 0 msgsize with
                  | None => None
                  | Some data => match fwd_ifs ok in_if ttl1 data ifs with
                                 | None => None
                                 | Some (ifs', sent) => Some (mkFres 1 d' ifs' sent)
                                 end
                  end
              end
      end
  | _, _, _, _, _ => None
  end.

(** What goes into outgoing HELLO and TC messages without link quality, and when
    TC messages are sent (src/packet.c, src/generate_msg.c).  Definitions only.
    Not modelled: the debug output and the release of the lists. *)
From Verif Require Import Base Bytes SchedTime Compare Parser Tc NetBuf BuildMsg.

(** struct neighbor_entry as far as it is used here: the 16 bytes of the main address, status = SYM,
    is_mpr, and whether olsr_lookup_mprs_set finds it *)
Record rnb := mkRnb { r_main : list Z; r_sym : bool; r_mpr : bool; r_sel : bool }.
(** struct link_entry: the 16 bytes of local_iface_addr and of neighbor_iface_addr, lookup_link_status
    (src/link_set.c:123-173), neighbor *)
Record rlnk := mkRl { k_local : list Z; k_addr : list Z; k_stat : Z; k_nbr : rnb }.
(** src/defs.h:115, src/ipcalc.h:57-82 ipequal: the bytes of the address family *)
Definition ipeq (v6 : bool) (a b : list Z) : bool := bytes_eqb (firstn (Z.to_nat (ipsz v6)) a) (firstn (Z.to_nat (ipsz v6)) b).

(** src/packet.c:142-181, 240-275: status of a neighbor *)
Definition nb_status (n : rnb) : Z := if r_mpr n then 2 else if r_sym n then 1 else 0.
(** struct hello_neighbor with its main_address; src/packet.h:53-59 *)
Definition hent : Type := (hnb * list Z)%type.
(** src/packet.c:121-199: the loop over the links, new ones are put in front *)
Definition hello_links (v6 : bool) (out : list Z) (ks : list rlnk) : list hent :=
  fold_left (fun acc k => if ipeq v6 (k_local k) out then (mkHnb (nb_status (k_nbr k)) (k_stat k) (k_addr k), r_main (k_nbr k)) :: acc else acc) ks [].
(** src/packet.c:210-285: the loop over the neighbors, if there are several interfaces *)
Definition hello_nbrs (v6 : bool) (ns : list rnb) (l : list hent) : list hent :=
  fold_left (fun acc n => if existsb (fun x => ipeq v6 (snd x) (r_main n)) acc then acc else (mkHnb (nb_status n) 0 (r_main n), r_main n) :: acc) ns l.
(** src/packet.c:91-288 olsr_build_hello_packet: the list of neighbors; [several]: the test of line 209 *)
Definition build_hello (v6 several : bool) (out : list Z) (ks : list rlnk) (ns : list rnb) : list hent :=
  let l := hello_links v6 out ks in if several then hello_nbrs v6 ns l else l.
(** src/generate_msg.c:72-85 generate_hello up to the sending of the packet, with the ttl of src/packet.c:116;
    src/build_msg.c:134-150 queue_hello *)
Definition rfc_hello (v6 several : bool) (vt ht will : Z) (main out : list Z) (ks : list rlnk) (ns : list rnb) : M bool :=
  serialize_hello v6 vt ht will 1 main (map fst (build_hello v6 several out ks ns)).

(** src/packet.c:341-384: is the neighbor added *)
Definition rfc_adds (red : Z) (n : rnb) : bool :=
  if negb (r_sym n) then false
  else if red =? 2 then true
  else if red =? 1 then r_mpr n || r_sel n
  else r_sel n.
(** src/packet.c:340-386: the loop over the neighbors *)
Definition rfc_tc_list (v6 : bool) (red : Z) (ns : list rnb) : list (list Z) :=
  fold_left (fun acc n => if rfc_adds red n then firstn (Z.to_nat (ipsz v6)) (r_main n) :: acc else acc) ns [].
(** src/packet.c:57 sending_tc, src/build_msg.c:75 send_empty_tc *)
Record rgen := mkRg { g_sending : bool; g_timer : Z }.
(** src/packet.c:388-398 *)
Definition rfc_gen (now wait : Z) (l : list (list Z)) (g : rgen) : rgen :=
  match l with
  | _ :: _ => mkRg true (g_timer g)
  | [] => if g_sending g then mkRg false (getTimestamp now wait) else g
  end.
(** src/generate_msg.c:87-101 generate_tc, src/packet.c:320-401 olsr_build_tc_packet, src/build_msg.c:152-168
    queue_tc; [now]: now_times, [wait]: max_tc_vtime * 3 * 1000, [ansn]: get_local_ansn *)
Definition rfc_tc (v6 : bool) (red vt : Z) (main : list Z) (ansn now wait : Z) (ns : list rnb) (g : rgen) : M rgen :=
  let l := rfc_tc_list v6 red ns in
  let g' := rfc_gen now wait l g in
  serialize_tc v6 vt (isTimedOut now (g_timer g')) (mkTcm 0 255 main ansn l) ;;; ret g'.
(** src/packet.c:57, src/main.c:606: at the start, [t0] being now_times *)
Definition rgen0 (t0 : Z) : rgen := mkRg false (getTimestamp t0 0).

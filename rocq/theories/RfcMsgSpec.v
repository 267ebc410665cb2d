(** What should be in outgoing HELLO and TC messages without link quality. *)
From Verif Require Import Base Bytes Tc HelloSpec Hello NetBuf BuildMsg RfcMsg.

(** the bytes of an address that count *)
Definition addr (v6 : bool) (a : list Z) : list Z := firstn (if v6 then 16 else 4) a.

(** RFC 3626 section 6.2: type of a neighbor *)
Definition neigh_type (n : rnb) : Z := if r_mpr n then 2 else if r_sym n then 1 else 0.
(** the link is on the interface with address [out] *)
Definition on (v6 : bool) (out : list Z) (k : rlnk) : bool := if list_eq_dec Z.eq_dec (addr v6 (k_local k)) (addr v6 out) then true else false.
Definition hidden (k : rlnk) : bool := k_stat k =? 4.
(** some link to the neighbor is on [out] *)
Definition reached (v6 : bool) (out : list Z) (ks : list rlnk) (n : rnb) : bool :=
  existsb (fun k => on v6 out k && if list_eq_dec Z.eq_dec (addr v6 (r_main (k_nbr k))) (addr v6 (r_main n)) then true else false) ks.
(** what is to be said on [out]: each link there with its type; with several interfaces also each other neighbor, by its main address
    and without a link type *)
Definition to_say (v6 several : bool) (out : list Z) (ks : list rlnk) (ns : list rnb) : list hneigh :=
  map (fun k => mkHN (k_stat k) (neigh_type (k_nbr k)) (addr v6 (k_addr k)) []) (filter (fun k => on v6 out k && negb (hidden k)) ks) ++
  (if several then map (fun n => mkHN 0 (neigh_type n) (addr v6 (r_main n)) []) (filter (fun n => negb (reached v6 out ks n)) ns) else []).
(** the link set and the neighbor table: addresses of 16 bytes, link types, one neighbor for each main address *)
Definition links_ok (ks : list rlnk) : Prop := Forall (fun k => blen (k_addr k) = 16 /\ blen (r_main (k_nbr k)) = 16 /\ 1 <= k_stat k <= 4) ks.
Definition nbrs_ok (v6 : bool) (ns : list rnb) : Prop := Forall (fun n => blen (r_main n) = 16) ns /\ NoDup (map (fun n => addr v6 (r_main n)) ns).

(** RFC 3626 section 15.1: who is to be advertised; other values than 0, 1 and 2 count as 0 *)
Definition advertise (red : Z) (n : rnb) : Prop :=
  r_sym n = true /\ (red = 1 -> r_mpr n = true \/ r_sel n = true) /\ (red <> 1 -> red <> 2 -> r_sel n = true).
Definition nothing (red : Z) (ns : list rnb) : Prop := forall n, In n ns -> ~ advertise red n.

(** calls of generate_tc for any of the interfaces: number of the set, time in ms (not wrapped), neighbor
    table, and the state of the buffers of the interface the call finds *)
Record call := mkC { c_ansn : Z; c_t : Z; c_nbrs : list rnb; c_st : bst }.
Fixpoint calls (v6 : bool) (red vt : Z) (main : list Z) (wait : Z) (cs : list call) (g : rgen) : option rgen :=
  match cs with
  | [] => Some g
  | c :: cs' => match rfc_tc v6 red vt main (c_ansn c) (c_t c mod 4294967296) wait (c_nbrs c) g (c_st c) with
                | Some (_, Some g') => calls v6 red vt main wait cs' g'
                | _ => None
                end
  end.

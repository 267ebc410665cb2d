(** Multicast DNS packets, and what comes out at the other routers. *)
From Verif Require Import Base BmfPacket BmfPacketSpec MdnsElect MdnsRelay.

(** an IPv4 packet of which everything was received *)
Definition whole (m : list Z) : Prop :=
  Forall byte m /\ nth 0 m 0 / 16 = 4 /\ (20 <= ihl m <= total m)%nat /\ (total m <= length m)%nat.
(** it is for multicast DNS: to a multicast address and port 5353 over UDP *)
Definition mdns4 (m : list Z) : Prop :=
  nth 0 m 0 / 16 = 4 /\ 224 <= nth 16 m 0 < 240 /\ nth 9 m 0 = 17 /\ nth (ihl m + 2) m 0 * 256 + nth (ihl m + 3) m 0 = 5353.
(** may it be passed on: it is not one that came from a router, nor from a filtered host *)
Definition allowed (c : mconf) (m : list Z) : Prop :=
  (c_check c = true -> 2 <= nth 8 m 0) /\ forall h, In h (c_hosts c) -> firstn 4 h <> firstn 4 (skipn 12 m).
(** a copy of it: the time to live is 1 if checked, and the header checksum is right *)
Definition copy_of (check : bool) (m p : list Z) : Prop :=
  length p = total m /\ (forall i, (i < total m)%nat -> ~ volatile i -> nth_error p i = nth_error m i) /\
  nth_error p 8 = (if check then Some 1 else nth_error m 8) /\ osum (firstn (ihl m) p) = 65535.
(** the interfaces up to the first that is not active *)
Fixpoint upto (ifs : list iface) : list iface :=
  match ifs with i :: ifs => if if_active i then i :: upto ifs else [] | [] => [] end.
(** an OLSR message of RFC 3626 with a packet, filled up with zeros to a multiple of four *)
Definition message (c : mconf) (vtime seqno : Z) (data msg : list Z) : Prop :=
  exists pad, (length pad < 4)%nat /\ ((length data + length pad) mod 4 = 0)%nat /\ Forall (fun x => x = 0) pad /\
    let size := Z.of_nat (length msg) in
    msg = [132; vtime; size / 256; size mod 256] ++ c_main c ++ [if c_ttl c =? 0 then 255 else c_ttl c; 0; seqno / 256; seqno mod 256] ++ data ++ pad.
(** the router is master where the packet is captured *)
Definition master_on (fd : Z) (ifs : list iface) : Prop := forall i, In i ifs -> if_capture i = fd -> if_active i = true.

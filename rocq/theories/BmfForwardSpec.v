(** Who gets a packet, and what of it. *)
From Coq Require Import Sorted.
From Verif Require Import Base BmfForward BmfPacketSpec.

(** the answers make sense: costs are link costs, indices exist, the limit is that of the
    configuration, broadcast addresses are not multicast *)
Definition sane (e : env) : Prop :=
  0 <= e_fan e <= 10 /\
  (forall k l, nth_error (e_links e) k = Some l -> 0 <= l_cost l <= 4194304) /\
  (forall a k, e_best e a = Some k -> exists l, nth_error (e_links e) k = Some l) /\
  (forall i, In i (e_intfs e) -> 0 <= i_broad i < 4294967296 /\ ~ multicast (i_broad i)) /\
  (forall b, e_tun e = Some b -> 0 <= b < 4294967296 /\ ~ multicast b).

(** the neighbor is another node than [a], if that is known *)
Definition other (e : env) (nb : Z) (a : option Z) : Prop := forall x, a = Some x -> e_main e nb <> e_main e x.
(** the cost from the node that sent the packet to here *)
Definition heard (e : env) (a p : Z) : Prop :=
  (exists k l, e_best e a = Some k /\ nth_error (e_links e) k = Some l /\ l_cost l = p) \/ (e_best e a = None /\ p = 4194304).
(** the [k]-th link leads to a node that needs the packet from here on interface [i]: not one
    that has it, by the best link, and not closer to the one that sent it *)
Definition candidate (e : env) (i : intf) (src by_ to : option Z) (k : nat) : Prop :=
  exists l, nth_error (e_links e) k = Some l /\ l_local l = i_addr i /\
    other e (l_nbr l) src /\ other e (l_nbr l) by_ /\ other e (l_nbr l) to /\
    (e_lq e <> 0 ->
     l_cost l < 4194304 /\ e_best e (l_nbr l) = Some k /\
     forall a p c, by_ = Some a -> heard e a p -> e_edge e (e_main e a) (e_main e (l_nbr l)) = Some c -> p + l_cost l <= c).
(** all of them, in the order of the links *)
Definition listing (e : env) (i : intf) (src by_ to : option Z) (ks : list nat) : Prop :=
  StronglySorted lt ks /\ forall k, In k ks <-> candidate e i src by_ to k.
(** the best of them: the first, or with link quality the first of the cheapest *)
Definition best_of (e : env) (ks : list nat) (b : nat) : Prop :=
  In b ks /\ (e_lq e = 0 -> forall k, In k ks -> (b <= k)%nat) /\
  (e_lq e <> 0 -> forall k lb lk, In k ks -> nth_error (e_links e) b = Some lb -> nth_error (e_links e) k = Some lk ->
     l_cost lb < l_cost lk \/ (l_cost lb = l_cost lk /\ (b <= k)%nat)).
Definition leads (e : env) (k : nat) (a : Z) : Prop := exists l, nth_error (e_links e) k = Some l /\ l_nbr l = a.
(** the addresses to send to *)
Definition plan (e : env) (i : intf) (src by_ to : option Z) (p : list Z) : Prop :=
  exists ks, listing e i src by_ to ks /\
    (ks = [] -> p = []) /\
    (ks <> [] -> e_promisc e = true -> exists k a, best_of e ks k /\ leads e k a /\ p = [a]) /\
    (e_promisc e = false -> Z.of_nat (length ks) <= e_fan e -> Forall2 (leads e) ks p) /\
    (e_promisc e = false -> e_fan e < Z.of_nat (length ks) -> p = repeat (i_broad i) (Z.to_nat (e_again e))).
(** the first [r] of [n] packets go out *)
Definition reached (e : env) (i : intf) (n r : nat) : Prop :=
  (r <= n)%nat /\ (forall j, (j < r)%nat -> e_ready e (i_id i) j = true) /\ (r = n \/ e_ready e (i_id i) r = false).

(** [m] is the packet [m0], with another broadcast address if it is a broadcast *)
Definition same_packet (m0 m : list Z) : Prop :=
  length m = length m0 /\ Forall byte m /\ untouched m0 m /\ (multicast (address m0) -> m = m0).
Definition fresh_broadcast (m0 m : list Z) (broad : Z) : Prop := ~ multicast (address m0) -> dest m = bytes_of broad.
(** what goes out on one interface: the packet itself; or an encapsulation header and the
    packet, to the addresses of the plan; or nothing *)
Definition raw_part (e : env) (i : intf) (m0 : list Z) (tot : nat) (part : list action) : Prop :=
  (e_ready e (i_id i) 0 = false -> part = []) /\
  (e_ready e (i_id i) 0 = true -> exists m, same_packet m0 m /\ fresh_broadcast m0 m (i_broad i) /\ part = [Raw (i_id i) (firstn tot m)]).
Definition encap_part (e : env) (i : intf) (hdr m0 : list Z) (tot : nat) (src by_ to : option Z) (part : list action) : Prop :=
  exists p r m, plan e i src by_ to p /\ reached e i (length p) r /\ same_packet m0 m /\
    part = map (fun a => Encap (i_id i) a (hdr ++ firstn tot m)) (firstn r p).
Definition local_part (e : env) (m0 : list Z) (tot : nat) (part : list action) : Prop :=
  match e_tun e with
  | None => part = []
  | Some broad => exists m, same_packet m0 m /\ fresh_broadcast m0 m broad /\ part = [Local (firstn tot m)]
  end.
(** the packet in received bytes *)
Definition valid (data : list Z) : Prop :=
  Forall byte data /\ (20 <= length data <= 2040)%nat /\ (20 <= ihl data)%nat /\ (0 < total data <= length data)%nat.
(** a packet that is to be forwarded at all: multicast, or broadcast where it was received *)
Definition wanted (e : env) (broad : Z) (data : list Z) : Prop :=
  multicast (address data) \/ (e_local e = true /\ address data = broad).
Definition source (data : list Z) : Z := fold_left (fun a b => a * 256 + b) (firstn 4 (skipn 12 data)) 0.
(** UDP to the port of the daemon, of BMF or of autodetect *)
Definition port (data : list Z) : Z := nth (ihl data + 2) data 0 * 256 + nth (ihl data + 3) data 0.
Definition control (e : env) (data : list Z) : Prop :=
  nth 9 data 0 = 17 /\ (ihl data + 8 <= total data)%nat /\ (port data = e_port e \/ port data = 50698 \/ port data = 51698).
Definition later_fragment (data : list Z) : Prop := (nth 6 data 0 * 256 + nth 7 data 0) mod 8192 <> 0.
(** the header of an encapsulated packet with fingerprint [c] *)
Definition bmf_header (c : Z) : list Z := [1; 6; 0; 0] ++ bytes_of c.
(** the header, and the packet *)
Definition head (data : list Z) : list Z := firstn 8 data.
Definition body (data : list Z) : list Z := skipn 8 data.
(** the fingerprint (C130) *)
Definition fingerprint_of (data : list Z) (c : Z) : Prop := exists n, normal data n /\ c = crc32 (firstn (Nat.min (total data) 256) n).
(** what is to be done on interface [i] with a packet captured on [from] *)
Definition captured_part (e : env) (from : intf) (outgoing : bool) (hdr data : list Z) (i : intf) (part : list action) : Prop :=
  let here := i_id from = i_id i in
  let selected := e_best e (e_main e (source data)) = None \/ e_mpr e (e_main e (source data)) = true in
  (i_olsr i = true ->
     (i_olsr from = false \/ (selected /\ ~ (outgoing = true /\ here)) -> encap_part e i hdr data (total data) None None None part) /\
     (i_olsr from = true -> ~ selected \/ (outgoing = true /\ here) -> part = [])) /\
  (i_olsr i = false ->
     (i_olsr from = true \/ ~ here -> raw_part e i data (total data) part) /\
     (i_olsr from = false -> here -> part = [])).
(** with a packet from the local stack *)
Definition tun_part (e : env) (hdr data : list Z) (i : intf) (part : list action) : Prop :=
  (i_olsr i = true -> encap_part e i hdr data (total data) None None None part) /\
  (i_olsr i = false -> raw_part e i data (total data) part).
(** and with an encapsulated packet that the node [by_] sent to [to] *)
Definition received_part (e : env) (by_ : Z) (to : option Z) (hdr data : list Z) (i : intf) (part : list action) : Prop :=
  (i_olsr i = true ->
     (e_mpr e (e_main e by_) = true -> encap_part e i hdr data (total data) (Some (source data)) (Some by_) to part) /\
     (e_mpr e (e_main e by_) = false -> part = [])) /\
  (i_olsr i = false -> raw_part e i data (total data) part).
(** a packet of IP and UDP around the bytes [d], to the port of BMF *)
Definition carrier (outer d : list Z) : Prop :=
  Forall byte outer /\ (20 <= ihl outer)%nat /\ (ihl outer + 8 <= length outer)%nat /\ nth 9 outer 0 = 17 /\ port outer = 50698 /\ d = skipn (ihl outer + 8) outer.

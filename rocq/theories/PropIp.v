(** C06, C07, C08, C50: prefixes, netmasks, network membership (src/ipcalc.c). *)
From Verif Require Import Base IpCalc IpSpec IpProofs.

(** C06: the netmask of prefix length p has exactly the first p bits set. *)
Theorem C06_netmask_bits : forall len p, 0 <= p <= 8 * Z.of_nat len -> (0 < len)%nat ->
  let (m, r) := prefix_to_netmask len p in
  r = true /\ is_addr len m /\
  (forall i, 0 <= i < 8 * Z.of_nat len -> abit m i = (i <? p)).
Proof. exact mask_bits. Qed.
Print Assumptions C06_netmask_bits.

Example C06_bits_ex : prefix_to_netmask 4 19 = ([255; 255; 224; 0], true).
Proof. reflexivity. Qed.

(** C06: and converts back to the same length. *)
Theorem C06_prefix_roundtrip : forall len p, (0 < len <= 16)%nat -> 0 <= p <= 8 * Z.of_nat len ->
  netmask_to_prefix (fst (prefix_to_netmask len p)) = p.
Proof. exact prefix_roundtrip. Qed.
Print Assumptions C06_prefix_roundtrip.

Example C06_roundtrip_ex : netmask_to_prefix (fst (prefix_to_netmask 16 67)) = 67.
Proof. reflexivity. Qed.

(** C06: every contiguous mask is converted to its length. *)
Theorem C06_netmask_length : forall m, (length m <= 16)%nat -> Forall is_byte m ->
  forall p, 0 <= p <= 8 * Z.of_nat (length m) ->
  (forall i, 0 <= i < 8 * Z.of_nat (length m) -> abit m i = (i <? p)) ->
  netmask_to_prefix m = p.
Proof. exact mask_reject_complete. Qed.
Print Assumptions C06_netmask_length.

Example C06_length_ex : netmask_to_prefix [255; 254; 0; 0] = 15.
Proof. reflexivity. Qed.

(** C07 is false: 255.0.255.0 is accepted as /8. *)
Theorem C07_noncontiguous_refuted : exists m, is_addr 4 m /\ netmask_to_prefix m = 8 /\ abit m 16 = true.
Proof. exact noncontig_accepted. Qed.
Print Assumptions C07_noncontiguous_refuted.

(** C07, what holds: an accepted mask (result other than 255) of length r has
    its first r bits set and the rest of that byte clear.  Missing: the
    following bytes are not looked at. *)
Theorem C07_accepted_mask_partial : forall m r, (length m <= 16)%nat -> Forall is_byte m ->
  netmask_to_prefix m = r -> r <> 255 ->
  0 <= r <= 8 * Z.of_nat (length m) /\
  (forall i, 0 <= i < r -> abit m i = true) /\
  (forall i, r <= i < 8 * Z.of_nat (length m) -> i / 8 = r / 8 -> abit m i = false).
Proof. exact mask_accept_sound. Qed.
Print Assumptions C07_accepted_mask_partial.

Example C07_ex : netmask_to_prefix [255; 240; 0; 0] = 12 /\ netmask_to_prefix [255; 129; 0; 0] = 255.
Proof. split; reflexivity. Qed.

(** C08: membership test = agreement of the first prefix-length bits. *)
Theorem C08_in_net : forall (v6 : bool) a n p,
  let size := if v6 then 16%nat else 4%nat in
  is_addr size a -> is_addr size n -> 0 <= p <= 8 * Z.of_nat size ->
  exists r, ip_in_net v6 a n p = Some r /\ (r = true <-> same_prefix p a n).
Proof. exact in_net_spec. Qed.
Print Assumptions C08_in_net.

Example C08_ex : ip_in_net false [10; 1; 130; 7] [10; 1; 128; 0] 17 = Some true /\
  ip_in_net false [10; 1; 130; 7] [10; 1; 128; 0] 23 = Some false /\
  ip_in_net true [32;1;13;184;0;0;0;0;128;0;0;0;0;0;0;1] [32;1;13;184;0;0;0;0;192;0;0;0;0;0;0;1] 65 = Some true.
Proof. repeat split; reflexivity. Qed.

(** C50: in IPv4 exactly 0.0.0.0/0 is an Internet gateway announcement. *)
Theorem C50_default_route_v4 : forall a p, is_addr 4 a -> 0 <= p <= 32 ->
  (is_prefix_inetgw false (a, p) = true <-> a = [0; 0; 0; 0] /\ p = 0).
Proof. exact inetgw4. Qed.
Print Assumptions C50_default_route_v4.

Example C50_v4_ex : is_prefix_inetgw false ([0; 0; 0; 0], 0) = true /\ is_prefix_inetgw false ([10; 0; 0; 0], 0) = false.
Proof. split; reflexivity. Qed.

(** C50 is false in IPv6: the comparison length 3/8 is 0, so every /3 prefix
    is taken for an Internet gateway, e.g. c000::/3. *)
Theorem C50_default_route_v6_refuted : exists a, is_addr 16 a /\ is_prefix_inetgw true (a, 3) = true /\
  ~ same_prefix 3 a (fst ipv6_internet_route).
Proof. exact inetgw6_any3. Qed.
Print Assumptions C50_default_route_v6_refuted.

(** C50 in IPv6, what holds: 2000::/3 and ::ffff:0:0/96 are recognised, and
    nothing but /3 prefixes and the latter is. *)
Theorem C50_default_route_v6_partial : forall a p, is_addr 16 a -> 
  ((p = 3 /\ same_prefix 3 a (fst ipv6_internet_route)) \/
   (p = 96 /\ same_prefix 96 a (fst ipv6_mappedv4_route)) -> is_prefix_inetgw true (a, p) = true) /\
  (is_prefix_inetgw true (a, p) = true -> p = 3 \/ (p = 96 /\ same_prefix 96 a (fst ipv6_mappedv4_route))).
Proof. exact inetgw6_complete. Qed.
Print Assumptions C50_default_route_v6_partial.

Example C50_v6_ex : is_prefix_inetgw true ipv6_internet_route = true /\
  is_prefix_inetgw true ipv6_mappedv4_route = true /\
  is_prefix_inetgw true ([32;1;0;0;0;0;0;0;0;0;0;0;0;0;0;0], 16) = false.
Proof. repeat split; reflexivity. Qed.

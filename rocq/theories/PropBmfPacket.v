(** C130: the fingerprint of a packet. C132: the checksums after a change of the destination. *)
From Verif Require Import Base BmfPacket BmfPacketSpec BmfPacketProofs BmfSumProofs.

(** a UDP packet of 68 bytes from 10.1.1.1, with the parts that vary *)
Definition ex_packet (id0 id1 ttl c0 c1 : Z) (dst : list Z) (u0 u1 : Z) : list Z :=
  [69; 0; 0; 68; id0; id1; 0; 0; ttl; 17; c0; c1; 10; 1; 1; 1] ++ dst ++ [19; 136; 19; 137; 0; 48; u0; u1] ++
  map (fun k => 7 * Z.of_nat k mod 256) (seq 0 40).
Definition ex_any : list Z := ex_packet 18 52 64 82 117 [10; 255; 255; 255] 85 131.
Definition ex_hop : list Z := ex_packet 18 52 63 83 117 [10; 255; 255; 255] 85 131.
Definition ex_next : list Z := ex_packet 18 53 64 82 116 [10; 255; 255; 255] 85 131.
(** all bytes are bytes, for concrete lists *)
Definition all_bytes (m : list Z) : bool := forallb (fun x => (0 <=? x) && (x <? 256)) m.
Lemma all_bytes_ok : forall m, all_bytes m = true -> Forall byte m.
Proof. intros m H. apply Forall_forall. intros x I. unfold all_bytes in H. rewrite forallb_forall in H. specialize (H x I). unfold byte. lia. Qed.

(** the fingerprint is the CRC-32 of the first 256 bytes of the packet with a fixed time to
    live and header checksum, and the packet is left as it was *)
Theorem C130_fingerprint : forall m len,
  (20 <= length m)%nat -> Forall byte m -> 0 < len <= Z.of_nat (length m) ->
  exists n, normal m n /\ packet_crc32 m len = Done (crc32 (firstn (Z.to_nat (Z.min len 256)) n), m).
Proof. intros m len L B K. destruct (fingerprint m len L B K) as (n & N & _ & E). exists n. auto. Qed.
Print Assumptions C130_fingerprint.
(** the check value of CRC-32, for "123456789" *)
Example C130_crc_ex : crc32 [49; 50; 51; 52; 53; 54; 55; 56; 57] = 0xcbf43926 /\ calc_crc32 [49; 50; 51; 52; 53; 54; 55; 56; 57] 9 = Done 0xcbf43926.
Proof. split; vm_compute; reflexivity. Qed.
Example C130_fingerprint_ex : (20 <= length ex_any)%nat /\ Forall byte ex_any /\ packet_crc32 ex_any 68 = Done (693666205, ex_any).
Proof. split; [cbn; lia|]. split; [apply all_bytes_ok; reflexivity|]. vm_compute. reflexivity. Qed.

(** so copies of a packet that took different ways have one fingerprint *)
Theorem C130_ways : forall m m' len, (20 <= length m)%nat -> Forall byte m -> Forall byte m' -> alike m m' -> 0 < len <= Z.of_nat (length m) ->
  exists c, packet_crc32 m len = Done (c, m) /\ packet_crc32 m' len = Done (c, m').
Proof.
  intros m m' len L B B' A K. pose proof A as (E & _). destruct (fingerprint m len L B K) as (n & N & _ & F). destruct (fingerprint m' len) as (n' & N' & _ & F'); [lia|exact B'|lia|].
  pose proof (normal_alike _ _ _ _ A N N') as H. subst n'. eauto.
Qed.
Print Assumptions C130_ways.
Example C130_ways_ex : alike ex_any ex_hop /\ ex_any <> ex_hop /\ packet_crc32 ex_hop 68 = Done (693666205, ex_hop).
Proof.
  split; [|split; [discriminate|vm_compute; reflexivity]]. split; [reflexivity|]. intros i V. destruct (le_lt_dec 68 i).
  - rewrite !(proj2 (nth_error_None _ _)); [reflexivity|cbn; lia|cbn; lia].
  - unfold volatile in V. do 12 (destruct i as [|i]; [first [reflexivity|lia]|]). reflexivity.
Qed.

(** packets that differ within four bytes, as in the identification or in an address, have
    different fingerprints *)
Theorem C130_window : forall m m' k len c c', (20 <= length m)%nat -> Forall byte m -> Forall byte m' -> differ_at k m m' ->
  0 < len <= Z.of_nat (length m) -> Z.of_nat k + 4 <= Z.min len 256 ->
  packet_crc32 m len = Done (c, m) -> packet_crc32 m' len = Done (c', m') -> c <> c'.
Proof.
  intros m m' k len c c' L B B' D K W F F'. pose proof D as (E & _). destruct (fingerprint m len L B K) as (n & N & Nb & G). destruct (fingerprint m' len) as (n' & N' & Nb' & G'); [lia|exact B'|lia|].
  rewrite F in G. rewrite F' in G'. inversion G. inversion G'. apply (differing k (Z.to_nat (Z.min len 256)) m m'); auto. lia.
Qed.
Print Assumptions C130_window.
Example C130_window_ex : differ_at 4 ex_any ex_next /\ packet_crc32 ex_next 68 <> packet_crc32 ex_any 68.
Proof.
  split; [|vm_compute; discriminate]. split; [reflexivity|]. split.
  - intros i V O. destruct (le_lt_dec 68 i).
    + rewrite !(proj2 (nth_error_None _ _)); [reflexivity|cbn; lia|cbn; lia].
    + unfold volatile in V. do 12 (destruct i as [|i]; [first [reflexivity|lia]|]). reflexivity.
  - exists 5%nat. split; [unfold volatile; lia|discriminate].
Qed.

(** false of packets in general: without an identification, packets that differ only after
    256 bytes have one fingerprint, and the second is dropped as a copy *)
Theorem C130_distinct_refuted : exists m m' len c,
  (20 <= length m)%nat /\ length m' = length m /\ Forall byte m /\ Forall byte m' /\ 0 < len <= Z.of_nat (length m) /\
  ~ alike m m' /\ packet_crc32 m len = Done (c, m) /\ packet_crc32 m' len = Done (c, m').
Proof.
  set (h := [69; 0; 1; 44; 0; 0; 64; 0; 64; 17; 37; 193; 10; 1; 1; 1; 10; 255; 255; 255] ++ repeat 0 279).
  exists (h ++ [1]), (h ++ [2]), 300. destruct (packet_crc32 (h ++ [1]) 300) as [[c m1]| |] eqn:E; [|vm_compute in E; discriminate|vm_compute in E; discriminate].
  exists c. assert (F : packet_crc32 (h ++ [2]) 300 = Done (c, h ++ [2])) by (vm_compute in E; inversion E; subst; vm_compute; reflexivity).
  assert (M : m1 = h ++ [1]) by (vm_compute in E; inversion E; reflexivity). subst m1.
  split; [apply Nat.leb_le; vm_compute; reflexivity|]. split; [reflexivity|]. split; [apply all_bytes_ok; reflexivity|]. split; [apply all_bytes_ok; reflexivity|].
  split; [split; vm_compute; congruence|]. split; [|split; [reflexivity|exact F]].
  intros (_ & A). specialize (A 299%nat). assert (V : ~ volatile 299) by (unfold volatile; lia). specialize (A V). vm_compute in A. discriminate.
Qed.
Print Assumptions C130_distinct_refuted.

(** a total length of 0 in a packet ends the daemon *)
Theorem C130_length_refuted : exists m, (68 <= length m)%nat /\ Forall byte m /\ nth 0 m 0 = 69 /\
  exists len, ip_total_length m = Done len /\ packet_crc32 m len = Aborts.
Proof.
  exists ([69; 0; 0; 0] ++ skipn 4 ex_any). split; [cbn; lia|]. split; [apply all_bytes_ok; reflexivity|]. split; [reflexivity|].
  exists 0. split; reflexivity.
Qed.
Print Assumptions C130_length_refuted.

(** a packet to a multicast address is left alone, and in another the destination is the
    broadcast address afterwards; the rest stays, and right checksums are right again when
    the carries are and that of UDP is used *)
Theorem C132_broadcast_partial : forall m broad, (68 <= length m)%nat -> Forall byte m -> 0 <= broad < 4294967296 -> (20 <= ihl m)%nat ->
  exists m', update_broadcast m broad = Done m' /\ (multicast (address m) -> m' = m) /\
    (~ multicast (address m) ->
     length m' = length m /\ dest m' = bytes_of broad /\ untouched m m' /\
     (header_ok m -> carries (header_field m) (address m) broad -> header_ok m') /\
     (nth 9 m 0 = 17 -> udp_ok m -> udp_field m <> 0 -> carries (udp_field m) (address m) broad -> udp_ok m')).
Proof.
  intros m broad L B R H. destruct (Z_lt_dec (address m) 3758096384) as [Lo|Lo]; [|destruct (Z_le_dec 4026531840 (address m)) as [Hi|Hi]].
  - assert (N : ~ multicast (address m)) by (unfold multicast; lia). destruct (update_ok m broad L B R H N) as (m' & E & A1 & A2 & A3 & A4 & A5 & A6). exists m'. split; [exact E|]. split; [tauto|]. auto.
  - assert (N : ~ multicast (address m)) by (unfold multicast; lia). destruct (update_ok m broad L B R H N) as (m' & E & A1 & A2 & A3 & A4 & A5 & A6). exists m'. split; [exact E|]. split; [tauto|]. auto.
  - exists m. assert (M : multicast (address m)) by (unfold multicast; lia). split; [|split; [auto|tauto]]. apply multicast_same; auto.
Qed.
Print Assumptions C132_broadcast_partial.
Example C132_broadcast_ex : (68 <= length ex_any)%nat /\ Forall byte ex_any /\ (20 <= ihl ex_any)%nat /\ ~ multicast (address ex_any) /\ header_ok ex_any /\ udp_ok ex_any /\ udp_field ex_any <> 0 /\
  carries (header_field ex_any) (address ex_any) 3232236031 /\ carries (udp_field ex_any) (address ex_any) 3232236031 /\
  update_broadcast ex_any 3232236031 = Done (ex_packet 18 52 64 154 204 [192; 168; 1; 255] 157 218).
Proof.
  assert (E : forall a b, Nat.leb a b = true -> (a <= b)%nat) by (intros a b; apply Nat.leb_le).
  split; [apply E; reflexivity|]. split; [apply all_bytes_ok; reflexivity|]. split; [apply E; reflexivity|]. split; [vm_compute; intros (A & _); congruence|].
  split; [split; [split; apply E; reflexivity|vm_compute; reflexivity]|]. split; [split; [apply E; reflexivity|split; [split; apply E; reflexivity|right; vm_compute; reflexivity]]|].
  split; [vm_compute; discriminate|]. split; [split; vm_compute; discriminate|]. split; [split; vm_compute; discriminate|]. vm_compute. reflexivity.
Qed.

(** with the other carries the header checksum is wrong afterwards: the packet is lost at
    every receiver *)
Theorem C132_carry_refuted : exists m broad m', (68 <= length m)%nat /\ Forall byte m /\ 0 <= broad < 4294967296 /\ header_ok m /\ udp_ok m /\
  update_broadcast m broad = Done m' /\ ~ header_ok m'.
Proof.
  exists (ex_packet 99 167 64 95 225 [172; 31; 255; 255] 180 98), 167838207. eexists. assert (E : forall a b, Nat.leb a b = true -> (a <= b)%nat) by (intros a b; apply Nat.leb_le).
  split; [apply E; reflexivity|]. split; [apply all_bytes_ok; reflexivity|]. split; [lia|]. split; [split; [split; apply E; reflexivity|vm_compute; reflexivity]|].
  split; [split; [apply E; reflexivity|split; [split; apply E; reflexivity|right; vm_compute; reflexivity]]|]. split; [vm_compute; reflexivity|].
  intros (_ & H). vm_compute in H. discriminate.
Qed.
Print Assumptions C132_carry_refuted.

(** a datagram without a UDP checksum has a wrong one afterwards *)
Theorem C132_unused_refuted : exists m broad m', (68 <= length m)%nat /\ Forall byte m /\ 0 <= broad < 4294967296 /\ header_ok m /\ udp_ok m /\ udp_field m = 0 /\
  update_broadcast m broad = Done m' /\ header_ok m' /\ ~ udp_ok m'.
Proof.
  exists (ex_packet 18 52 64 82 117 [10; 255; 255; 255] 0 0), 3232236031. eexists. assert (E : forall a b, Nat.leb a b = true -> (a <= b)%nat) by (intros a b; apply Nat.leb_le).
  split; [apply E; reflexivity|]. split; [apply all_bytes_ok; reflexivity|]. split; [lia|]. split; [split; [split; apply E; reflexivity|vm_compute; reflexivity]|].
  split; [split; [apply E; reflexivity|split; [split; apply E; reflexivity|left; vm_compute; reflexivity]]|]. split; [vm_compute; reflexivity|]. split; [vm_compute; reflexivity|].
  split; [split; [split; apply E; reflexivity|vm_compute; reflexivity]|]. intros (_ & _ & [H|H]); vm_compute in H; discriminate.
Qed.
Print Assumptions C132_unused_refuted.

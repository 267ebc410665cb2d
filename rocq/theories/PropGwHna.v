(** C68: what a gateway announces is what the others learn. *)
From Verif Require Import Base IpCalc GwSpeed GwSpeedProofs GwHna PropGwSpeed.

(** an announced bandwidth is an honest approximation of the configured one *)
Definition honest (s d : Z) : Prop :=
  (s <> 1 -> d <= s) /\ (s = 1 -> d = 2) /\ 3 * Z.min s 320000000 <= 4 * d /\ (s = 0 <-> d = 0).
Definition learned (c : anncfg) (zero : bool) (g : gwinfo) : Prop :=
  (if zero then gi_up g = 0 /\ gi_down g = 0 else honest (a_uplink c) (gi_up g) /\ honest (a_downlink c) (gi_down g)) /\
  gi_v4 g = a_has4 c /\ gi_nat g = a_has4 c && a_nat c /\ gi_v6 g = a_v6 c && a_has6 c.

Ltac big c := destruct c as [act v6 h4 h6 nat up down pl pre]; cbn [a_active a_v6 a_has4 a_has6 a_nat a_uplink a_downlink a_plen a_prefix] in *.

(** IPv4, default route 0.0.0.0/0 *)
Theorem C68_v4_partial : forall c z0 junk zero, a_active c = true -> a_v6 c = false -> length junk = 12%nat ->
  0 <= a_uplink c < 4294967296 -> 0 <= a_downlink c < 4294967296 ->
  exists m, sent_netmask c z0 junk 0 zero = Some m /\ length m = 4%nat /\
    forall ext, exists g, receive false ext [0; 0; 0; 0] m = Some g /\ learned c zero g /\ gi_ext g = ext.
Proof.
  intros c z0 junk zero A V J Hu Hd.
  pose proof (C35_honest_partial (a_uplink c) Hu) as HU. pose proof (C35_honest_partial (a_downlink c) Hd) as HD.
  big c. subst act v6.
  do 12 (destruct junk as [|? junk]; [discriminate|]). destruct junk; [|discriminate].
  unfold sent_netmask, refresh. cbn [a_active a_v6 a_has4 a_has6 a_nat a_uplink a_downlink a_plen a_prefix negb andb]. set (U := serialize_gw_speed up) in *. set (D := serialize_gw_speed down) in *.
  change (serialize_gw_speed 0) with 0. clearbody U D. cbv zeta in HU, HD.
  unfold learned. cbn [a_active a_v6 a_has4 a_has6 a_nat a_uplink a_downlink].
  exists [0; 1 + (if h4 then if nat then 6 else 2 else 0) + (if h6 then 8 else 0); if zero then 0 else U; if zero then 0 else D].
  split; [destruct zero, h4, h6, nat; vm_compute; reflexivity|]. split; [reflexivity|].
  intros ext. exists (mkGi (if zero then 0 else deserialize_gw_speed U) (if zero then 0 else deserialize_gw_speed D) h4 (h4 && nat) false ext).
  split; [destruct zero, h4, h6, nat; cbv -[deserialize_gw_speed]; reflexivity|].
  split; [|reflexivity]. split; [destruct zero; auto|]. auto.
Qed.
Print Assumptions C68_v4_partial.

(** IPv6, the route to the IPv4 internet ::ffff:0:0/96 *)
Theorem C68_mapped_partial : forall c z0 zero, a_active c = true -> a_v6 c = true -> length (a_prefix c) = 16%nat ->
  0 <= a_uplink c < 4294967296 -> 0 <= a_downlink c < 4294967296 ->
  exists m, sent_netmask c z0 [] 96 zero = Some m /\ length m = 16%nat /\
    forall ext, exists g, receive true ext [0;0;0;0;0;0;0;0;0;0;255;255;0;0;0;0] m = Some g /\ learned c zero g /\ gi_ext g = ext.
Proof.
  intros c z0 zero A V J Hu Hd.
  pose proof (C35_honest_partial (a_uplink c) Hu) as HU. pose proof (C35_honest_partial (a_downlink c) Hd) as HD.
  big c. subst act v6.
  do 16 (destruct pre as [|? pre]; [discriminate|]). destruct pre; [|discriminate].
  unfold sent_netmask, refresh. cbn [a_active a_v6 a_has4 a_has6 a_nat a_uplink a_downlink a_plen a_prefix negb andb]. set (U := serialize_gw_speed up) in *. set (D := serialize_gw_speed down) in *.
  change (serialize_gw_speed 0) with 0. clearbody U D. cbv zeta in HU, HD.
  cbn [a_active a_v6 a_has4 a_has6 a_nat a_uplink a_downlink a_plen a_prefix negb andb].
  unfold learned. cbn [a_active a_v6 a_has4 a_has6 a_nat a_uplink a_downlink].
  exists [255;255;255;255;255;255;255;255;255;255;255;255;
    0; 1 + (if h4 then if nat then 6 else 2 else 0) + (if h6 then 8 else 0); if zero then 0 else U; if zero then 0 else D].
  split; [destruct (pl >? 0); destruct zero, h4, h6, nat; vm_compute; reflexivity|]. split; [reflexivity|].
  intros ext. exists (mkGi (if zero then 0 else deserialize_gw_speed U) (if zero then 0 else deserialize_gw_speed D) h4 (h4 && nat) h6 ext).
  split; [destruct zero, h4, h6, nat; cbv -[deserialize_gw_speed]; reflexivity|].
  split; [|reflexivity]. split; [destruct zero; auto|]. auto.
Qed.
Print Assumptions C68_mapped_partial.

(** an ordinary network announcement is not taken for a gateway *)
Definition plainb (size : nat) (plen : nat) : bool :=
  let m := fst (prefix_to_netmask size (Z.of_nat plen)) in nth (hna_off (netmask_to_prefix m) + 1) m 0 =? 0.
Theorem C68_plain : forall v6 ext net plen, 0 <= plen <= (if v6 : bool then 128 else 32) ->
  receive v6 ext net (fst (prefix_to_netmask (if v6 then 16 else 4) plen)) = None.
Proof.
  intros v6 ext net plen H. unfold receive, is_smart_gateway. cbn [snd].
  assert (B : plainb (if v6 then 16 else 4) (Z.to_nat plen) = true).
  { assert (F : forallb (plainb (if v6 then 16 else 4)) (seq 0 (if v6 then 129 else 33)) = true) by (destruct v6; vm_compute; reflexivity).
    rewrite forallb_forall in F. apply F. apply in_seq. destruct v6; lia. }
  unfold plainb in B. rewrite Z2Nat.id in B by lia. cbv zeta in *. rewrite B. cbn [negb]. rewrite andb_false_r. reflexivity.
Qed.
Print Assumptions C68_plain.
Example C68_plain_ex : 0 <= 0 <= 32 /\ fst (prefix_to_netmask 4 0) = [0; 0; 0; 0] /\ receive false (0, []) [0; 0; 0; 0] [0; 1; 0; 0] <> None.
Proof. split; [lia|]. split; [reflexivity|]. vm_compute. discriminate. Qed.

(** IPv6, 2000::/3: 16 bytes are copied to offset 1 of a variable of 16 bytes. *)
Theorem C68_v6_refuted : exists c, a_active c = true /\ a_v6 c = true /\ length (a_prefix c) = 16%nat /\
  forall z0 zero, length z0 = 16%nat -> sent_netmask c z0 [] 3 zero = None.
Proof.
  exists (mkAnn true true true true false 1000 1000 0 (zeros 16)). repeat split.
  intros z0 zero L. destruct zero; reflexivity.
Qed.
Print Assumptions C68_v6_refuted.

(** No netmask at all makes a receiver learn an external prefix: it compares the
    netmask, not the network, with 2000::. *)
Theorem C68_external_refuted : exists n : Z * list Z, fst n > 0 /\ length (snd n) = 16%nat /\
  forall net mask ext g, length mask = 16%nat -> netmask_to_prefix mask = 3 ->
    receive true ext net mask = Some g -> gi_ext g <> n /\ gi_ext g = (0, zeros 16).
Proof.
  exists (56, [32; 1; 13; 184; 0; 0; 0; 0; 0; 0; 0; 0; 0; 0; 0; 0]). split; [reflexivity|]. split; [reflexivity|].
  intros net mask ext g L P R.
  assert (Q : gi_ext g = (0, zeros 16)); [|split; [rewrite Q; discriminate|exact Q]].
  unfold receive in R. rewrite P in R. destruct (is_smart_gateway true (net, 3) mask); [|discriminate].
  apply Some_inj in R. subst g. unfold learn. cbn [gi_ext andb]. change (3 =? 3) with true. cbv iota.
  do 16 (destruct mask as [|? mask]; [discriminate|]). destruct mask; [|discriminate].
  change (hna_off 3) with 1%nat. cbn [nth Nat.add memeq fst ipv6_internet_route].
  destruct (has z1 16) eqn:H; cbn [andb]; [|reflexivity].
  destruct (z =? 32); cbn [andb]; [|reflexivity]. destruct (z0 =? 0); cbn [andb]; [|reflexivity].
  destruct (Z.eqb_spec z1 0) as [->|]; cbn [andb]; [|reflexivity]. discriminate H.
Qed.
Print Assumptions C68_external_refuted.

Example C68_ex : let c := mkAnn true false true false true 2048 16384 0 [] in
  sent_netmask c (zeros 16) (zeros 12) 0 false = Some [0; 7; 11; 123] /\
  receive false (0, zeros 16) [0; 0; 0; 0] [0; 7; 11; 123] = Some (mkGi 2000 16000 true true false (0, zeros 16)).
Proof. vm_compute. auto. Qed.

(** Properties of the P2PD plugin: packets from the LAN into the OLSR network (C153), the
    filter with fingerprints (C154), packets from the OLSR network onto the LAN (C155). *)
From Verif Require Import Base Bytes BmfPacket BmfPacketSpec NetBuf P2pd P2pdSpec P2pdProofs P2pdLanProofs.

Definition ex_dst : list Z := [239; 1; 2; 3].
Definition ex_dst6 : list Z := [255; 2; 0; 0; 0; 0; 0; 0; 0; 0; 0; 0; 0; 0; 0; 7].
Definition ex_dests : list dest := [{| d_v6 := false; d_addr := ex_dst; d_port := 5000 |}; {| d_v6 := false; d_addr := [239; 1; 2; 4]; d_port := 5000 |}; {| d_v6 := true; d_addr := ex_dst6; d_port := 5000 |}].
Definition ex_cfg (v6 : bool) (host : Z) (hash dec debug : bool) : cfg :=
  {| c_v6 := v6; c_main := (if v6 then [32; 1; 13; 184; 0; 0; 0; 0; 0; 0; 0; 0; 0; 0; 0] else [10; 0; 0]) ++ [host]; c_ttl := 0; c_hash := hash; c_dec := dec; c_dests := ex_dests; c_debug := debug; c_timeout := 180 |}.
Definition ex_rx : list Z := repeat 170 2048.
Definition ex_p : list Z := [69; 0; 0; 32; 0; 2; 0; 0; 64; 17; 200; 20; 192; 168; 1; 10; 239; 1; 2; 3; 48; 57; 19; 136; 0; 12; 0; 0; 1; 2; 3; 4].
(** the same one hop further *)
Definition ex_p63 : list Z := [69; 0; 0; 32; 0; 2; 0; 0; 63; 17; 201; 20; 192; 168; 1; 10; 239; 1; 2; 3; 48; 57; 19; 136; 0; 12; 0; 0; 1; 2; 3; 4].
(** another packet to another group *)
Definition ex_other : list Z := [69; 0; 0; 32; 0; 1; 0; 0; 64; 17; 200; 20; 192; 168; 1; 10; 239; 1; 2; 4; 48; 57; 19; 136; 0; 12; 0; 0; 1; 2; 3; 4].
Definition ex_carry : list Z := [69; 0; 0; 32; 201; 23; 0; 0; 64; 17; 254; 254; 192; 168; 1; 10; 239; 1; 2; 3; 48; 57; 19; 136; 0; 12; 0; 0; 1; 2; 3; 4].
Definition ex_p6 : list Z := [96; 0; 0; 0; 0; 12; 17; 64; 254; 128; 0; 0; 0; 0; 0; 0; 0; 0; 0; 0; 0; 0; 0; 1; 255; 2; 0; 0; 0; 0; 0; 0; 0; 0; 0; 0; 0; 0; 0; 7; 48; 57; 19; 136; 0; 12; 0; 0; 1; 2; 3; 4].
Definition ex_other6 : list Z := [96; 0; 0; 0; 0; 12; 17; 64; 254; 128; 0; 0; 0; 0; 0; 0; 0; 0; 0; 0; 0; 0; 0; 1; 255; 2; 0; 0; 0; 0; 0; 0; 0; 0; 0; 0; 0; 0; 0; 7; 48; 57; 19; 136; 0; 12; 0; 0; 9; 9; 9; 9].
Lemma ex_bytes l : forallb (fun x => (0 <=? x) && (x <? 256)) l = true -> Forall byte l.
Proof. intros H. rewrite forallb_forall in H. apply Forall_forall. intros x X. specialize (H x X). unfold byte. lia. Qed.
Lemma ex_udp4 : udp4 ex_p ex_dst 5000.
Proof. split; [apply ex_bytes; reflexivity|]. repeat split; vm_compute; congruence || lia. Qed.
Lemma ex_udp6 : udp6 ex_p6 ex_dst6 5000.
Proof. split; [apply ex_bytes; reflexivity|]. repeat split; vm_compute; congruence || lia. Qed.
Lemma ex_wanted4 host hash dec debug : wanted (ex_cfg false host hash dec debug) false ex_dst 5000.
Proof. eexists. split; [left; reflexivity|]. repeat split. Qed.
Lemma ex_wanted6 host hash dec debug : wanted (ex_cfg true host hash dec debug) true ex_dst6 5000.
Proof. eexists. split; [right; right; left; reflexivity|]. repeat split. Qed.
Lemma ex_sane v6 host hash dec debug : 0 <= host < 256 -> sane (ex_cfg v6 host hash dec debug).
Proof. intros H. split; [destruct v6; reflexivity|]. split; [|cbn; lia]. destruct v6; cbn; repeat (constructor; [unfold byte; lia|]); constructor. Qed.

(** ** C153: from the LAN *)
(** a frame with a UDP packet to a configured address and port is taken as it is, with what
    the link has added; other packets are not *)
Theorem C153_relay : forall c now h rx p extra dst port v6 ty, c_hash c = false -> c_dec c = false -> udp v6 p dst port ->
  Z.of_nat (length (p ++ extra)) <= 2040 -> length rx = 2048%nat -> taken ty ->
  exists r, do_p2pd c now h rx (p ++ extra) ty = Done (h, r) /\ (wanted c v6 dst port -> r = Some (p ++ extra)) /\ (~ wanted c v6 dst port -> r = None).
Proof. exact relay_ok. Qed.
Print Assumptions C153_relay.
Example C153_relay_ex : udp false ex_p ex_dst 5000 /\ wanted (ex_cfg false 1 false false false) false ex_dst 5000 /\
  do_p2pd (ex_cfg false 1 false false false) 0 [] ex_rx (ex_p ++ [0; 0; 0; 0]) 2 = Done ([], Some (ex_p ++ [0; 0; 0; 0])) /\
  do_p2pd (ex_cfg true 1 false false false) 0 [] ex_rx ex_p6 2 = Done ([], Some ex_p6).
Proof. split; [exact ex_udp4|]. split; [apply ex_wanted4|]. split; vm_compute; reflexivity. Qed.

(** the message of a node with IPv4 addresses has the packet and up to three zero bytes *)
Theorem C153_message : forall c seq stack pkt, c_v6 c = false -> sane c -> 0 <= seq < 65536 -> Z.of_nat (length pkt) <= 2048 -> Z.of_nat (length stack) = 10240 ->
  exists pad m, gen c seq stack pkt = Done m /\ padding (length pkt) pad /\ message c seq (pkt ++ pad) m.
Proof.
  intros c seq stack pkt V S0 Q L ST. destruct (gen_ok c seq stack pkt S0 Q L ST) as (pad & m & G & P & M). rewrite V, app_nil_r in M. exists pad, m. split; [exact G|]. split; [exact P|exact M].
Qed.
Print Assumptions C153_message.
Example C153_message_ex : sane (ex_cfg false 1 false false false) /\
  gen (ex_cfg false 1 false false false) 258 (repeat 170 (Z.to_nat 10240)) [69; 1; 2] = Done [132; 107; 0; 16; 10; 0; 0; 1; 255; 0; 1; 2; 69; 1; 2; 0].
Proof. split; [apply ex_sane; lia|]. vm_compute. reflexivity. Qed.

(** with IPv6 addresses 84 bytes of the stack follow.  Missing: that nothing else is sent *)
Theorem C153_message_partial : forall c seq stack pkt, c_v6 c = true -> sane c -> 0 <= seq < 65536 -> Z.of_nat (length pkt) <= 2048 -> Z.of_nat (length stack) = 10240 ->
  exists pad m, gen c seq stack pkt = Done m /\ padding (length pkt) pad /\
    message c seq (pkt ++ pad ++ firstn 84 (skipn (24 + length pkt + length pad) stack)) m.
Proof.
  intros c seq stack pkt V S0 Q L ST. destruct (gen_ok c seq stack pkt S0 Q L ST) as (pad & m & G & P & M). rewrite V in M. exists pad, m. split; [exact G|]. split; [exact P|exact M].
Qed.
Print Assumptions C153_message_partial.
Example C153_message_partial_ex : sane (ex_cfg true 1 false false false) /\
  match gen (ex_cfg true 1 false false false) 258 (repeat 170 (Z.to_nat 10240)) [69; 1; 2; 3] with Done m => skipn 24 m = [69; 1; 2; 3] ++ repeat 170 84 | _ => False end.
Proof. split; [apply ex_sane; lia|]. vm_compute. reflexivity. Qed.
(** what was on the stack is in the message *)
Theorem C153_stack_refuted : exists c seq s1 s2 pkt m1 m2, sane c /\ length s1 = length s2 /\
  gen c seq s1 pkt = Done m1 /\ gen c seq s2 pkt = Done m2 /\ m1 <> m2.
Proof.
  destruct (gen (ex_cfg true 1 false false false) 7 (repeat 1 (Z.to_nat 10240)) ex_p6) as [m1| |] eqn:E1; [|vm_compute in E1; discriminate|vm_compute in E1; discriminate].
  destruct (gen (ex_cfg true 1 false false false) 7 (repeat 2 (Z.to_nat 10240)) ex_p6) as [m2| |] eqn:E2; [|vm_compute in E2; discriminate|vm_compute in E2; discriminate].
  exists (ex_cfg true 1 false false false), 7, (repeat 1 (Z.to_nat 10240)), (repeat 2 (Z.to_nat 10240)), ex_p6, m1, m2.
  split; [apply ex_sane; lia|]. split; [now rewrite !repeat_length|]. split; [exact E1|]. split; [exact E2|]. intros E. rewrite E in E1. rewrite <- E1 in E2. vm_compute in E2. discriminate.
Qed.
Print Assumptions C153_stack_refuted.

(** with the decrement of the time to live, a packet loses one hop and has a header
    checksum.  Missing: that the checksum is right when the second carry is not zero *)
Theorem C153_ttl_partial : forall c now h rx p extra dst port ty, c_hash c = false -> c_dec c = true -> udp4 p dst port ->
  Z.of_nat (length (p ++ extra)) <= 2040 -> length rx = 2048%nat -> taken ty -> wanted c false dst port ->
  (nth 8 p 0 <= 1 -> do_p2pd c now h rx (p ++ extra) ty = Done (h, None)) /\
  (2 <= nth 8 p 0 -> exists q, do_p2pd c now h rx (p ++ extra) ty = Done (h, Some (q ++ extra)) /\ hop4 p q /\
     (header_sum q / 65536 + header_sum q mod 65536 <= 65535 -> header_ok q)).
Proof. exact ttl4_ok. Qed.
Print Assumptions C153_ttl_partial.
Example C153_ttl_partial_ex : udp4 ex_p ex_dst 5000 /\ wanted (ex_cfg false 1 false true false) false ex_dst 5000 /\
  do_p2pd (ex_cfg false 1 false true false) 0 [] ex_rx ex_p 2 = Done ([], Some ex_p63) /\ header_sum ex_p63 / 65536 + header_sum ex_p63 mod 65536 <= 65535.
Proof. split; [exact ex_udp4|]. split; [apply ex_wanted4|]. split; vm_compute; [reflexivity|congruence]. Qed.
Theorem C153_ttl6 : forall c now h rx p extra dst port ty, c_hash c = false -> c_dec c = true -> udp6 p dst port ->
  Z.of_nat (length (p ++ extra)) <= 2040 -> length rx = 2048%nat -> taken ty -> wanted c true dst port ->
  (nth 7 p 0 <= 1 -> do_p2pd c now h rx (p ++ extra) ty = Done (h, None)) /\
  (2 <= nth 7 p 0 -> exists q, do_p2pd c now h rx (p ++ extra) ty = Done (h, Some (q ++ extra)) /\ hop6 p q).
Proof. exact ttl6_ok. Qed.
Print Assumptions C153_ttl6.
Example C153_ttl6_ex : udp6 ex_p6 ex_dst6 5000 /\ wanted (ex_cfg true 1 false true false) true ex_dst6 5000 /\ nth 7 ex_p6 0 = 64.
Proof. split; [exact ex_udp6|]. split; [apply ex_wanted6|reflexivity]. Qed.
(** a packet with a right header checksum leaves with a wrong one: the carry is added once *)
Theorem C153_checksum_refuted : exists c rx p q, udp4 p ex_dst 5000 /\ header_ok p /\ length rx = 2048%nat /\
  do_p2pd c 0 [] rx p 2 = Done ([], Some q) /\ hop4 p q /\ ~ header_ok q.
Proof.
  destruct (do_p2pd (ex_cfg false 1 false true false) 0 [] ex_rx ex_carry 2) as [(h & [q|])| |] eqn:E; try (vm_compute in E; discriminate).
  assert (HQ : (h, Some q) = ([], Some (firstn 8 ex_carry ++ [63; 17; 255; 255] ++ skipn 12 ex_carry))) by (vm_compute in E; vm_compute; congruence).
  assert (QE : q = firstn 8 ex_carry ++ [63; 17; 255; 255] ++ skipn 12 ex_carry) by congruence.
  exists (ex_cfg false 1 false true false), ex_rx, ex_carry, q. split; [split; [apply ex_bytes; reflexivity|]; repeat split; vm_compute; congruence || lia|].
  split; [split; vm_compute; lia|]. split; [reflexivity|]. split; [rewrite E; congruence|]. subst q. split.
  - split; [reflexivity|]. split; [reflexivity|]. intros i A B C. do 32 (destruct i as [|i]; [first [reflexivity|lia]|]). destruct i; reflexivity.
  - intros (_ & X). vm_compute in X. discriminate.
Qed.
Print Assumptions C153_checksum_refuted.
(** every frame of more than 2040 bytes is written over the end of the buffer *)
Theorem C153_overflow_refuted : exists frame, length frame = 2041%nat /\ forall c now h rx ty, do_p2pd c now h rx frame ty = Outside.
Proof. exists (repeat 0 2041). split; [apply repeat_length|]. intros. reflexivity. Qed.
Print Assumptions C153_overflow_refuted.
(** a packet of an Ethernet frame, with IPv4, does not fit into the packets of OLSR and is lost *)
Theorem C153_large_refuted : exists c p m b, udp4 p ex_dst 5000 /\ wanted c false ex_dst 5000 /\ (length p <= 1500)%nat /\
  do_p2pd c 0 [] ex_rx p 2 = Done ([], Some p) /\ gen c 7 (repeat 0 (Z.to_nat 10240)) p = Done m /\ b = net_add_buffer 1472 (nb_zero 5) /\ emit [] b m = Some (b, None).
Proof.
  set (p := [69; 0; 5; 180] ++ skipn 4 ex_p ++ repeat 0 1428).
  destruct (gen (ex_cfg false 1 false false false) 7 (repeat 0 (Z.to_nat 10240)) p) as [m| |] eqn:E; [|vm_compute in E; discriminate|vm_compute in E; discriminate].
  exists (ex_cfg false 1 false false false), p, m, (net_add_buffer 1472 (nb_zero 5)).
  split; [split; [apply ex_bytes; reflexivity|]; repeat split; vm_compute; congruence || lia|]. split; [apply ex_wanted4|]. split; [vm_compute; lia|]. split; [vm_compute; reflexivity|]. split; [exact E|]. split; [reflexivity|].
  assert (LM : blen m = 1472) by (vm_compute in E; injection E as <-; reflexivity). unfold emit, net_outbuffer_push. rewrite LM. reflexivity.
Qed.
Print Assumptions C153_large_refuted.

(** ** C154: the filter with fingerprints *)
(** a second copy of a packet within three seconds goes nowhere.  Missing: for copies with
    another time to live, and with other bytes behind the packet in the buffer *)
Theorem C154_copy_partial : forall c t1 t2 h rx p extra dst port ty h1 q, c_hash c = true -> 0 <= t1 -> t1 <= t2 < t1 + 3000 -> udp4 p dst port ->
  Z.of_nat (length (p ++ extra)) <= 2040 -> taken ty ->
  do_p2pd c (u32 t1) h rx (p ++ extra) ty = Done (h1, q) -> exists h2, do_p2pd c (u32 t2) h1 rx (p ++ extra) ty = Done (h2, None).
Proof. exact twice_ok. Qed.
Print Assumptions C154_copy_partial.
Example C154_copy_partial_ex : exists h1, do_p2pd (ex_cfg false 1 true false false) 5000 [] ex_rx ex_p 2 = Done (h1, Some ex_p) /\
  exists h2, do_p2pd (ex_cfg false 1 true false false) 7999 h1 ex_rx ex_p 2 = Done (h2, None).
Proof. eexists. split; [vm_compute; reflexivity|]. eexists. vm_compute. reflexivity. Qed.
(** copies that differ in the time to live and the header checksum are not recognised *)
Theorem C154_ttl_refuted : exists c rx p p' h1 h2, c_hash c = true /\ udp4 p ex_dst 5000 /\ udp4 p' ex_dst 5000 /\ header_ok p /\ header_ok p' /\ alike p p' /\
  do_p2pd c 5000 [] rx p 2 = Done (h1, Some p) /\ do_p2pd c 5001 h1 rx p' 2 = Done (h2, Some p').
Proof.
  destruct (do_p2pd (ex_cfg false 1 true false false) 5000 [] ex_rx ex_p 2) as [(h1 & r1)| |] eqn:E1; try (vm_compute in E1; discriminate).
  assert (H1 : r1 = Some ex_p) by (vm_compute in E1; vm_compute; congruence). subst r1.
  destruct (do_p2pd (ex_cfg false 1 true false false) 5001 h1 ex_rx ex_p63 2) as [(h2 & r2)| |] eqn:E2.
  - assert (H2 : r2 = Some ex_p63) by (vm_compute in E1; injection E1 as <-; vm_compute in E2; vm_compute; congruence). subst r2.
    exists (ex_cfg false 1 true false false), ex_rx, ex_p, ex_p63, h1, h2. split; [reflexivity|]. split; [exact ex_udp4|].
    split; [split; [apply ex_bytes; reflexivity|]; repeat split; vm_compute; congruence || lia|]. split; [split; vm_compute; lia|]. split; [split; vm_compute; lia|]. split; [|split; assumption].
    split; [reflexivity|]. intros i V. do 32 (destruct i as [|i]; [first [reflexivity|exfalso; apply V; unfold volatile; lia]|]). destruct i; reflexivity.
  - vm_compute in E1; injection E1 as <-; vm_compute in E2; discriminate.
  - vm_compute in E1; injection E1 as <-; vm_compute in E2; discriminate.
Qed.
Print Assumptions C154_ttl_refuted.
(** a packet to another group is taken for a copy and lost *)
Theorem C154_other_refuted : exists c rx p p' h1 h2, c_hash c = true /\ udp4 p ex_dst 5000 /\ udp4 p' [239; 1; 2; 4] 5000 /\ wanted c false [239; 1; 2; 4] 5000 /\
  header_ok p /\ header_ok p' /\ do_p2pd c 5000 [] rx p 2 = Done (h1, Some p) /\ do_p2pd c 5001 h1 rx p' 2 = Done (h2, None).
Proof.
  destruct (do_p2pd (ex_cfg false 1 true false false) 5000 [] ex_rx ex_p 2) as [(h1 & r1)| |] eqn:E1; try (vm_compute in E1; discriminate).
  assert (H1 : r1 = Some ex_p) by (vm_compute in E1; vm_compute; congruence). subst r1.
  destruct (do_p2pd (ex_cfg false 1 true false false) 5001 h1 ex_rx ex_other 2) as [(h2 & r2)| |] eqn:E2.
  - assert (H2 : r2 = None) by (vm_compute in E1; injection E1 as <-; vm_compute in E2; congruence). subst r2.
    exists (ex_cfg false 1 true false false), ex_rx, ex_p, ex_other, h1, h2. split; [reflexivity|]. split; [exact ex_udp4|].
    split; [split; [apply ex_bytes; reflexivity|]; repeat split; vm_compute; congruence || lia|]. split; [eexists; split; [right; left; reflexivity|]; repeat split|]. split; [split; vm_compute; lia|]. split; [split; vm_compute; lia|]. split; assumption.
  - vm_compute in E1; injection E1 as <-; vm_compute in E2; discriminate.
  - vm_compute in E1; injection E1 as <-; vm_compute in E2; discriminate.
Qed.
Print Assumptions C154_other_refuted.
(** with assertions, a packet from a link local IPv6 address ends the daemon *)
Theorem C154_abort_refuted : exists c rx p, c_hash c = true /\ c_debug c = true /\ udp6 p ex_dst6 5000 /\ length rx = 2048%nat /\ do_p2pd c 5000 [] rx p 2 = Aborts.
Proof. exists (ex_cfg true 1 true false true), ex_rx, ex_p6. split; [reflexivity|]. split; [reflexivity|]. split; [exact ex_udp6|]. split; [reflexivity|]. vm_compute. reflexivity. Qed.
Print Assumptions C154_abort_refuted.
(** without them, only the first of different packets from such addresses is taken *)
Theorem C154_local_refuted : exists c rx p p' h1 h2, c_hash c = true /\ udp6 p ex_dst6 5000 /\ udp6 p' ex_dst6 5000 /\ skipn 48 p <> skipn 48 p' /\
  do_p2pd c 5000 [] rx p 2 = Done (h1, Some p) /\ do_p2pd c 5001 h1 rx p' 2 = Done (h2, None).
Proof.
  eexists (ex_cfg true 1 true false false), ex_rx, ex_p6, ex_other6, [(0, 8000)], [(0, 8001)]. split; [reflexivity|]. split; [exact ex_udp6|].
  split; [split; [apply ex_bytes; reflexivity|]; repeat split; vm_compute; congruence || lia|]. split; [vm_compute; congruence|]. split; vm_compute; reflexivity.
Qed.
Print Assumptions C154_local_refuted.
(** what was in the buffer before decides whether a copy is recognised *)
Theorem C154_stale_refuted : exists c rx rx' p h1 h2, c_hash c = true /\ udp4 p ex_dst 5000 /\ length rx = 2048%nat /\ length rx' = 2048%nat /\
  do_p2pd c 5000 [] rx p 2 = Done (h1, Some p) /\ do_p2pd c 5001 h1 rx' p 2 = Done (h2, Some p).
Proof.
  destruct (do_p2pd (ex_cfg false 1 true false false) 5000 [] ex_rx ex_p 2) as [(h1 & r1)| |] eqn:E1; try (vm_compute in E1; discriminate).
  assert (H1 : r1 = Some ex_p) by (vm_compute in E1; vm_compute; congruence). subst r1.
  destruct (do_p2pd (ex_cfg false 1 true false false) 5001 h1 (repeat 0 2048) ex_p 2) as [(h2 & r2)| |] eqn:E2.
  - assert (H2 : r2 = Some ex_p) by (vm_compute in E1; injection E1 as <-; vm_compute in E2; vm_compute; congruence). subst r2.
    exists (ex_cfg false 1 true false false), ex_rx, (repeat 0 2048), ex_p, h1, h2. split; [reflexivity|]. split; [exact ex_udp4|]. split; [reflexivity|]. split; [reflexivity|]. split; assumption.
  - vm_compute in E1; injection E1 as <-; vm_compute in E2; discriminate.
  - vm_compute in E1; injection E1 as <-; vm_compute in E2; discriminate.
Qed.
Print Assumptions C154_stale_refuted.

(** ** C155: onto the LAN *)
Theorem C155_lan4 : forall c now h p r dst port ifs, c_hash c = false -> c_v6 c = false -> udp4 p dst port ->
  exists fs, packet_from_olsr c now h (p ++ r) ifs = Done (h, fs) /\
    (wanted c false dst port -> fs = on_lans {| f_proto := 2048; f_mac := group_mac4 dst; f_bytes := p |} ifs) /\ (~ wanted c false dst port -> fs = on_none ifs).
Proof. intros c now h p r dst port ifs H V U. pose proof (deliver_ok c now h p r dst port ifs H) as D. rewrite V in D. exact (D U). Qed.
Print Assumptions C155_lan4.
Example C155_lan4_ex : udp4 ex_p ex_dst 5000 /\ wanted (ex_cfg false 2 false false false) false ex_dst 5000 /\
  packet_from_olsr (ex_cfg false 2 false false false) 0 [] (ex_p ++ [0; 0]) [true; false; true] =
  Done ([], [Some {| f_proto := 2048; f_mac := [1; 0; 94; 1; 2; 3]; f_bytes := ex_p |}; None; Some {| f_proto := 2048; f_mac := [1; 0; 94; 1; 2; 3]; f_bytes := ex_p |}]).
Proof. split; [exact ex_udp4|]. split; [apply ex_wanted4|]. vm_compute. reflexivity. Qed.
(** Missing for IPv6: the hardware address *)
Theorem C155_lan6_partial : forall c now h p r dst port ifs, c_hash c = false -> c_v6 c = true -> udp6 p dst port ->
  exists fs mc, packet_from_olsr c now h (p ++ r) ifs = Done (h, fs) /\
    (wanted c true dst port -> fs = on_lans {| f_proto := 34525; f_mac := mc; f_bytes := p |} ifs) /\ (~ wanted c true dst port -> fs = on_none ifs).
Proof. intros c now h p r dst port ifs H V U. pose proof (deliver_ok c now h p r dst port ifs H) as D. rewrite V in D. destruct (D U) as (fs & E). exists fs, [0; 0; 0; 0; 0; 0]. exact E. Qed.
Print Assumptions C155_lan6_partial.
Example C155_lan6_partial_ex : udp6 ex_p6 ex_dst6 5000 /\ wanted (ex_cfg true 2 false false false) true ex_dst6 5000.
Proof. split; [exact ex_udp6|apply ex_wanted6]. Qed.
(** packets to an IPv6 group go to the hardware address 0 *)
Theorem C155_mac6_refuted : exists c p f, udp6 p ex_dst6 5000 /\ wanted c true ex_dst6 5000 /\
  packet_from_olsr c 0 [] p [true] = Done ([], [Some f]) /\ f_mac f = [0; 0; 0; 0; 0; 0] /\ f_mac f <> group_mac6 ex_dst6.
Proof.
  exists (ex_cfg true 2 false false false), ex_p6, {| f_proto := 34525; f_mac := [0; 0; 0; 0; 0; 0]; f_bytes := ex_p6 |}.
  split; [exact ex_udp6|]. split; [apply ex_wanted6|]. split; [vm_compute; reflexivity|]. split; [reflexivity|]. vm_compute. discriminate.
Qed.
Print Assumptions C155_mac6_refuted.
(** for a packet that claims to be longer than its message, what follows the message in the
    memory goes onto the LAN *)
Theorem C155_beyond_refuted : exists c m rest f, message (ex_cfg false 1 false false false) 7 (skipn 12 m) m /\
  (exists st, olsr_parser c 0 0 ([], []) (m ++ rest) [true] = Done (st, true, [Some f])) /\ rest <> [] /\ f_bytes f = skipn 12 m ++ rest.
Proof.
  set (p := [69; 0; 0; 40] ++ skipn 4 ex_p). set (m := [132; 107; 0; 44; 10; 0; 0; 1; 255; 0; 0; 7] ++ p).
  exists (ex_cfg false 2 false false false), m, [11; 22; 33; 44; 55; 66; 77; 88], {| f_proto := 2048; f_mac := [1; 0; 94; 1; 2; 3]; f_bytes := p ++ [11; 22; 33; 44; 55; 66; 77; 88] |}.
  split; [exists 107, 0, 44, 255; split; [reflexivity|]; unfold byte; repeat split; try lia; vm_compute; reflexivity|].
  split; [eexists; vm_compute; reflexivity|]. split; [discriminate|]. reflexivity.
Qed.
Print Assumptions C155_beyond_refuted.
(** as long as the clock does not go back, a message is dropped exactly if one with the same
    originator, type and sequence number was taken not longer ago than the time-out *)
Theorem C155_once : forall c ms, forwards ms -> length (duplicates c [] ms) = length ms /\
  forall j k t, nth_error ms j = Some (k, t) ->
    (nth_error (duplicates c [] ms) j = Some true <->
     exists i t0, (i < j)%nat /\ nth_error ms i = Some (k, t0) /\ nth_error (duplicates c [] ms) i = Some false /\ t <= t0 + c_timeout c).
Proof. exact once_ok. Qed.
Print Assumptions C155_once.
Example C155_once_ex : duplicates (ex_cfg false 1 false false false) [] [(([10; 0; 0; 2], 132, [0; 1]), 100); (([10; 0; 0; 3], 132, [0; 1]), 100); (([10; 0; 0; 2], 132, [0; 1]), 280); (([10; 0; 0; 2], 132, [0; 1]), 281)] = [false; false; true; false].
Proof. reflexivity. Qed.
Theorem C155_own : forall c secs now st seq body m ifs, sane c -> message c seq body m -> olsr_parser c secs now st m ifs = Done (st, false, []).
Proof. exact own_ok. Qed.
Print Assumptions C155_own.
Example C155_own_ex : sane (ex_cfg false 1 false false false) /\ message (ex_cfg false 1 false false false) 7 [1; 2; 3; 4] [132; 107; 0; 16; 10; 0; 0; 1; 255; 0; 0; 7; 1; 2; 3; 4].
Proof. split; [apply ex_sane; lia|]. exists 107, 0, 16, 255. split; [reflexivity|]. unfold byte. repeat split; lia. Qed.
(** a packet taken from the LAN by one node is put on the LANs of another as it was *)
Theorem C155_end : forall a b rx stack p extra dst port ty seq secs t1 t2 h st ifs,
  c_v6 a = c_v6 b -> c_hash a = false -> c_hash b = false -> c_dec a = false -> sane a -> c_main a <> c_main b -> 0 <= seq < 65536 ->
  length rx = 2048%nat -> Z.of_nat (length stack) = 10240 -> udp (c_v6 b) p dst port -> Z.of_nat (length (p ++ extra)) <= 2040 -> taken ty ->
  wanted a (c_v6 b) dst port -> wanted b (c_v6 b) dst port ->
  (forall t, In ((c_main a, 132, [seq / 256; seq mod 256]), t) (fst st) -> t + c_timeout b < secs) ->
  exists pkt m f st', do_p2pd a t1 h rx (p ++ extra) ty = Done (h, Some pkt) /\ gen a seq stack pkt = Done m /\
    olsr_parser b secs t2 st m ifs = Done (st', true, on_lans f ifs) /\ f_bytes f = p.
Proof.
  intros a b rx stack p extra dst port ty seq secs t1 t2 h st ifs V HA HB DA SA NE SQ RX ST U L T WA WB D.
  destruct (relay_ok a t1 h rx p extra dst port (c_v6 b) ty HA DA U L RX T) as (r & R & RW & _). rewrite (RW WA) in R.
  destruct (gen_ok a seq stack (p ++ extra) SA SQ) as (pad & m & G & _ & M); [lia|exact ST|]. rewrite <- app_assoc in M.
  destruct (parse_ok b a secs t2 st seq p _ m dst port ifs HB V SA M U WB NE D) as (st' & P).
  eexists _, m, _, st'. split; [exact R|]. split; [exact G|]. split; [exact P|reflexivity].
Qed.
Print Assumptions C155_end.
Example C155_end_ex : let a := ex_cfg true 1 false false false in let b := ex_cfg true 2 false false false in
  sane a /\ c_main a <> c_main b /\ udp (c_v6 b) ex_p6 ex_dst6 5000 /\ wanted a (c_v6 b) ex_dst6 5000 /\ wanted b (c_v6 b) ex_dst6 5000.
Proof. cbn [c_v6 ex_cfg udp]. split; [apply ex_sane; lia|]. split; [discriminate|]. split; [exact ex_udp6|]. split; apply ex_wanted6. Qed.

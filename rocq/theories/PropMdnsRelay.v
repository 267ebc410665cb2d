(** C137: what the mDNS plugin sends on its networks. C138: what it captures there, and the
    way from one network to the others. *)
From Verif Require Import Base BmfPacket BmfPacketSpec MdnsElect MdnsElectProofs MdnsRelay MdnsRelaySpec MdnsRelayProofs MdnsCaptureProofs.

Definition all_bytes (m : list Z) : bool := forallb (fun x => (0 <=? x) && (x <? 256)) m.
Lemma all_bytes_ok : forall m, all_bytes m = true -> Forall byte m.
Proof. intros m H. apply Forall_forall. intros x I. unfold all_bytes in H. rewrite forallb_forall in H. specialize (H x I). unfold byte. lia. Qed.
(** 192.168.1.7 to 224.0.0.251 port 5353, total length 32 *)
Definition ex_packet (ttl s1 s2 : Z) : list Z :=
  [69; 0; 0; 32; 0; 1; 0; 0; ttl; 17; s1; s2; 192; 168; 1; 7; 224; 0; 0; 251; 20; 233; 20; 233; 0; 12; 0; 0; 1; 2; 3; 4].
Lemma ex_whole : whole (ex_packet 255 1 2).
Proof. split; [apply all_bytes_ok; reflexivity|]. split; [reflexivity|]. split; [split; apply Nat.leb_le; reflexivity|apply Nat.leb_le; reflexivity]. Qed.
Definition ex_up (k : Z) : iface := mkIface k (k + 100) (k + 200) true.
Definition ex_down (k : Z) : iface := mkIface k (k + 100) (k + 200) false.
(** fe80::1 to ff02::fb *)
Definition ex_packet6 : list Z :=
  [96; 0; 0; 0; 0; 12; 17; 255; 254; 128; 0; 0; 0; 0; 0; 0; 0; 0; 0; 0; 0; 0; 0; 1; 255; 2; 0; 0; 0; 0; 0; 0; 0; 0; 0; 0; 0; 0; 0; 251; 20; 233; 20; 233; 0; 12; 0; 0; 1; 2; 3; 4].

(** a packet from a message is sent on each interface up to the first that is not active, with
    time to live 1 and a right checksum, and else as it is *)
Theorem C137_unpacked_partial : forall check m ifs stripped, whole m -> ifs <> [] ->
  exists m1, unpack check ifs m stripped = Done (map (fun i => (if_capture i, firstn (total m) m1)) (upto ifs), m1) /\
    copy_of check m (firstn (total m) m1) /\ length m1 = length m /\ (forall i, ~ volatile i -> nth_error m1 i = nth_error m i).
Proof. exact unpack_ok. Qed.
Print Assumptions C137_unpacked_partial.
Example C137_unpacked_ex : whole (ex_packet 255 1 2) /\
  unpack true [ex_up 5; ex_up 6; ex_down 7; ex_up 8] (ex_packet 255 1 2) 0 = Done ([(5, ex_packet 1 23 34); (6, ex_packet 1 23 34)], ex_packet 1 23 34).
Proof. split; [exact ex_whole|vm_compute; reflexivity]. Qed.

(** messages of this node, and those that are not from a symmetric neighbor, are dropped *)
Theorem C137_dropped : forall c sym ifs m, ((if c_v6 c then 24 else 12) <= length m)%nat -> firstn (if c_v6 c then 16 else 4) (skipn 4 m) = c_main c \/ sym = false ->
  mdns_parse c sym ifs m = Done ([], m, false).
Proof.
  intros c sym ifs m L H. unfold mdns_parse. replace (Z.of_nat (length m) <? Z.of_nat (if c_v6 c then 24 else 12)) with false by lia.
  destruct (memsame (firstn (if c_v6 c then 16 else 4) (skipn 4 m)) (c_main c)) eqn:E; [reflexivity|]. destruct H as [H| ->]; [|reflexivity]. apply memsame_ok in H. congruence.
Qed.
Print Assumptions C137_dropped.
Example C137_dropped_ex : mdns_parse (mkMconf 0 true [] false [10; 0; 0; 1]) true [ex_up 5] ([132; 0; 0; 44; 10; 0; 0; 1; 255; 0; 0; 1] ++ ex_packet 255 1 2) =
  Done ([], [132; 0; 0; 44; 10; 0; 0; 1; 255; 0; 0; 1] ++ ex_packet 255 1 2, false).
Proof. vm_compute. reflexivity. Qed.

(** false of active interfaces after one that is not: they get nothing *)
Theorem C137_master_refuted : exists m ifs i, whole m /\ In i ifs /\ if_active i = true /\ exists m', unpack true ifs m 0 = Done ([], m').
Proof. exists (ex_packet 255 1 2), [ex_down 5; ex_up 6], (ex_up 6). split; [exact ex_whole|]. split; [right; now left|]. split; [reflexivity|]. eexists. vm_compute. reflexivity. Qed.
Print Assumptions C137_master_refuted.
(** false of IPv6: the source address is changed *)
Theorem C137_source_refuted : exists m m', Forall byte m /\ nth 0 m 0 / 16 = 6 /\ unpack true [ex_up 5] m 0 = Done ([(5, m')], m') /\
  length m' = length m /\ firstn 16 (skipn 8 m) = [254; 128; 0; 0; 0; 0; 0; 0; 0; 0; 0; 0; 0; 0; 0; 1] /\ firstn 16 (skipn 8 m') = [254; 128; 255; 255; 0; 0; 0; 0; 0; 0; 0; 0; 0; 0; 0; 1].
Proof. exists ex_packet6. eexists. split; [apply all_bytes_ok; reflexivity|]. split; [reflexivity|]. split; [vm_compute; reflexivity|]. repeat split; reflexivity. Qed.
Print Assumptions C137_source_refuted.
(** false of a total length that is more than the message: what follows it in memory is sent *)
Theorem C137_beyond_refuted : exists c msg after p m', length msg = 32%nat /\ nth 2 msg 0 * 256 + nth 3 msg 0 = 32 /\
  mdns_parse c true [ex_up 5] (msg ++ after) = Done ([(5, p)], m', true) /\ skipn 20 p = after /\ after <> [].
Proof.
  exists (mkMconf 0 true [] false [10; 0; 0; 1]), ([132; 0; 0; 32; 10; 0; 0; 2; 255; 0; 0; 1] ++ [69; 0; 0; 28; 0; 1; 0; 0; 255; 17; 0; 0; 192; 168; 1; 7; 224; 0; 0; 251]), [11; 12; 13; 14; 15; 16; 17; 18].
  eexists. eexists. split; [reflexivity|]. split; [reflexivity|]. split; [vm_compute; reflexivity|]. split; [reflexivity|discriminate].
Qed.
Print Assumptions C137_beyond_refuted.
(** false of a message without a packet: in the message that follows it the sequence number is
    changed, before it is looked at *)
Theorem C137_next_refuted : exists c msg next next', length msg = 12%nat /\ nth 2 msg 0 * 256 + nth 3 msg 0 = 12 /\
  mdns_parse c true [ex_up 5] (msg ++ next) = Done ([], msg ++ next', true) /\ firstn 2 (skipn 10 next) = [0; 77] /\ firstn 2 (skipn 10 next') = [254; 237].
Proof.
  exists (mkMconf 0 true [] false [10; 0; 0; 1]), [132; 0; 0; 12; 10; 0; 0; 2; 255; 0; 0; 1], [1; 2; 0; 16; 10; 0; 0; 3; 255; 0; 0; 77; 0; 0; 0; 0].
  eexists. split; [reflexivity|]. split; [reflexivity|]. split; [vm_compute; reflexivity|]. split; reflexivity.
Qed.
Print Assumptions C137_next_refuted.

(** a captured packet goes into a message exactly if this node is master there and it is one of
    multicast DNS that may be passed on *)
Theorem C138_captured_partial : forall c ifs fd vtime seqno taken old junk stack data, c_v6 c = false -> length (c_main c) = 4%nat -> 0 <= c_ttl c < 256 -> Z.of_nat (length stack) = 10240 ->
  whole data -> (ihl data + 8 <= total data)%nat -> (length data <= 2040)%nat ->
  (taken = true /\ master_on fd ifs /\ mdns4 data /\ allowed c data -> exists msg, do_mdns c ifs fd vtime seqno taken old junk stack data = Done (Some msg) /\ message c vtime seqno data msg) /\
  (~ (taken = true /\ master_on fd ifs /\ mdns4 data /\ allowed c data) -> do_mdns c ifs fd vtime seqno taken old junk stack data = Done None).
Proof. exact capture_ok. Qed.
Print Assumptions C138_captured_partial.
Definition ex_c (hosts : list (list Z)) : mconf := mkMconf 0 true hosts false [10; 0; 0; 1].
Definition ex_old : list Z := repeat 0 2048.
Definition ex_stack (x : Z) : list Z := repeat x (Z.to_nat 10240).
Example C138_captured_ex : mdns4 (ex_packet 255 1 2) /\ allowed (ex_c []) (ex_packet 255 1 2) /\ master_on 5 [ex_up 5; ex_down 6] /\ (ihl (ex_packet 255 1 2) + 8 <= total (ex_packet 255 1 2))%nat /\
  do_mdns (ex_c []) [ex_up 5; ex_down 6] 5 0 513 true ex_old [] (ex_stack 9) (ex_packet 255 1 2) = Done (Some ([132; 0; 0; 44; 10; 0; 0; 1; 255; 0; 2; 1] ++ ex_packet 255 1 2)) /\
  do_mdns (ex_c []) [ex_up 5; ex_down 6] 6 0 513 true ex_old [] (ex_stack 9) (ex_packet 255 1 2) = Done None /\
  do_mdns (ex_c []) [ex_up 5; ex_down 6] 5 0 513 true ex_old [] (ex_stack 9) (ex_packet 1 1 2) = Done None /\
  do_mdns (ex_c [[192; 168; 1; 7]]) [ex_up 5; ex_down 6] 5 0 513 true ex_old [] (ex_stack 9) (ex_packet 255 1 2) = Done None.
Proof.
  split; [repeat split; vm_compute; congruence|]. split; [split; [intros _; vm_compute; congruence|intros h []]|]. split; [intros i [<-|[<-|[]]] E; [reflexivity|discriminate E]|].
  split; [apply Nat.leb_le; vm_compute; reflexivity|]. repeat split; vm_compute; reflexivity.
Qed.

(** from one network to another: what is captured at one router is sent by the others *)
Theorem C138_through_partial : forall c c' ifs fd vtime seqno old junk stack data msg after ifs',
  c_v6 c = false -> c_v6 c' = false -> length (c_main c) = 4%nat -> c_main c <> c_main c' -> 0 <= c_ttl c < 256 -> Z.of_nat (length stack) = 10240 ->
  whole data -> (ihl data + 8 <= total data)%nat -> (length data <= 2040)%nat ->
  do_mdns c ifs fd vtime seqno true old junk stack data = Done (Some msg) -> ifs' <> [] -> Forall byte after ->
  exists p m', mdns_parse c' true ifs' (msg ++ after) = Done (map (fun i => (if_capture i, p)) (upto ifs'), m', true) /\ copy_of (c_check c') data p /\ length m' = length (msg ++ after).
Proof.
  intros c c' ifs fd vtime seqno old junk stack data msg after ifs' V V' M Ne T Ls W U Ld E Ni Fa.
  destruct (capture_ok c ifs fd vtime seqno true old junk stack data V M T Ls W U Ld) as (A & B).
  assert (D : (true = true /\ master_on fd ifs /\ mdns4 data /\ allowed c data) \/ ~ (true = true /\ master_on fd ifs /\ mdns4 data /\ allowed c data)).
  { destruct (wanted_ok c junk data [] V W U) as (b & _ & Bw). destruct b.
    - destruct (existsb (fun i => (fd =? if_capture i) && negb (if_active i)) ifs) eqn:X.
      + right. intros (_ & Ma & _). apply existsb_exists in X. destruct X as (i & I & Q). apply andb_true_iff in Q. destruct Q as (Q1 & Q2). apply Z.eqb_eq in Q1. rewrite (Ma i I) in Q2 by auto. discriminate.
      + left. split; [reflexivity|]. split; [|now apply Bw]. intros i I Q. destruct (if_active i) eqn:Ai; [reflexivity|]. assert (Y : existsb (fun i => (fd =? if_capture i) && negb (if_active i)) ifs = true) by (apply existsb_exists; exists i; rewrite Ai, Q, Z.eqb_refl; auto). congruence.
    - right. intros (_ & _ & H). apply Bw in H. discriminate. }
  destruct D as [D|D]; [|rewrite (B D) in E; discriminate]. destruct (A D) as (msg' & E' & Me). rewrite E in E'. inversion E'; subst msg'. exact (through c c' vtime seqno data msg after ifs' V' M Ne Ni W Me Fa).
Qed.
Print Assumptions C138_through_partial.
Example C138_through_ex : mdns_parse (mkMconf 0 true [] false [10; 0; 0; 2]) true [ex_up 8] ([132; 0; 0; 44; 10; 0; 0; 1; 255; 0; 2; 1] ++ ex_packet 255 1 2 ++ [7; 7]) =
  Done ([(8, ex_packet 1 23 34)], [132; 0; 0; 44; 10; 0; 0; 1; 255; 0; 2; 1] ++ ex_packet 1 23 34 ++ [7; 7], true).
Proof. vm_compute. reflexivity. Qed.

(** false of a packet of 20 bytes: the port is taken from what was in the buffer before *)
Theorem C138_stale_refuted : exists data old old' msg, whole data /\ length old = 2048%nat /\ length old' = 2048%nat /\
  do_mdns (ex_c []) [ex_up 5] 5 0 513 true old [] (ex_stack 9) data = Done (Some msg) /\ do_mdns (ex_c []) [ex_up 5] 5 0 513 true old' [] (ex_stack 9) data = Done None.
Proof.
  exists [69; 0; 0; 20; 0; 1; 0; 0; 255; 17; 0; 0; 192; 168; 1; 7; 224; 0; 0; 251], (firstn 30 ex_old ++ [20; 233] ++ skipn 32 ex_old), ex_old. eexists.
  split; [split; [apply all_bytes_ok; reflexivity|]; split; [reflexivity|]; split; [split; apply Nat.leb_le; reflexivity|apply Nat.leb_le; reflexivity]|]. split; [reflexivity|]. split; [reflexivity|].
  split; vm_compute; reflexivity.
Qed.
Print Assumptions C138_stale_refuted.
(** a frame of more than 2040 bytes is written past the end of the buffer *)
Theorem C138_overflow_refuted : exists data, length data = 2041%nat /\ do_mdns (ex_c []) [ex_up 5] 5 0 513 true ex_old [] (ex_stack 9) data = Outside.
Proof. exists (repeat 0 2041). split; [reflexivity|]. vm_compute. reflexivity. Qed.
Print Assumptions C138_overflow_refuted.
(** with IPv6 each message ends with 84 bytes of the stack *)
Theorem C138_stack_refuted : exists c msg, c_v6 c = true /\ length (c_main c) = 16%nat /\
  do_mdns c [ex_up 5] 5 0 513 true ex_old (repeat 0 16) (ex_stack 42) ex_packet6 = Done (Some msg) /\ skipn (24 + length ex_packet6) msg = repeat 42 84.
Proof.
  exists (mkMconf 0 true [] true [254; 128; 0; 0; 0; 0; 0; 0; 0; 0; 0; 0; 0; 0; 0; 2]). eexists. split; [reflexivity|]. split; [reflexivity|]. split; [vm_compute; reflexivity|]. vm_compute. reflexivity.
Qed.
Print Assumptions C138_stack_refuted.
(** and the filter looks at a variable that was never set: a filtered host is passed on *)
Theorem C138_filter_refuted : exists c junk msg, c_v6 c = true /\ c_hosts c = [firstn 16 (skipn 8 ex_packet6)] /\ do_mdns c [ex_up 5] 5 0 513 true ex_old junk (ex_stack 42) ex_packet6 = Done (Some msg).
Proof.
  exists (mkMconf 0 true [firstn 16 (skipn 8 ex_packet6)] true [254; 128; 0; 0; 0; 0; 0; 0; 0; 0; 0; 0; 0; 0; 0; 2]), (repeat 0 16). eexists. split; [reflexivity|]. split; [reflexivity|]. vm_compute. reflexivity.
Qed.
Print Assumptions C138_filter_refuted.

(** Reception of position updates: the list of the messages seen, and the unpacking of the
    datagrams of the downlink. *)
From Verif Require Import Base PudRx PudRxSpec PudRxProofs.

(** * C150 *)
Theorem C150_seen : forall avail N ks, 1 <= N -> N * 20 < 2 ^ 64 -> N * 20 <= avail ->
  exists d0 d, init_dedup avail N = Some d0 /\ adds d0 ks = Some d /\
    forall k, exists b, in_dedup d k = Some b /\ (b = true <-> In k (firstn (Z.to_nat N) (rev ks))).
Proof. exact seen_ok. Qed.
Print Assumptions C150_seen.
Definition ke (n : Z) : key := ([0; n], [10; 0; 0; 1]).
Example C150_seen_ex : exists d0 d, init_dedup 1000 2 = Some d0 /\ adds d0 [ke 1; ke 2; ke 3] = Some d /\
  in_dedup d (ke 1) = Some false /\ in_dedup d (ke 2) = Some true /\ in_dedup d (ke 3) = Some true.
Proof. eexists _, _. split; [reflexivity|]. split; [reflexivity|]. split; [reflexivity|]. split; reflexivity. Qed.

Theorem C150_relay : forall c avail N d ms, c_dedup c = true -> 1 <= N -> N * 20 < 2 ^ 64 -> N * 20 <= avail ->
  init_dedup avail N = Some d -> Forall (whole (c_v6 c)) ms ->
  exists fs, received_all c d ms = Some fs /\
    relays (c_v6 c) (if c_loop c then None else Some (c_main c)) (Z.to_nat N) [] ms fs.
Proof. exact relay_ok. Qed.
Print Assumptions C150_relay.
(** an update with a sequence number, an originator and a version *)
Definition upd (s o v : Z) : list Z := [171; 0; 0; 33; 10; 0; 0; o; 1; 0; 0; s; v] ++ repeat 7 20.
Definition cf : conf := {| c_v6 := false; c_main := [10; 0; 0; 9]; c_loop := false; c_dedup := true; c_sgw := true |}.
Example C150_relay_ex : exists d, init_dedup 1000 4 = Some d /\
  received_all cf d [upd 1 1 3; upd 1 1 3; upd 1 2 3; upd 5 9 3; upd 2 1 2; upd 3 1 3; upd 1 1 3] =
  Some [true; false; true; false; false; true; false].
Proof. eexists. split; [reflexivity|vm_compute; reflexivity]. Qed.

Theorem C150_once : forall c avail N d ms fs, c_dedup c = true -> 1 <= N -> N * 20 < 2 ^ 64 -> N * 20 <= avail ->
  init_dedup avail N = Some d -> Forall (whole (c_v6 c)) ms -> received_all c d ms = Some fs ->
  forall i j m m', (i < j)%nat -> nth_error ms i = Some m -> nth_error ms j = Some m' -> ident (c_v6 c) m = ident (c_v6 c) m' ->
  nth_error fs i = Some true -> nth_error fs j = Some true -> N < Z.of_nat (j - i).
Proof.
  intros c avail N d ms fs CD N1 N2 A E F R i j m m' L MI MJ K FI FJ. destruct (relay_ok c avail N d ms CD N1 N2 A E F) as [fs' [R' RR]].
  rewrite R in R'. apply Some_inj in R'. subst fs'. pose proof (relays_once _ _ _ _ _ _ RR i j m m' L MI MJ K FI FJ). lia.
Qed.
Print Assumptions C150_once.
(** the hypotheses are met by a message that comes again after two others, with room for one *)
Example C150_once_ex : exists d, init_dedup 1000 1 = Some d /\
  received_all cf d [upd 1 1 3; upd 2 1 3; upd 1 1 3] = Some [true; true; true] /\ Forall (whole false) [upd 1 1 3; upd 2 1 3; upd 1 1 3].
Proof. eexists. split; [reflexivity|]. split; [vm_compute; reflexivity|]. unfold whole. repeat constructor. Qed.

(** a message that was relayed is relayed again when it comes back after a few others *)
Theorem C150_again_refuted : exists c avail N d ms fs i j m, c_dedup c = true /\ 1 <= N /\ N * 20 <= avail /\ init_dedup avail N = Some d /\
  Forall (whole (c_v6 c)) ms /\ received_all c d ms = Some fs /\ (i < j)%nat /\ nth_error ms i = Some m /\ nth_error ms j = Some m /\
  nth_error fs i = Some true /\ nth_error fs j = Some true.
Proof.
  destruct C150_once_ex as [d [D [R F]]]. exists cf, 1000, 1, d, [upd 1 1 3; upd 2 1 3; upd 1 1 3], [true; true; true], 0%nat, 2%nat, (upd 1 1 3).
  split; [reflexivity|]. split; [lia|]. split; [lia|]. split; [exact D|]. split; [exact F|]. split; [exact R|]. split; [lia|].
  split; [reflexivity|]. split; [reflexivity|]. split; reflexivity.
Qed.
Print Assumptions C150_again_refuted.
(** a depth that is accepted makes a list without room: the first message is written outside *)
Theorem C150_depth_refuted : exists N d, 1 <= N < 2 ^ 64 /\ (forall avail, 0 <= avail -> init_dedup avail N = Some d) /\ forall k, add_dedup d k = None.
Proof.
  exists (2 ^ 62). eexists. split; [lia|]. split.
  - intros avail A. unfold init_dedup. change (2 ^ 62 <? 1) with false. change (u64 (2 ^ 62 * ENTRY)) with 0.
    replace (0 >? avail) with false by lia. reflexivity.
  - intros k. unfold add_dedup. cbn [d_ents d_max d_newest]. change (0 / ENTRY) with 0. cbn [Z.to_nat repeat].
    change (u64 (u64 (0 + 2 ^ 62) - 1) mod 2 ^ 62) with (2 ^ 62 - 1). reflexivity.
Qed.
Print Assumptions C150_depth_refuted.
(** a message that is shorter than the fixed part is read beyond its end *)
Theorem C150_short_refuted : exists c d m, init_dedup 1000 4 = Some d /\ length m = 13%nat /\ received c d m 0 = None.
Proof. exists cf. eexists. exists [171; 0; 0; 13; 10; 0; 0; 1; 1; 0; 0; 1; 3]. split; [reflexivity|]. split; [reflexivity|]. vm_compute. reflexivity. Qed.
Print Assumptions C150_short_refuted.

(** * C151 *)
Theorem C151_unpack_partial : forall c ps rest, Z.of_nat (length (datagram ps)) <= 2047 ->
  exists ev, downlink (S (length ps)) c (datagram ps ++ rest) (Z.of_nat (length (datagram ps))) 0 = Some (ev, Finished) /\
    evs (c_sgw c) (datagram ps ++ rest) (filter (meant (c_v6 c)) ps) ev.
Proof. exact unpack_ok. Qed.
Print Assumptions C151_unpack_partial.
Example C151_unpack_ex :
  downlink 4 cf (datagram [{| p_type := 0; p_flags := 0; p_body := upd 1 1 3 |}; {| p_type := 5; p_flags := 0; p_body := [1; 2] |};
    {| p_type := 0; p_flags := 0; p_body := upd 2 1 3 |}] ++ [0; 0]) 80 0 = Some ([EOlsr 4 33; ELan 4; EOlsr 47 33; ELan 47], Finished).
Proof. vm_compute. reflexivity. Qed.

(** four bytes keep the daemon in the loop for ever *)
Theorem C151_endless_refuted : forall c rest n, downlink n c ([1; 255; 252; 0] ++ rest) 4 0 = None.
Proof. intros c rest n. exact (endless c rest n). Qed.
Print Assumptions C151_endless_refuted.
Example C151_endless_ex : downlink 1000 cf ([1; 255; 252; 0] ++ repeat 0 2044) 4 0 = None.
Proof. vm_compute. reflexivity. Qed.

(** a byte left over at the end of a full datagram: the length is read outside of the buffer *)
Theorem C151_outside_refuted : exists c mem count, Z.of_nat (length mem) = RXBUF /\ count < RXBUF /\
  exists n ev, downlink n c mem count 0 = Some (ev, Outside).
Proof.
  exists cf, (datagram [{| p_type := 1; p_flags := 0; p_body := repeat 0 2042 |}] ++ [0; 0]), 2047. split; [vm_compute; reflexivity|].
  split; [reflexivity|]. exists 3%nat, []. vm_compute. reflexivity.
Qed.
Print Assumptions C151_outside_refuted.
(** what happens depends on bytes that were not received *)
Theorem C151_stale_refuted : exists c d rest rest' n, length rest = length rest' /\
  downlink n c (d ++ rest) (Z.of_nat (length d)) 0 <> None /\ forall k, downlink k c (d ++ rest') (Z.of_nat (length d)) 0 = None.
Proof.
  exists cf, [1; 255], ([0] ++ repeat 0 2045), ([252] ++ repeat 0 2045), 2%nat. split; [reflexivity|].
  split; [vm_compute; discriminate|]. induction k as [|k IH]; [reflexivity|]. cbn [downlink]. cbn [length].
  set (mem := [1; 255] ++ [252] ++ repeat 0 2045) in *. change (0 <? Z.of_nat 2) with true.
  assert (R0 : rd mem 0 = Some 1) by (vm_compute; reflexivity). assert (R1 : rd mem (0 + 1) = Some 255) by (vm_compute; reflexivity).
  assert (R2 : rd mem (0 + 2) = Some 252) by (vm_compute; reflexivity). rewrite R0, R1, R2.
  change (w16 (255 * 256 + 252 + 4)) with 0. change (0 + 0 >? Z.of_nat 2) with false. change (negb (1 =? 0)) with true. exact IH.
Qed.
Print Assumptions C151_stale_refuted.
(** whatever bytes are sent to the port of the downlink of a gateway go to the OLSR network:
    that they are a position update, or a message at all, is not looked at *)
Theorem C151_contents_refuted : forall c body rest, c_sgw c = true -> c_v6 c = false -> Z.of_nat (length body) <= 2043 ->
  exists ev, downlink 2 c (datagram [{| p_type := 0; p_flags := 0; p_body := body |}] ++ rest) (4 + Z.of_nat (length body)) 0 = Some (ev, Finished) /\
    exists off, In (EOlsr off (Z.of_nat (length body))) ev /\ covers (datagram [{| p_type := 0; p_flags := 0; p_body := body |}] ++ rest) off body.
Proof.
  intros c body rest G V L. set (p := {| p_type := 0; p_flags := 0; p_body := body |}).
  assert (DL : Z.of_nat (length (datagram [p])) = 4 + Z.of_nat (length body)).
  { unfold datagram. cbn [map concat]. rewrite app_nil_r, pack_len. cbn [p_body p]. lia. }
  destruct (unpack_ok c [p] rest) as [ev [E W]]; [rewrite DL; lia|]. rewrite DL in E. exists ev. split; [exact E|].
  rewrite G, V in W. cbn [filter] in W. change (meant false p) with true in W. cbn iota in W.
  inversion W as [|p' ps' ev' off CV W']. subst. exists off. split; [left; reflexivity|exact CV].
Qed.
Print Assumptions C151_contents_refuted.
(** for example a HELLO message in the name of another node *)
Example C151_contents_ex : downlink 2 cf (datagram [{| p_type := 0; p_flags := 0; p_body := [1; 0; 0; 16; 10; 0; 0; 77; 1; 0; 0; 1; 0; 0; 5; 3] |}]) 20 0 =
  Some ([EOlsr 4 16; ELan 4], Finished).
Proof. vm_compute. reflexivity. Qed.
(** a short message at the end of a full datagram is read beyond the buffer *)
Theorem C151_short_refuted : exists c d mem ev off, Z.of_nat (length mem) = RXBUF /\ init_dedup 1000 4 = Some d /\
  downlink 3 c mem 2047 0 = Some (ev, Finished) /\ In (ELan off) ev /\ received c d mem off = None.
Proof.
  exists cf. eexists. exists (datagram [{| p_type := 1; p_flags := 0; p_body := repeat 0 2038 |}; {| p_type := 0; p_flags := 0; p_body := [171] |}] ++ [0]).
  exists [EOlsr 2046 1; ELan 2046], 2046. split; [vm_compute; reflexivity|]. split; [reflexivity|]. split; [vm_compute; reflexivity|].
  split; [right; left; reflexivity|]. vm_compute. reflexivity.
Qed.
Print Assumptions C151_short_refuted.

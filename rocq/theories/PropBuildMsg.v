(** Properties of the building of outgoing messages: C32, C83. *)
From Verif Require Import Base Bytes NetBuf NetBufSpec NetBufProofs Parser Hello HelloSpec HelloProofs Tc TcSpec BuildMsg BuildMsgSpec BuildMsgProofs BuildMsgTcProofs BuildMsgHelloProofs BuildMsgLqProofs BuildMsgLqTcProofs BuildMsgOrderProofs.
From Coq Require Import Permutation.

(** A fresh output buffer for packets of [mtu] bytes, optionally with something waiting in it. *)
Definition ex_state (mtu : Z) : bst := mkS (net_add_buffer mtu (nb_zero 7)) (repeat 9 1500) 65535 [].
Definition ex_filled (mtu n : Z) : bst :=
  match nbrun [] (net_add_buffer mtu (nb_zero 7)) [OPush (repeat 1 (Z.to_nat n))] with
  | Some (b, _) => mkS b (repeat 9 1500) 65535 []
  | None => ex_state mtu
  end.
Definition run {A} (m : M A) (s : bst) : option (list bev * option A * Z) := match m s with Some (s', a) => Some (s_log s', a, s_seq s') | None => None end.
Lemma ready_state cap mtu : 4 <= mtu < 65536 -> cap <= mtu - 4 -> ready cap (ex_state mtu).
Proof.
  intros M C. split; [|split; [exact C|split; [reflexivity|cbn; lia]]].
  exists mtu, 7, [], []. split; [lia|]. split; [lia|]. split; [constructor|]. split; [reflexivity|]. unfold ex_state, net_add_buffer, HDR. cbn [s_nb nb_pend nb_max]. lia.
Qed.

(** TC messages: whatever waits in the output buffer, the messages that are queued are
    well formed TC messages with consecutive numbers, their addresses in sequence are
    the addresses to be advertised, no message with none of them unless there are none,
    and none of the messages is refused by the output buffer ([delivers]). *)
Theorem C32_tc : forall v6 vt idle m s, blen (t_orig m) = ipsz v6 -> 0 <= t_ansn m < 65536 -> addrs_ok v6 (t_addrs m) ->
  ready (12 + 2 * ipsz v6) s ->
  exists s' parts r, serialize_tc v6 vt idle m s = Some (s', Some r) /\ delivers s s' (numbered (tc_msg vt m) (s_seq s) parts) /\
    s_seq s' = plus_seq (s_seq s) (length parts) /\ concat parts = t_addrs m /\ ready (12 + 2 * ipsz v6) s' /\
    (t_addrs m <> [] -> Forall (fun p => p <> []) parts /\ r = true) /\
    (t_addrs m = [] -> parts = (if idle then [] else [[]]) /\ r = negb idle).
Proof.
  intros v6 vt idle m s Ho Ha Fa Rd. destruct (serialize_tc_M v6 vt m Ho Ha idle s) as (s' & parts & r & E & D & Q & C & K & X1 & X2); auto.
  { destruct Rd as (A & B & C). split; [exact A|]. split; [unfold BASE; lia|exact C]. }
  exists s', parts, r. split; [exact E|]. split; [exact D|]. split; [exact Q|]. split; [exact C|]. split; [|auto]. apply ok_ready; [exact K|]. rewrite (delivers_max _ _ _ D). apply Rd.
Qed.
Print Assumptions C32_tc.
Definition ex_tcm : tcm := mkTcm 0 255 [10; 0; 0; 1] 300 [[10; 0; 0; 2]; [10; 0; 0; 3]; [10; 0; 0; 4]].
Example C32_tc_ex : ready 20 (ex_state 29) /\ addrs_ok false (t_addrs ex_tcm) /\
  run (serialize_tc false 134 false ex_tcm) (ex_state 29) =
    Some ([EPush [2; 134; 0; 24; 10; 0; 0; 1; 255; 0; 255; 255; 1; 44; 0; 0; 10; 0; 0; 2; 10; 0; 0; 3] 24;
           EOut (Some [0; 28; 0; 7; 2; 134; 0; 24; 10; 0; 0; 1; 255; 0; 255; 255; 1; 44; 0; 0; 10; 0; 0; 2; 10; 0; 0; 3]);
           EPush [2; 134; 0; 20; 10; 0; 0; 1; 255; 0; 0; 0; 1; 44; 0; 0; 10; 0; 0; 4] 20], Some true, 1).
Proof. split; [apply ready_state; lia|]. split; [repeat constructor|]. vm_compute. reflexivity. Qed.

(** MID messages: the same for the interface addresses other than the main address,
    if there is one. *)
Theorem C32_mid_partial : forall v6 vt main ifs s, blen main = ipsz v6 -> addrs_ok v6 ifs -> Z.of_nat (length ifs) < 2000 ->
  ready (8 + 2 * ipsz v6) s -> (exists a, In a ifs /\ a <> main) ->
  exists s' parts, serialize_mid v6 vt main ifs s = Some (s', Some true) /\ delivers s s' (numbered (mid_msg vt main) (s_seq s) parts) /\
    s_seq s' = plus_seq (s_seq s) (length parts) /\ concat parts = filter (fun a => if list_eq_dec Z.eq_dec a main then false else true) ifs /\
    Forall (fun p => p <> []) parts /\ ready (8 + 2 * ipsz v6) s'.
Proof.
  intros v6 vt main ifs s Ho Fa Few Rd (a & Ia & Na).
  destruct (serialize_mid_M v6 vt main Ho ifs s) as (s' & parts & E & D & Q & C & K & N); auto.
  { destruct Rd as (A & B & C). split; [exact A|]. split; [unfold BASE; lia|exact C]. }
  { intros [-> | ->]; [destruct Ia|]. destruct Ia as [E|[]]. congruence. }
  assert (Eo : others main ifs = filter (fun a => if list_eq_dec Z.eq_dec a main then false else true) ifs).
  { unfold others. apply filter_ext. intros b. unfold bytes_eqb. destruct (list_eq_dec Z.eq_dec main b), (list_eq_dec Z.eq_dec b main); cbn; congruence. }
  rewrite <- Eo. exists s', parts. split; [exact E|]. split; [exact D|]. split; [|split; [exact C|split; [exact N|]]].
  - rewrite Q. destruct parts; [|reflexivity]. exfalso. cbn in C. assert (X : In a (others main ifs)); [|rewrite <- C in X; destruct X].
    apply filter_In. split; [exact Ia|]. unfold bytes_eqb. destruct (list_eq_dec Z.eq_dec main a); [congruence|reflexivity].
  - apply ok_ready; [exact K|]. rewrite (delivers_max _ _ _ D). apply Rd.
Qed.
Print Assumptions C32_mid_partial.
Example C32_mid_partial_ex : ready 16 (ex_state 22) /\
  run (serialize_mid false 134 [10; 0; 0; 1] [[10; 0; 0; 2]; [10; 0; 0; 1]; [10; 0; 0; 3]]) (ex_state 22) =
    Some ([EOut None; EPush [3; 134; 0; 16; 10; 0; 0; 1; 255; 0; 255; 255; 10; 0; 0; 2] 16;
           EOut (Some [0; 20; 0; 7; 3; 134; 0; 16; 10; 0; 0; 1; 255; 0; 255; 255; 10; 0; 0; 2]);
           EPush [3; 134; 0; 16; 10; 0; 0; 1; 255; 0; 0; 0; 10; 0; 0; 3] 16], Some true, 1).
Proof. split; [apply ready_state; lia|]. vm_compute. reflexivity. Qed.

(** Two interfaces with the main address: a number is used up, true is returned, and
    there is no message. *)
Theorem C32_mid_gap_refuted : exists vt main ifs s, blen main = 4 /\ addrs_ok false ifs /\ ready 1000 s /\
  exists s', serialize_mid false vt main ifs s = Some (s', Some true) /\ s_log s' = s_log s /\ waiting (s_nb s') = waiting (s_nb s) /\ s_seq s' = plus_seq (s_seq s) 1.
Proof.
  exists 134, [10; 0; 0; 1], [[10; 0; 0; 1]; [10; 0; 0; 1]], (ex_state 1500). split; [reflexivity|]. split; [repeat constructor|]. split; [apply ready_state; lia|].
  destruct (serialize_mid false 134 [10; 0; 0; 1] [[10; 0; 0; 1]; [10; 0; 0; 1]] (ex_state 1500)) as [[s' [[|]|]]|] eqn:E; try (vm_compute in E; discriminate).
  exists s'. split; [reflexivity|]. vm_compute in E. apply Some_inj in E. inversion E; subst. split; [reflexivity|]. split; [reflexivity|]. reflexivity.
Qed.
Print Assumptions C32_mid_gap_refuted.

(** HELLO messages with IPv4: the messages that are queued are well formed HELLO
    messages with consecutive numbers that advertise the neighbors grouped by
    neighbor and link type, all but those with hidden links. *)
Theorem C32_hello4 : forall vt ht will ttl main l s, blen main = 4 -> Forall (fun n => blen (n_addr n) = 16) l -> ready 24 s ->
  exists s' parts, serialize_hello false vt ht will ttl main l s = Some (s', Some true) /\ delivers s s' (numbered (hello_msg false vt ht will ttl main) (s_seq s) parts) /\
    s_seq s' = plus_seq (s_seq s) (length parts) /\ Forall (wf_block 4) (concat parts) /\ parts <> [] /\ ready 24 s' /\
    map hn_addr (said false (concat parts)) = map (fun n => firstn 4 (n_addr n)) (in_order n_status n_link [0; 1; 2; 3] l) /\
    (Forall (fun n => 0 <= n_status n <= 2 /\ 0 <= n_link n <= 3) l -> Permutation (in_order n_status n_link [0; 1; 2; 3] l) l).
Proof.
  intros vt ht will ttl main l s Ho Fa Rd. destruct (serialize_hello_M false vt ht will ttl main Ho l s) as (s' & parts & E & D & Q & K & S & W & N & _); auto; [discriminate|].
  exists s', parts. split; [exact E|]. split; [exact D|]. split; [exact Q|]. split; [exact W|]. split; [exact N|]. split; [apply ok_ready; [exact K|rewrite (delivers_max _ _ _ D); apply Rd]|].
  split; [rewrite S, hello4_order, map_map; reflexivity|]. apply order_perm_4.
Qed.
Print Assumptions C32_hello4.
Definition ex_nb (st lk x : Z) : hnb := mkHnb st lk ([10; 0; 0; x] ++ repeat 7 12).
Example C32_hello4_ex : ready 24 (ex_state 34) /\
  run (serialize_hello false 134 5 3 1 [10; 0; 0; 1] [ex_nb 1 2 2; ex_nb 0 1 3; ex_nb 1 4 4; ex_nb 1 2 5]) (ex_state 34) =
    Some ([EPush [1; 134; 0; 24; 10; 0; 0; 1; 1; 0; 255; 255; 0; 0; 5; 3; 1; 0; 0; 8; 10; 0; 0; 3] 24;
           EOut (Some [0; 28; 0; 7; 1; 134; 0; 24; 10; 0; 0; 1; 1; 0; 255; 255; 0; 0; 5; 3; 1; 0; 0; 8; 10; 0; 0; 3]);
           EPush [1; 134; 0; 28; 10; 0; 0; 1; 1; 0; 0; 0; 0; 0; 5; 3; 6; 0; 0; 12; 10; 0; 0; 2; 10; 0; 0; 5] 28], Some true, 1).
Proof. split; [apply ready_state; lia|]. vm_compute. reflexivity. Qed.

(** The same with IPv6, unless what waits in the output buffer leaves between 28 and 47
    bytes. *)
Theorem C32_hello6_partial : forall vt ht will ttl main l s, blen main = 16 -> Forall (fun n => blen (n_addr n) = 16) l -> ready 48 s ->
  (nb_max (s_nb s) - nb_pend (s_nb s) < 28 \/ 48 <= nb_max (s_nb s) - nb_pend (s_nb s)) ->
  exists s' parts, serialize_hello true vt ht will ttl main l s = Some (s', Some true) /\ delivers s s' (numbered (hello_msg false vt ht will ttl main) (s_seq s) parts) /\
    s_seq s' = plus_seq (s_seq s) (length parts) /\ Forall (wf_block 16) (concat parts) /\ parts <> [] /\ ready 48 s' /\
    map hn_addr (said false (concat parts)) = map n_addr (in_order n_status n_link [0; 1; 2; 3; 4] l) /\
    (Forall (fun n => 0 <= n_status n <= 2 /\ 0 <= n_link n <= 4) l -> Permutation (in_order n_status n_link [0; 1; 2; 3; 4] l) l).
Proof.
  intros vt ht will ttl main l s Ho Fa Rd Rm. destruct (serialize_hello_M true vt ht will ttl main Ho l s) as (s' & parts & E & D & Q & K & S & W & N & _); auto.
  { intros _. unfold room, cap_hello, BASE, ipsz. lia. }
  exists s', parts. split; [exact E|]. split; [exact D|]. split; [exact Q|]. split; [exact W|]. split; [exact N|]. split; [apply ok_ready; [exact K|rewrite (delivers_max _ _ _ D); apply Rd]|].
  split; [|apply order_perm_5]. rewrite S, hello6_order, map_map. apply map_ext_in. intros n In. cbn [hn_addr]. apply in_order_sub in In. rewrite Forall_forall in Fa. specialize (Fa n In). rewrite firstn_all2; [reflexivity|]. unfold blen in Fa. lia.
Qed.
Print Assumptions C32_hello6_partial.
Definition ex_nb6 (st lk x : Z) : hnb := mkHnb st lk (repeat 0 15 ++ [x]).
Example C32_hello6_partial_ex : ready 48 (ex_state 60) /\ nb_max (s_nb (ex_state 60)) - nb_pend (s_nb (ex_state 60)) = 56 /\
  match serialize_hello true 134 5 3 1 (repeat 0 15 ++ [1]) [ex_nb6 1 2 2; ex_nb6 0 1 3] (ex_state 60) with
  | Some (s', Some r) => r = true /\ s_seq s' = 1 /\ map (fun e => match e with EPush d _ => blen d | EOut (Some p) => blen p | EOut None => 0 end) (s_log s') = [48; 52; 48]
  | _ => False
  end.
Proof. split; [apply ready_state; lia|]. split; [reflexivity|]. vm_compute. repeat split. Qed.

(** IPv6: if what waits in the output buffer leaves between 28 and 47 bytes the process
    ends, though sending the packet first would make room (C32_hello6_partial applies to the
    state after that).  What waits there can be a message of another node that is to be
    forwarded. *)
Theorem C32_hello6_exit_refuted : exists vt ht will ttl main l s, blen main = 16 /\ Forall (fun n => blen (n_addr n) = 16) l /\ ready 1000 s /\
  (exists s', serialize_hello true vt ht will ttl main l s = Some (s', None)) /\
  exists s1 s', output s = Some (s1, Some tt) /\ serialize_hello true vt ht will ttl main l s1 = Some (s', Some true).
Proof.
  exists 134, 5, 3, 1, (repeat 0 15 ++ [1]), [], (ex_filled 1500 1460). split; [reflexivity|]. split; [constructor|]. split; [|split].
  - unfold ex_filled. destruct (nbrun [] (net_add_buffer 1500 (nb_zero 7)) [OPush (repeat 1 (Z.to_nat 1460))]) as [[b x]|] eqn:E; [|vm_compute in E; discriminate].
    assert (B : nb_max b = 1496 /\ nb_pend b = 1460) by (vm_compute in E; apply Some_inj in E; inversion E; subst; split; reflexivity).
    split; [|cbn [s_nb s_msg s_seq]; split; [lia|split; [reflexivity|lia]]].
    exists 1500, 7, [OPush (repeat 1 (Z.to_nat 1460))], x. split; [lia|]. split; [lia|]. split; [constructor; [exact Logic.I|constructor]|]. split; [exact E|]. cbn [s_nb]. lia.
  - destruct (serialize_hello true 134 5 3 1 (repeat 0 15 ++ [1]) [] (ex_filled 1500 1460)) as [[s' [r|]]|] eqn:E; try (vm_compute in E; discriminate). now exists s'.
  - destruct (output (ex_filled 1500 1460)) as [[s1 [[]|]]|] eqn:E1; try (vm_compute in E1; discriminate).
    destruct (serialize_hello true 134 5 3 1 (repeat 0 15 ++ [1]) [] s1) as [[s' [[|]|]]|] eqn:E; try (vm_compute in E1; apply Some_inj in E1; inversion E1; subst; vm_compute in E; discriminate).
    exists s1, s'. auto.
Qed.
Print Assumptions C32_hello6_exit_refuted.

(** HELLO messages with link quality: as C32_hello4, for both address families. *)
Theorem C32_lq_hello : forall v6 vt ht will main l s, blen main = ipsz v6 -> Forall (fun n => blen (l_addr n) = ipsz v6 /\ blen (l_lq n) = 4) l -> ready (20 + 2 * ipsz v6) s ->
  exists s' parts, serialize_lq_hello v6 vt ht will main l s = Some (s', Some tt) /\ delivers s s' (numbered (hello_msg true vt ht will 1 main) (s_seq s) parts) /\
    s_seq s' = plus_seq (s_seq s) (length parts) /\ Forall (wf_block (ipsz v6)) (concat parts) /\ parts <> [] /\ Forall (fun p => p <> []) (removelast parts) /\ ready (20 + 2 * ipsz v6) s' /\
    map (fun x => (hn_addr x, hn_lq x)) (said true (concat parts)) = map (fun n => (l_addr n, firstn 2 (l_lq n))) (in_order l_neigh l_link [0; 3; 1; 2] l) /\
    (Forall (fun n => 0 <= l_neigh n <= 2 /\ 0 <= l_link n <= 3) l -> Permutation (in_order l_neigh l_link [0; 3; 1; 2] l) l).
Proof.
  intros v6 vt ht will main l s Ho Fa Rd. destruct (serialize_lq_hello_M v6 vt ht will main Ho l s) as (s' & parts & E & D & Q & K & S & W & N & NE); auto.
  { destruct Rd as (A & B & C). split; [exact A|]. split; [unfold cap_lq, BASE; lia|exact C]. }
  exists s', parts. split; [exact E|]. split; [exact D|]. split; [exact Q|]. split; [exact W|]. split; [exact N|]. split; [exact NE|]. split; [apply ok_ready; [exact K|rewrite (delivers_max _ _ _ D); apply Rd]|].
  split; [rewrite S, lq_order, map_map; reflexivity|]. apply order_perm_lq.
Qed.
Print Assumptions C32_lq_hello.
Example C32_lq_hello_ex : ready 28 (ex_state 34) /\
  run (serialize_lq_hello false 134 5 3 [10; 0; 0; 1] [mkLqn 2 1 [10; 0; 0; 2] [1; 2; 0; 0]; mkLqn 1 0 [10; 0; 0; 3] [3; 4; 0; 0]]) (ex_state 34) =
    Some ([EPush [201; 134; 0; 28; 10; 0; 0; 1; 1; 0; 255; 255; 0; 0; 5; 3; 1; 0; 0; 12; 10; 0; 0; 3; 3; 4; 0; 0] 28;
           EOut (Some [0; 32; 0; 7; 201; 134; 0; 28; 10; 0; 0; 1; 1; 0; 255; 255; 0; 0; 5; 3; 1; 0; 0; 12; 10; 0; 0; 3; 3; 4; 0; 0]);
           EPush [201; 134; 0; 28; 10; 0; 0; 1; 1; 0; 0; 0; 0; 0; 5; 3; 6; 0; 0; 12; 10; 0; 0; 2; 1; 2; 0; 0] 28], Some tt, 1).
Proof. split; [apply ready_state; lia|]. vm_compute. reflexivity. Qed.

(** TC messages with link quality: the messages are the pieces into which an originator
    cuts its links (TcSpec.pieces: consecutive numbers, matching borders), so that C17_pieces_partial
    applies to them; nothing is lost or repeated. *)
Theorem C32_lq_tc : forall v6 vt orig ttl ansn l s, blen orig = ipsz v6 -> 0 <= ansn < 65536 -> Forall (fun x => blen (fst x) = ipsz v6 /\ blen (snd x) = 2) l ->
  ready (16 + 2 * ipsz v6) s ->
  exists s' frags, serialize_lq_tc v6 vt orig ttl ansn (map (fun x => (fst x, snd x ++ [0; 0])) l) s = Some (s', Some tt) /\
    delivers s s' (map enc_tc (pieces (calculate_border_flag (ipsz v6)) vt orig ttl 0 (s_seq s) ansn 255 frags)) /\
    s_seq s' = plus_seq (s_seq s) (length frags) /\ concat frags = l /\ frags <> [] /\ (l <> [] -> Forall (fun f => f <> []) frags) /\ (l = [] -> frags = [[]]) /\ ready (16 + 2 * ipsz v6) s'.
Proof.
  intros v6 vt orig ttl ansn l s Ho Ha Fa Rd. destruct (serialize_lq_tc_M v6 vt orig ttl ansn Ho Ha l s) as (s' & frags & E & D & Q & K & C & N & X1 & X2); auto.
  { destruct Rd as (A & B & C). split; [exact A|]. split; [unfold cap_lqtc, BASE; lia|exact C]. }
  exists s', frags. split; [exact E|]. split; [exact D|]. split; [exact Q|]. split; [exact C|]. split; [exact N|]. split; [exact X1|]. split; [exact X2|]. apply ok_ready; [exact K|rewrite (delivers_max _ _ _ D); apply Rd].
Qed.
Print Assumptions C32_lq_tc.
Example C32_lq_tc_ex : ready 24 (ex_state 40) /\
  run (serialize_lq_tc false 134 [10; 0; 0; 1] 255 300 (map (fun x => (fst x, snd x ++ [0; 0])) [([10; 0; 0; 2], [1; 2]); ([10; 0; 0; 3], [3; 4]); ([10; 0; 1; 0], [5; 6])])) (ex_state 40) =
    Some ([EPush [202; 134; 0; 32; 10; 0; 0; 1; 255; 0; 255; 255; 1; 44; 255; 9; 10; 0; 0; 2; 1; 2; 0; 0; 10; 0; 0; 3; 3; 4; 0; 0] 32;
           EOut (Some [0; 36; 0; 7; 202; 134; 0; 32; 10; 0; 0; 1; 255; 0; 255; 255; 1; 44; 255; 9; 10; 0; 0; 2; 1; 2; 0; 0; 10; 0; 0; 3; 3; 4; 0; 0]);
           EPush [202; 134; 0; 24; 10; 0; 0; 1; 255; 0; 0; 0; 1; 44; 9; 255; 10; 0; 1; 0; 5; 6; 0; 0] 24], Some tt, 1).
Proof. split; [apply ready_state; lia|]. vm_compute. reflexivity. Qed.

(** C83: what the HELLO messages say about each neighbor (link and neighbor type) is what
    is recorded about it; hidden links are not mentioned (IPv4). *)
Theorem C83_v4 : forall vt ht will ttl main l s, blen main = 4 -> Forall (fun n => blen (n_addr n) = 16) l -> ready 24 s ->
  exists s' parts, serialize_hello false vt ht will ttl main l s = Some (s', Some true) /\ delivers s s' (numbered (hello_msg false vt ht will ttl main) (s_seq s) parts) /\
    said false (concat parts) = map (fun n => mkHN (n_link n) (n_status n) (firstn 4 (n_addr n)) []) (in_order n_status n_link [0; 1; 2; 3] l).
Proof.
  intros vt ht will ttl main l s Ho Fa Rd. destruct (serialize_hello_M false vt ht will ttl main Ho l s) as (s' & parts & E & D & Q & K & S & W & N & _); auto; [discriminate|].
  exists s', parts. split; [exact E|]. split; [exact D|]. rewrite S. apply hello4_order.
Qed.
Print Assumptions C83_v4.
Example C83_v4_ex : ready 24 (ex_state 1500) /\
  run (serialize_hello false 134 5 3 1 [10; 0; 0; 1] [ex_nb 1 2 2; ex_nb 0 1 3; ex_nb 1 4 4; ex_nb 2 3 5]) (ex_state 1500) =
    Some ([EPush [1; 134; 0; 40; 10; 0; 0; 1; 1; 0; 255; 255; 0; 0; 5; 3; 1; 0; 0; 8; 10; 0; 0; 3; 6; 0; 0; 8; 10; 0; 0; 2; 11; 0; 0; 8; 10; 0; 0; 5] 40], Some true, 0).
Proof. split; [apply ready_state; lia|]. vm_compute. reflexivity. Qed.

(** The same with link quality. *)
Theorem C83_lq : forall v6 vt ht will main l s, blen main = ipsz v6 -> Forall (fun n => blen (l_addr n) = ipsz v6 /\ blen (l_lq n) = 4) l -> ready (20 + 2 * ipsz v6) s ->
  exists s' parts, serialize_lq_hello v6 vt ht will main l s = Some (s', Some tt) /\ delivers s s' (numbered (hello_msg true vt ht will 1 main) (s_seq s) parts) /\
    said true (concat parts) = map (fun n => mkHN (l_link n) (l_neigh n) (l_addr n) (firstn 2 (l_lq n))) (in_order l_neigh l_link [0; 3; 1; 2] l).
Proof.
  intros v6 vt ht will main l s Ho Fa Rd. destruct (serialize_lq_hello_M v6 vt ht will main Ho l s) as (s' & parts & E & D & Q & K & S & W & N & NE); auto.
  { destruct Rd as (A & B & C). split; [exact A|]. split; [unfold cap_lq, BASE; lia|exact C]. }
  exists s', parts. split; [exact E|]. split; [exact D|]. rewrite S. apply lq_order.
Qed.
Print Assumptions C83_lq.
Example C83_lq_ex : ready 28 (ex_state 1500) /\
  run (serialize_lq_hello false 134 5 3 [10; 0; 0; 1] [mkLqn 2 1 [10; 0; 0; 2] [1; 2; 0; 0]; mkLqn 3 0 [10; 0; 0; 3] [3; 4; 0; 0]; mkLqn 4 1 [10; 0; 0; 4] [3; 4; 0; 0]]) (ex_state 1500) =
    Some ([EPush [201; 134; 0; 40; 10; 0; 0; 1; 1; 0; 255; 255; 0; 0; 5; 3; 3; 0; 0; 12; 10; 0; 0; 3; 3; 4; 0; 0; 6; 0; 0; 12; 10; 0; 0; 2; 1; 2; 0; 0] 40], Some tt, 0).
Proof. split; [apply ready_state; lia|]. vm_compute. reflexivity. Qed.

(** IPv6: without hidden links. *)
Theorem C83_v6_partial : forall vt ht will ttl main l s, blen main = 16 -> Forall (fun n => blen (n_addr n) = 16 /\ n_link n <> 4) l -> ready 48 s ->
  (nb_max (s_nb s) - nb_pend (s_nb s) < 28 \/ 48 <= nb_max (s_nb s) - nb_pend (s_nb s)) ->
  exists s' parts, serialize_hello true vt ht will ttl main l s = Some (s', Some true) /\ delivers s s' (numbered (hello_msg false vt ht will ttl main) (s_seq s) parts) /\
    said false (concat parts) = map (fun n => mkHN (n_link n) (n_status n) (n_addr n) []) (in_order n_status n_link [0; 1; 2; 3] l).
Proof.
  intros vt ht will ttl main l s Ho Fa Rd Rm. assert (Fa16 : Forall (fun n => blen (n_addr n) = 16) l) by (eapply Forall_impl; [|exact Fa]; cbn; tauto).
  destruct (serialize_hello_M true vt ht will ttl main Ho l s) as (s' & parts & E & D & Q & K & S & W & N & _); auto.
  { intros _. unfold room, cap_hello, BASE, ipsz. lia. }
  exists s', parts. split; [exact E|]. split; [exact D|]. rewrite S. apply hello6_nohide; auto. eapply Forall_impl; [|exact Fa]; cbn; tauto.
Qed.
Print Assumptions C83_v6_partial.
Example C83_v6_partial_ex : ready 48 (ex_state 1500) /\ Forall (fun n => blen (n_addr n) = 16 /\ n_link n <> 4) [ex_nb6 1 2 2; ex_nb6 0 1 3] /\
  match serialize_hello true 134 5 3 1 (repeat 0 15 ++ [1]) [ex_nb6 1 2 2; ex_nb6 0 1 3] (ex_state 1500) with
  | Some (s', Some r) => map (fun e => match e with EPush d _ => (nth 28 d 0, nth 48 d 0, blen d) | _ => (0, 0, 0) end) (s_log s') = [(1, 6, 68)]
  | _ => False
  end.
Proof. split; [apply ready_state; lia|]. split; [repeat constructor; cbn; lia|]. vm_compute. reflexivity. Qed.

(** IPv6: a neighbor that is not symmetric, with a hidden link, is advertised as a
    symmetric neighbor. *)
Theorem C83_v6_refuted : exists vt ht will ttl main n s, blen main = 16 /\ blen (n_addr n) = 16 /\ ready 1000 s /\ n_link n = 4 /\ n_status n = 0 /\
  exists s', serialize_hello true vt ht will ttl main [n] s = Some (s', Some true) /\
    s_log s' = [EPush (hello_msg false vt ht will ttl main (s_seq s) [mkB 4 0 [mkE (n_addr n) [] []]]) 48] /\
    advertised false (mkB 4 0 [mkE (n_addr n) [] []]) = [mkHN 0 1 (n_addr n) []].
Proof.
  exists 134, 5, 3, 1, (repeat 0 15 ++ [1]), (ex_nb6 0 4 2), (ex_state 1500). split; [reflexivity|]. split; [reflexivity|]. split; [apply ready_state; lia|]. split; [reflexivity|]. split; [reflexivity|].
  destruct (serialize_hello true 134 5 3 1 (repeat 0 15 ++ [1]) [ex_nb6 0 4 2] (ex_state 1500)) as [[s' [[|]|]]|] eqn:E; try (vm_compute in E; discriminate).
  exists s'. split; [reflexivity|]. split; [|reflexivity]. vm_compute in E. apply Some_inj in E. inversion E; subst. vm_compute. reflexivity.
Qed.
Print Assumptions C83_v6_refuted.

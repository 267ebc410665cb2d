(** Node ids of the PUD plugin: from the parameter to the text of a receiver. *)
From Coq Require Import String.
From Verif Require Import Base Regex ConfScanSpec PudRx PudId PudIdSpec PudIdProofs.

(** * C152 *)
(** the bytes of a header and the fields for the examples *)
Definition h4 : list Z := [171; 134; 0; 0; 10; 0; 0; 1; 255; 0; 0; 1].
Definition f21 : list Z := [3; 16; 0; 0; 1; 2] ++ repeat 9 15.
Definition st (b : Z) : list Z := repeat b 1024.

(** ids that are one number are received as the number without needless zeros *)
Theorem C152_number : forall v6 hd fx mem host mac ip ty mn mx k t, number_type ty mn mx -> decimal t -> mn <= number 10 t <= mx ->
  (k + length t <= 1023)%nat -> header v6 hd -> fields fx -> length mem = 1024%nat ->
  exists bin, set_node_id host mac ip ty (repeat 48 k ++ t) = Bin bin /\
    exists p, compose v6 hd fx ty bin mem = Some p /\ id_string v6 (sent p) = Some (Text t).
Proof. exact number_ok. Qed.
Print Assumptions C152_number.
Example C152_number_ex : exists bin p, set_node_id [] [] [] 7 (str "00244660123") = Bin bin /\
  compose false h4 f21 7 bin (st 170) = Some p /\ id_string false (sent p) = Some (Text (str "244660123")).
Proof. eexists _, _. split; [vm_compute; reflexivity|]. split; [vm_compute; reflexivity|vm_compute; reflexivity]. Qed.

Theorem C152_mac : forall v6 hd fx mem host ip a b c d e f, Forall (fun b => 0 <= b < 256) [a; b; c; d; e; f] ->
  header v6 hd -> fields fx -> length mem = 1024%nat ->
  exists bin ta tb tc td te tf, set_node_id host [a; b; c; d; e; f] ip 0 [] = Bin bin /\
    (exists p, compose v6 hd fx 0 bin mem = Some p /\
      id_string v6 (sent p) = Some (Text (ta ++ 58 :: tb ++ 58 :: tc ++ 58 :: td ++ 58 :: te ++ 58 :: tf))) /\
    pair a ta /\ pair b tb /\ pair c tc /\ pair d td /\ pair e te /\ pair f tf.
Proof. exact mac_ok. Qed.
Print Assumptions C152_mac.
Example C152_mac_ex : exists bin p, set_node_id [] [0; 27; 33; 60; 157; 248] [] 0 [] = Bin bin /\
  compose false h4 f21 0 bin (st 170) = Some p /\ id_string false (sent p) = Some (Text (str "00:1b:21:3c:9d:f8")).
Proof. eexists _, _. split; [vm_compute; reflexivity|]. split; [vm_compute; reflexivity|vm_compute; reflexivity]. Qed.

Theorem C152_name : forall v6 hd fx mem host mac ip s, s <> [] -> (length s <= 900)%nat -> Forall name_char s ->
  header v6 hd -> fields fx -> length mem = 1024%nat ->
  exists bin, set_node_id host mac ip 3 s = Bin bin /\
    exists p, compose v6 hd fx 3 bin mem = Some p /\ id_string v6 (sent p) = Some (Text s).
Proof. exact name_ok. Qed.
Print Assumptions C152_name.
Example C152_name_ex : exists bin p, set_node_id [] [] [] 3 (str "node-7.example.org") = Bin bin /\
  compose false h4 f21 3 bin (st 170) = Some p /\ id_string false (sent p) = Some (Text (str "node-7.example.org")).
Proof. eexists _, _. split; [vm_compute; reflexivity|]. split; [vm_compute; reflexivity|vm_compute; reflexivity]. Qed.

(** a UUID whose halves do not begin with a zero; missing: the others *)
Theorem C152_uuid_partial : forall v6 hd fx mem host mac ip a b, length a = 16%nat -> hd_error a <> Some 48 -> Forall hexdigit a ->
  b <> [] -> (length b <= 16)%nat -> (hd_error b = Some 48 -> b = [48]) -> Forall hexdigit b ->
  header v6 hd -> fields fx -> length mem = 1024%nat ->
  exists bin, set_node_id host mac ip 5 (a ++ b) = Bin bin /\
    exists p, compose v6 hd fx 5 bin mem = Some p /\ id_string v6 (sent p) = Some (Text (map lower (a ++ b))).
Proof. exact uuid_ok. Qed.
Print Assumptions C152_uuid_partial.
Example C152_uuid_ex : exists bin p, set_node_id [] [] [] 5 (str "F81D4FAE7DEC11D0A76500A0C91E6BF6") = Bin bin /\
  compose false h4 f21 5 bin (st 170) = Some p /\ id_string false (sent p) = Some (Text (str "f81d4fae7dec11d0a76500a0c91e6bf6")).
Proof. eexists _, _. split; [vm_compute; reflexivity|]. split; [vm_compute; reflexivity|vm_compute; reflexivity]. Qed.

(** a MIP OID whose second digit is not a zero; missing: the others *)
Theorem C152_mip_partial : forall v6 hd fx mem host mac ip c b, digit c -> decimal b -> number 10 b <= 9999999999999999999 -> (length b <= 64)%nat ->
  header v6 hd -> fields fx -> length mem = 1024%nat ->
  exists bin, set_node_id host mac ip 9 (c :: b) = Bin bin /\
    exists p, compose v6 hd fx 9 bin mem = Some p /\ id_string v6 (sent p) = Some (Text (c :: b)).
Proof. exact mip_ok. Qed.
Print Assumptions C152_mip_partial.
Example C152_mip_ex : exists bin p, set_node_id [] [] [] 9 (str "12345678901234567890") = Bin bin /\
  compose false h4 f21 9 bin (st 170) = Some p /\ id_string false (sent p) = Some (Text (str "12345678901234567890")).
Proof. eexists _, _. split; [vm_compute; reflexivity|]. split; [vm_compute; reflexivity|vm_compute; reflexivity]. Qed.

Lemma digit_all l : forallb (fun c => (48 <=? c) && (c <=? 57)) l = true -> Forall digit l.
Proof. intros H. apply Forall_forall. intros x I. rewrite forallb_forall in H. specialize (H x I). unfold digit. lia. Qed.
Lemma hex_all l : forallb (fun c => ((48 <=? c) && (c <=? 57)) || ((97 <=? c) && (c <=? 102))) l = true -> Forall hexdigit l.
Proof. intros H. apply Forall_forall. intros x I. rewrite forallb_forall in H. specialize (H x I). unfold hexdigit, digit. lia. Qed.
(** of a UUID that begins with a zero only the first half is shown: nodes with different ids
    look the same *)
Theorem C152_uuid_refuted : exists s s' t, s <> s' /\ length s = 32%nat /\ length s' = 32%nat /\ Forall hexdigit s /\ Forall hexdigit s' /\
  (forall x, x = s \/ x = s' -> exists bin p, set_node_id [] [] [] 5 x = Bin bin /\ compose false h4 f21 5 bin (st 170) = Some p /\
    id_string false (sent p) = Some (Text t)).
Proof.
  exists (str "0123456789abcdef1111111111111111"), (str "0123456789abcdef2222222222222222"), (str "123456789abcdef").
  split; [discriminate|]. split; [reflexivity|]. split; [reflexivity|].
  split; [apply hex_all; vm_compute; reflexivity|].
  split; [apply hex_all; vm_compute; reflexivity|].
  intros x [-> | ->]; eexists _, _; (split; [vm_compute; reflexivity|]); (split; [vm_compute; reflexivity|vm_compute; reflexivity]).
Qed.
Print Assumptions C152_uuid_refuted.
(** two MIP OIDs of twenty digits and of nineteen that look the same *)
Theorem C152_mip_refuted : exists s s' t, s <> s' /\ Forall digit s /\ Forall digit s' /\
  (forall x, x = s \/ x = s' -> exists bin p, set_node_id [] [] [] 9 x = Bin bin /\ compose false h4 f21 9 bin (st 170) = Some p /\
    id_string false (sent p) = Some (Text t)).
Proof.
  exists (str "10045678901234567890"), (str "1045678901234567890"), (str "145678901234567890").
  split; [discriminate|]. split; [apply digit_all; vm_compute; reflexivity|].
  split; [apply digit_all; vm_compute; reflexivity|].
  intros x [-> | ->]; eexists _, _; (split; [vm_compute; reflexivity|]); (split; [vm_compute; reflexivity|vm_compute; reflexivity]).
Qed.
Print Assumptions C152_mip_refuted.
(** a UUID of no more than sixteen digits is taken as the second half, and only the first half
    is shown; a MIP OID of one digit gets a zero *)
Theorem C152_short_refuted : exists s s', Forall hexdigit s /\ Forall digit s' /\ s <> str "0" /\
  (exists bin p, set_node_id [] [] [] 5 s = Bin bin /\ compose false h4 f21 5 bin (st 170) = Some p /\ id_string false (sent p) = Some (Text (str "0"))) /\
  (exists bin p, set_node_id [] [] [] 9 s' = Bin bin /\ compose false h4 f21 9 bin (st 170) = Some p /\ id_string false (sent p) = Some (Text (48 :: s'))).
Proof.
  exists (str "ab"), (str "7"). split; [apply hex_all; vm_compute; reflexivity|]. split; [apply digit_all; vm_compute; reflexivity|]. split; [discriminate|].
  split; eexists _, _; (split; [vm_compute; reflexivity|]); (split; [vm_compute; reflexivity|vm_compute; reflexivity]).
Qed.
Print Assumptions C152_short_refuted.
(** a name that is accepted is written beyond the transmit buffer *)
Theorem C152_long_refuted : forall v6, exists s bin, (length s <= 1023)%nat /\ Forall name_char s /\ set_node_id [] [] [] 3 s = Bin bin /\
  forall hd fx mem, header v6 hd -> fields fx -> length mem = 1024%nat -> compose v6 hd fx 3 bin mem = None.
Proof.
  intros v6. exists (repeat 97 1000), (repeat 97 1000 ++ [0]). split; [rewrite repeat_length; lia|].
  split; [apply Forall_forall; intros x H; apply repeat_spec in H; subst x; unfold name_char; lia|]. split; [vm_compute; reflexivity|].
  intros hd fx mem H F L. unfold compose.
  assert (NI : node_info 3 (repeat 97 1000 ++ [0]) = Some (repeat 97 997 ++ [0], 998)) by (vm_compute; reflexivity). rewrite NI.
  set (base := UPHDR + hdr v6). assert (BB : base = 16 \/ base = 28) by (unfold base; destruct v6; [right|left]; reflexivity). clearbody base.
  cbn [app wrs]. unfold fields in F.
  assert (G : forall m i l m', length m = 1024%nat -> wr m i l = Some m' -> length m' = 1024%nat).
  { clear. intros m i l m' L. unfold wr. destruct ((i <? 0) || (i + Z.of_nat (length l) >? Z.of_nat (length m))) eqn:E; [discriminate|].
    intros Q. apply Some_inj in Q. subst m'. rewrite !app_length, firstn_length, skipn_length. lia. }
  destruct (wr mem base (fx ++ [0; 0])) as [m1|] eqn:E1; [|reflexivity]. apply G in E1; [|exact L].
  destruct (wr m1 (base + 21) [3]) as [m2|] eqn:E2; [|reflexivity]. apply G in E2; [|exact E1].
  replace (wr m2 (base + 22) (repeat 97 997 ++ [0])) with (@None (list Z)); [reflexivity|]. symmetry. unfold wr.
  replace ((base + 22 <? 0) || (base + 22 + Z.of_nat (length (repeat 97 997 ++ [0])) >? Z.of_nat (length m2))) with true; [reflexivity|].
  symmetry. rewrite E2. rewrite app_length, repeat_length. cbn [length]. lia.
Qed.
Print Assumptions C152_long_refuted.
(** the message about the cluster leader is written beyond the buffer after a name that fits *)
Theorem C152_leader_refuted : exists s bin p, set_node_id [] [] [] 3 s = Bin bin /\ compose false h4 f21 3 bin (st 170) = Some p /\
  id_string false (sent p) = Some (Text s) /\ forall cl, leader false p cl = None.
Proof.
  exists (repeat 97 980). eexists _, _. split; [vm_compute; reflexivity|]. split; [vm_compute; reflexivity|]. split; [vm_compute; reflexivity|].
  intros cl. unfold leader. set (x := firstn 14 (cl ++ repeat 0 38)).
  assert (LX : length x = 14%nat) by (unfold x; rewrite firstn_length, app_length, repeat_length; lia). clearbody x. unfold wr. rewrite LX.
  cbn [fst snd]. match goal with |- context [length ?m] => assert (LM : length m = 1024%nat) by (vm_compute; reflexivity); rewrite LM end. reflexivity.
Qed.
Print Assumptions C152_leader_refuted.
(** a byte of the stack is sent to the network *)
Theorem C152_stack_refuted : exists s bin p p', set_node_id [] [] [] 1 s = Bin bin /\ compose false h4 f21 1 bin (st 170) = Some p /\
  compose false h4 f21 1 bin (st 85) = Some p' /\ sent p <> sent p'.
Proof.
  exists (str "31612345678"). eexists _, _, _. split; [vm_compute; reflexivity|]. split; [vm_compute; reflexivity|]. split; [vm_compute; reflexivity|].
  vm_compute. discriminate.
Qed.
Print Assumptions C152_stack_refuted.
(** names with a comma are accepted, and received: the sentence gets one field more *)
Theorem C152_comma_refuted : exists s bin p, In 44 s /\ set_node_id [] [] [] 3 s = Bin bin /\ compose false h4 f21 3 bin (st 170) = Some p /\
  id_string false (sent p) = Some (Text s).
Proof. exists (str "here,010170"). eexists _, _. split; [right; right; right; right; left; reflexivity|]. split; [vm_compute; reflexivity|]. split; [vm_compute; reflexivity|vm_compute; reflexivity]. Qed.
Print Assumptions C152_comma_refuted.
(** a received name may have any characters, and a message may end in its id, which is then
    read beyond the message *)
Theorem C152_received_refuted :
  (exists m, Z.of_nat (length m) = 44 /\ id_string false m = Some (Text (str "x" ++ [13; 10] ++ str "$GP"))) /\
  (exists m, nth 2 m 0 * 256 + nth 3 m 0 = Z.of_nat (length m) /\ Z.of_nat (length m) = 40 /\ id_string false m = None) /\
  (exists m, nth 2 m 0 * 256 + nth 3 m 0 = Z.of_nat (length m) /\ Z.of_nat (length m) = 36 /\ id_string false m = None).
Proof.
  pose (hd := fun (n : Z) => [171; 134; 0; n; 10; 0; 0; 1; 255; 0; 0; 1; 3; 16; 128; 0; 1; 2] ++ repeat 9 15). split; [|split].
  - exists (hd 44 ++ [3] ++ str "x" ++ [13; 10] ++ str "$GP" ++ repeat 0 4). split; vm_compute; reflexivity.
  - exists (hd 40 ++ [3] ++ repeat 97 6). split; [vm_compute; reflexivity|]. split; vm_compute; reflexivity.
  - exists (hd 36 ++ [5; 1; 2]). split; [vm_compute; reflexivity|]. split; vm_compute; reflexivity.
Qed.
Print Assumptions C152_received_refuted.

(** C116-C118: the exchange with the zebra daemon. *)
From Verif Require Import Base Bytes Quagga QuaggaSpec QuaggaInProofs QuaggaReadProofs QuaggaHnaProofs QuaggaOutProofs QuaggaRunProofs.

(** ** C116: the routes told to zebra *)

(** However write(2) splits the bytes, as long as the connection lasts zebra
    sees exactly the changes, in order: network, next hop, distance, metric. *)
Theorem C116_stream_partial : forall c k l w s ops ret s' w',
  cfg_ok c -> Forall (fun p => route_ok c (snd p)) l -> lasting w -> s_conn s = true ->
  zebra_sees (z_version c) (z_v6 c) (s_sent s) ops ->
  changes c w l k s = WRet ret s' w' ->
  exists ops', Forall2 (change_op c) l ops' /\ s_conn s' = true /\
    zebra_sees (z_version c) (z_v6 c) (s_sent s') (ops ++ ops') /\
    s_leak s' = s_leak s /\ s_calls s' = s_calls s ++ (if z_additional c then l else []).
Proof.
  intros c k l w s ops ret s' w' CO F LW C SE E. pose proof (changes_ok c k CO l w s ops F LW C SE) as H. rewrite E in H.
  destruct H as (ops' & A1 & A2 & A3 & A4 & _ & A6 & _). now exists ops'.
Qed.
Print Assumptions C116_stream_partial.

(** The calls come to an end once write(2) has taken bytes often enough, and
    they never leave the message buffer nor the program. *)
Theorem C116_ends_partial : forall c k l w s ops,
  cfg_ok c -> Forall (fun p => route_ok c (snd p)) l -> lasting w -> s_conn s = true ->
  zebra_sees (z_version c) (z_v6 c) (s_sent s) ops ->
  4096 * Z.of_nat (length l) <= Z.of_nat (length (filter takes w)) ->
  exists ret s' w', changes c w l k s = WRet ret s' w'.
Proof.
  intros c k l w s ops CO F LW C SE N. pose proof (changes_ok c k CO l w s ops F LW C SE) as H.
  destruct (changes c w l k s) as [ret s' w'|s'| |]; [now exists ret, s', w'|unfold count in H; lia|destruct H|destruct H].
Qed.
Print Assumptions C116_ends_partial.

(** After a reconnection zebra sees a hello, all present routes, and the kinds
    of routes asked for. *)
Theorem C116_reconnect_partial : forall c w rt k s ret s' w',
  cfg_ok c -> Forall (route_ok c) rt -> lasting w -> zclient_reconnect c true w rt k s = WRet ret s' w' ->
  s_conn s' = true /\ exists adds, Forall2 (op_add c) (if z_export c then rt else []) adds /\
    zebra_sees (z_version c) (z_v6 c) (s_sent s')
      (OpHello 11 :: adds ++ map (OpRedist true) (asked 0 (firstn 14 (z_redist c)))).
Proof.
  intros c w rt k s ret s' w' CO F LW E. pose proof (reconnect_ok c w rt k s CO F LW) as H. rewrite E in H.
  destruct H as (_ & A2 & A3 & _). now split.
Qed.
Print Assumptions C116_reconnect_partial.

Definition C116_c := mkZc 2 false 1 110 true true [false; true; false; true; false; false; false; false; false; false; false; false; false; false].
Definition C116_host := mkQ ([10; 0; 0; 5] ++ repeat 0 12) 32 ([10; 0; 0; 5] ++ repeat 0 12) 3 1 ([10; 0; 0; 5] ++ repeat 0 12) 3.
Definition C116_net := mkQ ([192; 168; 16; 0] ++ repeat 0 12) 20 ([10; 0; 0; 5] ++ repeat 0 12) 3 4 ([10; 0; 0; 7] ++ repeat 0 12) 2.
Definition C116_s := mkZs true [] 0 [] [].
Lemma C116_host_ok : route_ok C116_c C116_host.
Proof. split; [|split; [|split; [|split]]]; try (split; [reflexivity|repeat constructor]; cbn; lia); cbn; lia. Qed.
Lemma C116_net_ok : route_ok C116_c C116_net.
Proof. split; [|split; [|split; [|split]]]; try (split; [reflexivity|repeat constructor]; cbn; lia); cbn; lia. Qed.
Lemma C116_c_ok : cfg_ok C116_c.
Proof. split; [right; now right|]. split; cbn; unfold byte; lia. Qed.
(** a host route, a network and its removal, written in pieces *)
Example C116_stream_ex :
  let l := [(true, C116_host); (true, C116_net); (false, C116_net)] in
  let w := [WSome 3; WAgain; WSome 100; WSome 0; WSome 100; WAgain; WSome 20; WSome 100; WSome 7] in
  cfg_ok C116_c /\ Forall (fun p => route_ok C116_c (snd p)) l /\ lasting w /\
  exists s', changes C116_c w l (fun _ => 0) C116_s = WRet 0 s' [WSome 7] /\
    zebra_sees 2 false (s_sent s')
      [OpRoute true 11 1 [10; 0; 0; 5] 32 [HIf 3] (Some 110) (Some 1);
       OpRoute true 11 1 [192; 168; 16; 0] 20 [HGw [10; 0; 0; 5]] (Some 110) (Some 4);
       OpRoute false 11 1 [192; 168; 16; 0] 20 [HGw [10; 0; 0; 7]] (Some 110) (Some 0)].
Proof.
  cbv zeta. split; [exact C116_c_ok|]. split.
  { apply Forall_cons; [exact C116_host_ok|]. apply Forall_cons; [exact C116_net_ok|]. apply Forall_cons; [exact C116_net_ok|constructor]. }
  split; [repeat (apply Forall_cons; [discriminate|]); constructor|].
  destruct (changes _ _ _ _ _) as [ret s' w'| | |] eqn:E; [|vm_compute in E; discriminate..].
  exists s'. vm_compute in E. inversion E; subst. split; [reflexivity|]. vm_compute. reflexivity.
Qed.
Example C116_ends_ex :
  let w := repeat (WSome 1) 8192 in
  4096 * Z.of_nat (length [(true, C116_host); (true, C116_net)]) <= Z.of_nat (length (filter takes w)) /\ lasting w /\
  zebra_sees 2 false (s_sent C116_s) [].
Proof.
  cbv zeta. split; [apply Z.leb_le; vm_compute; reflexivity|]. split; [|reflexivity].
  apply Forall_forall. intros x H. apply repeat_spec in H. now subst.
Qed.
Example C116_reconnect_ex :
  exists s', zclient_reconnect C116_c true [WSome 10; WAgain; WSome 99; WSome 99; WSome 1; WSome 99; WSome 99; WSome 99] [C116_host; C116_net] (fun _ => 0) (mkZs false [1; 2; 3] 0 [] []) = WRet 0 s' [WSome 99] /\
    zebra_sees 2 false (s_sent s')
      [OpHello 11; OpRoute true 11 1 [10; 0; 0; 5] 32 [HIf 3] (Some 110) (Some 1);
       OpRoute true 11 1 [192; 168; 16; 0] 20 [HGw [10; 0; 0; 5]] (Some 110) (Some 4); OpRedist true 1; OpRedist true 3].
Proof.
  destruct (zclient_reconnect _ _ _ _ _ _) as [ret s' w'| | |] eqn:E; [|vm_compute in E; discriminate..].
  exists s'. vm_compute in E. inversion E; subst. split; [reflexivity|]. vm_compute. reflexivity.
Qed.

(** False: while there is no connection every change of a route loses the
    buffer of its message. *)
Theorem C116_leak_refuted : exists c k w, cfg_ok c /\ forall l s, Forall (fun p => route_ok c (snd p)) l -> s_conn s = false ->
  exists s', changes c w l k s = WRet 0 s' w /\ s_leak s' = s_leak s + Z.of_nat (length l).
Proof.
  exists (mkZc 1 false 0 0 true false []), (fun _ => 0), []. 
  assert (CO : cfg_ok (mkZc 1 false 0 0 true false [])) by (split; [right; now left|split; cbn; unfold byte; lia]).
  split; [exact CO|]. intros l s F C. eexists. split; [apply changes_offline; try assumption; [right; now left|reflexivity]|reflexivity].
Qed.
Print Assumptions C116_leak_refuted.
Example C116_leak_ex : exists s', changes (mkZc 1 false 0 0 true false []) [] [(true, C116_host); (false, C116_host)] (fun _ => 0) (mkZs false [] 5 [] []) = WRet 0 s' [] /\ s_leak s' = 7.
Proof. eexists. split; [vm_compute; reflexivity|reflexivity]. Qed.

(** False: with the option to keep the kernel's routes too, a route is removed
    from the kernel when it is removed: not if zebra goes away just then. *)
Theorem C116_kernel_refuted : exists c w l k s s', cfg_ok c /\ Forall (fun p => route_ok c (snd p)) l /\ z_additional c = true /\ s_conn s = true /\
  changes c w l k s = WRet 0 s' [] /\ l = [(true, C116_net); (false, C116_net)] /\ s_calls s' = [(true, C116_net)].
Proof.
  exists C116_c, [WSome 99; WErr], [(true, C116_net); (false, C116_net)], (fun _ => 0), C116_s.
  destruct (changes C116_c [WSome 99; WErr] [(true, C116_net); (false, C116_net)] (fun _ => 0) C116_s) as [ret s' w'| | |] eqn:E; [|vm_compute in E; discriminate..].
  exists s'. split; [exact C116_c_ok|]. split; [apply Forall_cons; [exact C116_net_ok|apply Forall_cons; [exact C116_net_ok|constructor]]|].
  vm_compute in E. inversion E; subst. repeat split.
Qed.
Print Assumptions C116_kernel_refuted.

(** ** C117: the routes zebra sends are read back exactly *)
Theorem C117_parse : forall c i pre post,
  (z_version c = 0 \/ z_version c = 1 \/ z_version c = 2) -> zin_ok (z_v6 c) i ->
  let m := enc_msg (z_version c) (z_v6 c) (MRoute i) in blen m < 65536 ->
  exists r, zparse_route c (pre ++ m ++ post) (blen pre) = ZOk r /\
    zr_type r = in_type i /\ zr_flags r = in_flags i /\ zr_prefixlen r = in_plen i /\ zr_prefix r = pad16 (in_net i) /\
    zr_nexthop r = (match in_hops i with Some l => map pad16 l | None => [] end) /\
    zr_ifindex r = (match in_ifs i with Some l => l | None => [] end) /\
    zr_metric r = (match in_metric i with Some m => m | None => 0 end) /\
    zr_distance r = (match in_dist i with Some d => d | None => 0 end).
Proof.
  intros c i pre post V OK m L. exists (in_route i). split; [|repeat split].
  unfold m, enc_msg in L |- *. cbv zeta in L |- *. cbn [enc_body] in L |- *. rewrite blen_app in L. rewrite <- app_assoc.
  match goal with |- context [enc_cmd ?v ?x ++ _] => apply (parse_route_ok c _ _ i post x V OK) end.
  - change (blen (enc16 _)) with 2 in L. exact L.
  - exists pre. split; reflexivity.
Qed.
Print Assumptions C117_parse.
Definition C117_i := mkIn true 1 16 [192; 168; 16] 20 (Some [[10; 0; 0; 1]; [10; 0; 0; 2]]) (Some [7]) (Some 110) (Some 70000).
Lemma C117_i_ok : zin_ok false C117_i.
Proof.
  unfold zin_ok, byte. cbn [in_type in_flags in_plen in_net in_hops in_ifs in_dist in_metric C117_i width].
  split; [lia|]. split; [lia|]. split; [lia|]. split; [reflexivity|]. split; [repeat (apply Forall_cons; [lia|]); constructor|].
  split. { intros l H. apply Some_inj in H. subst. split; [cbn; lia|]. repeat (apply Forall_cons; [split; [reflexivity|repeat (apply Forall_cons; [lia|]); constructor]|]). constructor. }
  split. { intros l H. apply Some_inj in H. subst. split; [cbn; lia|]. apply Forall_cons; [lia|constructor]. }
  split; intros d H; apply Some_inj in H; lia.
Qed.
Example C117_parse_ex : zin_ok false C117_i /\ blen (enc_msg 1 false (MRoute C117_i)) = 32 /\
  zparse_route (mkZc 1 false 0 0 true false []) (enc_msg 1 false (MRoute C117_i)) 0 =
    ZOk (mkZr 1 16 15 0 20 ([192; 168; 16] ++ repeat 0 13) [[10; 0; 0; 1] ++ repeat 0 12; [10; 0; 0; 2] ++ repeat 0 12] [7] 70000 110).
Proof. split; [exact C117_i_ok|]. vm_compute. split; reflexivity. Qed.

(** False: a message whose length field is right never makes the reader touch
    memory outside of its objects: one with a prefix of 200 bits is copied
    over the end of the address. *)
Theorem C117_overflow_refuted : exists c body s ev, (z_version c = 1) /\ Forall byte body /\ steady (2 + length body) ev /\
  zparse_connected 10 c ev (enc16 (2 + blen body) ++ body) s = POob /\ blen body = 33.
Proof.
  exists (mkZc 1 false 0 0 true false []), ([255; 1; 0; 7; 1; 0; 0; 200] ++ repeat 9 25), C116_s, (repeat (RData 100) 40).
  split; [reflexivity|]. split. { apply Forall_forall. intros x H. apply in_app_or in H. unfold byte. cbn in H. lia. }
  split. { split; [cbn; lia|]. apply Forall_forall. intros x H. apply repeat_spec in H. exists 100. split; [exact H|lia]. }
  split; vm_compute; reflexivity.
Qed.
Print Assumptions C117_overflow_refuted.

(** False: ... nor read outside of the received bytes: the numbers of next
    hops and interfaces are believed, here beyond the end of the buffer. *)
Theorem C117_overread_refuted : exists c body s ev, (z_version c = 1) /\ Forall byte body /\ steady (2 + length body) ev /\
  zparse_connected 10 c ev (enc16 (2 + blen body) ++ body) s = POob /\ blen body = 4094 /\
  rd8 body 7 = Some 0.
Proof.
  exists (mkZc 1 true 0 0 true false []), ([255; 1; 0; 9; 1; 0; 3; 0] ++ repeat 255 4086), C116_s, (repeat (RData 5000) 4097).
  split; [reflexivity|]. split. { apply Forall_forall. intros x H. apply in_app_or in H. unfold byte. destruct H as [H | H]; [cbn in H; lia|]. apply repeat_spec in H. lia. }
  split. { split; [apply Nat.ltb_lt; vm_compute; reflexivity|]. apply Forall_forall. intros x H. apply repeat_spec in H. exists 5000. split; [exact H|lia]. }
  split; [vm_compute; reflexivity|]. split; vm_compute; reflexivity.
Qed.
Print Assumptions C117_overread_refuted.

(** False: an IPv4 network that gets announced has at most 32 bits. *)
Theorem C117_range_refuted : exists c body s s' ev, (z_version c = 1) /\ z_v6 c = false /\ Forall byte body /\ steady (2 + length body) ev /\
  zparse_connected 10 c ev (enc16 (2 + blen body) ++ body) s = PDone s' [] (repeat (RData 100) 39) /\ s_hna s = [] /\
  s_hna s' = [(repeat 9 8 ++ repeat 0 8, 64)].
Proof.
  exists (mkZc 1 false 0 0 true false []), ([255; 1; 0; 7; 1; 0; 0; 64] ++ repeat 9 8), C116_s. eexists. exists (repeat (RData 100) 40).
  split; [reflexivity|]. split; [reflexivity|]. split. { apply Forall_forall. intros x H. apply in_app_or in H. unfold byte. cbn in H. lia. }
  split. { split; [cbn; lia|]. apply Forall_forall. intros x H. apply repeat_spec in H. exists 100. split; [exact H|lia]. }
  split; [vm_compute; reflexivity|]. split; reflexivity.
Qed.
Print Assumptions C117_range_refuted.

(** ** C118: the announced networks follow zebra's messages *)

(** However the bytes are split into reads, and with any number of calls in
    between that find nothing, the list follows the last word of zebra about
    each network, provided no call finds a message cut short, fewer than
    65536 bytes are pending and the messages about a network take turns. *)
Theorem C118_follows_partial : forall fuel c evs ms s p b b',
  (z_version c = 0 \/ z_version c = 1 \/ z_version c = 2) -> Forall (zmsg_ok (z_version c) (z_v6 c)) ms ->
  blen (enc_msgs (z_version c) (z_v6 c) ms) < 65536 -> (length ms < fuel)%nat -> s_conn s = true ->
  Forall (fun ev => steady (length (enc_msgs (z_version c) (z_v6 c) ms)) ev \/ idle ev) evs ->
  (length ms <= length (filter steadyb evs))%nat ->
  hna_ok (s_hna s) -> hna_fam (z_v6 c) (s_hna s) ->
  times p (s_hna s) = (if b : bool then 1 else 0)%nat -> last_word p b ms = Some b' ->
  exists s', polls fuel c evs (enc_msgs (z_version c) (z_v6 c) ms) s = PDone s' [] [] /\
    (announced p (s_hna s') <-> b' = true) /\ s_conn s' = true.
Proof.
  intros fuel c evs ms s p b b' V F L LF C FE N HO HF T LWd.
  eexists. split; [apply (polls_ok fuel c V evs ms s F L LF C FE N)|]. cbn [s_hna s_conn]. split; [|reflexivity].
  assert (W : wf_list (z_v6 c) (s_hna s)).
  { apply Forall_forall. intros e I. unfold hna_ok in HO. unfold hna_fam in HF. rewrite Forall_forall in HO, HF. split; [now apply HO|now apply HF]. }
  pose proof (last_word_ok (z_v6 c) (z_version c) p ms (s_hna s) b b' F W T LWd) as X.
  unfold announced. rewrite <- times_in, X. destruct b'; split; intros; try lia; congruence.
Qed.
Print Assumptions C118_follows_partial.
Definition C118_c := mkZc 1 false 0 0 true false [].
Definition C118_add := MRoute C117_i.
Definition C118_del := MRoute (mkIn false 1 16 [192; 168; 16] 20 None None None None).
Definition C118_p : list Z * Z := ([192; 168; 16] ++ repeat 0 13, 20).
Lemma C118_add_ok : zmsg_ok 1 false C118_add. Proof. exact C117_i_ok. Qed.
Lemma C118_del_ok : zmsg_ok 1 false C118_del.
Proof.
  unfold zmsg_ok, zin_ok, byte. cbn. split; [lia|]. split; [lia|]. split; [lia|]. split; [reflexivity|]. split; [repeat (apply Forall_cons; [lia|]); constructor|].
  repeat split; intros; discriminate.
Qed.
Example C118_follows_ex : let ms := [C118_add; MOther 1 [1; 2; 3]; C118_del; C118_add] in
  let evs := [[RAgain]; RData 40 :: repeat (RData 1) 99; repeat (RData 7) 99; [RAgain]; repeat (RData 5) 99; repeat (RData 5) 99] in
  Forall (zmsg_ok 1 false) ms /\ Forall (fun ev => steady (length (enc_msgs 1 false ms)) ev \/ idle ev) evs /\
  last_word C118_p false ms = Some true /\
  exists s', polls 9 C118_c evs (enc_msgs 1 false ms) C116_s = PDone s' [] [] /\ s_hna s' = [C118_p].
Proof.
  cbv zeta. assert (ST : forall n k, (90 < n)%nat -> 1 <= k -> steady 90 (repeat (RData k) n)).
  { intros n k Hn Hk. split; [rewrite repeat_length; exact Hn|]. apply Forall_forall. intros x H. apply repeat_spec in H. exists k. now split. }
  assert (LN : length (enc_msgs 1 false [C118_add; MOther 1 [1; 2; 3]; C118_del; C118_add]) = 86%nat) by (vm_compute; reflexivity).
  assert (ST' : forall n k, (90 < n)%nat -> 1 <= k -> steady 86 (repeat (RData k) n)).
  { intros n k Hn Hk. destruct (ST n k Hn Hk) as [A B]. split; [lia|exact B]. }
  split. { apply Forall_cons; [exact C118_add_ok|]. apply Forall_cons; [cbn; unfold byte; repeat split; try lia; repeat (apply Forall_cons; [lia|]); constructor|].
           apply Forall_cons; [exact C118_del_ok|]. apply Forall_cons; [exact C118_add_ok|constructor]. }
  split. { rewrite LN. apply Forall_cons; [right; now exists []|]. apply Forall_cons.
    { left. split; [cbn; lia|]. apply Forall_cons; [exists 40; split; [reflexivity|lia]|]. exact (proj2 (ST' 99%nat 1 ltac:(lia) ltac:(lia))). }
    apply Forall_cons; [left; apply ST'; lia|]. apply Forall_cons; [right; now exists []|].
    apply Forall_cons; [left; apply ST'; lia|]. apply Forall_cons; [left; apply ST'; lia|constructor]. }
  split; [vm_compute; reflexivity|]. eexists. split; [vm_compute; reflexivity|reflexivity].
Qed.

(** False without the proviso: a pause after the first four bytes of a message
    makes the rest of it be taken for a message: olsrd exits. *)
Theorem C118_pause_refuted : exists c ms ev1 ev2 s, z_version c = 1 /\ Forall (zmsg_ok 1 (z_v6 c)) ms /\ s_conn s = true /\
  ev1 = [RData 4; RAgain] /\ steady (length (enc_msgs 1 (z_v6 c) ms)) ev2 /\
  polls 10 c [ev1; ev2] (enc_msgs 1 (z_v6 c) ms) s = PExit.
Proof.
  exists C118_c, [MRoute (mkIn true 1 0 [10] 8 None None None None)], [RData 4; RAgain], (repeat (RData 50) 20), C116_s.
  split; [reflexivity|]. split.
  { apply Forall_cons; [|constructor]. unfold zmsg_ok, zin_ok, byte. cbn. split; [lia|]. split; [lia|]. split; [lia|]. split; [reflexivity|]. split; [repeat (apply Forall_cons; [lia|]); constructor|].
    repeat split; intros; discriminate. }
  split; [reflexivity|]. split; [reflexivity|]. split.
  { split; [cbn; lia|]. apply Forall_forall. intros x H. apply repeat_spec in H. exists 50. split; [exact H|lia]. }
  vm_compute. reflexivity.
Qed.
Print Assumptions C118_pause_refuted.

(** False: a call comes to an end: two zero bytes keep it busy for ever. *)
Theorem C118_zero_refuted : exists c ev stream s, s_conn s = true /\ forall fuel, zparse_connected fuel c ev stream s = PHang.
Proof.
  exists C118_c, [RData 2], [0; 0], C116_s. split; [reflexivity|]. intros fuel. apply (hangs_poll 5). vm_compute. reflexivity.
Qed.
Print Assumptions C118_zero_refuted.

(** False: ... even if zebra sends nothing but ordinary messages: more than
    65535 bytes of them read at once do it. *)
Theorem C118_much_refuted : exists c ev ms s, z_version c = 1 /\ Forall (zmsg_ok 1 (z_v6 c)) ms /\
  Forall (fun m => blen (enc_msg 1 (z_v6 c) m) <= 4096) ms /\ s_conn s = true /\ Forall (fun e => exists k, e = RData k /\ 1 <= k) ev /\
  forall fuel, zparse_connected fuel c ev (enc_msgs 1 (z_v6 c) ms) s = PHang.
Proof.
  exists C118_c, (repeat (RData 4096) 20), (MOther 1 (repeat 0 94) :: repeat (MOther 1 (repeat 0 3994)) 17), C116_s.
  assert (B : forall n, Forall byte (repeat 0 n)) by (intros n; apply Forall_forall; intros x H; apply repeat_spec in H; unfold byte; lia).
  split; [reflexivity|]. split.
  { apply Forall_cons.
    - cbn [zmsg_ok z_v6 C118_c]. split; [cbn; lia|]. split; [apply B|]. rewrite repeat_length. split; [lia|]. split; discriminate.
    - apply Forall_forall. intros m H. apply repeat_spec in H. subst. cbn [zmsg_ok z_v6 C118_c]. split; [cbn; lia|]. split; [apply B|].
      rewrite repeat_length. split; [lia|]. split; discriminate. }
  split.
  { apply Forall_cons; [apply Z.leb_le; vm_compute; reflexivity|].
    apply Forall_forall. intros m H. apply repeat_spec in H. subst. apply Z.leb_le. vm_compute. reflexivity. }
  split; [reflexivity|]. split.
  { apply Forall_forall. intros x H. apply repeat_spec in H. exists 4096. split; [exact H|lia]. }
  intros fuel. apply (hangs_poll 40). vm_compute. reflexivity.
Qed.
Print Assumptions C118_much_refuted.

(** False: when zebra has closed the connection, olsrd connects again: the end
    of the stream is not taken for one. *)
Theorem C118_closed_refuted : exists c s, s_conn s = true /\ forall n fuel,
  polls fuel c (repeat [REof] n) [] s = PDone s [] [].
Proof.
  exists C118_c, C116_s. split; [reflexivity|]. intros n fuel. induction n as [|n IH]; [reflexivity|]. exact IH.
Qed.
Print Assumptions C118_closed_refuted.

(** False: after a reconnection the list still follows zebra: what zebra sent
    on the lost connection stays, so that after the removal of a network it
    is still announced. *)
Theorem C118_reconnect_refuted : exists c p m1 m2 s0 s1 s2 s3 s4 w,
  zmsg_ok 1 false m1 /\ zmsg_ok 1 false m2 /\ ~ announced p (s_hna s0) /\ last_word p false [m1; m2] = Some false /\
  zparse 9 c true w [] (fun _ => 0) (repeat (RData 99) 99) (enc_msgs 1 false [m1]) [] s0 = PDone s1 [] (repeat (RData 99) 98) /\
  zparse 9 c true w [] (fun _ => 0) [RErr] [] [] s1 = PDone s2 [] [] /\
  zparse 9 c true w [] (fun _ => 0) [] [] (enc_msgs 1 false [m1; m2]) s2 = PDone s3 (enc_msgs 1 false [m1; m2]) [] /\
  zparse 9 c true w [] (fun _ => 0) (repeat (RData 99) 99) (enc_msgs 1 false [m1; m2]) [] s3 = PDone s4 [] (repeat (RData 99) 98) /\
  s_conn s4 = true /\ announced p (s_hna s4).
Proof.
  exists C118_c, C118_p, C118_add, C118_del, C116_s.
  destruct (zparse 9 C118_c true [WSome 99] [] (fun _ => 0) (repeat (RData 99) 99) (enc_msgs 1 false [C118_add]) [] C116_s) as [s1 st1 e1| | | |] eqn:E1; [|vm_compute in E1; discriminate..].
  exists s1.
  assert (X1 : s1 = mkZs true [] 0 [] [C118_p] /\ st1 = [] /\ e1 = repeat (RData 99) 98) by (vm_compute in E1; inversion E1; repeat split; reflexivity).
  destruct X1 as (-> & -> & ->). clear E1.
  exists (mkZs false [] 0 [] [C118_p]), (mkZs true [0; 7; 255; 1; 0; 23; 11] 0 [] [C118_p]), (mkZs true [0; 7; 255; 1; 0; 23; 11] 0 [] [C118_p]), [WSome 99].
  split; [exact C118_add_ok|]. split; [exact C118_del_ok|]. split; [intros H; exact H|]. split; [vm_compute; reflexivity|].
  split; [vm_compute; reflexivity|]. split; [vm_compute; reflexivity|]. split; [vm_compute; reflexivity|]. split; [vm_compute; reflexivity|].
  split; [reflexivity|now left].
Qed.
Print Assumptions C118_reconnect_refuted.

(** Properties of the building of HNA messages: C84, C85. *)
From Verif Require Import Base Bytes IpCalc Mantissa GwSpeed GwHna NetBuf NetBufSpec Parser Tc BuildMsg BuildMsgSpec BuildMsgProofs BuildMsgTcProofs BuildHna BuildHnaSpec BuildHnaProofs BuildHnaStepProofs PropBuildMsg.

(** an IPv4 gateway *)
Definition ex_hc (active bwzero : bool) : hcfg := mkHc (mkAnn active false true false true 128 1024 0 (repeat 0 16)) (repeat 0 16) (repeat 5 12) bwzero 134 [10; 0; 0; 1] 15000 5000.
Lemma ex_hc_ok a b : cfg_ok (ex_hc a b).
Proof. unfold cfg_ok, ex_hc. cbn. repeat split; lia. Qed.

(** C84: the networks are announced in their order, in messages with consecutive numbers
    and with at least one network; the default route of a smart gateway announces it
    with its bandwidths, or is left out if there are none.  For at least one network to
    announce and with nothing to take back (for that see C85). *)
Theorem C84_partial : forall c l s zt, cfg_ok c -> Forall (hna_net (a_v6 (c_ann c))) l -> Forall (not_2000 c) l -> Z.of_nat (length l) < 2000 ->
  ready (8 + 3 * ipsz (a_v6 (c_ann c))) s ->
  (a_active (c_ann c) = false \/ zt = 0 \/ (c_bwzero c = false /\ exists h, In h l /\ default_route (a_v6 (c_ann c)) h)) ->
  forall l', announced c l l' -> l' <> [] ->
  exists s' parts zt', serialize_hna c l zt s = Some (s', Some zt') /\ delivers s s' (numbered (hna_msg (c_vt c) (c_main c)) (s_seq s) parts) /\
    s_seq s' = plus_seq (s_seq s) (length parts) /\ Forall2 (hna_says c false) l' (concat parts) /\ Forall (fun p => p <> []) parts /\
    ready (8 + 3 * ipsz (a_v6 (c_ann c))) s'.
Proof.
  intros c l s zt Cok F1 F2 Few Rd Cs l' An Nl. assert (F : Forall (good_net c) l) by (rewrite Forall_forall in *; intros h I; split; auto).
  pose proof (announced_unique c l _ _ An (kept_announced c l F)) as ->.
  assert (Nl0 : l <> []) by (intros ->; apply Nl; reflexivity).
  destruct (hna_plain_M c Cok l s zt Nl0 F Few Rd) as (s' & parts & E & D & Q & Fo & K & Ne & _).
  { destruct Cs as [A | [A | (B & h & I & D)]]; auto. destruct (a_active (c_ann c)) eqn:Ea; auto. right. right. apply sgw_iff; auto. split; [exact Ea|]. split; [exact B|]. exists h. auto. }
  exists s', parts. eexists. split; [exact E|]. split; [exact D|]. split; [exact Q|]. split; [exact Fo|]. split; [apply Ne; exact Nl|].
  apply ok_ready; [exact K|]. rewrite (delivers_max _ _ _ D). apply Rd.
Qed.
Print Assumptions C84_partial.
Example C84_partial_ex : cfg_ok (ex_hc true false) /\ ready 20 (ex_state 26) /\ announced (ex_hc true false) [([10; 1; 0; 0], 17); ([0; 0; 0; 0], 0)] [([10; 1; 0; 0], 17); ([0; 0; 0; 0], 0)] /\
  run (serialize_hna (ex_hc true false) [([10; 1; 0; 0], 17); ([0; 0; 0; 0], 0)] 0) (ex_state 26) =
    Some ([EOut None; EPush [4; 134; 0; 20; 10; 0; 0; 1; 255; 0; 255; 255; 10; 1; 0; 0; 255; 255; 128; 0] 20;
           EOut (Some [0; 24; 0; 7; 4; 134; 0; 20; 10; 0; 0; 1; 255; 0; 255; 255; 10; 1; 0; 0; 255; 255; 128; 0]);
           EPush [4; 134; 0; 20; 10; 0; 0; 1; 255; 0; 0; 0; 0; 0; 0; 0; 0; 7; 89; 3] 20], Some 15000, 1).
Proof.
  split; [apply ex_hc_ok|]. split; [apply ready_state; lia|]. split.
  - exists (fun _ => true). split; [reflexivity|]. intros h _. split; [discriminate|]. intros (_ & X & _). discriminate.
  - vm_compute. reflexivity.
Qed.

(** A gateway without bandwidth and without other networks sends empty HNA messages. *)
Theorem C84_empty_refuted : exists c l s, cfg_ok c /\ Forall (hna_net false) l /\ Forall (not_2000 c) l /\ ready 1000 s /\ announced c l [] /\
  exists s', serialize_hna c l 0 s = Some (s', Some 0) /\ s_log s' = [EPush (hna_msg (c_vt c) (c_main c) (s_seq s) []) 12].
Proof.
  exists (ex_hc true true), [([0; 0; 0; 0], 0)], (ex_state 1500). split; [apply ex_hc_ok|]. split; [repeat constructor; cbn; try lia; intros; discriminate|]. split; [repeat constructor; intros _ X; discriminate|]. split; [apply ready_state; lia|]. split.
  - exists (fun _ => false). split; [reflexivity|]. intros h [<- | []]. cbn. split; [auto|reflexivity].
  - destruct (serialize_hna (ex_hc true true) [([0; 0; 0; 0], 0)] 0 (ex_state 1500)) as [[s' [r|]]|] eqn:E; try (vm_compute in E; discriminate).
    exists s'. vm_compute in E. apply Some_inj in E. inversion E; subst. split; [reflexivity|]. vm_compute. reflexivity.
Qed.
Print Assumptions C84_empty_refuted.

(** The route 2000::/3 of an IPv6 gateway: the netmask is written beyond the variable. *)
Theorem C84_overflow_refuted : exists c s, cfg_ok c /\ ready 1000 s /\ hna_net true ([32; 0; 0; 0; 0; 0; 0; 0; 0; 0; 0; 0; 0; 0; 0; 0], 3) /\
  serialize_hna c [([32; 0; 0; 0; 0; 0; 0; 0; 0; 0; 0; 0; 0; 0; 0; 0], 3)] 0 s = None.
Proof.
  exists (mkHc (mkAnn true true false true false 128 1024 0 (repeat 0 16)) (repeat 0 16) [] false 134 (repeat 1 16) 15000 5000), (ex_state 1500).
  split; [unfold cfg_ok; cbn; repeat split; lia|]. split; [apply ready_state; lia|]. split; [split; [reflexivity|]; split; [cbn; lia|]; intros _ X; discriminate|]. vm_compute. reflexivity.
Qed.
Print Assumptions C84_overflow_refuted.

(** C85: IPv4.  Announcing the gateway opens a window of the validity time of HNA
    messages; ... *)
Theorem C85_start : forall c l s zt, cfg_ok c -> Forall (hna_net (a_v6 (c_ann c))) l -> Forall (not_2000 c) l -> Z.of_nat (length l) < 2000 ->
  ready (8 + 3 * ipsz (a_v6 (c_ann c))) s ->
  a_active (c_ann c) = true -> c_bwzero c = false -> (exists h, In h l /\ default_route (a_v6 (c_ann c)) h) ->
  exists s', serialize_hna c l zt s = Some (s', Some (c_valid c)).
Proof.
  intros c l s zt Cok F1 F2 Few Rd A B (h & I & D). assert (F : Forall (good_net c) l) by (rewrite Forall_forall in *; intros x Ix; split; auto).
  assert (G : existsb (as_gateway c) (kept c false l) = true) by (apply sgw_iff; auto; split; [exact A|]; split; [exact B|]; exists h; auto).
  destruct (hna_plain_M c Cok l s zt) as (s' & parts & E & _); auto; [intros ->; destruct I|]. rewrite G in E. exists s'. exact E.
Qed.
Print Assumptions C85_start.
Example C85_start_ex : cfg_ok (ex_hc true false) /\ ready 20 (ex_state 1500) /\ default_route false ([0; 0; 0; 0], 0) /\
  run (serialize_hna (ex_hc true false) [([0; 0; 0; 0], 0)] 3000) (ex_state 1500) = Some ([EPush [4; 134; 0; 20; 10; 0; 0; 1; 255; 0; 255; 255; 0; 0; 0; 0; 0; 7; 89; 3] 20], Some 15000, 0).
Proof. split; [apply ex_hc_ok|]. split; [apply ready_state; lia|]. split; [reflexivity|]. vm_compute. reflexivity. Qed.

(** ... while it is open and the gateway is not announced, each generation of HNA
    messages ends with one that says, with the rest of the window as validity time,
    that the gateway has no bandwidth; ... *)
Theorem C85_step_partial : forall c l s zt, cfg_ok c -> a_v6 (c_ann c) = false -> Forall (hna_net false) l -> Z.of_nat (length l) < 2000 -> ready 20 s -> 0 < zt < 2 ^ 32 ->
  a_active (c_ann c) = true -> (c_bwzero c = true \/ ~ In ([0; 0; 0; 0], 0) l) ->
  exists s' parts vt e, serialize_hna c l zt s = Some (s', Some (Z.max 0 (zt - c_period c))) /\ reltime_to_me zt = Some vt /\ hna_says c true ([0; 0; 0; 0], 0) e /\
    delivers s s' (numbered (hna_msg (c_vt c) (c_main c)) (s_seq s) parts ++ [hna_msg vt (c_main c) (plus_seq (s_seq s) (length parts)) [e]]) /\
    (exists l', announced c l l' /\ Forall2 (hna_says c false) l' (concat parts)) /\ ready 20 s'.
Proof.
  intros c l s zt Cok V F1 Few Rd Zr Act No. assert (F : Forall (good_net c) l). { rewrite Forall_forall in *. intros x Ix. split; [rewrite V; auto|]. intros _ X. rewrite V in X. discriminate. }
  destruct (hna_back_M c Cok l s zt F Few) as (s' & parts & vt & e & E & Ev & Se & D & Q & Fo & K & _); auto.
  { rewrite V. exact Rd. }
  { destruct (existsb (as_gateway c) (kept c false l)) eqn:G; [|reflexivity]. apply (sgw_iff c l F) in G. destruct G as (_ & B & h & I & Dh). rewrite V in Dh. unfold default_route in Dh. subst h. destruct No as [X|X]; [congruence|contradiction]. }
  exists s', parts, vt, e. split; [rewrite E; do 2 f_equal; unfold less; destruct (Z.leb_spec zt (c_period c)); f_equal; destruct Cok as (_ & _ & _ & _ & _ & _ & Cp); lia|].
  split; [exact Ev|]. unfold zero_net in Se. rewrite V in Se. split; [exact Se|]. split; [exact D|]. split; [exists (kept c false l); split; [apply kept_announced, F|exact Fo]|].
  apply ok_ready; [exact K|]. rewrite (delivers_max _ _ _ D). apply Rd.
Qed.
Print Assumptions C85_step_partial.
Example C85_step_partial_ex : cfg_ok (ex_hc true false) /\ ready 20 (ex_state 1500) /\ reltime_to_me 12000 = Some 135 /\
  run (serialize_hna (ex_hc true false) [([10; 1; 0; 0], 17)] 12000) (ex_state 1500) =
    Some ([EPush [4; 134; 0; 20; 10; 0; 0; 1; 255; 0; 255; 255; 10; 1; 0; 0; 255; 255; 128; 0] 20; EPush [4; 135; 0; 20; 10; 0; 0; 1; 255; 0; 0; 0; 0; 0; 0; 0; 0; 7; 0; 0] 20], Some 7000, 1).
Proof. split; [apply ex_hc_ok|]. split; [apply ready_state; lia|]. vm_compute. split; reflexivity. Qed.

(** ... and after that nothing more is said: with nothing else to announce, the
    messages of any number of generations are one for each with some of the window
    left. *)
Theorem C85_window_partial : forall c ls s zt, cfg_ok c -> a_v6 (c_ann c) = false -> a_active (c_ann c) = true -> 0 < c_period c -> Forall (fun l => l = []) ls -> 0 <= zt < 2 ^ 32 -> ready 20 s ->
  exists s' ms zt', hna_run c ls zt s = Some (s', Some zt') /\ delivers s s' (numbered (fun seq x => hna_msg (fst x) (c_main c) seq [snd x]) (s_seq s) ms) /\
    Forall2 (fun z x => reltime_to_me z = Some (fst x) /\ hna_says c true ([0; 0; 0; 0], 0) (snd x)) (remaining (length ls) zt (c_period c)) ms /\
    zt' = Z.max 0 (zt - Z.of_nat (length ls) * c_period c) /\ ready 20 s'.
Proof.
  intros c ls s zt Cok V Act Per F Zr Rd. destruct (hna_run_M c Cok ls Act Per F zt s Zr) as (s' & ms & zt' & E & D & Q & Fm & K & Ez); [rewrite V; exact Rd|].
  exists s', ms, zt'. split; [exact E|]. split; [exact D|]. split; [unfold zero_net in Fm; rewrite V in Fm; exact Fm|]. split; [exact Ez|]. rewrite V in K. exact K.
Qed.
Print Assumptions C85_window_partial.
Example C85_window_partial_ex : cfg_ok (ex_hc true false) /\ ready 20 (ex_state 1500) /\ remaining 5 15000 5000 = [15000; 10000; 5000] /\
  match hna_run (ex_hc true false) [[]; []; []; []; []] 15000 (ex_state 1500) with
  | Some (s', Some zt') => zt' = 0 /\ map (fun e => match e with EPush d _ => nth 1 d 0 | _ => 0 end) (s_log s') = [231; 71; 70]
  | _ => False
  end.
Proof. split; [apply ex_hc_ok|]. split; [apply ready_state; lia|]. vm_compute. repeat split. Qed.

(** IPv6: what is sent instead announces ::/0 as an ordinary network, which receivers do
    not take for a gateway; the gateway is not taken back and a default route is
    announced that was never configured. *)
Theorem C85_v6_refuted : exists c s zt, cfg_ok c /\ a_active (c_ann c) = true /\ a_v6 (c_ann c) = true /\ ready 1000 s /\ 0 < zt <= c_valid c /\
  exists s' vt, serialize_hna c [] zt s = Some (s', Some (zt - c_period c)) /\
    s_log s' = [EPush (hna_msg vt (c_main c) (s_seq s) [repeat 0 16 ++ repeat 0 16]) 56] /\
    netmask_to_prefix (repeat 0 16) = 0 /\ forall ext, GwHna.receive true ext (repeat 0 16) (repeat 0 16) = None.
Proof.
  exists (mkHc (mkAnn true true true false false 128 1024 0 (repeat 0 16)) (repeat 0 16) [] false 134 (repeat 1 16) 15000 5000), (ex_state 1500), 15000.
  split; [unfold cfg_ok; cbn; repeat split; lia|]. split; [reflexivity|]. split; [reflexivity|]. split; [apply ready_state; lia|]. split; [cbn; lia|].
  match goal with |- exists s' vt, ?X = _ /\ _ => destruct X as [[s' [r|]]|] eqn:E; try (vm_compute in E; discriminate) end.
  exists s', 231. vm_compute in E. apply Some_inj in E. inversion E; subst. split; [reflexivity|]. split; [vm_compute; reflexivity|]. split; [reflexivity|]. intros ext. vm_compute. reflexivity.
Qed.
Print Assumptions C85_v6_refuted.

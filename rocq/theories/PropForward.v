(** C42: forwarding (src/olsr.c). *)
From Verif Require Import Base Bytes NetBuf NetBufSpec NetBufProofs SchedTime DupSet DupSpec Forward ForwardSpec ForwardProofs.

(** C42: a message that may be relayed (sender a symmetric neighbor that
    selected this node as MPR, not seen before) is queued, with hop limit and hop
    count adapted, on exactly the interfaces it is to leave on; nothing else
    changes. *)
Theorem C42_relayed_exactly : forall e x post, wf_omsg (fe_ips e) x ->
  forall ok now d ifs ss in_if from, Forall2 if_rel ifs ss -> may_relay e now d x from ->
  exists ifs', forward_message e ok now d ifs (enc_msg x ++ post) in_if from =
    Some (mkFres 1 (fst (message_is_duplicate now d (be (o_orig x)) (o_seq x))) ifs' (flat_map (fun s => snd (relay_if x in_if s)) ss))
  /\ Forall2 if_rel ifs' (map (fun s => fst (relay_if x in_if s)) ss).
Proof. intros e x post W ok now d ifs ss in_if from. apply (forward_yes e x post W). Qed.
Print Assumptions C42_relayed_exactly.

(** C42: any other message leaves all interfaces as they are. *)
Theorem C42_nothing_else : forall e x post, wf_omsg (fe_ips e) x ->
  forall ok now d ifs in_if from, ~ may_relay e now d x from ->
  exists d', forward_message e ok now d ifs (enc_msg x ++ post) in_if from = Some (mkFres 0 d' ifs []).
Proof. intros e x post W ok now d ifs in_if from. apply (forward_no e x post W). Qed.
Print Assumptions C42_nothing_else.

(** C42: a message that comes from a symmetric neighbor which has chosen us is
    recorded as seen, whether it is relayed or not; others are not recorded. *)
Theorem C42_recorded : forall e x post, wf_omsg (fe_ips e) x ->
  forall ok now d ifs in_if from r, forward_message e ok now d ifs (enc_msg x ++ post) in_if from = Some r ->
  let src := match fe_main e from with Some s => s | None => from end in
  fr_dup r = match fe_neigh e src with
             | Some true => if fe_mprs e src then fst (message_is_duplicate now d (be (o_orig x)) (o_seq x)) else d
             | _ => d
             end.
Proof.
  intros e x post W ok now d ifs in_if from r H src. unfold forward_message in H. cbv zeta in H. fold src in H.
  destruct (reads e x post W) as (A1 & A2 & A3 & A4 & A5). unfold m in *. rewrite A1, A2, A3, A4, A5 in H.
  destruct (fe_neigh e src) as [[|]|]; try (apply Some_inj in H; subst r; reflexivity).
  destruct (fe_mprs e src); cbn [negb] in H; [|apply Some_inj in H; subst r; reflexivity].
  destruct (message_is_duplicate now d (be (o_orig x)) (o_seq x)) as [d' [|]]; cbn [fst snd]; [apply Some_inj in H; subst r; reflexivity|].
  destruct (if is_ttl_1 _ _ then _ else _) as [m'|]; [|discriminate]. destruct (rdn m' 0 _) as [dd|]; [|discriminate].
  destruct (fwd_ifs _ _ _ _ _) as [[a b]|]; [|discriminate]. apply Some_inj in H. subst r. reflexivity.
Qed.
Print Assumptions C42_recorded.

(** C42: what leaves has a smaller hop limit and larger hop count, except that
    messages whose hop limit is used up leave unchanged, on wired interfaces
    other than the incoming one. *)
Theorem C42_hop_limits : forall x in_if id mode, leaves_on x in_if id mode = true ->
  mode <> SILENT /\ (mode = ETHER -> id <> in_if) /\
  (used_up x -> mode = ETHER /\ relayed x = x) /\
  (~ used_up x -> o_ttl (relayed x) = o_ttl x - 1 /\ o_hops (relayed x) = o_hops x + 1 /\ 1 <= o_ttl (relayed x) /\
     o_type (relayed x) = o_type x /\ o_vtime (relayed x) = o_vtime x /\ o_orig (relayed x) = o_orig x /\ o_seq (relayed x) = o_seq x /\ o_body (relayed x) = o_body x).
Proof.
  intros x in_if id mode H. unfold leaves_on in H. unfold used_up, relayed.
  destruct ((o_ttl x <=? 1) || (256 <=? o_hops x + o_ttl x)) eqn:T; destruct mode; try discriminate; cbn [negb] in H; try discriminate;
    (split; [discriminate|]); (split; [try discriminate; intros _; lia|]); (split; [intros Q; first [lia|auto]|]); intros Q; try lia;
    cbn [o_ttl o_hops o_type o_vtime o_orig o_seq o_body]; repeat split; lia.
Qed.
Print Assumptions C42_hop_limits.

Definition ex_fenv : fenv := mkFenv 4 (fun _ => None) (fun a => if a =? 7 then Some true else None) (fun a => a =? 7).
Definition ex_msg : omsg := mkMsg 2 134 [10; 0; 0; 9] 5 3 77 [1; 2; 3; 4].
Definition ex_ifs : list iface :=
  [mkIf 1 MESH (net_add_buffer 40 (nb_zero 9)) 0; mkIf 2 ETHER (net_add_buffer 40 (nb_zero 4)) 0; mkIf 3 SILENT (net_add_buffer 40 (nb_zero 4)) 0].
Definition ex_ss : list sif := [(1, MESH, mkSQ [] 36 0 9); (2, ETHER, mkSQ [] 36 0 4); (3, SILENT, mkSQ [] 36 0 4)].
Example C42_ex : wf_omsg 4 ex_msg /\ Forall2 if_rel ex_ifs ex_ss /\ may_relay ex_fenv 100 dup_init ex_msg 7 /\
  map (fun s => fst (relay_if ex_msg 2 s)) ex_ss =
    [(1, MESH, mkSQ [[2; 134; 0; 16; 10; 0; 0; 9; 4; 4; 0; 77; 1; 2; 3; 4]] 36 0 9); (2, ETHER, mkSQ [] 36 0 4); (3, SILENT, mkSQ [] 36 0 4)].
Proof.
  split; [unfold wf_omsg; cbn; lia|]. split.
  - assert (A : forall mtu seq, 4 <= mtu < 65536 -> 0 <= seq < 65536 -> R mtu (mkSQ [] (mtu - 4) 0 seq) (net_add_buffer mtu (nb_zero seq))).
    { intros mtu seq Hm Hs. apply (add_ok mtu (nb_zero seq)); [exact Hm|exact Hs|intros y Q; discriminate]. }
    repeat constructor; cbn [fst snd if_id if_mode if_nb ex_ifs]; try reflexivity; exists 40; apply (A 40); lia.
  - split; [split; [reflexivity|split; vm_compute; reflexivity]|]. vm_compute. reflexivity.
Qed.

(** C42, at most once: false.  The first message heard from an originator is
    relayed twice when it is heard twice (C03). *)
Theorem C42_once_refuted : exists r1 r2,
  forward_message ex_fenv true 100 dup_init ex_ifs (enc_msg ex_msg) 2 7 = Some r1 /\ fr_ret r1 = 1 /\
  forward_message ex_fenv true 101 (fr_dup r1) (fr_ifs r1) (enc_msg ex_msg) 2 7 = Some r2 /\ fr_ret r2 = 1 /\
  map (fun i => nb_pend (if_nb i)) (fr_ifs r2) = [32; 0; 0].
Proof.
  set (o1 := forward_message ex_fenv true 100 dup_init ex_ifs (enc_msg ex_msg) 2 7).
  assert (E1 : o1 <> None) by (vm_compute; discriminate).
  destruct o1 as [r1|] eqn:Eo; [|congruence]. exists r1.
  set (o2 := forward_message ex_fenv true 101 (fr_dup r1) (fr_ifs r1) (enc_msg ex_msg) 2 7).
  vm_compute in Eo. apply Some_inj in Eo. subst r1.
  assert (E2 : o2 <> None) by (vm_compute; discriminate). destruct o2 as [r2|] eqn:Eo; [|congruence]. exists r2.
  vm_compute in Eo. apply Some_inj in Eo. subst r2. repeat split; vm_compute; reflexivity.
Qed.
Print Assumptions C42_once_refuted.
(** C42, at most once, what holds: of the numbers after the first, per position
    of the unwrapped number line, once; this is C03_accepted_once_partial, as a
    message is relayed only if the duplicate check says it is new. *)
Theorem C42_once_partial : forall e x post, wf_omsg (fe_ips e) x ->
  forall ok now d ifs in_if from r, forward_message e ok now d ifs (enc_msg x ++ post) in_if from = Some r -> fr_ret r = 1 ->
  verdict d now (be (o_orig x)) (o_seq x) = false /\ fr_dup r = fst (dup_step d (OpCheck now (be (o_orig x)) (o_seq x))).
Proof.
  intros e x post W ok now d ifs in_if from r H Hr. unfold forward_message in H. cbv zeta in H.
  destruct (reads e x post W) as (A1 & A2 & A3 & A4 & A5). unfold m in *. rewrite A1, A2, A3, A4, A5 in H.
  destruct (fe_neigh e _) as [[|]|]; try (apply Some_inj in H; subst r; discriminate).
  destruct (fe_mprs e _); cbn [negb] in H; [|apply Some_inj in H; subst r; discriminate].
  unfold verdict. cbn [dup_step]. destruct (message_is_duplicate now d (be (o_orig x)) (o_seq x)) as [d' [|]]; cbn [fst snd]; [apply Some_inj in H; subst r; discriminate|].
  split; [reflexivity|]. destruct (if is_ttl_1 _ _ then _ else _) as [m'|]; [|discriminate]. destruct (rdn m' 0 _) as [dd|]; [|discriminate].
  destruct (fwd_ifs _ _ _ _ _) as [[a b]|]; [|discriminate]. apply Some_inj in H. subst r. reflexivity.
Qed.
Print Assumptions C42_once_partial.

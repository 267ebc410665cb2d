(** Reconnecting, and what can go wrong. *)
From Verif Require Import Base Bytes Quagga QuaggaSpec QuaggaInProofs QuaggaReadProofs QuaggaHnaProofs QuaggaOutProofs.

Lemma msg_write_ok c w cmd type s ops : version_ok (z_version c) -> 0 <= type < 256 -> cmd = 11 \/ cmd = 12 \/ cmd = 23 ->
  lasting w -> s_conn s = true -> zebra_sees (z_version c) (z_v6 c) (s_sent s) ops ->
  match zwrite_msg w (zpacket_redistribute c cmd type) s with
  | WRet ret s' w' => ret = 0 /\ s_conn s' = true /\
      zebra_sees (z_version c) (z_v6 c) (s_sent s') (ops ++ [if cmd =? 23 then OpHello type else OpRedist (cmd =? 11) type]) /\
      s_leak s' = s_leak s /\ s_hna s' = s_hna s /\ s_calls s' = s_calls s /\ lasting w' /\ Z.of_nat (count w) <= Z.of_nat (count w') + 4096
  | WWait _ => Z.of_nat (count w) < 4096
  | _ => False
  end.
Proof.
  intros V T CM LW C SE. destruct (redist_packet_ok c cmd type V T CM) as (pkt & body & E & F & D).
  rewrite E. cbn [zwrite_msg]. pose proof (zclient_write_ok w pkt body s F LW C) as H.
  destruct (zclient_write w pkt s) as [rt s' w'|s'| |]; try exact H.
  destruct H as (-> & -> & LL & CW). cbn [s_conn s_sent s_leak s_calls s_hna].
  split; [reflexivity|]. split; [exact C|]. split; [exact (sees_snoc _ _ _ _ _ _ _ SE F D)|]. repeat split; assumption.
Qed.

Lemma redistribute_ok c cmd : version_ok (z_version c) -> cmd = 11 \/ cmd = 12 -> forall red type w s ops, 0 <= type -> type + Z.of_nat (length red) <= 256 ->
  lasting w -> s_conn s = true -> zebra_sees (z_version c) (z_v6 c) (s_sent s) ops ->
  match redistribute_loop c w cmd type red s with
  | WRet ret s' w' => ret = 0 /\ s_conn s' = true /\ zebra_sees (z_version c) (z_v6 c) (s_sent s') (ops ++ map (OpRedist (cmd =? 11)) (asked type red)) /\
      s_leak s' = s_leak s /\ s_hna s' = s_hna s /\ s_calls s' = s_calls s /\ lasting w' /\
      Z.of_nat (count w) <= Z.of_nat (count w') + 4096 * Z.of_nat (length red)
  | WWait _ => Z.of_nat (count w) < 4096 * Z.of_nat (length red)
  | _ => False
  end.
Proof.
  intros V CM. induction red as [|b red IH]; intros type w s ops T0 T LW C SE.
  - cbn [redistribute_loop asked map length]. rewrite app_nil_r. repeat split; try assumption. lia.
  - cbn [length] in T. destruct b; cbn [redistribute_loop asked].
    + assert (TT : 0 <= type < 256) by lia. assert (CM' : cmd = 11 \/ cmd = 12 \/ cmd = 23) by lia.
      pose proof (msg_write_ok c w cmd type s ops V TT CM' LW C SE) as H.
      destruct (zwrite_msg w (zpacket_redistribute c cmd type) s) as [rt s' w'|s'| |]; try exact H.
      * destruct H as (-> & C' & SE' & L' & H' & K' & LW' & CW). cbn [Z.ltb Z.compare].
        replace (cmd =? 23) with false in SE' by lia.
        specialize (IH (type + 1) w' s' _ ltac:(lia) ltac:(lia) LW' C' SE').
        destruct (redistribute_loop c w' cmd (type + 1) red s') as [rt2 s2 w2|s2| |]; try exact IH.
        -- destruct IH as (-> & C2 & SE2 & L2 & H2 & K2 & LW2 & CW2). split; [reflexivity|]. split; [exact C2|].
           split; [rewrite <- app_assoc in SE2; exact SE2|]. split; [congruence|]. split; [congruence|]. split; [congruence|]. split; [exact LW2|].
           cbn [length]. lia.
        -- cbn [length]. lia.
      * cbn [length]. lia.
    + specialize (IH (type + 1) w s ops ltac:(lia) ltac:(lia) LW C SE). cbn [app].
      destruct (redistribute_loop c w cmd (type + 1) red s) as [rt2 s2 w2|s2| |]; try exact IH.
      * destruct IH as (A1 & A2 & A3 & A4 & A5 & A6 & A7 & A8). repeat split; try assumption. cbn [length]. lia.
      * cbn [length]. lia.
Qed.

Lemma addroutes_changes c k : forall rs w s,
  addroutes c w rs k s = changes c w (map (fun r => (true, r)) rs) k s.
Proof.
  induction rs as [|r rs IH]; intros w s; [reflexivity|]. cbn [addroutes changes map].
  destruct (zebra_addroute c w r k s); try reflexivity. apply IH.
Qed.

Lemma reconnect_ok c w rt k s : cfg_ok c -> Forall (route_ok c) rt -> lasting w ->
  match zclient_reconnect c true w rt k s with
  | WRet ret s' w' => ret = 0 /\ s_conn s' = true /\
      (exists adds, Forall2 (op_add c) (if z_export c then rt else []) adds /\
        zebra_sees (z_version c) (z_v6 c) (s_sent s') (OpHello 11 :: adds ++ map (OpRedist true) (asked 0 (firstn 14 (z_redist c))))) /\
      s_leak s' = s_leak s /\ s_hna s' = s_hna s
  | WWait _ => Z.of_nat (count w) < 4096 * (15 + Z.of_nat (length rt))
  | _ => False
  end.
Proof.
  intros CO FR LW. assert (V : version_ok (z_version c)) by (destruct CO as [V _]; exact V).
  unfold zclient_reconnect. cbn [negb]. set (s0 := mkZs true [] (s_leak s) (s_calls s) (s_hna s)).
  assert (SE0 : zebra_sees (z_version c) (z_v6 c) (s_sent s0) []) by reflexivity.
  unfold zebra_hello. 
  pose proof (msg_write_ok c w ZEBRA_HELLO ZEBRA_ROUTE_OLSR s0 [] V ltac:(unfold ZEBRA_ROUTE_OLSR; lia) ltac:(unfold ZEBRA_HELLO; lia) LW eq_refl SE0) as H.
  destruct (zwrite_msg w (zpacket_redistribute c ZEBRA_HELLO ZEBRA_ROUTE_OLSR) s0) as [rt1 s1 w1|s1| |]; try exact H; [|lia].
  destruct H as (-> & C1 & SE1 & L1 & H1 & K1 & LW1 & CW1). cbn [Z.ltb Z.compare]. cbn [app] in SE1.
  assert (R : forall adds s2 w2, Forall2 (op_add c) (if z_export c then rt else []) adds -> s_conn s2 = true -> lasting w2 ->
     zebra_sees (z_version c) (z_v6 c) (s_sent s2) (OpHello 11 :: adds) -> s_leak s2 = s_leak s -> s_hna s2 = s_hna s ->
     Z.of_nat (count w) <= Z.of_nat (count w2) + 4096 * (1 + Z.of_nat (length rt)) ->
     match zebra_redistribute c w2 ZEBRA_REDISTRIBUTE_ADD s2 with
     | WRet ret s' w' => ret = 0 /\ s_conn s' = true /\
      (exists adds, Forall2 (op_add c) (if z_export c then rt else []) adds /\
        zebra_sees (z_version c) (z_v6 c) (s_sent s') (OpHello 11 :: adds ++ map (OpRedist true) (asked 0 (firstn 14 (z_redist c))))) /\
      s_leak s' = s_leak s /\ s_hna s' = s_hna s
     | WWait _ => Z.of_nat (count w) < 4096 * (15 + Z.of_nat (length rt))
     | _ => False
     end).
  { intros adds s2 w2 F2 C2 LW2 SE2 L2 H2 CW2. unfold zebra_redistribute. change (Z.to_nat ZEBRA_ROUTE_MAX) with 14%nat.
    assert (LEN : (length (firstn 14 (z_redist c)) <= 14)%nat) by (rewrite firstn_length; lia).
    pose proof (redistribute_ok c ZEBRA_REDISTRIBUTE_ADD V (or_introl eq_refl) (firstn 14 (z_redist c)) 0 w2 s2 _ ltac:(lia) ltac:(lia) LW2 C2 SE2) as H.
    destruct (redistribute_loop c w2 ZEBRA_REDISTRIBUTE_ADD 0 (firstn 14 (z_redist c)) s2) as [rt3 s3 w3|s3| |]; try exact H; [|lia].
    destruct H as (A1 & A2 & A3 & A4 & A5 & A6 & A7 & A8). split; [exact A1|]. split; [exact A2|]. split; [|split; congruence].
    exists adds. split; [exact F2|exact A3]. }
  destruct (z_export c) eqn:EX.
  - rewrite addroutes_changes.
    assert (FR' : Forall (fun p => route_ok c (snd p)) (map (fun r => (true, r)) rt)) by (apply Forall_map; exact FR).
    pose proof (changes_ok c k CO (map (fun r => (true, r)) rt) w1 s1 _ FR' LW1 C1 SE1) as H. rewrite map_length in H.
    destruct (changes c w1 (map (fun r => (true, r)) rt) k s1) as [rt2 s2 w2|s2| |]; try exact H; [|lia].
    destruct H as (adds & F2 & C2 & SE2 & L2 & H2 & K2 & LW2 & CW2).
    apply (R adds); try assumption.
    + clear - F2. revert adds F2. induction rt as [|r rt IH]; intros adds F2; inversion F2; subst; constructor; [assumption|now apply IH].
    + cbn in L1. congruence.
    + cbn in H1. congruence.
    + lia.
  - apply (R []); try assumption; [constructor|lia].
Qed.

(** *** Endless loops *)
Inductive scanned := SDone (off : Z) | SStuck | SMore.
Fixpoint zscan' (n : nat) (b : list Z) (size off : Z) : scanned :=
  match n with
  | O => SMore
  | S n' =>
    if size >=? off + 2 then
      match rd16 b off with
      | Some l => if (l =? 0) && (u16 off =? off) then SStuck else zscan' n' b size (u16 (off + l))
      | None => SMore
      end
    else SDone off
  end.
Lemma zscan_stuck fuel b size off : size >=? off + 2 = true -> rd16 b off = Some 0 -> u16 off = off -> zscan fuel b size off = None.
Proof.
  intros A B C. induction fuel as [|fuel IH]; [reflexivity|]. cbn [zscan]. rewrite A, B, Z.add_0_r, C. exact IH.
Qed.
Lemma zscan'_ok b size : forall n off fuel,
  match zscan' n b size off with
  | SDone off' => zscan fuel b size off = Some off' \/ zscan fuel b size off = None
  | SStuck => zscan fuel b size off = None
  | SMore => True
  end.
Proof.
  induction n as [|n IH]; intros off fuel; [exact I|]. cbn [zscan'].
  destruct (size >=? off + 2) eqn:G.
  - destruct (rd16 b off) as [l|] eqn:R; [|exact I]. destruct ((l =? 0) && (u16 off =? off)) eqn:Z0.
    + apply andb_prop in Z0. destruct Z0 as [Z1 Z2]. apply zscan_stuck; [exact G|rewrite R; f_equal; lia|lia].
    + destruct fuel as [|fuel]; [destruct (zscan' n b size (u16 (off + l))); [now right|reflexivity|exact I]|].
      cbn [zscan]. rewrite G, R. exact (IH (u16 (off + l)) fuel).
  - destruct fuel as [|fuel]; [now right|]. cbn [zscan]. rewrite G. now left.
Qed.

Fixpoint hangs (n : nat) (ev : list rres) (stream b : list Z) (size off : Z) : bool :=
  match ev with
  | RData q :: ev' =>
    let b := if size =? blen b then b ++ repeat 0 (Z.to_nat AUTOBUFCHUNK) else b in
    let k := Z.min q (Z.min (blen b - size) (blen stream)) in
    if k <=? 0 then false else
    let b' := firstn (Z.to_nat size) b ++ firstn (Z.to_nat k) stream ++ skipn (Z.to_nat (size + k)) b in
    match zscan' n b' (size + k) off with
    | SStuck => true
    | SMore => false
    | SDone off' => if size + k =? off' then false else hangs n ev' (skipn (Z.to_nat k) stream) b' (size + k) off'
    end
  | _ => false
  end.
Lemma hangs_ok n fuel : forall ev stream b size off, hangs n ev stream b size off = true -> zread_loop fuel ev stream b size off = RHang.
Proof.
  induction ev as [|e ev IH]; intros stream b size off H; [discriminate|]. destruct e as [q| | |]; try discriminate.
  cbn [hangs] in H. cbn [zread_loop]. cbv zeta in *.
  set (bb := if size =? blen b then b ++ repeat 0 (Z.to_nat AUTOBUFCHUNK) else b) in *. clearbody bb.
  set (k := Z.min q (Z.min (blen bb - size) (blen stream))) in *. clearbody k.
  destruct (k <=? 0); [discriminate|].
  set (b' := firstn (Z.to_nat size) bb ++ firstn (Z.to_nat k) stream ++ skipn (Z.to_nat (size + k)) bb) in *. clearbody b'.
  pose proof (zscan'_ok b' (size + k) n off fuel) as Z. destruct (zscan' n b' (size + k) off) as [off'| |]; [| |discriminate].
  - destruct (size + k =? off') eqn:G; [discriminate|]. destruct Z as [-> | ->]; [|reflexivity]. rewrite G. now apply IH.
  - now rewrite Z.
Qed.
Lemma hangs_poll n fuel c ev stream s : hangs n ev stream [] 0 0 = true -> zparse_connected fuel c ev stream s = PHang.
Proof. intros H. unfold zparse_connected, zclient_read. now rewrite (hangs_ok n fuel _ _ _ _ _ H). Qed.

(** *** Not connected *)
Lemma changes_offline c k w : version_ok (z_version c) -> z_additional c = false -> forall l s, Forall (fun p => route_ok c (snd p)) l -> cfg_ok c -> s_conn s = false ->
  changes c w l k s = WRet 0 (mkZs false (s_sent s) (s_leak s + Z.of_nat (length l)) (s_calls s) (s_hna s)) w.
Proof.
  intros V NA. induction l as [|[add r] l IH]; intros s F CO C.
  - cbn [changes length]. f_equal. destruct s; cbn in *. f_equal; [exact C|lia].
  - inversion F as [|? ? (AD & AB & AN & PL & HO) F']; subst. cbn [fst snd] in *. cbn [changes].
    assert (X : (if add then zebra_addroute c w r k s else zebra_delroute c w r k s) = WRet 0 (mkZs false (s_sent s) (s_leak s + 1) (s_calls s) (s_hna s)) w).
    { destruct add.
      - destruct (packet_ok c true r (q_best_gw r) (q_best_if r) (q_hops r) _ CO AD AB PL HO eq_refl) as (pkt & body & h & E & _).
        unfold zebra_addroute, zebra_send. change (if z_v6 c then ZEBRA_IPV6_ROUTE_ADD else ZEBRA_IPV4_ROUTE_ADD) with (if z_v6 c then 9 else 7).
        rewrite E. cbn [zwrite_msg]. unfold zclient_write. rewrite C. cbn [negb]. rewrite NA, andb_false_r. reflexivity.
      - destruct (packet_ok c false r (q_nh_gw r) (q_nh_if r) 0 _ CO AD AN PL ltac:(lia) eq_refl) as (pkt & body & h & E & _).
        unfold zebra_delroute, zebra_send. change (if z_v6 c then ZEBRA_IPV6_ROUTE_DELETE else ZEBRA_IPV4_ROUTE_DELETE) with (if z_v6 c then 10 else 8).
        rewrite E. cbn [zwrite_msg]. unfold zclient_write. rewrite C. cbn [negb]. rewrite NA, andb_false_r. reflexivity. }
    rewrite X, IH; [|exact F'|exact CO|reflexivity]. cbn [s_sent s_leak s_calls s_hna]. f_equal. f_equal. cbn [length]. lia.
Qed.

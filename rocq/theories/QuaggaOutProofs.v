(** What zebra sees of the route changes. *)
From Verif Require Import Base Bytes Quagga QuaggaSpec QuaggaInProofs QuaggaReadProofs QuaggaHnaProofs.

Lemma cut_app n (a b : list Z) : n = length a -> cut n (a ++ b) = Some (a, b).
Proof.
  intros ->. unfold cut. rewrite app_length. replace (length a <=? length a + length b)%nat with true by lia.
  rewrite firstn_app, firstn_all, skipn_app, skipn_all, Nat.sub_diag. cbn [firstn skipn app]. now rewrite app_nil_r.
Qed.
Lemma val_hton32 x : 0 <= x < 4294967296 -> val (hton32 x) = x.
Proof. intros H. unfold val, hton32, u8. cbn [fold_left]. lia. Qed.
Lemma u32_range x : 0 <= u32 x < 4294967296.
Proof. unfold u32. apply Z.mod_pos_bound. lia. Qed.

Lemma dec_cmd_ok c cmd h r : version_ok (z_version c) -> 0 <= cmd < 256 -> zhead c cmd = ZOk h -> dec_cmd (z_version c) (h ++ r) = Some (cmd, r).
Proof.
  intros V R H. unfold zhead, dec_cmd in *.
  assert (E : 256 * u8 (cmd / 256) + u8 cmd = cmd) by (unfold u8; lia).
  assert (E0 : u8 cmd = cmd) by (unfold u8; lia).
  destruct V as [V | [V | V]]; rewrite V in *; cbn [Z.eqb Pos.eqb orb] in H |- *; inversion H; subst; unfold hton16; cbn [app].
  - now rewrite E0.
  - change ((ZEBRA_HEADER_MARKER =? 255) && (u8 1 =? 1)) with true. cbn [orb]. now rewrite E.
  - change ((ZEBRA_HEADER_MARKER =? 255) && (u8 2 =? 2)) with true. now rewrite E.
Qed.
Lemma zhead_ok c cmd : version_ok (z_version c) -> exists h, zhead c cmd = ZOk h /\ blen h <= 4.
Proof. intros V. unfold zhead. destruct V as [V | [V | V]]; rewrite V; cbn; eexists; split; try reflexivity; unfold blen; cbn; lia. Qed.

Definition framed (pkt body : list Z) : Prop := pkt = hton16 (2 + blen body) ++ body /\ 2 + blen body <= 4096.

Lemma direct_spec v6 gw dst plen ifi : addr_ok gw -> addr_ok dst ->
  let direct := forallb (fun p => fst p =? snd p) (combine (fam v6 gw) (fam v6 dst)) && (plen =? if v6 then 128 else 32) in
  hop_of v6 dst plen gw ifi (if direct then HIf (u32 ifi) else HGw (fam v6 gw)).
Proof.
  intros [LG _] [LD _] direct. unfold hop_of.
  assert (W : forall a, firstn (if v6 then 16%nat else 4%nat) a = fam v6 a) by (intros a; unfold fam, alen; destruct v6; reflexivity).
  rewrite !W. unfold direct. destruct (forallb _ _) eqn:E1; cbn [andb].
  - apply forallb_combine in E1; [|unfold fam; rewrite !firstn_length, LG, LD; reflexivity].
    destruct (plen =? if v6 then 128 else 32) eqn:E2.
    + left. apply Z.eqb_eq in E2. now split; [|split].
    + right. apply Z.eqb_neq in E2. split; [|reflexivity]. intros [X _]. now apply E2.
  - right. split; [|reflexivity]. intros [_ X]. rewrite X, forallb_combine_refl in E1. discriminate.
Qed.

Lemma packet_ok c (add : bool) r gw ifi metric cmd :
  cfg_ok c -> addr_ok (q_dst r) -> addr_ok gw -> 0 <= q_plen r <= (if z_v6 c then 128 else 32) -> 0 <= metric < 4294967296 ->
  cmd = (if add then (if z_v6 c then 9 else 7) else (if z_v6 c then 10 else 8)) ->
  exists pkt body h, zpacket_route c cmd (zebra_route c r gw ifi metric) = ZOk pkt /\ framed pkt body /\
    hop_of (z_v6 c) (q_dst r) (q_plen r) gw ifi h /\
    dec_msg (z_version c) (z_v6 c) body = Some (OpRoute add 11 (z_flags c) (net_of (z_v6 c) (q_plen r) (q_dst r)) (q_plen r) [h]
        (if z_distance c =? 0 then None else Some (z_distance c)) (Some metric)).
Proof.
  intros (V & BF & BD) AD AG PL ME CM.
  pose proof (direct_spec (z_v6 c) gw (q_dst r) (q_plen r) ifi AG AD) as HO. cbv zeta in HO.
  destruct (zhead_ok c cmd V) as (hd & EH & LH).
  assert (CR : 0 <= cmd < 256) by (rewrite CM; destruct add, (z_v6 c); lia).
  destruct AD as [LD _]. destruct AG as [LG _].
  unfold zpacket_route, zebra_route. cbn [zr_type zr_flags zr_message zr_safi zr_prefixlen zr_prefix zr_nexthop zr_ifindex zr_metric zr_distance].
  rewrite EH. cbn [zbind].
  set (dir := forallb (fun p => fst p =? snd p) (combine (fam (z_v6 c) gw) (fam (z_v6 c) (q_dst r))) && (q_plen r =? if z_v6 c then 128 else 32)) in *.
  clearbody dir.
  assert (PB : 0 <= (q_plen r + 7) / 8 <= alen (z_v6 c)) by (unfold alen; destruct (z_v6 c); lia).
  assert (U : u8 ((q_plen r + 7) / 8) = (q_plen r + 7) / 8) by (unfold u8, alen in *; rewrite Z.mod_small; destruct (z_v6 c); lia).
  assert (UM : u32 metric = metric) by (unfold u32; apply Z.mod_small; exact ME).
  rewrite U, UM.
  assert (B16 : blen (q_dst r) = 16) by (unfold blen; lia).
  replace ((q_plen r + 7) / 8 >? blen (q_dst r)) with false by (unfold alen in PB; destruct (z_v6 c); lia).
  set (net := firstn (Z.to_nat ((q_plen r + 7) / 8)) (q_dst r)).
  assert (LN : length net = Z.to_nat ((q_plen r + 7) / 8)) by (unfold net; rewrite firstn_length; unfold alen in PB; destruct (z_v6 c); lia).
  set (msg := if z_distance c =? 0 then 9 else 13).
  assert (M0 : zbit msg ZAPI_NEXTHOP = true /\ zbit msg ZAPI_METRIC = true /\ zbit msg ZAPI_DISTANCE = negb (z_distance c =? 0)) by (unfold msg; destruct (z_distance c =? 0); now vm_compute).
  destruct M0 as (M0 & M3 & M2). rewrite M0, M3, M2.
  set (hop := if dir then HIf (u32 ifi) else HGw (fam (z_v6 c) gw)) in *.
  set (hopb := if dir then ZEBRA_NEXTHOP_IFINDEX :: hton32 (u32 ifi) else (if z_v6 c then ZEBRA_NEXTHOP_IPV6 else ZEBRA_NEXTHOP_IPV4) :: fam (z_v6 c) gw).
  set (dist := if negb (z_distance c =? 0) then [if z_distance c =? 0 then 0 else z_distance c] else []).
  assert (HB : [u8 (blen (if dir then [u32 ifi] else []) + Z.of_nat (length (if dir then [] else [gw])))] ++
      concat (map (fun a => (if z_v6 c then ZEBRA_NEXTHOP_IPV6 else ZEBRA_NEXTHOP_IPV4) :: fam (z_v6 c) a) (if dir then [] else [gw])) ++
      concat (map (fun i => ZEBRA_NEXTHOP_IFINDEX :: hton32 i) (if dir then [u32 ifi] else [])) = 1 :: hopb).
  { unfold hopb. destruct dir; cbn [map concat app length]; rewrite ?app_nil_r; reflexivity. }
  rewrite HB.
  set (safi := if z_version c =? 2 then hton16 SAFI_UNICAST else []).
  assert (LF : blen (fam (z_v6 c) gw) = alen (z_v6 c)) by (unfold fam, blen, alen; rewrite firstn_length; destruct (z_v6 c); lia).
  assert (LHB : blen hopb <= 17).
  { unfold hopb. destruct dir; [unfold blen; cbn; lia|]. destruct (z_v6 c); unfold blen, alen in *; cbn [length]; lia. }
  set (body := hd ++ [ZEBRA_ROUTE_OLSR; z_flags c; msg] ++ safi ++ [q_plen r] ++ net ++ (1 :: hopb) ++ dist ++ hton32 metric).
  assert (LBo : 2 + blen body <= 4096).
  { unfold body. rewrite !blen_app. assert (X1 : blen safi <= 2) by (unfold safi; destruct (z_version c =? 2); unfold blen; cbn; lia).
    assert (X2 : blen dist <= 1) by (unfold dist; destruct (z_distance c =? 0); unfold blen; cbn; lia).
    assert (X3 : blen (1 :: hopb) <= 18) by (unfold blen in *; cbn [length]; lia).
    assert (X4 : blen net <= 16) by (unfold blen; rewrite LN; unfold alen in PB; destruct (z_v6 c); lia).
    change (blen [ZEBRA_ROUTE_OLSR; z_flags c; msg]) with 3. change (blen [q_plen r]) with 1. change (blen (hton32 metric)) with 4. lia. }
  exists (hton16 (2 + blen body) ++ body), body, hop. split.
  { unfold zfinish. replace (2 + blen body <=? ZEBRA_MAX_PACKET_SIZ) with true by (unfold ZEBRA_MAX_PACKET_SIZ; lia). reflexivity. }
  split; [split; [reflexivity|exact LBo]|]. split; [exact HO|].
  unfold dec_msg, body. rewrite (dec_cmd_ok c cmd hd _ V CR EH).
  set (R := dec_route (z_version c) (if z_v6 c then 16%nat else 4%nat)).
  assert (G : R add ([ZEBRA_ROUTE_OLSR; z_flags c; msg] ++ safi ++ [q_plen r] ++ net ++ (1 :: hopb) ++ dist ++ hton32 metric) =
    Some (OpRoute add 11 (z_flags c) (net_of (z_v6 c) (q_plen r) (q_dst r)) (q_plen r) [hop] (if z_distance c =? 0 then None else Some (z_distance c)) (Some metric))).
  { unfold R, dec_route. cbn [app].
    assert (SA : (if z_version c =? 2 then match safi ++ q_plen r :: net ++ 1 :: hopb ++ dist ++ hton32 metric with 0 :: 1 :: l2 => Some l2 | _ => None end
                  else Some (safi ++ q_plen r :: net ++ 1 :: hopb ++ dist ++ hton32 metric)) = Some (q_plen r :: net ++ 1 :: hopb ++ dist ++ hton32 metric)).
    { unfold safi. destruct (z_version c =? 2); reflexivity. }
    rewrite SA.
    replace (q_plen r >? 8 * Z.of_nat (if z_v6 c then 16%nat else 4%nat)) with false by (destruct (z_v6 c); lia).
    rewrite (cut_app _ net) by (symmetry; exact LN).
    change (Z.testbit msg 0) with (zbit msg ZAPI_NEXTHOP). change (Z.testbit msg 2) with (zbit msg ZAPI_DISTANCE). change (Z.testbit msg 3) with (zbit msg ZAPI_METRIC).
    rewrite M0, M2, M3. change (Z.to_nat 1) with 1%nat.
    assert (DH : dec_hops 1 (hopb ++ dist ++ hton32 metric) = Some ([hop], dist ++ hton32 metric)).
    { unfold hopb, hop. destruct dir.
      - cbn [dec_hops app]. change (ZEBRA_NEXTHOP_IFINDEX =? 1) with true. rewrite (cut_app 4 (hton32 (u32 ifi))) by reflexivity.
        rewrite val_hton32 by apply u32_range. reflexivity.
      - cbn [dec_hops app]. unfold blen, alen in LF. destruct (z_v6 c).
        + change (ZEBRA_NEXTHOP_IPV6 =? 1) with false. change (ZEBRA_NEXTHOP_IPV6 =? 3) with false. change (ZEBRA_NEXTHOP_IPV6 =? 6) with true.
          rewrite (cut_app 16 (fam true gw)) by lia. reflexivity.
        + change (ZEBRA_NEXTHOP_IPV4 =? 1) with false. change (ZEBRA_NEXTHOP_IPV4 =? 3) with true.
          rewrite (cut_app 4 (fam false gw)) by lia. reflexivity. }
    rewrite DH.
    assert (DD : (if negb (z_distance c =? 0) then match dist ++ hton32 metric with d :: l7 => Some (Some d, l7) | [] => None end else Some (None, dist ++ hton32 metric))
                 = Some (if z_distance c =? 0 then None else Some (z_distance c), hton32 metric)).
    { unfold dist. destruct (z_distance c =? 0); reflexivity. }
    rewrite DD. rewrite <- (app_nil_r (hton32 metric)), (cut_app 4 (hton32 metric) []) by reflexivity.
    rewrite val_hton32 by exact ME. f_equal. f_equal. unfold net_of. fold net. rewrite LN. reflexivity. }
  rewrite CM. destruct add, (z_v6 c); cbn [Z.eqb Pos.eqb]; exact G.
Qed.

Lemma redist_packet_ok c cmd type : version_ok (z_version c) -> 0 <= type < 256 -> cmd = 11 \/ cmd = 12 \/ cmd = 23 ->
  exists pkt body, zpacket_redistribute c cmd type = ZOk pkt /\ framed pkt body /\
    dec_msg (z_version c) (z_v6 c) body = Some (if cmd =? 23 then OpHello type else OpRedist (cmd =? 11) type).
Proof.
  intros V T CM. destruct (zhead_ok c cmd V) as (hd & EH & LH).
  assert (LB : 2 + blen (hd ++ [type]) <= 4096) by (rewrite blen_app; change (blen [type]) with 1; lia).
  exists (hton16 (2 + blen (hd ++ [type])) ++ hd ++ [type]), (hd ++ [type]). unfold zpacket_redistribute. rewrite EH. cbn [zbind]. split.
  - unfold zfinish. replace (2 + blen (hd ++ [type]) <=? ZEBRA_MAX_PACKET_SIZ) with true by (unfold ZEBRA_MAX_PACKET_SIZ; lia). reflexivity.
  - split; [split; [reflexivity|exact LB]|].
    unfold dec_msg. assert (CR : 0 <= cmd < 256) by lia. rewrite (dec_cmd_ok c cmd hd _ V CR EH).
    destruct CM as [-> | [-> | ->]]; destruct (z_v6 c); reflexivity.
Qed.

(** *** The stream *)
Lemma dec_stream_fuel v v6 : forall n l ops, dec_stream n v v6 l = Some ops -> forall n', (length l <= n')%nat -> dec_stream n' v v6 l = Some ops.
Proof.
  induction n as [|n IH]; intros l ops H n' L.
  - destruct l as [|a [|b r]]; cbn in H; try discriminate. destruct n'; exact H.
  - destruct l as [|a [|b r]]; cbn [dec_stream] in H; try discriminate; [destruct n'; exact H|].
    destruct n' as [|n']; [cbn in L; lia|]. cbn [dec_stream]. cbv zeta in *.
    destruct (256 * a + b <? 2); [discriminate|].
    destruct (cut (Z.to_nat (256 * a + b - 2)) r) as [[m r']|] eqn:C; [|discriminate].
    destruct (dec_msg v v6 m); [|discriminate].
    destruct (dec_stream n v v6 r') eqn:D; [|discriminate].
    rewrite (IH _ _ D n'); [exact H|].
    unfold cut in C. destruct (Z.to_nat (256 * a + b - 2) <=? length r)%nat; [|discriminate]. apply Some_inj in C. inversion C; subst.
    rewrite skipn_length. cbn [length] in L. lia.
Qed.

Lemma dec_stream_framed v v6 pkt body op rest n ops : framed pkt body -> dec_msg v v6 body = Some op -> dec_stream n v v6 rest = Some ops ->
  dec_stream (S n) v v6 (pkt ++ rest) = Some (op :: ops).
Proof.
  intros (-> & L) D R. pose proof (blen_nonneg body) as NN. rewrite <- app_assoc. unfold hton16. cbn [app dec_stream]. cbv zeta.
  assert (E : 256 * u8 ((2 + blen body) / 256) + u8 (2 + blen body) = 2 + blen body) by (unfold u8; lia).
  rewrite E. replace (2 + blen body <? 2) with false by lia.
  rewrite (cut_app _ body) by (unfold blen; lia). rewrite D, R. reflexivity.
Qed.

Lemma dec_stream_mono v v6 : forall n l ops, dec_stream n v v6 l = Some ops -> forall n', (n <= n')%nat -> dec_stream n' v v6 l = Some ops.
Proof.
  induction n as [|n IH]; intros l ops H n' L.
  - destruct l as [|a [|b r]]; cbn in H; try discriminate. destruct n'; exact H.
  - destruct l as [|a [|b r]]; cbn [dec_stream] in H; try discriminate; [destruct n'; exact H|].
    destruct n' as [|n']; [lia|]. cbn [dec_stream]. cbv zeta in *.
    destruct (256 * a + b <? 2); [discriminate|].
    destruct (cut (Z.to_nat (256 * a + b - 2)) r) as [[m r']|] eqn:C; [|discriminate].
    destruct (dec_msg v v6 m); [|discriminate].
    destruct (dec_stream n v v6 r') eqn:D; [|discriminate].
    rewrite (IH _ _ D n'); [exact H|lia].
Qed.

Lemma cut_more n (r m r' l2 : list Z) : cut n r = Some (m, r') -> cut n (r ++ l2) = Some (m, r' ++ l2).
Proof.
  unfold cut. destruct (n <=? length r)%nat eqn:E; [|discriminate]. intros H. apply Some_inj in H. inversion H; subst.
  rewrite app_length. replace (n <=? length r + length l2)%nat with true by lia.
  rewrite firstn_app, skipn_app. replace (n - length r)%nat with 0%nat by lia. cbn [firstn skipn]. now rewrite app_nil_r.
Qed.

Lemma dec_stream_app v v6 : forall n l1 ops1 m l2 ops2, dec_stream n v v6 l1 = Some ops1 -> dec_stream m v v6 l2 = Some ops2 ->
  dec_stream (n + m) v v6 (l1 ++ l2) = Some (ops1 ++ ops2).
Proof.
  induction n as [|n IH]; intros l1 ops1 m l2 ops2 H1 H2.
  - destruct l1 as [|a [|b r]]; cbn in H1; try discriminate. apply Some_inj in H1. subst. exact H2.
  - destruct l1 as [|a [|b r]]; cbn [dec_stream] in H1; try discriminate.
    + apply Some_inj in H1. subst. cbn [app]. apply (dec_stream_mono v v6 m); [exact H2|lia].
    + cbn [Nat.add app dec_stream]. cbv zeta in *.
      destruct (256 * a + b <? 2); [discriminate|].
      destruct (cut (Z.to_nat (256 * a + b - 2)) r) as [[x r']|] eqn:C; [|discriminate].
      rewrite (cut_more _ _ _ _ l2 C).
      destruct (dec_msg v v6 x); [|discriminate].
      destruct (dec_stream n v v6 r') eqn:D; [|discriminate]. apply Some_inj in H1. subst.
      rewrite (IH _ _ _ _ _ D H2). reflexivity.
Qed.

Lemma sees_snoc v v6 l ops pkt body op : zebra_sees v v6 l ops -> framed pkt body -> dec_msg v v6 body = Some op ->
  zebra_sees v v6 (l ++ pkt) (ops ++ [op]).
Proof.
  intros S F D. unfold zebra_sees in *.
  assert (P : dec_stream 1 v v6 pkt = Some [op]) by (rewrite <- (app_nil_r pkt); apply (dec_stream_framed v v6 pkt body op [] 0 []); [exact F|exact D|reflexivity]).
  exact (dec_stream_fuel v v6 _ _ _ (dec_stream_app v v6 _ _ _ _ _ _ S P) _ (Nat.le_refl _)).
Qed.

(** *** Writing *)
Definition count (w : list wres) : nat := length (filter takes w).

Lemma zwrite_loop_ok : forall w pnt len s, lasting w -> 0 < len < 65536 -> len <= blen pnt ->
  match zwrite_loop w pnt len s with
  | WRet ret s' w' => ret = 0 /\ s' = mkZs (s_conn s) (s_sent s ++ firstn (Z.to_nat len) pnt) (s_leak s) (s_calls s) (s_hna s) /\ lasting w' /\
                      Z.of_nat (count w) <= Z.of_nat (count w') + len
  | WWait _ => Z.of_nat (count w) < len
  | _ => False
  end.
Proof.
  induction w as [|x w IH]; intros pnt len s LW R B.
  - cbn. lia.
  - inversion LW as [|? ? N LW']; subst. destruct x as [n| |]; [| |now elim N].
    + cbn [zwrite_loop]. cbv zeta. set (ret := Z.max 0 (Z.min n len)).
      assert (RR : 0 <= ret <= len) by (unfold ret; lia).
      assert (CT : (takes (WSome n) = true -> 1 <= ret)) by (cbn [takes]; unfold ret; lia).
      assert (CC : Z.of_nat (count (WSome n :: w)) <= Z.of_nat (count w) + (if takes (WSome n) then 1 else 0)).
      { unfold count. cbn [filter]. destruct (takes (WSome n)); cbn [length]; lia. }
      clearbody ret. unfold u16. rewrite Z.mod_small by lia.
      destruct (len - ret =? 0) eqn:E.
      * replace len with ret by lia. split; [reflexivity|]. split; [reflexivity|]. split; [exact LW'|]. destruct (takes (WSome n)); lia.
      * specialize (IH (skipn (Z.to_nat ret) pnt) (len - ret) (mkZs (s_conn s) (s_sent s ++ firstn (Z.to_nat ret) pnt) (s_leak s) (s_calls s) (s_hna s)) LW' ltac:(lia)).
        assert (B' : len - ret <= blen (skipn (Z.to_nat ret) pnt)) by (unfold blen in *; rewrite skipn_length; lia).
        specialize (IH B'). cbn [s_conn s_sent s_leak s_calls s_hna] in IH.
        destruct (zwrite_loop w (skipn (Z.to_nat ret) pnt) (len - ret) _) as [rt s' w'|s'| |]; try exact IH.
        -- destruct IH as (-> & -> & LL & CW). split; [reflexivity|]. split; [|split; [exact LL|destruct (takes (WSome n)); [specialize (CT eq_refl)|]; lia]].
           f_equal. rewrite <- app_assoc. f_equal.
           replace (Z.to_nat len) with (Z.to_nat ret + Z.to_nat (len - ret))%nat by lia.
           rewrite <- (firstn_skipn (Z.to_nat ret) pnt) at 3. rewrite firstn_app. 
           rewrite (firstn_all2 (firstn _ pnt)) by (rewrite firstn_length; lia). f_equal. f_equal. rewrite firstn_length. unfold blen in *. lia.
        -- destruct (takes (WSome n)); [specialize (CT eq_refl)|]; lia.
    + cbn [zwrite_loop]. replace (len =? 0) with false by lia.
      specialize (IH pnt len s LW' R B). destruct (zwrite_loop w pnt len s) as [rt s' w'|s'| |]; exact IH.
Qed.

Lemma zclient_write_ok w pkt body s : framed pkt body -> lasting w -> s_conn s = true ->
  match zclient_write w pkt s with
  | WRet ret s' w' => ret = 0 /\ s' = mkZs (s_conn s) (s_sent s ++ pkt) (s_leak s) (s_calls s) (s_hna s) /\ lasting w' /\
                      Z.of_nat (count w) <= Z.of_nat (count w') + 4096
  | WWait _ => Z.of_nat (count w) < 4096
  | _ => False
  end.
Proof.
  intros (E & L) LW C. unfold zclient_write. rewrite C. cbn [negb]. pose proof (blen_nonneg body) as NN.
  assert (LP : blen pkt = 2 + blen body) by (rewrite E, blen_app; reflexivity).
  set (buf := pkt ++ repeat 0 (Z.to_nat (ZEBRA_MAX_PACKET_SIZ - blen pkt))).
  assert (R : rd16 buf 0 = Some (2 + blen body)).
  { unfold buf. rewrite E at 1. rewrite <- app_assoc. unfold rd16. pose proof (rdn_at [] (hton16 (2 + blen body)) (body ++ repeat 0 (Z.to_nat (ZEBRA_MAX_PACKET_SIZ - blen pkt))) 0 2 eq_refl eq_refl) as RA.
    cbn [app] in RA. rewrite RA.
    cbn [option_map]. f_equal. unfold be, hton16, u8. cbn [fold_left]. lia. }
  rewrite R. pose proof (zwrite_loop_ok w buf (2 + blen body) s LW ltac:(lia)) as H.
  assert (B : 2 + blen body <= blen buf) by (unfold buf; rewrite blen_app, LP; pose proof (blen_nonneg (repeat 0 (Z.to_nat (ZEBRA_MAX_PACKET_SIZ - (2 + blen body))))); lia).
  specialize (H B). destruct (zwrite_loop w buf (2 + blen body) s) as [rt s' w'|s'| |]; try exact H.
  - destruct H as (-> & -> & LL & CW). split; [reflexivity|]. split; [|split; [exact LL|lia]]. f_equal; [exact C|]. f_equal.
    unfold buf. rewrite firstn_app. replace (Z.to_nat (2 + blen body) - length pkt)%nat with 0%nat by (unfold blen in *; lia).
    cbn [firstn]. rewrite app_nil_r. apply firstn_all2. unfold blen in *. lia.
  - lia.
Qed.

Lemma send_ok c w add m r k s pkt body op ops : m = ZOk pkt -> framed pkt body -> dec_msg (z_version c) (z_v6 c) body = Some op ->
  lasting w -> s_conn s = true -> zebra_sees (z_version c) (z_v6 c) (s_sent s) ops ->
  match zebra_send c w add m r k s with
  | WRet ret s' w' => (z_additional c = false -> ret = 0) /\ s_conn s' = true /\ zebra_sees (z_version c) (z_v6 c) (s_sent s') (ops ++ [op]) /\
      s_leak s' = s_leak s /\ s_hna s' = s_hna s /\ s_calls s' = s_calls s ++ (if z_additional c then [(add, r)] else []) /\ lasting w' /\
      Z.of_nat (count w) <= Z.of_nat (count w') + 4096
  | WWait _ => Z.of_nat (count w) < 4096
  | _ => False
  end.
Proof.
  intros -> F D LW C SE. unfold zebra_send, zwrite_msg. pose proof (zclient_write_ok w pkt body s F LW C) as H.
  destruct (zclient_write w pkt s) as [rt s' w'|s'| |]; try exact H.
  destruct H as (-> & -> & LL & CW). cbn [Z.eqb andb s_conn s_sent s_leak s_calls s_hna].
  pose proof (sees_snoc _ _ _ _ _ _ _ SE F D) as SE'.
  destruct (z_additional c); cbn [s_conn s_sent s_leak s_calls s_hna].
  - split; [discriminate|]. split; [exact C|]. split; [exact SE'|]. repeat split; assumption.
  - split; [reflexivity|]. split; [exact C|]. split; [exact SE'|]. rewrite app_nil_r. repeat split; assumption.
Qed.

Lemma change_ok c w (p : bool * qroute) k s ops : cfg_ok c -> route_ok c (snd p) -> lasting w -> s_conn s = true ->
  zebra_sees (z_version c) (z_v6 c) (s_sent s) ops ->
  match (if fst p then zebra_addroute c w (snd p) k s else zebra_delroute c w (snd p) k s) with
  | WRet ret s' w' => exists op, change_op c p op /\ (z_additional c = false -> ret = 0) /\ s_conn s' = true /\ zebra_sees (z_version c) (z_v6 c) (s_sent s') (ops ++ [op]) /\
      s_leak s' = s_leak s /\ s_hna s' = s_hna s /\ s_calls s' = s_calls s ++ (if z_additional c then [p] else []) /\ lasting w' /\
      Z.of_nat (count w) <= Z.of_nat (count w') + 4096
  | WWait _ => Z.of_nat (count w) < 4096
  | _ => False
  end.
Proof.
  intros CO (AD & AB & AN & PL & HO) LW C SE. destruct p as [add r]. cbn [fst snd] in *. destruct add.
  - destruct (packet_ok c true r (q_best_gw r) (q_best_if r) (q_hops r) _ CO AD AB PL HO eq_refl) as (pkt & body & h & E & F & HH & D).
    pose proof (send_ok c w true _ r k s pkt body _ ops E F D LW C SE) as X. unfold zebra_addroute.
    change (if z_v6 c then ZEBRA_IPV6_ROUTE_ADD else ZEBRA_IPV4_ROUTE_ADD) with (if true then (if z_v6 c then 9 else 7) else (if z_v6 c then 10 else 8)).
    destruct (zebra_send _ _ _ _ _ _ _) as [rt s' w'|s'| |]; try exact X.
    eexists. split; [|exact X]. unfold change_op, op_add. cbn [fst snd]. exists h. split; [exact HH|reflexivity].
  - destruct (packet_ok c false r (q_nh_gw r) (q_nh_if r) 0 _ CO AD AN PL ltac:(lia) eq_refl) as (pkt & body & h & E & F & HH & D).
    pose proof (send_ok c w false _ r k s pkt body _ ops E F D LW C SE) as X. unfold zebra_delroute.
    change (if z_v6 c then ZEBRA_IPV6_ROUTE_DELETE else ZEBRA_IPV4_ROUTE_DELETE) with (if false then (if z_v6 c then 9 else 7) else (if z_v6 c then 10 else 8)).
    destruct (zebra_send _ _ _ _ _ _ _) as [rt s' w'|s'| |]; try exact X.
    eexists. split; [|exact X]. unfold change_op, op_del. cbn [fst snd]. exists h. split; [exact HH|reflexivity].
Qed.

Lemma changes_ok c k : cfg_ok c -> forall l w s ops, Forall (fun p => route_ok c (snd p)) l -> lasting w -> s_conn s = true ->
  zebra_sees (z_version c) (z_v6 c) (s_sent s) ops ->
  match changes c w l k s with
  | WRet _ s' w' => exists ops', Forall2 (change_op c) l ops' /\ s_conn s' = true /\ zebra_sees (z_version c) (z_v6 c) (s_sent s') (ops ++ ops') /\
      s_leak s' = s_leak s /\ s_hna s' = s_hna s /\ s_calls s' = s_calls s ++ (if z_additional c then l else []) /\ lasting w' /\
      Z.of_nat (count w) <= Z.of_nat (count w') + 4096 * Z.of_nat (length l)
  | WWait _ => Z.of_nat (count w) < 4096 * Z.of_nat (length l)
  | _ => False
  end.
Proof.
  intros CO. induction l as [|[add r] l IH]; intros w s ops F LW C SE.
  - cbn [changes]. exists []. rewrite app_nil_r. split; [constructor|]. split; [exact C|]. split; [exact SE|].
    split; [reflexivity|]. split; [reflexivity|]. split; [destruct (z_additional c); now rewrite app_nil_r|]. split; [exact LW|]. cbn [length]. lia.
  - inversion F as [|? ? Fr F']; subst. cbn [changes].
    pose proof (change_ok c w (add, r) k s ops CO Fr LW C SE) as X. cbn [fst snd] in X.
    destruct (if add then zebra_addroute c w r k s else zebra_delroute c w r k s) as [rt s' w'|s'| |]; try exact X.
    + destruct X as (op & OP & _ & C' & SE' & L' & H' & K' & LW' & CW).
      specialize (IH w' s' (ops ++ [op]) F' LW' C' SE').
      destruct (changes c w' l k s') as [rt2 s2 w2|s2| |]; try exact IH.
      * destruct IH as (ops' & F2 & C2 & SE2 & L2 & H2 & K2 & LW2 & CW2). exists (op :: ops').
        split; [now constructor|]. split; [exact C2|]. split; [rewrite <- app_assoc in SE2; exact SE2|].
        split; [congruence|]. split; [congruence|]. split; [rewrite K2, K', <- app_assoc; destruct (z_additional c); reflexivity|]. split; [exact LW2|].
        cbn [length]. lia.
      * cbn [length]. lia.
    + cbn [length]. lia.
Qed.

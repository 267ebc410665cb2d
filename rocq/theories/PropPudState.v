(** C163: the movement state of the PUD plugin. C164: when updates are sent and what they have.
    C165: the cluster leader. *)
From Verif Require Import Base PudState PudStateSpec PudStateProofs.

(** the thresholds that are built in *)
Definition h0 : hyst := mkHyst 17 5 17 5.
Definition c0 : conf := mkC h0 60 5 180 15 true [10; 0; 0; 1].
Definition c1 : conf := mkC (mkHyst 2 2 2 1) 60 5 180 15 true [10; 0; 0; 1].
Definition nopos : position := mkP 0 false 0 0.

(** the state that is shown is the one of the calls in a row, for any calls; it is moving if the
    position or the gateway is; and the changes are reported *)
Theorem C163_hysteresis : forall h l g mv gp, hyst_ok h ->
  let s := calls l (init_state h) in let l' := l ++ [(g, mv, gp)] in
  st_ext s = moving h l /\
  exists s', determine g mv gp s = (s', negb (Bool.eqb (moving h l) (moving h l')),
    negb (if g then Bool.eqb (gw_shown h l) (gw_shown h l') else Bool.eqb (pos_shown h l) (pos_shown h l'))) /\ s' = calls l' (init_state h).
Proof. exact hysteresis. Qed.
Print Assumptions C163_hysteresis.
(** stationary after 17 calls each, then moving with the fifth call that says so *)
Example C163_hysteresis_ex : hyst_ok h0 /\ moving h0 (repeat (true, 1, false) 17) = false /\ moving h0 (repeat (true, 1, false) 16) = true /\
  moving h0 (repeat (true, 1, false) 17 ++ repeat (false, 2, false) 4) = false /\ moving h0 (repeat (true, 1, false) 17 ++ repeat (false, 2, false) 5) = true /\
  moving h0 (repeat (true, 1, false) 17 ++ [(false, 1, true)]) = true.
Proof. split; [unfold hyst_ok; cbn; lia|]. repeat (split; [vm_compute; reflexivity|]). vm_compute; reflexivity. Qed.

(** the timers have the interval of the state; missing: intervals of more than 4294967 seconds *)
Theorem C164_timers_partial : forall c p l, 0 <= c_stat c <= 4294967 -> 0 <= c_mov c <= 4294967 -> 0 <= c_ustat c <= 4294967 -> 0 <= c_umov c <= 4294967 ->
  let r := fst (run c l (start c p)) in
  r_timer r = 1000 * (if st_ext (r_st r) then c_mov c else c_stat c) /\ (c_uplink c = true -> r_utimer r = 1000 * (if st_ext (r_st r) then c_umov c else c_ustat c)).
Proof. exact timers. Qed.
Print Assumptions C164_timers_partial.
Example C164_timers_ex : let r := fst (run c0 (repeat (Gateway [10; 0; 0; 1]) 17) (start c0 nopos)) in r_timer r = 60000 /\ r_utimer r = 180000 /\ r_timer (start c0 nopos) = 5000.
Proof. split; [vm_compute; reflexivity|]. split; vm_compute; reflexivity. Qed.
(** false of a longer interval: updates are sent every 704 ms *)
Theorem C164_timers_refuted : exists c l, c_mov c <= c_stat c < 2 ^ 64 /\ hyst_ok (c_hyst c) /\ st_ext (r_st (fst (run c l (start c nopos)))) = false /\ c_stat c = 4294968 /\ r_timer (fst (run c l (start c nopos))) = 704.
Proof. exists (mkC h0 4294968 5 180 15 true [10; 0; 0; 1]), (repeat (Gateway [10; 0; 0; 1]) 17). split; [cbn; lia|]. split; [unfold hyst_ok; cbn; lia|]. split; [vm_compute; reflexivity|]. split; [reflexivity|vm_compute; reflexivity]. Qed.
Print Assumptions C164_timers_refuted.

(** apart from the timers, an update is sent if and only if the state changed *)
Theorem C164_at_once : forall c e r r' o, step c e r = (r', o) -> e <> Tick -> e <> UplinkTick ->
  (st_ext (r_st r') = st_ext (r_st r) -> o = []) /\
  (st_ext (r_st r') <> st_ext (r_st r) -> exists t, o = [t] /\ t_olsr t = true /\ t_uplink t = c_uplink c /\ t_pos t = r_pos r' /\ t_gw t = r_gw r' /\ t_val t = if st_ext (r_st r') then c_mov c else c_stat c).
Proof. exact at_once. Qed.
Print Assumptions C164_at_once.
Example C164_at_once_ex : let r := fst (run c0 (repeat (Gateway [10; 0; 0; 1]) 16) (start c0 nopos)) in exists r', step c0 (Gateway [10; 0; 0; 1]) r = (r', [mkT true true nopos 60 [10; 0; 0; 1]]) /\
  st_ext (r_st r') <> st_ext (r_st r).
Proof. eexists. split; [vm_compute; reflexivity|vm_compute; discriminate]. Qed.

(** each update has the gateway of the last check, and while moving the newest position *)
Theorem C164_leader : forall c p l e, let r := fst (run c l (start c p)) in forall r' o, step c e r = (r', o) -> Forall (fun t => t_gw t = last_gw (l ++ [e]) (c_main c)) o.
Proof. exact leader_sent. Qed.
Print Assumptions C164_leader.
Example C164_leader_ex : snd (step c0 UplinkTick (fst (run c0 [Gateway [10; 0; 0; 7]; Gateway [10; 0; 0; 9]; Incoming nopos 0 false false] (start c0 nopos)))) = [mkT false true nopos 5 [10; 0; 0; 9]].
Proof. vm_compute. reflexivity. Qed.
Theorem C164_newest : forall c avg mv i g r r' o, step c (Incoming avg mv i g) r = (r', o) -> st_ext (r_st r') = true ->
  Forall (fun t => t_pos t = avg) (o ++ snd (step c Tick r') ++ snd (step c UplinkTick r')).
Proof. exact newest. Qed.
Print Assumptions C164_newest.
Example C164_newest_ex : exists r' o, step c0 (Incoming (mkP 7 true 50 90) 0 false false) (start c0 nopos) = (r', o) /\ st_ext (r_st r') = true.
Proof. eexists _, _. split; vm_compute; reflexivity. Qed.
(** a new gateway is sent at once if it need not be seen twice; missing: the other thresholds *)
Theorem C164_gateway_partial : forall c p l b, hyst_ok (c_hyst c) -> h_gmov (c_hyst c) <= 1 -> let r := fst (run c l (start c p)) in st_ext (r_st r) = false -> b <> last_gw l (c_main c) ->
  exists r' t, step c (Gateway b) r = (r', [t]) /\ t_gw t = b /\ t_olsr t = true.
Proof. exact gateway_now. Qed.
Print Assumptions C164_gateway_partial.
Example C164_gateway_ex : hyst_ok (c_hyst c1) /\ st_ext (r_st (fst (run c1 [Gateway [10; 0; 0; 1]; Gateway [10; 0; 0; 1]] (start c1 nopos)))) = false.
Proof. split; [unfold hyst_ok; cbn; lia|vm_compute; reflexivity]. Qed.
(** false of the built-in ones: the new gateway counts as moving once only, so that nothing is
    sent, however long it stays *)
Definition still : rstate := Eval vm_compute in fst (run c0 (repeat (Gateway (c_main c0)) 17) (start c0 nopos)).
Definition still1 : rstate := Eval vm_compute in fst (run c0 [Gateway [10; 0; 0; 9]] still).
Definition still2 : rstate := Eval vm_compute in fst (run c0 [Gateway [10; 0; 0; 9]; Gateway [10; 0; 0; 9]] still).
Lemma stays n : forall r, s_int (st_gw (r_st r)) = false -> s_ext (st_gw (r_st r)) = false -> r_gw r = [10; 0; 0; 9] -> snd (run c0 (repeat (Gateway [10; 0; 0; 9]) n) r) = [].
Proof.
  induction n as [|n IH]; intros r I E G; [reflexivity|]. cbn [repeat run].
  assert (X : exists r', step c0 (Gateway [10; 0; 0; 9]) r = (r', []) /\ s_int (st_gw (r_st r')) = false /\ s_ext (st_gw (r_st r')) = false /\ r_gw r' = [10; 0; 0; 9]).
  { cbn [step]. unfold gateway_check. rewrite G. destruct (list_eq_dec Z.eq_dec [10; 0; 0; 9] [10; 0; 0; 9]) as [_|N]; [|now elim N].
    unfold determine, sub_step. cbn [Z.eqb SET Pos.eqb orb]. rewrite I, E. cbn [Bool.eqb negb s_ext st_gw r_st]. eexists. split; [reflexivity|]. cbn [r_st st_gw s_int s_ext r_gw]. split; [reflexivity|]. split; reflexivity. }
  destruct X as (r' & -> & X1 & X2 & X3). specialize (IH r' X1 X2 X3). destruct (run c0 (repeat (Gateway [10; 0; 0; 9]) n) r') as (r2 & o2). exact IH.
Qed.
Theorem C164_gateway_refuted : exists b, b <> c_main c0 /\ forall n, snd (run c0 (Gateway b :: repeat (Gateway b) n) (fst (run c0 (repeat (Gateway (c_main c0)) 17) (start c0 nopos)))) = [].
Proof.
  exists [10; 0; 0; 9]. split; [discriminate|]. intros n.
  assert (E : fst (run c0 (repeat (Gateway (c_main c0)) 17) (start c0 nopos)) = still) by (vm_compute; reflexivity). rewrite E. clear E.
  destruct n as [|n]; [vm_compute; reflexivity|]. cbn [repeat].
  assert (S1 : step c0 (Gateway [10; 0; 0; 9]) still = (still1, [])) by (vm_compute; reflexivity). assert (S2 : step c0 (Gateway [10; 0; 0; 9]) still1 = (still2, [])) by (vm_compute; reflexivity).
  cbn [run]. rewrite S1, S2. pose proof (stays n still2 eq_refl eq_refl eq_refl) as K. destruct (run c0 (repeat (Gateway [10; 0; 0; 9]) n) still2) as (r3 & o3). cbn [snd] in K. now subst o3.
Qed.
Print Assumptions C164_gateway_refuted.
(** a node that is stationary sends the speed it had before, if the gateway is the last to
    become stationary *)
Theorem C164_speed_refuted : exists l b t, let r := fst (run c1 l (start c1 nopos)) in
  snd (step c1 (Gateway b) r) = [t] /\ st_ext (r_st (fst (step c1 (Gateway b) r))) = false /\ p_speed (t_pos t) = 3.
Proof.
  exists [Incoming (mkP 1 true 50 90) 2 false false; Incoming (mkP 2 true 50 90) 2 false false; Incoming (mkP 3 true 50 90) 2 false false; Incoming (mkP 4 true 3 90) 1 false false; Incoming (mkP 5 true 3 90) 1 false false; Gateway [10; 0; 0; 1]], [10; 0; 0; 1], (mkT true true (mkP 5 true 3 90) 60 [10; 0; 0; 1]).
  split; [vm_compute; reflexivity|]. split; vm_compute; reflexivity.
Qed.
Print Assumptions C164_speed_refuted.

(** the leader is a gateway that may lead and has the most bandwidth; without one it is this
    node *)
Theorem C165_most : forall c l, Forall speeds_ok l ->
  ((forall g, In g l -> ~ may_lead c g) -> best_gateway c l = n_main c) /\
  (forall g0, In g0 l -> may_lead c g0 -> exists g, In g l /\ may_lead c g /\ best_gateway c l = g_org g /\ forall g', In g' l -> may_lead c g' -> g_up g' + g_down g' <= g_up g + g_down g).
Proof. exact best_ok. Qed.
Print Assumptions C165_most.
Definition gc4 : gcfg := mkGc false false true [10; 0; 0; 1] None None.
Definition gw4 (a : list Z) (u d : Z) : gwe := mkG a u d (Some 1024) true false false.
Example C165_most_ex : Forall speeds_ok [gw4 [10; 0; 0; 2] 100 900; gw4 [10; 0; 0; 3] 128 1024; gw4 [10; 0; 0; 4] 0 9000] /\ may_lead gc4 (gw4 [10; 0; 0; 2] 100 900) /\
  best_gateway gc4 [gw4 [10; 0; 0; 2] 100 900; gw4 [10; 0; 0; 3] 128 1024; gw4 [10; 0; 0; 4] 0 9000] = [10; 0; 0; 3].
Proof.
  split; [|split; [|vm_compute; reflexivity]].
  - repeat (constructor; [unfold speeds_ok; cbn; lia|]). constructor.
  - split; [exists 1024; split; [reflexivity|lia]|]. split; [discriminate|]. split; [discriminate|]. right. right. left. split; [reflexivity|]. split; [now left|now left].
Qed.
(** with equal bandwidth the lowest address leads in IPv6; missing: gateways for IPv4, and IPv4 *)
Theorem C165_lowest_partial : forall c l, Forall speeds_ok l -> n_v6 c = true -> n_cur4 c = None -> (n_niit c = false \/ Forall (fun g => g_v4 g = false) l) -> Forall (fun g => length (g_org g) = 16%nat) l ->
  forall g0, In g0 l -> may_lead c g0 -> exists g, In g l /\ best_gateway c l = g_org g /\
    forall g', In g' l -> may_lead c g' -> g_up g' + g_down g' = g_up g + g_down g -> g_org g' = g_org g \/ lower (g_org g) (g_org g').
Proof. exact tie6_ok. Qed.
Print Assumptions C165_lowest_partial.
Definition a6 (x y : Z) : list Z := [253; 0; 0; 0; 0; 0; 0; 0; 0; 0; 0; 0; 0; 0; x; y].
Definition gc6 (niit : bool) : gcfg := mkGc true niit true (a6 0 1) None None.
Definition gw6 (v4 : bool) (a : list Z) : gwe := mkG a 128 1024 (Some 1024) v4 false true.
Example C165_lowest_ex : Forall speeds_ok [gw6 false (a6 1 2); gw6 false (a6 0 9)] /\ may_lead (gc6 false) (gw6 false (a6 1 2)) /\ best_gateway (gc6 false) [gw6 false (a6 1 2); gw6 false (a6 0 9)] = a6 0 9 /\ lower (a6 0 9) (a6 1 2).
Proof.
  split; [repeat (constructor; [unfold speeds_ok; cbn; lia|]); constructor|]. split; [|split; [vm_compute; reflexivity|]].
  - split; [exists 1024; split; [reflexivity|lia]|]. split; [discriminate|]. split; [discriminate|]. right. right. right. split; reflexivity.
  - unfold a6. do 14 apply lower_later. apply lower_here. lia.
Qed.
(** false of IPv4: the bytes are compared from the last one on *)
Theorem C165_lowest_refuted : exists a b, lower a b /\ length a = 4%nat /\ best_gateway gc4 [gw4 a 128 1024; gw4 b 128 1024] = b /\ best_gateway gc4 [gw4 b 128 1024; gw4 a 128 1024] = b.
Proof. exists [10; 0; 0; 2], [10; 0; 1; 1]. split; [do 2 apply lower_later; apply lower_here; lia|]. split; [reflexivity|]. split; vm_compute; reflexivity. Qed.
Print Assumptions C165_lowest_refuted.
(** and of gateways for IPv4 in IPv6: the first four bytes are compared in that way *)
Theorem C165_niit_refuted : exists a b, lower a b /\ length a = 16%nat /\ best_gateway (gc6 true) [gw6 true a; gw6 true b] = b /\ best_gateway (gc6 false) [gw6 true a; gw6 true b] = a.
Proof.
  exists [32; 1; 0; 2; 0; 0; 0; 0; 0; 0; 0; 0; 0; 0; 0; 1], [32; 2; 0; 0; 0; 0; 0; 0; 0; 0; 0; 0; 0; 0; 0; 1].
  split; [apply lower_later, lower_here; lia|]. split; [reflexivity|]. split; vm_compute; reflexivity.
Qed.
Print Assumptions C165_niit_refuted.

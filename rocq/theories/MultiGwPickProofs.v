(** Proofs about the choice of the uplink. *)
From Verif Require Import Base GwSpeed Egress EgressSpec EgressProofs EgressRunProofs MultiGw MultiGwSpec MultiGwProofs MultiGwRunProofs MultiGwReachProofs.

(** ** costs *)
Definition ranged (C : mcfg) (g : mgw) : Prop := Forall (fun m => in_range (mc_w C) (e_up (m_e m)) (e_cur (m_e m))) (g_ifs g).
Lemma kept_ranged C g g' : kept (g_ifs g') = kept (g_ifs g) -> ranged C g -> ranged C g'.
Proof. intros E H. unfold ranged in *. rewrite Forall_forall in *. exact (kept_all (fun _ b _ u => in_range (mc_w C) u b) _ _ E H). Qed.
Lemma read_ranged C f g : ranged C g -> ranged C (fst (read_file C f g)).
Proof.
  intros H. unfold ranged, read_file in *. pose proof (poll_range (mc_w C) (mc_p6 C) (mkS (g_time g) (g_rep g) (map m_e (g_ifs g))) f) as R. pose proof (read_length (mc_w C) (mc_p6 C) (mkS (g_time g) (g_rep g) (map m_e (g_ifs g))) f) as L.
  destruct (readEgressFile _ _ _ f) as [[s ch] ops]. cbn [fst snd s_ifs g_ifs] in *. rewrite map_length in L.
  assert (X : Forall (fun e => in_range (mc_w C) (e_up e) (e_cur e)) (s_ifs s)).
  { apply R. apply Forall_forall. intros e He. apply in_map_iff in He. destruct He as (m & <- & Hm). rewrite Forall_forall in H. now apply H. }
  rewrite <- (put_e (g_ifs g) (s_ifs s) L) in X. rewrite Forall_forall in *. intros m Hm. apply (X (m_e m)). now apply in_map.
Qed.
Lemma change_ranged C f i g : ranged C g -> Forall (fun m => in_range (mc_w C) (e_up (m_e m)) (e_cur (m_e m)))
  (fst (match f with IfAdd (Some name) => if_add (mc_w C) name i (g_ifs g) | IfRemove => if_remove (mc_w C) i (g_ifs g) | _ => (g_ifs g, false) end)).
Proof.
  unfold ranged. generalize (g_ifs g). intros ms H.
  assert (Su : forall up m, in_range (mc_w C) (e_up (m_e m)) (e_cur (m_e m)) -> in_range (mc_w C) (e_up (m_e (set_up (mc_w C) up i m))) (e_cur (m_e (set_up (mc_w C) up i m)))).
  { intros up m (_ & X). split; [reflexivity|exact X]. }
  destruct f as [[name|]| |]; try exact H; cbn [fst].
  - induction ms as [|m ms IH]; cbn [if_add]; [constructor|]. inversion H as [|? ? H1 H2]. subst. destruct (leqb _ _).
    + pose proof (Su true m H1) as A1. assert (A2 : in_range (mc_w C) (e_up (m_e (set_index i m))) (e_cur (m_e (set_index i m)))) by exact H1.
      destruct (e_up (m_e m)); cbn [fst]; (constructor; [|exact H2]); assumption.
    + specialize (IH H2). destruct (if_add (mc_w C) name i ms) as [ms2 c]. cbn [fst] in *. now constructor.
  - induction ms as [|m ms IH]; cbn [if_remove]; [constructor|]. inversion H as [|? ? H1 H2]. subst. pose proof (Su false m H1) as A1. destruct (_ =? _); [destruct (e_up (m_e m)); cbn [fst]; [constructor; [exact A1|exact H2]|exact H]|].
    specialize (IH H2). destruct (if_remove (mc_w C) i ms) as [ms2 c]. cbn [fst] in *. now constructor.
Qed.
Lemma step_ranged C W o g : ranged C g -> ranged C (fst (gstep C W o g)).
Proof.
  intros H. destruct o as [f|i olsr f|c|]; cbn [gstep].
  - unfold poll. pose proof (read_ranged C f g H) as R. destruct (read_file C f g) as [g1 ch]. cbn [fst] in *. destruct ch; [|exact R]. apply (kept_ranged C g1); [apply doRoutes_kept|exact R].
  - unfold monitor. assert (A : ranged C (fst (if olsr then (g, []) else doEgressInterface C W i f g))).
    { destruct olsr; [exact H|]. unfold doEgressInterface. pose proof (change_ranged C f i g H) as R. destruct (match f with IfAdd (Some name) => if_add (mc_w C) name i (g_ifs g) | IfRemove => if_remove (mc_w C) i (g_ifs g) | _ => (g_ifs g, false) end) as [ms c]. cbn [fst] in R.
      destruct c; [|exact R]. apply (kept_ranged C (with_ifs g ms)); [apply doRoutes_kept|exact R]. }
    destruct (if olsr then (g, []) else doEgressInterface C W i f g) as [g1 t1]. cbn [fst] in A. pose proof (doRoutes_kept C W true true Runtime g1) as K. destruct (doRoutesMultiGw C W true true Runtime g1) as [g2 t2]. cbn [fst] in *. now apply (kept_ranged C g1).
  - apply (kept_ranged C (with_gw g (Some c))); [apply doRoutes_kept|exact H].
  - exact H.
Qed.
Lemma init_ranged C xs : ranged C (init C xs).
Proof.
  unfold ranged, init. cbn [g_ifs]. generalize 0%nat. induction xs as [|[[name i] up] xs IH]; intros n; cbn [init_ifs]; [constructor|]. constructor; [|apply IH]. apply clear_range.
Qed.
Lemma reach_ranged C A fl g F : reach C A fl g F -> ranged C g.
Proof.
  induction 1 as [xs W f H|g F W o R IH H|g F i R IH E]; [|now apply step_ranged|exact IH].
  unfold startup. apply (kept_ranged C (fst (read_file C f (init C xs)))); [apply doRoutes_kept|]. apply read_ranged. apply init_ranged.
Qed.
Lemma weigh_bound w up p u d : weights_ok w -> 0 <= p <= 2 ^ 32 - 1 -> 0 <= u -> 0 <= d -> 0 <= gw_costs_weigh w up p u d <= INT64_MAX.
Proof.
  intros (W1 & W2 & W3 & W4) P U D. unfold gw_costs_weigh, INT64_MAX. destruct (negb up); [lia|]. destruct (Z.eqb_spec (gc_div w) 0); [rewrite Z.shiftl_mul_pow2 by lia; lia|].
  destruct (Z.eqb_spec u 0); cbn [orb]; [lia|]. destruct (Z.eqb_spec d 0); cbn [orb]; [lia|]. destruct (_ && _); [lia|]. rewrite !Z.shiftl_mul_pow2 by lia.
  assert (Q : forall a b, 0 <= a -> 1 <= b -> 0 <= a / b <= a) by (intros a b A B; split; [apply Z.div_pos; lia|apply Z.div_le_upper_bound; [lia|]; set (c := b - 1); assert (b = 1 + c) by lia; rewrite H; assert (0 <= c * a) by (apply Z.mul_nonneg_nonneg; lia); lia]).
  assert (E : 0 <= u32 (p * gc_etx w) < 2 ^ 32) by (unfold u32; apply Z.mod_pos_bound; lia).
  pose proof (Q (1000 * gc_up w * 2 ^ 23) u ltac:(lia) ltac:(lia)) as Q1. pose proof (Q (1000 * gc_down w * 2 ^ 23) d ltac:(lia) ltac:(lia)) as Q2. pose proof (Q (u32 (p * gc_etx w) * 2 ^ 23) (gc_div w) ltac:(lia) ltac:(lia)) as Q3. clear Q.
  generalize dependent (1000 * gc_up w * 2 ^ 23 / u). generalize dependent (1000 * gc_down w * 2 ^ 23 / d). generalize dependent (u32 (p * gc_etx w) * 2 ^ 23 / gc_div w). intros; lia.
Qed.
Lemma ranged_costs C g m : weights_ok (mc_w C) -> ranged C g -> In m (g_ifs g) -> 0 <= m_costs m <= INT64_MAX /\ (e_up (m_e m) = false -> m_costs m = INT64_MAX).
Proof.
  intros Wk R Hm. unfold ranged in R. rewrite Forall_forall in R. destruct (R m Hm) as (E & U & D & P & _). unfold m_costs. rewrite E. split; [apply weigh_bound; [exact Wk|exact P|apply U|apply D]|]. intros X. rewrite X. reflexivity.
Qed.

(** ** the cheapest *)
Lemma scan_min W l : forall i b, (fst b < i)%nat -> let r := scan W i b l in
  m_costs (snd r) <= m_costs (snd b) /\ (m_costs (snd r) = m_costs (snd b) -> r = b) /\
  (forall j m, nth_error l j = Some m -> e_up (m_e m) = true -> w_up W (e_index (m_e m)) = true -> m_costs (snd r) <= m_costs m /\ (m_costs m = m_costs (snd r) -> (fst r <= i + j)%nat)).
Proof.
  induction l as [|x l IH]; intros i b Hb; cbn [scan]; [cbn; split; [lia|]; split; [reflexivity|]; intros [|j]; discriminate|].
  destruct (e_up (m_e x) && ((m_costs x <? m_costs (snd b)) && w_up W (e_index (m_e x)))) eqn:Q.
  - destruct (IH (S i) (i, x) ltac:(cbn; lia)) as (A1 & A2 & A3). cbn [fst snd] in *. split; [lia|]. split; [intros X; lia|].
    intros [|j] m E U Wu; cbn [nth_error] in E.
    + apply Some_inj in E. subst x. split; [exact A1|]. intros X. rewrite (A2 (eq_sym X)). cbn. lia.
    + destruct (A3 j m E U Wu) as [B1 B2]. split; [exact B1|]. intros X. specialize (B2 X). lia.
  - destruct (IH (S i) b ltac:(lia)) as (A1 & A2 & A3). split; [exact A1|]. split; [exact A2|].
    intros [|j] m E U Wu; cbn [nth_error] in E.
    + apply Some_inj in E. subst x. rewrite U, Wu in Q. cbn [andb] in Q. rewrite andb_true_r in Q. split; [lia|]. intros X. assert (Y : m_costs (snd (scan W (S i) b l)) = m_costs (snd b)) by lia. rewrite (A2 Y). lia.
    + destruct (A3 j m E U Wu) as [B1 B2]. split; [exact B1|]. intros X. specialize (B2 X). lia.
Qed.
Lemma best_cheapest ms : (forall m, In m ms -> m_costs m <= INT64_MAX) -> (forall m, In m ms -> e_up (m_e m) = false -> m_costs m = INT64_MAX) -> Forall up_ok ms ->
  match best_of W0 Runtime ms with Some i => cheapest ms i | None => forall m, In m ms -> ~ usable m end.
Proof.
  intros Hc Hd Hu. destruct (best_of W0 Runtime ms) as [i|] eqn:E.
  - pose proof (best_up _ _ _ _ E) as (m & Em & U & N). exists m. split; [exact Em|]. split; [split; [exact U|]; pose proof (Hc m (nth_error_In _ _ Em)); lia|]. destruct ms as [|m0 l]; [discriminate|]. cbn [best_of] in E. destruct (scan_min W0 l 1%nat (0%nat, m0) ltac:(cbn; lia)) as (A1 & A2 & A3).
    destruct (scan W0 1 (0%nat, m0) l) as [k r] eqn:Sc. cbv zeta in E. cbn [fst snd] in *. destruct (_ || _); [discriminate|]. apply Some_inj in E. subst k.
    assert (Er : nth_error (m0 :: l) i = Some r).
    { assert (Sx : forall l pre b, nth_error (pre ++ l) (fst b) = Some (snd b) -> nth_error (pre ++ l) (fst (scan W0 (length pre) b l)) = Some (snd (scan W0 (length pre) b l))).
      { clear. induction l as [|x l IH]; intros pre b H; cbn [scan]; [exact H|]. specialize (IH (pre ++ [x])). rewrite app_length in IH. cbn [length] in IH. rewrite Nat.add_1_r, <- app_assoc in IH. cbn [app] in IH. apply IH.
        destruct (_ && _); [|exact H]. cbn [fst snd]. rewrite nth_error_app2 by lia. now rewrite Nat.sub_diag. }
      specialize (Sx l [m0] (0%nat, m0) eq_refl). cbn [length app] in Sx. rewrite Sc in Sx. exact Sx. }
    rewrite Em in Er. apply Some_inj in Er. subst r. intros [|j] m' Ej [Uj Cj]; cbn [nth_error] in Ej.
    + apply Some_inj in Ej. subst m'. split; [lia|]. intros X. symmetry in X. apply A2 in X. inversion X. lia.
    + assert (Wj : w_up W0 (e_index (m_e m')) = true).
      { cbn. rewrite Forall_forall in Hu. specialize (Hu m' (or_intror (nth_error_In _ _ Ej)) Uj). lia. }
      destruct (A3 j m' Ej Uj Wj) as [B1 B2]. split; [exact B1|]. intros X. specialize (B2 X). lia.
  - intros m' Hm [Uj Cj]. destruct ms as [|m0 l]; [contradiction|]. cbn [best_of] in E. destruct (scan_min W0 l 1%nat (0%nat, m0) ltac:(cbn; lia)) as (A1 & A2 & A3).
    assert (Ir : In (snd (scan W0 1 (0%nat, m0) l)) (m0 :: l)).
    { assert (Sx : forall l i b, In (snd (scan W0 i b l)) (snd b :: l)).
      { clear. induction l as [|x l IH]; intros i b; cbn [scan]; [now left|]. destruct (_ && _); [destruct (IH (S i) (i, x)) as [H|H]|destruct (IH (S i) b) as [H|H]]; cbn [snd] in *; [right; left; exact H|right; right; exact H|left; exact H|right; right; exact H]. }
      apply (Sx l 1%nat (0%nat, m0)). }
    destruct (scan W0 1 (0%nat, m0) l) as [k r]. cbv zeta in E. cbn [fst snd] in *.
    assert (L : m_costs r <= m_costs m').
    { destruct Hm as [<-|Hm]; [exact A1|]. apply In_nth_error in Hm. destruct Hm as (j & Ej). apply (A3 j m' Ej Uj). cbn. rewrite Forall_forall in Hu. specialize (Hu m' (or_intror (nth_error_In _ _ Ej)) Uj). lia. }
    destruct (e_up (m_e r)) eqn:Ur; cbn [negb orb] in E.
    + destruct (Z.eqb_spec (m_costs r) INT64_MAX); [lia|discriminate].
    + pose proof (Hd r Ir Ur). lia.
Qed.
Lemma reach_best C g F : weights_ok (mc_w C) -> reach C smooth false g F -> tables_ok C g ->
  match g_best g with Some i => cheapest (g_ifs g) i | None => forall m, In m (g_ifs g) -> ~ usable m end.
Proof.
  intros Wk R T. pose proof (reach_ranged C smooth false g F R) as Rg. destruct (reach_good C g F R T) as [(I1 & I2 & I3 & _) U]. rewrite I3. apply best_cheapest; [| |exact U]; intros m Hm; now apply (ranged_costs C g).
Qed.

(** ** the link *)
Lemma reach_link C g F : weights_ok (mc_w C) -> reach C steady false g F -> tables_ok C g -> (forall c, g_gw g = Some c -> gw_cost c <= INT64_MAX) -> choice (g_ifs g) (offered g) (link g).
Proof.
  intros Wk R T Gc. pose proof (reach_ranged C steady false g F R) as Rg. destruct (reach_steady C g F R T) as [[(I1 & I2 & I3 & _) U] [_ So]].
  assert (B : match g_best g with Some i => cheapest (g_ifs g) i | None => forall m, In m (g_ifs g) -> ~ usable m end).
  { rewrite I3. apply best_cheapest; [| |exact U]; intros m Hm; now apply (ranged_costs C g). }
  unfold link. rewrite So. unfold best_overall. set (oc := match g_gw g with Some c => if g_alldown g then INT64_MAX else gw_cost c | None => INT64_MAX end).
  assert (Oc : match offered g with Some c => gw_cost c = oc /\ oc < INT64_MAX /\ g_gw g = Some c | None => oc = INT64_MAX end).
  { unfold offered, oc. destruct (g_gw g) as [c|]; [|reflexivity]. specialize (Gc c eq_refl). destruct (g_alldown g); cbn [orb]; [reflexivity|]. destruct (Z.eqb_spec (gw_cost c) INT64_MAX); [exact e|]. repeat split. lia. }
  clearbody oc. cbn [is_stop]. rewrite orb_false_r. destruct (g_best g) as [i|]; cbn [nth_if].
  - destruct B as (m & Em & [Um Cm] & Hm). rewrite Em. assert (N : Z.min (m_costs m) oc =? INT64_MAX = false) by lia. rewrite N. destruct (Z.leb_spec (m_costs m) oc) as [L|L]; cbn [ov_valid ov_link option_map].
    + apply (choice_egress _ _ i m); [exists m; split; [exact Em|split; [now split|exact Hm]]|exact Em|]. intros c E. rewrite E in Oc. lia.
    + destruct (offered g) as [c|]; [|lia]. destruct Oc as (O1 & O2 & O3). rewrite O3. cbn [ov_valid ov_link]. apply (choice_olsr _ _ c); [reflexivity|]. intros m' Hi Us. apply In_nth_error in Hi. destruct Hi as (j & Ej). destruct (Hm j m' Ej Us). lia.
  - destruct (offered g) as [c|].
    + destruct Oc as (O1 & O2 & O3). assert (N : Z.min INT64_MAX oc =? INT64_MAX = false) by lia. rewrite N. destruct (Z.leb_spec INT64_MAX oc); [lia|]. rewrite O3. cbn [ov_valid ov_link]. apply (choice_olsr _ _ c); [reflexivity|]. intros m' Hi Us. elim (B m' Hi Us).
    + subst oc. rewrite Z.min_id, Z.eqb_refl. cbn [ov_valid ov0]. now constructor.
Qed.

(** ** the routes *)
Lemma key_self r : is_key r (r_table r) (r_dst r) = true.
Proof. unfold is_key. now rewrite !Z.eqb_refl. Qed.
Lemma val_egress net i gw dst tb : 0 < i -> exists r, val (determineEgressLinkRoute net i gw dst tb) tb dst = Some r /\ goes tb dst i gw r.
Proof.
  intros H. unfold val, determineEgressLinkRoute. cbn [ri_act ri_rt]. replace (i <=? 0) with false by lia. destruct gw as [a|].
  - eexists. split.
    + cbn [r_if]. unfold is_key. cbn [r_table r_dst]. rewrite !Z.eqb_refl. cbn [andb]. replace (0 <? i) with true by lia. reflexivity.
    + now repeat split.
  - eexists. split.
    + cbn [r_if]. unfold is_key. cbn [r_table r_dst]. rewrite !Z.eqb_refl. cbn [andb]. replace (0 <? i) with true by lia. reflexivity.
    + now repeat split.
Qed.
Lemma val_key s t d r : val s t d = Some r -> holds s r /\ r_table r = t /\ r_dst r = d /\ 0 < r_if r.
Proof.
  unfold val. destruct (ri_act s) eqn:A; [|discriminate]. destruct (ri_rt s) as [x|] eqn:B; [|discriminate]. destruct (0 <? r_if x) eqn:P; cbn [andb]; [|discriminate]. destruct (is_key x t d) eqn:K; [|discriminate].
  intros E. apply Some_inj in E. subst x. apply is_key_ok in K. destruct K. repeat split; try assumption; try congruence. lia.
Qed.
Lemma reach_net C g F m d : reach C smooth false g F -> tables_ok C g -> In m (g_ifs g) -> d <> (0, 0) ->
  match F (m_table m) d with Some r => net_wanted m d /\ goes (m_table m) d (e_index (m_e m)) None r | None => ~ net_wanted m d end.
Proof.
  intros R T Hm Nd. destruct (reach_good C g F R T) as [(I1 & I2 & _) U]. rewrite Forall_forall in I1, U. destruct (I1 m Hm) as (_ & _ & N & _). destruct (I2 m Hm) as [E _]. rewrite (E (m_table m) d) by now split. rewrite N. unfold net_wanted, net_route.
  destruct (e_up (m_e m)) eqn:Eu; [|rewrite orb_true_r; destruct (b_net _); cbn; intros (X & _); discriminate]. rewrite orb_false_r. destruct (b_rn (e_cur (m_e m))); cbn [negb]; [|destruct (b_net _); cbn; intros (_ & X & _); discriminate].
  destruct (b_net (e_cur (m_e m))) as [n|] eqn:En; [|cbn; intros (_ & _ & X); discriminate].
  destruct (val_egress true (e_index (m_e m)) None n (m_table m) (U m Hm Eu)) as (r & V & G).
  destruct (val (determineEgressLinkRoute true (e_index (m_e m)) None n (m_table m)) (m_table m) d) as [r'|] eqn:V'.
  - pose proof (val_key _ _ _ _ V') as (H & K1 & K2 & _). pose proof (egress_keys _ _ _ _ _ _ H) as [_ K3]. assert (X : n = d) by congruence. clear K3. subst n. split; [split; [reflexivity|split; reflexivity]|]. congruence.
  - intros (_ & _ & X). apply Some_inj in X. subst n. congruence.
Qed.
Lemma reach_def C g F m : reach C smooth false g F -> tables_ok C g -> In m (g_ifs g) ->
  match F (m_table m) (0, 0) with Some r => def_wanted m /\ goes (m_table m) (0, 0) (e_index (m_e m)) (b_gw (e_cur (m_e m))) r | None => ~ def_wanted m end.
Proof.
  intros R T Hm. destruct (reach_good C g F R T) as [(I1 & I2 & _) U]. rewrite Forall_forall in I1, U. destruct (I1 m Hm) as (_ & _ & _ & N). destruct (I2 m Hm) as [_ E]. rewrite (E (m_table m) (0, 0)) by now split. rewrite N. unfold def_wanted, def_route.
  destruct (e_up (m_e m)) eqn:Eu; [|rewrite orb_true_r; cbn; intros (X & _); discriminate]. cbn [negb]. rewrite orb_false_r.
  destruct (b_rg (e_cur (m_e m)) && match b_gw (e_cur (m_e m)) with None => true | Some _ => false end) eqn:Q.
  - cbn. intros (_ & X). destruct (b_rg (e_cur (m_e m))); [|discriminate]. specialize (X eq_refl). destruct (b_gw (e_cur (m_e m))); [discriminate|contradiction].
  - destruct (val_egress false (e_index (m_e m)) (b_gw (e_cur (m_e m))) (0, 0) (m_table m) (U m Hm Eu)) as (r & V & G). unfold slash0. rewrite V. split; [|exact G]. split; [reflexivity|]. intros X. rewrite X in Q. cbn [andb] in Q. destruct (b_gw _); [discriminate|discriminate].
Qed.
Lemma reach_off C g F : reach C smooth false g F -> tables_ok C g ->
  match nth_if (g_ifs g) (g_best g) with
  | Some m => exists r, F (mc_off C) (0, 0) = Some r /\ goes (mc_off C) (0, 0) (e_index (m_e m)) (b_gw (e_cur (m_e m))) r
  | None => F (mc_off C) (0, 0) = None
  end.
Proof.
  intros R T. destruct (reach_good C g F R T) as [(I1 & I2 & I3 & I4 & (_ & O & _)) U]. rewrite (O (mc_off C) (0, 0)) by now split. rewrite I4. unfold best_route. destruct (nth_if (g_ifs g) (g_best g)) as [m|] eqn:E; [|reflexivity].
  rewrite Forall_forall in U. assert (X : In m (g_ifs g) /\ e_up (m_e m) = true).
  { destruct (g_best g) as [i|]; [|discriminate]. cbn [nth_if] in E. split; [now apply nth_error_In in E|]. symmetry in I3. apply best_up in I3. destruct I3 as (m' & E' & Up & _). rewrite E in E'. apply Some_inj in E'. now subst m'. }
  destruct X as [Hm Up]. exact (val_egress false (e_index (m_e m)) (b_gw (e_cur (m_e m))) (0, 0) (mc_off C) (U m Hm Up)).
Qed.
Lemma ovif_link g : g_ov g = best_overall Runtime g -> ovif g = link_if g.
Proof.
  intros E. unfold ovif, link_if, link. rewrite E. unfold best_overall. destruct (_ || _); [reflexivity|]. destruct (_ <=? _).
  - cbn [ov_valid ov_olsr ov_link negb]. destruct (g_best g) as [i|]; reflexivity.
  - destruct (g_gw g) as [c|]; reflexivity.
Qed.
Lemma slot_exact C dst s i F : slot_ok C dst i s -> exactly (K1 C dst) s F ->
  (i = 0 -> F (mc_rt C) dst = None) /\ (0 < i -> exists r, F (mc_rt C) dst = Some r /\ r_table r = mc_rt C /\ r_dst r = dst /\ r_if r = i).
Proof.
  intros [S0 S1] E. rewrite (E (mc_rt C) dst) by now split. split.
  - intros Z0. now rewrite val_none by now apply S0.
  - intros P. destruct S1 as (sc & gw & ->); [lia|]. exists (mkRt (mc_rt C) 0 sc i gw dst false). split; [|repeat split]. unfold val. cbn [ri_act ri_rt r_if]. unfold is_key. cbn [r_table r_dst]. rewrite !Z.eqb_refl. cbn [andb]. now replace (0 <? i) with true by lia.
Qed.
Lemma reach_over C g F dst : reach C steady false g F -> tables_ok C g -> dst = (0, 1) \/ dst = (2147483648, 1) ->
  (link_if g = 0 -> F (mc_rt C) dst = None) /\ (0 < link_if g -> exists r, F (mc_rt C) dst = Some r /\ r_table r = mc_rt C /\ r_dst r = dst /\ r_if r = link_if g).
Proof.
  intros R T D. destruct (reach_steady C g F R T) as [[(I1 & I2 & I3 & I4 & (_ & _ & _ & O1 & _ & O2)) U] [[S1 S2] So]]. rewrite <- (ovif_link g So). destruct D as [->| ->]; [exact (slot_exact C slash1a _ _ F S1 O1)|exact (slot_exact C slash1b _ _ F S2 O2)].
Qed.

(** Proofs about the routes for several uplinks: what is in the kernel. *)
From Verif Require Import Base GwSpeed Egress EgressSpec EgressProofs EgressRunProofs MultiGw MultiGwSpec MultiGwProofs.

Definition smoothW (W : world) : Prop := (forall a r, w_ok W a r = true) /\ (forall i, w_up W i = (0 <? i)).
Definition val (s : ri) (t : Z) (d : Z * Z) : option rt :=
  match ri_act s, ri_rt s with true, Some r => if (0 <? r_if r) && is_key r t d then Some r else None | _, _ => None end.
Definition exactly (K : Z -> Z * Z -> Prop) (s : ri) (F : fib) : Prop := forall t d, K t d -> F t d = val s t d.
Definition keys (K : Z -> Z * Z -> Prop) (s : ri) : Prop := forall r, holds s r -> K (r_table r) (r_dst r).

Lemma kreqs_frame qs : forall F t d, (forall a r o, In (a, r, o) qs -> is_key r t d = false) -> kreqs F qs t d = F t d.
Proof.
  induction qs as [|[[a r] o] qs IH]; intros F t d H; cbn [kreqs fold_left]; [reflexivity|]. fold (kreqs (kreq F (a, r, o)) qs). rewrite IH by (intros; eapply H; right; eassumption).
  pose proof (H a r o (or_introl eq_refl)) as K. unfold kreq. destruct a, o; try reflexivity; now rewrite K.
Qed.
Lemma program_add W r : smoothW W -> fst (programRoute W true r) = r.
Proof.
  intros [O U]. unfold programRoute. destruct r as [a [x|]]; cbn [ri_act ri_rt]; destruct a; try reflexivity. destruct (w_up W (r_if x)); [|reflexivity]. cbn [fst]. now rewrite O.
Qed.
Lemma program_in W add s a r o : In (a, r, o) (snd (programRoute W add s)) -> holds s r.
Proof.
  unfold programRoute, holds. destruct (ri_act s) eqn:A; [|intros []]. destruct (ri_rt s) as [x|] eqn:R; [|intros []]. destruct (w_up W (r_if x)); [|intros []]. cbn [snd]. intros [E|[]]. inversion E. now split.
Qed.
Lemma reprogram_fst W ph prev cur : smoothW W -> ph <> Shutdown -> fst (reprogram W ph prev cur) = cur.
Proof.
  intros S N. unfold reprogram. cbn [fst]. destruct ((route_changed prev cur || is_start ph) && negb (is_stop ph)); [now apply program_add|reflexivity].
Qed.
Lemma reprogram_in W ph prev cur a r o : In (a, r, o) (snd (reprogram W ph prev cur)) -> holds prev r \/ holds cur r.
Proof.
  unfold reprogram. cbn [snd]. intros H. apply in_app_or in H. destruct H as [H|H].
  - destruct (_ && _) in H; [left; eapply program_in; exact H|destruct H].
  - destruct (_ && _) in H; [right; eapply program_in; exact H|destruct H].
Qed.
Lemma reprogram_frame (K : Z -> Z * Z -> Prop) W ph prev cur F t d : keys K prev -> keys K cur -> ~ K t d -> kreqs F (snd (reprogram W ph prev cur)) t d = F t d.
Proof.
  intros K1 K2 N. apply kreqs_frame. intros a r o H. apply reprogram_in in H. destruct (is_key r t d) eqn:E; [|reflexivity]. exfalso. apply N. apply is_key_ok in E. destruct E as [-> ->]. destruct H as [H|H]; [now apply K1|now apply K2].
Qed.
Lemma val_none s t d : ri_act s = false -> val s t d = None.
Proof. intros A. unfold val. now rewrite A. Qed.
Lemma add_exact (K : Z -> Z * Z -> Prop) W s F : smoothW W -> (forall t d, K t d -> F t d = None) -> exactly K s (kreqs F (snd (programRoute W true s))).
Proof.
  intros [O U] N t d Kd. unfold programRoute, val. destruct (ri_act s); [|now apply N]. destruct (ri_rt s) as [x|]; [|now apply N]. rewrite U. destruct (0 <? r_if x); [|now apply N].
  cbn [snd kreqs fold_left andb]. rewrite O. cbn [kreq]. destruct (is_key x t d); [reflexivity|now apply N].
Qed.
Lemma del_exact (K : Z -> Z * Z -> Prop) W s F : smoothW W -> exactly K s F -> forall t d, K t d -> kreqs F (snd (programRoute W false s)) t d = None.
Proof.
  intros [O U] E t d Kd. specialize (E t d Kd). unfold programRoute. unfold val in E. destruct (ri_act s); [|exact E]. destruct (ri_rt s) as [x|]; [|exact E]. rewrite U. destruct (0 <? r_if x); [|exact E].
  cbn [snd kreqs fold_left andb] in *. rewrite O. cbn [kreq]. rewrite E. destruct (is_key x t d); [|reflexivity]. assert (X : rt_eqb x x = true) by now apply rt_eqb_ok. now rewrite X.
Qed.
Lemma reprogram_exact (K : Z -> Z * Z -> Prop) W ph prev cur F : smoothW W -> ph <> Shutdown -> (ph = Startup -> ri_act prev = false) ->
  exactly K prev F -> exactly K cur (kreqs F (snd (reprogram W ph prev cur))).
Proof.
  intros S N St E. unfold reprogram. cbn [snd]. destruct ph; [|cbn [is_stop is_start]; rewrite !orb_false_r, !andb_true_r|congruence].
  - cbn [is_start is_stop negb]. rewrite andb_false_r, orb_true_r. cbn [andb app]. apply add_exact; [exact S|]. intros t d Kd. rewrite (E t d Kd). apply val_none. now apply St.
  - destruct (route_changed prev cur) eqn:Ch; cbn [negb andb].
    + rewrite kreqs_app. apply add_exact; [exact S|]. now apply del_exact.
    + apply route_changed_false in Ch. subst cur. exact E.
Qed.

(** ** the interfaces *)
Definition Kn (tb : Z) : Z -> Z * Z -> Prop := fun t d => t = tb /\ d <> slash0.
Definition Kd (tb : Z) : Z -> Z * Z -> Prop := fun t d => t = tb /\ d = slash0.
Definition exact_m (m : mif) (F : fib) : Prop := exactly (Kn (m_table m)) (m_net m) F /\ exactly (Kd (m_table m)) (m_def m) F.
Definition netok (m : mif) : Prop := b_net (e_cur (m_e m)) <> Some (0, 0).
Definition pm (ph : phase) (m : mif) : Prop :=
  (forced ph = false -> m_upchg m = false -> e_nchg (m_e m) = false -> m_net m = net_route m) /\
  (forced ph = false -> m_upchg m = false -> e_gchg (m_e m) = false -> m_def m = def_route m) /\
  keys (Kn (m_table m)) (m_net m) /\ keys (Kd (m_table m)) (m_def m).
Definition settle (m : mif) : mif := mkM (m_e m) (m_table m) (m_upchg m) (net_route m) (def_route m).

Lemma egress_keys net i gw dst tb r : holds (determineEgressLinkRoute net i gw dst tb) r -> r_table r = tb /\ r_dst r = dst.
Proof. intros [_ E]. cbn in E. apply Some_inj in E. subst r. destruct (i <=? 0); [now split|]. destruct gw; now split. Qed.
Lemma net_keys m : netok m -> keys (Kn (m_table m)) (net_route m).
Proof.
  intros N r H. unfold net_route in H. destruct (b_net (e_cur (m_e m))) as [n|] eqn:E; [|now destruct H]. destruct (_ || _); [now destruct H|]. apply egress_keys in H. destruct H as [H1 H2]. split; [exact H1|].
  rewrite H2. intros X. apply N. rewrite E, X. reflexivity.
Qed.
Lemma def_keys m : keys (Kd (m_table m)) (def_route m).
Proof. intros r H. unfold def_route in H. destruct (_ || _); [now destruct H|]. apply egress_keys in H. exact H. Qed.
Lemma settle_net m : net_route (settle m) = net_route m. Proof. reflexivity. Qed.

Lemma configure_if_exact W ph m F : smoothW W -> ph <> Shutdown -> pm ph m -> netok m -> (ph = Startup -> m_idle m) -> exact_m m F ->
  fst (configure_if W ph m) = settle m /\ exact_m (settle m) (kreqs F (snd (configure_if W ph m))) /\
  forall t d, t <> m_table m -> kreqs F (snd (configure_if W ph m)) t d = F t d.
Proof.
  intros S N (P1 & P2 & P3 & P4) No St [E1 E2]. unfold configure_if, settle.
  pose proof (net_keys m No) as Nk. pose proof (def_keys m) as Dk.
  assert (A : forall c : bool, (c = false -> m_net m = net_route m) -> let x := if c then reprogram W ph (m_net m) (net_route m) else (m_net m, []) in
     fst x = net_route m /\ exactly (Kn (m_table m)) (net_route m) (kreqs F (snd x)) /\ (forall t d, ~ Kn (m_table m) t d -> kreqs F (snd x) t d = F t d)).
  { intros c Hc. destruct c; cbv zeta.
    - split; [now apply reprogram_fst|]. split; [apply reprogram_exact; try assumption; intros X; now apply St|]. intros t d Nk'. now apply (reprogram_frame (Kn (m_table m))).
    - cbn [fst snd kreqs fold_left]. rewrite <- (Hc eq_refl). split; [reflexivity|]. split; [exact E1|reflexivity]. }
  assert (Hn : m_upchg m || e_nchg (m_e m) || forced ph = false -> m_net m = net_route m).
  { intros X. apply orb_false_elim in X. destruct X as [X Xf]. apply orb_false_elim in X. destruct X. now apply P1. }
  assert (Hd : m_upchg m || e_gchg (m_e m) || forced ph = false -> m_def m = def_route m).
  { intros X. apply orb_false_elim in X. destruct X as [X Xf]. apply orb_false_elim in X. destruct X. now apply P2. }
  destruct (A _ Hn) as (A1 & A2 & A3). clear A Hn.
  destruct (if m_upchg m || e_nchg (m_e m) || forced ph then reprogram W ph (m_net m) (net_route m) else (m_net m, [])) as [n tn]. cbn [fst snd] in *. subst n.
  assert (E2' : exactly (Kd (m_table m)) (m_def m) (kreqs F tn)).
  { intros t d Kx. rewrite A3; [now apply E2|]. intros [_ X]. destruct Kx as [_ Kx]. contradiction. }
  assert (B : forall c : bool, (c = false -> m_def m = def_route m) -> let x := if c then reprogram W ph (m_def m) (def_route m) else (m_def m, []) in
     fst x = def_route m /\ exactly (Kd (m_table m)) (def_route m) (kreqs (kreqs F tn) (snd x)) /\ (forall t d, ~ Kd (m_table m) t d -> kreqs (kreqs F tn) (snd x) t d = kreqs F tn t d)).
  { intros c Hc. destruct c; cbv zeta.
    - split; [now apply reprogram_fst|]. split; [apply reprogram_exact; try assumption; intros X; now apply St|]. intros t d Nk'. now apply (reprogram_frame (Kd (m_table m))).
    - cbn [fst snd]. rewrite <- (Hc eq_refl). split; [reflexivity|]. split; [exact E2'|reflexivity]. }
  destruct (B _ Hd) as (B1 & B2 & B3). clear B Hd.
  destruct (if m_upchg m || e_gchg (m_e m) || forced ph then reprogram W ph (m_def m) (def_route m) else (m_def m, [])) as [d td]. cbn [fst snd] in *. subst d.
  rewrite kreqs_app. split; [reflexivity|]. split; [split; cbn [m_table m_net m_def]|].
  - intros t d Kx. rewrite B3; [now apply A2|]. intros [_ X]. destruct Kx as [_ Kx]. contradiction.
  - exact B2.
  - intros t d T. rewrite B3 by (intros [X _]; contradiction). apply A3. intros [X _]. contradiction.
Qed.
Lemma configure_ifs_exact W ph ms : smoothW W -> ph <> Shutdown -> NoDup (map m_table ms) -> Forall (pm ph) ms -> Forall netok ms -> (ph = Startup -> Forall m_idle ms) ->
  forall F, (forall m, In m ms -> exact_m m F) ->
  fst (configure_ifs W ph ms) = map settle ms /\
  (forall m, In m (map settle ms) -> exact_m m (kreqs F (snd (configure_ifs W ph ms)))) /\
  forall t d, ~ In t (map m_table ms) -> kreqs F (snd (configure_ifs W ph ms)) t d = F t d.
Proof.
  intros S N. induction ms as [|m ms IH]; intros Nd P No St F E; cbn [configure_ifs map]; [repeat split; [contradiction|contradiction]|].
  inversion Nd as [|? ? Nd1 Nd2]. inversion P as [|? ? P1 P2]. inversion No as [|? ? No1 No2]. subst.
  destruct (configure_if_exact W ph m F S N P1 No1) as (A1 & A2 & A3); [intros X; specialize (St X); now inversion St|apply E; now left|].
  destruct (configure_if W ph m) as [m1 t1]. cbn [fst snd] in *. subst m1.
  destruct (IH Nd2 P2 No2) with (F := kreqs F t1) as (B1 & B2 & B3); [intros X; specialize (St X); now inversion St| |].
  { intros m' I. destruct (E m' (or_intror I)) as [X1 X2]. assert (T : m_table m' <> m_table m) by (intros X; apply Nd1; rewrite <- X; now apply in_map). split.
    - intros t d [K1 K2]. rewrite A3 by congruence. now apply X1.
    - intros t d [K1 K2]. rewrite A3 by congruence. now apply X2. }
  destruct (configure_ifs W ph ms) as [ms2 t2]. cbn [fst snd] in *. subst ms2. rewrite kreqs_app. split; [reflexivity|]. split.
  - intros m' [<-|I]; [|now apply B2]. destruct A2 as [X1 X2]. split.
    + intros t d [K1 K2]. rewrite B3 by (subst t; exact Nd1). now apply X1.
    + intros t d [K1 K2]. rewrite B3 by (subst t; exact Nd1). now apply X2.
  - intros t d T. cbn [In] in T. rewrite B3 by tauto. apply A3. intros X. apply T. left. now symmetry.
Qed.

(** ** the state *)
Definition W0 : world := mkW (fun i => 0 <? i) (fun _ _ => true) false.
Definition quiet (g : mgw) : Prop := match nth_if (g_ifs g) (g_best g) with Some m => m_upchg m = false /\ e_bchg (m_e m) = false | None => True end.
Definition noflags (m : mif) : Prop := m_upchg m = false /\ e_cchg (m_e m) = false /\ e_nchg (m_e m) = false /\ e_gchg (m_e m) = false /\ e_bchg (m_e m) = false.
Definition K1 (C : mcfg) (dst : Z * Z) : Z -> Z * Z -> Prop := fun t d => t = mc_rt C /\ d = dst.
Definition others (C : mcfg) (g : mgw) (F : fib) : Prop :=
  keys (Kd (mc_off C)) (g_broute g) /\ exactly (Kd (mc_off C)) (g_broute g) F /\
  keys (K1 C slash1a) (fst (g_ovr g)) /\ exactly (K1 C slash1a) (fst (g_ovr g)) F /\
  keys (K1 C slash1b) (snd (g_ovr g)) /\ exactly (K1 C slash1b) (snd (g_ovr g)) F.
Definition Pre (C : mcfg) (ph : phase) (g : mgw) (F : fib) : Prop :=
  Forall (pm ph) (g_ifs g) /\ Forall netok (g_ifs g) /\ (forall m, In m (g_ifs g) -> exact_m m F) /\
  (forced ph = false -> quiet g -> g_broute g = best_route C g) /\ others C g F.
Definition Inv (C : mcfg) (g : mgw) (F : fib) : Prop :=
  Forall (fun m => noflags m /\ netok m /\ m_net m = net_route m /\ m_def m = def_route m) (g_ifs g) /\
  (forall m, In m (g_ifs g) -> exact_m m F) /\ g_best g = best_of W0 Runtime (g_ifs g) /\
  g_broute g = best_route C g /\ others C g F.
Definition tabs (C : mcfg) (g : mgw) : list Z := mc_rt C :: mc_off C :: map m_table (g_ifs g).

Lemma best_of_ext W W' ph ms : (forall i, w_up W i = w_up W' i) -> ph <> Shutdown -> best_of W ph ms = best_of W' Runtime ms.
Proof.
  intros U N. assert (Sc : forall l i b, scan W i b l = scan W' i b l).
  { induction l as [|m l IH]; intros i b; cbn [scan]; [reflexivity|]. rewrite U. apply IH. }
  unfold best_of. destruct ph, ms; try reflexivity; try congruence; now rewrite Sc.
Qed.
Lemma best_smooth W ph ms : smoothW W -> ph <> Shutdown -> best_of W ph ms = best_of W0 Runtime ms.
Proof. intros [_ U] N. apply best_of_ext; [|exact N]. intros i. now rewrite U. Qed.
Lemma scan_map W (f : mif -> mif) : (forall m, e_up (m_e (f m)) = e_up (m_e m) /\ m_costs (f m) = m_costs m /\ e_index (m_e (f m)) = e_index (m_e m)) ->
  forall ms i b, scan W i (fst b, f (snd b)) (map f ms) = (fst (scan W i b ms), f (snd (scan W i b ms))).
Proof.
  intros H. induction ms as [|m ms IH]; intros i b; cbn [map scan]; [reflexivity|]. destruct (H m) as (U & Co & Ix). cbn [snd]. destruct (H (snd b)) as (_ & Cb & _). rewrite U, Co, Ix, Cb.
  destruct (e_up (m_e m) && ((m_costs m <? m_costs (snd b)) && w_up W (e_index (m_e m)))).
  - exact (IH (S i) (i, m)).
  - exact (IH (S i) b).
Qed.
Lemma best_map W ph (f : mif -> mif) ms : (forall m, e_up (m_e (f m)) = e_up (m_e m) /\ m_costs (f m) = m_costs m /\ e_index (m_e (f m)) = e_index (m_e m)) ->
  best_of W ph (map f ms) = best_of W ph ms.
Proof.
  intros H. unfold best_of. destruct ph, ms as [|m ms]; cbn [map]; try reflexivity; pose proof (scan_map W f H ms 1%nat (0%nat, m)) as Sc; cbn [fst snd] in Sc; rewrite Sc; cbn [fst snd];
  destruct (H (snd (scan W 1 (0%nat, m) ms))) as (U & Co & _); now rewrite U, Co.
Qed.
Lemma best_route_map C g g' (f : mif -> mif) : (forall m, e_index (m_e (f m)) = e_index (m_e m) /\ b_gw (e_cur (m_e (f m))) = b_gw (e_cur (m_e m))) ->
  g_ifs g' = map f (g_ifs g) -> g_best g' = g_best g -> best_route C g' = best_route C g.
Proof.
  intros H E B. unfold best_route. rewrite E, B. unfold nth_if. destruct (g_best g) as [i|]; [|reflexivity]. rewrite nth_error_map. destruct (nth_error (g_ifs g) i) as [m|]; cbn [option_map]; [|reflexivity].
  destruct (H m) as [X Y]. now rewrite X, Y.
Qed.
Lemma best_keys C g : keys (Kd (mc_off C)) (best_route C g).
Proof. intros r H. unfold best_route in H. destruct (nth_if (g_ifs g) (g_best g)) as [m|]; apply egress_keys in H; exact H. Qed.
Lemma overall_keys C g dst s : keys (K1 C dst) s -> keys (K1 C dst) (overall_route C g dst s).
Proof.
  intros K r [A E]. unfold overall_route in *. destruct (overall_if g) as [i gw]. destruct (i =? 0); [discriminate|]. cbn [ri_rt] in E. apply Some_inj in E. subst r. now split.
Qed.

Lemma override_exact C W ph prev g F : smoothW W -> ph <> Shutdown -> NoDup (tabs C g) -> (ph = Startup -> ri_act (fst (g_ovr g)) = false /\ ri_act (snd (g_ovr g)) = false) ->
  others C g F -> (forall m, In m (g_ifs g) -> exact_m m F) ->
  let x := setupOverride C W ph prev g in
  others C (fst x) (kreqs F (snd x)) /\ (forall m, In m (g_ifs g) -> exact_m m (kreqs F (snd x))) /\
  (g_ovr (fst x) = g_ovr g \/ g_ovr (fst x) = (overall_route C g slash1a (fst (g_ovr g)), overall_route C g slash1b (snd (g_ovr g)))) /\
  (ov_valid prev || ov_valid (g_ov g) || forced ph = true -> g_ovr (fst x) = (overall_route C g slash1a (fst (g_ovr g)), overall_route C g slash1b (snd (g_ovr g)))).
Proof.
  intros S N Nd St (O1 & O2 & O3 & O4 & O5 & O6) E. unfold setupOverride.
  destruct (negb (ov_valid prev) && negb (ov_valid (g_ov g)) && negb (forced ph)) eqn:Q.
  { cbv zeta. cbn [fst snd kreqs fold_left]. split; [now repeat (split; [assumption|])|]. split; [exact E|]. split; [now left|]. intros X. exfalso. destruct (ov_valid prev), (ov_valid (g_ov g)), (forced ph); discriminate. }
  clear Q. destruct (g_ovr g) as [a b] eqn:Eo. cbn [fst snd] in *.
  pose proof (reprogram_fst W ph a (overall_route C g slash1a a) S N) as A1.
  pose proof (reprogram_exact (K1 C slash1a) W ph a (overall_route C g slash1a a) F S N (fun X => proj1 (St X)) O4) as A2.
  pose proof (fun t d => reprogram_frame (K1 C slash1a) W ph a (overall_route C g slash1a a) F t d O3 (overall_keys C g slash1a a O3)) as A3.
  destruct (reprogram W ph a (overall_route C g slash1a a)) as [a' ta]. cbn [fst snd] in *. subst a'.
  assert (O6' : exactly (K1 C slash1b) b (kreqs F ta)).
  { intros t d [T D]. rewrite A3; [apply O6; now split|]. intros [_ X]. subst d. discriminate. }
  pose proof (reprogram_fst W ph b (overall_route C g slash1b b) S N) as B1.
  pose proof (reprogram_exact (K1 C slash1b) W ph b (overall_route C g slash1b b) (kreqs F ta) S N (fun X => proj2 (St X)) O6') as B2.
  pose proof (fun t d => reprogram_frame (K1 C slash1b) W ph b (overall_route C g slash1b b) (kreqs F ta) t d O5 (overall_keys C g slash1b b O5)) as B3.
  destruct (reprogram W ph b (overall_route C g slash1b b)) as [b' tb]. cbn [fst snd] in *. subst b'. cbv zeta. cbn [fst snd g_ovr]. rewrite kreqs_app.
  assert (Fr : forall t d, t <> mc_rt C -> kreqs (kreqs F ta) tb t d = F t d).
  { intros t d T. rewrite B3 by (intros [X _]; contradiction). apply A3. intros [X _]. contradiction. }
  unfold tabs in Nd. inversion Nd as [|? ? Nd1 Nd2]. subst.
  split; [|split; [|split; [now right|reflexivity]]].
  - unfold others. cbn [g_broute g_ovr fst snd]. split; [exact O1|]. split; [|split; [now apply overall_keys|split; [|split; [now apply overall_keys|exact B2]]]].
    + intros t d Kx. rewrite Fr; [now apply O2|]. destruct Kx as [-> _]. intros X. apply Nd1. left. exact X.
    + intros t d Kx. rewrite B3; [now apply A2|]. intros [_ X]. destruct Kx as [_ Kx]. subst d. discriminate.
  - intros m I. destruct (E m I) as [X1 X2]. assert (T : m_table m <> mc_rt C) by (intros X; apply Nd1; right; rewrite <- X; now apply in_map). split.
    + intros t d Kx. rewrite Fr; [now apply X1|]. destruct Kx as [-> _]. exact T.
    + intros t d Kx. rewrite Fr; [now apply X2|]. destruct Kx as [-> _]. exact T.
Qed.
Lemma cbest_exact C W ph prev g F : smoothW W -> ph <> Shutdown -> NoDup (tabs C g) -> (ph = Startup -> ri_act (g_broute g) = false) ->
  others C g F -> (forall m, In m (g_ifs g) -> exact_m m F) ->
  let x := configureBest C W ph prev g in
  others C (fst x) (kreqs F (snd x)) /\ (forall m, In m (g_ifs g) -> exact_m m (kreqs F (snd x))) /\
  (g_broute (fst x) = best_route C g \/ (prev = None /\ g_best g = None /\ ph = Runtime /\ fst x = g)).
Proof.
  intros S N Nd St (O1 & O2 & O3 & O4 & O5 & O6) E.
  assert (H : let x := let (r, t) := reprogram W ph (g_broute g) (best_route C g) in
               (mkMg (g_ifs g) (g_best g) (g_ov g) r (g_ovr g) (g_alldown g) (g_up g) (g_down g) (g_gw g) (g_time g) (g_rep g), t) in
     others C (fst x) (kreqs F (snd x)) /\ (forall m, In m (g_ifs g) -> exact_m m (kreqs F (snd x))) /\ g_broute (fst x) = best_route C g).
  { pose proof (reprogram_fst W ph (g_broute g) (best_route C g) S N) as A1.
    pose proof (reprogram_exact (Kd (mc_off C)) W ph (g_broute g) (best_route C g) F S N St O2) as A2.
    pose proof (fun t d => reprogram_frame (Kd (mc_off C)) W ph (g_broute g) (best_route C g) F t d O1 (best_keys C g)) as A3.
    destruct (reprogram W ph (g_broute g) (best_route C g)) as [r' t']. cbn [fst snd] in *. subst r'. cbv zeta. cbn [fst snd g_broute].
    assert (Fr : forall t d, t <> mc_off C -> kreqs F t' t d = F t d) by (intros t d T; apply A3; intros [X _]; contradiction).
    unfold tabs in Nd. inversion Nd as [|? ? Nd1 Nd2]. inversion Nd2 as [|? ? Nd3 Nd4]. subst.
    assert (Rt : mc_rt C <> mc_off C) by (intros X; apply Nd1; left; now symmetry).
    split; [|split; [|reflexivity]].
    - unfold others. cbn [g_broute g_ovr]. split; [apply best_keys|]. split; [exact A2|]. split; [exact O3|]. split; [intros t d Kx; rewrite Fr; [now apply O4|destruct Kx as [-> _]; exact Rt]|]. split; [exact O5|].
      intros t d Kx; rewrite Fr; [now apply O6|destruct Kx as [-> _]; exact Rt].
    - intros m I. destruct (E m I) as [X1 X2]. assert (T : m_table m <> mc_off C) by (intros X; apply Nd3; rewrite <- X; now apply in_map). split.
      + intros t d Kx. rewrite Fr; [now apply X1|]. destruct Kx as [-> _]. exact T.
      + intros t d Kx. rewrite Fr; [now apply X2|]. destruct Kx as [-> _]. exact T. }
  cbv zeta in *. unfold configureBest. destruct prev as [p|]; [destruct H as (H1 & H2 & H3); split; [exact H1|split; [exact H2|now left]]|].
  destruct (g_best g) as [bi|] eqn:Eb.
  { destruct H as (H1 & H2 & H3). split; [exact H1|split; [exact H2|now left]]. }
  destruct (forced ph) eqn:Ef; [destruct H as (H1 & H2 & H3); split; [exact H1|split; [exact H2|now left]]|].
  cbn [fst snd kreqs fold_left]. split; [now repeat (split; [assumption|])|]. split; [exact E|]. right. destruct ph; try discriminate. repeat split. 
Qed.

(** ** the best overall link *)
Definition ovif (g : mgw) : Z :=
  if negb (ov_valid (g_ov g)) then 0
  else if ov_olsr (g_ov g) then ov_tun (g_ov g)
  else match ov_link (g_ov g) with Some (inl i) => match nth_error (g_ifs g) i with Some m => e_index (m_e m) | None => 0 end | _ => 0 end.
Definition slot_ok (C : mcfg) (dst : Z * Z) (i : Z) (s : ri) : Prop :=
  (i = 0 -> ri_act s = false) /\ (i <> 0 -> exists sc gw, s = mkRi true (Some (mkRt (mc_rt C) 0 sc i gw dst false))).
Definition slots_ok (C : mcfg) (g : mgw) : Prop := slot_ok C slash1a (ovif g) (fst (g_ovr g)) /\ slot_ok C slash1b (ovif g) (snd (g_ovr g)).
Definition SPre (C : mcfg) (ol : bool) (g : mgw) : Prop :=
  slots_ok C g /\ (ov_valid (g_ov g) = false -> g_ov g = ov0) /\ (ol = false -> quiet g -> g_ov g = best_overall Runtime g).
Definition SInv (C : mcfg) (g : mgw) : Prop := slots_ok C g /\ g_ov g = best_overall Runtime g.

Lemma ov_eqb_ok a b : ov_eqb a b = true -> a = b.
Proof.
  destruct a as [v o l t], b as [v' o' l' t']. unfold ov_eqb. cbn [ov_valid ov_olsr ov_link ov_tun]. intros H. repeat (apply andb_prop in H; destruct H as [H ?]). apply eqb_prop in H. apply eqb_prop in H2. assert (t = t') by lia. subst.
  f_equal. destruct l as [[i|i]|], l' as [[j|j]|]; try discriminate; f_equal; f_equal; [now apply Nat.eqb_eq|lia].
Qed.
Lemma overall_slot C g dst s : slot_ok C dst (fst (overall_if g)) (overall_route C g dst s).
Proof.
  unfold overall_route. destruct (overall_if g) as [i gw]. cbn [fst]. split.
  - intros ->. reflexivity.
  - intros N. destruct (Z.eqb_spec i 0); [contradiction|]. eexists. eexists. reflexivity.
Qed.
Lemma best_overall_invalid ph g : nth_if (g_ifs g) (g_best g) = None \/ True -> ov_valid (best_overall ph g) = false -> best_overall ph g = ov0.
Proof.
  intros _. unfold best_overall. destruct (_ || _) eqn:Q; [reflexivity|]. destruct (_ <=? _) eqn:L.
  - destruct (g_best g) as [i|]; cbn [ov_valid]; [discriminate|]. intros _. apply orb_false_elim in Q. destruct Q as [Q _]. cbn [nth_if] in *. exfalso. destruct (g_gw g) as [c|]; [destruct (g_alldown g)|]; lia.
  - destruct (g_gw g); [discriminate|reflexivity].
Qed.
Lemma overall_same g : g_ov g = best_overall Runtime g -> fst (overall_if g) = ovif g.
Proof.
  intros E. unfold overall_if, ovif. rewrite E. unfold best_overall. destruct (_ || _); [reflexivity|]. destruct (_ <=? _).
  - cbn [ov_valid ov_olsr ov_link negb]. destruct (g_best g) as [i|]; cbn [negb option_map]; [|reflexivity]. destruct (nth_error (g_ifs g) i); reflexivity.
  - destruct (g_gw g) as [c|]; reflexivity.
Qed.
Lemma best_overall_ext ph g g' : ph <> Shutdown -> g_best g' = g_best g -> g_gw g' = g_gw g -> g_alldown g' = g_alldown g ->
  option_map m_costs (nth_if (g_ifs g') (g_best g)) = option_map m_costs (nth_if (g_ifs g) (g_best g)) -> best_overall Runtime g' = best_overall ph g.
Proof.
  intros N B G A Cs. unfold best_overall. rewrite B, G, A. assert (P : is_stop ph = false) by (destruct ph; try reflexivity; now elim N). rewrite P. cbn [is_stop].
  destruct (nth_if (g_ifs g') (g_best g)) as [m'|], (nth_if (g_ifs g) (g_best g)) as [m|]; cbn [option_map] in Cs; try discriminate; [|reflexivity]. inversion Cs as [Cs']. now rewrite Cs'.
Qed.
Lemma nth_if_map f ms b : nth_if (map f ms) b = option_map f (nth_if ms b).
Proof. destruct b as [i|]; [apply nth_error_map|reflexivity]. Qed.
Lemma slots_ext C g g' : g_ov g' = g_ov g -> g_ovr g' = g_ovr g -> (forall i, option_map (fun m => e_index (m_e m)) (nth_error (g_ifs g') i) = option_map (fun m => e_index (m_e m)) (nth_error (g_ifs g) i)) -> slots_ok C g -> slots_ok C g'.
Proof.
  intros O R I. unfold slots_ok. assert (E : ovif g' = ovif g).
  { unfold ovif. rewrite O. destruct (negb _); [reflexivity|]. destruct (ov_olsr (g_ov g)); [reflexivity|]. destruct (ov_link (g_ov g)) as [[i|]|]; try reflexivity. specialize (I i).
    destruct (nth_error (g_ifs g') i), (nth_error (g_ifs g) i); cbn [option_map] in I; try discriminate; [now inversion I|reflexivity]. }
  now rewrite R, E.
Qed.

(** ** a change of the routes *)
Definition post (C : mcfg) (g' : mgw) (F : fib) (ms : list mif) (b : option nat) : Prop :=
  g_ifs g' = ms /\ (forall m, In m ms -> exact_m m F) /\ g_best g' = b /\ g_broute g' = best_route C g' /\ others C g' F.
Lemma tail_exact C W ol be ph prev g1 F : smoothW W -> ph <> Shutdown -> NoDup (tabs C g1) ->
  (ph = Startup -> ri_act (g_broute g1) = false /\ ri_act (fst (g_ovr g1)) = false /\ ri_act (snd (g_ovr g1)) = false) ->
  others C g1 F -> (forall m, In m (g_ifs g1) -> exact_m m F) ->
  (be = false -> ph = Runtime -> g_broute g1 = best_route C g1) -> (be = true -> ph = Runtime -> prev = None -> g_best g1 <> None) ->
  let '(g2, bo) := if ol || be || forced ph then (with_ov g1 (best_overall ph g1), negb (ov_eqb (best_overall ph g1) (g_ov g1))) else (g1, false) in
  let (g3, t3) := if bo || forced ph then setupOverride C W ph (g_ov g1) g2 else (g2, []) in
  let (g4, t4) := if be || forced ph then configureBest C W ph prev g3 else (g3, []) in
  post C g4 (kreqs (kreqs F t3) t4) (g_ifs g1) (g_best g1) /\ g_gw g4 = g_gw g1 /\ g_alldown g4 = g_alldown g1 /\
  (slots_ok C g1 -> (ov_valid (g_ov g1) = false -> g_ov g1 = ov0) -> (ol = false -> be = false -> g_ov g1 = best_overall Runtime g1) -> SInv C g4).
Proof.
  intros S N Nd St O E Hf Ht.
  set (x2 := if ol || be || forced ph then (with_ov g1 (best_overall ph g1), negb (ov_eqb (best_overall ph g1) (g_ov g1))) else (g1, false)).
  assert (X2 : g_ifs (fst x2) = g_ifs g1 /\ g_best (fst x2) = g_best g1 /\ g_broute (fst x2) = g_broute g1 /\ g_ovr (fst x2) = g_ovr g1 /\ g_gw (fst x2) = g_gw g1 /\ g_alldown (fst x2) = g_alldown g1).
  { unfold x2. destruct (_ || _ || _); cbn [fst with_ov g_ifs g_best g_broute g_ovr g_gw g_alldown]; repeat split. }
  assert (X3 : (ol || be || forced ph = true /\ g_ov (fst x2) = best_overall ph g1 /\ (snd x2 = false -> g_ov (fst x2) = g_ov g1) /\ (snd x2 = true -> g_ov (fst x2) <> g_ov g1)) \/ (ol || be || forced ph = false /\ g_ov (fst x2) = g_ov g1 /\ snd x2 = false)).
  { unfold x2. destruct (ol || be || forced ph); [left|right]; cbn [fst snd with_ov g_ov]; [|now repeat split]. split; [reflexivity|]. split; [reflexivity|]. destruct (ov_eqb (best_overall ph g1) (g_ov g1)) eqn:Q; cbn [negb].
    - apply ov_eqb_ok in Q. split; [intros _; exact Q|discriminate].
    - split; [discriminate|]. intros _ X. rewrite X in Q. assert (ov_eqb (g_ov g1) (g_ov g1) = true); [|congruence]. destruct (g_ov g1) as [v o l t]. unfold ov_eqb. cbn [ov_valid ov_olsr ov_link ov_tun]. rewrite !eqb_reflx, Z.eqb_refl. destruct l as [[i|i]|]; cbn [andb]; [apply Nat.eqb_refl|apply Z.eqb_refl|reflexivity]. }
  clearbody x2. destruct x2 as [g2 bo]. cbn [fst snd] in *. destruct X2 as (I2 & B2 & R2 & V2 & G2 & A2).
  assert (O2 : others C g2 F) by (unfold others in *; now rewrite R2, V2).
  assert (E2 : forall m, In m (g_ifs g2) -> exact_m m F) by (now rewrite I2).
  assert (Nd2 : NoDup (tabs C g2)) by (unfold tabs in *; now rewrite I2).
  set (x3 := if bo || forced ph then setupOverride C W ph (g_ov g1) g2 else (g2, [])).
  assert (Y : others C (fst x3) (kreqs F (snd x3)) /\ (forall m, In m (g_ifs g2) -> exact_m m (kreqs F (snd x3))) /\
     (g_ifs (fst x3) = g_ifs g2 /\ g_best (fst x3) = g_best g2 /\ g_broute (fst x3) = g_broute g2 /\ g_gw (fst x3) = g_gw g2 /\ g_alldown (fst x3) = g_alldown g2 /\ g_ov (fst x3) = g_ov g2) /\
     (g_ovr (fst x3) = (overall_route C g2 slash1a (fst (g_ovr g2)), overall_route C g2 slash1b (snd (g_ovr g2))) \/
      (g_ovr (fst x3) = g_ovr g2 /\ forced ph = false /\ (bo = true -> ov_valid (g_ov g1) = false /\ ov_valid (g_ov g2) = false)))).
  { unfold x3. destruct (bo || forced ph) eqn:Q.
    - destruct (override_exact C W ph (g_ov g1) g2 F S N Nd2) as (Y1 & Y2 & Y3 & Y4); [rewrite V2; intros X; destruct (St X) as (_ & X1 & X2); now split|exact O2|exact E2|].
      destruct (override_same C W ph (g_ov g1) g2) as (S1 & S2 & S3 & S4 & S5 & S6 & _). split; [exact Y1|]. split; [exact Y2|]. split; [now repeat split|].
      destruct (ov_valid (g_ov g1) || ov_valid (g_ov g2) || forced ph) eqn:Z1; [left; now apply Y4|].
      apply orb_false_elim in Z1. destruct Z1 as [Z1 Z2]. apply orb_false_elim in Z1. destruct Z1 as [Z1 Z3].
      right. split; [|split; [exact Z2|intros _; now split]]. unfold setupOverride. now rewrite Z1, Z3, Z2.
    - apply orb_false_elim in Q. destruct Q as [Q1 Q2]. cbn [fst snd kreqs fold_left]. split; [exact O2|]. split; [exact E2|]. split; [now repeat split|]. right. split; [reflexivity|]. split; [exact Q2|]. congruence. }
  clearbody x3. destruct x3 as [g3 t3]. cbn [fst snd] in *. destruct Y as (O3 & E3 & (I3 & B3 & R3 & G3 & A3 & V3) & Y).
  assert (Nd3 : NoDup (tabs C g3)) by (unfold tabs in *; now rewrite I3).
  set (x4 := if be || forced ph then configureBest C W ph prev g3 else (g3, [])).
  assert (Br : forall g, g_ifs g = g_ifs g1 -> g_best g = g_best g1 -> best_route C g = best_route C g1) by (intros gg X1 X2; unfold best_route; now rewrite X1, X2).
  assert (Q4 : others C (fst x4) (kreqs (kreqs F t3) (snd x4)) /\ (forall m, In m (g_ifs g3) -> exact_m m (kreqs (kreqs F t3) (snd x4))) /\
     (g_ifs (fst x4) = g_ifs g3 /\ g_best (fst x4) = g_best g3 /\ g_ovr (fst x4) = g_ovr g3 /\ g_gw (fst x4) = g_gw g3 /\ g_alldown (fst x4) = g_alldown g3 /\ g_ov (fst x4) = g_ov g3) /\
     g_broute (fst x4) = best_route C g1).
  { unfold x4. destruct (be || forced ph) eqn:Q.
    - destruct (cbest_exact C W ph prev g3 (kreqs F t3) S N Nd3) as (Z1 & Z2 & Z3); [intros X; rewrite R3, R2; now apply St|exact O3|now rewrite I3|].
      destruct (cbest_same C W ph prev g3) as (S1 & S2 & S3 & S4 & S5 & S6 & _). split; [exact Z1|]. split; [exact Z2|]. split; [now repeat split|].
      destruct Z3 as [Z3|(P1 & P2 & P3 & P4)]; [rewrite Z3; apply Br; congruence|]. subst ph. cbn [forced] in Q. rewrite orb_false_r in Q. exfalso. apply (Ht Q eq_refl P1). congruence.
    - apply orb_false_elim in Q. destruct Q as [Q1 Q2]. cbn [fst snd kreqs fold_left]. split; [exact O3|]. split; [now rewrite I3|]. split; [now repeat split|]. rewrite R3, R2. apply Hf; [exact Q1|]. destruct ph; try discriminate; reflexivity. }
  clearbody x4. destruct x4 as [g4 t4]. cbn [fst snd] in *. destruct Q4 as (O4 & E4 & (I4 & B4 & R4 & G4 & A4 & V4) & Q4).
  split; [|split; [congruence|split; [congruence|]]].
  - split; [congruence|]. split; [|split; [congruence|]].
    + intros m I. apply E4. now rewrite I3, I2.
    + split; [|exact O4]. rewrite Q4. symmetry. apply Br; congruence.
  - intros So Si Sq.
    assert (OvE : g_ov g4 = best_overall Runtime g4).
    { rewrite V4, V3. assert (Ex : best_overall Runtime g4 = best_overall ph g1).
      { apply best_overall_ext; [exact N|congruence|congruence|congruence|]. now rewrite I4, I3, I2. }
      rewrite Ex. destruct X3 as [(_ & X & _)|(X & X' & _)]; [exact X|]. rewrite X'. apply orb_false_elim in X. destruct X as [X Xf]. apply orb_false_elim in X. destruct X as [X1 X2].
      rewrite (Sq X1 X2). symmetry. assert (P : ph = Runtime) by (destruct ph; try discriminate; reflexivity). now subst ph. }
    split; [|exact OvE]. unfold slots_ok. rewrite R4.
    assert (Oi : ovif g4 = ovif g2) by (unfold ovif; now rewrite V4, V3, I4, I3).
    destruct Y as [Y|(Y1 & Y2 & Y3)].
    + rewrite Y. cbn [fst snd]. assert (Fi : fst (overall_if g2) = ovif g2).
      { apply overall_same. rewrite <- V3, <- V4, OvE. apply best_overall_ext; [discriminate|congruence|congruence|congruence|]. now rewrite I4, I3. }
      rewrite Oi, <- Fi. split; apply overall_slot.
    + rewrite Y1, V2. assert (V : g_ov g2 = g_ov g1).
      { destruct X3 as [(_ & Xa & Xb & Xc)|(_ & Xa & _)]; [|exact Xa]. destruct bo; [|now apply Xb]. destruct (Y3 eq_refl) as [Y4 Y5]. rewrite (Si Y4). rewrite Xa in *. apply best_overall_invalid; [now right|exact Y5]. }
      assert (Oj : ovif g2 = ovif g1) by (unfold ovif; now rewrite V, I2). rewrite Oi, Oj. exact So.
Qed.

Lemma opt_nat_eqb_ok a b : opt_nat_eqb a b = true -> a = b.
Proof. destruct a, b; cbn; try discriminate; [|reflexivity]. intros H. apply Nat.eqb_eq in H. now subst. Qed.
Lemma settle_ext m : e_up (m_e (settle m)) = e_up (m_e m) /\ m_costs (settle m) = m_costs m /\ e_index (m_e (settle m)) = e_index (m_e m).
Proof. repeat split. Qed.
Lemma settle_tables ms : map m_table (map settle ms) = map m_table ms.
Proof. induction ms; cbn; [reflexivity|now f_equal]. Qed.
Lemma others_frame C g F F' : others C g F -> (forall d, F' (mc_rt C) d = F (mc_rt C) d) -> (forall d, F' (mc_off C) d = F (mc_off C) d) -> others C g F'.
Proof.
  intros (A1 & A2 & A3 & A4 & A5 & A6) H1 H2. split; [exact A1|]. split; [intros t d [K1 K2]; rewrite K1, H2, <- K1; apply A2; now split|].
  split; [exact A3|]. split; [intros t d [K1 K2]; rewrite K1, H1, <- K1; apply A4; now split|]. split; [exact A5|]. intros t d [K1 K2]; rewrite K1, H1, <- K1; apply A6; now split.
Qed.
Definition idle (g : mgw) : Prop := Forall m_idle (g_ifs g) /\ ri_act (g_broute g) = false /\ ri_act (fst (g_ovr g)) = false /\ ri_act (snd (g_ovr g)) = false.

Lemma do_routes_eg C W ol ph g F : smoothW W -> ph <> Shutdown -> NoDup (tabs C g) -> Pre C ph g F -> (ph = Startup -> idle g) ->
  let x := do_routes C W true ol ph g in
  post C (fst x) (kreqs F (snd x)) (map settle (g_ifs g)) (best_of W0 Runtime (g_ifs g)) /\ g_gw (fst x) = g_gw g /\ g_alldown (fst x) = g_alldown g /\ (SPre C ol g -> SInv C (fst x)).
Proof.
  intros S N Nd (P1 & P2 & P3 & P4 & P5) St. unfold do_routes. cbn [orb].
  pose proof (best_smooth W ph (g_ifs g) S N) as Bs.
  assert (D : exists u d c, determineBestEgressLink W ph g = (mkMg (g_ifs g) (best_of W0 Runtime (g_ifs g)) (g_ov g) (g_broute g) (g_ovr g) (g_alldown g) u d (g_gw g) (g_time g) (g_rep g), c) /\
    (c = false -> g_best g = best_of W0 Runtime (g_ifs g) /\ quiet g) /\ (c = true -> g_best g = None -> best_of W0 Runtime (g_ifs g) <> None)).
  { unfold determineBestEgressLink. rewrite Bs. match goal with |- context [let (_, _) := ?x in _] => destruct x as [u d] end. eexists. eexists. eexists. split; [reflexivity|]. split.
    - intros X. apply orb_false_elim in X. destruct X as [X1 X2]. apply negb_false_iff in X1. apply opt_nat_eqb_ok in X1. split; [exact X1|]. unfold quiet. rewrite X1. destruct (nth_if _ _) as [m|]; [|exact I]. apply orb_false_elim in X2. exact X2.
    - intros X Y Z. rewrite Y, Z in X. discriminate X. }
  destruct D as (u & d & be & D & D1 & D2). rewrite D. clear D. cbn [g_ifs].
  inversion Nd as [|? ? Na Nb]. inversion Nb as [|? ? Nc Ne]. subst.
  destruct (configure_ifs_exact W ph (g_ifs g) S N Ne P1 P2) with (F := F) as (A1 & A2 & A3); [intros X; now apply St|exact P3|].
  destruct (configure_ifs W ph (g_ifs g)) as [ms t1]. cbn [fst snd] in A1, A2, A3. subst ms.
  set (g1 := with_ifs _ _).
  pose proof (tail_exact C W ol be ph (g_best g) g1 (kreqs F t1) S N) as T.
  assert (Br : best_route C g1 = best_route C (mkMg (g_ifs g) (best_of W0 Runtime (g_ifs g)) (g_ov g) (g_broute g) (g_ovr g) (g_alldown g) u d (g_gw g) (g_time g) (g_rep g))).
  { apply (best_route_map C _ _ settle); [now split|reflexivity|reflexivity]. }
  assert (Nd1 : NoDup (tabs C g1)) by (unfold tabs, g1, with_ifs; cbn [g_ifs]; now rewrite settle_tables).
  specialize (T Nd1). assert (St1 : ph = Startup -> ri_act (g_broute g1) = false /\ ri_act (fst (g_ovr g1)) = false /\ ri_act (snd (g_ovr g1)) = false) by (intros X; now apply St).
  specialize (T St1). assert (O1 : others C g1 (kreqs F t1)).
  { apply (others_frame C g1 F); [exact P5| |]; intros x; apply A3; [intros X; apply Na; now right|exact Nc]. }
  specialize (T O1 A2). assert (Hf : be = false -> ph = Runtime -> g_broute g1 = best_route C g1).
  { intros X Ph. destruct (D1 X) as [X1 X2]. rewrite Br. unfold g1, with_ifs. cbn [g_broute]. rewrite (P4 ltac:(now subst ph) X2). unfold best_route. cbn [g_ifs g_best]. now rewrite X1. }
  specialize (T Hf). assert (Ht : be = true -> ph = Runtime -> g_best g = None -> g_best g1 <> None) by (intros X _ Y; now apply D2).
  specialize (T Ht). clear Hf Ht.
  cbv zeta in *; match goal with |- context [if ol || be || forced ph then ?a else ?b] => destruct (if ol || be || forced ph then a else b) as [g2 bo] end.
  cbv zeta in *; match goal with |- context [if bo || forced ph then ?a else ?b] => destruct (if bo || forced ph then a else b) as [g3 t3] end.
  cbv zeta in *; match goal with |- context [if be || forced ph then ?a else ?b] => destruct (if be || forced ph then a else b) as [g4 t4] end.
  cbn [fst snd]. rewrite kreqs_app, kreqs_app. destruct T as (T1 & T2 & T3 & T4). split; [exact T1|]. split; [exact T2|]. split; [exact T3|].
  intros (Q1 & Q2 & Q3). apply T4; [| exact Q2 |].
  - apply (slots_ext C g g1); [reflexivity|reflexivity| |exact Q1]. intros i. unfold g1, with_ifs. cbn [g_ifs]. rewrite nth_error_map. destruct (nth_error (g_ifs g) i); reflexivity.
  - intros X1 X2. destruct (D1 X2) as [Y1 Y2]. specialize (Q3 X1 Y2). unfold g1 at 1. unfold with_ifs. cbn [g_ov]. rewrite Q3. symmetry. apply best_overall_ext; [discriminate|now rewrite Y1|reflexivity|reflexivity|].
    unfold g1, with_ifs. cbn [g_ifs]. rewrite nth_if_map. destruct (nth_if (g_ifs g) (g_best g)); reflexivity.
Qed.
Lemma do_routes_ol C W ol g F : smoothW W -> NoDup (tabs C g) -> Inv C g F ->
  let x := do_routes C W false ol Runtime g in
  post C (fst x) (kreqs F (snd x)) (g_ifs g) (g_best g) /\ g_gw (fst x) = g_gw g /\ g_alldown (fst x) = g_alldown g /\ (SPre C ol g -> SInv C (fst x)).
Proof.
  intros S Nd (I1 & I2 & I3 & I4 & I5). unfold do_routes. cbn [orb forced].
  pose proof (tail_exact C W ol false Runtime (g_best g) g F S) as T. cbn [orb forced] in T. specialize (T ltac:(discriminate) Nd ltac:(discriminate) I5 I2 (fun _ _ => I4) ltac:(discriminate)).
  cbv beta iota zeta in T |- *. cbn [orb forced]. rewrite !orb_false_r in T |- *.
  cbv zeta in *; match goal with |- context [if ol then ?a else ?b] => destruct (if ol then a else b) as [g2 bo] end.
  cbv zeta in *; cbn [orb forced] in *; rewrite ?orb_false_r in T |- *; match goal with |- context [if bo then ?a else ?b] => destruct (if bo then a else b) as [g3 t3] end. cbn [fst snd app]. rewrite app_nil_r in *. destruct T as (T1 & T2 & T3 & T4). split; [exact T1|]. split; [exact T2|]. split; [exact T3|].
  intros (Q1 & Q2 & Q3). apply T4; [exact Q1|exact Q2|]. intros X _. apply Q3; [exact X|]. unfold quiet. destruct (nth_if (g_ifs g) (g_best g)) as [m|] eqn:E; [|exact I].
  assert (Hm : In m (g_ifs g)) by (destruct (g_best g); [now apply nth_error_In in E|discriminate]). rewrite Forall_forall in I1. destruct (I1 m Hm) as ((F1 & F2 & F3 & F4 & F5) & _). now split.
Qed.

Lemma inv_pre C ph g F : Inv C g F -> Pre C ph g F.
Proof.
  intros (I1 & I2 & I3 & I4 & I5). assert (P : Forall (pm ph) (g_ifs g) /\ Forall netok (g_ifs g)).
  { rewrite Forall_forall in I1. split; apply Forall_forall; intros m Hm; destruct (I1 m Hm) as (N1 & N2 & N3 & N4); [|exact N2]. split; [now intros|]. split; [now intros|]. split; [rewrite N3; now apply net_keys|rewrite N4; apply def_keys]. }
  destruct P as [X Y]. split; [exact X|]. split; [exact Y|]. split; [exact I2|]. split; [now intros _ _|exact I5].
Qed.
Lemma sinv_spre C ol g : SInv C g -> SPre C ol g.
Proof. intros [A B]. split; [exact A|]. split; [|now intros]. intros X. rewrite B in *. apply best_overall_invalid; [now right|exact X]. Qed.

(** the whole of doRoutesMultiGw *)
Lemma clear_settle_inv C g F ms : Forall netok ms -> g_ifs g = map settle ms -> (forall m, In m (map settle ms) -> exact_m m F) ->
  g_best g = best_of W0 Runtime ms -> g_broute g = best_route C g -> others C g F -> Inv C (with_ifs g (map clear_flags (g_ifs g))) F.
Proof.
  intros No I E B R O. unfold Inv, with_ifs. cbn [g_ifs g_best g_broute]. split.
  - rewrite Forall_forall in *. intros m Hm. apply in_map_iff in Hm. destruct Hm as (m1 & <- & Hm). rewrite I in Hm. apply in_map_iff in Hm. destruct Hm as (m2 & <- & Hm). split; [repeat split|]. split; [exact (No m2 Hm)|]. split; reflexivity.
  - split.
    + intros m Hm. apply in_map_iff in Hm. destruct Hm as (m1 & <- & Hm). rewrite I in Hm. exact (E m1 Hm).
    + split.
      * rewrite B, I, map_map. symmetry. apply best_map. intros m. repeat split.
      * split; [|exact O]. rewrite R. symmetry. apply (best_route_map C _ _ clear_flags); [now split|reflexivity|reflexivity].
Qed.
Lemma clear_sinv C g : SInv C g -> SInv C (with_ifs g (map clear_flags (g_ifs g))).
Proof.
  intros [A B]. split.
  - apply (slots_ext C g); [reflexivity|reflexivity| |exact A]. intros i. cbn [with_ifs g_ifs]. rewrite nth_error_map. destruct (nth_error (g_ifs g) i); reflexivity.
  - cbn [with_ifs g_ov]. rewrite B. symmetry. apply best_overall_ext; [discriminate|reflexivity|reflexivity|reflexivity|]. cbn [with_ifs g_ifs]. rewrite nth_if_map. destruct (nth_if (g_ifs g) (g_best g)); reflexivity.
Qed.
Lemma pre_alldown C ph g F b : Pre C ph g F -> Pre C ph (with_alldown g b) F. Proof. exact (fun x => x). Qed.
Lemma spre_alldown C ol g b : SPre C ol g -> SPre C (ol || negb (eqb b (g_alldown g))) (with_alldown g b).
Proof.
  intros (A1 & A2 & A3). split; [exact A1|]. split; [exact A2|]. intros X Q. apply orb_false_elim in X. destruct X as [X1 X2]. apply negb_false_iff in X2. apply eqb_prop in X2. subst b. specialize (A3 X1 Q). destruct g. exact A3.
Qed.
Lemma doRoutes_eg C W ol ph g F : smoothW W -> ph <> Shutdown -> NoDup (tabs C g) -> Pre C ph g F -> (ph = Startup -> idle g) ->
  let x := doRoutesMultiGw C W true ol ph g in
  Inv C (fst x) (kreqs F (snd x)) /\ g_ifs (fst x) = map clear_flags (map settle (g_ifs g)) /\ g_gw (fst x) = g_gw g /\ g_alldown (fst x) = w_alldown W /\ (SPre C ol g -> SInv C (fst x)).
Proof.
  intros S N Nd P St. unfold doRoutesMultiGw. cbn [orb]. set (ol' := ol || _).
  pose proof (do_routes_eg C W ol' ph (with_alldown g (w_alldown W)) F S N Nd (pre_alldown C ph g F _ P) St) as H. cbv zeta in H.
  pose proof (spre_alldown C ol g (w_alldown W)) as Sp. fold ol' in Sp.
  destruct (do_routes C W true ol' ph (with_alldown g (w_alldown W))) as [g1 t]. cbn [fst snd] in *. destruct H as ((H1 & H2 & H3 & H4 & H5) & H6 & H7 & H8).
  destruct P as (P1 & P2 & P3 & P4 & P5). split; [|split; [|split; [exact H6|split; [exact H7|]]]].
  - now apply (clear_settle_inv C g1 _ (g_ifs g)).
  - cbn [with_ifs g_ifs]. now rewrite H1.
  - intros Q. apply clear_sinv. apply H8. now apply Sp.
Qed.
Lemma doRoutes_ol C W g F : smoothW W -> NoDup (tabs C g) -> Inv C g F ->
  let x := doRoutesMultiGw C W false true Runtime g in
  Inv C (fst x) (kreqs F (snd x)) /\ g_ifs (fst x) = g_ifs g /\ g_gw (fst x) = g_gw g /\ g_alldown (fst x) = w_alldown W /\ (SPre C true g -> SInv C (fst x)).
Proof.
  intros S Nd P. unfold doRoutesMultiGw. cbn [orb].
  pose proof (do_routes_ol C W true (with_alldown g (w_alldown W)) F S Nd P) as H. cbv zeta in H.
  pose proof (spre_alldown C true g (w_alldown W)) as Sp. cbn [orb] in Sp.
  destruct (do_routes C W false true Runtime (with_alldown g (w_alldown W))) as [g1 t]. cbn [fst snd] in *. destruct H as ((H1 & H2 & H3 & H4 & H5) & H6 & H7 & H8).
  destruct P as (P1 & P2 & P3 & P4 & P5). cbn [with_alldown g_ifs g_best] in *. split; [|split; [exact H1|split; [exact H6|split; [exact H7|]]]].
  - unfold Inv. rewrite H1, H3. split; [exact P1|]. split; [exact H2|]. split; [exact P3|]. now split.
  - intros Q. apply H8. now apply Sp.
Qed.

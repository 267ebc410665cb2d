(** Proofs about the routes for several uplinks. *)
From Verif Require Import Base GwSpeed Egress EgressSpec EgressProofs EgressRunProofs MultiGw MultiGwSpec.

Lemma rt_eqb_ok a b : rt_eqb a b = true <-> a = b.
Proof.
  destruct a as [t f s i g [x n] k], b as [t' f' s' i' g' [x' n'] k']. unfold rt_eqb. cbn [r_table r_flags r_scope r_if r_gw r_dst r_black fst snd]. split.
  - intros H. repeat (apply andb_prop in H; destruct H as [H ?]). apply eqb_prop in H0. apply andb_prop in H1. destruct H1 as [H1 H1']. apply gw_eqb_ok in H2. f_equal; try lia; try assumption. f_equal; lia.
  - intros E. inversion E; subst. rewrite !Z.eqb_refl, eqb_reflx. assert (G : gw_eqb g' g' = true) by now apply gw_eqb_ok. now rewrite G.
Qed.
Lemma is_key_ok r t d : is_key r t d = true <-> t = r_table r /\ d = r_dst r.
Proof.
  unfold is_key. destruct d as [x n], (r_dst r) as [y k]. cbn [fst snd]. split.
  - intros H. split; [lia|]. f_equal; lia.
  - intros [-> E]. inversion E; subst. now rewrite !Z.eqb_refl.
Qed.

(** ** what is recorded *)
Definition holds (s : ri) (r : rt) : Prop := ri_act s = true /\ ri_rt s = Some r.
Definition m_holds (m : mif) (r : rt) : Prop := holds (m_net m) r \/ holds (m_def m) r.
Definition recorded (g : mgw) (r : rt) : Prop :=
  holds (g_broute g) r \/ holds (fst (g_ovr g)) r \/ holds (snd (g_ovr g)) r \/ exists m, In m (g_ifs g) /\ m_holds m r.
Definition covers (W : world) (P : rt -> Prop) (F : fib) : Prop :=
  forall t d r, F t d = Some r -> P r /\ t = r_table r /\ d = r_dst r /\ w_up W (r_if r) = true.
Lemma covers_impl W (P Q : rt -> Prop) F : (forall r, P r -> Q r) -> covers W P F -> covers W Q F.
Proof. intros I C t d r E. destruct (C t d r E) as (H & R). split; [now apply I|exact R]. Qed.
Lemma kreqs_app F a b : kreqs F (a ++ b) = kreqs (kreqs F a) b.
Proof. apply fold_left_app. Qed.

Lemma route_changed_refl a : route_changed a a = false.
Proof. unfold route_changed. rewrite eqb_reflx. cbn [negb orb]. destruct (ri_rt a) as [x|]; [|reflexivity]. assert (E : rt_eqb x x = true) by now apply rt_eqb_ok. now rewrite E. Qed.
Lemma route_changed_false a b : route_changed a b = false -> a = b.
Proof.
  unfold route_changed. intros H. apply orb_false_elim in H. destruct H as [H1 H2]. destruct a as [x p], b as [y q]. cbn [ri_act ri_rt] in *.
  apply negb_false_iff in H1. apply eqb_prop in H1. subst y. f_equal. destruct p as [p|], q as [q|]; try discriminate; [|reflexivity]. f_equal. apply negb_false_iff in H2. now apply rt_eqb_ok.
Qed.

Lemma del_cov (Q : rt -> Prop) W s F : (forall r, w_ok W false r = true) -> covers W (fun r => Q r \/ holds s r) F ->
  covers W Q (kreqs F (snd (programRoute W false s))).
Proof.
  intros D Cv. unfold programRoute. destruct (ri_act s) eqn:A; [destruct (ri_rt s) as [x|] eqn:R|].
  - destruct (w_up W (r_if x)) eqn:U; cbn [snd kreqs fold_left].
    + rewrite D. cbn [kreq]. intros t d r E. destruct (is_key x t d) eqn:K.
      * destruct (F t d) as [y|] eqn:Ef; [|discriminate]. destruct (rt_eqb y x) eqn:Y; [discriminate|]. apply Some_inj in E. subst y.
        destruct (Cv t d r Ef) as ([H|[_ H]] & Rest); [now split|]. rewrite R in H. apply Some_inj in H. subst x.
        assert (rt_eqb r r = true) by now apply rt_eqb_ok. congruence.
      * destruct (Cv t d r E) as ([H|[_ H]] & T & Dd & Up); [repeat split; assumption|]. rewrite R in H. apply Some_inj in H. subst x.
        assert (is_key r t d = true) by (apply is_key_ok; now split). congruence.
    + intros t d r E. destruct (Cv t d r E) as ([H|[_ H]] & T & Dd & Up); [repeat split; assumption|]. rewrite R in H. apply Some_inj in H. subst x. congruence.
  - cbn [snd kreqs fold_left]. intros t d r E. destruct (Cv t d r E) as ([H|[_ H]] & Rest); [now split|congruence].
  - cbn [snd kreqs fold_left]. intros t d r E. destruct (Cv t d r E) as ([H|[H _]] & Rest); [now split|congruence].
Qed.
Lemma add_cov (Q : rt -> Prop) W s F : covers W Q F ->
  covers W (fun r => Q r \/ holds (fst (programRoute W true s)) r) (kreqs F (snd (programRoute W true s))).
Proof.
  intros Cv. unfold programRoute. destruct (ri_act s) eqn:A; [destruct (ri_rt s) as [x|] eqn:R|].
  - destruct (w_up W (r_if x)) eqn:U; cbn [fst snd kreqs fold_left].
    + destruct (w_ok W true x) eqn:O; cbn [kreq andb].
      * intros t d r E. destruct (is_key x t d) eqn:K.
        -- apply Some_inj in E. subst x. split; [right; now split|]. apply is_key_ok in K. destruct K. now repeat split.
        -- destruct (Cv t d r E) as (H & Rest). split; [now left|exact Rest].
      * eapply covers_impl; [|exact Cv]. intros; now left.
    + eapply covers_impl; [|exact Cv]. intros; now left.
  - eapply covers_impl; [|exact Cv]. intros; now left.
  - eapply covers_impl; [|exact Cv]. intros; now left.
Qed.
Lemma reprogram_cov (Q : rt -> Prop) W ph prev cur F : (forall r, w_ok W false r = true) -> (ph = Startup -> ri_act prev = false) ->
  covers W (fun r => Q r \/ holds prev r) F ->
  covers W (fun r => Q r \/ holds (fst (reprogram W ph prev cur)) r) (kreqs F (snd (reprogram W ph prev cur))).
Proof.
  intros D St Cv. unfold reprogram. destruct (route_changed prev cur) eqn:Ch.
  - cbn [orb andb]. destruct ph; cbn [is_stop is_start negb andb orb fst snd].
    + cbn [app]. apply add_cov. eapply covers_impl; [|exact Cv]. intros r [H|[H _]]; [exact H|]. rewrite (St eq_refl) in H. discriminate.
    + rewrite kreqs_app. apply add_cov. now apply del_cov.
    + rewrite app_nil_r. eapply covers_impl; [|apply (del_cov Q W prev F D Cv)]. intros; now left.
  - apply route_changed_false in Ch. subst cur. cbn [orb andb]. destruct ph; cbn [is_stop is_start negb andb orb fst snd].
    + cbn [app]. apply add_cov. eapply covers_impl; [|exact Cv]. intros r [H|[H _]]; [exact H|]. rewrite (St eq_refl) in H. discriminate.
    + cbn [app kreqs fold_left]. exact Cv.
    + rewrite app_nil_r. eapply covers_impl; [|apply (del_cov Q W prev F D Cv)]. intros; now left.
Qed.

Definition m_idle (m : mif) : Prop := ri_act (m_net m) = false /\ ri_act (m_def m) = false.
Definition idle (g : mgw) : Prop :=
  ri_act (g_broute g) = false /\ ri_act (fst (g_ovr g)) = false /\ ri_act (snd (g_ovr g)) = false /\ Forall m_idle (g_ifs g).

Lemma configure_if_cov (Q : rt -> Prop) W ph m F : (forall r, w_ok W false r = true) -> (ph = Startup -> m_idle m) ->
  covers W (fun r => Q r \/ m_holds m r) F ->
  covers W (fun r => Q r \/ m_holds (fst (configure_if W ph m)) r) (kreqs F (snd (configure_if W ph m))).
Proof.
  intros D St Cv. unfold configure_if.
  assert (N : forall c, covers W (fun r => (Q r \/ holds (m_def m) r) \/ holds (fst (if c : bool then reprogram W ph (m_net m) (net_route m) else (m_net m, []))) r)
     (kreqs F (snd (if c then reprogram W ph (m_net m) (net_route m) else (m_net m, []))))).
  { intros c. destruct c.
    - apply reprogram_cov; [exact D|intros E; now apply St|]. eapply covers_impl; [|exact Cv]. cbn beta. unfold m_holds. tauto.
    - cbn [fst snd kreqs fold_left]. eapply covers_impl; [|exact Cv]. cbn beta. unfold m_holds. tauto. }
  specialize (N (m_upchg m || e_nchg (m_e m) || forced ph)).
  destruct (if m_upchg m || e_nchg (m_e m) || forced ph then reprogram W ph (m_net m) (net_route m) else (m_net m, [])) as [n tn]. cbn [fst snd] in N.
  assert (Df : forall c, covers W (fun r => (Q r \/ holds n r) \/ holds (fst (if c : bool then reprogram W ph (m_def m) (def_route m) else (m_def m, []))) r)
     (kreqs (kreqs F tn) (snd (if c then reprogram W ph (m_def m) (def_route m) else (m_def m, []))))).
  { intros c. destruct c.
    - apply reprogram_cov; [exact D|intros E; now apply St|]. eapply covers_impl; [|exact N]. cbn beta. tauto.
    - cbn [fst snd]. eapply covers_impl; [|exact N]. cbn beta. tauto. }
  specialize (Df (m_upchg m || e_gchg (m_e m) || forced ph)).
  destruct (if m_upchg m || e_gchg (m_e m) || forced ph then reprogram W ph (m_def m) (def_route m) else (m_def m, [])) as [d td]. cbn [fst snd] in *.
  rewrite kreqs_app. eapply covers_impl; [|exact Df]. unfold m_holds. cbn [m_net m_def]. tauto.
Qed.
Lemma configure_ifs_cov W ph ms : forall (Q : rt -> Prop) F, (forall r, w_ok W false r = true) -> (ph = Startup -> Forall m_idle ms) ->
  covers W (fun r => Q r \/ exists m, In m ms /\ m_holds m r) F ->
  covers W (fun r => Q r \/ exists m, In m (fst (configure_ifs W ph ms)) /\ m_holds m r) (kreqs F (snd (configure_ifs W ph ms))).
Proof.
  induction ms as [|m ms IH]; intros Q F D St Cv; cbn [configure_ifs]; [exact Cv|].
  pose proof (configure_if_cov (fun r => Q r \/ exists m', In m' ms /\ m_holds m' r) W ph m F D) as H1.
  destruct (configure_if W ph m) as [m1 t1]. cbn [fst snd] in H1.
  assert (H2 : covers W (fun r => (Q r \/ m_holds m1 r) \/ exists m', In m' ms /\ m_holds m' r) (kreqs F t1)).
  { eapply covers_impl; [|apply H1].
    - cbn beta. tauto.
    - intros E. specialize (St E). now inversion St.
    - eapply covers_impl; [|exact Cv]. cbn beta. intros r [H|(m' & [->|I] & H)]; [left; now left|now right|left; right; now exists m']. }
  apply IH in H2; [|exact D|intros E; specialize (St E); now inversion St].
  destruct (configure_ifs W ph ms) as [ms2 t2]. cbn [fst snd] in *. rewrite kreqs_app. eapply covers_impl; [|exact H2]. cbn beta.
  intros r [[H|H]|(m' & I & H)]; [now left|right; exists m1; split; [now left|exact H]|right; exists m'; split; [now right|exact H]].
Qed.

(** ** all routes of a state *)
Lemma best_recorded W ph g : let g' := fst (determineBestEgressLink W ph g) in
  g_ifs g' = g_ifs g /\ g_ov g' = g_ov g /\ g_broute g' = g_broute g /\ g_ovr g' = g_ovr g /\ g_alldown g' = g_alldown g /\ g_gw g' = g_gw g /\ g_best g' = best_of W ph (g_ifs g) /\ g_time g' = g_time g /\ g_rep g' = g_rep g.
Proof.
  unfold determineBestEgressLink. cbv zeta. destruct (if _ : bool then _ else _) as [u d]. cbn [fst g_ifs g_ov g_broute g_ovr g_alldown g_gw g_best g_time g_rep]. repeat split.
Qed.
Lemma override_cov C W ph prev g F : (forall r, w_ok W false r = true) -> (ph = Startup -> idle g) ->
  covers W (recorded g) F -> covers W (recorded (fst (setupOverride C W ph prev g))) (kreqs F (snd (setupOverride C W ph prev g))).
Proof.
  intros D St Cv. unfold setupOverride. destruct (_ && _ && _); [exact Cv|]. unfold recorded in Cv. destruct (g_ovr g) as [a b] eqn:Eo. cbn [fst snd] in Cv.
  set (Q := fun r => holds (g_broute g) r \/ exists m, In m (g_ifs g) /\ m_holds m r).
  pose proof (reprogram_cov (fun r => Q r \/ holds b r) W ph a (overall_route C g slash1a a) F D) as H1. destruct (reprogram W ph a (overall_route C g slash1a a)) as [a' ta]. cbn [fst snd] in H1.
  pose proof (reprogram_cov (fun r => Q r \/ holds a' r) W ph b (overall_route C g slash1b b) (kreqs F ta) D) as H2. destruct (reprogram W ph b (overall_route C g slash1b b)) as [b' tb]. cbn [fst snd] in *.
  rewrite kreqs_app. unfold recorded. cbn [g_broute g_ovr g_ifs fst snd].
  eapply covers_impl; [|apply H2].
  - unfold Q. tauto.
  - intros E. specialize (St E). unfold idle in St. rewrite Eo in St. cbn [fst snd] in St. tauto.
  - eapply covers_impl; [|apply H1].
    + unfold Q. tauto.
    + intros E. specialize (St E). unfold idle in St. rewrite Eo in St. cbn [fst snd] in St. tauto.
    + eapply covers_impl; [|exact Cv]. unfold Q. cbn beta. tauto.
Qed.
Lemma cbest_cov C W ph prev g F : (forall r, w_ok W false r = true) -> (ph = Startup -> ri_act (g_broute g) = false) ->
  covers W (recorded g) F -> covers W (recorded (fst (configureBest C W ph prev g))) (kreqs F (snd (configureBest C W ph prev g))).
Proof.
  intros D St Cv. assert (H : covers W (recorded (fst (let (r, t) := reprogram W ph (g_broute g) (best_route C g) in
               (mkMg (g_ifs g) (g_best g) (g_ov g) r (g_ovr g) (g_alldown g) (g_up g) (g_down g) (g_gw g) (g_time g) (g_rep g), t)))) (kreqs F (snd (let (r, t) := reprogram W ph (g_broute g) (best_route C g) in
               (mkMg (g_ifs g) (g_best g) (g_ov g) r (g_ovr g) (g_alldown g) (g_up g) (g_down g) (g_gw g) (g_time g) (g_rep g), t))))).
  { pose proof (reprogram_cov (fun r => holds (fst (g_ovr g)) r \/ holds (snd (g_ovr g)) r \/ exists m, In m (g_ifs g) /\ m_holds m r) W ph (g_broute g) (best_route C g) F D St) as H1.
    destruct (reprogram W ph (g_broute g) (best_route C g)) as [r' t]. cbn [fst snd] in *. unfold recorded. cbn [g_broute g_ovr g_ifs].
    eapply covers_impl; [|apply H1].
    - cbn beta. tauto.
    - eapply covers_impl; [|exact Cv]. unfold recorded. cbn beta. tauto. }
  unfold configureBest. destruct prev, (g_best g), (forced ph); try exact H. exact Cv.
Qed.
(** what is not touched by a stage *)
Lemma override_same C W ph prev g : let g' := fst (setupOverride C W ph prev g) in
  g_ifs g' = g_ifs g /\ g_ov g' = g_ov g /\ g_broute g' = g_broute g /\ g_alldown g' = g_alldown g /\ g_gw g' = g_gw g /\ g_best g' = g_best g /\ g_up g' = g_up g /\ g_down g' = g_down g /\ g_time g' = g_time g /\ g_rep g' = g_rep g.
Proof.
  unfold setupOverride. destruct (_ && _ && _); [repeat split|]. destruct (g_ovr g) as [a b]. destruct (reprogram W ph a (overall_route C g slash1a a)) as [a' ta]. destruct (reprogram W ph b (overall_route C g slash1b b)) as [b' tb].
  cbn [fst g_ifs g_ov g_broute g_alldown g_gw g_best g_up g_down g_time g_rep]. repeat split.
Qed.
Lemma cbest_same C W ph prev g : let g' := fst (configureBest C W ph prev g) in
  g_ifs g' = g_ifs g /\ g_ov g' = g_ov g /\ g_ovr g' = g_ovr g /\ g_alldown g' = g_alldown g /\ g_gw g' = g_gw g /\ g_best g' = g_best g /\ g_up g' = g_up g /\ g_down g' = g_down g /\ g_time g' = g_time g /\ g_rep g' = g_rep g.
Proof.
  unfold configureBest. destruct (reprogram W ph (g_broute g) (best_route C g)) as [r' t]. destruct prev, (g_best g) eqn:E, (forced ph); cbn [fst g_ifs g_ov g_ovr g_alldown g_gw g_best g_up g_down g_time g_rep]; repeat split; congruence.
Qed.

Lemma do_routes_cov C W eg ol ph g F : (forall r, w_ok W false r = true) -> (ph = Startup -> idle g) ->
  covers W (recorded g) F -> covers W (recorded (fst (do_routes C W eg ol ph g))) (kreqs F (snd (do_routes C W eg ol ph g))).
Proof.
  intros D St Cv. unfold do_routes.
  assert (S1 : forall c : bool, let x := if c then let (g', c0) := determineBestEgressLink W ph g in let (ms, t) := configure_ifs W ph (g_ifs g') in (with_ifs g' ms, c0, t) else (g, false, []) in
     covers W (recorded (fst (fst x))) (kreqs F (snd x)) /\ g_broute (fst (fst x)) = g_broute g /\ g_ovr (fst (fst x)) = g_ovr g).
  { intros c. destruct c; [|cbn [fst snd kreqs fold_left]; split; [exact Cv|now split]]. destruct (best_recorded W ph g) as (B1 & _ & B3 & B4 & _).
    destruct (determineBestEgressLink W ph g) as [g' c0]. cbn [fst] in *. rewrite B1.
    pose proof (configure_ifs_cov W ph (g_ifs g) (fun r => holds (g_broute g) r \/ holds (fst (g_ovr g)) r \/ holds (snd (g_ovr g)) r) F D) as H.
    destruct (configure_ifs W ph (g_ifs g)) as [ms t]. cbn [fst snd with_ifs g_ifs g_broute g_ovr] in *. rewrite B3, B4. split; [|now split].
    unfold recorded. cbn [with_ifs g_ifs g_broute g_ovr]. rewrite B3, B4. eapply covers_impl; [|apply H].
    - cbn beta. tauto.
    - intros E. specialize (St E). unfold idle in St. tauto.
    - eapply covers_impl; [|exact Cv]. unfold recorded. cbn beta. tauto. }
  specialize (S1 (eg || forced ph)). cbv zeta in S1.
  destruct (if eg || forced ph then let (g', c0) := determineBestEgressLink W ph g in let (ms, t) := configure_ifs W ph (g_ifs g') in (with_ifs g' ms, c0, t) else (g, false, [])) as [[g1 be] t1]. cbn [fst snd] in S1. destruct S1 as (C1 & R1 & R2).
  assert (S2 : forall c : bool, let x := if c then (with_ov g1 (best_overall ph g1), negb (ov_eqb (best_overall ph g1) (g_ov g1))) else (g1, false) in
     covers W (recorded (fst x)) (kreqs F t1) /\ g_broute (fst x) = g_broute g /\ g_ovr (fst x) = g_ovr g).
  { intros c. destruct c; cbn [fst]; [|split; [exact C1|now split]]. split; [exact C1|]. now split. }
  specialize (S2 (ol || be || forced ph)). cbv zeta in *.
  destruct (if ol || be || forced ph then (with_ov g1 (best_overall ph g1), negb (ov_eqb (best_overall ph g1) (g_ov g1))) else (g1, false)) as [g2 bo]. cbn [fst] in S2. destruct S2 as (C2 & R3 & R4).
  assert (S3 : forall c : bool, let x := if c then setupOverride C W ph (g_ov g1) g2 else (g2, []) in
     (ph = Startup -> ri_act (g_broute g2) = false /\ ri_act (fst (g_ovr g2)) = false /\ ri_act (snd (g_ovr g2)) = false) ->
     covers W (recorded (fst x)) (kreqs (kreqs F t1) (snd x)) /\ g_broute (fst x) = g_broute g).
  { intros c. destruct c; cbn [fst snd]; intros I; [|now split]. destruct (override_same C W ph (g_ov g1) g2) as (_ & _ & B & _). split; [|congruence].
    destruct ph.
    - destruct (I eq_refl) as (I1 & I2 & I3). clear I St. (* the interfaces may be active by now *)
      unfold setupOverride. destruct (_ && _ && _); [exact C2|]. unfold recorded in C2. destruct (g_ovr g2) as [a b] eqn:Eo. cbn [fst snd] in *.
      set (Q := fun r => holds (g_broute g2) r \/ exists m, In m (g_ifs g2) /\ m_holds m r).
      pose proof (reprogram_cov (fun r => Q r \/ holds b r) W Startup a (overall_route C g2 slash1a a) (kreqs F t1) D (fun _ => I2)) as H1. destruct (reprogram W Startup a (overall_route C g2 slash1a a)) as [a' ta]. cbn [fst snd] in H1.
      pose proof (reprogram_cov (fun r => Q r \/ holds a' r) W Startup b (overall_route C g2 slash1b b) (kreqs (kreqs F t1) ta) D (fun _ => I3)) as H2. destruct (reprogram W Startup b (overall_route C g2 slash1b b)) as [b' tb]. cbn [fst snd] in *.
      rewrite kreqs_app. unfold recorded. cbn [g_broute g_ovr g_ifs fst snd]. eapply covers_impl; [|apply H2].
      + unfold Q. tauto.
      + eapply covers_impl; [|apply H1].
        * unfold Q. tauto.
        * eapply covers_impl; [|exact C2]. unfold Q. cbn beta. tauto.
    - apply override_cov; [exact D|discriminate|exact C2].
    - apply override_cov; [exact D|discriminate|exact C2]. }
  specialize (S3 (bo || forced ph)). cbv zeta in S3.
  destruct (if bo || forced ph then setupOverride C W ph (g_ov g1) g2 else (g2, [])) as [g3 t3]. cbn [fst snd] in S3.
  destruct S3 as (C3 & R5). { intros E. destruct (St E) as (I1 & I2 & I3 & _). rewrite R3, R4. now repeat split. }
  assert (S4 : forall c : bool, let x := if c then configureBest C W ph (g_best g) g3 else (g3, []) in covers W (recorded (fst x)) (kreqs (kreqs (kreqs F t1) t3) (snd x))).
  { intros c. destruct c; [|exact C3]. apply cbest_cov; [exact D| |exact C3]. intros E. rewrite R5. now apply St. }
  specialize (S4 (be || forced ph)). cbv zeta in S4.
  destruct (if be || forced ph then configureBest C W ph (g_best g) g3 else (g3, [])) as [g4 t4]. cbn [fst snd] in *. rewrite !kreqs_app. exact S4.
Qed.

Lemma clear_recorded g r : recorded (with_ifs g (map clear_flags (g_ifs g))) r <-> recorded g r.
Proof.
  unfold recorded. cbn [with_ifs g_broute g_ovr g_ifs]. split; intros [H|[H|[H|(m & I & H)]]]; try tauto; right; right; right.
  - apply in_map_iff in I. destruct I as (m0 & <- & I). exists m0. split; [exact I|exact H].
  - exists (clear_flags m). split; [now apply in_map|exact H].
Qed.
Lemma doRoutes_cov C W eg ol ph g F : (forall r, w_ok W false r = true) -> (ph = Startup -> idle g) ->
  covers W (recorded g) F -> covers W (recorded (fst (doRoutesMultiGw C W eg ol ph g))) (kreqs F (snd (doRoutesMultiGw C W eg ol ph g))).
Proof.
  intros D St Cv. unfold doRoutesMultiGw. cbv zeta. set (ol' := ol || negb (eqb (w_alldown W) (g_alldown g))).
  assert (H : forall c : bool, let x := if c then do_routes C W eg ol' ph (with_alldown g (w_alldown W)) else (with_alldown g (w_alldown W), []) in covers W (recorded (fst x)) (kreqs F (snd x))).
  { intros c. destruct c; [|exact Cv]. apply do_routes_cov; [exact D|exact St|exact Cv]. }
  specialize (H (eg || ol' || forced ph)). cbv zeta in H. destruct (if eg || ol' || forced ph then _ else _) as [g1 t]. cbn [fst snd] in *. destruct eg; [|exact H].
  eapply covers_impl; [|exact H]. intros r R. now apply clear_recorded.
Qed.

(** ** steps which do not touch the routes *)
Definition routes_of (ms : list mif) : list (Z * ri * ri) := map (fun m => (m_table m, m_net m, m_def m)) ms.
Lemma routes_in ms ms' m : routes_of ms = routes_of ms' -> In m ms -> exists m', In m' ms' /\ m_table m' = m_table m /\ m_net m' = m_net m /\ m_def m' = m_def m.
Proof.
  intros E I. apply (in_map (fun m => (m_table m, m_net m, m_def m))) in I. unfold routes_of in E. rewrite E in I. apply in_map_iff in I. destruct I as (m' & E' & I). inversion E'. now exists m'.
Qed.
Lemma recorded_same g ms r : routes_of ms = routes_of (g_ifs g) -> recorded g r -> recorded (with_ifs g ms) r.
Proof.
  intros E. unfold recorded. cbn [with_ifs g_broute g_ovr g_ifs]. intros [H|[H|[H|(m & I & H)]]]; try tauto. right; right; right.
  destruct (routes_in _ _ m (eq_sym E) I) as (m' & I' & _ & N & Df). exists m'. split; [exact I'|]. unfold m_holds in *. now rewrite N, Df.
Qed.
Lemma put_es_routes ms : forall es, length es = length ms -> routes_of (put_es ms es) = routes_of ms /\ map m_e (put_es ms es) = es.
Proof.
  induction ms as [|m ms IH]; intros [|e es] L; cbn [put_es routes_of map]; try discriminate; [now split|]. cbn [length] in L. destruct (IH es) as [A B]; [lia|].
  cbn [m_table m_net m_def m_e]. split; [f_equal; exact A|f_equal; exact B].
Qed.
Lemma read_length w p6 s f : length (s_ifs (fst (fst (readEgressFile w p6 s f)))) = length (s_ifs s).
Proof.
  unfold readEgressFile, outerror. destruct f as [| |t|t c]; cbn [fst s_ifs]; rewrite ?map_length; try reflexivity. destruct (time_eqb (s_time s) t); [reflexivity|].
  pose proof (read_lines_fields w p6 (file_lines c) (map clear_if (s_ifs s))) as R. destruct (read_lines w p6 (file_lines c) (map clear_if (s_ifs s))) as [es err]. cbn [fst s_ifs] in *. rewrite map_length.
  apply (f_equal (@length _)) in R. now rewrite !map_length in R.
Qed.
Lemma read_file_routes C f g : let g' := fst (read_file C f g) in
  routes_of (g_ifs g') = routes_of (g_ifs g) /\ g_broute g' = g_broute g /\ g_ovr g' = g_ovr g /\ g_best g' = g_best g /\ g_ov g' = g_ov g /\ g_gw g' = g_gw g /\ g_alldown g' = g_alldown g /\ g_up g' = g_up g /\ g_down g' = g_down g.
Proof.
  unfold read_file. pose proof (read_length (mc_w C) (mc_p6 C) (mkS (g_time g) (g_rep g) (map m_e (g_ifs g))) f) as L.
  destruct (readEgressFile (mc_w C) (mc_p6 C) (mkS (g_time g) (g_rep g) (map m_e (g_ifs g))) f) as [[s ch] ops]. cbn [fst s_ifs g_ifs g_broute g_ovr g_best g_ov g_gw g_alldown g_up g_down] in *.
  rewrite map_length in L. split; [now apply put_es_routes|repeat split].
Qed.
Lemma if_add_routes w name i ms : routes_of (fst (if_add w name i ms)) = routes_of ms.
Proof.
  induction ms as [|m ms IH]; cbn [if_add]; [reflexivity|]. destruct (leqb _ _); [destruct (e_up (m_e m)); reflexivity|]. destruct (if_add w name i ms) as [ms2 c]. cbn [fst] in *. unfold routes_of in *. cbn [map]. now rewrite IH.
Qed.
Lemma if_remove_routes w i ms : routes_of (fst (if_remove w i ms)) = routes_of ms.
Proof.
  induction ms as [|m ms IH]; cbn [if_remove]; [reflexivity|]. destruct (_ =? _); [destruct (e_up (m_e m)); reflexivity|]. destruct (if_remove w i ms) as [ms2 c]. cbn [fst] in *. unfold routes_of in *. cbn [map]. now rewrite IH.
Qed.
Lemma recorded_ext g g' r : routes_of (g_ifs g') = routes_of (g_ifs g) -> g_broute g' = g_broute g -> g_ovr g' = g_ovr g -> recorded g r -> recorded g' r.
Proof.
  intros E B O H. apply (recorded_same g (g_ifs g') r E) in H. unfold recorded in *. cbn [with_ifs g_broute g_ovr g_ifs] in H. now rewrite B, O.
Qed.

(** ** no stale routes *)
Lemma step_cov C W o g F : (forall r, w_ok W false r = true) -> covers W (recorded g) F ->
  covers W (recorded (fst (gstep C W o g))) (kreqs F (snd (gstep C W o g))).
Proof.
  intros D Cv. destruct o as [f|i olsr f|c|]; cbn [gstep].
  - unfold poll. destruct (read_file_routes C f g) as (R1 & R2 & R3 & _). destruct (read_file C f g) as [g1 ch]. cbn [fst] in *.
    assert (C1 : covers W (recorded g1) F) by (eapply covers_impl; [|exact Cv]; intros r; now apply recorded_ext).
    destruct ch; [|exact C1]. apply doRoutes_cov; [exact D|discriminate|exact C1].
  - unfold monitor. assert (H : let x := if olsr then (g, []) else doEgressInterface C W i f g in covers W (recorded (fst x)) (kreqs F (snd x))).
    { destruct olsr; [exact Cv|]. unfold doEgressInterface.
      assert (R : let x := match f with IfAdd (Some name) => if_add (mc_w C) name i (g_ifs g) | IfRemove => if_remove (mc_w C) i (g_ifs g) | _ => (g_ifs g, false) end in routes_of (fst x) = routes_of (g_ifs g)).
      { destruct f as [[name|]| |]; try reflexivity; [apply if_add_routes|apply if_remove_routes]. }
      cbv zeta in R. destruct (match f with IfAdd (Some name) => if_add (mc_w C) name i (g_ifs g) | IfRemove => if_remove (mc_w C) i (g_ifs g) | _ => (g_ifs g, false) end) as [ms c]. cbn [fst] in R.
      assert (C1 : covers W (recorded (with_ifs g ms)) F) by (eapply covers_impl; [|exact Cv]; intros r; now apply recorded_same).
      destruct c; [|exact C1]. apply doRoutes_cov; [exact D|discriminate|exact C1]. }
    cbv zeta in H. destruct (if olsr then (g, []) else doEgressInterface C W i f g) as [g1 t1]. cbn [fst snd] in H.
    pose proof (doRoutes_cov C W true true Runtime g1 (kreqs F t1) D) as H2. destruct (doRoutesMultiGw C W true true Runtime g1) as [g2 t2]. cbn [fst snd] in *. rewrite kreqs_app. apply H2; [discriminate|exact H].
  - apply doRoutes_cov; [exact D|discriminate|exact Cv].
  - exact Cv.
Qed.
Lemma init_idle C xs : idle (init C xs).
Proof.
  unfold idle, init. cbn [g_broute g_ovr fst snd ri_act g_ifs ri0]. repeat (split; [reflexivity|]). generalize 0%nat. induction xs as [|[[name i] up] xs IH]; intros n; cbn [init_ifs]; [constructor|]. constructor; [now split|apply IH].
Qed.
Lemma idle_ext g g' : routes_of (g_ifs g') = routes_of (g_ifs g) -> g_broute g' = g_broute g -> g_ovr g' = g_ovr g -> idle g -> idle g'.
Proof.
  intros E B O (I1 & I2 & I3 & I4). unfold idle. rewrite B, O. repeat (split; [assumption|]). apply Forall_forall. intros m I. destruct (routes_in _ _ m E I) as (m' & I' & _ & N & Df).
  rewrite Forall_forall in I4. specialize (I4 m' I'). unfold m_idle in *. now rewrite <- N, <- Df.
Qed.
Lemma startup_cov C W f xs : (forall r, w_ok W false r = true) -> let x := startup C W f (init C xs) in covers W (recorded (fst x)) (kreqs nofib (snd x)).
Proof.
  intros D. unfold startup. destruct (read_file_routes C f (init C xs)) as (R1 & R2 & R3 & _). apply doRoutes_cov; [exact D| |].
  - intros _. eapply idle_ext; [exact R1|exact R2|exact R3|apply init_idle].
  - intros t d r E. discriminate.
Qed.
Definition covered (P : rt -> Prop) (F : fib) : Prop := forall t d r, F t d = Some r -> P r /\ t = r_table r /\ d = r_dst r.
Lemma reach_covered C fl g F : reach C tidy fl g F -> covered (recorded g) F.
Proof.
  induction 1 as [xs W f A|g F W o R IH A|g F i R IH E].
  - intros t d r X. destruct (startup_cov C W f xs (proj1 A) t d r X) as (P & T & Dd & _). now repeat split.
  - destruct A as [D U]. assert (Cv : covers W (recorded g) F) by (intros t d r X; destruct (IH t d r X) as (P & T & Dd); repeat split; try assumption; exact (U t d r X)).
    intros t d r X. destruct (step_cov C W o g F D Cv t d r X) as (P & T & Dd & _). now repeat split.
  - intros t d r X. unfold kflush in X. destruct (F t d) as [y|] eqn:Ef; [|discriminate]. destruct (r_if y =? i); [discriminate|]. apply Some_inj in X. subst y. exact (IH t d r Ef).
Qed.

(** ** the end *)
Lemma configure_stop w W ms : Forall m_idle (fst (configure_ifs W Shutdown (map (stop_if w) ms))).
Proof.
  induction ms as [|m ms IH]; cbn [map configure_ifs]; [constructor|]. unfold configure_if at 1. cbn [forced]. rewrite !orb_true_r.
  assert (N : net_route (stop_if w m) = ri0) by reflexivity.
  assert (Df : def_route (stop_if w m) = ri0) by reflexivity.
  rewrite N, Df. unfold reprogram. cbn [is_stop is_start negb andb orb]. rewrite !andb_false_r. cbn [fst snd].
  destruct (configure_ifs W Shutdown (map (stop_if w) ms)) as [ms2 t2]. cbn [fst] in *. constructor; [now split|exact IH].
Qed.
Lemma shutdown_recorded C W g r : recorded (fst (shutdown C W g)) r -> r_if r = 0.
Proof.
  unfold shutdown, doRoutesMultiGw. cbn [orb]. unfold do_routes. cbn [orb forced].
  set (g0 := with_alldown _ _). destruct (best_recorded W Shutdown g0) as (B1 & B2 & B3 & B4 & _ & _ & B5 & _). destruct (determineBestEgressLink W Shutdown g0) as [g' c]. cbn [fst] in *. rewrite B1.
  pose proof (configure_stop (mc_w C) W (g_ifs g)) as I. assert (G0 : g_ifs g0 = map (stop_if (mc_w C)) (g_ifs g)) by reflexivity. rewrite G0.
  destruct (configure_ifs W Shutdown (map (stop_if (mc_w C)) (g_ifs g))) as [ms t1]. cbn [fst] in I. rewrite !orb_true_r.
  unfold setupOverride. cbn [forced negb]. rewrite andb_false_r. cbn [with_ov with_ifs g_ovr]. destruct (g_ovr g') as [a b] eqn:Eo.
  set (g2 := with_ov _ _). assert (O : forall dst old, overall_route C g2 dst old = mkRi false (ri_rt old)).
  { intros dst old. unfold overall_route, overall_if. cbn [g2 with_ov g_ov]. unfold best_overall. cbn [is_stop]. rewrite orb_true_r. reflexivity. }
  rewrite !O. unfold reprogram at 1 2. cbn [is_stop is_start negb andb orb]. rewrite !andb_false_r. cbn [fst snd].
  unfold configureBest. cbn [forced g_best].
  set (g3 := mkMg _ _ _ _ _ _ _ _ _ _ _).
  assert (X : forall x : mgw * list req, x = (let (r, t) := reprogram W Shutdown (g_broute g3) (best_route C g3) in (mkMg (g_ifs g3) (g_best g3) (g_ov g3) r (g_ovr g3) (g_alldown g3) (g_up g3) (g_down g3) (g_gw g3) (g_time g3) (g_rep g3), t)) ->
     recorded (with_ifs (fst x) (map clear_flags (g_ifs (fst x)))) r -> r_if r = 0).
  { intros x ->. unfold reprogram. cbn [is_stop is_start negb andb orb]. rewrite andb_false_r. cbn [fst snd]. intros H. apply (proj1 (clear_recorded _ _)) in H. unfold recorded in H. cbn [g_broute g_ovr g_ifs g3 fst snd] in H.
    destruct H as [[_ H]|[[H _]|[[H _]|(m & Im & H)]]].
    - unfold best_route in H. replace (g_best g3) with (@None nat) in H by (unfold g3, g2; cbn [g_best with_ov with_ifs]; now rewrite B5). cbn in H. apply Some_inj in H. now subst r.
    - discriminate.
    - discriminate.
    - rewrite Forall_forall in I. destruct (I m Im) as [N Df]. destruct H as [[H _]|[H _]]; congruence. }
  specialize (X _ eq_refl). change (g_best g3) with (g_best g2) in X. clearbody g3.
  destruct (g_best g0); [|destruct (g_best g2)]; exact X.
Qed.
Lemma shutdown_empty C W fl g F : reach C tidy fl g F -> tidy None W g F g -> w_up W 0 = false ->
  forall t d, kreqs F (snd (shutdown C W g)) t d = None.
Proof.
  intros R [D U] Z0 t d. pose proof (reach_covered C fl g F R) as Cd.
  assert (Cv : covers W (recorded (with_ifs g (map (stop_if (mc_w C)) (g_ifs g)))) F).
  { intros t' d' r X. destruct (Cd t' d' r X) as (P & T & Dd). repeat split; try assumption; [|exact (U t' d' r X)]. apply recorded_same; [|exact P]. unfold routes_of. now rewrite map_map. }
  destruct (kreqs F (snd (shutdown C W g)) t d) as [r|] eqn:E; [|reflexivity]. exfalso.
  destruct (doRoutes_cov C W true false Shutdown _ F D ltac:(discriminate) Cv t d r E) as (P & _ & _ & Up). apply (shutdown_recorded C W g r) in P. rewrite P in Up. congruence.
Qed.

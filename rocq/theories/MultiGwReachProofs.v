(** Proofs about the routes for several uplinks: all that can be reached. *)
From Verif Require Import Base GwSpeed Egress EgressSpec EgressProofs EgressRunProofs MultiGw MultiGwSpec MultiGwProofs MultiGwRunProofs.

(** ** the egress file *)
Definition rd (e e' : eif) : Prop :=
  e_name e' = e_name e /\ e_index e' = e_index e /\ e_up e' = e_up e /\
  e_cchg e' = costs_changed (e_cur e) (e_cur e') /\ e_nchg e' = net_changed (e_cur e) (e_cur e') /\ e_gchg e' = gw_changed (e_cur e) (e_cur e') /\
  e_bchg e' = e_cchg e' || e_nchg e' || e_gchg e'.
Lemma finish_rd w es0 : forall es, map fields_of es = map fields_of (map clear_if es0) -> Forall2 rd es0 (map (finish_if w) es).
Proof.
  induction es0 as [|e0 es0 IH]; intros [|e es] F; cbn [map] in *; try discriminate; [constructor|]. inversion F as [[F1 F2 F3 F4 F5]]. constructor; [|now apply IH].
  unfold rd, finish_if. cbn. rewrite F4. now repeat split.
Qed.
Lemma read_rd w p6 s f : let x := readEgressFile w p6 s f in
  (s_ifs (fst (fst x)) = s_ifs s /\ snd (fst x) = false) \/ (Forall2 rd (s_ifs s) (s_ifs (fst (fst x))) /\ snd (fst x) = existsb e_bchg (s_ifs (fst (fst x)))).
Proof.
  unfold readEgressFile, outerror. destruct f as [| |t|t c]; cbn [fst snd s_ifs].
  - right. split; [now apply finish_rd|reflexivity].
  - right. split; [now apply finish_rd|reflexivity].
  - left. now split.
  - destruct (time_eqb (s_time s) t); [left; now split|]. right. pose proof (read_lines_fields w p6 (file_lines c) (map clear_if (s_ifs s))) as R. destruct (read_lines w p6 (file_lines c) (map clear_if (s_ifs s))) as [es err]. cbn [fst snd s_ifs] in *.
    split; [now apply finish_rd|reflexivity].
Qed.
Definition rdm (m m' : mif) : Prop := rd (m_e m) (m_e m') /\ m_table m' = m_table m /\ m_upchg m' = m_upchg m /\ m_net m' = m_net m /\ m_def m' = m_def m.
Lemma put_rdm ms : forall es, Forall2 rd (map m_e ms) es -> Forall2 rdm ms (put_es ms es).
Proof.
  induction ms as [|m ms IH]; intros es F; cbn [map] in F; inversion F as [|? e ? es' R F']; subst; cbn [put_es]; [constructor|]. constructor; [split; [exact R|now repeat split]|now apply IH].
Qed.
Lemma put_same ms : put_es ms (map m_e ms) = ms.
Proof. induction ms as [|[e t u n d] ms IH]; cbn [map put_es]; [reflexivity|]. cbn. now rewrite IH. Qed.
Lemma put_e ms : forall es, length es = length ms -> map m_e (put_es ms es) = es.
Proof. induction ms as [|m ms IH]; intros [|e es] L; cbn in *; try discriminate; [reflexivity|]. f_equal. apply IH. lia. Qed.
Lemma existsb_put ms es : length es = length ms -> existsb (fun m => e_bchg (m_e m)) (put_es ms es) = existsb e_bchg es.
Proof.
  intros L. pose proof (put_e ms es L) as P. rewrite <- P at 2. generalize (put_es ms es). intros l. induction l; cbn; [reflexivity|now f_equal].
Qed.
Lemma F2_length A B (R : A -> B -> Prop) l l' : Forall2 R l l' -> length l = length l'.
Proof. induction 1; cbn [length]; [reflexivity|now f_equal]. Qed.
Lemma read_file_rd C f g : let x := read_file C f g in
  (g_best (fst x) = g_best g /\ g_ov (fst x) = g_ov g /\ g_broute (fst x) = g_broute g /\ g_ovr (fst x) = g_ovr g /\ g_gw (fst x) = g_gw g /\ g_alldown (fst x) = g_alldown g) /\
  ((g_ifs (fst x) = g_ifs g /\ snd x = false) \/ (Forall2 rdm (g_ifs g) (g_ifs (fst x)) /\ snd x = existsb (fun m => e_bchg (m_e m)) (g_ifs (fst x)))).
Proof.
  unfold read_file. pose proof (read_rd (mc_w C) (mc_p6 C) (mkS (g_time g) (g_rep g) (map m_e (g_ifs g))) f) as R. cbv zeta in R.
  destruct (readEgressFile _ _ _ f) as [[s ch] ops]. cbn [fst snd s_ifs g_ifs g_best g_ov g_broute g_ovr g_gw g_alldown] in *. split; [now repeat split|]. destruct R as [[R1 R2]|[R1 R2]].
  - left. rewrite R1. split; [apply put_same|exact R2].
  - right. split; [now apply put_rdm|]. rewrite R2. symmetry. apply existsb_put. apply F2_length in R1. rewrite map_length in R1. now symmetry.
Qed.

Lemma same_net c c' : net_changed c c' = false -> b_rn c' = b_rn c /\ b_net c' = b_net c.
Proof. unfold net_changed. intros H. apply orb_false_elim in H. destruct H as [H1 H2]. apply negb_false_iff in H1. apply negb_false_iff in H2. apply eqb_prop in H1. apply net_eqb_ok in H2. now split. Qed.
Lemma same_gw c c' : gw_changed c c' = false -> b_rg c' = b_rg c /\ b_gw c' = b_gw c.
Proof. unfold gw_changed. intros H. apply orb_false_elim in H. destruct H as [H1 H2]. apply negb_false_iff in H1. apply negb_false_iff in H2. apply eqb_prop in H1. apply gw_eqb_ok in H2. now split. Qed.
Lemma same_costs c c' : costs_changed c c' = false -> b_costs c' = b_costs c.
Proof. unfold costs_changed. intros H. lia. Qed.
Lemma rdm_same m m' : rdm m m' -> e_bchg (m_e m') = false -> e_cchg (m_e m') = false /\ e_nchg (m_e m') = false /\ e_gchg (m_e m') = false /\ m_costs m' = m_costs m /\ b_gw (e_cur (m_e m')) = b_gw (e_cur (m_e m)) /\
  net_route m' = net_route m /\ def_route m' = def_route m /\ b_net (e_cur (m_e m')) = b_net (e_cur (m_e m)).
Proof.
  intros ((R1 & R2 & R3 & R4 & R5 & R6 & R7) & T & U & N & D) B. rewrite B in R7. symmetry in R7. apply orb_false_elim in R7. destruct R7 as [R7 G]. apply orb_false_elim in R7. destruct R7 as [Cc Nc].
  rewrite Cc in R4. rewrite Nc in R5. rewrite G in R6. symmetry in R4, R5, R6. apply same_costs in R4. apply same_net in R5. apply same_gw in R6. destruct R5 as [N1 N2], R6 as [G1 G2].
  unfold m_costs, net_route, def_route. rewrite R2, R3, T, N1, N2, G1, G2. now repeat split.
Qed.
Lemma rdm_pm ph m m' : rdm m m' -> m_net m = net_route m -> m_def m = def_route m -> netok m -> pm ph m'.
Proof.
  intros ((R1 & R2 & R3 & R4 & R5 & R6 & R7) & T & U & N & D) Hn Hd No. split; [|split; [|split]].
  - intros _ _ X. rewrite X in R5. symmetry in R5. apply same_net in R5. destruct R5 as [X1 X2]. rewrite N, Hn. unfold net_route. now rewrite R2, R3, T, X1, X2.
  - intros _ _ X. rewrite X in R6. symmetry in R6. apply same_gw in R6. destruct R6 as [X1 X2]. rewrite D, Hd. unfold def_route. now rewrite R2, R3, T, X1, X2.
  - rewrite N, T, Hn. now apply net_keys.
  - rewrite D, T, Hd. apply def_keys.
Qed.
Lemma exact_ext m m' F : m_table m' = m_table m -> m_net m' = m_net m -> m_def m' = m_def m -> exact_m m F -> exact_m m' F.
Proof. intros T N D. unfold exact_m. now rewrite T, N, D. Qed.
Lemma Forall2_in_r A B (R : A -> B -> Prop) l l' b : Forall2 R l l' -> In b l' -> exists a, In a l /\ R a b.
Proof. induction 1 as [|x y l l' H F IH]; intros []; [subst; exists x; split; [now left|exact H]|]. destruct IH as (a & I & Ra); [assumption|]. exists a. split; [now right|exact Ra]. Qed.
Lemma Forall2_nth A B (R : A -> B -> Prop) l l' : Forall2 R l l' -> forall i, match nth_error l i, nth_error l' i with Some a, Some b => R a b | None, None => True | _, _ => False end.
Proof. induction 1 as [|x y l l' H F IH]; intros [|i]; cbn; try exact I; [exact H|apply IH]. Qed.
Lemma Forall2_nth_if (R : mif -> mif -> Prop) l l' b : Forall2 R l l' -> match nth_if l b, nth_if l' b with Some a, Some b => R a b | None, None => True | _, _ => False end.
Proof. intros F. destruct b as [i|]; [|exact I]. now apply Forall2_nth. Qed.

Definition alike (m m' : mif) : Prop := e_up (m_e m') = e_up (m_e m) /\ m_costs m' = m_costs m /\ e_index (m_e m') = e_index (m_e m).
Lemma scan_alike W ms ms' : Forall2 alike ms ms' -> forall i j m m', alike m m' -> fst (scan W i (j, m) ms) = fst (scan W i (j, m') ms') /\ alike (snd (scan W i (j, m) ms)) (snd (scan W i (j, m') ms')).
Proof.
  induction 1 as [|x y l l' (H1 & H2 & H3) F IH]; intros i j m m' (A1 & A2 & A3); cbn [scan fst snd]; [now repeat split|]. rewrite H1, H2, H3, A2. destruct (_ && _); apply IH; now repeat split.
Qed.
Lemma best_alike W ph ms ms' : Forall2 alike ms ms' -> best_of W ph ms' = best_of W ph ms.
Proof.
  destruct 1 as [|x y l l' H F]; [reflexivity|]. destruct (scan_alike W l l' F 1%nat 0%nat x y H) as [A1 (A2 & A3 & A4)].
  unfold best_of. destruct ph; [| |reflexivity]; cbv zeta; now rewrite A1, A2, A3.
Qed.

Definition ok (m : mif) : Prop := noflags m /\ netok m /\ m_net m = net_route m /\ m_def m = def_route m.
Lemma read_pre C f g F : Inv C g F -> Forall netok (g_ifs (fst (read_file C f g))) -> Pre C Runtime (fst (read_file C f g)) F.
Proof.
  intros (I1 & I2 & I3 & I4 & I5) No. destruct (read_file_rd C f g) as ((E1 & E2 & E3 & E4 & E5 & E6) & R). destruct (read_file C f g) as [g1 ch]. cbn [fst snd] in *.
  rewrite Forall_forall in I1. destruct R as [[R _]|[R _]].
  - apply (inv_pre C Runtime). unfold Inv. rewrite R. split; [now apply Forall_forall|]. split; [exact I2|]. split; [now rewrite E1|]. split; [rewrite E3, I4; unfold best_route; now rewrite R, E1|]. unfold others in *. now rewrite E3, E4.
  - split; [|split; [exact No|split; [|split]]].
    + apply Forall_forall. intros m' Hm. destruct (Forall2_in_r _ _ _ _ _ _ R Hm) as (m & Hi & Rm). destruct (I1 m Hi) as (N1 & N2 & N3 & N4). now apply (rdm_pm Runtime m).
    + intros m' Hm. destruct (Forall2_in_r _ _ _ _ _ _ R Hm) as (m & Hi & (_ & T & _ & N & D)). apply (exact_ext m); try assumption. now apply I2.
    + intros _ Q. rewrite E3, I4. unfold quiet in Q. unfold best_route. rewrite E1 in *. pose proof (Forall2_nth_if _ _ _ (g_best g) R) as Rn. destruct (nth_if (g_ifs g) (g_best g)) as [m|], (nth_if (g_ifs g1) (g_best g)) as [m'|]; try contradiction; [|reflexivity].
      destruct (rdm_same m m' Rn (proj2 Q)) as (_ & _ & _ & _ & G & _). destruct Rn as ((_ & Ri & _) & _). now rewrite Ri, G.
    + unfold others in *. now rewrite E3, E4.
Qed.
Lemma read_spre C f g : SInv C g -> SPre C false (fst (read_file C f g)).
Proof.
  intros [A B]. destruct (read_file_rd C f g) as ((E1 & E2 & E3 & E4 & E5 & E6) & R). destruct (read_file C f g) as [g1 ch]. cbn [fst snd] in *. split; [|split].
  - apply (slots_ext C g); [exact E2|exact E4| |exact A]. intros i. destruct R as [[R _]|[R _]]; [now rewrite R|]. pose proof (Forall2_nth _ _ _ _ _ R i) as Rn. destruct (nth_error (g_ifs g) i), (nth_error (g_ifs g1) i); try contradiction; [|reflexivity]. cbn [option_map]. destruct Rn as ((_ & Ri & _) & _). now rewrite Ri.
  - rewrite E2. intros X. rewrite B in *. apply best_overall_invalid; [now right|exact X].
  - intros _ Q. rewrite E2, B. symmetry. apply best_overall_ext; [discriminate|exact E1|exact E5|exact E6|]. destruct R as [[R _]|[R _]]; [now rewrite R|]. unfold quiet in Q. rewrite E1 in Q. pose proof (Forall2_nth_if _ _ _ (g_best g) R) as Rn.
    destruct (nth_if (g_ifs g) (g_best g)) as [m|], (nth_if (g_ifs g1) (g_best g)) as [m'|]; try contradiction; [|reflexivity]. cbn [option_map]. destruct (rdm_same m m' Rn (proj2 Q)) as (_ & _ & _ & X & _). now rewrite X.
Qed.
Lemma read_inv C f g F : Inv C g F -> snd (read_file C f g) = false -> Inv C (fst (read_file C f g)) F /\ (SInv C g -> SInv C (fst (read_file C f g))).
Proof.
  intros I Hc. pose proof (read_spre C f g) as Sp. destruct I as (I1 & I2 & I3 & I4 & I5). destruct (read_file_rd C f g) as ((E1 & E2 & E3 & E4 & E5 & E6) & R). destruct (read_file C f g) as [g1 ch]. cbn [fst snd] in *. subst ch.
  assert (Fl : Forall (fun m => e_bchg (m_e m) = false) (g_ifs g1)).
  { destruct R as [[R _]|[R B]]; apply Forall_forall; intros m Hm.
    - rewrite R in Hm. rewrite Forall_forall in I1. apply (I1 m Hm).
    - destruct (e_bchg (m_e m)) eqn:X; [|reflexivity]. assert (existsb (fun m => e_bchg (m_e m)) (g_ifs g1) = true) by (apply existsb_exists; exists m; now split). congruence. }
  split.
  - destruct R as [[R _]|[R B]].
    + unfold Inv. rewrite R. split; [exact I1|]. split; [exact I2|]. split; [now rewrite E1|]. split; [rewrite E3, I4; unfold best_route; now rewrite R, E1|]. unfold others in *. now rewrite E3, E4.
    + rewrite Forall_forall in I1, Fl. unfold Inv. split; [|split; [|split; [|split]]].
      * apply Forall_forall. intros m' Hm. destruct (Forall2_in_r _ _ _ _ _ _ R Hm) as (m & Hi & Rm). destruct (I1 m Hi) as ((F1 & F2) & N2 & N3 & N4). pose proof (Fl m' Hm) as Hb. destruct (rdm_same m m' Rm Hb) as (Xc & Xn & Xg & Xk & Xa & Xr & Xd & Xt). destruct Rm as (_ & T & U & N & D).
        split; [split; [congruence|now repeat split]|]. split; [unfold netok in *; congruence|]. split; congruence.
      * intros m' Hm. destruct (Forall2_in_r _ _ _ _ _ _ R Hm) as (m & Hi & (_ & T & _ & N & D)). apply (exact_ext m); try assumption. now apply I2.
      * rewrite E1, I3. symmetry. apply best_alike. assert (Fa : Forall2 rdm (g_ifs g) (g_ifs g1)) by exact R. clear - Fa Fl. induction Fa as [|x y l l' H F IH]; [constructor|]. constructor.
        -- destruct (rdm_same x y H (Fl y (or_introl eq_refl))) as (_ & _ & _ & Xk & _). destruct H as ((_ & X1 & X2 & _) & _). split; [exact X2|]. now split.
        -- apply IH. intros z Hz. apply Fl. now right.
      * rewrite E3, I4. unfold best_route. rewrite E1. pose proof (Forall2_nth_if _ _ _ (g_best g) R) as Rn. destruct (nth_if (g_ifs g) (g_best g)) as [m|], (nth_if (g_ifs g1) (g_best g)) as [m'|] eqn:En; try contradiction; [|reflexivity].
        assert (Hm : In m' (g_ifs g1)) by (destruct (g_best g); [now apply nth_error_In in En|discriminate]).
        destruct (rdm_same m m' Rn (Fl m' Hm)) as (_ & _ & _ & _ & G & _). destruct Rn as ((_ & Ri & _) & _). now rewrite Ri, G.
      * unfold others in *. now rewrite E3, E4.
  - intros Si. destruct (Sp Si) as (S1 & S2 & S3). split; [exact S1|]. apply S3; [reflexivity|].
    assert (Up : Forall (fun m => m_upchg m = false) (g_ifs g1)).
    { apply Forall_forall. intros m' Hm. rewrite Forall_forall in I1. destruct R as [[R _]|[R _]]; [rewrite R in Hm; apply (I1 m' Hm)|]. destruct (Forall2_in_r _ _ _ _ _ _ R Hm) as (m & Hi & (_ & _ & U & _)). rewrite U. apply (I1 m Hi). }
    unfold quiet. destruct (nth_if (g_ifs g1) (g_best g1)) as [m'|] eqn:En; [|exact I].
    assert (Hm : In m' (g_ifs g1)) by (destruct (g_best g1); [now apply nth_error_In in En|discriminate]). rewrite Forall_forall in Fl, Up. split; [now apply Up|now apply Fl].
Qed.

(** ** interfaces *)
Definition up_ok (m : mif) : Prop := e_up (m_e m) = true -> 0 < e_index (m_e m).
Definition chg (w : gwcfg) (m m' : mif) : Prop :=
  m' = m \/ exists up i, m' = set_up w up i m /\ e_up (m_e m) = negb up /\ (up = false -> i = e_index (m_e m)) /\ (up = true -> 0 < i).
Lemma chg_refl w ms : Forall2 (chg w) ms ms.
Proof. induction ms; constructor; [now left|assumption]. Qed.
Lemma set_index_same m : set_index (e_index (m_e m)) m = m.
Proof. destruct m as [[] ? ? ? ?]. reflexivity. Qed.
Lemma add_chg w name i ms : 0 < i -> (forall m, In m ms -> e_name (m_e m) = name -> e_up (m_e m) = true -> e_index (m_e m) = i) ->
  Forall2 (chg w) ms (fst (if_add w name i ms)) /\ (snd (if_add w name i ms) = false -> fst (if_add w name i ms) = ms).
Proof.
  intros Hi. induction ms as [|m ms IH]; intros H; cbn [if_add]; [split; [constructor|reflexivity]|].
  destruct (leqb (e_name (m_e m)) name) eqn:E.
  - apply leqb_ok in E. destruct (e_up (m_e m)) eqn:U; cbn [fst snd].
    + rewrite <- (H m (or_introl eq_refl) E U), set_index_same. split; [apply chg_refl|reflexivity].
    + split; [|discriminate]. constructor; [|apply chg_refl]. right. exists true, i. split; [reflexivity|]. split; [exact U|]. split; [discriminate|now intros].
  - destruct IH as [A B]; [intros m' I; apply H; now right|]. destruct (if_add w name i ms) as [ms2 c]. cbn [fst snd] in *. split; [constructor; [now left|exact A]|]. intros X. now rewrite (B X).
Qed.
Lemma remove_chg w i ms : Forall2 (chg w) ms (fst (if_remove w i ms)) /\ (snd (if_remove w i ms) = false -> fst (if_remove w i ms) = ms).
Proof.
  induction ms as [|m ms IH]; cbn [if_remove]; [split; [constructor|reflexivity]|]. destruct (Z.eqb_spec (e_index (m_e m)) i) as [E|E].
  - destruct (e_up (m_e m)) eqn:U; cbn [fst snd].
    + split; [|discriminate]. constructor; [|apply chg_refl]. right. exists false, i. split; [reflexivity|]. split; [exact U|]. split; [now intros|discriminate].
    + split; [apply chg_refl|reflexivity].
  - destruct IH as [A B]. destruct (if_remove w i ms) as [ms2 c]. cbn [fst snd] in *. split; [constructor; [now left|exact A]|]. intros X. now rewrite (B X).
Qed.
Lemma chg_same w m m' : chg w m m' -> m_table m' = m_table m /\ m_net m' = m_net m /\ m_def m' = m_def m /\ b_net (e_cur (m_e m')) = b_net (e_cur (m_e m)).
Proof. intros [->|(up & i & -> & _)]; now repeat split. Qed.
Lemma best_up W ph ms i : best_of W ph ms = Some i -> exists m, nth_error ms i = Some m /\ e_up (m_e m) = true /\ m_costs m <> INT64_MAX.
Proof.
  assert (Sc : forall l pre b, nth_error (pre ++ l) (fst b) = Some (snd b) -> nth_error (pre ++ l) (fst (scan W (length pre) b l)) = Some (snd (scan W (length pre) b l))).
  { induction l as [|x l IH]; intros pre b H; cbn [scan]; [exact H|]. specialize (IH (pre ++ [x])). rewrite app_length in IH. cbn [length] in IH. rewrite Nat.add_1_r, <- app_assoc in IH. cbn [app] in IH. apply IH.
    destruct (_ && _); [|exact H]. cbn [fst snd]. rewrite nth_error_app2 by lia. now rewrite Nat.sub_diag. }
  assert (B : forall m l, (let b := scan W 1 (0%nat, m) l in if negb (e_up (m_e (snd b))) || (m_costs (snd b) =? INT64_MAX) then None else Some (fst b)) = Some i -> exists m0, nth_error (m :: l) i = Some m0 /\ e_up (m_e m0) = true /\ m_costs m0 <> INT64_MAX).
  { intros m l. specialize (Sc l [m] (0%nat, m) eq_refl). cbn [length app] in Sc. cbv zeta. destruct (scan W 1 (0%nat, m) l) as [j x]. cbn [fst snd] in *. destruct (e_up (m_e x)) eqn:U; cbn [negb orb]; [|discriminate]. destruct (Z.eqb_spec (m_costs x) INT64_MAX); [discriminate|].
    intros E. apply Some_inj in E. subst j. exists x. now repeat split. }
  unfold best_of. destruct ph, ms as [|m l]; try discriminate; apply B.
Qed.
Lemma chg_pre C g F ms : Inv C g F -> Forall2 (chg (mc_w C)) (g_ifs g) ms -> Pre C Runtime (with_ifs g ms) F.
Proof.
  intros (I1 & I2 & I3 & I4 & I5) Ch. rewrite Forall_forall in I1. unfold Pre. cbn [with_ifs g_ifs]. split; [|split; [|split; [|split; [|exact I5]]]].
  - apply Forall_forall. intros m' Hm. destruct (Forall2_in_r _ _ _ _ _ _ Ch Hm) as (m & Hi & Rm). destruct (I1 m Hi) as (N1 & N2 & N3 & N4). destruct Rm as [->|(up & i & -> & _)].
    + split; [now intros|]. split; [now intros|]. split; [rewrite N3; now apply net_keys|rewrite N4; apply def_keys].
    + split; [discriminate|]. split; [discriminate|]. cbn [set_up m_net m_def m_table]. split; [rewrite N3; now apply net_keys|rewrite N4; apply def_keys].
  - apply Forall_forall. intros m' Hm. destruct (Forall2_in_r _ _ _ _ _ _ Ch Hm) as (m & Hi & Rm). destruct (I1 m Hi) as (_ & N2 & _). unfold netok in *. destruct (chg_same _ _ _ Rm) as (_ & _ & _ & E). congruence.
  - intros m' Hm. destruct (Forall2_in_r _ _ _ _ _ _ Ch Hm) as (m & Hi & Rm). destruct (chg_same _ _ _ Rm) as (T & N & D & _). apply (exact_ext m); try assumption. now apply I2.
  - intros _ Q. cbn [with_ifs g_broute]. rewrite I4. unfold quiet in Q. unfold best_route. cbn [with_ifs g_ifs g_best] in *. pose proof (Forall2_nth_if _ _ _ (g_best g) Ch) as Rn. destruct (nth_if (g_ifs g) (g_best g)) as [m|], (nth_if ms (g_best g)) as [m'|]; try contradiction; [|reflexivity].
    destruct Rn as [->|(up & i & -> & _)]; [reflexivity|]. destruct Q. discriminate.
Qed.
Lemma chg_spre C g F ms : Inv C g F -> SInv C g -> Forall2 (chg (mc_w C)) (g_ifs g) ms -> SPre C false (with_ifs g ms).
Proof.
  intros (I1 & I2 & I3 & I4 & I5) [A B] Ch. split; [|split].
  - unfold slots_ok. cbn [with_ifs g_ovr]. assert (E : ovif (with_ifs g ms) = ovif g); [|now rewrite E].
    unfold ovif. cbn [with_ifs g_ov g_ifs]. destruct (negb _) eqn:V; [reflexivity|]. destruct (ov_olsr (g_ov g)) eqn:O; [reflexivity|]. destruct (ov_link (g_ov g)) as [[i|]|] eqn:L; try reflexivity.
    assert (Bi : g_best g = Some i).
    { rewrite B in L, O. unfold best_overall in L, O. destruct (_ || _); [discriminate|]. destruct (_ <=? _); cbn [ov_link ov_olsr] in *; [|destruct (g_gw g); discriminate]. destruct (g_best g) as [j|]; [|discriminate]. cbn [option_map] in L. apply Some_inj in L. now inversion L. }
    rewrite I3 in Bi. apply best_up in Bi. destruct Bi as (m & Em & U & _). pose proof (Forall2_nth _ _ _ _ _ Ch i) as Rn. rewrite Em in *. destruct (nth_error ms i) as [m'|]; [|contradiction].
    destruct Rn as [->|(up & k & -> & E1 & E2 & _)]; [reflexivity|]. rewrite U in E1. destruct up; [discriminate|]. cbn [set_up m_e e_index]. now apply E2.
  - cbn [with_ifs g_ov]. intros X. rewrite B in *. apply best_overall_invalid; [now right|exact X].
  - intros _ Q. cbn [with_ifs g_ov]. rewrite B. symmetry. apply best_overall_ext; try reflexivity; [discriminate|]. cbn [with_ifs g_ifs]. unfold quiet in Q. cbn [with_ifs g_ifs g_best] in Q. pose proof (Forall2_nth_if _ _ _ (g_best g) Ch) as Rn.
    destruct (nth_if (g_ifs g) (g_best g)) as [m|], (nth_if ms (g_best g)) as [m'|]; try contradiction; [|reflexivity]. destruct Rn as [->|(up & i & -> & _)]; [reflexivity|]. destruct Q. discriminate.
Qed.

(** ** what stays *)
Definition kept (ms : list mif) : list (Z * bw * Z * bool) := map (fun m => (m_table m, e_cur (m_e m), e_index (m_e m), e_up (m_e m))) ms.
Lemma configure_kept W ph ms : kept (fst (configure_ifs W ph ms)) = kept ms.
Proof.
  induction ms as [|m ms IH]; cbn [configure_ifs]; [reflexivity|]. unfold configure_if. destruct (if m_upchg m || e_nchg (m_e m) || forced ph then _ else _) as [n tn], (if m_upchg m || e_gchg (m_e m) || forced ph then _ else _) as [d td].
  destruct (configure_ifs W ph ms) as [ms2 t2]. cbn [fst] in *. unfold kept in *. cbn [map m_table m_e]. now rewrite IH.
Qed.
Lemma clear_kept ms : kept (map clear_flags ms) = kept ms.
Proof. unfold kept. rewrite map_map. reflexivity. Qed.
Lemma determine_ifs W ph g : g_ifs (fst (determineBestEgressLink W ph g)) = g_ifs g.
Proof. unfold determineBestEgressLink. match goal with |- context [let (_, _) := ?x in _] => destruct x as [u d] end. reflexivity. Qed.
Lemma do_routes_kept C W eg ol ph g : kept (g_ifs (fst (do_routes C W eg ol ph g))) = kept (g_ifs g).
Proof.
  unfold do_routes.
  assert (A : forall x : mgw * bool * list req, kept (g_ifs (fst (fst x))) = kept (g_ifs g) ->
    kept (g_ifs (fst (let '(g1, be, t1) := x in
      let pov := g_ov g1 in
      let '(g2, bo) := if ol || be || forced ph then let o := best_overall ph g1 in (with_ov g1 o, negb (ov_eqb o pov)) else (g1, false) in
      let (g3, t3) := if bo || forced ph then setupOverride C W ph pov g2 else (g2, []) in
      let (g4, t4) := if be || forced ph then configureBest C W ph (g_best g) g3 else (g3, []) in
      (g4, t1 ++ t3 ++ t4)))) = kept (g_ifs g)).
  { intros [[g1 be] t1] H. cbn [fst] in H. cbv zeta.
    assert (B : g_ifs (fst (if ol || be || forced ph then (with_ov g1 (best_overall ph g1), negb (ov_eqb (best_overall ph g1) (g_ov g1))) else (g1, false))) = g_ifs g1) by (destruct (_ || _ || _); reflexivity).
    destruct (if ol || be || forced ph then (with_ov g1 (best_overall ph g1), negb (ov_eqb (best_overall ph g1) (g_ov g1))) else (g1, false)) as [g2 bo]. cbn [fst] in B.
    assert (D : g_ifs (fst (if bo || forced ph then setupOverride C W ph (g_ov g1) g2 else (g2, []))) = g_ifs g1).
    { destruct (bo || forced ph); [|exact B]. destruct (override_same C W ph (g_ov g1) g2) as (S1 & _). now rewrite S1. }
    destruct (if bo || forced ph then setupOverride C W ph (g_ov g1) g2 else (g2, [])) as [g3 t3]. cbn [fst] in D.
    assert (E : g_ifs (fst (if be || forced ph then configureBest C W ph (g_best g) g3 else (g3, []))) = g_ifs g1).
    { destruct (be || forced ph); [|exact D]. destruct (cbest_same C W ph (g_best g) g3) as (S1 & _). now rewrite S1. }
    destruct (if be || forced ph then configureBest C W ph (g_best g) g3 else (g3, [])) as [g4 t4]. cbn [fst] in *. now rewrite E. }
  apply A. destruct (eg || forced ph); [|reflexivity]. pose proof (determine_ifs W ph g) as D. destruct (determineBestEgressLink W ph g) as [g' c]. cbn [fst] in D. pose proof (configure_kept W ph (g_ifs g')) as K. rewrite D in *. destruct (configure_ifs W ph (g_ifs g)) as [ms t]. exact K.
Qed.
Lemma doRoutes_kept C W eg ol ph g : kept (g_ifs (fst (doRoutesMultiGw C W eg ol ph g))) = kept (g_ifs g).
Proof.
  unfold doRoutesMultiGw. set (g0 := with_alldown g (w_alldown W)). set (ol' := ol || _). assert (A : kept (g_ifs (fst (if eg || ol' || forced ph then do_routes C W eg ol' ph g0 else (g0, [])))) = kept (g_ifs g)).
  { destruct (eg || ol' || forced ph); [apply (do_routes_kept C W eg ol' ph g0)|reflexivity]. }
  clearbody ol'. destruct (if eg || ol' || forced ph then do_routes C W eg ol' ph g0 else (g0, [])) as [g1 t]. cbn [fst] in *. destruct eg; [|exact A]. cbn [with_ifs g_ifs]. now rewrite clear_kept.
Qed.
Lemma kept_tables ms ms' : kept ms = kept ms' -> map m_table ms = map m_table ms'.
Proof. intros E. apply (f_equal (map (fun x : Z * bw * Z * bool => fst (fst (fst x))))) in E. unfold kept in E. now rewrite !map_map in E. Qed.
Lemma kept_all (P : Z -> bw -> Z -> bool -> Prop) ms ms' : kept ms = kept ms' -> (forall m, In m ms' -> P (m_table m) (e_cur (m_e m)) (e_index (m_e m)) (e_up (m_e m))) -> forall m, In m ms -> P (m_table m) (e_cur (m_e m)) (e_index (m_e m)) (e_up (m_e m)).
Proof.
  intros E H m I. apply (in_map (fun m => (m_table m, e_cur (m_e m), e_index (m_e m), e_up (m_e m)))) in I. unfold kept in E. rewrite E in I. apply in_map_iff in I. destruct I as (m' & X & I). specialize (H m' I). inversion X. congruence.
Qed.

(** ** the steps *)
Lemma poll_kept C f g : map m_table (g_ifs (fst (read_file C f g))) = map m_table (g_ifs g) /\ (Forall up_ok (g_ifs g) -> Forall up_ok (g_ifs (fst (read_file C f g)))).
Proof.
  destruct (read_file_rd C f g) as (_ & R). destruct (read_file C f g) as [g1 ch]. cbn [fst snd] in *. destruct R as [[R _]|[R _]]; [now rewrite R|]. split.
  - induction R as [|x y l l' (_ & T & _) F IH]; cbn [map]; [reflexivity|]. now rewrite T, IH.
  - intros U. rewrite Forall_forall in *. intros m' Hm. destruct (Forall2_in_r _ _ _ _ _ _ R Hm) as (m & Hi & ((_ & Ri & Ru & _) & _)). unfold up_ok. rewrite Ri, Ru. now apply U.
Qed.
Lemma chg_kept w ms ms' : Forall2 (chg w) ms ms' -> map m_table ms' = map m_table ms /\ (Forall up_ok ms -> Forall up_ok ms').
Proof.
  intros R. split.
  - induction R as [|x y l l' H F IH]; cbn [map]; [reflexivity|]. destruct (chg_same _ _ _ H) as (T & _). now rewrite T, IH.
  - intros U. rewrite Forall_forall in *. intros m' Hm. destruct (Forall2_in_r _ _ _ _ _ _ R Hm) as (m & Hi & [->|(up & i & -> & E1 & E2 & E3)]); [now apply U|]. unfold up_ok. cbn [set_up m_e e_up e_index]. exact E3.
Qed.
Lemma kept_up ms ms' : kept ms = kept ms' -> Forall up_ok ms' -> Forall up_ok ms.
Proof. intros E H. rewrite Forall_forall in *. exact (kept_all (fun _ _ i u => u = true -> 0 < i) ms ms' E H). Qed.
Lemma kept_net ms ms' : kept ms = kept ms' -> (forall m, In m ms -> b_net (e_cur (m_e m)) <> Some (0, 0)) -> Forall netok ms'.
Proof. intros E H. apply Forall_forall. exact (kept_all (fun _ b _ _ => b_net b <> Some (0, 0)) ms' ms (eq_sym E) H). Qed.

Definition good (C : mcfg) (g : mgw) (F : fib) : Prop := Inv C g F /\ Forall up_ok (g_ifs g).
Lemma eg_step C W ol g F : smoothW W -> NoDup (tabs C g) -> Pre C Runtime g F -> Forall up_ok (g_ifs g) -> let x := doRoutesMultiGw C W true ol Runtime g in
  good C (fst x) (kreqs F (snd x)) /\ map m_table (g_ifs (fst x)) = map m_table (g_ifs g) /\ (SPre C ol g -> SInv C (fst x)).
Proof.
  intros S Nd P U. destruct (doRoutes_eg C W ol Runtime g F S ltac:(discriminate) Nd P ltac:(discriminate)) as (I & _ & _ & _ & Sp). pose proof (doRoutes_kept C W true ol Runtime g) as K. cbv zeta. split; [split; [exact I|]|split; [|exact Sp]].
  - now apply (kept_up _ _ K).
  - now apply kept_tables.
Qed.
Lemma step_good C W o g F : smooth (Some o) W g F (fst (gstep C W o g)) -> NoDup (tabs C g) -> good C g F -> let x := gstep C W o g in
  good C (fst x) (kreqs F (snd x)) /\ map m_table (g_ifs (fst x)) = map m_table (g_ifs g) /\ (SInv C g -> o <> LoseGw -> SInv C (fst x)).
Proof.
  intros (S1 & S2 & S3 & S4) Nd [I U]. assert (S : smoothW W) by now split. clear S1 S2. destruct o as [f|i olsr f|c|]; cbn [gstep] in *.
  - unfold poll in *. destruct (poll_kept C f g) as [T Up]. pose proof (read_pre C f g F I) as Rp. pose proof (read_spre C f g) as Rs. pose proof (read_inv C f g F I) as Ri. destruct (read_file C f g) as [g1 ch]. cbn [fst snd] in *. destruct ch.
    + assert (Nd1 : NoDup (tabs C g1)) by (unfold tabs in *; now rewrite T). assert (No : Forall netok (g_ifs g1)) by (eapply kept_net; [apply (doRoutes_kept C W true false Runtime g1)|exact S4]).
      destruct (eg_step C W false g1 F S Nd1 (Rp No) (Up U)) as (E1 & E2 & E3). cbv zeta. split; [exact E1|]. split; [now rewrite E2|]. intros Si _. apply E3. now apply Rs.
    + cbn [fst snd kreqs fold_left] in *. destruct (Ri eq_refl) as [R1 R2]. split; [split; [exact R1|now apply Up]|]. split; [exact T|]. intros Si _. now apply R2.
  - unfold monitor in *. assert (A : let y := if olsr then (g, []) else doEgressInterface C W i f g in good C (fst y) (kreqs F (snd y)) /\ map m_table (g_ifs (fst y)) = map m_table (g_ifs g) /\ (SInv C g -> SInv C (fst y))).
    { destruct olsr; [cbn [fst snd kreqs fold_left]; split; [now split|now split]|]. unfold doEgressInterface.
      assert (B : let z := match f with IfAdd (Some name) => if_add (mc_w C) name i (g_ifs g) | IfRemove => if_remove (mc_w C) i (g_ifs g) | _ => (g_ifs g, false) end in Forall2 (chg (mc_w C)) (g_ifs g) (fst z) /\ (snd z = false -> fst z = g_ifs g)).
      { destruct f as [[name|]| |]; try (cbn [fst snd]; split; [apply chg_refl|reflexivity]); [now apply add_chg|apply remove_chg]. }
      cbv zeta in B. destruct (match f with IfAdd (Some name) => if_add (mc_w C) name i (g_ifs g) | IfRemove => if_remove (mc_w C) i (g_ifs g) | _ => (g_ifs g, false) end) as [ms c]. cbn [fst snd] in B. destruct B as [B1 B2].
      destruct (chg_kept _ _ _ B1) as [T Up]. destruct c.
      - assert (Nd1 : NoDup (tabs C (with_ifs g ms))) by (unfold tabs in *; cbn [with_ifs g_ifs]; now rewrite T).
        destruct (eg_step C W false (with_ifs g ms) F S Nd1 (chg_pre C g F ms I B1) (Up U)) as (E1 & E2 & E3). cbv zeta. split; [exact E1|]. split; [rewrite E2; exact T|]. intros Si. apply E3. exact (chg_spre C g F ms I Si B1).
      - rewrite (B2 eq_refl). cbn [fst snd kreqs fold_left]. split; [split; [exact I|exact U]|]. split; [reflexivity|]. intros [X Y]. split; [exact X|]. cbn [with_ifs g_ov]. rewrite Y. now apply best_overall_ext. }
    destruct (if olsr then (g, []) else doEgressInterface C W i f g) as [g1 t1]. cbn [fst snd] in A. destruct A as ([A1 A2] & A3 & A4).
    assert (Nd1 : NoDup (tabs C g1)) by (unfold tabs in *; now rewrite A3).
    destruct (eg_step C W true g1 (kreqs F t1) S Nd1 (inv_pre C Runtime _ _ A1) A2) as (E1 & E2 & E3). destruct (doRoutesMultiGw C W true true Runtime g1) as [g2 t2]. cbn [fst snd] in *. rewrite kreqs_app.
    split; [exact E1|]. split; [congruence|]. intros Si _. apply E3. apply sinv_spre. now apply A4.
  - destruct (doRoutes_ol C W (with_gw g (Some c)) F S Nd I) as (D1 & D2 & D3 & D4 & D5). cbn [with_gw g_ifs] in D2. cbv zeta. split; [split; [exact D1|now rewrite D2]|]. split; [now rewrite D2|].
    intros [X Y] _. apply D5. split; [exact X|]. split; [|discriminate]. cbn [with_gw g_ov]. intros V. rewrite Y in *. apply best_overall_invalid; [now right|exact V].
  - cbn [fst snd kreqs fold_left with_gw g_ifs]. split; [split; [exact I|exact U]|]. split; [reflexivity|]. intros _ X. now elim X.
Qed.

Lemma idle_exact K s : ri_act s = false -> keys K s /\ exactly K s nofib.
Proof. intros H. split; [intros r [X _]; congruence|]. intros t d _. now rewrite val_none. Qed.
Lemma init_idle_if C xs : forall n m, In m (init_ifs C n xs) -> m_idle m /\ m_upchg m = false.
Proof. induction xs as [|[[name i] up] xs IH]; intros n m; cbn [init_ifs]; [contradiction|]. intros [<-|I]; [now repeat split|exact (IH _ _ I)]. Qed.
Lemma start_good C W f xs : smooth None W (init C xs) nofib (fst (startup C W f (init C xs))) -> NoDup (tabs C (init C xs)) -> let x := startup C W f (init C xs) in
  good C (fst x) (kreqs nofib (snd x)) /\ map m_table (g_ifs (fst x)) = map m_table (g_ifs (init C xs)) /\ SInv C (fst x).
Proof.
  intros (S1 & S2 & S3 & S4) Nd. assert (S : smoothW W) by now split. unfold startup in *. destruct (poll_kept C f (init C xs)) as [T Up]. destruct (read_file_rd C f (init C xs)) as ((E1 & E2 & E3 & E4 & E5 & E6) & R).
  destruct (read_file C f (init C xs)) as [g1 ch]. cbn [fst snd] in *.
  assert (Idl : forall m, In m (g_ifs g1) -> m_idle m).
  { intros m Hm. destruct R as [[R _]|[R _]]; [rewrite R in Hm; now apply (init_idle_if C xs 0)|]. destruct (Forall2_in_r _ _ _ _ _ _ R Hm) as (m0 & Hi & (_ & _ & _ & N & D)). unfold m_idle. rewrite N, D. now apply (init_idle_if C xs 0). }
  assert (Nd1 : NoDup (tabs C g1)) by (unfold tabs in *; now rewrite T).
  assert (No : Forall netok (g_ifs g1)) by (eapply kept_net; [apply (doRoutes_kept C W true false Startup g1)|exact S4]).
  assert (P : Pre C Startup g1 nofib).
  { split; [|split; [exact No|split; [|split; [discriminate|]]]].
    - apply Forall_forall. intros m Hm. destruct (Idl m Hm) as [X1 X2]. split; [discriminate|]. split; [discriminate|]. split; now apply idle_exact.
    - intros m Hm. destruct (Idl m Hm) as [X1 X2]. split; now apply idle_exact.
    - unfold others. rewrite E3, E4. cbn [init g_broute g_ovr fst snd].
      pose proof (idle_exact (Kd (mc_off C)) ri0 eq_refl) as [Q1 Q2]. pose proof (idle_exact (K1 C slash1a) ri0 eq_refl) as [Q3 Q4]. pose proof (idle_exact (K1 C slash1b) ri0 eq_refl) as [Q5 Q6]. exact (conj Q1 (conj Q2 (conj Q3 (conj Q4 (conj Q5 Q6))))). }
  assert (St : Startup = Startup -> MultiGwRunProofs.idle g1) by (intros _; split; [now apply Forall_forall|rewrite E3, E4; now repeat split]).
  destruct (doRoutes_eg C W false Startup g1 nofib S ltac:(discriminate) Nd1 P St) as (I & _ & _ & _ & Sp). pose proof (doRoutes_kept C W true false Startup g1) as K. cbv zeta. split; [split; [exact I|]|split].
  - apply (kept_up _ _ K). apply Up. apply Forall_forall. intros m Hm. unfold up_ok. now apply S3.
  - apply kept_tables in K. congruence.
  - apply Sp. split; [|split].
    + unfold slots_ok, ovif. rewrite E2, E4. cbn. split; (split; [reflexivity|intros X; now elim X]).
    + now rewrite E2.
    + intros _ _. rewrite E2. unfold best_overall. rewrite E1, E5. cbn [init g_best g_gw nth_if]. reflexivity.
Qed.

Lemma step_tables C W o g : map m_table (g_ifs (fst (gstep C W o g))) = map m_table (g_ifs g).
Proof.
  destruct o as [f|i olsr f|c|]; cbn [gstep].
  - unfold poll. destruct (poll_kept C f g) as [T _]. destruct (read_file C f g) as [g1 ch]. cbn [fst] in *. destruct ch; [|exact T]. rewrite <- T. apply kept_tables. apply doRoutes_kept.
  - unfold monitor. assert (A : map m_table (g_ifs (fst (if olsr then (g, []) else doEgressInterface C W i f g))) = map m_table (g_ifs g)).
    { destruct olsr; [reflexivity|]. unfold doEgressInterface.
      assert (R : let x := match f with IfAdd (Some name) => if_add (mc_w C) name i (g_ifs g) | IfRemove => if_remove (mc_w C) i (g_ifs g) | _ => (g_ifs g, false) end in routes_of (fst x) = routes_of (g_ifs g)).
      { destruct f as [[name|]| |]; try reflexivity; [apply if_add_routes|apply if_remove_routes]. }
      cbv zeta in R. destruct (match f with IfAdd (Some name) => if_add (mc_w C) name i (g_ifs g) | IfRemove => if_remove (mc_w C) i (g_ifs g) | _ => (g_ifs g, false) end) as [ms c]. cbn [fst] in R.
      assert (T : map m_table ms = map m_table (g_ifs g)) by (apply (f_equal (map (fun x : Z * ri * ri => fst (fst x)))) in R; unfold routes_of in R; now rewrite !map_map in R).
      destruct c; [|exact T]. rewrite <- T. apply kept_tables. apply (doRoutes_kept C W true false Runtime (with_ifs g ms)). }
    destruct (if olsr then (g, []) else doEgressInterface C W i f g) as [g1 t1]. cbn [fst] in A. pose proof (doRoutes_kept C W true true Runtime g1) as K. destruct (doRoutesMultiGw C W true true Runtime g1) as [g2 t2]. cbn [fst] in *. rewrite <- A. now apply kept_tables.
  - apply kept_tables. apply (doRoutes_kept C W false true Runtime (with_gw g (Some c))).
  - reflexivity.
Qed.
Lemma start_tables C W f xs : map m_table (g_ifs (fst (startup C W f (init C xs)))) = map m_table (g_ifs (init C xs)).
Proof. unfold startup. destruct (poll_kept C f (init C xs)) as [T _]. rewrite <- T. apply kept_tables. apply doRoutes_kept. Qed.

Lemma reach_good C g F : reach C smooth false g F -> tables_ok C g -> good C g F.
Proof.
  intros R. remember false as fl eqn:Hfl. induction R as [xs W f A|g F W o R IH A|g F i R IH E]; intros T.
  - apply start_good; [exact A|]. unfold tables_ok in T. now rewrite start_tables in T.
  - assert (T' : tables_ok C g) by (unfold tables_ok in *; now rewrite step_tables in T). apply step_good; [exact A|exact T'|]. now apply IH.
  - congruence.
Qed.
Lemma reach_steady C g F : reach C steady false g F -> tables_ok C g -> good C g F /\ SInv C g.
Proof.
  intros R. remember false as fl eqn:Hfl. induction R as [xs W f A|g F W o R IH A|g F i R IH E]; intros T.
  - destruct A as [A _]. destruct (start_good C W f xs A) as (G & _ & Si); [unfold tables_ok in T; now rewrite start_tables in T|]. now split.
  - assert (T' : tables_ok C g) by (unfold tables_ok in *; now rewrite step_tables in T). destruct A as [A N]. destruct (IH T') as [G Si]. destruct (step_good C W o g F A T' G) as (G' & _ & Si'). split; [exact G'|]. apply Si'; [exact Si|]. intros X. apply N. now subst o.
  - congruence.
Qed.

(** Proofs about the movement state, the updates and the cluster leader of the PUD plugin. *)
From Verif Require Import Base PudState PudStateSpec.

(** * Hysteresis *)
Definition inv (init : bool) (ts tm : Z) (h : list call) (s : sub) : Prop :=
  s_tostat s = ts /\ s_tomov s = tm /\ s_ext s = shown init ts tm h /\
  s_int s = match h with [] => init | c :: _ => wants c end /\
  (s_int s <> s_ext s -> s_cnt s = streak (s_int s) h /\ s_cnt s < if s_int s then tm else ts).
Lemma streak_pos b h : 0 <= streak b h.
Proof. induction h as [|c h IH]; cbn [streak]; [lia|]. destruct (Bool.eqb (wants c) b); lia. Qed.
Lemma u64_small x : 0 <= x < 2 ^ 64 -> u64 x = x.
Proof. intros H. unfold u64. apply Z.mod_small. exact H. Qed.
Lemma streak_new b h c : wants c = b -> streak b (c :: h) = 1 + streak b h.
Proof. intros E. cbn [streak]. now rewrite E, eqb_reflx. Qed.
Lemma inv_step init ts tm h s c : 0 <= ts < 2 ^ 64 -> 0 <= tm < 2 ^ 64 -> inv init ts tm h s -> inv init ts tm (c :: h) (sub_step (snd (fst c)) (snd c) s).
Proof.
  intros Ts Tm (A & B & X & I & C). unfold sub_step. change (snd (fst c) =? SET) with (snd (fst c) =? 2). fold (wants c). rewrite A, B.
  set (w := wants c) in *. set (k := if Bool.eqb (s_int s) w then s_cnt s else 0).
  assert (K : w <> s_ext s -> k = streak w h /\ (k = 0 \/ k < if w then tm else ts)).
  { intros N. unfold k. destruct (Bool.eqb (s_int s) w) eqn:E.
    - apply eqb_prop in E. rewrite E in C. destruct (C N) as (C1 & C2). split; [exact C1|right; exact C2].
    - split; [|left; reflexivity]. apply eqb_false_iff in E. destruct h as [|d h]; [reflexivity|]. cbn [streak]. rewrite <- I. now replace (Bool.eqb (s_int s) w) with false by (symmetry; now apply eqb_false_iff). }
  clearbody k. pose proof (streak_pos w h) as SP. unfold inv. cbn [shown]. fold w. destruct (Bool.eqb w (s_ext s)) eqn:E.
  - apply eqb_prop in E. cbn [s_tostat s_tomov s_ext s_int s_cnt]. split; [reflexivity|]. split; [reflexivity|]. split; [|split; [reflexivity|intros N; congruence]].
    rewrite <- X, <- E. destruct w; reflexivity.
  - apply eqb_false_iff in E. destruct (K E) as (K1 & K2). clear K. rewrite <- X. destruct w eqn:W.
    + assert (EX : s_ext s = false) by (destruct (s_ext s); congruence). rewrite EX. cbn [s_tostat s_tomov s_ext s_int s_cnt orb]. rewrite (streak_new true h c W).
      split; [reflexivity|]. split; [reflexivity|]. destruct (snd c) eqn:G.
      * replace (tm >=? tm) with true by lia. split; [reflexivity|]. split; [reflexivity|]. intros N. congruence.
      * rewrite u64_small by lia. cbn [orb]. replace (k + 1 >=? tm) with (tm <=? 1 + streak true h) by lia. split; [destruct (tm <=? 1 + streak true h); reflexivity|]. split; [reflexivity|].
        destruct (tm <=? 1 + streak true h) eqn:L; [congruence|]. intros _. split; lia.
    + assert (EX : s_ext s = true) by (destruct (s_ext s); congruence). rewrite EX. cbn [s_tostat s_tomov s_ext s_int s_cnt andb]. rewrite (streak_new false h c W).
      split; [reflexivity|]. split; [reflexivity|]. rewrite u64_small by lia. replace (k + 1 >=? ts) with (negb (1 + streak false h <? ts)) by lia.
      split; [destruct (1 + streak false h <? ts); reflexivity|]. split; [reflexivity|].
      destruct (1 + streak false h <? ts) eqn:L; cbn [negb]; [|congruence]. intros _. split; lia.
Qed.

Lemma calls_of_snoc g l c : calls_of g (l ++ [c]) = if Bool.eqb (fst (fst c)) g then c :: calls_of g l else calls_of g l.
Proof. unfold calls_of. rewrite filter_app. cbn [filter]. destruct (Bool.eqb (fst (fst c)) g); [rewrite rev_app_distr; reflexivity|now rewrite app_nil_r]. Qed.
Definition whole (h : hyst) (l : list call) (s : state) : Prop :=
  inv false (h_pstat h) (h_pmov h) (calls_of false l) (st_pos s) /\ inv true (h_gstat h) (h_gmov h) (calls_of true l) (st_gw s) /\ st_ext s = moving h l.
Lemma whole_step h l s c : hyst_ok h -> whole h l s ->
  let '(s', ch, sch) := determine (fst (fst c)) (snd (fst c)) (snd c) s in
  whole h (l ++ [c]) s' /\ ch = negb (Bool.eqb (moving h l) (moving h (l ++ [c]))) /\
  sch = negb (if fst (fst c) then Bool.eqb (gw_shown h l) (gw_shown h (l ++ [c])) else Bool.eqb (pos_shown h l) (pos_shown h (l ++ [c]))).
Proof.
  intros (H1 & H2 & H3 & H4) (P & G & E). unfold determine. unfold moving, pos_shown, gw_shown in *. rewrite !(calls_of_snoc _ l c).
  unfold whole. rewrite !(calls_of_snoc _ l c). unfold moving, pos_shown, gw_shown. rewrite !(calls_of_snoc _ l c).
  pose proof (inv_step _ _ _ _ _ c H1 H2 P) as P'. pose proof (inv_step _ _ _ _ _ c H3 H4 G) as G'.
  pose proof P as (_ & _ & PX & _). pose proof G as (_ & _ & GX & _).
  destruct (fst (fst c)); cbn [Bool.eqb].
  - pose proof G' as (_ & _ & NX & _). rewrite <- PX, <- GX in *. rewrite <- NX. rewrite E. set (new := sub_step (snd (fst c)) (snd c) (st_gw s)) in *.
    destruct (s_ext (st_pos s)) eqn:EA, (s_ext (st_gw s)) eqn:EB, (s_ext new) eqn:EN; cbn; (split; [|split; reflexivity]); (split; [exact P|split; [exact G'|reflexivity]]).
  - pose proof P' as (_ & _ & NX & _). rewrite <- PX, <- GX in *. rewrite <- NX. rewrite E. set (new := sub_step (snd (fst c)) (snd c) (st_pos s)) in *.
    destruct (s_ext (st_pos s)) eqn:EA, (s_ext (st_gw s)) eqn:EB, (s_ext new) eqn:EN; cbn; (split; [|split; reflexivity]); (split; [exact P'|split; [exact G|reflexivity]]).
Qed.
Lemma whole_init h : whole h [] (init_state h).
Proof. split; [|split; [|reflexivity]]; (split; [reflexivity|]); (split; [reflexivity|]); (split; [reflexivity|]); (split; [reflexivity|]); intros N; now elim N. Qed.
Lemma calls_snoc l c s : calls (l ++ [c]) s = fst (fst (determine (fst (fst c)) (snd (fst c)) (snd c) (calls l s))).
Proof. unfold calls. now rewrite fold_left_app. Qed.
Lemma whole_all h l : hyst_ok h -> whole h l (calls l (init_state h)).
Proof.
  intros H. induction l as [|c l IH] using rev_ind; [apply whole_init|]. rewrite calls_snoc. pose proof (whole_step h l _ c H IH) as W.
  destruct (determine _ _ _ _) as ((s' & ch) & sch). exact (proj1 W).
Qed.
Theorem hysteresis h l g mv gp : hyst_ok h ->
  let s := calls l (init_state h) in let l' := l ++ [(g, mv, gp)] in
  st_ext s = moving h l /\
  exists s', determine g mv gp s = (s', negb (Bool.eqb (moving h l) (moving h l')),
    negb (if g then Bool.eqb (gw_shown h l) (gw_shown h l') else Bool.eqb (pos_shown h l) (pos_shown h l'))) /\ s' = calls l' (init_state h).
Proof.
  intros H s l'. pose proof (whole_all h l H) as W. split; [exact (proj2 (proj2 W))|].
  pose proof (whole_step h l _ (g, mv, gp) H W) as X. cbn [fst snd] in X. fold s in X. unfold l'. rewrite calls_snoc. fold s. cbn [fst snd].
  destruct (determine g mv gp s) as ((s' & ch) & sch). destruct X as (_ & -> & ->). exists s'. split; reflexivity.
Qed.

(** * Updates *)
Lemma run_snoc c l e r : run c (l ++ [e]) r = let '(r1, o1) := run c l r in let '(r2, o2) := step c e r1 in (r2, o1 ++ o2).
Proof.
  revert r. induction l as [|x l IH]; intros r; cbn [app run].
  - destruct (step c e r) as (r2 & o2). now rewrite app_nil_r.
  - destruct (step c x r) as (r1 & o1). rewrite IH. destruct (run c l r1) as (r3 & o3). destruct (step c e r3) as (r4 & o4). now rewrite app_assoc.
Qed.
Lemma det_ext g mv gp s s' ch sch : determine g mv gp s = (s', ch, sch) -> ch = negb (Bool.eqb (st_ext s) (st_ext s')).
Proof.
  unfold determine. set (new := sub_step _ _ _). destruct (negb _) eqn:N.
  - destruct (s_ext new || _) eqn:X; intros E; injection E as <- <- <-; cbn [st_ext]; [reflexivity|now rewrite eqb_reflx].
  - intros E; injection E as <- <- <-; cbn [st_ext]; now rewrite eqb_reflx.
Qed.
(** the state of the receiver comes from calls *)
Lemma reach c p l : exists cs, r_st (fst (run c l (start c p))) = calls cs (init_state (c_hyst c)).
Proof.
  induction l as [|e l (cs & IH)] using rev_ind; [exists []; reflexivity|]. rewrite run_snoc. destruct (run c l (start c p)) as (r & o). cbn [fst] in IH.
  destruct e as [avg mv i g|b| |]; cbn [step].
  - unfold incoming. match goal with |- context [determine false ?m0 ?c0 _] => set (m := m0); set (chg := c0) end. destruct (determine false m chg (r_st r)) as ((s & ch) & sch) eqn:D.
    assert (R : s = calls (cs ++ [(false, m, chg)]) (init_state (c_hyst c))) by (rewrite calls_snoc, <- IH; cbn [fst snd]; now rewrite D).
    exists (cs ++ [(false, m, chg)]). destruct ch; cbn [immediate fst r_st]; exact R.
  - unfold gateway_check. match goal with |- context [determine true ?m0 false _] => set (m := m0) end. destruct (determine true m false (r_st r)) as ((s & ch) & sch) eqn:D.
    assert (R : s = calls (cs ++ [(true, m, false)]) (init_state (c_hyst c))) by (rewrite calls_snoc, <- IH; cbn [fst snd]; now rewrite D).
    exists (cs ++ [(true, m, false)]). destruct ch; cbn [immediate fst r_st]; exact R.
  - exists cs. exact IH.
  - exists cs. exact IH.
Qed.
Definition tinv (c : conf) (r : rstate) : Prop :=
  r_timer r = period (c_stat c) (c_mov c) (st_ext (r_st r)) /\ (c_uplink c = true -> r_utimer r = period (c_ustat c) (c_umov c) (st_ext (r_st r))).
Lemma tinv_step c e r : tinv c r -> tinv c (fst (step c e r)).
Proof.
  intros (T1 & T2). destruct e as [avg mv i g|b| |]; cbn [step]; [| |now split|now split].
  - unfold incoming. destruct (determine _ _ _ _) as ((s & ch) & sch) eqn:D. apply det_ext in D. destruct ch; unfold immediate, tinv; cbn [fst r_timer r_utimer r_st].
    + split; [reflexivity|]. now intros ->.
    + assert (E : st_ext s = st_ext (r_st r)) by (destruct (st_ext s), (st_ext (r_st r)); (reflexivity || discriminate D)). rewrite E. now split.
  - unfold gateway_check. destruct (determine _ _ _ _) as ((s & ch) & sch) eqn:D. apply det_ext in D. destruct ch; unfold immediate, tinv; cbn [fst r_timer r_utimer r_st].
    + split; [reflexivity|]. now intros ->.
    + assert (E : st_ext s = st_ext (r_st r)) by (destruct (st_ext s), (st_ext (r_st r)); (reflexivity || discriminate D)). rewrite E. now split.
Qed.
Lemma tinv_all c p l : tinv c (fst (run c l (start c p))).
Proof.
  induction l as [|e l IH] using rev_ind; [split; reflexivity|]. rewrite run_snoc. destruct (run c l (start c p)) as (r & o). cbn [fst] in IH. apply (tinv_step c e) in IH.
  destruct (step c e r) as (r' & o'). exact IH.
Qed.
Lemma period_small stat mov m : 0 <= stat <= 4294967 -> 0 <= mov <= 4294967 -> period stat mov m = 1000 * (if m then mov else stat).
Proof. intros A B. unfold period, u64, u32. destruct m; rewrite Z.mod_small by (rewrite Z.mod_small by lia; lia); rewrite Z.mod_small by lia; lia. Qed.
Theorem timers c p l : 0 <= c_stat c <= 4294967 -> 0 <= c_mov c <= 4294967 -> 0 <= c_ustat c <= 4294967 -> 0 <= c_umov c <= 4294967 ->
  let r := fst (run c l (start c p)) in
  r_timer r = 1000 * (if st_ext (r_st r) then c_mov c else c_stat c) /\ (c_uplink c = true -> r_utimer r = 1000 * (if st_ext (r_st r) then c_umov c else c_ustat c)).
Proof.
  intros A B C D r. destruct (tinv_all c p l) as (T1 & T2). fold r in T1, T2. rewrite T1, period_small by assumption. split; [reflexivity|]. intros U. now rewrite (T2 U), period_small.
Qed.
Theorem at_once c e r : (forall r' o, step c e r = (r', o) -> e <> Tick -> e <> UplinkTick ->
  (st_ext (r_st r') = st_ext (r_st r) -> o = []) /\
  (st_ext (r_st r') <> st_ext (r_st r) -> exists t, o = [t] /\ t_olsr t = true /\ t_uplink t = c_uplink c /\ t_pos t = r_pos r' /\ t_gw t = r_gw r' /\ t_val t = if st_ext (r_st r') then c_mov c else c_stat c)).
Proof.
  intros r' o E N1 N2. destruct e as [avg mv i g|b| |]; [| |congruence|congruence]; cbn [step] in E.
  - unfold incoming in E. destruct (determine _ _ _ _) as ((s & ch) & sch) eqn:D. apply det_ext in D. destruct ch; unfold immediate in E; injection E as <- <-; cbn [r_st r_pos r_gw].
    + split; [intros X; rewrite X, eqb_reflx in D; discriminate|]. intros _. eexists. split; [reflexivity|]. unfold tx. cbn [t_olsr t_uplink t_pos t_gw t_val r_pos r_gw r_st]. split; [reflexivity|]. split; [now destruct (c_uplink c)|]. split; [reflexivity|]. split; reflexivity.
    + split; [reflexivity|]. intros X. exfalso. destruct (st_ext s), (st_ext (r_st r)); (discriminate D || now elim X).
  - unfold gateway_check in E. destruct (determine _ _ _ _) as ((s & ch) & sch) eqn:D. apply det_ext in D. destruct ch; unfold immediate in E; injection E as <- <-; cbn [r_st r_pos r_gw].
    + split; [intros X; rewrite X, eqb_reflx in D; discriminate|]. intros _. eexists. split; [reflexivity|]. unfold tx. cbn [t_olsr t_uplink t_pos t_gw t_val r_pos r_gw r_st]. split; [reflexivity|]. split; [now destruct (c_uplink c)|]. split; [reflexivity|]. split; reflexivity.
    + split; [reflexivity|]. intros X. exfalso. destruct (st_ext s), (st_ext (r_st r)); (discriminate D || now elim X).
Qed.
Lemma last_gw_snoc l e d : last_gw (l ++ [e]) d = match e with Gateway b => b | _ => last_gw l d end.
Proof. revert d. induction l as [|x l IH]; intros d; cbn [app last_gw]; [destruct e; reflexivity|]. destruct x; apply IH. Qed.
Lemma step_gw c e r : let '(r', o) := step c e r in r_gw r' = (match e with Gateway b => b | _ => r_gw r end) /\ Forall (fun t => t_gw t = r_gw r') o.
Proof.
  destruct e as [avg mv i g|b| |]; cbn [step].
  - unfold incoming. destruct (determine _ _ _ _) as ((s & ch) & sch). destruct ch; cbn [immediate r_gw]; (split; [reflexivity|]); [constructor; [reflexivity|constructor]|constructor].
  - unfold gateway_check. destruct (list_eq_dec Z.eq_dec b (r_gw r)) as [->|N]; cbn match; destruct (determine _ _ _ _) as ((s & ch) & sch); destruct ch; cbn [immediate r_gw]; (split; [reflexivity|]); (constructor; [reflexivity|constructor]) || constructor.
  - split; [reflexivity|]. constructor; [reflexivity|constructor].
  - split; [reflexivity|]. constructor; [reflexivity|constructor].
Qed.
Theorem leader_sent c p l e : let r := fst (run c l (start c p)) in forall r' o, step c e r = (r', o) -> Forall (fun t => t_gw t = last_gw (l ++ [e]) (c_main c)) o.
Proof.
  assert (G : r_gw (fst (run c l (start c p))) = last_gw l (c_main c)).
  { induction l as [|x l IH] using rev_ind; [reflexivity|]. rewrite run_snoc, last_gw_snoc. destruct (run c l (start c p)) as (r & o). cbn [fst] in IH. pose proof (step_gw c x r) as S1. destruct (step c x r) as (r' & o'). cbn [fst]. rewrite (proj1 S1). destruct x; try exact IH; reflexivity. }
  intros r r' o E. fold r in G. pose proof (step_gw c e r) as S1. rewrite E in S1. destruct S1 as (S1 & S2). rewrite last_gw_snoc. eapply Forall_impl; [|exact S2]. intros t ->. rewrite S1. destruct e; try exact G; reflexivity.
Qed.
Theorem newest c avg mv i g r r' o : step c (Incoming avg mv i g) r = (r', o) -> st_ext (r_st r') = true -> Forall (fun t => t_pos t = avg) (o ++ snd (step c Tick r') ++ snd (step c UplinkTick r')).
Proof.
  cbn [step]. unfold incoming. destruct (determine _ _ _ _) as ((s & ch) & sch). intros E X. assert (P : r_pos r' = avg /\ Forall (fun t => t_pos t = r_pos r') o).
  { destruct ch; unfold immediate in E; injection E as <- <-; cbn [r_pos r_st] in *; rewrite X; (split; [reflexivity|]); [constructor; [|constructor]; cbn [tx t_pos r_pos]; reflexivity|constructor]. }
  destruct P as (P1 & P2). rewrite P1 in P2. apply Forall_app. split; [exact P2|]. constructor; [exact P1|]. constructor; [exact P1|constructor].
Qed.
Theorem gateway_now c p l b : hyst_ok (c_hyst c) -> h_gmov (c_hyst c) <= 1 -> let r := fst (run c l (start c p)) in st_ext (r_st r) = false -> b <> last_gw l (c_main c) ->
  exists r' t, step c (Gateway b) r = (r', [t]) /\ t_gw t = b /\ t_olsr t = true.
Proof.
  intros H M r X N. destruct (reach c p l) as (cs & R). fold r in R.
  assert (G : r_gw r = last_gw l (c_main c)).
  { unfold r. clear. induction l as [|x l IH] using rev_ind; [reflexivity|]. rewrite run_snoc, last_gw_snoc. destruct (run c l (start c p)) as (r & o). cbn [fst] in IH. pose proof (step_gw c x r) as S1. destruct (step c x r) as (r' & o'). cbn [fst]. rewrite (proj1 S1). destruct x; try exact IH; reflexivity. }
  cbn [step]. unfold gateway_check. destruct (list_eq_dec Z.eq_dec b (r_gw r)) as [E|NE]; [congruence|]. cbn match.
  destruct (hysteresis (c_hyst c) cs true SET false H) as (V & s' & D & _). rewrite <- R in D, V. rewrite D.
  assert (Y : moving (c_hyst c) (cs ++ [(true, SET, false)]) = true).
  { unfold moving, gw_shown. rewrite !calls_of_snoc. cbn [fst snd Bool.eqb shown wants]. change (SET =? 2) with true. cbn [orb]. rewrite (streak_new true _ (true, SET, false) eq_refl). pose proof (streak_pos true (calls_of true cs)). replace (h_gmov (c_hyst c) <=? 1 + streak true (calls_of true cs)) with true by lia. now rewrite !orb_true_r. }
  rewrite Y. rewrite <- V, X. cbn [Bool.eqb negb immediate]. eexists _, _. split; [reflexivity|]. split; reflexivity.
Qed.

(** * The cluster leader *)
Lemma speed_sum g : speeds_ok g -> gw_speed g = g_up g + g_down g.
Proof. intros (A & B). unfold gw_speed, u32. apply Z.mod_small. lia. Qed.
Lemma cur_ok g o : is_cur g o = true <-> o = Some (g_org g).
Proof. unfold is_cur. destruct o as [a|]; [|split; discriminate]. destruct (list_eq_dec Z.eq_dec a (g_org g)) as [->|N]; split; congruence. Qed.
Lemma may_ok c g : usable g && (eval4 c g || eval6 c g) = true <-> may_lead c g.
Proof.
  unfold may_lead. rewrite <- !cur_ok. unfold usable, eval4, eval6. split.
  - intros H. destruct (g_cost g) as [k|]; [|discriminate]. rewrite andb_true_iff, !negb_true_iff, !orb_false_iff, !orb_true_iff, !andb_true_iff, !orb_true_iff, !negb_true_iff in H. destruct H as (((H1 & H2) & H3) & H4).
    split; [exists k; split; [reflexivity|lia]|]. split; [lia|]. split; [lia|]. tauto.
  - intros ((k & -> & K) & U & D & O). replace (k >=? 4294967295) with false by lia. replace (g_up g =? 0) with false by lia. replace (g_down g =? 0) with false by lia. cbn [orb negb andb]. rewrite !orb_true_iff, !andb_true_iff, !orb_true_iff, !negb_true_iff. tauto.
Qed.
Definition sum (g : gwe) : Z := g_up g + g_down g.
Lemma best_inv c l : Forall speeds_ok l ->
  match fold_left (choose c) l None with
  | Some g => In g l /\ may_lead c g /\ forall g', In g' l -> may_lead c g' -> sum g' <= sum g
  | None => forall g', In g' l -> ~ may_lead c g'
  end.
Proof.
  induction l as [|x l IH] using rev_ind; intros F; [intros g' []|]. apply Forall_app in F. destruct F as (F1 & F2). apply Forall_inv in F2. specialize (IH F1). rewrite fold_left_app. cbn [fold_left]. unfold choose at 1.
  destruct (usable x && (eval4 c x || eval6 c x)) eqn:M.
  - apply may_ok in M. destruct (fold_left (choose c) l None) as [g|].
    + destruct IH as (I & G & B). assert (SG : gw_speed g = sum g) by (apply speed_sum; now apply (proj1 (Forall_forall _ _) F1)). assert (SX : gw_speed x = sum x) by now apply speed_sum.
      unfold better. rewrite SG, SX. set (w := if sum x >? sum g then true else _). assert (W : (w = true -> sum g <= sum x) /\ (w = false -> sum x <= sum g)).
      { unfold w. destruct (sum x >? sum g) eqn:Q; [split; intros; [lia|discriminate]|]. destruct (sum x =? sum g) eqn:Q2; split; intros; try discriminate; lia. }
      clearbody w. destruct w.
      * split; [apply in_or_app; right; now left|]. split; [exact M|]. intros g' I' M'. apply in_app_or in I'. destruct I' as [I'|[<-|[]]]; [|lia]. specialize (B g' I' M'). lia.
      * split; [apply in_or_app; now left|]. split; [exact G|]. intros g' I' M'. apply in_app_or in I'. destruct I' as [I'|[<-|[]]]; [now apply B|lia].
    + split; [apply in_or_app; right; now left|]. split; [exact M|]. intros g' I' M'. apply in_app_or in I'. destruct I' as [I'|[<-|[]]]; [|lia]. now elim (IH g' I').
  - assert (NM : ~ may_lead c x) by (intros Q; apply may_ok in Q; congruence). destruct (fold_left (choose c) l None) as [g|].
    + destruct IH as (I & G & B). split; [apply in_or_app; now left|]. split; [exact G|]. intros g' I' M'. apply in_app_or in I'. destruct I' as [I'|[<-|[]]]; [now apply B|now elim NM].
    + intros g' I' M'. apply in_app_or in I'. destruct I' as [I'|[<-|[]]]; [now apply (IH g')|now elim NM].
Qed.
Theorem best_ok c l : Forall speeds_ok l ->
  ((forall g, In g l -> ~ may_lead c g) -> best_gateway c l = n_main c) /\
  (forall g0, In g0 l -> may_lead c g0 -> exists g, In g l /\ may_lead c g /\ best_gateway c l = g_org g /\ forall g', In g' l -> may_lead c g' -> g_up g' + g_down g' <= g_up g + g_down g).
Proof.
  intros F. pose proof (best_inv c l F) as B. unfold best_gateway. destruct (fold_left (choose c) l None) as [g|].
  - destruct B as (I & M & B). split; [intros N; now elim (N g I)|]. intros g0 _ _. exists g. split; [exact I|]. split; [exact M|]. split; [reflexivity|exact B].
  - split; [reflexivity|]. intros g0 I M. now elim (B g0 I).
Qed.
Lemma mem_lt_ok a b : mem_lt a b = true -> lower a b.
Proof. revert b. induction a as [|x a IH]; intros [|y b]; cbn [mem_lt]; try discriminate. destruct (x <? y) eqn:E; [intros _; apply lower_here; lia|]. destruct (x =? y) eqn:E2; [|discriminate]. intros H. replace y with x by lia. apply lower_later. now apply IH. Qed.
Lemma mem_nlt a b : length a = length b -> mem_lt a b = false -> a = b \/ lower b a.
Proof.
  revert b. induction a as [|x a IH]; intros [|y b] L; cbn [mem_lt]; try discriminate L; [now left|]. destruct (x <? y) eqn:E; [discriminate|]. destruct (x =? y) eqn:E2.
  - intros H. replace y with x by lia. destruct (IH b ltac:(now injection L) H) as [->|K]; [now left|right; now apply lower_later].
  - intros _. right. apply lower_here. lia.
Qed.
Lemma lower_trans a b c : lower a b -> lower b c -> lower a c.
Proof.
  intros H. revert c. induction H as [x y a b L|x a b L IH]; intros c K; inversion K; subst.
  - apply lower_here. lia.
  - now apply lower_here.
  - now apply lower_here.
  - apply lower_later. now apply IH.
Qed.
Theorem tie6 c l : Forall speeds_ok l -> n_v6 c = true -> n_cur4 c = None -> (n_niit c = false \/ Forall (fun g => g_v4 g = false) l) -> Forall (fun g => length (g_org g) = 16%nat) l ->
  match fold_left (choose c) l None with
  | Some g => forall g', In g' l -> may_lead c g' -> sum g' = sum g -> g_org g' = g_org g \/ lower (g_org g) (g_org g')
  | None => True
  end.
Proof.
  intros F V6 C4 NI L. induction l as [|x l IH] using rev_ind; [exact I|].
  assert (E4 : eval4 c x = false). { unfold eval4. rewrite C4, V6. cbn [is_cur orb negb]. destruct NI as [->|NI]; [now rewrite andb_false_r|]. apply Forall_app in NI. destruct NI as (_ & NI). apply Forall_inv in NI. now rewrite NI. }
  assert (NI' : n_niit c = false \/ Forall (fun g => g_v4 g = false) l) by (destruct NI as [NI|NI]; [now left|right; apply Forall_app in NI; tauto]).
  apply Forall_app in F. destruct F as (F1 & F2). apply Forall_inv in F2. apply Forall_app in L. destruct L as (L1 & L2). apply Forall_inv in L2. specialize (IH F1 NI' L1).
  pose proof (best_inv c l F1) as B. rewrite fold_left_app. cbn [fold_left]. unfold choose at 1. destruct (usable x && (eval4 c x || eval6 c x)) eqn:M.
  - destruct (fold_left (choose c) l None) as [g|].
    + destruct B as (I & G & B). assert (SG : gw_speed g = sum g) by (apply speed_sum; now apply (proj1 (Forall_forall _ _) F1)). assert (SX : gw_speed x = sum x) by now apply speed_sum.
      assert (LG : length (g_org g) = 16%nat) by (now apply (proj1 (Forall_forall _ _) L1)).
      unfold better. rewrite SG, SX, E4. destruct (sum x >? sum g) eqn:Q.
      * intros g' I' M' S'. apply in_app_or in I'. destruct I' as [I'|[<-|[]]]; [|now left]. specialize (B g' I' M'). lia.
      * destruct (sum x =? sum g) eqn:Q2.
        -- destruct (mem_lt (g_org x) (g_org g)) eqn:Q3.
           ++ apply mem_lt_ok in Q3. intros g' I' M' S'. apply in_app_or in I'. destruct I' as [I'|[<-|[]]]; [|now left]. right. destruct (IH g' I' M' ltac:(lia)) as [->|K]; [exact Q3|exact (lower_trans _ _ _ Q3 K)].
           ++ apply mem_nlt in Q3; [|lia]. intros g' I' M' S'. apply in_app_or in I'. destruct I' as [I'|[<-|[]]]; [now apply IH|exact Q3].
        -- intros g' I' M' S'. apply in_app_or in I'. destruct I' as [I'|[<-|[]]]; [now apply IH|lia].
    + intros g' I' M' S'. apply in_app_or in I'. destruct I' as [I'|[<-|[]]]; [now elim (B g' I')|now left].
  - assert (NM : ~ may_lead c x) by (intros Q; apply may_ok in Q; congruence). destruct (fold_left (choose c) l None) as [g|]; [|exact I]. intros g' I' M' S'. apply in_app_or in I'. destruct I' as [I'|[<-|[]]]; [now apply IH|now elim NM].
Qed.
Theorem tie6_ok c l : Forall speeds_ok l -> n_v6 c = true -> n_cur4 c = None -> (n_niit c = false \/ Forall (fun g => g_v4 g = false) l) -> Forall (fun g => length (g_org g) = 16%nat) l ->
  forall g0, In g0 l -> may_lead c g0 -> exists g, In g l /\ best_gateway c l = g_org g /\
    forall g', In g' l -> may_lead c g' -> g_up g' + g_down g' = g_up g + g_down g -> g_org g' = g_org g \/ lower (g_org g) (g_org g').
Proof.
  intros F V6 C4 NI L g0 I0 M0. pose proof (best_inv c l F) as B. pose proof (tie6 c l F V6 C4 NI L) as T. unfold best_gateway. destruct (fold_left (choose c) l None) as [g|].
  - exists g. split; [tauto|]. split; [reflexivity|exact T].
  - now elim (B g0 I0).
Qed.

From Verif Require Import Base SchedTime SchedSpec SchedTimeProofs Timers TimersSpec.

Lemma slot_mod c : 0 <= c -> slot_of c = c mod 1024.
Proof. intros H. unfold slot_of. change 1023 with (Z.ones 10). rewrite Z.land_ones by lia. reflexivity. Qed.
Lemma slot_range c : 0 <= slot_of c < 1024.
Proof. unfold slot_of. change 1023 with (Z.ones 10). rewrite Z.land_ones by lia. change (2 ^ 10) with 1024. lia. Qed.

Lemma in_unlink id w i x : In x (unlink id w i) <-> In x (w i) /\ x <> id.
Proof. unfold unlink. rewrite filter_In. destruct (Z.eqb_spec x id); cbn [negb]; split; intros; intuition congruence. Qed.
Lemma nodup_unlink id w i : NoDup (w i) -> NoDup (unlink id w i).
Proof. apply NoDup_filter. Qed.
Lemma upd_eq {A} (f : Z -> A) k v : upd f k v k = v. Proof. unfold upd. now rewrite Z.eqb_refl. Qed.
Lemma upd_ne {A} (f : Z -> A) k v x : x <> k -> upd f k v x = f x.
Proof. intros H. unfold upd. destruct (Z.eqb_spec x k); congruence. Qed.
Lemma in_tail i id w j x : In x (add_tail i id w j) <-> In x (w j) \/ (j = i /\ x = id).
Proof.
  unfold add_tail, upd. destruct (Z.eqb_spec j i).
  - subst. rewrite in_app_iff. cbn [In]. intuition.
  - intuition.
Qed.
Lemma in_front i id w j x : In x (add_front i id w j) <-> In x (w j) \/ (j = i /\ x = id).
Proof.
  unfold add_front, upd. destruct (Z.eqb_spec j i).
  - subst. cbn [In]. intuition.
  - intuition.
Qed.

(** The state of a timer after its callback ran: a one-shot timer is stopped, a
    periodic one runs again, due between (100 - jitter)% and 100% of its period
    from now. *)
Definition rearmed (now : Z) (t : timer) (o : option timer) : Prop :=
  exists t', o = Some t' /\ tperiod t' = tperiod t /\ tctx t' = tctx t /\ tjit t' = tjit t /\
    if tperiod t =? 0 then trun t' = false /\ trem t' = true
    else trun t' = true /\ trem t' = false /\
         exists d, tclock t' = u32 (now + d) /\ 1 <= d <= tperiod t /\ 100 * (tperiod t - d) <= tjit t * tperiod t.

Section P.
Variable rmax : Z.
Variable rnd : nat -> Z.
Variable cb : Z -> tstate -> list top.
Hypothesis Hmax : 0 <= rmax < 2147483648.
Hypothesis Hrnd : forall n, 0 <= rnd n <= rmax.
Hypothesis Hcb : forall ctx s, Forall op_ok (cb ctx s).

Definition t_ok (t : timer) : Prop :=
  trem t = negb (trun t) /\ (tperiod t = 0 \/ 1 <= tperiod t < 2147483648) /\ 0 <= tjit t < 256 /\ 0 <= trnd t <= rmax.

Record wf (cur : Z) (s : tstate) : Prop := {
  w_in : forall i id, In id (wheel s i) -> exists t, tms s id = Some t /\
           (i = slot_of (tclock t) \/ (i = TMP /\ slot_of (tclock t) = cur));
  w_on : forall id t, tms s id = Some t -> exists i, In id (wheel s i);
  w_one : forall i j id, In id (wheel s i) -> In id (wheel s j) -> i = j;
  w_nd : forall i, NoDup (wheel s i);
  w_id : forall id t, tms s id = Some t -> id < nextid s;
  w_t : forall id t, tms s id = Some t -> t_ok t;
  w_cl : forall id, In id (cleanup s) <-> exists t, tms s id = Some t /\ trem t = true;
  w_cnd : NoDup (cleanup s);
  w_now : 0 <= now_times s < 4294967296 }.

Lemma calc_future now rel jit r : 0 <= now < 4294967296 -> 1 <= rel < 2147483648 -> 0 <= jit < 256 -> 0 <= r <= rmax ->
  exists d, calc_jitter rmax now rel jit r = u32 (now + d) /\ 1 <= d <= rel /\ 100 * (rel - d) <= jit * rel.
Proof.
  intros Hn Hr Hj Hx.
  destruct (Z_gt_dec jit 99) as [G|G].
  - exists rel. unfold calc_jitter. replace (jit >? 99) with true by lia. rewrite orb_true_r. cbn [orb].
    split; [reflexivity|]. split; [lia|]. assert (0 <= jit * rel) by (apply Z.mul_nonneg_nonneg; lia). lia.
  - destruct (jitter_bounds rmax now rel jit r Hmax Hn ltac:(lia) Hj Hx) as (d & A & B & C & D).
    exists d. split; [exact A|]. split; [|exact C].
    assert (jit * rel <= 99 * rel) by (apply Z.mul_le_mono_nonneg_r; lia). lia.
Qed.
Lemma future_not_due now d : 0 <= now < 4294967296 -> 1 <= d < 2147483648 -> isTimedOut now (u32 (now + d)) = false.
Proof.
  intros Hn Hd. unfold isTimedOut, u32. destruct ((now + d) mod 4294967296 >? now) eqn:E; lia.
Qed.
Lemma calc_not_due now rel jit r : 0 <= now < 4294967296 -> 1 <= rel < 2147483648 -> 0 <= jit < 256 -> 0 <= r <= rmax ->
  isTimedOut now (calc_jitter rmax now rel jit r) = false.
Proof.
  intros Hn Hr Hj Hx. destruct (calc_future now rel jit r Hn Hr Hj Hx) as (d & A & B & C). rewrite A.
  apply future_not_due; lia.
Qed.

(** How calls relate two states. *)
Definition AD (s : tstate) (id i : Z) : Prop := armed_due s id /\ In id (wheel s i).

Record rel (s s' : tstate) : Prop := {
  r_now : now_times s' = now_times s;
  r_lr : last_run s' = last_run s;
  r_fired : fired s' = fired s;
  r_ad : forall id, armed_due s' id -> armed_due s id /\ (forall i, In id (wheel s' i) -> In id (wheel s i));
  r_tmp : forall id, In id (wheel s' TMP) -> In id (wheel s TMP);
  r_alloc : forall id, tms s id <> None -> tms s' id <> None;
  r_next : nextid s <= nextid s' }.

Lemma rel_refl s : rel s s.
Proof. constructor; auto; lia. Qed.
Lemma rel_trans s1 s2 s3 : rel s1 s2 -> rel s2 s3 -> rel s1 s3.
Proof.
  intros [A1 A2 A3 A4 A5 A6 A7] [B1 B2 B3 B4 B5 B6 B7]. constructor; try congruence; auto; try lia.
  intros id H. destruct (B4 id H) as (H2 & P2). destruct (A4 id H2) as (H1 & P1). auto.
Qed.

Lemma start_ok cur s r j p c : wf cur s -> 1 <= r < 2147483648 -> 0 <= j < 256 ->
  wf cur (start_timer rmax rnd s r j p c) /\ rel s (start_timer rmax rnd s r j p c).
Proof.
  intros W Hr Hj. pose proof W as [Win Won Wone Wnd Wid Wt Wcl Wcnd Wnow].
  set (clk := calc_jitter rmax (now_times s) r j (rnd (rcount s))).
  assert (Nn : tms s (nextid s) = None).
  { destruct (tms s (nextid s)) as [t|] eqn:E; [|reflexivity]. apply Wid in E. lia. }
  assert (Nw : forall i, ~ In (nextid s) (wheel s i)).
  { intros i H. destruct (Win _ _ H) as (t & E & _). congruence. }
  unfold start_timer. cbv zeta. fold clk. split.
  - constructor; cbn [tms wheel nextid cleanup now_times].
    + intros i id H. apply in_tail in H. destruct H as [H|(-> & ->)].
      * destruct (Win _ _ H) as (t & E & P). exists t. rewrite upd_ne; [auto|]. intros ->. congruence.
      * rewrite upd_eq. eexists. split; [reflexivity|]. left. reflexivity.
    + intros id t H. destruct (Z.eq_dec id (nextid s)) as [->|NE].
      * exists (slot_of clk). apply in_tail. right. auto.
      * rewrite upd_ne in H by exact NE. destruct (Won _ _ H) as (i & Hi). exists i. apply in_tail. now left.
    + intros i k id H1 H2. apply in_tail in H1. apply in_tail in H2.
      destruct H1 as [H1|(-> & ->)], H2 as [H2|(-> & E)]; subst; auto.
      * eapply Wone; eauto.
      * exfalso. eapply Nw, H1.
      * exfalso. eapply Nw, H2.
    + intros i. unfold add_tail, upd. destruct (i =? slot_of clk) eqn:E; [|apply Wnd].
      apply Z.eqb_eq in E. subst i. pose proof (Wnd (slot_of clk)) as Q. specialize (Nw (slot_of clk)).
      clear -Q Nw. induction (wheel s (slot_of clk)) as [|y l IH]; cbn [app]; [repeat constructor; auto|].
      apply NoDup_cons_iff in Q. destruct Q as (Q1 & Q2). cbn [In] in Nw. constructor.
      * rewrite in_app_iff. cbn [In]. intuition.
      * apply IH; tauto.
    + intros id t H. destruct (Z.eq_dec id (nextid s)) as [->|NE]; [lia|]. rewrite upd_ne in H by exact NE. apply Wid in H. lia.
    + intros id t H. destruct (Z.eq_dec id (nextid s)) as [->|NE].
      * rewrite upd_eq in H. apply Some_inj in H. subst t. split; [reflexivity|]. cbn [tperiod tjit trnd].
        split; [destruct p; lia|]. split; [exact Hj|apply Hrnd].
      * rewrite upd_ne in H by exact NE. eauto.
    + intros id. rewrite Wcl. destruct (Z.eq_dec id (nextid s)) as [->|NE].
      * rewrite upd_eq. split; intros (t & E & R); [congruence|]. apply Some_inj in E. subst t. discriminate.
      * rewrite upd_ne by exact NE. reflexivity.
    + exact Wcnd.
    + exact Wnow.
  - constructor; cbn [tms wheel nextid cleanup now_times last_run fired]; auto; try lia.
    + intros id (t & E & R & D). cbn [tms now_times] in *. destruct (Z.eq_dec id (nextid s)) as [->|NE].
      * exfalso. rewrite upd_eq in E. apply Some_inj in E. subst t. cbn [tclock] in D.
        unfold clk in D. rewrite calc_not_due in D by auto. discriminate.
      * rewrite upd_ne in E by exact NE. split; [exists t; auto|]. intros i H. apply in_tail in H. destruct H as [H|(_ & H)]; [exact H|congruence].
    + intros id H. apply in_tail in H. destruct H as [H|(H & _)]; [exact H|]. pose proof (slot_range clk). unfold TMP in H. lia.
    + intros id H. destruct (Z.eq_dec id (nextid s)) as [->|NE]; [rewrite upd_eq; discriminate|now rewrite upd_ne].
Qed.

Lemma nodup_tail_unlink id w i : NoDup (w i) -> NoDup (unlink id w i ++ [id]).
Proof.
  intros ND. apply (nodup_unlink id) in ND. assert (NI : ~ In id (unlink id w i)) by (rewrite in_unlink; tauto).
  revert ND NI. generalize (unlink id w i). induction l as [|y l IH]; cbn [app]; intros ND NI; [repeat constructor; auto|].
  apply NoDup_cons_iff in ND. cbn [In] in NI. constructor; [|apply IH; tauto]. rewrite in_app_iff. cbn [In]. intuition.
Qed.

Lemma change_ok cur s id r j p s' : wf cur s -> 1 <= r < 2147483648 -> 0 <= j < 256 ->
  change_timer rmax s id r j p = Some s' -> wf cur s' /\ rel s s'
  /\ (forall x, x <> id -> tms s' x = tms s x)
  /\ (exists t, tms s id = Some t /\ tms s' id = Some (mkTimer (calc_jitter rmax (now_times s) r j (trnd t)) (if p then r else 0) j (trun t) (trem t) (trnd t) (tctx t)))
  /\ ~ In id (wheel s' TMP) /\ nextid s' = nextid s.
Proof.
  intros W Hr Hj H. pose proof W as [Win Won Wone Wnd Wid Wt Wcl Wcnd Wnow].
  unfold change_timer in H. destruct (tms s id) as [t|] eqn:Et; [|discriminate].
  set (clk := calc_jitter rmax (now_times s) r j (trnd t)) in *. cbv zeta in H. apply Some_inj in H. subst s'.
  destruct (Wt _ _ Et) as (T1 & T2 & T3 & T4).
  assert (Dn : isTimedOut (now_times s) clk = false) by (apply calc_not_due; auto).
  pose proof (slot_range clk) as SR.
  split; [|split; [|split; [|split; [|split]]]].
  - constructor; cbn [tms wheel nextid cleanup now_times set_wheel set_tms].
    + intros i x H. apply in_tail in H. destruct H as [H|(-> & ->)].
      * apply in_unlink in H. destruct H as (H & NE). destruct (Win _ _ H) as (u & E & P). exists u. rewrite upd_ne by exact NE. auto.
      * rewrite upd_eq. eexists. split; [reflexivity|]. left. reflexivity.
    + intros x u H. destruct (Z.eq_dec x id) as [->|NE].
      * exists (slot_of clk). apply in_tail. right. auto.
      * rewrite upd_ne in H by exact NE. destruct (Won _ _ H) as (i & Hi). exists i. apply in_tail. left. apply in_unlink. auto.
    + intros i k x H1 H2. apply in_tail in H1. apply in_tail in H2. rewrite in_unlink in H1, H2.
      destruct H1 as [(H1 & N1)|(-> & ->)], H2 as [(H2 & N2)|(-> & E)]; subst; auto; try tauto. eapply Wone; eauto.
    + intros i. unfold add_tail, upd. destruct (i =? slot_of clk) eqn:E.
      * apply Z.eqb_eq in E. subst i. apply nodup_tail_unlink, Wnd.
      * apply nodup_unlink, Wnd.
    + intros x u H. destruct (Z.eq_dec x id) as [->|NE]; [eapply Wid, Et|]. rewrite upd_ne in H by exact NE. eapply Wid, H.
    + intros x u H. destruct (Z.eq_dec x id) as [->|NE].
      * rewrite upd_eq in H. apply Some_inj in H. subst u. split; [exact T1|]. cbn [tperiod tjit trnd].
        split; [destruct p; lia|]. split; [exact Hj|exact T4].
      * rewrite upd_ne in H by exact NE. eauto.
    + intros x. rewrite Wcl. destruct (Z.eq_dec x id) as [->|NE].
      * rewrite upd_eq. split; intros (u & E & R).
        -- rewrite Et in E. apply Some_inj in E. subst u. eexists. split; [reflexivity|exact R].
        -- apply Some_inj in E. subst u. exists t. auto.
      * rewrite upd_ne by exact NE. reflexivity.
    + exact Wcnd.
    + exact Wnow.
  - constructor; cbn [tms wheel nextid cleanup now_times last_run fired set_wheel set_tms]; auto; try lia.
    + intros x (u & E & R & D). cbn [tms now_times set_wheel set_tms] in *. destruct (Z.eq_dec x id) as [->|NE].
      * exfalso. rewrite upd_eq in E. apply Some_inj in E. subst u. cbn [tclock] in D. congruence.
      * rewrite upd_ne in E by exact NE. split; [exists u; auto|]. intros i H. apply in_tail in H. rewrite in_unlink in H. tauto.
    + intros x H. apply in_tail in H. rewrite in_unlink in H. destruct H as [H|(H & _)]; [tauto|]. unfold TMP in H. lia.
    + intros x H. destruct (Z.eq_dec x id) as [->|NE]; [rewrite upd_eq; discriminate|now rewrite upd_ne].
  - intros x NE. cbn [tms set_wheel set_tms]. now rewrite upd_ne.
  - exists t. split; [reflexivity|]. cbn [tms set_wheel set_tms]. rewrite upd_eq. reflexivity.
  - cbn [wheel set_wheel set_tms]. rewrite in_tail, in_unlink. unfold TMP. intros [H|H]; [tauto|lia].
  - reflexivity.
Qed.

Lemma stop_ok cur s id s' : wf cur s -> stop_timer s id = Some s' -> wf cur s' /\ rel s s'
  /\ (forall x, x <> id -> tms s' x = tms s x)
  /\ (exists t, tms s id = Some t /\ tms s' id = Some (mkTimer (tclock t) (tperiod t) (tjit t) false true (trnd t) (tctx t)))
  /\ wheel s' = wheel s /\ nextid s' = nextid s.
Proof.
  intros W H. pose proof W as [Win Won Wone Wnd Wid Wt Wcl Wcnd Wnow].
  unfold stop_timer in H. destruct (tms s id) as [t|] eqn:Et; [|discriminate].
  destruct (Wt _ _ Et) as (T1 & T2 & T3 & T4).
  destruct (trun t) eqn:Er.
  - cbv zeta in H. apply Some_inj in H. subst s'.
    assert (NC : ~ In id (cleanup s)).
    { rewrite Wcl. intros (u & E & R). rewrite Et in E. apply Some_inj in E. subst u. rewrite R in T1. discriminate. }
    assert (EB : existsb (Z.eqb id) (cleanup s) = false).
    { destruct (existsb (Z.eqb id) (cleanup s)) eqn:E; [|reflexivity]. apply existsb_exists in E. destruct E as (x & Hx & E).
      apply Z.eqb_eq in E. subst x. tauto. }
    rewrite EB. split; [|split; [|split; [|split; [|split]]]].
    + constructor; cbn [tms wheel nextid cleanup now_times set_cleanup set_tms].
      * intros i x H. destruct (Win _ _ H) as (u & E & P). destruct (Z.eq_dec x id) as [->|NE].
        -- rewrite upd_eq. eexists. split; [reflexivity|]. cbn [tclock]. rewrite Et in E. apply Some_inj in E. subst u. exact P.
        -- rewrite upd_ne by exact NE. eauto.
      * intros x u H. destruct (Z.eq_dec x id) as [->|NE]; [eauto|]. rewrite upd_ne in H by exact NE. eauto.
      * exact Wone.
      * exact Wnd.
      * intros x u H. destruct (Z.eq_dec x id) as [->|NE]; [eauto|]. rewrite upd_ne in H by exact NE. eauto.
      * intros x u H. destruct (Z.eq_dec x id) as [->|NE].
        -- rewrite upd_eq in H. apply Some_inj in H. subst u. split; [reflexivity|]. cbn [tperiod tjit trnd]. auto.
        -- rewrite upd_ne in H by exact NE. eauto.
      * intros x. rewrite in_app_iff. cbn [In]. destruct (Z.eq_dec x id) as [->|NE].
        -- rewrite upd_eq. split; [|auto]. intros _. eexists. split; [reflexivity|]. reflexivity.
        -- rewrite upd_ne by exact NE. rewrite Wcl. intuition congruence.
      * clear -Wcnd NC. induction (cleanup s) as [|y l IH]; cbn [app]; [repeat constructor; auto|].
        apply NoDup_cons_iff in Wcnd. cbn [In] in NC. constructor; [|apply IH; tauto]. rewrite in_app_iff. cbn [In]. intuition.
      * exact Wnow.
    + constructor; cbn [tms wheel nextid cleanup now_times last_run fired set_cleanup set_tms]; auto; try lia.
      * intros x (u & E & R & D). cbn [tms now_times set_cleanup set_tms] in *. destruct (Z.eq_dec x id) as [->|NE].
        -- exfalso. rewrite upd_eq in E. apply Some_inj in E. subst u. discriminate.
        -- rewrite upd_ne in E by exact NE. split; [exists u; auto|auto].
      * intros x H. destruct (Z.eq_dec x id) as [->|NE]; [rewrite upd_eq; discriminate|now rewrite upd_ne].
    + intros x NE. cbn [tms set_cleanup set_tms]. now rewrite upd_ne.
    + exists t. split; [reflexivity|]. cbn [tms set_cleanup set_tms]. now rewrite upd_eq.
    + reflexivity.
    + reflexivity.
  - apply Some_inj in H. subst s'. split; [exact W|]. split; [apply rel_refl|]. split; [auto|]. split; [|auto].
    exists t. split; [reflexivity|]. destruct t as [a b c d e f g]. cbn in *. subst. exact Et.
Qed.

Lemma do_op_ok cur s o s' : wf cur s -> op_ok o -> do_op rmax rnd s o = Some s' ->
  wf cur s' /\ rel s s' /\ (forall id, ~ targets o id -> id < nextid s -> tms s' id = tms s id).
Proof.
  intros W O H. destruct o as [r j p c|id r j p|id]; cbn [do_op op_ok targets] in *.
  - apply Some_inj in H. subst s'. destruct (start_ok cur s r j p c W) as (A & B); [tauto|tauto|].
    split; [exact A|]. split; [exact B|]. intros id _ L. unfold start_timer. cbn [tms]. rewrite upd_ne; [reflexivity|lia].
  - destruct (change_ok cur s id r j p s' W) as (A & B & C & _); [tauto|tauto|exact H|].
    split; [exact A|]. split; [exact B|]. intros x T _. apply C. congruence.
  - destruct (stop_ok cur s id s' W H) as (A & B & C & _). split; [exact A|]. split; [exact B|]. intros x T _. apply C. congruence.
Qed.

Lemma do_ops_ok l : forall cur s s', wf cur s -> Forall op_ok l -> do_ops rmax rnd s l = Some s' ->
  wf cur s' /\ rel s s' /\ (forall id, (forall o, In o l -> ~ targets o id) -> id < nextid s -> tms s' id = tms s id).
Proof.
  induction l as [|o l IH]; intros cur s s' W F H; cbn [do_ops] in H.
  - apply Some_inj in H. subst. split; [exact W|]. split; [apply rel_refl|auto].
  - inversion F as [|? ? F1 F2]; subst. destruct (do_op rmax rnd s o) as [s1|] eqn:E; [|discriminate].
    destruct (do_op_ok cur s o s1 W F1 E) as (W1 & R1 & U1).
    destruct (IH cur s1 s' W1 F2 H) as (W2 & R2 & U2).
    split; [exact W2|]. split; [eapply rel_trans; eauto|]. intros id T L. rewrite U2.
    + apply U1; [apply T; now left|exact L].
    + intros o' Ho. apply T. now right.
    + pose proof (r_next _ _ R1). lia.
Qed.

Definition not_ad (s : tstate) id := ~ armed_due s id.

Lemma after_cb_ok cur s id s' : wf cur s -> after_cb rmax rnd s id = Some s' ->
  wf cur s' /\ rel s s' /\ not_ad s' id
  /\ (forall x, x <> id -> tms s' x = tms s x)
  /\ (forall t, tms s id = Some t -> trun t = true -> rearmed (now_times s) t (tms s' id)) /\ nextid s' = nextid s.
Proof.
  intros W H. pose proof W as [Win Won Wone Wnd Wid Wt Wcl Wcnd Wnow].
  unfold after_cb in H. destruct (tms s id) as [t|] eqn:Et; [|discriminate].
  destruct (Wt _ _ Et) as (T1 & T2 & T3 & T4).
  destruct (trun t) eqn:Er.
  - destruct (Z.eqb_spec (tperiod t) 0) as [P|P]; cbn [negb] in H.
    + destruct (stop_ok cur s id s' W H) as (A & B & C & (u & Eu & Eu') & _ & Nx).
      rewrite Et in Eu. apply Some_inj in Eu. subst u.
      split; [exact A|]. split; [exact B|]. split; [|split; [exact C|split; [|exact Nx]]].
      * intros (v & Ev & R & D). rewrite Eu' in Ev. apply Some_inj in Ev. subst v. discriminate.
      * intros t0 E0 _. apply Some_inj in E0. subst t0. exists (mkTimer (tclock t) (tperiod t) (tjit t) false true (trnd t) (tctx t)).
        split; [exact Eu'|]. cbn [tperiod tctx tjit]. repeat (split; [reflexivity|]). rewrite P. cbn [Z.eqb]. auto.
    + set (s1 := mkT (upd (tms s) id (Some (mkTimer (tclock t) (tperiod t) (tjit t) true (trem t) (rnd (rcount s)) (tctx t)))) (wheel s) (nextid s) (cleanup s)
                     (now_times s) (last_run s) (S (rcount s)) (fired s)) in *. cbv zeta in H.
      assert (Er' : trem t = false) by (rewrite T1; reflexivity).
      assert (W1 : wf cur s1).
      { constructor; unfold s1; cbn [tms wheel nextid cleanup now_times].
        - intros i x Hx. destruct (Win _ _ Hx) as (u & E & Q). destruct (Z.eq_dec x id) as [->|NE].
          + rewrite upd_eq. eexists. split; [reflexivity|]. cbn [tclock]. rewrite Et in E. apply Some_inj in E. subst u. exact Q.
          + rewrite upd_ne by exact NE. eauto.
        - intros x u Hx. destruct (Z.eq_dec x id) as [->|NE]; [eauto|]. rewrite upd_ne in Hx by exact NE. eauto.
        - exact Wone.
        - exact Wnd.
        - intros x u Hx. destruct (Z.eq_dec x id) as [->|NE]; [eauto|]. rewrite upd_ne in Hx by exact NE. eauto.
        - intros x u Hx. destruct (Z.eq_dec x id) as [->|NE].
          + rewrite upd_eq in Hx. apply Some_inj in Hx. subst u. split; [cbn [trem trun]; rewrite Er'; reflexivity|]. cbn [tperiod tjit trnd]. auto.
          + rewrite upd_ne in Hx by exact NE. eauto.
        - intros x. rewrite Wcl. destruct (Z.eq_dec x id) as [->|NE].
          + rewrite upd_eq. split; intros (u & E & Q).
            * rewrite Et in E. apply Some_inj in E. subst u. congruence.
            * apply Some_inj in E. subst u. cbn [trem] in Q. congruence.
          + rewrite upd_ne by exact NE. reflexivity.
        - exact Wcnd.
        - exact Wnow. }
      assert (R1 : rel s s1).
      { constructor; unfold s1; cbn [tms wheel nextid cleanup now_times last_run fired]; auto; try lia.
        - intros x (u & E & Q & D). cbn [tms now_times] in *. split; [|auto]. destruct (Z.eq_dec x id) as [->|NE].
          + rewrite upd_eq in E. apply Some_inj in E. subst u. exists t. cbn [trem tclock] in *. auto.
          + rewrite upd_ne in E by exact NE. exists u. auto.
        - intros x Hx. destruct (Z.eq_dec x id) as [->|NE]; [rewrite upd_eq; discriminate|now rewrite upd_ne]. }
      assert (PR : 1 <= tperiod t < 2147483648) by lia.
      destruct (change_ok cur s1 id (tperiod t) (tjit t) true s' W1 PR T3 H) as (A & B & C & (u & Eu & Eu') & _ & Nx).
      assert (Eu1 : u = mkTimer (tclock t) (tperiod t) (tjit t) true (trem t) (rnd (rcount s)) (tctx t)).
      { unfold s1 in Eu. cbn [tms] in Eu. rewrite upd_eq in Eu. apply Some_inj in Eu. now subst. }
      subst u. cbn [trnd trun trem tctx] in Eu'.
      destruct (calc_future (now_times s1) (tperiod t) (tjit t) (rnd (rcount s)) Wnow PR T3 (Hrnd _)) as (d & D1 & D2 & D3).
      split; [exact A|]. split; [eapply rel_trans; eauto|]. split; [|split; [|split; [|exact Nx]]].
      * intros (v & Ev & Q & D). rewrite Eu' in Ev. apply Some_inj in Ev. subst v. cbn [tclock] in D.
        pose proof (r_now _ _ B) as Bn. rewrite Bn, D1 in D. rewrite future_not_due in D; [discriminate|exact Wnow|lia].
      * intros x NE. rewrite C by exact NE. unfold s1. cbn [tms]. now rewrite upd_ne.
      * intros t0 E0 _. apply Some_inj in E0. subst t0. eexists. split; [exact Eu'|]. cbn [tperiod tctx tjit trun trem tclock].
        repeat (split; [reflexivity|]). destruct (Z.eqb_spec (tperiod t) 0); [lia|].
        split; [reflexivity|]. split; [exact Er'|]. exists d. change (now_times s1) with (now_times s) in D1. auto.
  - apply Some_inj in H. subst s'. split; [exact W|]. split; [apply rel_refl|]. split; [|split; [auto|split; [|reflexivity]]].
    + intros (v & Ev & Q & D). rewrite Et in Ev. apply Some_inj in Ev. subst v. rewrite T1 in Q. discriminate.
    + intros t0 E0 F. apply Some_inj in E0. subst t0. congruence.
Qed.

(** One round of the inner loop. *)
Record wone (s s' : tstate) (id : Z) : Prop := {
  o_now : now_times s' = now_times s;
  o_lr : last_run s' = last_run s;
  o_ad : forall x, armed_due s' x -> x <> id /\ armed_due s x /\ (forall i, In x (wheel s' i) -> In x (wheel s i));
  o_fired : (fired s' = fired s /\ ~ armed_due s id) \/ (fired s' = id :: fired s /\ armed_due s id);
  o_unt : forall x, untouched cb x -> x < nextid s -> x <> id -> tms s' x = tms s x;
  o_unt_id : untouched cb id -> (~ armed_due s id /\ tms s' id = tms s id) \/
     (armed_due s id /\ exists t, tms s id = Some t /\ rearmed (now_times s) t (tms s' id));
  o_next : nextid s <= nextid s';
  o_alloc : forall x, tms s x <> None -> tms s' x <> None }.

Lemma walk_one_ok s slot id rest s' : wf slot s -> 0 <= slot < 1024 -> wheel s slot = id :: rest ->
  (forall x, ~ AD s x TMP) ->
  walk_one rmax rnd cb s slot id = Some s' ->
  wf slot s' /\ wone s s' id /\ (forall x, ~ AD s' x TMP)
  /\ ((fired s' = fired s /\ wheel s' slot = rest)
      \/ (fired s' = id :: fired s)).
Proof.
  intros W Hs Hw NT H. pose proof W as [Win Won Wone Wnd Wid Wt Wcl Wcnd Wnow].
  unfold walk_one in H. set (s1 := set_wheel s (add_front TMP id (unlink id (wheel s)))) in *. cbv zeta in H.
  assert (Hin : In id (wheel s slot)) by (rewrite Hw; now left).
  destruct (Win _ _ Hin) as (t & Et & Pt).
  assert (Sl : slot_of (tclock t) = slot) by (destruct Pt as [Pt|(Pt & Q)]; [auto|unfold TMP in Pt; lia]).
  assert (W1 : wf slot s1).
  { constructor; unfold s1; cbn [tms wheel nextid cleanup now_times set_wheel]; auto.
    - intros i x Hx. apply in_front in Hx. rewrite in_unlink in Hx. destruct Hx as [(Hx & NE)|(-> & ->)]; [auto|].
      exists t. split; [exact Et|]. right. auto.
    - intros x u Hx. destruct (Z.eq_dec x id) as [->|NE].
      + exists TMP. apply in_front. right. auto.
      + destruct (Won _ _ Hx) as (i & Hi). exists i. apply in_front. left. apply in_unlink. auto.
    - intros i k x H1 H2. apply in_front in H1. apply in_front in H2. rewrite in_unlink in H1, H2.
      destruct H1 as [(H1 & N1)|(-> & ->)], H2 as [(H2 & N2)|(-> & E)]; subst; auto; try tauto. eapply Wone; eauto.
    - intros i. unfold add_front, upd. destruct (i =? TMP) eqn:E.
      + apply Z.eqb_eq in E. subst i. constructor; [rewrite in_unlink; tauto|apply nodup_unlink, Wnd].
      + apply nodup_unlink, Wnd. }
  assert (Ts : tms s1 = tms s) by reflexivity. assert (Ns : now_times s1 = now_times s) by reflexivity.
  assert (Ws1 : wheel s1 slot = rest).
  { unfold s1. cbn [wheel set_wheel]. unfold add_front. rewrite upd_ne by (unfold TMP; lia).
    unfold unlink. rewrite Hw. cbn [filter]. rewrite Z.eqb_refl. cbn [negb].
    assert (NI : ~ In id rest) by (specialize (Wnd slot); rewrite Hw in Wnd; now apply NoDup_cons_iff in Wnd).
    clear -NI. induction rest as [|y l IH]; [reflexivity|]. cbn [filter In] in *. destruct (Z.eqb_spec y id); [tauto|]. cbn [negb]. f_equal. apply IH. tauto. }
  assert (In1 : forall x i, x <> id -> (In x (wheel s1 i) <-> In x (wheel s i))).
  { intros x i NE. unfold s1. cbn [wheel set_wheel]. rewrite in_front, in_unlink. intuition congruence. }
  change (tms s1 id) with (tms s id) in H. rewrite Et in H.
  assert (Stay : (trem t = true \/ isTimedOut (now_times s1) (tclock t) = false) -> s' = s1 ->
    wf slot s' /\ wone s s' id /\ (forall x, ~ AD s' x TMP) /\ ((fired s' = fired s /\ wheel s' slot = rest) \/ (fired s' = id :: fired s))).
  { intros C ->. 
    assert (NA : ~ armed_due s id).
    { intros (u & E & R & D). rewrite Et in E. apply Some_inj in E. subst u. rewrite Ns in C. destruct C; congruence. }
    assert (AE : forall x, armed_due s1 x <-> armed_due s x) by (intros x; reflexivity).
    split; [exact W1|]. split; [|split].
    - constructor; auto.
      + intros x A. apply AE in A. assert (NE : x <> id) by (intros ->; tauto). split; [exact NE|]. split; [exact A|].
        intros i Hi. now apply In1 in Hi.
      + cbn. lia.
    - intros x (A & B). apply AE in A. assert (NE : x <> id) by (intros ->; tauto). apply In1 in B; [|exact NE]. apply (NT x). split; auto.
    - left. auto. }
  destruct (trem t) eqn:Er; [apply Stay; [auto|now apply Some_inj in H]|].
  destruct (isTimedOut (now_times s1) (tclock t)) eqn:Ed; [|apply Stay; [auto|now apply Some_inj in H]].
  clear Stay.
  assert (ADi : armed_due s id) by (exists t; auto).
  set (s2 := mkT (tms s1) (wheel s1) (nextid s1) (cleanup s1) (now_times s1) (last_run s1) (rcount s1) (id :: fired s1)) in *.
  assert (W2 : wf slot s2).
  { destruct W1. constructor; auto. }
  destruct (do_ops rmax rnd s2 (cb (tctx t) s2)) as [s3|] eqn:E3; [|discriminate].
  destruct (do_ops_ok _ slot s2 s3 W2 (Hcb _ _) E3) as (W3 & R3 & U3).
  destruct (after_cb_ok slot s3 id s' W3 H) as (W4 & R4 & NA & U4 & RA & Nx4).
  pose proof (rel_trans _ _ _ R3 R4) as R. destruct R as [A1 A2 A3 A4 A5 A6 A7].
  assert (ADs2 : forall x, armed_due s2 x -> armed_due s x) by (intros x Q; exact Q).
  split; [exact W4|]. split; [|split].
  - constructor.
    + exact A1.
    + exact A2.
    + intros x Hx. assert (NE : x <> id) by (intros ->; apply NA, Hx). split; [exact NE|].
      destruct (A4 x Hx) as (B1 & B2). split; [apply ADs2, B1|]. intros i Hi. apply B2 in Hi. now apply In1 in Hi.
    + right. split; [exact A3|exact ADi].
    + intros x Ux Lx NE. rewrite U4 by exact NE. rewrite U3; [reflexivity|apply Ux|exact Lx].
    + intros Ux. right. split; [exact ADi|]. exists t. split; [exact Et|].
      assert (E3' : tms s3 id = Some t).
      { rewrite U3; [exact Et|apply Ux|]. eapply Wid, Et. }
      assert (Tr : trun t = true).
      { destruct (Wt _ _ Et) as (T1 & _). rewrite Er in T1. destruct (trun t); [reflexivity|discriminate]. }
      pose proof (RA t E3' Tr) as Q. rewrite (r_now _ _ R3) in Q. exact Q.
    + exact A7.
    + exact A6.
  - intros x (Q1 & Q2). destruct (A4 x Q1) as (B1 & B2). apply A5 in Q2.
    assert (NE : x <> id) by (intros ->; apply NA, Q1). apply In1 in Q2; [|exact NE]. apply (NT x). split; auto.
  - right. exact A3.
Qed.

(** Whole walks. *)
Record walked (s s' : tstate) : Prop := {
  k_now : now_times s' = now_times s;
  k_lr : last_run s' = last_run s;
  k_ad : forall x, armed_due s' x -> armed_due s x;
  k_fired : exists l, fired s' = l ++ fired s /\ (forall x, In x l -> armed_due s x /\ ~ armed_due s' x) /\ NoDup l
     /\ (forall x, untouched cb x -> tms s x <> None ->
           (~ In x l /\ tms s' x = tms s x) \/ (In x l /\ exists t, tms s x = Some t /\ rearmed (now_times s) t (tms s' x)));
  k_next : nextid s <= nextid s';
  k_alloc : forall x, tms s x <> None -> tms s' x <> None }.

Lemma ad_alloc s x : armed_due s x -> tms s x <> None.
Proof. intros (t & E & _). congruence. Qed.

Lemma walked_trans s1 s2 s3 : walked s1 s2 -> walked s2 s3 -> walked s1 s3.
Proof.
  intros [A1 A2 A3 (la & A4 & A5 & A6 & A7) A8 A9] [B1 B2 B3 (lb & B4 & B5 & B6 & B7) B8 B9].
  constructor; try congruence; auto; [|lia].
  exists (lb ++ la). split; [rewrite B4, A4, app_assoc; reflexivity|]. split; [|split].
  - intros x H. apply in_app_or in H. destruct H as [H|H].
    + destruct (B5 x H) as (P & Q). split; auto.
    + destruct (A5 x H) as (P & Q). split; auto.
  - clear -A5 B5 A6 B6. induction lb as [|y l IH]; [exact A6|]. cbn [app]. apply NoDup_cons_iff in B6. destruct B6 as (N1 & N2).
    constructor; [|apply IH; auto; intros; apply B5; now right].
    rewrite in_app_iff. intros [H|H]; [tauto|]. destruct (A5 y H) as (_ & Q). apply Q. apply B5. now left.
  - intros x Ux Al. destruct (A7 x Ux Al) as [(N & E)|(I1 & t & E & R)].
    + destruct (B7 x Ux) as [(N2 & E2)|(I2 & t & E2 & R2)]; [auto|left|right].
      * split; [rewrite in_app_iff; tauto|congruence].
      * split; [rewrite in_app_iff; tauto|]. exists t. rewrite <- E, <- A1. auto.
    + right. split; [rewrite in_app_iff; tauto|]. exists t. split; [exact E|].
      destruct (B7 x Ux) as [(N2 & E2)|(I2 & t2 & E2 & R2)]; [auto|rewrite E2; exact R|].
      exfalso. destruct (A5 x I1) as (_ & Q). apply Q. now apply B5.
Qed.
Lemma walked_refl s : walked s s.
Proof.
  constructor; auto; try lia. exists []. split; [reflexivity|]. split; [intros x []|]. split; [constructor|].
  intros x _ _. left. split; [tauto|reflexivity].
Qed.

Lemma wone_walked s s' id : tms s id <> None -> wone s s' id -> (forall x, tms s x <> None -> x < nextid s) -> walked s s'.
Proof.
  intros Al [O1 O2 O3 O4 O5 O6 O7 O8] Lt.
  constructor; auto.
  - intros x H. apply O3 in H. tauto.
  - destruct O4 as [(F & NA)|(F & NA)].
    + exists []. split; [exact F|]. split; [intros x []|]. split; [constructor|].
      intros x Ux Ax. left. split; [tauto|]. destruct (Z.eq_dec x id) as [->|NE]; [|apply O5; auto].
      destruct (O6 Ux) as [(_ & E)|(Q & _)]; [exact E|tauto].
    + exists [id]. split; [exact F|]. split; [|split; [repeat constructor; auto|]].
      * intros x [<-|[]]. split; [exact NA|]. intros Q. apply O3 in Q. tauto.
      * intros x Ux Ax. destruct (Z.eq_dec x id) as [->|NE].
        -- right. split; [now left|]. destruct (O6 Ux) as [(Q & _)|(_ & R)]; [tauto|exact R].
        -- left. split; [cbn [In]; intuition congruence|]. apply O5; auto.
Qed.

(** The end of the inner loop: the temporary list goes back. *)
Lemma merge_ok slot s : 0 <= slot < 1024 -> wf slot s -> (forall x, ~ AD s x TMP) -> wheel s slot = [] ->
  let s' := set_wheel s (upd (upd (wheel s) slot (wheel s TMP ++ [])) TMP []) in
  wf slot s' /\ walked s s' /\ wheel s' TMP = [] /\ (forall x i, AD s' x i -> AD s x i /\ i <> slot).
Proof.
  intros Hs W NT Hw. assert (NTs : TMP <> slot) by (unfold TMP; lia).
  set (w' := upd (upd (wheel s) slot (wheel s TMP ++ [])) TMP []). cbv zeta.
  assert (Iw : forall i x, In x (w' i) <-> (i <> TMP /\ i <> slot /\ In x (wheel s i)) \/ (i = slot /\ In x (wheel s TMP))).
  { intros i x. unfold w'. destruct (Z.eq_dec i TMP) as [->|N1].
    - rewrite upd_eq. cbn [In]. intuition.
    - rewrite upd_ne by exact N1. destruct (Z.eq_dec i slot) as [->|N2].
      + rewrite upd_eq, app_nil_r. intuition congruence.
      + rewrite upd_ne by exact N2. intuition congruence. }
  pose proof W as [Win Won Wone Wnd Wid Wt Wcl Wcnd Wnow].
  split; [|split; [|split]].
  - constructor; cbn [tms wheel nextid cleanup now_times set_wheel]; auto.
    + intros i x Hx. apply Iw in Hx. destruct Hx as [(N1 & N2 & Hx)|(-> & Hx)]; destruct (Win _ _ Hx) as (t & E & P); exists t; (split; [exact E|]); left;
        destruct P as [P|(P & Q)]; unfold TMP in *; pose proof (slot_range (tclock t)); lia.
    + intros x t Hx. destruct (Won _ _ Hx) as (i & Hi). destruct (Z.eq_dec i TMP) as [->|N1].
      * exists slot. apply Iw. right. auto.
      * exists i. apply Iw. left. split; [exact N1|]. split; [|exact Hi]. intros ->. rewrite Hw in Hi. destruct Hi.
    + intros i k x H1 H2. apply Iw in H1. apply Iw in H2.
      destruct H1 as [(A1 & A2 & A3)|(-> & A3)], H2 as [(B1 & B2 & B3)|(-> & B3)]; auto.
      * eapply Wone; eauto.
      * exfalso. apply A1. eapply Wone; eauto.
      * exfalso. apply B1. eapply Wone; eauto.
    + intros i. unfold w', upd. destruct (i =? TMP); [constructor|]. destruct (i =? slot); [rewrite app_nil_r; apply Wnd|apply Wnd].
  - constructor; cbn [tms wheel nextid cleanup now_times last_run fired set_wheel]; auto; try lia.
    exists []. split; [reflexivity|]. split; [intros x []|]. split; [constructor|].
    intros x _ _. left. split; [tauto|reflexivity].
  - cbn [wheel set_wheel]. unfold w'. now rewrite upd_eq.
  - intros x i (Q1 & Q2). cbn [wheel set_wheel] in Q2. apply Iw in Q2. destruct Q2 as [(N1 & N2 & Q2)|(-> & Q2)].
    + split; [split; [exact Q1|exact Q2]|exact N2].
    + exfalso. apply (NT x). split; [exact Q1|exact Q2].
Qed.

Lemma walk_slot_ok slot : 0 <= slot < 1024 -> forall fuel s s', wf slot s -> (forall x, ~ AD s x TMP) ->
  walk_slot rmax rnd cb fuel s slot = Ok s' ->
  wf slot s' /\ walked s s' /\ wheel s' TMP = [] /\ (forall x i, AD s' x i -> AD s x i /\ i <> slot).
Proof.
  intros Hs. induction fuel as [|fuel IH]; intros s s' W NT H; cbn [walk_slot] in H.
  all: destruct (wheel s slot) as [|id rest] eqn:Hw.
  1,3: apply (f_equal (fun r => match r with Ok a => Some a | _ => None end)) in H; cbv beta iota in H; apply Some_inj in H; subst s';
       apply merge_ok; auto.
  - discriminate.
  - destruct (walk_one rmax rnd cb s slot id) as [s1|] eqn:E1; [|discriminate].
    destruct (walk_one_ok s slot id rest s1 W Hs Hw NT E1) as (W1 & O1 & NT1 & _).
    destruct (IH s1 s' W1 NT1 H) as (W2 & K2 & T2 & A2).
    split; [exact W2|]. split; [|split; [exact T2|]].
    + eapply walked_trans; [|exact K2]. eapply wone_walked; [|exact O1|].
      * destruct (w_in _ _ W slot id) as (t & E & _); [rewrite Hw; now left|congruence].
      * intros x Hx. destruct (tms s x) as [t|] eqn:E; [|congruence]. eapply w_id; eauto.
    + intros x i Q. apply A2 in Q. destruct Q as ((Q1 & Q2) & NE). split; [|exact NE].
      destruct (o_ad _ _ _ O1 x Q1) as (_ & P1 & P2). split; auto.
Qed.

Lemma wf_cur c c' s : wf c s -> wheel s TMP = [] -> wf c' s.
Proof.
  intros [Win Won Wone Wnd Wid Wt Wcl Wcnd Wnow] T. constructor; auto.
  intros i x Hx. destruct (Win _ _ Hx) as (t & E & P). exists t. split; [exact E|].
  destruct P as [P|(P & _)]; [auto|]. subst i. rewrite T in Hx. destruct Hx.
Qed.

(** The slots a walk visits. *)
Definition visits (lr now : Z) (n : nat) (i : Z) : Prop := exists k, 0 <= k < Z.of_nat n /\ lr + k <= now /\ i = slot_of (lr + k).

Lemma walk_slots_ok : forall n fuel s lr s', wf 0 s -> wheel s TMP = [] -> 0 <= lr < 4294967296 ->
  walk_slots rmax rnd cb n fuel s lr = Ok s' ->
  wf 0 s' /\ walked s s' /\ wheel s' TMP = [] /\ (forall x i, AD s' x i -> AD s x i /\ ~ visits lr (now_times s) n i).
Proof.
  induction n as [|n IH]; intros fuel s lr s' W T L H; cbn [walk_slots] in H.
  - injection H as <-. split; [exact W|]. split; [apply walked_refl|]. split; [exact T|].
    intros x i Q. split; [exact Q|]. intros (k & K & _). lia.
  - destruct (Z.leb_spec lr (now_times s)) as [Le|Gt].
    + destruct (walk_slot rmax rnd cb fuel s (slot_of lr)) as [s1| |] eqn:E1; try discriminate.
      destruct (walk_slot_ok (slot_of lr) (slot_range lr) fuel s s1 (wf_cur 0 _ s W T)) as (W1 & K1 & T1 & A1).
      { intros x (_ & Q). rewrite T in Q. destruct Q. }
      { exact E1. }
      pose proof (wf_cur _ 0 s1 W1 T1) as W1'.
      assert (L' : 0 <= u32 (lr + 1) < 4294967296) by (unfold u32; lia).
      destruct (IH fuel s1 (u32 (lr + 1)) s' W1' T1 L' H) as (W2 & K2 & T2 & A2).
      split; [exact W2|]. split; [eapply walked_trans; eauto|]. split; [exact T2|].
      intros x i Q. apply A2 in Q. destruct Q as (Q & NV). apply A1 in Q. destruct Q as (Q & NS).
      split; [exact Q|]. intros (k & K & Kn & Ki). destruct (Z.eq_dec k 0) as [->|Nk].
      * apply NS. rewrite Ki. f_equal. lia.
      * apply NV. exists (k - 1). pose proof (w_now _ _ W). rewrite (k_now _ _ K1).
        assert (Eu : u32 (lr + 1) = lr + 1) by (unfold u32; rewrite Z.mod_small; lia).
        rewrite Eu. split; [lia|]. split; [lia|]. rewrite Ki. f_equal. lia.
    + injection H as <-. split; [exact W|]. split; [apply walked_refl|]. split; [exact T|].
      intros x i Q. split; [exact Q|]. intros (k & K & Kn & _). lia.
Qed.

(** Cleaning up frees exactly the stopped timers. *)
Lemma cleanup_ok s : wf 0 s -> exists s', walk_timers_cleanup s = Some s' /\ wf 0 s'
  /\ now_times s' = now_times s /\ last_run s' = last_run s /\ fired s' = fired s
  /\ wheel s' TMP = filter (fun x => negb (existsb (Z.eqb x) (cleanup s))) (wheel s TMP)
  /\ (forall id, tms s' id = match tms s id with Some t => if trem t then None else Some t | None => None end).
Proof.
  intros W. pose proof W as [Win Won Wone Wnd Wid Wt Wcl Wcnd Wnow]. unfold walk_timers_cleanup.
  assert (G : forall l s0, NoDup l -> (forall x, In x l -> exists t, tms s0 x = Some t /\ trem t = true) ->
     exists s', cleanup_all s0 l = Some s' /\ cleanup s' = [] /\ now_times s' = now_times s0 /\ last_run s' = last_run s0 /\ fired s' = fired s0 /\ nextid s' = nextid s0
      /\ (forall id, tms s' id = if existsb (Z.eqb id) l then None else tms s0 id)
      /\ (forall i, wheel s' i = filter (fun x => negb (existsb (Z.eqb x) l)) (wheel s0 i))).
  { induction l as [|id l IH]; intros s0 ND Q; cbn [cleanup_all].
    - eexists. split; [reflexivity|]. repeat (split; [reflexivity|]). cbn [existsb negb]. intros i. cbn [wheel set_cleanup].
      induction (wheel s0 i) as [|y m IHm]; [reflexivity|]. cbn [filter]. now rewrite <- IHm.
    - apply NoDup_cons_iff in ND. destruct ND as (N1 & N2).
      destruct (Q id (or_introl eq_refl)) as (t & E & R). unfold cleanup_timer. rewrite E, R.
      destruct (IH (set_wheel (set_tms s0 (upd (tms s0) id None)) (unlink id (wheel s0))) N2) as (s' & A1 & A2 & A3 & A4 & A5 & A6 & A7 & A8).
      { intros x Hx. cbn [tms set_wheel set_tms]. rewrite upd_ne by congruence. apply Q. now right. }
      exists s'. split; [exact A1|]. repeat (split; [assumption|]). split.
      + intros x. rewrite A7. cbn [existsb tms set_wheel set_tms]. destruct (Z.eqb_spec x id) as [->|NE]; cbn [orb].
        * rewrite upd_eq. now destruct (existsb _ _).
        * now rewrite upd_ne.
      + intros i. rewrite A8. cbn [wheel set_wheel set_tms]. unfold unlink. induction (wheel s0 i) as [|y m IHm]; [reflexivity|].
        cbn [filter existsb]. destruct (Z.eqb_spec y id) as [->|NE]; cbn [negb orb filter].
        * exact IHm.
        * rewrite IHm. reflexivity. }
  destruct (G (cleanup s) s Wcnd) as (s' & A1 & A2 & A3 & A4 & A5 & A6 & A7 & A8).
  { intros x Hx. now apply Wcl. }
  assert (Ec : forall id t, tms s id = Some t -> existsb (Z.eqb id) (cleanup s) = trem t).
  { intros id t E. destruct (existsb (Z.eqb id) (cleanup s)) eqn:B.
    - apply existsb_exists in B. destruct B as (x & Hx & B). apply Z.eqb_eq in B. subst x. apply Wcl in Hx. destruct Hx as (u & Eu & R). congruence.
    - destruct (trem t) eqn:R; [|reflexivity]. exfalso. assert (In id (cleanup s)) by (apply Wcl; eauto).
      assert (existsb (Z.eqb id) (cleanup s) = true) by (apply existsb_exists; exists id; split; [assumption|apply Z.eqb_refl]). congruence. }
  assert (Et : forall id, tms s' id = match tms s id with Some t => if trem t then None else Some t | None => None end).
  { intros id. rewrite A7. destruct (tms s id) as [t|] eqn:E.
    - rewrite (Ec id t E). reflexivity.
    - now destruct (existsb _ _). }
  assert (Iw : forall i x, In x (wheel s' i) <-> In x (wheel s i) /\ tms s' x <> None).
  { intros i x. rewrite A8, filter_In, A7. split.
    - intros (P & Q). split; [exact P|]. destruct (existsb (Z.eqb x) (cleanup s)); [discriminate|]. destruct (Win _ _ P) as (t & E & _). congruence.
    - intros (P & Q). split; [exact P|]. destruct (existsb (Z.eqb x) (cleanup s)); [congruence|reflexivity]. }
  assert (Es : forall id t, tms s' id = Some t -> tms s id = Some t /\ trem t = false).
  { intros id t. rewrite Et. destruct (tms s id) as [u|]; [|discriminate]. destruct (trem u) eqn:R; [discriminate|]. intros E. apply Some_inj in E. subst. auto. }
  exists s'. split; [exact A1|]. split; [|auto 10].
  constructor.
  - intros i x Hx. apply Iw in Hx. destruct Hx as (Hx & NN). destruct (Win _ _ Hx) as (t & E & P). exists t. split; [|exact P].
    destruct (tms s' x) as [u|] eqn:Eu; [|congruence]. apply Es in Eu. destruct Eu. congruence.
  - intros id t E. destruct (Es _ _ E) as (E' & _). destruct (Won _ _ E') as (i & Hi). exists i. apply Iw. split; [exact Hi|congruence].
  - intros i j id H1 H2. apply Iw in H1. apply Iw in H2. eapply Wone; [apply H1|apply H2].
  - intros i. rewrite A8. apply NoDup_filter, Wnd.
  - intros id t E. rewrite A6. eapply Wid, Es, E.
  - intros id t E. eapply Wt, Es, E.
  - intros id. rewrite A2. split; [intros []|]. intros (t & E & R). apply Es in E. destruct E. congruence.
  - rewrite A2. constructor.
  - rewrite A3. exact Wnow.
Qed.

(** ** Deadlines in unbounded time *)
Definition clk (s s' : tstate) : Prop :=
  now_times s' = now_times s /\
  forall id t', tms s' id = Some t' -> trem t' = false ->
    (exists t, tms s id = Some t /\ trem t = false /\ tclock t = tclock t') \/
    (exists d, tclock t' = u32 (now_times s + d) /\ 1 <= d < 2147483648).

Lemma clk_refl s : clk s s.
Proof. split; [reflexivity|]. intros id t E R. left. exists t. auto. Qed.
Lemma clk_same s s' : now_times s' = now_times s -> tms s' = tms s -> clk s s'.
Proof. intros N T. split; [exact N|]. intros id t E R. left. exists t. rewrite T in E. auto. Qed.
Lemma clk_trans a b c : clk a b -> clk b c -> clk a c.
Proof.
  intros (N1 & A) (N2 & B). split; [congruence|]. intros id t E R.
  destruct (B id t E R) as [(u & Eu & Ru & Cu)|Q]; [|right; rewrite <- N1; exact Q].
  destruct (A id u Eu Ru) as [(v & Ev & Rv & Cv)|(d & Cd & D)]; [left; exists v; intuition congruence|right; exists d; split; [congruence|exact D]].
Qed.

Lemma clk_start s cur r j p c : wf cur s -> 1 <= r < 2147483648 -> 0 <= j < 256 -> clk s (start_timer rmax rnd s r j p c).
Proof.
  intros W Hr Hj. split; [reflexivity|]. intros id t E R. unfold start_timer in E. cbv zeta in E. cbn [tms] in E.
  destruct (Z.eq_dec id (nextid s)) as [->|NE].
  - rewrite upd_eq in E. apply Some_inj in E. subst t. right. cbn [tclock].
    destruct (calc_future (now_times s) r j (rnd (rcount s)) (w_now _ _ W) Hr Hj (Hrnd _)) as (d & D1 & D2 & D3). exists d. split; [exact D1|lia].
  - rewrite upd_ne in E by exact NE. left. exists t. auto.
Qed.
Lemma clk_change s cur id r j p s' : wf cur s -> 1 <= r < 2147483648 -> 0 <= j < 256 -> change_timer rmax s id r j p = Some s' -> clk s s'.
Proof.
  intros W Hr Hj H. destruct (change_ok cur s id r j p s' W Hr Hj H) as (_ & B & C & (u & Eu & Eu') & _).
  split; [apply (r_now _ _ B)|]. intros x t E R. destruct (Z.eq_dec x id) as [->|NE].
  - rewrite Eu' in E. apply Some_inj in E. subst t. right. cbn [tclock].
    destruct (w_t _ _ W _ _ Eu) as (_ & _ & _ & T4).
    destruct (calc_future (now_times s) r j (trnd u) (w_now _ _ W) Hr Hj T4) as (d & D1 & D2 & D3). exists d. split; [exact D1|lia].
  - rewrite C in E by exact NE. left. exists t. auto.
Qed.
Lemma clk_stop s cur id s' : wf cur s -> stop_timer s id = Some s' -> clk s s'.
Proof.
  intros W H. destruct (stop_ok cur s id s' W H) as (_ & B & C & (u & Eu & Eu') & _).
  split; [apply (r_now _ _ B)|]. intros x t E R. destruct (Z.eq_dec x id) as [->|NE].
  - rewrite Eu' in E. apply Some_inj in E. subst t. discriminate.
  - rewrite C in E by exact NE. left. exists t. auto.
Qed.
Lemma clk_ops l : forall s cur s', wf cur s -> Forall op_ok l -> do_ops rmax rnd s l = Some s' -> clk s s'.
Proof.
  induction l as [|o l IH]; intros s cur s' W F H; cbn [do_ops] in H.
  - apply Some_inj in H. subst. apply clk_refl.
  - inversion F as [|? ? F1 F2]; subst. destruct (do_op rmax rnd s o) as [s1|] eqn:E; [|discriminate].
    destruct (do_op_ok cur s o s1 W F1 E) as (W1 & _). eapply clk_trans; [|eapply IH; eauto].
    destruct o; cbn [do_op op_ok] in *.
    + apply Some_inj in E. subst s1. eapply clk_start; [exact W|tauto|tauto].
    + eapply clk_change; [exact W| | |exact E]; tauto.
    + eapply clk_stop; eauto.
Qed.
Lemma clk_after s cur id s' : wf cur s -> after_cb rmax rnd s id = Some s' -> clk s s'.
Proof.
  intros W H. destruct (after_cb_ok cur s id s' W H) as (_ & B & NA & C & RA & _).
  unfold after_cb in H. destruct (tms s id) as [t|] eqn:Et; [|discriminate].
  destruct (trun t) eqn:Er.
  - specialize (RA t eq_refl Er). split; [apply (r_now _ _ B)|]. intros x u E R. destruct (Z.eq_dec x id) as [->|NE].
    + destruct RA as (t' & E' & P1 & P2 & P3 & P4). rewrite E' in E. apply Some_inj in E. subst u.
      destruct (tperiod t =? 0); [destruct P4; congruence|]. destruct P4 as (_ & _ & d & D1 & D2 & D3).
      right. exists d. split; [exact D1|]. destruct (w_t _ _ W _ _ Et) as (_ & T2 & _). lia.
    + rewrite C in E by exact NE. left. exists u. auto.
  - apply Some_inj in H. subst. apply clk_refl.
Qed.
Lemma clk_one s slot id rest s' : wf slot s -> 0 <= slot < 1024 -> wheel s slot = id :: rest -> (forall x, ~ AD s x TMP) ->
  walk_one rmax rnd cb s slot id = Some s' -> clk s s'.
Proof.
  intros W Hs Hw NT H. unfold walk_one in H. cbv zeta in H.
  set (s1 := set_wheel s (add_front TMP id (unlink id (wheel s)))) in *.
  destruct (tms s1 id) as [t|] eqn:Et; [|discriminate].
  assert (C1 : clk s s1) by (apply clk_same; reflexivity).
  destruct (trem t); [apply Some_inj in H; now subst|].
  destruct (isTimedOut (now_times s1) (tclock t)) eqn:D; [|apply Some_inj in H; now subst].
  set (s2 := mkT (tms s1) (wheel s1) (nextid s1) (cleanup s1) (now_times s1) (last_run s1) (rcount s1) (id :: fired s1)) in *.
  destruct (do_ops rmax rnd s2 (cb (tctx t) s2)) as [s3|] eqn:E3; [|discriminate].
  assert (W2 : wf slot s2).
  { pose proof W as [Win Won Wone Wnd Wid Wt Wcl Wcnd Wnow].
    destruct (Win slot id) as (u & Eu & Pu); [rewrite Hw; now left|].
    assert (Sl : slot_of (tclock u) = slot) by (destruct Pu as [Pu|(Pu & Q)]; [auto|unfold TMP in Pu; lia]).
    constructor; unfold s2, s1; cbn [tms wheel nextid cleanup now_times set_wheel]; auto.
    - intros i x Hx. apply in_front in Hx. rewrite in_unlink in Hx. destruct Hx as [(Hx & NE)|(-> & ->)]; [auto|].
      exists u. split; [exact Eu|]. right. auto.
    - intros x v Hx. destruct (Z.eq_dec x id) as [->|NE].
      + exists TMP. apply in_front. right. auto.
      + destruct (Won _ _ Hx) as (i & Hi). exists i. apply in_front. left. apply in_unlink. auto.
    - intros i k x H1 H2. apply in_front in H1. apply in_front in H2. rewrite in_unlink in H1, H2.
      destruct H1 as [(H1 & N1)|(-> & ->)], H2 as [(H2 & N2)|(-> & E)]; subst; auto; try tauto. eapply Wone; eauto.
    - intros i. unfold add_front, upd. destruct (i =? TMP) eqn:E.
      + apply Z.eqb_eq in E. subst i. constructor; [rewrite in_unlink; tauto|apply nodup_unlink, Wnd].
      + apply nodup_unlink, Wnd. }
  destruct (do_ops_ok _ slot s2 s3 W2 (Hcb _ _) E3) as (W3 & _).
  apply clk_trans with s2; [apply clk_same; reflexivity|].
  apply clk_trans with s3; [eapply clk_ops; [exact W2|apply Hcb|exact E3]|].
  eapply clk_after; eauto.
Qed.
Lemma clk_slot slot : 0 <= slot < 1024 -> forall fuel s s', wf slot s -> (forall x, ~ AD s x TMP) ->
  walk_slot rmax rnd cb fuel s slot = Ok s' -> clk s s'.
Proof.
  intros Hs. induction fuel as [|fuel IH]; intros s s' W NT H; cbn [walk_slot] in H.
  all: destruct (wheel s slot) as [|id rest] eqn:Hw.
  1,3: apply (f_equal (fun r => match r with Ok a => Some a | _ => None end)) in H; cbv beta iota in H; apply Some_inj in H; subst s';
       apply clk_same; reflexivity.
  - discriminate.
  - destruct (walk_one rmax rnd cb s slot id) as [s1|] eqn:E1; [|discriminate].
    destruct (walk_one_ok s slot id rest s1 W Hs Hw NT E1) as (W1 & O1 & NT1 & _).
    eapply clk_trans; [eapply clk_one; eauto|]. eapply IH; eauto.
Qed.
Lemma clk_slots : forall n fuel s lr s', wf 0 s -> wheel s TMP = [] ->
  walk_slots rmax rnd cb n fuel s lr = Ok s' -> clk s s'.
Proof.
  induction n as [|n IH]; intros fuel s lr s' W T H; cbn [walk_slots] in H.
  - injection H as <-. apply clk_refl.
  - destruct (Z.leb_spec lr (now_times s)) as [Le|Gt]; [|injection H as <-; apply clk_refl].
    destruct (walk_slot rmax rnd cb fuel s (slot_of lr)) as [s1| |] eqn:E1; try discriminate.
    assert (NT : forall x, ~ AD s x TMP) by (intros x (_ & Q); rewrite T in Q; destruct Q).
    destruct (walk_slot_ok (slot_of lr) (slot_range lr) fuel s s1 (wf_cur 0 _ s W T) NT E1) as (W1 & K1 & T1 & A1).
    eapply clk_trans; [eapply clk_slot; [apply slot_range| | |exact E1]|].
    + apply (wf_cur 0); auto.
    + exact NT.
    + eapply IH; [apply (wf_cur (slot_of lr)); eauto|exact T1|exact H].
Qed.

Record TI (tl tn : Z) (s : tstate) : Prop := {
  ti_lr : last_run s = u32 tl; ti_now : now_times s = u32 tn; ti_le : tl <= tn;
  ti_d : forall id t, tms s id = Some t -> trem t = false -> exists D, tclock t = u32 D /\ tl <= D < tn + 2147483648 }.

Lemma due_plain tn D : D < tn + 2147483648 -> tn - 2147483648 < D -> isTimedOut (u32 tn) (u32 D) = (D <=? tn).
Proof.
  intros A B. unfold isTimedOut, u32. destruct (Z.leb_spec D tn); destruct (D mod 4294967296 >? tn mod 4294967296) eqn:E; lia.
Qed.

Lemma clk_ti tl tn s s' : TI tl tn s -> clk s s' -> last_run s' = last_run s -> TI tl tn s'.
Proof.
  intros [A B C D] (N & Q) L. constructor; try congruence.
  intros id t E R. destruct (Q id t E R) as [(u & Eu & Ru & Cu)|(d & Cd & Hd)].
  - rewrite <- Cu. eapply D; eauto.
  - exists (tn + d). split; [|lia]. rewrite Cd, B. unfold u32. now rewrite Z.add_mod_idemp_l by lia.
Qed.

(** ** A walk and the cleanup after it *)
Definition good (s : tstate) : Prop := wf 0 s /\ wheel s TMP = [] /\ 0 <= last_run s < 4294967296.

Lemma rel_tmp_nil s s' : rel s s' -> wheel s TMP = [] -> wheel s' TMP = [].
Proof. intros R T. destruct (wheel s' TMP) as [|x l] eqn:E; [reflexivity|]. exfalso. assert (In x (wheel s TMP)) by (apply (r_tmp _ _ R); rewrite E; now left). rewrite T in H. destruct H. Qed.

Lemma new_log_wf s : wf 0 s -> wf 0 (new_log s).
Proof. intros []. constructor; auto. Qed.

Lemma walk_ok fuel s s' : good s -> tstep rmax rnd cb fuel s TWalk = Ok s' ->
  good s' /\ now_times s' = now_times s /\ last_run s' = now_times s
  /\ (forall id, In id (fired s') -> armed_due s id) /\ NoDup (fired s')
  /\ (forall id t, untouched cb id -> tms s id = Some t ->
        visits (last_run s) (now_times s) 1024 (slot_of (tclock t)) \/ ~ armed_due s id ->
        walk_outcome (now_times s) t (In id (fired s')) (tms s' id))
  /\ (exists s1, clk s s1 /\ (forall id t, tms s' id = Some t -> tms s1 id = Some t /\ trem t = false)
       /\ (forall x i, AD s1 x i -> AD s x i /\ ~ visits (last_run s) (now_times s) 1024 i) /\ wf 0 s1).
Proof.
  intros (W & T & L) H. cbn [tstep] in H. unfold walk_timers in H.
  destruct (walk_slots rmax rnd cb 1024 fuel (new_log s) (last_run (new_log s))) as [s1| |] eqn:E1; try discriminate.
  destruct (walk_slots_ok 1024 fuel (new_log s) (last_run (new_log s)) s1 (new_log_wf s W) T L E1) as (W1 & K1 & T1 & A1).
  pose proof (clk_slots 1024 fuel (new_log s) (last_run (new_log s)) s1 (new_log_wf s W) T E1) as C1.
  set (s2 := mkT (tms s1) (wheel s1) (nextid s1) (cleanup s1) (now_times s1) (now_times s1) (rcount s1) (fired s1)) in *.
  assert (W2 : wf 0 s2) by (destruct W1; constructor; auto).
  destruct (cleanup_ok s2 W2) as (s3 & B1 & B2 & B3 & B4 & B5 & B6 & B7).
  rewrite B1 in H. apply (f_equal (fun r => match r with Ok a => Some a | _ => None end)) in H; cbv beta iota in H; apply Some_inj in H; subst s3.
  destruct K1 as [K1 K2 K3 (l & K4 & K5 & K6 & K7) K8 K9].
  cbn [new_log fired] in K4. rewrite app_nil_r in K4.
  assert (F' : fired s' = l) by (rewrite B5; exact K4).
  assert (N' : now_times s' = now_times s) by (rewrite B3; exact K1).
  assert (L' : last_run s' = now_times s) by (rewrite B4; exact K1).
  split; [|split; [exact N'|split; [exact L'|split; [|split; [|split]]]]].
  - split; [exact B2|]. split; [rewrite B6; change (wheel s2 TMP) with (wheel s1 TMP); rewrite T1; reflexivity|].
    rewrite L'. apply (w_now _ _ W).
  - intros id Hid. rewrite F' in Hid. apply (K5 id Hid).
  - rewrite F'. exact K6.
  - intros id t U Et V. rewrite F'. 
    assert (Al : tms (new_log s) id <> None) by (change (tms (new_log s) id) with (tms s id); congruence).
    pose proof (B7 id) as B7i. change (tms s2 id) with (tms s1 id) in B7i.
    unfold walk_outcome.
    destruct (K7 id U Al) as [(NI & E)|(I & u & Eu & R)].
    + change (tms (new_log s) id) with (tms s id) in E. rewrite E, Et in B7i.
      destruct (trem t) eqn:Er; [split; [exact NI|exact B7i]|].
      destruct (isTimedOut (now_times s) (tclock t)) eqn:Ed; [|split; [exact NI|exact B7i]].
      exfalso.
      assert (ADs : armed_due s id) by (exists t; auto).
      assert (AD1 : armed_due s1 id) by (exists t; rewrite E, K1; auto).
      destruct (w_on _ _ W1 id t) as (i & Hi); [congruence|].
      destruct (A1 id i (conj AD1 Hi)) as (_ & NV). destruct V as [V|V]; [|tauto].
      apply NV. destruct (w_in _ _ W1 i id Hi) as (v & Ev & P). assert (v = t) by congruence. subst v.
      destruct P as [->|(-> & _)]; [exact V|]. rewrite T1 in Hi. destruct Hi.
    + change (tms (new_log s) id) with (tms s id) in Eu. assert (u = t) by congruence. subst u.
      destruct (K5 id I) as ((v & Ev & Rv & Dv) & _). change (tms (new_log s) id) with (tms s id) in Ev. assert (v = t) by congruence. subst v.
      change (now_times (new_log s)) with (now_times s) in Dv, R. rewrite Rv, Dv. split; [exact I|].
      destruct R as (t' & E' & P1 & P2 & P3 & P4). rewrite E' in B7i.
      destruct (tperiod t =? 0).
      * destruct P4 as (_ & Q). rewrite Q in B7i. exact B7i.
      * destruct P4 as (Q1 & Q2 & d & D1 & D2 & D3). rewrite Q2 in B7i. exists t', d. auto 12.
  - exists s1. split; [exact C1|]. split; [|split; [exact A1|exact W1]].
    intros id t E. rewrite B7 in E. change (tms s2 id) with (tms s1 id) in E. destruct (tms s1 id) as [u|] eqn:Eu; [|discriminate].
    destruct (trem u) eqn:R; [discriminate|]. apply Some_inj in E. subst u. auto.
Qed.

Lemma due_visited tl tn s id t : good s -> TI tl tn s -> no_wrap tl tn -> tms s id = Some t -> armed_due s id ->
  visits (last_run s) (now_times s) 1024 (slot_of (tclock t)).
Proof.
  intros _ [A B C D] (N1 & N2) E (u & Eu & Ru & Du). assert (u = t) by congruence. subst u.
  destruct (D id t E Ru) as (dl & E1 & E2). rewrite B, E1 in Du. rewrite due_plain in Du by lia. apply Z.leb_le in Du.
  exists ((dl - tl) mod 1024). split; [lia|]. rewrite A, B, E1. 
  assert (Q : u32 tl + (dl - tl) mod 1024 <= u32 tn) by (unfold u32; lia).
  split; [exact Q|]. rewrite !slot_mod by (unfold u32; lia). unfold u32. lia.
Qed.

Lemma time_good s t : good s -> good (mkT (tms s) (wheel s) (nextid s) (cleanup s) (u32 t) (last_run s) (rcount s) (fired s)).
Proof. intros (W & T & L). split; [|split; [exact T|exact L]]. destruct W. constructor; auto. cbn [now_times]. unfold u32. lia. Qed.

Lemma calls_good s l s' : good s -> Forall op_ok l -> do_ops rmax rnd s l = Some s' -> good s'.
Proof.
  intros (W & T & L) F H. destruct (do_ops_ok l 0 s s' W F H) as (W' & R & _). split; [exact W'|].
  split; [eapply rel_tmp_nil; eauto|]. rewrite (r_lr _ _ R). exact L.
Qed.

Lemma res_inj {A} (a b : A) : Ok a = Ok b -> a = b.
Proof. congruence. Qed.

Lemma reach_good wok fuel : forall evs tl tn s s', good s -> events_ok wok tl tn evs ->
  trun_events rmax rnd cb fuel s evs = Ok s' -> good s'.
Proof.
  induction evs as [|e evs IH]; intros tl tn s s' G E H; cbn [trun_events] in H.
  - apply res_inj in H. now subst.
  - destruct (tstep rmax rnd cb fuel s e) as [s1| |] eqn:E1; try discriminate.
    destruct e as [t|l|]; cbn [events_ok] in E; destruct E as (E & E2); (eapply IH; [|exact E2|exact H]).
    + cbn [tstep] in E1. apply res_inj in E1. subst s1. now apply time_good.
    + cbn [tstep] in E1. destruct (do_ops rmax rnd s l) as [s2|] eqn:E3; [|discriminate]. apply res_inj in E1. subst s2. eapply calls_good; eauto.
    + destruct (walk_ok fuel s s1 G E1) as (Q & _). exact Q.
Qed.

Lemma reach_ti fuel : forall evs tl tn s s', good s -> TI tl tn s -> events_ok no_wrap tl tn evs ->
  trun_events rmax rnd cb fuel s evs = Ok s' -> exists tl' tn', TI tl' tn' s'
   /\ (forall evs2, events_ok no_wrap tl tn (evs ++ evs2) -> events_ok no_wrap tl' tn' evs2).
Proof.
  induction evs as [|e evs IH]; intros tl tn s s' G I E H; cbn [trun_events] in H.
  - apply res_inj in H. subst. exists tl, tn. auto.
  - destruct (tstep rmax rnd cb fuel s e) as [s1| |] eqn:E1; try discriminate.
    destruct e as [t|l|]; cbn [events_ok] in E; destruct E as (E & E2).
    + cbn [tstep] in E1. apply res_inj in E1. subst s1.
      assert (I1 : TI tl t (mkT (tms s) (wheel s) (nextid s) (cleanup s) (u32 t) (last_run s) (rcount s) (fired s))).
      { destruct I as [A B C D]. constructor; cbn [last_run now_times tms]; auto; [lia|]. intros id u Eu Ru.
        destruct (D id u Eu Ru) as (d & D1 & D2). exists d. split; [exact D1|lia]. }
      destruct (IH tl t _ s' (time_good s t G) I1 E2 H) as (tl' & tn' & P & Q).
      exists tl', tn'. split; [exact P|]. intros evs2. cbn [app events_ok]. intros (_ & R). auto.
    + cbn [tstep] in E1. destruct (do_ops rmax rnd s l) as [s2|] eqn:E3; [|discriminate]. apply res_inj in E1. subst s2.
      destruct G as (W & T & L). destruct (do_ops_ok l 0 s s1 W E E3) as (_ & R & _).
      assert (I1 : TI tl tn s1) by (eapply clk_ti; [exact I|eapply clk_ops; eauto|apply (r_lr _ _ R)]).
      destruct (IH tl tn s1 s' (calls_good s l s1 (conj W (conj T L)) E E3) I1 E2 H) as (tl' & tn' & P & Q).
      exists tl', tn'. split; [exact P|]. intros evs2. cbn [app events_ok]. intros (_ & Q2). auto.
    + destruct (walk_ok fuel s s1 G E1) as (G1 & N1 & L1 & _ & _ & _ & (s2 & C2 & Sub & A2 & W2)).
      assert (I1 : TI tn tn s1).
      { pose proof I as [A B C D]. constructor; try congruence; [lia|].
        intros id t Et Rt. destruct (Sub id t Et) as (E4 & _).
        assert (I2 : TI tl tn (mkT (tms s2) (wheel s2) (nextid s2) (cleanup s2) (now_times s2) (last_run s) (rcount s2) (fired s2))).
        { eapply clk_ti; [exact I| |reflexivity]. destruct C2 as (C2 & C3). split; [exact C2|exact C3]. }
        destruct (ti_d _ _ _ I2 id t E4 Rt) as (d & D1 & D2). exists d. split; [exact D1|]. split; [|lia].
        destruct (Z_lt_le_dec d tn) as [Lt|]; [exfalso|lia].
        destruct E as (Ea & Eb).
        assert (AD2 : armed_due s2 id).
        { exists t. split; [exact E4|]. split; [exact Rt|]. destruct C2 as (C2 & _). rewrite C2, B, D1. rewrite due_plain by lia. lia. }
        destruct (w_on _ _ W2 id t E4) as (i & Hi). destruct (A2 id i (conj AD2 Hi)) as (_ & NV).
        destruct (w_in _ _ W2 i id Hi) as (v & Ev & P). assert (v = t) by congruence. subst v.
        apply NV.
        destruct (A2 id i (conj AD2 Hi)) as ((ADs & Is) & _).
        destruct G as (W & T & L). destruct (w_in _ _ W i id Is) as (u & Eu & Pu).
        destruct Pu as [Pu|(Pu & _)]; [|subst i; rewrite T in Is; destruct Is].
        subst i. eapply due_visited; eauto. split; [exact W|split; [exact T|exact L]]. split; auto. }
      destruct (IH tn tn s1 s' G1 I1 E2 H) as (tl' & tn' & P & Q).
      exists tl', tn'. split; [exact P|]. intros evs2. cbn [app events_ok]. intros (_ & Q2). auto.
Qed.

Lemma init_good t0 : good (timers_init t0).
Proof.
  split; [|split; [reflexivity|cbn; unfold u32; lia]]. constructor; cbn [timers_init tms wheel nextid cleanup now_times]; try discriminate.
  - intros i id [].
  - intros i j id [].
  - intros i; constructor.
  - intros id. cbn [In]. split; [tauto|]. intros (t & E & _). discriminate.
  - constructor.
  - unfold u32. lia.
Qed.
Lemma init_ti t0 : TI t0 t0 (timers_init t0).
Proof. constructor; cbn; try reflexivity; try lia. discriminate. Qed.

Lemma c11_exact : forall fuel t0 evs s s',
  events_ok no_wrap t0 t0 (evs ++ [TWalk]) ->
  trun_events rmax rnd cb fuel (timers_init t0) evs = Ok s ->
  tstep rmax rnd cb fuel s TWalk = Ok s' ->
  (forall id, In id (fired s') -> armed_due s id) /\ NoDup (fired s') /\
  (forall id t, untouched cb id -> tms s id = Some t -> walk_outcome (now_times s) t (In id (fired s')) (tms s' id)).
Proof.
  intros fuel t0 evs s s' E R H.
  assert (E1 : events_ok no_wrap t0 t0 evs).
  { revert E. clear. assert (G : forall a b, events_ok no_wrap a b (evs ++ [TWalk]) -> events_ok no_wrap a b evs).
    { induction evs as [|e evs IH]; intros a b; cbn [app events_ok]; [auto|]. destruct e; intros (P & Q); split; eauto. }
    apply G. }
  pose proof (reach_good no_wrap fuel evs t0 t0 _ s (init_good t0) E1 R) as G.
  destruct (reach_ti fuel evs t0 t0 _ s (init_good t0) (init_ti t0) E1 R) as (tl & tn & I & K).
  specialize (K [TWalk] E). cbn [events_ok] in K. destruct K as (K & _).
  destruct (walk_ok fuel s s' G H) as (_ & _ & _ & A & B & C & _).
  split; [exact A|]. split; [exact B|]. intros id t U Et. apply C; [exact U|exact Et|].
  destruct (trem t) eqn:Rt; [right; intros (u & Eu & Ru & _); congruence|].
  destruct (isTimedOut (now_times s) (tclock t)) eqn:Dt; [left|right; intros (u & Eu & Ru & Du); assert (u = t) by congruence; subst; congruence].
  eapply due_visited; eauto. exists t; auto.
Qed.

Lemma c11_visited : forall fuel t0 evs s s',
  events_ok any_walk t0 t0 evs ->
  trun_events rmax rnd cb fuel (timers_init t0) evs = Ok s ->
  tstep rmax rnd cb fuel s TWalk = Ok s' ->
  (forall id, In id (fired s') -> armed_due s id) /\ NoDup (fired s') /\
  (forall id t, untouched cb id -> tms s id = Some t -> last_run s + 1023 <= now_times s ->
     walk_outcome (now_times s) t (In id (fired s')) (tms s' id)).
Proof.
  intros fuel t0 evs s s' E1 R H.
  pose proof (reach_good any_walk fuel evs t0 t0 _ s (init_good t0) E1 R) as G.
  destruct (walk_ok fuel s s' G H) as (_ & _ & _ & A & B & C & _).
  split; [exact A|]. split; [exact B|]. intros id t U Et Full. apply C; [exact U|exact Et|]. left.
  destruct G as (W & T & L). exists ((slot_of (tclock t) - last_run s) mod 1024).
  pose proof (slot_range (tclock t)). split; [lia|]. split; [lia|]. rewrite (slot_mod (last_run s + _)) by lia. lia.
Qed.

(** ** Termination *)
Definition adb (s : tstate) (id : Z) : bool :=
  match tms s id with Some t => negb (trem t) && isTimedOut (now_times s) (tclock t) | None => false end.
Lemma adb_spec s id : adb s id = true <-> armed_due s id.
Proof.
  unfold adb, armed_due. destruct (tms s id) as [t|]; [|split; [discriminate|intros (t & E & _); discriminate]].
  split.
  - intros H. apply andb_true_iff in H. exists t. destruct (trem t); [destruct H; discriminate|]. tauto.
  - intros (u & E & R & D). apply Some_inj in E. subst u. now rewrite R, D.
Qed.
Definition dl (s : tstate) (slot : Z) := filter (adb s) (wheel s slot).

Lemma dl_shrinks s slot id rest s' : wf slot s -> wf slot s' -> wheel s slot = id :: rest -> wone s s' id ->
  (length (dl s' slot) <= length (dl s slot))%nat /\ (armed_due s id -> (length (dl s' slot) < length (dl s slot))%nat).
Proof.
  intros W W' Hw O.
  assert (ND : NoDup (dl s' slot)) by (apply NoDup_filter, (w_nd _ _ W')).
  assert (Inc : forall x, In x (dl s' slot) -> x <> id /\ In x (dl s slot)).
  { intros x Hx. apply filter_In in Hx. destruct Hx as (H1 & H2). apply adb_spec in H2. destruct (o_ad _ _ _ O x H2) as (N & A & P).
    split; [exact N|]. apply filter_In. split; [auto|now apply adb_spec]. }
  split.
  - apply NoDup_incl_length; [exact ND|]. intros x Hx. now apply Inc.
  - intros A. assert (I : In id (dl s slot)).
    { apply filter_In. split; [rewrite Hw; now left|now apply adb_spec]. }
    assert (L : (length (id :: dl s' slot) <= length (dl s slot))%nat).
    { apply NoDup_incl_length.
      - constructor; [|exact ND]. intros Q. apply Inc in Q. tauto.
      - intros x [<-|Hx]; [exact I|now apply Inc]. }
    cbn [length] in L. lia.
Qed.

Lemma slot_terminates slot : 0 <= slot < 1024 -> forall s, wf slot s -> (forall x, ~ AD s x TMP) ->
  exists fuel0 r, r <> Fuel /\ forall fuel, (fuel0 <= fuel)%nat -> walk_slot rmax rnd cb fuel s slot = r.
Proof.
  intros Hs.
  assert (G : forall n m s, wf slot s -> (forall x, ~ AD s x TMP) -> (length (dl s slot) <= n)%nat -> (length (wheel s slot) <= m)%nat ->
    exists fuel0 r, r <> Fuel /\ forall fuel, (fuel0 <= fuel)%nat -> walk_slot rmax rnd cb fuel s slot = r).
  { induction n as [n IHn] using lt_wf_ind. induction m as [m IHm] using lt_wf_ind. intros s W NT Ln Lm.
    destruct (wheel s slot) as [|id rest] eqn:Hw.
    - exists 0%nat. eexists. split; [|intros fuel _; destruct fuel; cbn [walk_slot]; rewrite Hw; reflexivity]. discriminate.
    - destruct (walk_one rmax rnd cb s slot id) as [s1|] eqn:E1.
      + destruct (walk_one_ok s slot id rest s1 W Hs Hw NT E1) as (W1 & O1 & NT1 & Cs).
        destruct (dl_shrinks s slot id rest s1 W W1 Hw O1) as (D1 & D2).
        assert (X : exists fuel0 r, r <> Fuel /\ forall fuel, (fuel0 <= fuel)%nat -> walk_slot rmax rnd cb fuel s1 slot = r).
        { destruct (o_fired _ _ _ O1) as [(F & NA)|(F & NA)].
          - destruct Cs as [(_ & Wr)|F']; [|exfalso; rewrite F in F'; apply (f_equal (@length Z)) in F'; cbn [length] in F'; lia].
            cbn [length] in Lm. apply (IHm (length rest)) with (s := s1); [lia|exact W1|exact NT1|lia|rewrite Wr; lia].
          - specialize (D2 NA). apply (IHn (length (dl s1 slot))) with (m := length (wheel s1 slot)) (s := s1); auto; lia. }
        destruct X as (f0 & r & Nr & X). exists (S f0), r. split; [exact Nr|]. intros fuel Hf. destruct fuel as [|fuel]; [lia|].
        cbn [walk_slot]. rewrite Hw, E1. apply X. lia.
      + exists 1%nat, UB. split; [discriminate|]. intros fuel Hf. destruct fuel as [|fuel]; [lia|]. cbn [walk_slot]. now rewrite Hw, E1. }
  intros s W NT. eapply G; eauto.
Qed.

Lemma slots_terminate : forall n s lr, wf 0 s -> wheel s TMP = [] ->
  exists fuel0 r, r <> Fuel /\ forall fuel, (fuel0 <= fuel)%nat -> walk_slots rmax rnd cb n fuel s lr = r.
Proof.
  induction n as [|n IH]; intros s lr W T; cbn [walk_slots].
  - exists 0%nat, (Ok s). split; [discriminate|reflexivity].
  - destruct (Z.leb_spec lr (now_times s)) as [Le|Gt]; [|exists 0%nat, (Ok s); split; [discriminate|reflexivity]].
    assert (NT : forall x, ~ AD s x TMP) by (intros x (_ & Q); rewrite T in Q; destruct Q).
    destruct (slot_terminates (slot_of lr) (slot_range lr) s (wf_cur 0 _ s W T) NT) as (f0 & r & Nr & X).
    destruct r as [s1| |].
    + destruct (walk_slot_ok (slot_of lr) (slot_range lr) f0 s s1 (wf_cur 0 _ s W T) NT (X f0 (le_n _))) as (W1 & _ & T1 & _).
      destruct (IH s1 (u32 (lr + 1)) (wf_cur _ 0 s1 W1 T1) T1) as (f1 & r & Nr1 & X1).
      exists (Nat.max f0 f1), r. split; [exact Nr1|]. intros fuel Hf. rewrite X by lia. apply X1. lia.
    + exists f0, UB. split; [discriminate|]. intros fuel Hf. now rewrite X.
    + congruence.
Qed.

Lemma tstep_terminates s e : good s -> exists fuel0 r, r <> Fuel /\ forall fuel, (fuel0 <= fuel)%nat -> tstep rmax rnd cb fuel s e = r.
Proof.
  intros (W & T & L). destruct e as [t|l|].
  - exists 0%nat, (tstep rmax rnd cb 0 s (TTime t)). split; [discriminate|intros fuel _; reflexivity].
  - exists 0%nat, (tstep rmax rnd cb 0 s (TCalls l)). split; [|intros fuel _; reflexivity]. cbn [tstep]. destruct (do_ops rmax rnd s l); discriminate.
  - destruct (slots_terminate 1024 (new_log s) (last_run (new_log s)) (new_log_wf s W) T) as (f0 & r & Nr & X).
    exists f0. eexists. split; [|intros fuel Hf; cbn [tstep]; unfold walk_timers; rewrite X by exact Hf; reflexivity].
    destruct r as [s1| |]; [|discriminate|congruence]. destruct (walk_timers_cleanup _); discriminate.
Qed.

Lemma c11_terminates : forall evs t0, events_ok any_walk t0 t0 evs ->
  exists fuel0 r, r <> Fuel /\ forall fuel, (fuel0 <= fuel)%nat -> trun_events rmax rnd cb fuel (timers_init t0) evs = r.
Proof.
  assert (G : forall evs tl tn s, good s -> events_ok any_walk tl tn evs ->
    exists fuel0 r, r <> Fuel /\ forall fuel, (fuel0 <= fuel)%nat -> trun_events rmax rnd cb fuel s evs = r).
  { induction evs as [|e evs IH]; intros tl tn s G E; cbn [trun_events].
    - exists 0%nat, (Ok s). split; [discriminate|reflexivity].
    - destruct (tstep_terminates s e G) as (f0 & r & Nr & X). destruct r as [s1| |].
      + assert (G1 : good s1).
        { eapply (reach_good any_walk f0 [e] tl tn s s1 G).
          - destruct e; cbn [events_ok] in *; tauto.
          - cbn [trun_events]. rewrite X by lia. reflexivity. }
        assert (E2 : exists tl' tn', events_ok any_walk tl' tn' evs) by (destruct e; cbn [events_ok] in E; destruct E; eauto).
        destruct E2 as (tl' & tn' & E2). destruct (IH tl' tn' s1 G1 E2) as (f1 & r & Nr1 & X1).
        exists (Nat.max f0 f1), r. split; [exact Nr1|]. intros fuel Hf. rewrite X by lia. apply X1. lia.
      + exists f0, UB. split; [discriminate|]. intros fuel Hf. now rewrite X.
      + congruence. }
  intros evs t0 E. eapply G; [apply init_good|exact E].
Qed.

(** ** No use of freed timers *)
Lemma live_ops l : forall cur s, wf cur s -> Forall op_ok l -> (forall o id, In o l -> targets o id -> tms s id <> None) -> do_ops rmax rnd s l <> None.
Proof.
  induction l as [|o l IH]; intros cur s W F H; cbn [do_ops]; [discriminate|].
  inversion F as [|? ? F1 F2]; subst.
  destruct (do_op rmax rnd s o) as [s1|] eqn:E.
  - destruct (do_op_ok cur s o s1 W F1 E) as (W1 & R1 & _). eapply IH; eauto. intros o' id Ho T. apply (r_alloc _ _ R1). eapply H; eauto. now right.
  - exfalso. destruct o as [r j p c|id r j p|id]; cbn [do_op] in E; [discriminate| |].
    + unfold change_timer in E. destruct (tms s id) eqn:Q; [discriminate|]. eapply (H (TChange id r j p) id); [now left|reflexivity|exact Q].
    + unfold stop_timer in E. destruct (tms s id) as [t|] eqn:Q; [destruct (trun t); discriminate|]. eapply (H (TStop id) id); [now left|reflexivity|exact Q].
Qed.

Lemma after_cb_some s id : tms s id <> None -> after_cb rmax rnd s id <> None.
Proof.
  intros H. unfold after_cb. destruct (tms s id) as [t|] eqn:E; [|congruence]. destruct (trun t); [|discriminate].
  destruct (negb (tperiod t =? 0)).
  - unfold change_timer. cbn [tms]. rewrite upd_eq. discriminate.
  - unfold stop_timer. rewrite E. destruct (trun t); discriminate.
Qed.

Lemma live_one s slot id rest : live_cb cb -> wf slot s -> 0 <= slot < 1024 -> wheel s slot = id :: rest -> walk_one rmax rnd cb s slot id <> None.
Proof.
  intros LC W Hs Hw. unfold walk_one. cbv zeta.
  set (s1 := set_wheel s (add_front TMP id (unlink id (wheel s)))).
  pose proof W as [Win Won Wone Wnd Wid Wt Wcl Wcnd Wnow].
  destruct (Win slot id) as (u & Eu & Pu); [rewrite Hw; now left|].
  change (tms s1 id) with (tms s id). rewrite Eu.
  destruct (trem u); [discriminate|]. destruct (isTimedOut _ _); [|discriminate].
  set (s2 := mkT (tms s1) (wheel s1) (nextid s1) (cleanup s1) (now_times s1) (last_run s1) (rcount s1) (id :: fired s1)) in *.
  assert (Sl : slot_of (tclock u) = slot) by (destruct Pu as [Pu|(Pu & Q)]; [auto|unfold TMP in Pu; lia]).
  assert (W2 : wf slot s2).
  { constructor; unfold s2, s1; cbn [tms wheel nextid cleanup now_times set_wheel]; auto.
    - intros i x Hx. apply in_front in Hx. rewrite in_unlink in Hx. destruct Hx as [(Hx & NE)|(-> & ->)]; [auto|].
      exists u. split; [exact Eu|]. right. auto.
    - intros x v Hx. destruct (Z.eq_dec x id) as [->|NE].
      + exists TMP. apply in_front. right. auto.
      + destruct (Won _ _ Hx) as (i & Hi). exists i. apply in_front. left. apply in_unlink. auto.
    - intros i k x H1 H2. apply in_front in H1. apply in_front in H2. rewrite in_unlink in H1, H2.
      destruct H1 as [(H1 & N1)|(-> & ->)], H2 as [(H2 & N2)|(-> & E)]; subst; auto; try tauto. eapply Wone; eauto.
    - intros i. unfold add_front, upd. destruct (i =? TMP) eqn:E.
      + apply Z.eqb_eq in E. subst i. constructor; [rewrite in_unlink; tauto|apply nodup_unlink, Wnd].
      + apply nodup_unlink, Wnd. }
  destruct (do_ops rmax rnd s2 (cb (tctx u) s2)) as [s3|] eqn:E3.
  - destruct (do_ops_ok _ slot s2 s3 W2 (Hcb _ _) E3) as (_ & R3 & _). apply after_cb_some. apply (r_alloc _ _ R3). cbn. congruence.
  - exfalso. eapply live_ops; [exact W2|apply Hcb| |exact E3]. intros o x Ho Tx. eapply LC; eauto.
Qed.

Lemma live_slot slot : live_cb cb -> 0 <= slot < 1024 -> forall fuel s, wf slot s -> (forall x, ~ AD s x TMP) -> walk_slot rmax rnd cb fuel s slot <> UB.
Proof.
  intros LC Hs. induction fuel as [|fuel IH]; intros s W NT; cbn [walk_slot]; destruct (wheel s slot) as [|id rest] eqn:Hw; try discriminate.
  destruct (walk_one rmax rnd cb s slot id) as [s1|] eqn:E1.
  - destruct (walk_one_ok s slot id rest s1 W Hs Hw NT E1) as (W1 & _ & NT1 & _). auto.
  - exfalso. eapply live_one; eauto.
Qed.
Lemma live_slots : live_cb cb -> forall n fuel s lr, wf 0 s -> wheel s TMP = [] -> walk_slots rmax rnd cb n fuel s lr <> UB.
Proof.
  intros LC. induction n as [|n IH]; intros fuel s lr W T; cbn [walk_slots]; [discriminate|].
  destruct (lr <=? now_times s); [|discriminate].
  assert (NT : forall x, ~ AD s x TMP) by (intros x (_ & Q); rewrite T in Q; destruct Q).
  destruct (walk_slot rmax rnd cb fuel s (slot_of lr)) as [s1| |] eqn:E1; [|exfalso; eapply live_slot; eauto using slot_range, wf_cur|discriminate].
  destruct (walk_slot_ok (slot_of lr) (slot_range lr) fuel s s1 (wf_cur 0 _ s W T) NT E1) as (W1 & _ & T1 & _).
  apply IH; [eapply wf_cur; eauto|exact T1].
Qed.
Lemma c11_live : forall fuel t0 evs s, live_cb cb -> events_ok any_walk t0 t0 evs ->
  trun_events rmax rnd cb fuel (timers_init t0) evs = Ok s -> tstep rmax rnd cb fuel s TWalk <> UB.
Proof.
  intros fuel t0 evs s LC E R. pose proof (reach_good any_walk fuel evs t0 t0 _ s (init_good t0) E R) as (W & T & L).
  cbn [tstep]. unfold walk_timers.
  destruct (walk_slots rmax rnd cb 1024 fuel (new_log s) (last_run (new_log s))) as [s1| |] eqn:E1; [|exfalso; exact (live_slots LC 1024 fuel (new_log s) _ (new_log_wf s W) T E1)|discriminate].
  destruct (walk_slots_ok 1024 fuel (new_log s) (last_run (new_log s)) s1 (new_log_wf s W) T L E1) as (W1 & _).
  set (s2 := mkT (tms s1) (wheel s1) (nextid s1) (cleanup s1) (now_times s1) (now_times s1) (rcount s1) (fired s1)) in *.
  assert (W2 : wf 0 s2) by (destruct W1; constructor; auto).
  destruct (cleanup_ok s2 W2) as (s3 & B1 & _). rewrite B1. discriminate.
Qed.
End P.

(** ** Timers set for 0 ms *)
Lemma zero_walk : forall fuel s id t, wheel s 0 = [id] -> tms s id = Some t -> tclock t = 0 -> trem t = false -> trun t = true -> tperiod t = 0 ->
  now_times s = 0 -> id < nextid s -> (forall x, In x (cleanup s) -> x < id) -> walk_slot 2147483647 (fun _ => 0) zero_cb fuel s 0 = Fuel.
Proof.
  induction fuel as [|fuel IH]; intros s id t Hw Et Hc Hr Hu Hp Hn Hl Hcl; cbn [walk_slot]; rewrite Hw; [reflexivity|].
  assert (NE : (id =? nextid s) = false) by lia.
  assert (EB : existsb (Z.eqb id) (cleanup s) = false).
  { destruct (existsb (Z.eqb id) (cleanup s)) eqn:B; [|reflexivity]. apply existsb_exists in B. destruct B as (x & Hx & B).
    apply Z.eqb_eq in B. subst x. apply Hcl in Hx. lia. }
  unfold walk_one. cbv zeta. set (s1 := set_wheel s (add_front TMP id (unlink id (wheel s)))).
  change (tms s1 id) with (tms s id). rewrite Et, Hr, Hc. change (now_times s1) with (now_times s). rewrite Hn. change (isTimedOut 0 0) with true. cbv iota.
  set (s2 := mkT (tms s1) (wheel s1) (nextid s1) (cleanup s1) 0 (last_run s1) (rcount s1) (id :: fired s1)).
  unfold zero_cb at 1. cbn [do_ops do_op]. set (s3 := start_timer 2147483647 (fun _ => 0) s2 0 0 false (tctx t)).
  assert (T3 : tms s3 id = Some t) by (unfold s3, start_timer; cbv zeta; cbn [tms]; rewrite upd_ne by (cbn; lia); exact Et).
  unfold after_cb. rewrite T3, Hu, Hp. change (negb (0 =? 0)) with false. cbv iota. unfold stop_timer. rewrite T3, Hu. cbv zeta.
  change (cleanup s3) with (cleanup s). rewrite EB.
  eapply (IH _ (nextid s) (mkTimer 0 0 0 true false 0 (tctx t))); try reflexivity.
  - cbn [wheel set_cleanup set_tms]. unfold s3, start_timer. cbv zeta. cbn [wheel].
    change (slot_of (calc_jitter 2147483647 (now_times s2) 0 0 0)) with 0. unfold add_tail. rewrite upd_eq. unfold s2, s1. cbn [wheel set_wheel nextid].
    unfold add_front. rewrite upd_ne by (unfold TMP; lia). unfold unlink. rewrite Hw. cbn [filter]. rewrite Z.eqb_refl. reflexivity.
  - cbn [tms set_cleanup set_tms]. rewrite upd_ne by lia. unfold s3, start_timer. cbv zeta. cbn [tms]. unfold s2, s1. cbn [nextid set_wheel]. rewrite upd_eq. reflexivity.
  - cbn. lia.
  - cbn [cleanup set_cleanup set_tms]. intros x Hx. apply in_app_or in Hx. destruct Hx as [Hx|[<-|[]]]; [apply Hcl in Hx; lia|exact Hl].
Qed.
Lemma walk_fuel rmax rnd cb fuel s : last_run s <= now_times s -> walk_slot rmax rnd cb fuel (new_log s) (slot_of (last_run s)) = Fuel ->
  tstep rmax rnd cb fuel s TWalk = Fuel.
Proof.
  intros L H. cbn [tstep]. unfold walk_timers. change 1024%nat with (S 1023). generalize 1023%nat as n. intros n. cbn [walk_slots].
  cbn [new_log last_run now_times]. replace (last_run s <=? now_times s) with true by lia. rewrite H. reflexivity.
Qed.
Lemma c11_zero : exists evs, forall fuel,
  trun_events 2147483647 (fun _ => 0) zero_cb fuel (timers_init 0) (evs ++ [TWalk]) = Fuel.
Proof.
  exists [TCalls [TStart 0 0 false 5]]. intros fuel. cbn [app trun_events].
  set (s1 := start_timer 2147483647 (fun _ => 0) (timers_init 0) 0 0 false 5).
  change (tstep 2147483647 (fun _ => 0) zero_cb fuel (timers_init 0) (TCalls [TStart 0 0 false 5])) with (Ok s1). cbv iota.
  rewrite (walk_fuel 2147483647 (fun _ => 0) zero_cb fuel s1); [reflexivity|vm_compute; discriminate|].
  change (slot_of (last_run s1)) with 0.
  apply (zero_walk fuel (new_log s1) 1 (mkTimer 0 0 0 true false 0 5)); try reflexivity. intros x [].
Qed.

(** C45, C72: hysteresis. *)
From Verif Require Import Base Hyst HystSpec HystProofs.

Theorem C45_range : forall p l, accepted p -> 0 <= quality (hrun p l) <= ONE.
Proof. intros p l [_ [_ [_ [B _]]]]. apply run_range; exact B. Qed.
Print Assumptions C45_range.

(** does the event look at the thresholds? *)
Definition looks (e : hev) : bool := match e with HPacket _ => false | _ => true end.
Lemma run_snoc p l e : hrun p (l ++ [e]) = hstep p (hrun p l) e.
Proof. unfold hrun. rewrite fold_left_app. reflexivity. Qed.
Theorem C45_thresholds : forall p l e,
  let h := hrun p l in let h' := hrun p (l ++ [e]) in
  (pending h = false -> pending h' = true -> quality h' < thr_low p /\ looks e = true) /\
  (pending h = true -> pending h' = false -> quality h' > thr_high p /\ looks e = true) /\
  (looks e = true -> quality h' > thr_high p -> pending h' = false) /\
  (looks e = true -> thr_low p < thr_high p -> quality h' < thr_low p -> pending h' = true).
Proof.
  intros p l e h h'. unfold h'. rewrite run_snoc. fold h. clearbody h. clear h'.
  assert (P : forall g, let g' := process p g in (pending g = false -> pending g' = true -> quality g' < thr_low p) /\ (pending g = true -> pending g' = false -> quality g' > thr_high p) /\
     (quality g' > thr_high p -> pending g' = false) /\ (thr_low p < thr_high p -> quality g' < thr_low p -> pending g' = true)).
  { intros g. cbv zeta. unfold process. destruct (quality g >? thr_high p) eqn:A; [cbn; split; [discriminate|]; split; [lia|]; split; [auto|lia]|].
    destruct (quality g <? thr_low p) eqn:B; [cbn; split; [lia|]; split; [discriminate|]; split; [lia|auto]|].
    split; [congruence|]. split; [congruence|]. split; lia. }
  destruct e; cbn [hstep looks].
  - assert (I0 : forall q, pending (mkHy q (pending h) (u16 (seq + 1)) true) = pending h) by reflexivity.
    assert (I1 : exists q, incoming p h seq = mkHy q (pending h) (u16 (seq + 1)) true) by (unfold incoming; eexists; reflexivity).
    destruct I1 as [q ->]. rewrite I0. split; [congruence|]. split; [congruence|]. split; discriminate.
  - destruct (P h) as [A [B [C D]]]. auto 10.
  - assert (I1 : exists q, hello_timeout p h = let g := process p (mkHy q (pending h) (seqno h) (valid h)) in mkHy (quality g) (pending g) (u16 (seqno g + 1)) (valid g))
      by (eexists; reflexivity).
    destruct I1 as [q ->]. cbv zeta. cbn [pending quality]. destruct (P (mkHy q (pending h) (seqno h) (valid h))) as [A [B [C D]]]. cbn [pending] in A, B. auto 10.
Qed.
Print Assumptions C45_thresholds.

(** The link is established only if the quality was above the high threshold at some
    time, and at no later look was below the low threshold. *)
Theorem C45_history : forall p l, pending (hrun p l) = false ->
  exists l1 l2, l = l1 ++ l2 /\ quality (hrun p l1) > thr_high p /\
    forall m e k, l2 = m ++ e :: k -> looks e = true -> thr_low p < thr_high p -> thr_low p <= quality (hrun p (l1 ++ m ++ [e])).
Proof.
  intros p l. induction l as [|e l IH] using rev_ind; [discriminate|]. intros H. destruct (C45_thresholds p l e) as [T1 [T2 [T3 T4]]]. cbv zeta in *.
  destruct (pending (hrun p l)) eqn:Q.
  - destruct (T2 eq_refl H) as [X Y]. exists (l ++ [e]), []. split; [rewrite app_nil_r; reflexivity|]. split; [exact X|]. intros m e0 k E. destruct m; discriminate.
  - destruct (IH eq_refl) as [l1 [l2 [-> [A B]]]]. exists l1, (l2 ++ [e]). split; [rewrite app_assoc; reflexivity|]. split; [exact A|].
    intros m e0 k E L LH. destruct k as [|z k].
    + apply app_inj_tail in E. destruct E as [-> ->]. rewrite app_assoc. destruct (Z.le_gt_cases (thr_low p) (quality (hrun p ((l1 ++ m) ++ [e0])))) as [|F]; [assumption|].
      rewrite (T4 L LH ltac:(lia)) in H. discriminate.
    + assert (E2 : l2 ++ [e] = (m ++ e0 :: removelast (z :: k)) ++ [last (z :: k) z]).
      { rewrite E. change (e0 :: z :: k) with ([e0] ++ z :: k). rewrite (app_removelast_last z (l := z :: k)) at 1 by discriminate. rewrite !app_assoc. cbn. rewrite <- !app_assoc. reflexivity. }
      apply app_inj_tail in E2. destruct E2 as [-> _]. eapply B; eauto.
Qed.
Print Assumptions C45_history.
Definition defaults : hparam := mkHp (2 ^ 148) (13421773 * 2 ^ 125) (10066330 * 2 ^ 124).
Example C45_ex : accepted defaults /\ pending (hrun defaults [HPacket 7; HPacket 8; HPacket 9; HHello]) = false /\
  pending (hrun defaults [HPacket 7; HPacket 8; HPacket 9; HHello; HTimeout; HTimeout]) = true.
Proof.
  split; [|split; vm_compute; reflexivity].
  split; [exists 1, 148; split; [lia|split; [lia|reflexivity]]|]. split; [exists 13421773, 125; split; [lia|split; [lia|reflexivity]]|].
  split; [exists 10066330, 124; split; [lia|split; [lia|reflexivity]]|]. cbn [defaults scaling thr_high thr_low].
  split; [split; intros H; vm_compute in H; discriminate|]. split; [reflexivity|]. split; split; intros H; vm_compute in H; discriminate.
Qed.

(** C72: a link without losses becomes established. *)
Theorem C72_established_partial : forall p k n, accepted p -> 2 ^ 142 <= scaling p -> thr_high p <= ONE - 2 ^ 139 -> 2 ^ 19 <= Z.of_nat n ->
  pending (hrun p (pkts k n ++ [HHello])) = false.
Proof.
  intros p k n [_ [_ [_ [B [_ [_ _]]]]]] C D E. rewrite run_snoc. cbn [hstep].
  destruct (pkts_spec p ltac:(lia) n k hinit (hrun p (pkts k n))) as [X Y]; [cbn; pose proof one_pos; lia|discriminate|reflexivity|]. cbn [quality hinit] in X.
  pose proof (reaches p ltac:(lia) (thr_high p) D n E) as R. unfold process. rewrite X. assert (T : (Nat.iter n (stability p) 0 >? thr_high p) = true) by lia. rewrite T. reflexivity.
Qed.
Print Assumptions C72_established_partial.
Example C72_ex : accepted defaults /\ 2 ^ 142 <= scaling defaults /\ thr_high defaults <= ONE - 2 ^ 139.
Proof. split; [apply C45_ex|]. split; intros H; vm_compute in H; discriminate. Qed.
(** the parser accepts a high threshold of 1.0; no link is ever established then *)
Theorem C72_established_refuted : exists p, accepted p /\ forall l, pending (hrun p l) = true.
Proof.
  exists (mkHp (2 ^ 148) ONE (10066330 * 2 ^ 124)). assert (A : accepted (mkHp (2 ^ 148) ONE (10066330 * 2 ^ 124))).
  { split; [exists 1, 148; split; [lia|split; [lia|reflexivity]]|]. split; [apply one_bin|].
    split; [exists 10066330, 124; split; [lia|split; [lia|reflexivity]]|]. cbn [scaling thr_high thr_low].
    split; [split; intros H; vm_compute in H; discriminate|]. split; [reflexivity|]. split; split; intros H; vm_compute in H; discriminate. }
  split; [exact A|]. intros l. destruct (pending _) eqn:P; [reflexivity|exfalso]. apply C45_history in P. destruct P as [l1 [l2 [_ [Q _]]]].
  pose proof (C45_range _ l1 A) as R. cbn [thr_high] in Q. lia.
Qed.
Print Assumptions C72_established_refuted.

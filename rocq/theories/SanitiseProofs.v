(** Lemmas about the loops of nmeaInfoSanitise *)
From Verif Require Import Base Sanitise SanitiseSpec.

Lemma rnd_shape z : 2 ^ 53 <= Z.abs z -> exists e q r, 1 <= e /\ e = Z.log2 (Z.abs z) - 52 /\ Z.abs z = q * 2 ^ e + r /\ 0 <= r < 2 ^ e /\ 0 <= q /\
  ((rnd z = Z.sgn z * (q * 2 ^ e) /\ 2 * r <= 2 ^ e) \/ (rnd z = Z.sgn z * ((q + 1) * 2 ^ e) /\ 2 ^ e <= 2 * r /\ 0 < r)).
Proof.
  intros H. unfold rnd. replace (Z.abs z <? 2 ^ 53) with false by (symmetry; apply Z.ltb_ge; exact H). cbv zeta.
  set (a := Z.abs z) in *. assert (L : 53 <= Z.log2 a) by (apply Z.log2_le_pow2; [|exact H]; apply Z.lt_le_trans with (2 ^ 53); [reflexivity|exact H]).
  set (e := Z.log2 a - 52). assert (E : 1 <= e) by (unfold e; clear - L; lia).
  assert (P : 2 ^ e = 2 * 2 ^ (e - 1)) by (rewrite <- Z.pow_succ_r by (clear - E; lia); f_equal; clear; lia). assert (P0 : 0 < 2 ^ (e - 1)) by (apply Z.pow_pos_nonneg; [reflexivity|clear - E; lia]).
  assert (Hf : 2 ^ e / 2 = 2 ^ (e - 1)) by (rewrite P, Z.mul_comm; apply Z.div_mul; discriminate).
  pose proof (Z.div_mod a (2 ^ e) ltac:(rewrite P; clear - P0; lia)) as D. pose proof (Z.mod_pos_bound a (2 ^ e) ltac:(rewrite P; clear - P0; lia)) as M.
  pose proof (Z.div_pos a (2 ^ e) ltac:(unfold a; apply Z.abs_nonneg) ltac:(rewrite P; clear - P0; lia)) as Qp.
  rewrite Hf. remember (a / 2 ^ e) as q eqn:Q. remember (a mod 2 ^ e) as r eqn:R. clear Q R. exists e, q, r.
  split; [exact E|]. split; [reflexivity|]. split; [rewrite (Z.mul_comm q); exact D|]. split; [exact M|]. split; [exact Qp|].
  rewrite P. destruct (r <? 2 ^ (e - 1)) eqn:A1; [left; split; [reflexivity|apply Z.ltb_lt in A1; clear - A1; lia]|]. apply Z.ltb_ge in A1.
  destruct (2 ^ (e - 1) <? r) eqn:A2; [right; apply Z.ltb_lt in A2; split; [reflexivity|clear - A2 P0; lia]|]. apply Z.ltb_ge in A2.
  destruct (Z.even q); [left|right]; (split; [reflexivity|clear - A1 A2 P0; lia]).
Qed.
(** a number of few bits bounds what it bounded before, and stays as it is *)
Lemma rnd_le z k j : 0 <= j -> 0 <= k < 2 ^ 53 -> Z.abs z <= k * 2 ^ j -> Z.abs (rnd z) <= k * 2 ^ j.
Proof.
  intros J K B. destruct (Z.lt_ge_cases (Z.abs z) (2 ^ 53)) as [Lt|Ge].
  - unfold rnd. replace (Z.abs z <? 2 ^ 53) with true by (symmetry; apply Z.ltb_lt; exact Lt). exact B.
  - destruct (rnd_shape z Ge) as (e & q & r & E1 & Ee & D & R & Q0 & C).
    assert (Z0 : 0 < Z.abs z) by (apply Z.lt_le_trans with (2 ^ 53); [reflexivity|exact Ge]).
    assert (Sg : forall w, 0 <= w -> Z.abs (Z.sgn z * w) = w) by (intros w W; rewrite Z.abs_mul, (Z.abs_eq w W); replace (Z.abs (Z.sgn z)) with 1 by (clear - Z0; lia); clear; lia).
    assert (Ej : e <= j).
    { assert (T : Z.abs z < 2 ^ (53 + j)) by (rewrite Z.pow_add_r by (clear - J; lia); apply Z.le_lt_trans with (k * 2 ^ j); [exact B|]; apply Z.mul_lt_mono_pos_r; [apply Z.pow_pos_nonneg; [reflexivity|exact J]|exact (proj2 K)]).
      apply Z.log2_lt_pow2 in T; [|exact Z0]. clear - T Ee. lia. }
    assert (Pe : 0 < 2 ^ e) by (apply Z.pow_pos_nonneg; [reflexivity|clear - E1; lia]).
    destruct C as [(-> & _)|(-> & _ & R0)]; rewrite Sg.
    + rewrite D in B. clear - B R. lia.
    + apply Z.mul_nonneg_nonneg; clear - Q0 Pe; lia.
    + replace j with (j - e + e) in B |- * by (clear; lia). rewrite Z.pow_add_r in B |- * by (clear - Ej E1; lia). rewrite Z.mul_assoc in B |- *. remember (k * 2 ^ (j - e)) as m eqn:Me. clear Me. rewrite D in B.
      apply Z.mul_le_mono_nonneg_r; [clear - Pe; lia|]. assert (X : q < m); [|clear - X; lia]. apply Z.mul_lt_mono_pos_r with (2 ^ e); [exact Pe|clear - B R0; lia].
    + apply Z.mul_nonneg_nonneg; clear - Q0 Pe; lia.
Qed.
Lemma rnd_same k j : 0 <= j -> Z.abs k < 2 ^ 53 -> rnd (k * 2 ^ j) = k * 2 ^ j.
Proof.
  intros J K. set (z := k * 2 ^ j). assert (Pj : 0 < 2 ^ j) by (apply Z.pow_pos_nonneg; [reflexivity|exact J]). destruct (Z.lt_ge_cases (Z.abs z) (2 ^ 53)) as [Lt|Ge].
  - unfold rnd. replace (Z.abs z <? 2 ^ 53) with true by (symmetry; apply Z.ltb_lt; exact Lt). reflexivity.
  - destruct (rnd_shape z Ge) as (e & q & r & E1 & Ee & D & R & Q0 & C).
    assert (Z0 : 0 < Z.abs z) by (apply Z.lt_le_trans with (2 ^ 53); [reflexivity|exact Ge]).
    assert (A : Z.abs z = Z.abs k * 2 ^ j) by (unfold z; rewrite Z.abs_mul, (Z.abs_eq (2 ^ j)) by (clear - Pj; lia); reflexivity).
    assert (Ej : e <= j).
    { assert (T : Z.abs z < 2 ^ (53 + j)) by (rewrite A, Z.pow_add_r by (clear - J; lia); apply Z.mul_lt_mono_pos_r; assumption).
      apply Z.log2_lt_pow2 in T; [|exact Z0]. clear - T Ee. lia. }
    assert (Pe : 0 < 2 ^ e) by (apply Z.pow_pos_nonneg; [reflexivity|clear - E1; lia]).
    assert (R0 : r = 0).
    { rewrite A in D. replace j with (j - e + e) in D by (clear; lia). rewrite Z.pow_add_r in D by (clear - Ej E1; lia). rewrite Z.mul_assoc in D. remember (Z.abs k * 2 ^ (j - e)) as m eqn:Me. clear Me A.
      assert (X : r = (m - q) * 2 ^ e) by (clear - D; lia). destruct (Z.eq_dec m q) as [->|Nq]; [rewrite Z.sub_diag in X; exact X|exfalso].
      destruct (Z.lt_ge_cases m q) as [Lq|Gq].
      - assert (Y : (m - q) * 2 ^ e <= (-1) * 2 ^ e) by (apply Z.mul_le_mono_nonneg_r; clear - Pe Lq; lia). clear - X Y R Pe. lia.
      - assert (Y : 1 * 2 ^ e <= (m - q) * 2 ^ e) by (apply Z.mul_le_mono_nonneg_r; clear - Pe Gq Nq; lia). clear - X Y R Pe. lia. }
    destruct C as [(-> & _)|(_ & _ & R1)]; [|clear - R0 R1; lia]. replace (q * 2 ^ e) with (Z.abs z) by (clear - D R0; lia). rewrite Z.mul_comm. apply Z.abs_sgn.
Qed.
(** how far the rounding goes *)
Lemma rnd_err z m : 54 <= m -> Z.abs z < 2 ^ m -> Z.abs (rnd z - z) <= 2 ^ (m - 54).
Proof.
  intros M B. destruct (Z.lt_ge_cases (Z.abs z) (2 ^ 53)) as [Lt|Ge].
  - unfold rnd. replace (Z.abs z <? 2 ^ 53) with true by (symmetry; apply Z.ltb_lt; exact Lt). rewrite Z.sub_diag. apply Z.lt_le_incl, Z.pow_pos_nonneg; [reflexivity|clear - M; lia].
  - destruct (rnd_shape z Ge) as (e & q & r & E1 & Ee & D & R & Q0 & C).
    assert (Z0 : 0 < Z.abs z) by (apply Z.lt_le_trans with (2 ^ 53); [reflexivity|exact Ge]).
    assert (Em : e <= m - 53) by (apply Z.log2_lt_pow2 in B; [|exact Z0]; clear - B Ee; lia).
    assert (P : 2 ^ e = 2 * 2 ^ (e - 1)) by (rewrite <- Z.pow_succ_r by (clear - E1; lia); f_equal; clear; lia).
    assert (Pl : 2 ^ (e - 1) <= 2 ^ (m - 54)) by (apply Z.pow_le_mono_r; [reflexivity|clear - Em; lia]).
    assert (Sz : z = Z.sgn z * Z.abs z) by (rewrite Z.mul_comm; symmetry; apply Z.abs_sgn).
    assert (G : forall w, Z.abs (w - Z.abs z) <= 2 ^ (e - 1) -> Z.abs (Z.sgn z * w - z) <= 2 ^ (m - 54)).
    { intros w W. rewrite Sz at 2. rewrite <- Z.mul_sub_distr_l, Z.abs_mul. replace (Z.abs (Z.sgn z)) with 1 by (clear - Z0; lia). clear - W Pl. lia. }
    destruct C as [(-> & H)|(-> & H & _)]; apply G; clear - D R P H; lia.
Qed.
Lemma one_pos : 0 < one.
Proof. reflexivity. Qed.
Lemma rnd_bound k z : 0 <= k < 2 ^ 53 -> Z.abs z <= k * one -> Z.abs (rnd z) <= k * one.
Proof. intros K B. exact (rnd_le z k 1074 ltac:(lia) K B). Qed.
Lemma rnd_int k : Z.abs k < 2 ^ 53 -> rnd (k * one) = k * one.
Proof. intros K. exact (rnd_same k 1074 ltac:(lia) K). Qed.
Lemma rnd_near z : Z.abs z < 2 ^ 61 * one -> Z.abs (rnd z - z) <= 128 * one.
Proof. intros B. exact (rnd_err z 1135 ltac:(lia) B). Qed.
Lemma up_eq n x : up n x = if x <? - (18000 * one) then match n with O => None | S n => up n (rnd (x + 36000 * one)) end else Some x.
Proof. destruct n; reflexivity. Qed.
Lemma down_eq n x : down n x = if x >? 18000 * one then match n with O => None | S n => down n (rnd (x - 36000 * one)) end else Some x.
Proof. destruct n; reflexivity. Qed.
Lemma rnd_stuck : rnd (2 ^ 70 * one - 36000 * one) = 2 ^ 70 * one.
Proof. vm_compute. reflexivity. Qed.
Opaque one rnd.
Lemma up_range n : forall x y, up n x = Some y -> - (18000 * one) <= y /\ (y = x \/ Z.abs y <= 18000 * one).
Proof.
  pose proof one_pos as O1. induction n as [|n IH]; intros x y H; rewrite up_eq in H.
  - destruct (x <? - (18000 * one)) eqn:E; [discriminate|]. apply Some_inj in H. split; [lia|left; lia].
  - destruct (x <? - (18000 * one)) eqn:E; [|apply Some_inj in H; split; [lia|left; lia]].
    destruct (IH _ _ H) as (A & B). split; [exact A|]. right. destruct B as [B|B]; [|exact B].
    destruct (Z.lt_ge_cases (x + 36000 * one) (- (18000 * one))) as [Lt|Ge].
    + (* still below: rounding does not bring it above *)
      destruct (Z.lt_ge_cases y (18000 * one + 1)) as [Ly|Gy]; [lia|]. exfalso.
      assert (Sg : rnd (x + 36000 * one) <= 0); [|lia]. clear - Lt O1. 
      pose proof (rnd_shape (x + 36000 * one)) as Sh. destruct (Z.lt_ge_cases (Z.abs (x + 36000 * one)) (2 ^ 53)) as [L3|G3].
      * Transparent rnd. unfold rnd. Opaque rnd. replace (Z.abs (x + 36000 * one) <? 2 ^ 53) with true by (symmetry; apply Z.ltb_lt; exact L3). lia.
      * destruct (Sh G3) as (e & q & r & E1 & _ & _ & _ & Q0 & C). assert (S1 : Z.sgn (x + 36000 * one) = -1) by lia. rewrite S1 in C.
        assert (Pe : 0 < 2 ^ e) by (apply Z.pow_pos_nonneg; [reflexivity|lia]). assert (M1 : 0 <= q * 2 ^ e) by (apply Z.mul_nonneg_nonneg; lia). assert (M2 : 0 <= (q + 1) * 2 ^ e) by (apply Z.mul_nonneg_nonneg; lia). lia.
    + rewrite B. apply rnd_bound; lia.
Qed.
Lemma down_range n : forall x y, - (18000 * one) <= x -> down n x = Some y -> Z.abs y <= 18000 * one.
Proof.
  pose proof one_pos as O1. induction n as [|n IH]; intros x y B H; rewrite down_eq in H.
  - destruct (x >? 18000 * one) eqn:E; [discriminate|]. apply Some_inj in H. lia.
  - destruct (x >? 18000 * one) eqn:E; [|apply Some_inj in H; lia]. apply (IH _ _) in H; [exact H|].
    destruct (Z.lt_ge_cases (18000 * one) (x - 36000 * one)) as [Lt|Ge]; [|pose proof (rnd_bound 18000 (x - 36000 * one) ltac:(lia) ltac:(lia)); lia].
    assert (Sg : 0 <= rnd (x - 36000 * one)); [|lia]. clear - Lt O1.
    pose proof (rnd_shape (x - 36000 * one)) as Sh. destruct (Z.lt_ge_cases (Z.abs (x - 36000 * one)) (2 ^ 53)) as [L3|G3].
    + Transparent rnd. unfold rnd. Opaque rnd. replace (Z.abs (x - 36000 * one) <? 2 ^ 53) with true by (symmetry; apply Z.ltb_lt; exact L3). lia.
    + destruct (Sh G3) as (e & q & r & E1 & _ & _ & _ & Q0 & C). assert (S1 : Z.sgn (x - 36000 * one) = 1) by lia. rewrite S1 in C.
      assert (Pe : 0 < 2 ^ e) by (apply Z.pow_pos_nonneg; [reflexivity|lia]). assert (M1 : 0 <= q * 2 ^ e) by (apply Z.mul_nonneg_nonneg; lia). assert (M2 : 0 <= (q + 1) * 2 ^ e) by (apply Z.mul_nonneg_nonneg; lia). lia.
Qed.
Lemma turn_range n x y : turn n x = Some y -> Z.abs y <= 18000 * one.
Proof. unfold turn. destruct (up n x) as [u|] eqn:E; [|discriminate]. apply down_range. exact (proj1 (up_range _ _ _ E)). Qed.
Lemma fold_range n lat lon a b : fold_lat n lat lon = Some (a, b) -> Z.abs a <= 9000 * one.
Proof.
  unfold fold_lat. pose proof one_pos as O1. destruct (turn n lat) as [u|] eqn:E; [|discriminate]. apply turn_range in E.
  destruct (u >? 9000 * one) eqn:A.
  - pose proof (rnd_bound 9000 (18000 * one - u) ltac:(lia) ltac:(lia)) as B. destruct (rnd (18000 * one - u) <? - (9000 * one)) eqn:C; [lia|]. intros H. apply Some_inj, pair_equal_spec in H. destruct H as [<- _]. exact B.
  - destruct (u <? - (9000 * one)) eqn:C; intros H; apply Some_inj, pair_equal_spec in H; destruct H as [<- _]; [apply rnd_bound; lia|lia].
Qed.
Lemma place_range n lat lon a b : place n lat lon = Some (a, b) -> Z.abs a <= 9000 * one /\ Z.abs b <= 18000 * one.
Proof.
  unfold place. destruct (fold_lat n lat lon) as [[u v]|] eqn:E; [|discriminate]. destruct (turn n v) as [w|] eqn:T; [|discriminate]. intros H. apply Some_inj, pair_equal_spec in H. destruct H as [<- <-].
  split; [exact (fold_range _ _ _ _ _ E)|exact (turn_range _ _ _ T)].
Qed.
Lemma up_ends n : forall x, - (2 ^ 60 * one + 40000 * one) <= x -> - x <= 18000 * one + 30000 * (Z.of_nat n * one) -> exists y, up n x = Some y.
Proof.
  pose proof one_pos as O1. induction n as [|n IH]; intros x L B; rewrite up_eq.
  - replace (x <? - (18000 * one)) with false by lia. eexists. reflexivity.
  - destruct (x <? - (18000 * one)) eqn:E; [|eexists; reflexivity]. pose proof (rnd_near (x + 36000 * one) ltac:(lia)) as N. apply IH; [lia|].
    replace (Z.of_nat (S n) * one) with (Z.of_nat n * one + one) in B by lia. lia.
Qed.
Lemma down_ends n : forall x, x <= 2 ^ 60 * one + 40000 * one -> x <= 18000 * one + 30000 * (Z.of_nat n * one) -> exists y, down n x = Some y.
Proof.
  pose proof one_pos as O1. induction n as [|n IH]; intros x L B; rewrite down_eq.
  - replace (x >? 18000 * one) with false by lia. eexists. reflexivity.
  - destruct (x >? 18000 * one) eqn:E; [|eexists; reflexivity]. pose proof (rnd_near (x - 36000 * one) ltac:(lia)) as N. apply IH; [lia|].
    replace (Z.of_nat (S n) * one) with (Z.of_nat n * one + one) in B by lia. lia.
Qed.
Lemma turn_ends n x : Z.of_nat n = 2 ^ 61 -> Z.abs x <= 2 ^ 60 * one + 40000 * one -> exists y, turn n x = Some y.
Proof.
  intros N B. pose proof one_pos as O1. unfold turn. destruct (up_ends n x) as (u & E); [lia|rewrite N; lia|]. rewrite E. destruct (up_range _ _ _ E) as (A & C). apply down_ends; [|rewrite N]; lia.
Qed.
Lemma place_ends n lat lon : Z.of_nat n = 2 ^ 61 -> Z.abs lat <= 2 ^ 60 * one -> Z.abs lon <= 2 ^ 60 * one -> exists p, place n lat lon = Some p.
Proof.
  intros N A B. pose proof one_pos as O1. unfold place, fold_lat. destruct (turn_ends n lat N ltac:(lia)) as (u & ->).
  pose proof (rnd_near (lon + 18000 * one) ltac:(lia)) as R1.
  assert (G : forall v, Z.abs v <= 2 ^ 60 * one + 40000 * one -> exists y, turn n v = Some y) by (intros v V; apply turn_ends; assumption).
  destruct (u >? 9000 * one) eqn:E1.
  - destruct (rnd (18000 * one - u) <? - (9000 * one)) eqn:E2.
    + pose proof (rnd_near (rnd (lon + 18000 * one) + 18000 * one) ltac:(lia)). destruct (G (rnd (rnd (lon + 18000 * one) + 18000 * one)) ltac:(lia)) as (y & ->). eexists; reflexivity.
    + destruct (G (rnd (lon + 18000 * one)) ltac:(lia)) as (y & ->). eexists; reflexivity.
  - destruct (u <? - (9000 * one)) eqn:E2.
    + destruct (G (rnd (lon + 18000 * one)) ltac:(lia)) as (y & ->). eexists; reflexivity.
    + destruct (G lon ltac:(lia)) as (y & ->). eexists; reflexivity.
Qed.
(** whole numbers stay whole *)
Lemma one_inj a b : a * one = b * one -> a = b.
Proof. intros H. apply Z.mul_reg_r with one; [discriminate|exact H]. Qed.
Lemma up_int n : forall k y, Z.abs k <= 2 ^ 50 -> up n (k * one) = Some y -> exists t, y = (k + 36000 * t) * one /\ Z.abs (k + 36000 * t) <= 2 ^ 50.
Proof.
  pose proof one_pos as O1. induction n as [|n IH]; intros k y K H; rewrite up_eq in H.
  - destruct (_ <? _); [discriminate|]. apply Some_inj in H. exists 0. subst y. split; [f_equal; lia|lia].
  - destruct (k * one <? - (18000 * one)) eqn:E; [|apply Some_inj in H; exists 0; subst y; split; [f_equal; lia|lia]].
    assert (Kn : k < - 18000) by (apply Z.mul_lt_mono_pos_r with one; [exact O1|lia]).
    replace (k * one + 36000 * one) with ((k + 36000) * one) in H by lia. rewrite rnd_int in H by lia. destruct (IH (k + 36000) _ ltac:(lia) H) as (t & -> & B). exists (t + 1). split; [f_equal; lia|lia].
Qed.
Lemma down_int n : forall k y, Z.abs k <= 2 ^ 50 -> down n (k * one) = Some y -> exists t, y = (k + 36000 * t) * one /\ Z.abs (k + 36000 * t) <= 2 ^ 50.
Proof.
  pose proof one_pos as O1. induction n as [|n IH]; intros k y K H; rewrite down_eq in H.
  - destruct (_ >? _); [discriminate|]. apply Some_inj in H. exists 0. subst y. split; [f_equal; lia|lia].
  - destruct (k * one >? 18000 * one) eqn:E; [|apply Some_inj in H; exists 0; subst y; split; [f_equal; lia|lia]].
    assert (Kn : 18000 < k) by (apply Z.mul_lt_mono_pos_r with one; [exact O1|lia]).
    replace (k * one - 36000 * one) with ((k + 36000 * -1) * one) in H by lia. rewrite rnd_int in H by lia. destruct (IH (k + 36000 * -1) _ ltac:(lia) H) as (t & -> & B). exists (t - 1). split; [f_equal; lia|lia].
Qed.
Lemma turn_int n k y : Z.abs k <= 2 ^ 50 -> turn n (k * one) = Some y -> exists t, y = (k + 36000 * t) * one /\ Z.abs (k + 36000 * t) <= 2 ^ 50.
Proof.
  intros K. unfold turn. destruct (up n (k * one)) as [u|] eqn:E; [|discriminate]. intros H. destruct (up_int _ _ _ K E) as (t & -> & B). destruct (down_int _ _ _ B H) as (t' & -> & B'). exists (t + t'). split; [f_equal; lia|lia].
Qed.
Lemma place_int n k l a b : Z.abs k <= 2 ^ 49 -> Z.abs l <= 2 ^ 49 -> place n (k * one) (l * one) = Some (a, b) ->
  exists t u, (a = (k + 36000 * t) * one /\ b = (l + 36000 * u) * one) \/ (a = (18000 - k + 36000 * t) * one /\ b = (l + 18000 + 36000 * u) * one).
Proof.
  intros K L. pose proof one_pos as O1. unfold place, fold_lat. destruct (turn n (k * one)) as [x|] eqn:E; [|discriminate]. pose proof (turn_range _ _ _ E) as R. destruct (turn_int n k _ ltac:(lia) E) as (t & -> & B).
  assert (Rk : Z.abs (k + 36000 * t) <= 18000) by (apply Z.mul_le_mono_pos_r with one; [exact O1|]; rewrite <- (Z.abs_eq one) at 1 by lia; rewrite <- Z.abs_mul; exact R).
  set (q := k + 36000 * t) in *.
  replace (18000 * one - q * one) with ((18000 - q) * one) by lia. replace (- (18000 * one) - q * one) with ((- 18000 - q) * one) by lia. replace (l * one + 18000 * one) with ((l + 18000) * one) by lia.
  rewrite !rnd_int by lia. destruct (q * one >? 9000 * one) eqn:E1.
  - assert (Q1 : 9000 < q) by (apply Z.mul_lt_mono_pos_r with one; [exact O1|lia]).
    replace ((18000 - q) * one <? - (9000 * one)) with false by lia. cbv beta iota. destruct (turn n ((l + 18000) * one)) as [w|] eqn:T; [|discriminate]. intros H. apply Some_inj, pair_equal_spec in H. destruct H as [<- <-]. destruct (turn_int n (l + 18000) _ ltac:(lia) T) as (u & -> & _).
    exists (- t), u. right. split; f_equal; lia.
  - destruct (q * one <? - (9000 * one)) eqn:E2.
    + cbv beta iota. replace (- (18000 * one) - q * one) with ((- 18000 - q) * one) by lia. replace (l * one + 18000 * one) with ((l + 18000) * one) by lia. rewrite !rnd_int by lia. destruct (turn n ((l + 18000) * one)) as [w|] eqn:T; [|discriminate]. intros H. apply Some_inj, pair_equal_spec in H. destruct H as [<- <-]. destruct (turn_int n (l + 18000) _ ltac:(lia) T) as (u & -> & _). exists (- t - 1), u. right. split; f_equal; lia.
    + cbv beta iota. destruct (turn n (l * one)) as [w|] eqn:T; [|discriminate]. intros H. apply Some_inj, pair_equal_spec in H. destruct H as [<- <-]. destruct (turn_int n l _ ltac:(lia) T) as (u & -> & _). exists t, u. left. split; f_equal; lia.
Qed.
(** a number so big that 36000 is less than half of its last place *)
Lemma down_stuck n : down n (2 ^ 70 * one) = None.
Proof.
  pose proof rnd_stuck as F.
  assert (G : (2 ^ 70 * one >? 18000 * one) = true) by (pose proof one_pos; lia).
  induction n as [|n IH]; rewrite down_eq, G; [reflexivity|]. rewrite F. exact IH.
Qed.

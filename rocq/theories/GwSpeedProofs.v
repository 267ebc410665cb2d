From Verif Require Import Base GwSpeed.

Lemma shrink_ok : forall k s c i e s' e',
  0 <= s -> 0 <= i -> c = s / 10 ^ i -> 1 <= c -> c < 32 * 10 ^ Z.of_nat k -> 0 <= e ->
  3 * s <= 4 * (c * 10 ^ i) ->
  shrink k c e = (s', e') ->
  exists j, e' = e + j /\ 0 <= j <= Z.of_nat k /\ s' = s / 10 ^ (i + j) /\ 1 <= s' <= 32 /\
    (j = Z.of_nat k -> s' < 32) /\ 3 * s <= 4 * (s' * 10 ^ (i + j)) .
Proof.
  induction k; intros s c i e s' e' Hs Hi Hc H1 Hb He H3 H; cbn [shrink] in H.
  - injection H as <- <-. exists 0. rewrite !Z.add_0_r. change (32 * 10 ^ Z.of_nat 0) with 32 in Hb. repeat split; auto; lia.
  - destruct ((c >? 32) || (c mod 10 =? 0)) eqn:Q.
    + assert (P : 0 < 10 ^ i) by (apply Z.pow_pos_nonneg; lia).
      assert (P1 : 10 ^ (i + 1) = 10 * 10 ^ i) by (rewrite Z.pow_add_r by lia; change (10 ^ 1) with 10; lia).
      assert (C1 : c / 10 = s / 10 ^ (i + 1)).
      { rewrite Hc, P1, Z.div_div by lia. f_equal; lia. }
      assert (G1 : 1 <= c / 10).
      { apply orb_prop in Q. destruct Q as [Q|Q]; [|]; lia. }
      specialize (IHk s (c / 10) (i + 1) (e + 1) s' e').
      destruct IHk as (j & E1 & E2 & E3 & E4 & E5 & E6); auto; try lia.
      * assert (10 ^ Z.of_nat (S k) = 10 * 10 ^ Z.of_nat k).
        { rewrite Nat2Z.inj_succ, Z.pow_succ_r by lia. lia. }
        set (X := 10 ^ Z.of_nat k) in *. clearbody X. lia.
      * rewrite P1. apply orb_prop in Q. destruct Q as [Q|Q].
        -- assert (G3 : 3 <= c / 10) by lia.
           assert (L : s < 10 ^ (i + 1) * (s / 10 ^ (i + 1)) + 10 ^ (i + 1)).
           { pose proof (Z.mul_succ_div_gt s (10 ^ (i + 1)) ltac:(lia)). lia. }
           rewrite <- C1 in L. rewrite P1 in L.
           assert (3 * 10 ^ i <= (c / 10) * 10 ^ i) by (apply Z.mul_le_mono_nonneg_r; lia).
           set (m := c / 10) in *. clearbody m. set (p := 10 ^ i) in *. clearbody p.
           replace (10 * p * m) with (10 * (m * p)) in L by ring.
           replace (m * (10 * p)) with (10 * (m * p)) by ring. lia.
        -- replace (c / 10 * (10 * 10 ^ i)) with (c * 10 ^ i); [lia|].
           replace c with (10 * (c / 10)) at 1 by lia. ring.
      * exists (j + 1). replace (i + (j + 1)) with (i + 1 + j) by lia. repeat split; auto; lia.
    + injection H as <- <-. exists 0. rewrite !Z.add_0_r. apply orb_false_iff in Q. repeat split; auto; lia.
Qed.

Lemma times10_ok : forall k s, 0 <= s -> s * 10 ^ Z.of_nat k < 4294967296 -> times10 k s = s * 10 ^ Z.of_nat k.
Proof.
  induction k; intros s Hs Hb; cbn [times10].
  - change (10 ^ Z.of_nat 0) with 1. lia.
  - assert (E : 10 ^ Z.of_nat (S k) = 10 * 10 ^ Z.of_nat k) by (rewrite Nat2Z.inj_succ, Z.pow_succ_r by lia; lia).
    assert (P : 1 <= 10 ^ Z.of_nat k) by (assert (0 < 10 ^ Z.of_nat k) by (apply Z.pow_pos_nonneg; lia); lia).
    rewrite E in Hb.
    assert (s * 10 < 4294967296).
    { assert (s * 10 * 1 <= s * 10 * 10 ^ Z.of_nat k) by (apply Z.mul_le_mono_nonneg_l; lia). lia. }
    unfold u32. rewrite Z.mod_small by lia. rewrite IHk by lia. rewrite E. ring.
Qed.

Lemma pack_ok : forall s e, 1 <= s <= 32 -> 0 <= e < 8 ->
  let b := u8 (Z.lor (Z.shiftl (s - 1) 3) e) in b = 8 * (s - 1) + e /\ Z.land b 7 = e /\ Z.shiftr b 3 + 1 = s.
Proof.
  intros s e Hs He. cbv zeta.
  assert (T : forallb (fun s => forallb (fun e => let b := u8 (Z.lor (Z.shiftl (s - 1) 3) e) in
      (b =? 8 * (s - 1) + e) && (Z.land b 7 =? e) && (Z.shiftr b 3 + 1 =? s)) (map Z.of_nat (seq 0 8)))
      (map Z.of_nat (seq 1 32)) = true) by (vm_compute; reflexivity).
  rewrite forallb_forall in T.
  assert (I1 : In s (map Z.of_nat (seq 1 32))).
  { apply in_map_iff. exists (Z.to_nat s). split; [lia|]. apply in_seq. lia. }
  assert (I2 : In e (map Z.of_nat (seq 0 8))).
  { apply in_map_iff. exists (Z.to_nat e). split; [lia|]. apply in_seq. lia. }
  specialize (T s I1). rewrite forallb_forall in T. specialize (T e I2). cbv beta zeta in T.
  apply andb_prop in T. destruct T as [T T3]. apply andb_prop in T. destruct T as [T1 T2].
  apply Z.eqb_eq in T1, T2, T3. auto.
Qed.

Lemma code_range : forall s, 0 <= s < 4294967296 -> 0 <= serialize_gw_speed s < 256.
Proof.
  intros s H. unfold serialize_gw_speed.
  destruct (s =? 0); [lia|]. cbv zeta. destruct (_ >=? MAX_SPEED); [lia|].
  destruct (shrink 7 _ 0). unfold u8. lia.
Qed.

(** what a receiver decodes: floor to a multiple of a power of ten *)
Lemma code_ok : forall s, 2 <= s < MAX_SPEED ->
  exists j, 0 <= j <= 7 /\ deserialize_gw_speed (serialize_gw_speed s) = s / 10 ^ j * 10 ^ j /\
    3 * s <= 4 * deserialize_gw_speed (serialize_gw_speed s).
Proof.
  intros s H. unfold MAX_SPEED in H.
  unfold serialize_gw_speed. unfold MAX_SPEED.
  destruct (Z.eqb_spec s 0); [lia|]. cbv zeta.
  destruct (Z.eqb_spec s 1); [lia|]. destruct (s >=? 320000000) eqn:G; [lia|].
  destruct (shrink 7 s 0) as [m e] eqn:S.
  assert (A1 : s = s / 10 ^ 0) by (change (10 ^ 0) with 1; rewrite Z.div_1_r; reflexivity).
  assert (A2 : s < 32 * 10 ^ Z.of_nat 7) by (change (32 * 10 ^ Z.of_nat 7) with 320000000; lia).
  assert (A3 : 3 * s <= 4 * (s * 10 ^ 0)) by (change (10 ^ 0) with 1; lia).
  destruct (shrink_ok 7 s s 0 0 m e) as (j & E1 & E2 & E3 & E4 & E5 & E6); auto; try lia.
  rewrite Z.add_0_l in E1, E3, E6. subst e.
  change (Z.of_nat 7) with 7 in *.
  destruct (pack_ok m j) as (B1 & B2 & B3); [lia|lia|].
  exists j. split; [lia|].
  assert (N0 : 8 * (m - 1) + j <> 0).
  { intros Z0. assert (m = 1 /\ j = 0) as [-> ->] by lia. change (10 ^ 0) with 1 in E3. rewrite Z.div_1_r in E3. lia. }
  assert (N255 : 8 * (m - 1) + j <> 255) by lia.
  assert (D : deserialize_gw_speed (u8 (Z.lor (Z.shiftl (m - 1) 3) j)) = m * 10 ^ j).
  { unfold deserialize_gw_speed. rewrite B2, B3, B1.
    destruct (Z.eqb_spec (8 * (m - 1) + j) 0); [lia|]. destruct (Z.eqb_spec (8 * (m - 1) + j) 255); [lia|].
    assert (10 ^ j <= 10 ^ 7) by (apply Z.pow_le_mono_r; lia). change (10 ^ 7) with 10000000 in *.
    assert (0 < 10 ^ j) by (apply Z.pow_pos_nonneg; lia).
    assert (m * 10 ^ j <= 32 * 10 ^ j) by (apply Z.mul_le_mono_nonneg_r; lia).
    assert (N : Z.of_nat (Z.to_nat j) = j) by lia.
    rewrite times10_ok; rewrite ?N; auto; lia. }
  rewrite D. subst m. split; [reflexivity|]. exact E6.
Qed.

Lemma code_max : forall s, MAX_SPEED <= s -> deserialize_gw_speed (serialize_gw_speed s) = MAX_SPEED.
Proof.
  intros s H. unfold serialize_gw_speed. unfold MAX_SPEED in *.
  destruct (Z.eqb_spec s 0); [lia|]. cbv zeta. destruct (Z.eqb_spec s 1); [lia|].
  destruct (s >=? 320000000) eqn:G; [reflexivity|lia].
Qed.

Lemma code_le : forall s, 0 <= s -> s <> 1 -> deserialize_gw_speed (serialize_gw_speed s) <= s.
Proof.
  intros s H N. destruct (Z.eq_dec s 0) as [->|]; [reflexivity|].
  destruct (Z_lt_le_dec s MAX_SPEED) as [L|L].
  - destruct (code_ok s) as (j & J & -> & _); [lia|].
    assert (0 < 10 ^ j) by (apply Z.pow_pos_nonneg; lia).
    rewrite Z.mul_comm. apply Z.mul_div_le. lia.
  - rewrite code_max; lia.
Qed.

(** *** costs *)
Lemma div_mono_num : forall a b d, 0 <= a -> a <= b -> 0 < d -> a / d <= b / d.
Proof. intros. apply Z.div_le_mono; lia. Qed.
Lemma div_mono_den : forall a d e, 0 <= a -> 0 < d -> d <= e -> a / e <= a / d.
Proof. intros. apply Z.div_le_compat_l; lia. Qed.
Lemma sh_nonneg : forall a k, 0 <= a -> 0 <= Z.shiftl a k.
Proof. intros. apply Z.shiftl_nonneg. auto. Qed.
Lemma sh_mono : forall a b k, 0 <= k -> a <= b -> Z.shiftl a k <= Z.shiftl b k.
Proof. intros. rewrite !Z.shiftl_mul_pow2 by lia. apply Z.mul_le_mono_nonneg_r; [apply Z.pow_nonneg; lia|lia]. Qed.
Lemma sh_lt : forall a b k, 0 <= k -> a < b -> Z.shiftl a k < Z.shiftl b k.
Proof. intros. rewrite !Z.shiftl_mul_pow2 by lia. apply Z.mul_lt_mono_pos_r; [apply Z.pow_pos_nonneg; lia|lia]. Qed.

Definition cfg_ok (c : gwcfg) : Prop :=
  0 <= gc_up c < 256 /\ 0 <= gc_down c < 256 /\ 0 <= gc_etx c < 256 /\ 0 <= gc_div c < 4294967296 /\ 0 <= gc_max c < 4294967296.

Lemma term_range : forall a d m, 0 <= a <= m -> 0 < d -> 0 <= Z.shiftl a 23 / d <= m * 8388608.
Proof.
  intros a d m Ha Hd. split; [apply Z.div_pos; [apply sh_nonneg|]; lia|].
  apply Z.le_trans with (Z.shiftl a 23).
  - apply Z.div_le_upper_bound; [lia|].
    assert (0 <= Z.shiftl a 23) by (apply sh_nonneg; lia).
    assert (1 * Z.shiftl a 23 <= d * Z.shiftl a 23) by (apply Z.mul_le_mono_nonneg_r; lia). lia.
  - rewrite Z.shiftl_mul_pow2 by lia. change (2 ^ 23) with 8388608. lia.
Qed.

Lemma weigh_range : forall c up p U D, cfg_ok c -> 0 <= p < 4294967296 -> 0 <= U -> 0 <= D ->
  0 <= gw_costs_weigh c up p U D <= INT64_MAX.
Proof.
  intros c up p U D (H1 & H2 & H3 & H4 & H5) Hp HU HD. unfold gw_costs_weigh, INT64_MAX.
  destruct up; cbn [negb]; [|lia].
  destruct (Z.eqb_spec (gc_div c) 0).
  { rewrite Z.shiftl_mul_pow2 by lia. change (2 ^ 31) with 2147483648. lia. }
  destruct ((U =? 0) || (D =? 0)) eqn:Z0; [lia|].
  destruct (_ && _); [lia|].
  apply orb_false_iff in Z0. destruct Z0.
  pose proof (term_range (1000 * gc_up c) U 255000 ltac:(lia) ltac:(lia)).
  pose proof (term_range (1000 * gc_down c) D 255000 ltac:(lia) ltac:(lia)).
  pose proof (term_range (u32 (p * gc_etx c)) (gc_div c) 4294967295 ltac:(unfold u32; lia) ltac:(lia)).
  lia.
Qed.

(** below the wrap of the 32-bit product, with an etx weight that is not
    drowned by the divider, the last term is at least the path cost *)
Lemma etx_term : forall c p, cfg_ok c -> 0 < gc_div c -> 0 <= p -> p * gc_etx c < 4294967296 ->
  gc_div c <= gc_etx c * 8388608 -> p <= Z.shiftl (u32 (p * gc_etx c)) 23 / gc_div c.
Proof.
  intros c p (H1 & H2 & H3 & H4 & H5) Hd Hp Hw Hdiv.
  assert (0 <= p * gc_etx c) by (apply Z.mul_nonneg_nonneg; lia).
  unfold u32. rewrite Z.mod_small by lia.
  apply Z.div_le_lower_bound; [lia|]. rewrite Z.shiftl_mul_pow2 by lia. change (2 ^ 23) with 8388608.
  assert (gc_div c * p <= gc_etx c * 8388608 * p) by (apply Z.mul_le_mono_nonneg_r; lia).
  replace (p * gc_etx c * 8388608) with (gc_etx c * 8388608 * p) by ring. lia.
Qed.

Lemma weigh_path : forall c up p1 p2 U D, cfg_ok c -> 0 <= p1 <= p2 -> p2 < 4294967296 -> 0 <= U -> 0 <= D ->
  p2 * gc_etx c < 4294967296 -> gc_div c <= gc_etx c * 8388608 ->
  gw_costs_weigh c up p1 U D <= gw_costs_weigh c up p2 U D.
Proof.
  intros c up p1 p2 U D K Hp Hp2 HU HD Hw Hdiv. unfold gw_costs_weigh.
  pose proof K as (H1 & H2 & H3 & H4 & H5).
  destruct up; cbn [negb]; [|lia].
  destruct (Z.eqb_spec (gc_div c) 0).
  { apply sh_mono; lia. }
  destruct ((U =? 0) || (D =? 0)) eqn:Z0; [lia|].
  apply orb_false_iff in Z0. destruct Z0.
  pose proof (term_range (1000 * gc_up c) U 255000 ltac:(lia) ltac:(lia)).
  pose proof (term_range (1000 * gc_down c) D 255000 ltac:(lia) ltac:(lia)).
  pose proof (etx_term c p2 K ltac:(lia) ltac:(lia) Hw Hdiv).
  assert (p1 * gc_etx c <= p2 * gc_etx c) by (apply Z.mul_le_mono_nonneg_r; lia).
  assert (0 <= p1 * gc_etx c) by (apply Z.mul_nonneg_nonneg; lia).
  assert (Z.shiftl (u32 (p1 * gc_etx c)) 23 / gc_div c <= Z.shiftl (u32 (p2 * gc_etx c)) 23 / gc_div c).
  { unfold u32. rewrite !Z.mod_small by lia. apply div_mono_num; [apply sh_nonneg; lia|apply sh_mono; lia|lia]. }
  destruct ((U >=? MAX_SPEED) && (D >=? MAX_SPEED)) eqn:F; cbn [andb].
  - destruct (Z.ltb_spec p1 (gc_max c)), (Z.ltb_spec p2 (gc_max c)); lia.
  - lia.
Qed.

Lemma weigh_bw : forall c up p U1 U2 D1 D2, cfg_ok c -> 0 <= p < 4294967296 -> 0 <= U1 <= U2 -> 0 <= D1 <= D2 ->
  p * gc_etx c < 4294967296 -> gc_div c <= gc_etx c * 8388608 ->
  gw_costs_weigh c up p U2 D2 <= gw_costs_weigh c up p U1 D1.
Proof.
  intros c up p U1 U2 D1 D2 K Hp HU HD Hw Hdiv.
  pose proof (weigh_range c up p U2 D2 K Hp ltac:(lia) ltac:(lia)) as R.
  unfold gw_costs_weigh in *. pose proof K as (H1 & H2 & H3 & H4 & H5).
  destruct up; cbn [negb] in *; [|lia].
  destruct (Z.eqb_spec (gc_div c) 0); [lia|].
  destruct ((U1 =? 0) || (D1 =? 0)) eqn:Z1; [lia|]. apply orb_false_iff in Z1. destruct Z1.
  assert (Z2 : (U2 =? 0) || (D2 =? 0) = false) by lia. rewrite Z2 in *.
  pose proof (term_range (1000 * gc_up c) U1 255000 ltac:(lia) ltac:(lia)).
  pose proof (term_range (1000 * gc_down c) D1 255000 ltac:(lia) ltac:(lia)).
  pose proof (etx_term c p K ltac:(lia) ltac:(lia) Hw Hdiv).
  pose proof (div_mono_den (Z.shiftl (1000 * gc_up c) 23) U1 U2 ltac:(apply sh_nonneg; lia) ltac:(lia) ltac:(lia)).
  pose proof (div_mono_den (Z.shiftl (1000 * gc_down c) 23) D1 D2 ltac:(apply sh_nonneg; lia) ltac:(lia) ltac:(lia)).
  clear R Hdiv Hw K.
  set (a1 := Z.shiftl (1000 * gc_up c) 23 / U1) in *. set (a2 := Z.shiftl (1000 * gc_up c) 23 / U2) in *.
  set (b1 := Z.shiftl (1000 * gc_down c) 23 / D1) in *. set (b2 := Z.shiftl (1000 * gc_down c) 23 / D2) in *.
  set (e := Z.shiftl (u32 (p * gc_etx c)) 23 / gc_div c) in *. clearbody a1 a2 b1 b2 e.
  destruct ((U2 >=? MAX_SPEED) && (D2 >=? MAX_SPEED) && (p <? gc_max c)) eqn:F2;
  destruct ((U1 >=? MAX_SPEED) && (D1 >=? MAX_SPEED) && (p <? gc_max c)) eqn:F1; try lia.
Qed.

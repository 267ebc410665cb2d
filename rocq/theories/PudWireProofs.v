From Verif Require Import Base PudWire PudWireSpec.

Lemma pow_cases : forall (P : Z -> Prop), P 0 -> P 1 -> P 2 -> P 3 -> P 4 -> P 5 -> P 6 -> P 7 -> P 8 -> P 9 -> P 10 ->
  P 11 -> P 12 -> P 13 -> P 14 -> P 15 -> forall m, 0 <= m <= 15 -> P m.
Proof.
  intros P H0 H1 H2 H3 H4 H5 H6 H7 H8 H9 H10 H11 H12 H13 H14 H15 m Hm.
  assert (E : m = 0 \/ m = 1 \/ m = 2 \/ m = 3 \/ m = 4 \/ m = 5 \/ m = 6 \/ m = 7 \/ m = 8 \/ m = 9 \/ m = 10 \/ m = 11 \/
    m = 12 \/ m = 13 \/ m = 14 \/ m = 15) by lia.
  repeat (destruct E as [E | E]; [subst; assumption|]). subst; assumption.
Qed.
Lemma from_pow m : 0 <= m <= 16 -> from_olsr m 0 = 16 * 2 ^ m - 16.
Proof.
  intros H. assert (E : m = 16 \/ 0 <= m <= 15) by lia. destruct E as [-> | E]; [reflexivity|].
  revert m E H. apply (pow_cases (fun m => 0 <= m <= 16 -> from_olsr m 0 = 16 * 2 ^ m - 16)); intros _; reflexivity.
Qed.
(** the loop finds the first exponent above *)
Lemma find_ok v : 0 <= v -> forall n m, 1 <= m -> m + Z.of_nat n = 16 -> 16 * 2 ^ (m - 1) - 16 <= v ->
  let r := find_msn n m v in 1 <= r <= 16 /\ 16 * 2 ^ (r - 1) - 16 <= v /\ (r < 16 -> v < 16 * 2 ^ r - 16).
Proof.
  intros V. induction n as [|n IH]; intros m M E L; cbn [find_msn].
  - split; [lia|]. split; [exact L|lia].
  - rewrite from_pow by lia. destruct ((m <? 16) && (v >=? 16 * 2 ^ m - 16)) eqn:B.
    + apply IH; try lia. replace (m + 1 - 1) with m by lia. lia.
    + split; [lia|]. split; [exact L|]. intros _. lia.
Qed.
Lemma find_cases v : 0 <= v ->
  exists e, 0 <= e <= 15 /\ find_msn 15 1 v = e + 1 /\ 16 * 2 ^ e - 16 <= v /\ (v < 32 * 2 ^ e - 16 \/ e = 15).
Proof.
  intros V. destruct (find_ok v V 15 1) as [A [B C]]; try (cbn; lia).
  exists (find_msn 15 1 v - 1). split; [lia|]. split; [lia|]. split; [exact B|].
  destruct (Z.eq_dec (find_msn 15 1 v) 16) as [E|E]; [right; lia|]. left.
  assert (L : find_msn 15 1 v < 16) by lia. apply C in L.
  assert (P : 2 ^ find_msn 15 1 v = 2 * 2 ^ (find_msn 15 1 v - 1)).
  { replace (find_msn 15 1 v) with (Z.succ (find_msn 15 1 v - 1)) at 1 by lia. rewrite Z.pow_succ_r by lia. reflexivity. }
  lia.
Qed.
Lemma shl1 e : 0 <= e -> Z.shiftl 1 e = 2 ^ e.
Proof. intros H. rewrite Z.shiftl_mul_pow2 by lia. lia. Qed.
(** the exponent and the mantissa written *)
Lemma msn_ok v : 0 <= v ->
  exists e, 0 <= e <= 15 /\
    ((16 * 2 ^ e - 16 <= v < 32 * 2 ^ e - 16 /\ msn_lsn v = (e, (v - (16 * 2 ^ e - 16) + 2 ^ e / 2) / 2 ^ e)) \/
     (e = 15 /\ 32 * 2 ^ 15 - 16 <= v /\ msn_lsn v = (15, 15))).
Proof.
  intros V. destruct (find_cases v V) as [e [E [F [L U]]]]. exists e. split; [exact E|].
  unfold msn_lsn. rewrite F. rewrite !from_pow by lia. replace (e + 1 - 1) with e by lia.
  assert (P : 2 ^ (e + 1) = 2 * 2 ^ e) by (rewrite Z.pow_add_r by lia; lia).
  rewrite P. destruct (v >=? 16 * (2 * 2 ^ e) - 16) eqn:B.
  - right. destruct U as [U|U]; [lia|]. subst e. split; [reflexivity|]. split; [lia|reflexivity].
  - left. split; [lia|]. rewrite !shl1 by lia. rewrite Z.shiftr_div_pow2 by lia. reflexivity.
Qed.
Lemma get_all : forallb (fun n => let m := Z.of_nat (n / 16) in let l := Z.of_nat (n mod 16) in
  get_validity (u8 (Z.lor (Z.shiftl m 4) l)) =? expressible m l) (seq 0 256) = true.
Proof. vm_compute. reflexivity. Qed.
Lemma get_ok m l : 0 <= m <= 15 -> 0 <= l <= 15 -> get_validity (u8 (Z.lor (Z.shiftl m 4) l)) = expressible m l.
Proof.
  intros M L. pose proof get_all as A. rewrite forallb_forall in A. specialize (A (Z.to_nat (16 * m + l))). cbv zeta in A.
  assert (I : In (Z.to_nat (16 * m + l)) (seq 0 256)) by (apply in_seq; lia). apply A in I. clear A.
  replace (Z.of_nat (Z.to_nat (16 * m + l) / 16)) with m in I by (rewrite Nat2Z.inj_div, Z2Nat.id by lia; change (Z.of_nat 16) with 16; lia).
  replace (Z.of_nat (Z.to_nat (16 * m + l) mod 16)) with l in I by (rewrite Nat2Z.inj_mod, Z2Nat.id by lia; change (Z.of_nat 16) with 16; lia).
  lia.
Qed.
(** everything expressible is at or below the start of an exponent, or at a multiple of the step above *)
Lemma pow_le a b : 0 <= a <= b -> 2 ^ a <= 2 ^ b.
Proof. intros H. apply Z.pow_le_mono_r; lia. Qed.
Lemma expr_far e l m k : 0 <= e <= 15 -> 0 <= l <= 15 -> 0 <= m <= 15 -> 0 <= k <= 15 ->
  expressible m k = expressible e l \/ expressible m k <= expressible e l - 2 ^ e \/
  (expressible m k >= expressible e l + 2 ^ e) \/ (l = 0 /\ expressible m k < expressible e l).
Proof.
  intros E L M K. unfold expressible. destruct (Z.lt_trichotomy m e) as [C|[C|C]].
  - assert (P : 2 ^ (m + 1) <= 2 ^ e) by (apply pow_le; lia). rewrite Z.pow_add_r in P by lia. change (2 ^ 1) with 2 in P.
    assert (Q : 0 < 2 ^ m) by (apply Z.pow_pos_nonneg; lia).
    assert (Q2 : (16 + k) * 2 ^ m <= 31 * 2 ^ m) by (apply Z.mul_le_mono_nonneg_r; lia).
    set (x := (16 + k) * 2 ^ m) in *. clearbody x. set (p := 2 ^ e) in *. clearbody p. set (q := 2 ^ m) in *. clearbody q.
    destruct (Z.eq_dec l 0) as [Z0|Z0].
    + subst l. right. right. right. split; [reflexivity|]. lia.
    + right. left. assert (17 * p <= (16 + l) * p) by (apply Z.mul_le_mono_nonneg_r; lia). lia.
  - subst m. set (p := 2 ^ e) in *. assert (Q : 0 < p) by (apply Z.pow_pos_nonneg; lia). clearbody p.
    destruct (Z.lt_trichotomy k l) as [D|[D|D]].
    + right. left. assert ((16 + k) * p <= (15 + l) * p) by (apply Z.mul_le_mono_nonneg_r; lia). lia.
    + left. subst. reflexivity.
    + right. right. left. assert ((17 + l) * p <= (16 + k) * p) by (apply Z.mul_le_mono_nonneg_r; lia). lia.
  - assert (P : 2 ^ (e + 1) <= 2 ^ m) by (apply pow_le; lia). rewrite Z.pow_add_r in P by lia. change (2 ^ 1) with 2 in P.
    assert (Q : 0 < 2 ^ e) by (apply Z.pow_pos_nonneg; lia).
    assert (Q2 : 16 * 2 ^ m <= (16 + k) * 2 ^ m) by (apply Z.mul_le_mono_nonneg_r; lia).
    assert (Q3 : (16 + l) * 2 ^ e <= 31 * 2 ^ e) by (apply Z.mul_le_mono_nonneg_r; lia).
    right. right. left. lia.
Qed.
(** rounding to a multiple of the step *)
Lemma round_step v b p : 0 < p -> (p = 1 \/ p mod 2 = 0) -> b <= v ->
  let l := (v - b + p / 2) / p in 2 * Z.abs (b + l * p - v) <= p /\ 0 <= l /\ (l = 0 -> b <= v).
Proof.
  intros P Hp B l. assert (D : p * l <= v - b + p / 2 < p * l + p).
  { unfold l. pose proof (Z.div_mod (v - b + p / 2) p ltac:(lia)) as A.
    pose proof (Z.mod_pos_bound (v - b + p / 2) p P) as A2. lia. }
  assert (H2 : p / 2 * 2 <= p) by lia.
  split; [|split; [|intros _; exact B]].
  - assert (H3 : p = 1 \/ p / 2 * 2 = p) by lia. clearbody l. set (h := p / 2) in *.
    rewrite (Z.mul_comm l p). set (pl := p * l) in *. clearbody pl. destruct H3 as [H3|H3].
    + subst p. assert (h = 0) by (unfold h; reflexivity). lia.
    + clearbody h. lia.
  - unfold l. apply Z.div_pos; [|exact P]. lia.
Qed.
Lemma pow_even e : 0 <= e -> 2 ^ e = 1 \/ 2 ^ e mod 2 = 0.
Proof.
  intros E. destruct (Z.eq_dec e 0) as [->|N]; [left; reflexivity|]. right.
  replace e with (Z.succ (e - 1)) by lia. rewrite Z.pow_succ_r by lia. rewrite Z.mul_comm. apply Z.mod_mul. lia.
Qed.
Lemma half_pow m : 1 <= m -> 2 ^ m / 2 = 2 ^ (m - 1) /\ 2 ^ m = 2 * 2 ^ (m - 1).
Proof.
  intros H. assert (E : 2 ^ m = 2 * 2 ^ (m - 1)) by (rewrite <- Z.pow_succ_r by lia; f_equal; lia).
  split; [|exact E]. rewrite E. rewrite Z.mul_comm. apply Z.div_mul. lia.
Qed.
Lemma lsn_border v e : 0 <= e <= 15 -> 16 * 2 ^ e - 16 <= v < 32 * 2 ^ e - 16 ->
  let l := (v - (16 * 2 ^ e - 16) + 2 ^ e / 2) / 2 ^ e in
  (at_border v <-> l = 16) /\ 0 <= l <= 16.
Proof.
  intros E V l. assert (P : 0 < 2 ^ e) by (apply Z.pow_pos_nonneg; lia).
  assert (D : 2 ^ e * l <= v - (16 * 2 ^ e - 16) + 2 ^ e / 2 < 2 ^ e * l + 2 ^ e).
  { unfold l. set (x := v - (16 * 2 ^ e - 16) + 2 ^ e / 2). clearbody x. set (p := 2 ^ e) in *. clearbody p.
    pose proof (Z.div_mod x p ltac:(lia)) as A. pose proof (Z.mod_pos_bound x p P) as A2. lia. }
  assert (H0 : 0 <= 2 ^ e / 2 /\ 2 * (2 ^ e / 2) <= 2 ^ e).
  { set (p := 2 ^ e) in *. clearbody p. lia. }
  assert (B : 0 <= l <= 16).
  { clearbody l. set (p := 2 ^ e) in *. clearbody p. set (h := p / 2) in *. clearbody h.
    split.
    - destruct (Z.lt_ge_cases l 0) as [C|C]; [|exact C]. assert (p * l <= p * (-1)) by (apply Z.mul_le_mono_nonneg_l; lia). lia.
    - destruct (Z.lt_ge_cases 16 l) as [C|C]; [|exact C]. assert (p * 17 <= p * l) by (apply Z.mul_le_mono_nonneg_l; lia). lia. }
  split; [|exact B]. split.
  - intros [m [M R]]. destruct (half_pow m ltac:(lia)) as [_ HM].
    assert (ME : m = e).
    { assert (Pm : 0 < 2 ^ (m - 1)) by (apply Z.pow_pos_nonneg; lia).
      destruct (Z.lt_trichotomy m e) as [C|[C|C]]; [|exact C|].
      - assert (Q : 2 ^ (m + 1) <= 2 ^ e) by (apply pow_le; lia). rewrite Z.pow_add_r in Q by lia. change (2 ^ 1) with 2 in Q. lia.
      - assert (Q : 2 ^ (e + 1) <= 2 ^ m) by (apply pow_le; lia). rewrite Z.pow_add_r in Q by lia. change (2 ^ 1) with 2 in Q. lia. }
    subst m. destruct (half_pow e ltac:(lia)) as [Hh _]. rewrite Hh in D.
    clearbody l. set (h := 2 ^ (e - 1)) in *. clearbody h. rewrite HM in *. clear Hh P H0.
    destruct (Z.eq_dec l 16) as [C|C]; [exact C|]. assert (2 * h * l <= 2 * h * 15) by (apply Z.mul_le_mono_nonneg_l; lia). lia.
  - intros L. rewrite L in D. destruct (Z.eq_dec e 0) as [Z0|Z0].
    + exfalso. subst e. change (2 ^ 0) with 1 in *. change (1 / 2) with 0 in D. lia.
    + exists e. split; [lia|]. destruct (half_pow e ltac:(lia)) as [Hh _]. rewrite Hh in D. lia.
Qed.
Lemma far_border v : 32 * 2 ^ 15 - 16 <= v -> ~ at_border v.
Proof.
  intros V [m [M R]]. assert (Q : 2 ^ m <= 2 ^ 15) by (apply pow_le; lia). assert (0 < 2 ^ (m - 1)) by (apply Z.pow_pos_nonneg; lia). lia.
Qed.
Lemma expr_max m l : 0 <= m <= 15 -> 0 <= l <= 15 -> expressible m l <= expressible 15 15.
Proof.
  intros M L. unfold expressible. assert (Q : 2 ^ m <= 2 ^ 15) by (apply pow_le; lia).
  assert (P : 0 < 2 ^ m) by (apply Z.pow_pos_nonneg; lia).
  assert ((16 + l) * 2 ^ m <= 31 * 2 ^ m) by (apply Z.mul_le_mono_nonneg_r; lia).
  assert (31 * 2 ^ m <= 31 * 2 ^ 15) by (apply Z.mul_le_mono_nonneg_l; lia). lia.
Qed.
Theorem validity_near nd v : 0 <= v -> ~ at_border v ->
  exists f, set_validity nd v = Some f /\ 0 <= f <= 255 /\ nearest v (get_validity f).
Proof.
  intros V NB. destruct (msn_ok v V) as [e [E [[R M]|[E15 [R M]]]]].
  - destruct (lsn_border v e E R) as [BI BR]. unfold set_validity. rewrite M.
    pose proof (round_step v (16 * 2 ^ e - 16) (2 ^ e) ltac:(apply Z.pow_pos_nonneg; lia) (pow_even e ltac:(lia)) ltac:(lia)) as RS.
    cbv zeta in BI, BR, RS. set (l := (v - (16 * 2 ^ e - 16) + 2 ^ e / 2) / 2 ^ e) in *. clearbody l.
    assert (L : 0 <= l <= 15). { destruct (Z.eq_dec l 16) as [C|C]; [|lia]. exfalso. apply NB, BI. exact C. }
    replace (negb nd && negb ((e <=? 15) && (l <=? 15))) with false by (destruct nd; lia).
    eexists. split; [reflexivity|]. split; [unfold u8; lia|]. rewrite get_ok by lia.
    split; [exists e, l; repeat split; lia|]. intros m k Hm Hk.
    destruct RS as [R1 [R2 R3]].
    assert (EX : expressible e l = 16 * 2 ^ e - 16 + l * 2 ^ e) by (unfold expressible; lia).
    destruct (expr_far e l m k E L Hm Hk) as [F|[F|[F|[F0 F]]]].
    + rewrite F. lia.
    + lia.
    + lia.
    + subst l. lia.
  - unfold set_validity. rewrite M. exists 255. split; [destruct nd; reflexivity|]. split; [lia|].
    assert (GE : get_validity 255 = expressible 15 15) by reflexivity. rewrite GE.
    split; [exists 15, 15; repeat split; lia|]. intros m k Hm Hk. pose proof (expr_max m k Hm Hk) as EM.
    assert (expressible 15 15 <= v) by (change (expressible 15 15) with 1015792; change (32 * 2 ^ 15 - 16) with 1048560 in R; lia). lia.
Qed.
Theorem validity_abort v : 0 <= v -> at_border v -> set_validity false v = None.
Proof.
  intros V B. destruct (msn_ok v V) as [e [E [[R M]|[E15 [R M]]]]].
  - destruct (lsn_border v e E R) as [BI BR]. cbv zeta in BI. apply BI in B. unfold set_validity. rewrite M. rewrite B.
    cbn. destruct (e <=? 15); reflexivity.
  - exfalso. exact (far_border v R B).
Qed.

(** * the time *)
Theorem time_ok x b : Z.abs (x - b) < 43200 ->
  let f := set_time (x mod 86400 / 3600) (x mod 3600 / 60) (x mod 60) in
  let t := get_time f b in
  instant (t_day t) (t_hour t) (t_min t) (t_sec t) = x /\ 0 <= t_hour t < 24 /\ 0 <= t_min t < 60 /\ 0 <= t_sec t < 60.
Proof.
  intros H f. assert (F : f = x mod 86400).
  { unfold f, set_time. change (2 ^ 17) with 131072. lia. }
  clearbody f. subst f. unfold get_time, gmtime. cbn [t_day t_hour t_min t_sec]. change (24 * 60 * 60) with 86400. change (12 * 60 * 60) with 43200.
  assert (SN : b mod 86400 / 3600 * 60 * 60 + b mod 3600 / 60 * 60 + b mod 60 = b mod 86400) by lia.
  rewrite SN. clear SN. cbv zeta. cbn [t_day t_hour t_min t_sec].
  assert (HH : forall d, instant d (x mod 86400 mod 86400 / 3600) (x mod 86400 mod (60 * 60) / 60) (x mod 86400 mod 60) = d * 86400 + x mod 86400).
  { intros d. unfold instant. change (60 * 60) with 3600. lia. }
  rewrite HH. clear HH. split; [|change (60 * 60) with 3600; split; [|split]; lia].
  destruct (b mod 86400 <=? 43200) eqn:A.
  - destruct (x mod 86400 >? b mod 86400 + 43200) eqn:C; cbn [t_day]; lia.
  - destruct (x mod 86400 <? b mod 86400 - 43200) eqn:C; cbn [t_day]; lia.
Qed.

(** * rounding *)
Lemma lrint_ok x : rounded x (lrint x).
Proof.
  unfold rounded, lrint, one. change (2 ^ 20) with 1048576. change (1048576 / 2) with 524288.
  destruct ((x mod 1048576 =? 524288) && Z.odd ((x + 524288) / 1048576)) eqn:B; lia.
Qed.
Theorem alt_ok x : let a := get_alt (set_alt x) in
  (-400 * 2 ^ 20 <= x <= 65135 * 2 ^ 20 -> rounded x a) /\
  (x < -400 * 2 ^ 20 -> a = -400) /\ (65135 * 2 ^ 20 < x -> a = 65135).
Proof.
  unfold get_alt, set_alt, ALT_MAX, ALT_MIN, one. change (2 ^ 20) with 1048576. change (2 ^ 16) with 65536.
  set (a := if x >? (65536 - 1 + -400) * 1048576 then (65536 - 1 + -400) * 1048576 else if x <? -400 * 1048576 then -400 * 1048576 else x).
  pose proof (lrint_ok (a - -400 * 1048576)) as L. unfold rounded in *. change (2 ^ 20) with 1048576 in L.
  set (r := lrint (a - -400 * 1048576)) in *. clearbody r.
  assert (HA : (-400 * 1048576 <= x <= 65135 * 1048576 -> a = x) /\ (x < -400 * 1048576 -> a = -400 * 1048576) /\ (65135 * 1048576 < x -> a = 65135 * 1048576)).
  { unfold a. destruct (x >? (65536 - 1 + -400) * 1048576) eqn:B1; [lia|]. destruct (x <? -400 * 1048576) eqn:B2; lia. }
  clearbody a. change (2 ^ 20) with 1048576. destruct HA as [H1 [H2 H3]].
  split; [|split]; intros H.
  - apply H1 in H as A. subst a. rewrite Z.mod_small by lia. lia.
  - apply H2 in H as A. subst a. rewrite Z.mod_small by lia. lia.
  - apply H3 in H as A. subst a. rewrite Z.mod_small by lia. lia.
Qed.
Theorem speed_ok x : let s := set_speed x in
  (0 <= x <= 4095 * 2 ^ 20 -> rounded x s) /\ (x < 0 -> s = 0) /\ (4095 * 2 ^ 20 < x -> s = 4095).
Proof.
  unfold set_speed, one. change (2 ^ 20) with 1048576. change (2 ^ 12) with 4096.
  set (a := if x <? 0 then 0 else if x >? (4096 - 1) * 1048576 then (4096 - 1) * 1048576 else x).
  pose proof (lrint_ok a) as L. unfold rounded in *. change (2 ^ 20) with 1048576 in L.
  set (r := lrint a) in *. clearbody r.
  assert (HA : (0 <= x <= 4095 * 1048576 -> a = x) /\ (x < 0 -> a = 0) /\ (4095 * 1048576 < x -> a = 4095 * 1048576)).
  { unfold a. destruct (x <? 0) eqn:B1; [lia|]. destruct (x >? (4096 - 1) * 1048576) eqn:B2; lia. }
  clearbody a. change (2 ^ 20) with 1048576. destruct HA as [H1 [H2 H3]].
  split; [|split]; intros H.
  - apply H1 in H as A. subst a. rewrite Z.mod_small by lia. lia.
  - apply H2 in H as A. subst a. rewrite Z.mod_small by lia. lia.
  - apply H3 in H as A. subst a. rewrite Z.mod_small by lia. lia.
Qed.
Theorem track_ok x : 0 <= x <= 360 * 2 ^ 20 -> rounded x (set_track x).
Proof.
  intros H. unfold set_track. pose proof (lrint_ok x) as L. unfold rounded in *. change (2 ^ 20) with 1048576 in *. change (2 ^ 9) with 512.
  set (r := lrint x) in *. clearbody r. rewrite Z.mod_small by lia. lia.
Qed.

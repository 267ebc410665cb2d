From Verif Require Import Base Hyst HystSpec.

Lemma rne_le n e y : 0 <= e -> n <= y * 2 ^ e -> rne n e <= y.
Proof.
  intros E H. unfold rne. destruct (Z.eqb_spec e 0) as [->|N]; [rewrite Z.mul_1_r in H; exact H|].
  pose proof (Z.pow_pos_nonneg 2 e ltac:(lia) E) as P. pose proof (Z.pow_pos_nonneg 2 (e - 1) ltac:(lia) ltac:(lia)) as P1.
  pose proof (Z.div_mod n (2 ^ e) ltac:(lia)) as D. pose proof (Z.mod_pos_bound n (2 ^ e) P) as M.
  set (q := n / 2 ^ e) in *. set (r := n mod 2 ^ e) in *. clearbody q r. set (w := 2 ^ e) in *. clearbody w.
  assert (q <= y) by nia. assert (Q : r > 0 -> q + 1 <= y) by (intros; nia).
  destruct (r <? 2 ^ (e - 1)) eqn:A; [assumption|]. apply Z.ltb_ge in A. destruct (r >? 2 ^ (e - 1)); [apply Q; lia|]. destruct (Z.even q); [assumption|apply Q; lia].
Qed.
Lemma rne_ge n e y : 0 <= e -> y * 2 ^ e <= n -> y <= rne n e.
Proof.
  intros E H. unfold rne. destruct (Z.eqb_spec e 0) as [->|N]; [rewrite Z.mul_1_r in H; exact H|].
  pose proof (Z.pow_pos_nonneg 2 e ltac:(lia) E) as P.
  assert (y <= n / 2 ^ e) by (apply Z.div_le_lower_bound; [exact P|lia]).
  destruct (_ <? _); [assumption|]. destruct (_ >? _); [lia|]. destruct (Z.even _); lia.
Qed.
Lemma rne_err n e : 0 <= e -> 2 * Z.abs (rne n e * 2 ^ e - n) <= 2 ^ e.
Proof.
  intros E. unfold rne. destruct (Z.eqb_spec e 0) as [->|N]; [rewrite Z.mul_1_r, Z.sub_diag; cbn; lia|].
  pose proof (Z.pow_pos_nonneg 2 (e - 1) ltac:(lia) ltac:(lia)) as P1. assert (W : 2 ^ e = 2 * 2 ^ (e - 1)) by (rewrite <- Z.pow_succ_r by lia; f_equal; lia).
  pose proof (Z.div_mod n (2 ^ e) ltac:(lia)) as D. pose proof (Z.mod_pos_bound n (2 ^ e) ltac:(lia)) as M.
  set (q := n / 2 ^ e) in *. set (r := n mod 2 ^ e) in *. clearbody q r. rewrite W in *. set (w := 2 ^ (e - 1)) in *. clearbody w.
  assert (X : n = 2 * w * q + r) by exact D. assert (Y0 : q * (2 * w) - n = - r) by nia. assert (Y1 : (q + 1) * (2 * w) - n = 2 * w - r) by nia.
  destruct (r <? w) eqn:A; [rewrite Y0; lia|]. destruct (r >? w) eqn:B; [rewrite Y1; lia|]. destruct (Z.even q); [rewrite Y0|rewrite Y1]; lia.
Qed.

Lemma pow_split a b : 0 <= a -> 0 <= b -> 2 ^ (a + b) = 2 ^ a * 2 ^ b.
Proof. intros. apply Z.pow_add_r; assumption. Qed.
Lemma flt_le n sh y : 0 <= n -> 0 <= sh -> binary32 y -> n <= y * 2 ^ sh -> flt n sh <= y.
Proof.
  intros N S [k [j [K [J ->]]]] H. unfold flt. set (e := Z.max sh (Z.log2 n - 23)). cbv zeta.
  destruct (Z.le_gt_cases (Z.log2 n - 23) sh) as [C|C].
  - assert (E : e = sh) by (unfold e; lia). rewrite E, Z.sub_diag, Z.mul_1_r. apply rne_le; assumption.
  - assert (E : e = Z.log2 n - 23) by (unfold e; lia). clearbody e. assert (L : 24 <= Z.log2 n) by lia.
    assert (NP : 0 < n) by (destruct (Z.eq_dec n 0) as [->|]; [cbn in L; lia|lia]). pose proof (Z.log2_spec n NP) as [B _].
    assert (KP : 0 < k) by (destruct (Z.eq_dec k 0) as [->|]; [cbn in H; lia|lia]).
    assert (G : e <= j + sh).
    { destruct (Z.le_gt_cases e (j + sh)) as [|F]; [assumption|exfalso]. assert (Q : k * 2 ^ j * 2 ^ sh < 2 ^ 24 * 2 ^ (j + sh)).
      { rewrite <- Z.mul_assoc, <- pow_split by lia. apply Z.mul_lt_mono_pos_r; [apply Z.pow_pos_nonneg; lia|lia]. }
      rewrite <- pow_split in Q by lia. assert (2 ^ (24 + (j + sh)) <= 2 ^ Z.log2 n) by (apply Z.pow_le_mono_r; lia). lia. }
    assert (R : k * 2 ^ j * 2 ^ sh = (k * 2 ^ (j + sh - e)) * 2 ^ e) by (rewrite <- !Z.mul_assoc, <- !pow_split by lia; f_equal; f_equal; lia).
    assert (A : rne n e <= k * 2 ^ (j + sh - e)) by (apply rne_le; [lia|lia]).
    assert (T : k * 2 ^ j = (k * 2 ^ (j + sh - e)) * 2 ^ (e - sh)) by (rewrite <- Z.mul_assoc, <- pow_split by lia; f_equal; f_equal; lia).
    rewrite T. apply Z.mul_le_mono_nonneg_r; [apply Z.pow_nonneg; lia|exact A].
Qed.
Lemma flt_nonneg n sh : 0 <= n -> 0 <= sh -> 0 <= flt n sh.
Proof.
  intros N S. unfold flt. apply Z.mul_nonneg_nonneg; [|apply Z.pow_nonneg; lia]. apply rne_ge; [lia|]. rewrite Z.mul_0_l. exact N.
Qed.
Lemma rne_bin n e : 0 <= n -> 0 <= e -> Z.log2 n - 23 <= e -> 0 <= rne n e <= 2 ^ 24.
Proof.
  intros N E L. split; [apply rne_ge; [exact E|rewrite Z.mul_0_l; exact N]|]. apply rne_le; [exact E|]. rewrite <- pow_split by lia.
  destruct (Z.eq_dec n 0) as [->|]; [apply Z.pow_nonneg; lia|]. pose proof (Z.log2_spec n ltac:(lia)) as [_ B].
  assert (2 ^ Z.succ (Z.log2 n) <= 2 ^ (24 + e)) by (apply Z.pow_le_mono_r; lia). lia.
Qed.
Lemma flt_bin n sh : 0 <= n -> 0 <= sh -> binary32 (flt n sh).
Proof.
  intros N S. unfold flt. set (e := Z.max sh (Z.log2 n - 23)). cbv zeta. pose proof (rne_bin n e N ltac:(lia) ltac:(lia)) as B.
  destruct (Z.eq_dec (rne n e) (2 ^ 24)) as [->|D].
  - exists (2 ^ 23), (e - sh + 1). split; [lia|]. split; [lia|]. rewrite pow_split by lia. replace (2 ^ 24) with (2 ^ 23 * 2 ^ 1) by reflexivity. ring.
  - exists (rne n e), (e - sh). split; [lia|]. split; [lia|reflexivity].
Qed.
(** error of one rounding, for results up to 1 *)
Lemma flt_err n sh : 0 <= n <= 2 ^ (149 + sh) -> 0 <= sh -> Z.abs (flt n sh * 2 ^ sh - n) <= 2 ^ (125 + sh).
Proof.
  intros N S. unfold flt. set (e := Z.max sh (Z.log2 n - 23)). cbv zeta. assert (E : sh <= e <= 126 + sh).
  { split; [lia|]. assert (Z.log2 n <= 149 + sh); [|lia]. rewrite <- (Z.log2_pow2 (149 + sh)) by lia. apply Z.log2_le_mono. lia. }
  pose proof (rne_err n e ltac:(lia)) as R. rewrite <- Z.mul_assoc, <- pow_split by lia. replace (e - sh + sh) with e by lia.
  assert (2 ^ e <= 2 ^ (126 + sh)) by (apply Z.pow_le_mono_r; lia). assert (X : 2 ^ (126 + sh) = 2 * 2 ^ (125 + sh)) by (rewrite <- Z.pow_succ_r by lia; f_equal; lia). lia.
Qed.

Lemma one_bin : binary32 ONE.
Proof. exists 1, 149. split; [lia|]. split; [lia|reflexivity]. Qed.
Lemma one_pos : 0 < ONE. Proof. reflexivity. Qed.

Lemma one_split : 2 ^ 23 * 2 ^ 126 = ONE. Proof. reflexivity. Qed.
Lemma pow_lt : 2 ^ 124 < 2 ^ (126 - 1). Proof. reflexivity. Qed.
Lemma pow_lt0 : 2 ^ 124 < ONE. Proof. reflexivity. Qed.
Lemma one_twice : 2 ^ Z.succ 149 = ONE + ONE. Proof. reflexivity. Qed.
Lemma log2_one n : ONE <= n < ONE + ONE -> Z.log2 n = 149.
Proof. intros H. apply Z.log2_unique; [lia|]. rewrite one_twice. exact H. Qed.
Lemma rne_low n e q : 0 < e -> q * 2 ^ e <= n < q * 2 ^ e + 2 ^ (e - 1) -> rne n e = q.
Proof.
  intros E H. unfold rne. destruct (Z.eqb_spec e 0); [lia|]. assert (W : 2 ^ e = 2 * 2 ^ (e - 1)) by (rewrite <- Z.pow_succ_r by lia; f_equal; lia).
  pose proof (Z.pow_pos_nonneg 2 (e - 1) ltac:(lia) ltac:(lia)) as P.
  assert (D : n / 2 ^ e = q) by (symmetry; apply (Z.div_unique n (2 ^ e) q (n - q * 2 ^ e)); [left; lia|lia]).
  assert (M : n mod 2 ^ e = n - q * 2 ^ e) by (symmetry; apply (Z.mod_unique n (2 ^ e) q (n - q * 2 ^ e)); [left; lia|lia]).
  rewrite D, M. assert (Q : (n - q * 2 ^ e <? 2 ^ (e - 1)) = true) by lia. rewrite Q. reflexivity.
Qed.
Section P.
Variable p : hparam.
Hypothesis S2 : 0 <= scaling p <= ONE.
Let t := fsub ONE (scaling p).
Lemma t_range : 0 <= t <= ONE /\ binary32 t.
Proof.
  unfold t, fsub. split; [split; [apply flt_nonneg; lia|]|apply flt_bin; lia]. apply flt_le; [lia|lia|apply one_bin|]. rewrite Z.mul_1_r. lia.
Qed.
Lemma t_err : t + scaling p <= ONE + 2 ^ 124.
Proof.
  unfold t, fsub, flt. set (n := ONE - scaling p). destruct (Z.eq_dec (scaling p) 0) as [Z0|NZ].
  - assert (T : t <= ONE) by apply t_range. unfold t, fsub, flt in T. fold n in T. rewrite Z0. pose proof (Z.pow_pos_nonneg 2 124 ltac:(lia) ltac:(lia)). lia.
  - set (e := Z.max 0 (Z.log2 n - 23)). cbv zeta. assert (N : 0 <= n < ONE) by lia. assert (E : 0 <= e <= 125).
    { split; [lia|]. assert (Z.log2 n < 149); [|lia]. destruct (Z.eq_dec n 0) as [->|]; [cbn; lia|]. apply Z.log2_lt_pow2; [lia|]. exact (proj2 N). }
    pose proof (rne_err n e ltac:(lia)) as R. rewrite Z.sub_0_r. assert (2 ^ e <= 2 ^ 125) by (apply Z.pow_le_mono_r; lia).
    assert (X : 2 ^ 125 = 2 * 2 ^ 124) by reflexivity. set (w := 2 ^ 124) in *. clearbody w. assert (n + scaling p = ONE) by (unfold n; lia). lia.
Qed.
Lemma mul_le q : 0 <= q <= ONE -> 0 <= fmul t q <= t.
Proof.
  intros Q. destruct t_range as [T1 T2]. unfold fmul. split; [apply flt_nonneg; [apply Z.mul_nonneg_nonneg; lia|lia]|].
  apply flt_le; [apply Z.mul_nonneg_nonneg; lia|lia|exact T2|]. fold ONE. apply Z.mul_le_mono_nonneg_l; lia.
Qed.
Lemma mul_le_q q : 0 <= q -> binary32 q -> fmul t q <= q.
Proof.
  intros Q B. destruct t_range as [T1 T2]. unfold fmul.
  apply flt_le; [apply Z.mul_nonneg_nonneg; lia|lia|exact B|]. fold ONE. rewrite Z.mul_comm. apply Z.mul_le_mono_nonneg_l; lia.
Qed.
Lemma add_le m : 0 <= m <= t -> 0 <= fadd m (scaling p) <= ONE.
Proof.
  intros M. unfold fadd. split; [apply flt_nonneg; lia|]. pose proof t_err as T. set (n := m + scaling p) in *.
  assert (N : 0 <= n <= ONE + 2 ^ 124) by lia. clearbody n. destruct (Z.le_gt_cases n ONE) as [L|G].
  - apply flt_le; [lia|lia|apply one_bin|lia].
  - unfold flt. assert (L : Z.log2 n = 149).
    { apply log2_one. pose proof pow_lt0. lia. }
    rewrite L. replace (Z.max 0 (149 - 23)) with 126 by lia. cbv zeta. assert (R : rne n 126 <= 2 ^ 23).
    { apply Z.eq_le_incl. apply rne_low; [lia|]. rewrite one_split. pose proof pow_lt. lia. }
    rewrite Z.sub_0_r, <- one_split.
    apply Z.mul_le_mono_nonneg_r; [apply Z.pow_nonneg; lia|exact R].
Qed.
Lemma stab_range q : 0 <= q <= ONE -> 0 <= stability p q <= ONE.
Proof. intros Q. unfold stability. fold t. apply add_le. apply mul_le. exact Q. Qed.
Lemma inst_range q : 0 <= q <= ONE -> 0 <= instability p q <= ONE.
Proof. intros Q. unfold instability. fold t. pose proof (mul_le q Q). pose proof t_range as [T _]. lia. Qed.
Lemma lose_range n : forall q, 0 <= q <= ONE -> 0 <= lose p n q <= ONE.
Proof. induction n as [|n IH]; intros q Q; cbn [lose]; [exact Q|]. pose proof (inst_range q Q) as R. destruct (_ <? _); [exact R|apply IH; exact R]. Qed.
Lemma process_q h : quality (process p h) = quality h.
Proof. unfold process. destruct (_ >? _); [reflexivity|]. destruct (_ <? _); reflexivity. Qed.
Lemma timeout_q h : forall q, q = instability p (quality h) -> quality (hello_timeout p h) = q.
Proof.
  intros q ->. unfold hello_timeout. generalize (instability p (quality h)). intros q. cbv zeta. cbn [quality]. rewrite process_q. reflexivity.
Qed.
Lemma incoming_q h seq : exists n, quality (incoming p h seq) = lose p n (stability p (quality h)).
Proof.
  unfold incoming. generalize (stability p (quality h)). intros q. cbn [quality]. destruct (valid h && _).
  - eexists. reflexivity.
  - exists O. reflexivity.
Qed.
Lemma step_range h e : 0 <= quality h <= ONE -> 0 <= quality (hstep p h e) <= ONE.
Proof.
  intros Q. destruct e; cbn [hstep].
  - destruct (incoming_q h seq) as [n ->]. apply lose_range. apply stab_range. exact Q.
  - rewrite process_q. exact Q.
  - rewrite (timeout_q h _ eq_refl). apply inst_range. exact Q.
Qed.
Lemma run_range l : 0 <= quality (hrun p l) <= ONE.
Proof.
  unfold hrun. assert (H : 0 <= quality hinit <= ONE) by (cbn; pose proof one_pos; lia). revert H. generalize hinit.
  induction l as [|e l IH]; intros h H; cbn [fold_left]; [exact H|]. apply IH. apply step_range. exact H.
Qed.
(** how much a received packet gains *)
Lemma stab_gain q : 0 <= q <= ONE -> ONE * stability p q >= ONE * q + scaling p * (ONE - q) - ONE * (3 * 2 ^ 125).
Proof.
  intros Q. unfold stability. fold t. destruct t_range as [T1 _]. pose proof (mul_le q Q) as M. set (m := fmul t q) in *.
  pose proof (add_le m M) as A.
  assert (E1 : Z.abs (t - (ONE - scaling p)) <= 2 ^ 125).
  { pose proof (flt_err (ONE - scaling p) 0) as F. replace (149 + 0) with 149 in F by lia. replace (125 + 0) with 125 in F by lia.
    rewrite Z.pow_0_r, Z.mul_1_r in F. unfold t, fsub. apply F; [fold ONE; lia|lia]. }
  assert (E2 : Z.abs (m * ONE - t * q) <= 2 ^ 125 * ONE).
  { pose proof (flt_err (t * q) 149) as F. fold ONE in F. rewrite !pow_split in F by lia. fold ONE in F. apply F; [|lia].
    split; [apply Z.mul_nonneg_nonneg; lia|]. apply Z.mul_le_mono_nonneg; lia. }
  assert (E3 : fadd m (scaling p) >= m + scaling p - 2 ^ 125).
  { pose proof t_err as TE. unfold fadd. destruct (Z.le_gt_cases (m + scaling p) ONE) as [L|G].
    - pose proof (flt_err (m + scaling p) 0) as F. replace (149 + 0) with 149 in F by lia. replace (125 + 0) with 125 in F by lia.
      rewrite Z.pow_0_r, Z.mul_1_r in F. fold ONE in F. assert (X : 0 <= m + scaling p <= ONE) by lia. specialize (F X ltac:(lia)). lia.
    - assert (X : ONE <= flt (m + scaling p) 0).
      { unfold flt. set (e := Z.max 0 (Z.log2 (m + scaling p) - 23)). cbv zeta. rewrite Z.sub_0_r. assert (LL : Z.log2 (m + scaling p) = 149).
        { apply log2_one. pose proof pow_lt0. lia. }
        assert (EE : e = 126) by (unfold e; rewrite LL; lia). rewrite EE. replace ONE with (2 ^ 23 * 2 ^ 126) by reflexivity.
        apply Z.mul_le_mono_nonneg_r; [apply Z.pow_nonneg; lia|]. apply rne_ge; [lia|]. replace (2 ^ 23 * 2 ^ 126) with ONE by reflexivity. lia. }
      assert (2 ^ 124 < 2 ^ 125) by reflexivity. lia. }
  set (f := fadd m (scaling p)) in *. clearbody f m. set (w := 2 ^ 125) in *. clearbody w. set (o := ONE) in *.
  assert (OP : 0 < o) by (apply one_pos). clearbody o. set (tt := t) in *. clearbody tt. set (s := scaling p) in *. clearbody s.
  assert (A1 : o * f >= o * (m + s - w)) by nia. assert (A2 : o * m >= tt * q - w * o) by lia.
  assert (A3 : tt * q >= (o - s) * q - w * q) by nia. assert (A4 : w * q <= w * o) by nia. nia.
Qed.
End P.

Section G.
Variable p : hparam.
Hypothesis S2 : 2 ^ 142 <= scaling p <= ONE.
(** far from 1 each packet gains at least 2^-19; near 1 it loses at most 2^-22 *)
Lemma gain q : 0 <= q <= ONE -> (q <= ONE - 2 ^ 138 -> q + 2 ^ 130 <= stability p q) /\ q - 2 ^ 127 <= stability p q.
Proof.
  intros Q. assert (S0 : 0 <= scaling p <= ONE) by (assert (0 <= 2 ^ 142) by (apply Z.pow_nonneg; lia); lia).
  pose proof (stab_gain p S0 q Q) as G. set (f := stability p q) in *. clearbody f.
  assert (W : 3 * 2 ^ 125 < 2 ^ 127) by reflexivity. assert (W2 : 2 ^ 127 + 2 ^ 130 < 2 ^ 131) by reflexivity.
  assert (OP : 0 < ONE) by apply one_pos.
  split.
  - intros L. assert (X : scaling p * (ONE - q) >= 2 ^ 142 * 2 ^ 138) by (apply Z.le_ge; apply Z.mul_le_mono_nonneg; try lia; apply Z.pow_nonneg; lia).
    replace (2 ^ 142 * 2 ^ 138) with (ONE * 2 ^ 131) in X by reflexivity. set (o := ONE) in *. set (b := 3 * 2 ^ 125) in *. set (c := 2 ^ 127) in *. set (d := 2 ^ 130) in *. set (k := 2 ^ 131) in *.
    clearbody o b c d k. assert (o * f >= o * (q + k - b)) by nia. nia.
  - assert (X : scaling p * (ONE - q) >= 0) by (apply Z.le_ge; apply Z.mul_nonneg_nonneg; lia). set (o := ONE) in *. set (b := 3 * 2 ^ 125) in *. set (c := 2 ^ 127) in *.
    clearbody o b c. assert (o * f >= o * (q - b)) by nia. nia.
Qed.
Lemma incoming_next h k : (valid h = true -> seqno h = k mod 65536) ->
  forall h1, h1 = incoming p h (k mod 65536) -> quality h1 = stability p (quality h) /\ pending h1 = pending h /\ seqno h1 = (k + 1) mod 65536.
Proof.
  intros V h1 ->. unfold incoming. generalize (stability p (quality h)). intros q. cbv zeta. cbn [quality pending seqno]. split; [|split; [reflexivity|]].
  - destruct (valid h) eqn:VV; cbn [andb]; [|reflexivity]. rewrite (V eq_refl), Z.sub_diag. reflexivity.
  - unfold u16. rewrite Zplus_mod_idemp_l. reflexivity.
Qed.
Lemma iter_in m (f : Z -> Z) x : Nat.iter m f (f x) = Nat.iter (S m) f x.
Proof. induction m as [|m IHm]; [reflexivity|]. change (f (Nat.iter m f (f x)) = f (Nat.iter (S m) f x)). rewrite IHm. reflexivity. Qed.
Lemma pkts_spec n : forall k h h', 0 <= quality h <= ONE -> (valid h = true -> seqno h = k mod 65536) ->
  h' = fold_left (hstep p) (pkts k n) h ->
  quality h' = Nat.iter n (stability p) (quality h) /\ pending h' = pending h.
Proof.
  assert (S0 : 0 <= scaling p <= ONE) by (assert (0 <= 2 ^ 142) by (apply Z.pow_nonneg; lia); lia).
  induction n as [|n IH]; intros k h h' Q V E; cbn [pkts fold_left] in E; [subst h'; auto|].
  pose proof (incoming_next h k V (hstep p h (HPacket (k mod 65536))) eq_refl) as H1.
  pose proof (step_range p S0 h (HPacket (k mod 65536)) Q) as R.
  revert E H1 R. generalize (hstep p h (HPacket (k mod 65536))). intros h1 E [A [B C]] R.
  destruct (IH (k + 1) h1 h' R (fun _ => C) E) as [X Y]. rewrite X, Y, A, B. split; [apply iter_in|reflexivity].
Qed.
Variable hi : Z.
Hypothesis H1 : hi <= ONE - 2 ^ 139.
Lemma iter_gain n : 0 <= quality hinit -> let q := Nat.iter n (stability p) 0 in 0 <= q <= ONE /\ (Z.of_nat n * 2 ^ 130 <= q \/ ONE - 2 ^ 138 - 2 ^ 127 <= q).
Proof.
  assert (S0 : 0 <= scaling p <= ONE) by (assert (0 <= 2 ^ 142) by (apply Z.pow_nonneg; lia); lia).
  intros _. induction n as [|n IH]; cbv zeta in *; [change (Nat.iter 0 (stability p) 0) with 0; split; [pose proof one_pos; lia|left; lia]|].
  change (Nat.iter (S n) (stability p) 0) with (stability p (Nat.iter n (stability p) 0)). set (q := Nat.iter n (stability p) 0) in *. clearbody q. destruct IH as [R D].
  split; [apply stab_range; assumption|]. destruct (gain q R) as [G1 G2]. rewrite Nat2Z.inj_succ.
  destruct (Z.le_gt_cases q (ONE - 2 ^ 138)) as [L|L].
  - specialize (G1 L). destruct D as [D|D]; [left; lia|right; lia].
  - right. lia.
Qed.
Lemma reaches n : 2 ^ 19 <= Z.of_nat n -> hi < Nat.iter n (stability p) 0.
Proof.
  intros N. destruct (iter_gain n ltac:(cbn; lia)) as [R [D|D]]; cbv zeta in *.
  - assert (2 ^ 19 * 2 ^ 130 <= Z.of_nat n * 2 ^ 130) by (apply Z.mul_le_mono_nonneg_r; [apply Z.pow_nonneg; lia|exact N]). replace (2 ^ 19 * 2 ^ 130) with ONE in H by reflexivity.
    assert (0 < 2 ^ 139) by reflexivity. lia.
  - assert (2 ^ 138 + 2 ^ 127 < 2 ^ 139) by reflexivity. lia.
Qed.
End G.

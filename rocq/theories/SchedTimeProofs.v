(** Proofs about timestamps, jitter and the clock. *)
From Verif Require Import Base SchedTime SchedSpec.

Lemma timeout_exact : forall now t e, 0 <= now < 4294967296 -> 0 <= t < 2147483648 ->
  (0 <= e < t -> isTimedOut (u32 (now + e)) (getTimestamp now t) = false) /\
  (t <= e < t + 2147483648 -> isTimedOut (u32 (now + e)) (getTimestamp now t) = true).
Proof.
  intros now t e Hn Ht. unfold isTimedOut, getTimestamp, u32.
  split; intro He;
    destruct ((now + t) mod 4294967296 >? (now + e) mod 4294967296) eqn:E; lia.
Qed.

Lemma timedue_nowrap : forall now t e, 0 <= now -> now + t < 4294967296 -> now + e < 4294967296 ->
  0 <= t < 2147483648 -> 0 <= e -> e - t < 2147483648 ->
  getTimeDue (u32 (now + e)) (getTimestamp now t) = t - e.
Proof.
  intros now t e H0 H1 H2 H3 H4 H5. unfold getTimeDue, getTimestamp, u32, to_i32.
  rewrite !(Z.mod_small (now + t)), !(Z.mod_small (now + e)) by lia.
  destruct (now + t >? now + e) eqn:E.
  - rewrite Z.mod_small by lia.
    assert (now + t - (now + e) >? 2147483648 = false) as -> by lia.
    destruct (now + t - (now + e) <? 2147483648) eqn:E2; lia.
  - rewrite Z.mod_small by lia.
    assert (now + e - (now + t) >? 2147483648 = false) as -> by lia.
    destruct (now + e - (now + t) <? 2147483648) eqn:E2; lia.
Qed.

Lemma timedue_approx : forall now t e, 0 <= now < 4294967296 -> 0 <= t < 2147483648 ->
  0 <= e -> e - t < 2147483648 ->
  (e <= t -> t - e - 1 <= getTimeDue (u32 (now + e)) (getTimestamp now t) <= t - e) /\
  (t <= e -> t - e <= getTimeDue (u32 (now + e)) (getTimestamp now t) <= t - e + 1).
Proof.
  intros now t e H0 H1 H2 H3. unfold getTimeDue, getTimestamp, u32, to_i32.
  destruct ((now + t) mod 4294967296 >? (now + e) mod 4294967296) eqn:E.
  - destruct (((now + t) mod 4294967296 - (now + e) mod 4294967296) mod 4294967296 >? 2147483648) eqn:E2.
    + destruct ((4294967295 - ((now + t) mod 4294967296 - (now + e) mod 4294967296) mod 4294967296) mod 4294967296 <? 2147483648) eqn:E3; lia.
    + destruct (((now + t) mod 4294967296 - (now + e) mod 4294967296) mod 4294967296 <? 2147483648) eqn:E3; lia.
  - destruct (((now + e) mod 4294967296 - (now + t) mod 4294967296) mod 4294967296 >? 2147483648) eqn:E2.
    + destruct ((4294967295 - ((now + e) mod 4294967296 - (now + t) mod 4294967296) mod 4294967296) mod 4294967296 <? 2147483648) eqn:E3; lia.
    + destruct (((now + e) mod 4294967296 - (now + t) mod 4294967296) mod 4294967296 <? 2147483648) eqn:E3; lia.
Qed.

Lemma timedue_wrong : exists now t e, 0 <= now < 4294967296 /\ 0 <= t < 2147483648 /\ 0 <= e < t /\
  getTimeDue (u32 (now + e)) (getTimestamp now t) <> t - e.
Proof. exists 4294967290, 10, 0. repeat split; try lia. vm_compute. discriminate. Qed.

Lemma jitter_bounds : forall rmax now rel pct r,
  0 <= rmax < 2147483648 -> 0 <= now < 4294967296 -> 0 <= rel < 2147483648 -> 0 <= pct < 256 ->
  0 <= r <= rmax ->
  exists d, calc_jitter rmax now rel pct r = getTimestamp now d /\
    0 <= d <= rel /\ 100 * (rel - d) <= pct * rel /\ (pct = 0 -> d = rel).
Proof.
  intros rmax now rel pct r Hm Hn Hr Hp Hx. unfold calc_jitter.
  destruct ((pct =? 0) || (pct >? 99) || (rel >? 16777216)) eqn:E.
  - exists rel. split; [reflexivity|]. split; [lia|]. split; [|auto].
    assert (0 <= pct * rel) by (apply Z.mul_nonneg_nonneg; lia). lia.
  - assert (0 <= pct * rel <= 99 * 16777216) as HB.
    { split; [apply Z.mul_nonneg_nonneg; lia|]. apply Z.mul_le_mono_nonneg; lia. }
    unfold u32. cbv zeta. rewrite (Z.mod_small (pct * rel)) by lia.
    set (j := pct * rel / 100).
    assert (0 <= j <= pct * rel) by (unfold j; lia).
    assert (j <= rel) as Hjr.
    { unfold j. apply Z.div_le_upper_bound; [lia|]. apply Z.mul_le_mono_nonneg_r; lia. }
    rewrite (Z.mod_small (j + 1)) by lia.
    assert (0 <= rmax / (j + 1) <= rmax) as Hq.
    { split; [apply Z.div_pos; lia|]. apply Z.div_le_upper_bound; [lia|].
      rewrite <- (Z.mul_1_l rmax) at 1. apply Z.mul_le_mono_nonneg_r; lia. }
    rewrite (Z.mod_small (1 + rmax / (j + 1))) by lia.
    set (q := 1 + rmax / (j + 1)) in *.
    assert (r / q < j + 1) as Hlt.
    { apply Z.div_lt_upper_bound; [lia|].
      assert (rmax < (j + 1) * q).
      { unfold q. pose proof (Z.mul_succ_div_gt rmax (j + 1)). unfold Z.succ in *.
        rewrite (Z.add_comm 1). lia. }
      rewrite Z.mul_comm. lia. }
    assert (0 <= r / q) by (apply Z.div_pos; lia).
    rewrite (Z.mod_small (rel - r / q)) by lia.
    exists (rel - r / q). split; [reflexivity|]. split; [lia|]. split; [|lia].
    assert (100 * j <= pct * rel) by (unfold j; lia). lia.
Qed.

(** The clock. *)

Lemma quot_cases : forall x, (0 <= x -> Z.quot x 1000000 = x / 1000000) /\
  (x < 0 -> Z.quot x 1000000 = - ((- x) / 1000000)).
Proof.
  intro x. split; intro H.
  - apply Z.quot_div_nonneg; lia.
  - replace x with (- (- x)) at 1 by lia. rewrite Z.quot_opp_l by lia.
    rewrite Z.quot_div_nonneg by lia. reflexivity.
Qed.

(** The value computed without a jump. *)
Definition plain (first last : timespec) : Z :=
  (fst last - fst first) * 1000 + Z.quot (snd last - snd first) 1000000.

Lemma plain_bounds : forall f l,
  ns l - ns f - 1000000 < 1000000 * plain f l < ns l - ns f + 1000000.
Proof.
  intros [fs fn] [ls ln]. unfold plain, ns. cbn [fst snd].
  destruct (quot_cases (ln - fn)) as [Q1 Q2].
  destruct (Z.lt_ge_cases (ln - fn) 0); [rewrite Q2 by lia|rewrite Q1 by lia]; lia.
Qed.

Lemma plain_ge_floor : forall f l, (ns l - ns f) / 1000000 <= plain f l.
Proof.
  intros [fs fn] [ls ln]. unfold plain, ns. cbn [fst snd].
  destruct (quot_cases (ln - fn)) as [Q1 Q2].
  destruct (Z.lt_ge_cases (ln - fn) 0); [rewrite Q2 by lia|rewrite Q1 by lia]; lia.
Qed.

Lemma plain_mono : forall f l l', ts_ok f -> ts_ok l -> ts_ok l' -> ns l <= ns l' ->
  plain f l <= plain f l'.
Proof.
  intros [fs fn] [ls ln] [s n]. unfold plain, ns, ts_ok. cbn [fst snd]. intros Hf Hl Hl' H.
  destruct (quot_cases (ln - fn)) as [Q1 Q2]. destruct (quot_cases (n - fn)) as [R1 R2].
  destruct (Z.lt_ge_cases (ln - fn) 0); [rewrite Q2 by lia|rewrite Q1 by lia];
  (destruct (Z.lt_ge_cases (n - fn) 0); [rewrite R2 by lia|rewrite R1 by lia]);
  (destruct (Z.eq_dec s ls); [subst; lia | assert (ls + 1 <= s) by lia; lia]).
Qed.

(** Invariant: after a call that returned [v] (unwrapped), the time between
    the two references is about [v] milliseconds. *)
Definition clk_inv (c : clock) (v : Z) : Prop :=
  ts_ok (first_tv c) /\ ts_ok (last_tv c) /\ 0 <= v /\
  v <= plain (first_tv c) (last_tv c) /\
  ns (last_tv c) - ns (first_tv c) - 1000000 < 1000000 * v.

Lemma clk_step : forall c v tv, clk_inv c v -> ts_ok tv ->
  exists v', snd (olsr_times c tv) = u32 v' /\ v <= v' <= v + 61001 /\
    clk_inv (fst (olsr_times c tv)) v'.
Proof.
  intros [[fs fn] [ls ln]] v [s n] (Hf & Hl & Hv0 & Hv & Hv2) Ht.
  cbn [first_tv last_tv] in *.
  unfold olsr_times. cbn [fst snd first_tv last_tv].
  pose proof (plain_bounds (fs, fn) (ls, ln)) as PB.
  destruct ((s <? ls) || ((s =? ls) && (n <? ln)) || (s - ls >? 60)) eqn:E.
  - set (nsec := (ls - fs) * 1000000000 + (ln - fn) + 1000000).
    exists (nsec / 1000000). cbn [fst snd]. split; [reflexivity|].
    assert (1000000 * v < nsec) by (unfold nsec, ns in *; cbn [fst snd] in *; lia).
    split; [unfold nsec, ns in *; cbn [fst snd] in *; lia|].
    set (first' := if n - nsec mod 1000000000 <? 0
                   then (s - nsec / 1000000000 - 1, n - nsec mod 1000000000 + 1000000000)
                   else (s - nsec / 1000000000, n - nsec mod 1000000000)).
    assert (ts_ok first' /\ ns (s, n) - ns first' = nsec) as [HF HE].
    { unfold first', ts_ok, ns in *. cbn [fst snd] in *. clearbody nsec.
      destruct (n - nsec mod 1000000000 <? 0) eqn:E2; cbn [fst snd] in *; lia. }
    pose proof (plain_ge_floor first' (s, n)) as PG. rewrite HE in PG.
    unfold clk_inv; cbn [first_tv last_tv]. rewrite HE.
    split; [assumption|]. split; [assumption|]. lia.
  - assert (ns (ls, ln) <= ns (s, n)) as HN by (unfold ns, ts_ok in *; cbn [fst snd] in *; lia).
    pose proof (plain_mono (fs, fn) (ls, ln) (s, n) Hf Hl Ht HN) as PM.
    pose proof (plain_bounds (fs, fn) (s, n)) as PB2.
    exists (plain (fs, fn) (s, n)). cbn [fst snd first_tv last_tv].
    split; [reflexivity|]. split.
    + unfold ns, ts_ok in *; cbn [fst snd] in *; lia.
    + unfold clk_inv; cbn [first_tv last_tv]. split; [assumption|]. split; [assumption|]. lia.
Qed.

Lemma clk_init_inv : forall tv, ts_ok tv -> clk_inv (clock_init tv) 0.
Proof.
  intros [s n] H. unfold clk_inv, clock_init. cbn [first_tv last_tv].
  pose proof (plain_ge_floor (s, n) (s, n)) as P. rewrite Z.sub_diag in *.
  split; [assumption|]. split; [assumption|]. change (0 / 1000000) with 0 in P. lia.
Qed.


Lemma clk_run_inv : forall tv0 l, ts_ok tv0 -> Forall ts_ok l -> exists v, clk_inv (clk_run tv0 l) v.
Proof.
  intros tv0 l H0 Hl. unfold clk_run.
  assert (exists v, clk_inv (clock_init tv0) v) as H by (exists 0; apply clk_init_inv; assumption).
  clear H0. revert H. generalize (clock_init tv0) as c.
  induction l as [|tv l IH]; intros c [v H]; [eauto|].
  inversion Hl; subst. simpl. apply IH; [assumption|].
  destruct (clk_step c v tv H H2) as (v' & _ & _ & I). eauto.
Qed.

Lemma clk_monotone : forall tv0 l tv1 tv2, ts_ok tv0 -> Forall ts_ok l -> ts_ok tv1 -> ts_ok tv2 ->
  let c := clk_run tv0 l in
  let '(c1, v1) := olsr_times c tv1 in
  let '(c2, v2) := olsr_times c1 tv2 in
  0 <= u32 (v2 - v1) <= 61001.
Proof.
  intros tv0 l tv1 tv2 H0 Hl H1 H2 c. destruct (clk_run_inv tv0 l H0 Hl) as [v I].
  fold c in I.
  destruct (clk_step c v tv1 I H1) as (v1 & E1 & B1 & I1).
  destruct (olsr_times c tv1) as [c1 r1]. simpl in *.
  destruct (clk_step c1 v1 tv2 I1 H2) as (v2 & E2 & B2 & I2).
  destruct (olsr_times c1 tv2) as [c2 r2]. simpl in *. subst r1 r2.
  unfold u32. lia.
Qed.

(** With an undisturbed system clock the result is the elapsed time. *)
Lemma clk_accurate : forall tv0 l, ts_ok tv0 -> Forall ts_ok l -> forall tv, ts_ok tv ->
  let c := clk_run tv0 l in
  ns (last_tv c) <= ns tv <= ns (last_tv c) + 60000000000 ->
  exists v, snd (olsr_times c tv) = u32 v /\
    first_tv (fst (olsr_times c tv)) = first_tv c /\
    ns tv - ns (first_tv c) - 1000000 < 1000000 * v < ns tv - ns (first_tv c) + 1000000.
Proof.
  intros tv0 l H0 Hl [s n] Ht c Hb. destruct (clk_run_inv tv0 l H0 Hl) as [v I]. fold c in I.
  destruct I as (Hf & Hla & _).
  destruct c as [[fs fn] [ls ln]].
  unfold olsr_times. cbn [fst snd first_tv last_tv] in *.
  destruct ((s <? ls) || ((s =? ls) && (n <? ln)) || (s - ls >? 60)) eqn:E.
  { exfalso. unfold ts_ok, ns in *. cbn [fst snd] in *. lia. }
  exists (plain (fs, fn) (s, n)). cbn [fst snd first_tv last_tv].
  split; [reflexivity|]. split; [reflexivity|]. apply plain_bounds.
Qed.

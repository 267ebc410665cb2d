(** Proofs about the duration coding. *)
From Verif Require Import Base Mantissa.

Lemma me_exp_loop_spec : forall fuel u b r,
  0 <= b -> me_exp_loop fuel u b = Some r ->
  b <= r /\ u < 2 ^ r /\ (b < r -> 2 ^ (r - 1) <= u).
Proof.
  induction fuel as [|f IH]; intros u b r Hb H; simpl in H; [discriminate|].
  destruct (u >=? 2 ^ b) eqn:E.
  - apply IH in H; [|lia]. destruct H as (H1 & H2 & H3).
    split; [lia|]. split; [assumption|]. intros _.
    destruct (Z.eq_dec (b + 1) r) as [<-|N].
    + replace (b + 1 - 1) with b by lia. apply Z.geb_le in E. lia.
    + apply H3. lia.
  - injection H as <-. split; [lia|]. split; [|lia].
    rewrite Z.geb_leb in E. apply Z.leb_gt in E. lia.
Qed.

Lemma me_exp_loop_total : forall fuel u b,
  0 <= b -> u < 2 ^ (b + Z.of_nat fuel) -> (0 < fuel)%nat ->
  u < 2 ^ (b + Z.of_nat fuel - 1) ->
  exists r, me_exp_loop fuel u b = Some r.
Proof.
  induction fuel as [|f IH]; intros u b Hb H1 H0 H; [lia|].
  simpl. destruct (u >=? 2 ^ b) eqn:E; [|eauto].
  assert (f <> O) as Hf.
  { intro; subst f. replace (b + Z.of_nat 1 - 1) with b in H by lia.
    apply Z.geb_le in E. lia. }
  apply IH; try lia.
  - replace (b + 1 + Z.of_nat f) with (b + Z.of_nat (S f)) by lia. assumption.
  - replace (b + 1 + Z.of_nat f - 1) with (b + Z.of_nat (S f) - 1) by lia. assumption.
Qed.

Lemma land15_small : forall x, 0 <= x < 16 -> Z.land x 15 = x.
Proof. intros. change 15 with (Z.ones 4). rewrite Z.land_ones by lia. apply Z.mod_small. lia. Qed.

Lemma lor_nibbles : forall a b, 0 <= a < 16 -> 0 <= b < 16 ->
  Z.lor (Z.shiftl a 4) b = 16 * a + b.
Proof.
  intros a b Ha Hb.
  rewrite <- Z.lxor_lor, <- Z.add_nocarry_lxor.
  - rewrite Z.shiftl_mul_pow2 by lia. lia.
  - apply Z.bits_inj'. intros n Hn. rewrite Z.land_spec, Z.bits_0.
    destruct (Z.ltb_spec n 4).
    + rewrite Z.shiftl_spec_low by lia. reflexivity.
    + rewrite (Z.bits_above_log2 b n); [apply andb_false_r|lia|].
      destruct (Z.eq_dec b 0) as [->|]; [simpl; lia|].
      assert (Z.log2 b < 4) by (apply Z.log2_lt_pow2; lia). lia.
  - apply Z.bits_inj'. intros n Hn. rewrite Z.land_spec, Z.bits_0.
    destruct (Z.ltb_spec n 4).
    + rewrite Z.shiftl_spec_low by lia. reflexivity.
    + rewrite (Z.bits_above_log2 b n); [apply andb_false_r|lia|].
      destruct (Z.eq_dec b 0) as [->|]; [simpl; lia|].
      assert (Z.log2 b < 4) by (apply Z.log2_lt_pow2; lia). lia.
Qed.

(** Full description of the encoder. *)
Lemma enc_spec : forall t, 0 <= t < 2 ^ 32 ->
  (t < 125 /\ reltime_to_me t = Some 16) \/
  (4096000 <= t /\ reltime_to_me t = Some 255) \/
  (exists a b, 1 <= b <= 15 /\ 0 <= a < 16 /\ reltime_to_me t = Some (16 * a + b) /\
     125 * 2 ^ (b - 1) <= t < 125 * 2 ^ b /\
     a * (125 * 2 ^ b) <= 32 * t - 16 * (125 * 2 ^ b) < (a + 1) * (125 * 2 ^ b)).
Proof.
  intros t Ht. change (2 ^ 32) with 4294967296 in Ht.
  unfold reltime_to_me, u32.
  rewrite (Z.mod_small (t / 125 * 2)) by lia.
  destruct (me_exp_loop_total 32 (t / 125 * 2) 0) as [b0 Hb0];
    [lia| | lia | |].
  { change (2 ^ (0 + Z.of_nat 32)) with 4294967296. lia. }
  { change (2 ^ (0 + Z.of_nat 32 - 1)) with 2147483648. lia. }
  rewrite Hb0. apply me_exp_loop_spec in Hb0; [|lia].
  destruct Hb0 as (H0 & Hlt & Hge).
  destruct (b0 =? 0) eqn:E0.
  { assert (b0 = 0) by lia. subst b0. left. change (2 ^ 0) with 1 in Hlt. split; [lia|reflexivity]. }
  assert (0 < b0) as Hp by lia. specialize (Hge Hp).
  destruct (b0 - 1 >? 15) eqn:E15.
  { right; left. split; [|reflexivity].
    assert (2 ^ 16 <= 2 ^ (b0 - 1)) by (apply Z.pow_le_mono_r; lia).
    change (2 ^ 16) with 65536 in *. lia. }
  right; right.
  assert (b0 <> 1) as Hn1.
  { intro; subst b0. change (2 ^ 1) with 2 in Hlt. change (2 ^ (1 - 1)) with 1 in Hge. lia. }
  assert (b0 = 2 \/ b0 = 3 \/ b0 = 4 \/ b0 = 5 \/ b0 = 6 \/ b0 = 7 \/ b0 = 8 \/ b0 = 9 \/
          b0 = 10 \/ b0 = 11 \/ b0 = 12 \/ b0 = 13 \/ b0 = 14 \/ b0 = 15 \/ b0 = 16) as HC by lia.
  assert (forall a0 b, 0 <= a0 < 16 -> 1 <= b <= 15 ->
     u8 (Z.lor (Z.shiftl (Z.land a0 15) 4) (Z.land (u8 (b + Z.shiftr a0 4)) 15)) = 16 * a0 + b) as HF.
  { intros a0 b Ha0 Hb. rewrite (Z.shiftr_div_pow2 a0 4) by lia. change (2 ^ 4) with 16.
    replace (a0 / 16) with 0 by lia. unfold u8. rewrite (Z.mod_small (b + 0)) by lia.
    rewrite !land15_small by lia. rewrite lor_nibbles by lia. rewrite Z.mod_small; lia. }
  repeat (destruct HC as [->|HC]); try subst b0;
  match goal with |- context [if ?b >=? 5 then _ else _] => let v := eval compute in b in change b with v end;
  match goal with |- context [if ?b >=? 5 then _ else _] =>
     let v := eval compute in (b >=? 5) in change (b >=? 5) with v; cbv iota;
     repeat match goal with |- context [Z.shiftl ?x ?y] =>
        match x with 125 => idtac | 1 => idtac end;
        let v := eval compute in (Z.shiftl x y) in change (Z.shiftl x y) with v end;
     exists (if b >=? 5 then (t - 125 * 2 ^ (b - 1)) / (125 * 2 ^ (b - 5))
             else ((t - 125 * 2 ^ (b - 1)) * 2 ^ (5 - b)) / 125), b
  end;
  repeat match goal with |- context [?x >=? 5] =>
        let v := eval compute in (x >=? 5) in change (x >=? 5) with v; cbv iota end;
  repeat match goal with |- context [2 ^ ?y] =>
        let v := eval compute in (2 ^ y) in progress change (2 ^ y) with v end;
  repeat match goal with H : context [2 ^ ?y] |- _ =>
        let v := eval compute in (2 ^ y) in progress change (2 ^ y) with v in H end;
  (split; [lia|]);
  rewrite (Z.mod_small _ 4294967296) by lia;
  try rewrite (Z.mod_small _ 4294967296) by lia;
  (match goal with |- context [u8 ?x] => unify x x; rewrite (Z.mod_small x 256 : _ -> u8 x = x) by lia end);
  (split; [lia|]); (split; [f_equal; apply HF; lia | split; lia]).
Qed.

Lemma me_bits : forall a b, 0 <= a < 16 -> 0 <= b < 16 ->
  Z.shiftr (16 * a + b) 4 = a /\ Z.land (16 * a + b) 15 = b.
Proof.
  intros a b Ha Hb. split.
  - rewrite Z.shiftr_div_pow2 by lia. change (2 ^ 4) with 16. lia.
  - change 15 with (Z.ones 4). rewrite Z.land_ones by lia. change (2 ^ 4) with 16. lia.
Qed.

(** Full description of the decoder: floor of (16+a) * 125 * 2^b / 32. *)
Lemma dec_spec : forall a b, 0 <= a < 16 -> 0 <= b < 16 ->
  me_to_reltime (16 * a + b) = (16 + a) * (125 * 2 ^ b) / 32.
Proof.
  intros a b Ha Hb. unfold me_to_reltime.
  destruct (me_bits a b Ha Hb) as [-> ->].
  assert (b = 0 \/ b = 1 \/ b = 2 \/ b = 3 \/ b = 4 \/ b = 5 \/ b = 6 \/ b = 7 \/ b = 8 \/ b = 9 \/
          b = 10 \/ b = 11 \/ b = 12 \/ b = 13 \/ b = 14 \/ b = 15) as HC by lia.
  repeat (destruct HC as [->|HC]); try subst b;
  match goal with |- context [?x >=? 8] =>
     let v := eval compute in (x >=? 8) in change (x >=? 8) with v; cbv iota end;
  first [ rewrite Z.shiftl_mul_pow2 by lia; unfold u32 | rewrite Z.shiftr_div_pow2 by lia ];
  repeat match goal with |- context [2 ^ ?y] =>
        let v := eval compute in (2 ^ y) in progress change (2 ^ y) with v end; lia.
Qed.

Ltac pows15 b :=
  let HC := fresh "HC" in
  assert (b = 0 \/ b = 1 \/ b = 2 \/ b = 3 \/ b = 4 \/ b = 5 \/ b = 6 \/ b = 7 \/ b = 8 \/ b = 9 \/
          b = 10 \/ b = 11 \/ b = 12 \/ b = 13 \/ b = 14 \/ b = 15) as HC by lia;
  repeat (destruct HC as [->|HC]); try subst b;
  repeat match goal with |- context [2 ^ ?y] =>
        let v := eval compute in (2 ^ y) in progress change (2 ^ y) with v end;
  repeat match goal with H : context [2 ^ ?y] |- _ =>
        let v := eval compute in (2 ^ y) in progress change (2 ^ y) with v in H end.

Lemma validity_accuracy : forall t, 125 <= t < 4096000 ->
  exists c, reltime_to_me t = Some c /\ 0 <= c < 256 /\
    me_to_reltime c <= t /\ 7 * t < 8 * me_to_reltime c /\
    15 * t < 16 * (me_to_reltime c + 1).
Proof.
  intros t Ht.
  destruct (enc_spec t) as [[H _]|[[H _]|(a & b & Hb & Ha & He & Hr & Hc)]]; try lia.
  exists (16 * a + b). split; [assumption|]. split; [lia|].
  rewrite dec_spec by lia. clear He.
  pows15 b; lia.
Qed.

Lemma dec_bounds : forall c, 0 <= c < 256 -> 62 <= me_to_reltime c <= 3968000.
Proof.
  intros c Hc.
  replace c with (16 * (c / 16) + c mod 16) by lia.
  assert (0 <= c / 16 < 16) by lia. assert (0 <= c mod 16 < 16) by lia.
  rewrite dec_spec by lia. generalize dependent (c / 16). intros a Ha.
  generalize dependent (c mod 16). intros b Hb.
  pows15 b; lia.
Qed.

Lemma enc_sat : forall t, 3968000 <= t < 2 ^ 32 -> reltime_to_me t = Some 255.
Proof.
  intros t Ht.
  destruct (enc_spec t) as [[H _]|[[H He]|(a & b & Hb & Ha & He & Hr & Hc)]]; try lia; try assumption.
  rewrite He. f_equal. clear He. pows15 b; lia.
Qed.

Lemma enc_low : forall t, 0 <= t < 125 -> reltime_to_me t = Some 16.
Proof.
  intros t Ht.
  destruct (enc_spec t) as [[H He]|[[H He]|(a & b & Hb & Ha & He & Hr & Hc)]]; try assumption; try lia.
Qed.

Lemma enc_total : forall t, 0 <= t < 2 ^ 32 ->
  exists c, reltime_to_me t = Some c /\ 0 <= c < 256.
Proof.
  intros t Ht.
  destruct (enc_spec t) as [[H He]|[[H He]|(a & b & Hb & Ha & He & Hr & Hc)]]; try lia;
    (eexists; split; [eassumption|lia]).
Qed.

Lemma validity_monotone : forall t1 t2 c1 c2, 0 <= t1 <= t2 -> t2 < 2 ^ 32 ->
  reltime_to_me t1 = Some c1 -> reltime_to_me t2 = Some c2 ->
  me_to_reltime c1 <= me_to_reltime c2.
Proof.
  intros t1 t2 c1 c2 H1 H2 E1 E2.
  destruct (enc_spec t1) as [[H1a He]|[[H1a He]|(a1 & b1 & Hb1 & Ha1 & He & Hr1 & Hc1)]]; try lia;
  rewrite E1 in He; apply Some_inj in He; subst c1;
  (destruct (enc_spec t2) as [[H2a He]|[[H2a He]|(a2 & b2 & Hb2 & Ha2 & He & Hr2 & Hc2)]]; try lia;
   rewrite E2 in He; apply Some_inj in He; subst c2).
  all: clear E1 E2; try (change (me_to_reltime 255) with 3968000);
       try (change (me_to_reltime 16) with 66); rewrite ?dec_spec by lia.
  - lia.
  - lia.
  - clear - Hb2 Ha2. pows15 b2; lia.
  - lia.
  - clear - H1a Hr2 H1 Hb2. pows15 b2; lia.
  - clear - Hb1 Ha1. pows15 b1; lia.
  - destruct (Z.lt_ge_cases b1 b2) as [L|L].
    + (* smaller exponent: first <= t1 < 125*2^b1 <= start of second range *)
      assert (2 ^ b1 <= 2 ^ (b2 - 1)) by (apply Z.pow_le_mono_r; lia).
      assert (2 ^ b2 = 2 * 2 ^ (b2 - 1)) by (rewrite <- Z.pow_succ_r by lia; f_equal; lia).
      apply Z.div_le_mono; [lia|].
      assert (0 < 2 ^ b1) by (apply Z.pow_pos_nonneg; lia).
      apply Z.le_trans with (32 * (125 * 2 ^ b1)); [apply Z.mul_le_mono_nonneg_r; lia|].
      apply Z.le_trans with (16 * (125 * 2 ^ b2)); [lia|apply Z.mul_le_mono_nonneg_r; lia].
    + assert (b1 = b2) as ->.
      { destruct (Z.eq_dec b1 b2); [assumption|].
        assert (2 ^ b2 <= 2 ^ (b1 - 1)) by (apply Z.pow_le_mono_r; lia). lia. }
      apply Z.div_le_mono; [lia|].
      assert (0 < 2 ^ b2) by (apply Z.pow_pos_nonneg; lia).
      assert (a1 * (125 * 2 ^ b2) < (a2 + 1) * (125 * 2 ^ b2)) as HH by lia.
      apply Z.mul_lt_mono_pos_r in HH; [|lia].
      apply Z.mul_le_mono_nonneg_r; lia.
Qed.

Definition codes : list Z := map Z.of_nat (seq 0 256).

Lemma in_codes : forall c, 0 <= c < 256 -> In c codes.
Proof.
  intros c Hc. unfold codes. apply in_map_iff. exists (Z.to_nat c).
  split; [lia|]. apply in_seq. lia.
Qed.

Definition reenc (c : Z) : Z :=
  match reltime_to_me (me_to_reltime c) with Some c' => c' | None => -1 end.

Lemma reenc_stable : forall c, 0 <= c < 256 -> 5 <= c mod 16 ->
  reltime_to_me (me_to_reltime c) = Some c.
Proof.
  intros c Hc H5.
  assert (forallb (fun c => implb (5 <=? c mod 16)
     (match reltime_to_me (me_to_reltime c) with Some x => x =? c | None => false end)) codes = true) as F
    by (vm_compute; reflexivity).
  rewrite forallb_forall in F. specialize (F c (in_codes c Hc)). cbv beta in F.
  destruct (5 <=? c mod 16) eqn:E; [|lia]. simpl in F.
  destruct (reltime_to_me (me_to_reltime c)); [f_equal; lia|discriminate].
Qed.

Lemma reenc_drift : forall c, 0 <= c < 256 -> 66 <= me_to_reltime c ->
  exists c', reltime_to_me (me_to_reltime c) = Some c' /\
    me_to_reltime c' <= me_to_reltime c.
Proof.
  intros c Hc H.
  assert (forallb (fun c => implb (66 <=? me_to_reltime c)
     (match reltime_to_me (me_to_reltime c) with Some x => me_to_reltime x <=? me_to_reltime c | None => false end)) codes = true) as F
    by (vm_compute; reflexivity).
  rewrite forallb_forall in F. specialize (F c (in_codes c Hc)). cbv beta in F.
  destruct (66 <=? me_to_reltime c) eqn:E; [|lia]. simpl in F.
  destruct (reltime_to_me (me_to_reltime c)) as [c'|]; [exists c'; split; [reflexivity|lia]|discriminate].
Qed.

Lemma reenc_refuted : exists c c', 0 <= c < 256 /\
  reltime_to_me (me_to_reltime c) = Some c' /\ me_to_reltime c' <> me_to_reltime c.
Proof. exists 17, 1. split; [lia|]. split; [reflexivity|]. vm_compute. discriminate. Qed.

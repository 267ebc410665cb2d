(** Proofs about prefixes and netmasks. *)
From Verif Require Import Base IpCalc IpSpec.

Lemma abit_cons : forall b l i, 0 <= i ->
  abit (b :: l) i = if i <? 8 then Z.testbit b (7 - i) else abit l (i - 8).
Proof.
  intros b l i Hi. unfold abit. destruct (i <? 8) eqn:E.
  - replace (i / 8) with 0 by lia. replace (i mod 8) with i by lia. reflexivity.
  - replace (Z.to_nat (i / 8)) with (S (Z.to_nat ((i - 8) / 8))) by lia.
    replace ((i - 8) mod 8) with (i mod 8) by lia. reflexivity.
Qed.

Lemma abit_zeros : forall n i, abit (repeat 0 n) i = false.
Proof.
  intros n i. unfold abit.
  assert (nth (Z.to_nat (i / 8)) (repeat 0 n) 0 = 0) as ->.
  { generalize (Z.to_nat (i / 8)). induction n; intros [|k]; simpl; auto. }
  apply Z.bits_0.
Qed.

Ltac cases9 p :=
  let HC := fresh "HC" in
  assert (p = 0 \/ p = 1 \/ p = 2 \/ p = 3 \/ p = 4 \/ p = 5 \/ p = 6 \/ p = 7 \/ p = 8) as HC by lia;
  repeat (destruct HC as [->|HC]); try subst p.

Lemma byte_mask_bits : forall p k, 0 <= p <= 8 -> 0 <= k < 8 ->
  Z.testbit (u8 (Z.shiftl 255 (8 - p))) (7 - k) = (k <? p).
Proof.
  intros p k Hp Hk. cases9 p; cases9 k; reflexivity || lia.
Qed.

Lemma bits255 : forall k, 0 <= k < 8 -> Z.testbit 255 (7 - k) = true.
Proof. intros k Hk. cases9 k; reflexivity || lia. Qed.

Lemma mask_bits : forall len p, 0 <= p <= 8 * Z.of_nat len -> (0 < len)%nat ->
  let (m, r) := prefix_to_netmask len p in
  r = true /\ is_addr len m /\
  (forall i, 0 <= i < 8 * Z.of_nat len -> abit m i = (i <? p)).
Proof.
  induction len as [|len IH]; intros p Hp Hl; [lia|].
  simpl. destruct (p >? 8) eqn:E.
  - assert (0 < len)%nat as Hl' by lia.
    specialize (IH (p - 8)). destruct (prefix_to_netmask len (p - 8)) as [m r].
    destruct IH as (H1 & [H2 H3] & H4); [lia|lia|]. split; [assumption|].
    split; [split; [simpl; lia|constructor; [unfold is_byte; lia|assumption]]|].
    intros i Hi. rewrite abit_cons by lia. destruct (i <? 8) eqn:E2.
    + rewrite bits255 by lia. lia.
    + rewrite H4 by lia. destruct (Z.ltb_spec (i - 8) (p - 8)), (Z.ltb_spec i p); lia || reflexivity.
  - split; [reflexivity|]. split.
    + split; [simpl; rewrite repeat_length; reflexivity|].
      constructor; [unfold is_byte, u8; lia|]. apply Forall_forall.
      intros x Hx. apply repeat_spec in Hx. subst. unfold is_byte. lia.
    + intros i Hi. rewrite abit_cons by lia. destruct (i <? 8) eqn:E2.
      * apply byte_mask_bits; lia.
      * rewrite abit_zeros. lia.
Qed.

Lemma n2p_loop : forall len p acc, 0 <= p <= 8 * Z.of_nat len -> (0 < len)%nat ->
  0 <= acc -> acc + 8 * Z.of_nat len < 65536 ->
  netmask_to_prefix_loop (fst (prefix_to_netmask len p)) acc = acc + p.
Proof.
  induction len as [|len IH]; intros p acc Hp Hl Ha Hb; [lia|].
  simpl. destruct (p >? 8) eqn:E.
  - specialize (IH (p - 8) (acc + 8)).
    destruct (prefix_to_netmask len (p - 8)) as [m r] eqn:Em. cbn [fst] in *.
    cbn [netmask_to_prefix_loop]. change (255 =? 255) with true. cbv iota.
    unfold u16. rewrite Z.mod_small by lia. rewrite IH by lia. lia.
  - cbn [fst netmask_to_prefix_loop].
    assert (netmask_to_prefix_loop (repeat 0 len) (u16 (acc + 8)) = acc + 8) as HZ.
    { unfold u16. destruct len; simpl; unfold u16; lia. }
    cases9 p;
    match goal with |- context [u8 (Z.shiftl 255 ?x)] =>
      let v := eval vm_compute in (u8 (Z.shiftl 255 x)) in change (u8 (Z.shiftl 255 x)) with v end;
    match goal with |- context [?x =? 255] =>
      let v := eval vm_compute in (x =? 255) in change (x =? 255) with v end; cbv iota;
    try (rewrite HZ; reflexivity);
    match goal with |- context [last_byte_bits ?x] =>
      let v := eval vm_compute in (last_byte_bits x) in change (last_byte_bits x) with v end; cbv iota;
    unfold u16; lia.
Qed.

Lemma prefix_roundtrip : forall len p, (0 < len <= 16)%nat -> 0 <= p <= 8 * Z.of_nat len ->
  netmask_to_prefix (fst (prefix_to_netmask len p)) = p.
Proof.
  intros len p Hl Hp. unfold netmask_to_prefix. rewrite n2p_loop by lia.
  unfold u8. lia.
Qed.

(** What acceptance of a netmask says. *)
Lemma last_byte_sound : forall b k j, is_byte b -> last_byte_bits b = Some k -> 0 <= j < 8 ->
  0 <= k <= 8 /\ Z.testbit b (7 - j) = (j <? k).
Proof.
  intros b k j Hb H Hj. unfold last_byte_bits in H.
  repeat match type of H with context [if ?b =? ?v then _ else _] =>
    destruct (Z.eqb_spec b v) as [->|?]; [injection H as <-; split; [lia|]; cases9 j; reflexivity || lia|] end.
  discriminate.
Qed.

Lemma n2p_sound : forall m acc r, Forall is_byte m -> 0 <= acc ->
  acc + 8 * Z.of_nat (length m) < 255 ->
  netmask_to_prefix_loop m acc = r -> r <> 255 ->
  acc <= r <= acc + 8 * Z.of_nat (length m) /\
  (forall i, 0 <= i < r - acc -> abit m i = true) /\
  (forall i, r - acc <= i < 8 * Z.of_nat (length m) -> i / 8 = (r - acc) / 8 -> abit m i = false).
Proof.
  induction m as [|b m IH]; intros acc r Hf Ha Hlen H Hr; cbn [length netmask_to_prefix_loop] in *.
  - subst. split; [lia|]. split; intros; lia.
  - inversion Hf; subst. destruct (Z.eqb_spec b 255) as [->|Hb].
    + unfold u16 in *. rewrite Z.mod_small in * by lia.
      specialize (IH (acc + 8) _ H3 ltac:(lia) ltac:(lia) eq_refl Hr).
      set (r := netmask_to_prefix_loop m (acc + 8)) in *. destruct IH as (I1 & I2 & I3).
      split; [lia|]. split; intros i Hi.
      * rewrite abit_cons by lia. destruct (i <? 8) eqn:E; [apply bits255; lia|apply I2; lia].
      * intro Hq. rewrite abit_cons by lia. destruct (i <? 8) eqn:E; [lia|apply I3; lia].
    + destruct (last_byte_bits b) as [k|] eqn:E; [|congruence].
      destruct (last_byte_sound b k 0 H2 E) as [Hk _]; [lia|].
      unfold u16 in *. rewrite Z.mod_small in * by lia.
      split; [lia|]. replace (acc + k - acc) with k by lia.
      assert (k <> 8).
      { intro; subst k. unfold last_byte_bits in E.
        repeat match type of E with context [if ?b =? ?v then _ else _] =>
          destruct (Z.eqb_spec b v) as [?|?]; [try discriminate E; try lia|] end. discriminate. }
      split; intros i Hi.
      * rewrite abit_cons by lia. assert (i <? 8 = true) as -> by lia.
        destruct (last_byte_sound b k i H2 E) as [_ ->]; [lia|]. lia.
      * intro Hq. rewrite abit_cons by lia. assert (i <? 8 = true) as -> by lia.
        destruct (last_byte_sound b k i H2 E) as [_ ->]; [lia|]. lia.
Qed.

Lemma mask_accept_sound : forall m r, (length m <= 16)%nat -> Forall is_byte m ->
  netmask_to_prefix m = r -> r <> 255 ->
  0 <= r <= 8 * Z.of_nat (length m) /\
  (forall i, 0 <= i < r -> abit m i = true) /\
  (forall i, r <= i < 8 * Z.of_nat (length m) -> i / 8 = r / 8 -> abit m i = false).
Proof.
  intros m r Hl Hf H Hr. unfold netmask_to_prefix in H.
  destruct (Z.eq_dec (netmask_to_prefix_loop m 0) 255) as [E|N].
  { rewrite E in H. change (u8 255) with 255 in H. congruence. }
  destruct (n2p_sound m 0 _ Hf ltac:(lia) ltac:(lia) eq_refl N) as (I1 & I2 & I3).
  unfold u8 in H. rewrite Z.mod_small in H by lia. subst r.
  rewrite Z.sub_0_r in *. split; [lia|]. auto.
Qed.

Lemma mask_reject_complete : forall m, (length m <= 16)%nat -> Forall is_byte m ->
  forall p, 0 <= p <= 8 * Z.of_nat (length m) ->
  (forall i, 0 <= i < 8 * Z.of_nat (length m) -> abit m i = (i <? p)) ->
  netmask_to_prefix m = p.
Proof.
  intros m Hl Hf p Hp Hb.
  destruct m as [|b m'] eqn:Em.
  { simpl in *. assert (p = 0) by lia. subst. reflexivity. }
  assert (m = fst (prefix_to_netmask (length m) p)) as Hm.
  { subst m. pose proof (mask_bits (length (b :: m')) p Hp ltac:(simpl; lia)) as M.
    destruct (prefix_to_netmask (length (b :: m')) p) as [m2 r2]. cbn [fst].
    destruct M as (_ & [L2 F2] & B2).
    assert (forall l1 l2 : list Z, length l1 = length l2 -> Forall is_byte l1 -> Forall is_byte l2 ->
      (forall i, 0 <= i < 8 * Z.of_nat (length l1) -> abit l1 i = abit l2 i) -> l1 = l2) as EXT.
    { clear. induction l1 as [|x l1 IH]; intros [|y l2] L F1 F2 B; try discriminate; [reflexivity|].
      inversion F1; subst. inversion F2; subst. f_equal.
      - unfold is_byte in *. apply Z.bits_inj'. intros n Hn.
        destruct (Z.ltb_spec n 8).
        + specialize (B (7 - n) ltac:(cbn [length]; lia)). rewrite !abit_cons in B by lia.
          assert (7 - n <? 8 = true) as E by lia. rewrite E in B.
          replace (7 - (7 - n)) with n in B by lia. assumption.
        + rewrite <- (Z.mod_small x (2 ^ 8)), <- (Z.mod_small y (2 ^ 8)) by (simpl; lia).
          rewrite !Z.mod_pow2_bits_high by lia. reflexivity.
      - apply IH; try assumption; [simpl in L; lia|].
        intros i Hi. specialize (B (i + 8) ltac:(cbn [length]; lia)). rewrite !abit_cons in B by lia.
        assert (i + 8 <? 8 = false) as E by lia. rewrite E in B.
        replace (i + 8 - 8) with i in B by lia. assumption. }
    apply EXT; try assumption; [lia|]. intros i Hi. rewrite Hb, B2 by assumption. reflexivity. }
  rewrite <- Em, Hm. rewrite Em. apply prefix_roundtrip; [cbn [length]; cbn [length] in Hl; lia|assumption].
Qed.

Lemma noncontig_accepted : exists m, is_addr 4 m /\ netmask_to_prefix m = 8 /\ abit m 16 = true.
Proof.
  exists [255; 0; 255; 0]. split; [split; [reflexivity|repeat constructor; unfold is_byte; lia]|].
  split; reflexivity.
Qed.

(** Words. *)
Lemma byte_high : forall b n, is_byte b -> 8 <= n -> Z.testbit b n = false.
Proof.
  intros b n Hb Hn. unfold is_byte in Hb. rewrite <- (Z.mod_small b (2 ^ 8)) by (simpl; lia).
  apply Z.mod_pow2_bits_high. lia.
Qed.

Lemma be32_bits : forall b0 b1 b2 b3 t i,
  is_byte b0 -> is_byte b1 -> is_byte b2 -> is_byte b3 -> 0 <= i < 32 ->
  Z.testbit (be32 b0 b1 b2 b3) (31 - i) = abit (b0 :: b1 :: b2 :: b3 :: t) i.
Proof.
  intros b0 b1 b2 b3 t i H0 H1 H2 H3 Hi. unfold be32.
  rewrite !Z.lor_spec, !Z.shiftl_spec by lia.
  rewrite abit_cons by lia. destruct (Z.ltb_spec i 8).
  { rewrite (byte_high b1), (byte_high b2), (byte_high b3) by (assumption || lia).
    rewrite !orb_false_r. f_equal. lia. }
  rewrite (Z.testbit_neg_r b0) by lia. cbn [orb].
  rewrite abit_cons by lia. destruct (Z.ltb_spec (i - 8) 8).
  { rewrite (byte_high b2), (byte_high b3) by (assumption || lia).
    rewrite !orb_false_r. f_equal. lia. }
  rewrite (Z.testbit_neg_r b1) by lia. cbn [orb].
  rewrite abit_cons by lia. destruct (Z.ltb_spec (i - 8 - 8) 8).
  { rewrite (byte_high b3) by (assumption || lia).
    rewrite !orb_false_r. f_equal. lia. }
  rewrite (Z.testbit_neg_r b2) by lia. cbn [orb].
  rewrite abit_cons by lia. assert (i - 8 - 8 - 8 <? 8 = true) as -> by lia.
  f_equal. lia.
Qed.

Lemma be32_high : forall b0 b1 b2 b3 k,
  is_byte b0 -> is_byte b1 -> is_byte b2 -> is_byte b3 -> 32 <= k ->
  Z.testbit (be32 b0 b1 b2 b3) k = false.
Proof.
  intros. unfold be32. rewrite !Z.lor_spec, !Z.shiftl_spec by lia.
  rewrite (byte_high b0), (byte_high b1), (byte_high b2), (byte_high b3) by (assumption || lia).
  reflexivity.
Qed.

Lemma mask4_bits : forall p m k, 0 <= p <= 32 -> prefix_to_netmask4 p = Some m -> 0 <= k ->
  Z.testbit m k = (32 - p <=? k) && (k <? 32).
Proof.
  intros p m k Hp H Hk. unfold prefix_to_netmask4 in H.
  destruct (Z.eqb_spec p 0) as [->|].
  { injection H as <-. rewrite Z.bits_0. lia. }
  destruct (p >? 32) eqn:E; [lia|]. apply Some_inj in H. subst m.
  unfold u32. change 4294967296 with (2 ^ 32).
  destruct (Z.ltb_spec k 32).
  - rewrite Z.mod_pow2_bits_low by lia. rewrite Z.shiftl_spec by lia.
    change 4294967295 with (Z.ones 32). rewrite andb_true_r.
    destruct (Z.leb_spec (32 - p) k).
    + rewrite (Z.ones_spec_low 32 (k - (32 - p))) by lia. reflexivity.
    + apply Z.testbit_neg_r. lia.
  - rewrite Z.mod_pow2_bits_high by lia. rewrite andb_false_r. reflexivity.
Qed.

Lemma cmp_word_spec : forall x y p, 0 <= p <= 32 ->
  (forall k, 32 <= k -> Z.testbit x k = false) -> (forall k, 32 <= k -> Z.testbit y k = false) ->
  exists b, cmp_word x y p = Some b /\
    (b = true <-> forall i, 0 <= i < p -> Z.testbit x (31 - i) = Z.testbit y (31 - i)).
Proof.
  intros x y p Hp Hx Hy. unfold cmp_word.
  destruct (prefix_to_netmask4 p) as [m|] eqn:E.
  2:{ unfold prefix_to_netmask4 in E. destruct (p =? 0); [discriminate|].
      destruct (p >? 32) eqn:E2; [lia|discriminate]. }
  eexists. split; [reflexivity|]. rewrite Z.eqb_eq. split.
  - intros H i Hi.
    assert (Z.testbit (Z.land x m) (31 - i) = Z.testbit (Z.land y m) (31 - i)) as T by (rewrite H; reflexivity).
    rewrite !Z.land_spec, (mask4_bits p m) in T by (assumption || lia).
    assert ((32 - p <=? 31 - i) && (31 - i <? 32) = true) as B by lia. rewrite B in T.
    rewrite !andb_true_r in T. assumption.
  - intros H. apply Z.bits_inj'. intros k Hk. rewrite !Z.land_spec, (mask4_bits p m) by (assumption || lia).
    destruct ((32 - p <=? k) && (k <? 32)) eqn:B; [|rewrite !andb_false_r; reflexivity].
    rewrite !andb_true_r. specialize (H (31 - k) ltac:(lia)).
    replace (31 - (31 - k)) with k in H by lia. assumption.
Qed.

Lemma abit_cons4 : forall b0 b1 b2 b3 t i, 32 <= i ->
  abit (b0 :: b1 :: b2 :: b3 :: t) i = abit t (i - 32).
Proof.
  intros. rewrite abit_cons by lia. assert (i <? 8 = false) as -> by lia.
  rewrite abit_cons by lia. assert (i - 8 <? 8 = false) as -> by lia.
  rewrite abit_cons by lia. assert (i - 8 - 8 <? 8 = false) as -> by lia.
  rewrite abit_cons by lia. assert (i - 8 - 8 - 8 <? 8 = false) as -> by lia.
  f_equal. lia.
Qed.

Lemma word_cmp_spec : forall a0 a1 a2 a3 b0 b1 b2 b3 ta tb p,
  Forall is_byte [a0; a1; a2; a3] -> Forall is_byte [b0; b1; b2; b3] -> 0 <= p <= 32 ->
  exists r, cmp_word (be32 a0 a1 a2 a3) (be32 b0 b1 b2 b3) p = Some r /\
    (r = true <-> same_prefix p (a0 :: a1 :: a2 :: a3 :: ta) (b0 :: b1 :: b2 :: b3 :: tb)).
Proof.
  intros a0 a1 a2 a3 b0 b1 b2 b3 ta tb p Ha Hb Hp.
  repeat match goal with H : Forall _ (_ :: _) |- _ => inversion H; clear H; subst end.
  destruct (cmp_word_spec (be32 a0 a1 a2 a3) (be32 b0 b1 b2 b3) p Hp) as (r & E & Hr).
  - intros. apply be32_high; assumption.
  - intros. apply be32_high; assumption.
  - exists r. split; [assumption|]. rewrite Hr. unfold same_prefix.
    split; intros H' i Hi; specialize (H' i Hi).
    + rewrite <- !be32_bits by (assumption || lia). assumption.
    + rewrite <- (be32_bits a0 a1 a2 a3 ta) in H' by (assumption || lia).
      rewrite <- (be32_bits b0 b1 b2 b3 tb) in H' by (assumption || lia). assumption.
Qed.

Lemma be32_inj : forall a0 a1 a2 a3 b0 b1 b2 b3 ta tb,
  Forall is_byte [a0; a1; a2; a3] -> Forall is_byte [b0; b1; b2; b3] ->
  (be32 a0 a1 a2 a3 = be32 b0 b1 b2 b3 <->
   same_prefix 32 (a0 :: a1 :: a2 :: a3 :: ta) (b0 :: b1 :: b2 :: b3 :: tb)).
Proof.
  intros a0 a1 a2 a3 b0 b1 b2 b3 ta tb Ha Hb.
  repeat match goal with H : Forall _ (_ :: _) |- _ => inversion H; clear H; subst end.
  unfold same_prefix. split; intro H.
  - intros i Hi. rewrite <- !be32_bits by (assumption || lia). rewrite H. reflexivity.
  - apply Z.bits_inj'. intros k Hk. destruct (Z.ltb_spec k 32).
    + specialize (H (31 - k) ltac:(lia)).
      rewrite <- (be32_bits a0 a1 a2 a3 ta) in H by (assumption || lia).
      rewrite <- (be32_bits b0 b1 b2 b3 tb) in H by (assumption || lia).
      replace (31 - (31 - k)) with k in H by lia. assumption.
    + rewrite !be32_high by assumption. reflexivity.
Qed.

Lemma in_net6_spec : forall k a b p, length a = (4 * S k)%nat -> length b = (4 * S k)%nat ->
  Forall is_byte a -> Forall is_byte b -> 0 <= p <= 32 * Z.of_nat (S k) ->
  exists r, in_net6 a b p = Some r /\ (r = true <-> same_prefix p a b).
Proof.
  induction k as [|k IH]; intros a b p La Lb Fa Fb Hp;
  (destruct a as [|a0 [|a1 [|a2 [|a3 a]]]]; simpl in La; try lia);
  (destruct b as [|b0 [|b1 [|b2 [|b3 b]]]]; simpl in Lb; try lia);
  assert (Forall is_byte [a0; a1; a2; a3] /\ Forall is_byte a) as [Fa1 Fa2]
    by (repeat match goal with H : Forall _ (_ :: _) |- _ => inversion H; clear H; subst end;
        split; [repeat (apply Forall_cons; [assumption|]); apply Forall_nil|assumption]);
  assert (Forall is_byte [b0; b1; b2; b3] /\ Forall is_byte b) as [Fb1 Fb2]
    by (repeat match goal with H : Forall _ (_ :: _) |- _ => inversion H; clear H; subst end;
        split; [repeat (apply Forall_cons; [assumption|]); apply Forall_nil|assumption]);
  cbn [in_net6]; destruct (p >? 32) eqn:E.
  - lia.
  - apply word_cmp_spec; assumption || lia.
  - pose proof (be32_inj a0 a1 a2 a3 b0 b1 b2 b3 a b Fa1 Fb1) as I.
    destruct (Z.eqb_spec (be32 a0 a1 a2 a3) (be32 b0 b1 b2 b3)) as [Eq|Ne]; cbn [negb].
    + destruct (IH a b (p - 32)) as (r & Er & Hr); try assumption; try lia.
      exists r. split; [assumption|]. rewrite Hr. apply I in Eq. clear - Eq E. unfold same_prefix in *.
      split; intros H i Hi.
      * destruct (Z.ltb_spec i 32); [apply Eq; lia|].
        rewrite !abit_cons4 by lia. apply H. lia.
      * specialize (H (i + 32) ltac:(lia)). rewrite !abit_cons4 in H by lia.
        replace (i + 32 - 32) with i in H by lia. assumption.
    + exists false. split; [reflexivity|]. split; [discriminate|]. intro H. exfalso.
      apply Ne. apply I. unfold same_prefix in *. intros i Hi. apply H. lia.
  - apply word_cmp_spec; assumption || lia.
Qed.

Lemma in_net_spec : forall (v6 : bool) a n p,
  let size := if v6 then 16%nat else 4%nat in
  is_addr size a -> is_addr size n -> 0 <= p <= 8 * Z.of_nat size ->
  exists r, ip_in_net v6 a n p = Some r /\ (r = true <-> same_prefix p a n).
Proof.
  intros [|] a n p size [La Fa] [Ln Fn] Hp; subst size; unfold ip_in_net.
  - apply (in_net6_spec 3); assumption || lia.
  - destruct a as [|a0 [|a1 [|a2 [|a3 [|? ?]]]]]; simpl in La; try lia.
    destruct n as [|b0 [|b1 [|b2 [|b3 [|? ?]]]]]; simpl in Ln; try lia.
    apply word_cmp_spec; assumption || lia.
Qed.

(** Default route recognition. *)
Lemma inetgw4 : forall a p, is_addr 4 a -> 0 <= p <= 32 ->
  (is_prefix_inetgw false (a, p) = true <-> a = [0; 0; 0; 0] /\ p = 0).
Proof.
  intros a p [La Fa] Hp. unfold is_prefix_inetgw, ip_prefix_is_v4_inetgw. cbn [fst snd ipv4_internet_route].
  destruct a as [|a0 [|a1 [|a2 [|a3 [|? ?]]]]]; simpl in La; try lia. cbn [memeq].
  rewrite !andb_true_iff, !Z.eqb_eq. split.
  - intros (-> & -> & -> & -> & -> & _). auto.
  - intros [H ->]. injection H. intros; subst. repeat split.
Qed.

Lemma inetgw6_any3 : exists a, is_addr 16 a /\ is_prefix_inetgw true (a, 3) = true /\
  ~ same_prefix 3 a (fst ipv6_internet_route).
Proof.
  exists [192;0;0;0;0;0;0;0;0;0;0;0;0;0;0;0].
  split; [split; [reflexivity|repeat constructor; unfold is_byte; lia]|].
  split; [reflexivity|]. intro H. specialize (H 0 ltac:(lia)). discriminate.
Qed.

Lemma inetgw6_complete : forall a p, is_addr 16 a -> 
  ((p = 3 /\ same_prefix 3 a (fst ipv6_internet_route)) \/
   (p = 96 /\ same_prefix 96 a (fst ipv6_mappedv4_route)) -> is_prefix_inetgw true (a, p) = true) /\
  (is_prefix_inetgw true (a, p) = true -> p = 3 \/ (p = 96 /\ same_prefix 96 a (fst ipv6_mappedv4_route))).
Proof.
  assert (forall k x y, length x = 16%nat -> length y = 16%nat -> Forall is_byte x -> Forall is_byte y ->
            (k <= 16)%nat -> (memeq k x y = true <-> same_prefix (8 * Z.of_nat k) x y)) as MQ.
  { intros k x y Lx Ly.
    assert (forall k (x y : list Z), (k <= length x)%nat -> (k <= length y)%nat ->
              Forall is_byte x -> Forall is_byte y ->
              (memeq k x y = true <-> same_prefix (8 * Z.of_nat k) x y)) as G.
    { clear. induction k as [|k IH]; intros x y Lx Ly Fx Fy.
      - simpl. split; [intros _ i Hi; lia|reflexivity].
      - destruct x as [|a x], y as [|b y]; simpl in Lx, Ly; try lia.
        inversion Fx; inversion Fy; subst. cbn [memeq]. rewrite andb_true_iff, Z.eqb_eq.
        rewrite IH by (assumption || lia). unfold same_prefix. split.
        + intros [-> H] i Hi. rewrite !abit_cons by lia. destruct (i <? 8) eqn:E; [reflexivity|].
          apply H. lia.
        + intro H. split.
          * unfold is_byte in *. apply Z.bits_inj'. intros n Hn. destruct (Z.ltb_spec n 8).
            -- specialize (H (7 - n) ltac:(lia)). rewrite !abit_cons in H by lia.
               assert (7 - n <? 8 = true) as E by lia. rewrite E in H.
               replace (7 - (7 - n)) with n in H by lia. assumption.
            -- rewrite !byte_high by assumption. reflexivity.
          * intros i Hi. specialize (H (i + 8) ltac:(lia)). rewrite !abit_cons in H by lia.
            assert (i + 8 <? 8 = false) as E by lia. rewrite E in H.
            replace (i + 8 - 8) with i in H by lia. assumption. }
    intros Fx Fy Hk. apply G; try assumption; lia. }
  intros a p [La Fa].
  assert (Forall is_byte (fst ipv6_mappedv4_route)) as Fm by (repeat constructor; unfold is_byte; lia).
  unfold is_prefix_inetgw, ip_prefix_is_v6_inetgw, ip_prefix_is_mappedv4_inetgw. cbn [fst snd].
  specialize (MQ (Z.to_nat (96 / 8)) a (fst ipv6_mappedv4_route) La eq_refl Fa Fm).
  change (8 * Z.of_nat (Z.to_nat (96 / 8))) with 96 in MQ.
  specialize (MQ ltac:(vm_compute; lia)).
  change (memeq (Z.to_nat (3 / 8)) a (fst ipv6_internet_route)) with true.
  rewrite orb_true_iff, !andb_true_iff, !Z.eqb_eq, MQ. cbn [fst ipv6_mappedv4_route].
  tauto.
Qed.

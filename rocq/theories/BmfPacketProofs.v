(** Proofs about the fingerprints of the BMF plugin. *)
From Verif Require Import Base BmfPacket BmfPacketSpec.

(** * Linearity of a step *)
Lemma step_xor : forall x y, crc_step (Z.lxor x y) = Z.lxor (crc_step x) (crc_step y).
Proof.
  intros x y. unfold crc_step. replace (Z.odd (Z.lxor x y)) with (xorb (Z.odd x) (Z.odd y)) by (rewrite <- !Z.bit0_odd; now rewrite Z.lxor_spec).
  rewrite Z.shiftr_lxor. apply Z.bits_inj'. intros n N. destruct (Z.odd x), (Z.odd y); cbn [xorb]; rewrite ?Z.lxor_spec;
  destruct (Z.testbit (Z.shiftr x 1) n), (Z.testbit (Z.shiftr y 1) n), (Z.testbit 0xedb88320 n); reflexivity.
Qed.
Lemma steps_xor : forall n x y, crc_steps n (Z.lxor x y) = Z.lxor (crc_steps n x) (crc_steps n y).
Proof. induction n as [|n IH]; intros x y; cbn [crc_steps]; [reflexivity|]. now rewrite step_xor, IH. Qed.
Lemma step_double : forall y, crc_step (2 * y) = y.
Proof. intros y. unfold crc_step. rewrite Z.odd_mul. cbn [Z.odd andb]. rewrite Z.shiftr_div_pow2 by lia. change (2 ^ 1) with 2. lia. Qed.
Lemma steps_shift : forall n y, crc_steps n (Z.shiftl y (Z.of_nat n)) = y.
Proof.
  induction n as [|n IH]; intros y; cbn [crc_steps]; [apply Z.shiftl_0_r|].
  replace (Z.shiftl y (Z.of_nat (S n))) with (2 * Z.shiftl y (Z.of_nat n)).
  - now rewrite step_double, IH.
  - rewrite !Z.shiftl_mul_pow2 by lia. rewrite Nat2Z.inj_succ, Z.pow_succ_r by lia. ring.
Qed.
Lemma steps_add : forall a b x, crc_steps a (crc_steps b x) = crc_steps (b + a) x.
Proof. intros a b. induction b as [|b IH]; intros x; cbn [crc_steps Nat.add]; [reflexivity|]. apply IH. Qed.
(** adding bits after [n] steps *)
Lemma steps_later : forall n x y, Z.lxor (crc_steps n x) y = crc_steps n (Z.lxor x (Z.shiftl y (Z.of_nat n))).
Proof. intros n x y. now rewrite steps_xor, steps_shift. Qed.

(** * The table and the bits *)
Lemma table_at : forall j, 0 <= j < 256 -> get j crc_table = Done (crc_steps 8 j).
Proof.
  intros j H. unfold get, crc_table. rewrite nth_error_map. 
  rewrite (nth_error_nth' _ 0%nat) by (rewrite seq_length; lia). rewrite seq_nth by lia. cbn [option_map]. do 2 f_equal. lia.
Qed.
Lemma low_high : forall x, x = Z.lxor (Z.shiftl (Z.shiftr x 8) 8) (Z.land x 255).
Proof.
  intros x. apply Z.bits_inj'. intros n N. rewrite Z.lxor_spec. change 255 with (Z.ones 8).
  destruct (Z.ltb_spec n 8).
  - rewrite Z.shiftl_spec_low by lia. rewrite Z.land_spec, Z.ones_spec_low by lia. rewrite andb_true_r. destruct (Z.testbit x n); reflexivity.
  - rewrite Z.shiftl_spec_high by lia. rewrite Z.shiftr_spec by lia. rewrite Z.land_spec, Z.ones_spec_high by lia. rewrite andb_false_r, xorb_false_r. f_equal. lia.
Qed.
Lemma high_byte : forall x, byte x -> Z.shiftr x 8 = 0.
Proof. intros x B. unfold byte in B. rewrite Z.shiftr_div_pow2 by lia. change (2 ^ 8) with 256. lia. Qed.
Lemma low_byte : forall x, byte x -> Z.land x 255 = x.
Proof. intros x B. unfold byte in B. change 255 with (Z.ones 8). rewrite Z.land_ones by lia. change (2 ^ 8) with 256. lia. Qed.
Lemma land_byte : forall x, byte (Z.land x 255).
Proof. intros x. unfold byte. change 255 with (Z.ones 8). rewrite Z.land_ones by lia. change (2 ^ 8) with 256. lia. Qed.
Lemma land_xor : forall x y z, Z.land (Z.lxor x y) z = Z.lxor (Z.land x z) (Z.land y z).
Proof. intros x y z. apply Z.bits_inj'. intros n N. rewrite ?Z.land_spec, ?Z.lxor_spec, ?Z.land_spec. destruct (Z.testbit x n), (Z.testbit y n), (Z.testbit z n); reflexivity. Qed.
Lemma byte_xor : forall x y, byte x -> byte y -> byte (Z.lxor x y).
Proof. intros x y A B. rewrite <- (low_byte x A), <- (low_byte y B), <- land_xor. apply land_byte. Qed.
Lemma eight : forall crc x, byte x ->
  Z.lxor (Z.shiftr crc 8) (crc_steps 8 (Z.lxor (Z.land crc 255) x)) = crc_steps 8 (Z.lxor crc x).
Proof.
  intros crc x B. pose proof (low_high (Z.lxor crc x)) as L. rewrite land_xor, (low_byte x B), Z.shiftr_lxor, (high_byte x B), Z.lxor_0_r in L.
  symmetry. transitivity (crc_steps 8 (Z.lxor (Z.shiftl (Z.shiftr crc 8) 8) (Z.lxor (Z.land crc 255) x))); [now f_equal|].
  rewrite steps_xor. pose proof (steps_shift 8 (Z.shiftr crc 8)) as S. change (Z.of_nat 8) with 8 in S. now rewrite S.
Qed.
Lemma bit_step : forall reg b, bit_in reg b = crc_steps 1 (Z.lxor reg (Z.b2z b)).
Proof.
  intros reg b. cbn [crc_steps]. unfold bit_in, crc_step.
  replace (Z.odd (Z.lxor reg (Z.b2z b))) with (xorb (Z.odd reg) b) by (rewrite <- !Z.bit0_odd, Z.lxor_spec, Z.b2z_bit0; reflexivity).
  rewrite Z.shiftr_lxor. replace (Z.shiftr (Z.b2z b) 1) with 0 by (destruct b; reflexivity). rewrite Z.lxor_0_r, Z.shiftr_div_pow2 by lia. reflexivity.
Qed.
Lemma byte_steps : forall reg x, byte x -> byte_in reg x = crc_steps 8 (Z.lxor reg x).
Proof.
  intros reg x B. unfold byte_in. cbn [fold_left]. rewrite !bit_step.
  rewrite !steps_later, !steps_add. cbn [Nat.add].
  f_equal. rewrite !Z.lxor_assoc. f_equal. clear reg. unfold byte in B.
  match goal with |- ?l = x => let f := eval pattern x in l in match f with ?g _ =>
    assert (A : forallb (fun n => g (Z.of_nat n) =? Z.of_nat n) (seq 0 256) = true) by (vm_compute; reflexivity);
    rewrite forallb_forall in A; specialize (A (Z.to_nat x)); cbv beta in A end end.
  rewrite Z2Nat.id in A by lia. apply Z.eqb_eq. apply A. apply in_seq. lia.
Qed.
Lemma calc_ok : forall n m crc, (n <= length m)%nat -> Forall byte m -> calc_loop n m crc = Done (fold_left byte_in (firstn n m) crc).
Proof.
  induction n as [|n IH]; intros m crc L F; [reflexivity|]. destruct m as [|x m]; cbn [length] in L; [lia|]. inversion F; subst. cbn [calc_loop firstn fold_left].
  rewrite table_at by (apply (byte_xor _ x); [apply land_byte|assumption]). cbn [obind]. rewrite eight by assumption. rewrite <- byte_steps by assumption. apply IH; [lia|assumption].
Qed.

(** * Different windows *)
Definition word32 (x : Z) : Prop := 0 <= x < 4294967296.
Lemma lxor32 : forall x y, word32 x -> word32 y -> word32 (Z.lxor x y).
Proof.
  intros x y (A & B) (C & D). split; [apply Z.lxor_nonneg; lia|].
  destruct (Z.eq_dec (Z.lxor x y) 0) as [->|N]; [lia|]. assert (P : 0 <= Z.lxor x y) by (apply Z.lxor_nonneg; lia).
  change 4294967296 with (2 ^ 32). apply Z.log2_lt_pow2; [lia|]. eapply Z.le_lt_trans; [apply Z.log2_lxor; lia|].
  assert (L : forall z, 0 <= z -> z < 4294967296 -> Z.log2 z < 32).
  { intros z Z0 Z1. destruct (Z.eq_dec z 0) as [->|]; [cbn; lia|]. apply Z.log2_lt_pow2; [lia|exact Z1]. }
  apply Z.max_lub_lt; auto.
Qed.
Lemma half32 : forall x, word32 x -> 0 <= Z.shiftr x 1 < 2147483648.
Proof. intros x H. unfold word32 in H. rewrite Z.shiftr_div_pow2 by lia. change (2 ^ 1) with 2. lia. Qed.
Lemma step32 : forall x, word32 x -> word32 (crc_step x).
Proof.
  intros x H. pose proof (half32 x H) as G. unfold crc_step. destruct (Z.odd x); [|unfold word32; lia]. apply lxor32; unfold word32; lia.
Qed.
Lemma step_top : forall x, word32 x -> Z.testbit (crc_step x) 31 = Z.odd x.
Proof.
  intros x H. pose proof (half32 x H) as G. assert (T : Z.testbit (Z.shiftr x 1) 31 = false).
  { destruct (Z.eq_dec (Z.shiftr x 1) 0) as [->|N]; [reflexivity|]. apply Z.bits_above_log2; [lia|]. apply Z.log2_lt_pow2; [lia|]. change (2 ^ 31) with 2147483648. lia. }
  unfold crc_step. destruct (Z.odd x); [|exact T]. rewrite Z.lxor_spec, T. reflexivity.
Qed.
Lemma step_inj : forall x y, word32 x -> word32 y -> crc_step x = crc_step y -> x = y.
Proof.
  intros x y X Y E. pose proof (step_top x X) as T. pose proof (step_top y Y) as U. rewrite E, U in T.
  assert (S : Z.shiftr x 1 = Z.shiftr y 1).
  { unfold crc_step in E. rewrite T in E. destruct (Z.odd x); [|exact E].
    apply (f_equal (fun z => Z.lxor z 0xedb88320)) in E. rewrite !Z.lxor_assoc, Z.lxor_nilpotent, !Z.lxor_0_r in E. exact E. }
  rewrite !Z.shiftr_div_pow2 in S by lia. change (2 ^ 1) with 2 in S. pose proof (Zmod_odd x). pose proof (Zmod_odd y). rewrite T in *. destruct (Z.odd x); lia.
Qed.
Lemma steps32 : forall n x, word32 x -> word32 (crc_steps n x).
Proof. induction n as [|n IH]; intros x H; cbn [crc_steps]; [exact H|]. now apply IH, step32. Qed.
Lemma steps_inj : forall n x y, word32 x -> word32 y -> crc_steps n x = crc_steps n y -> x = y.
Proof.
  induction n as [|n IH]; intros x y X Y E; cbn [crc_steps] in E; [exact E|]. apply step_inj; auto. apply IH in E; auto; now apply step32.
Qed.
Lemma byte32 : forall x, byte x -> word32 x.
Proof. unfold byte, word32. lia. Qed.
Lemma fold32 : forall l r, Forall byte l -> word32 r -> word32 (fold_left byte_in l r).
Proof.
  induction l as [|x l IH]; intros r F H; [exact H|]. inversion F; subst. cbn [fold_left]. apply IH; [assumption|]. rewrite byte_steps by assumption.
  apply steps32, lxor32; [exact H|now apply byte32].
Qed.
Lemma lxor_cancel : forall a b c, Z.lxor a c = Z.lxor b c -> a = b.
Proof. intros a b c E. apply (f_equal (fun z => Z.lxor z c)) in E. now rewrite !Z.lxor_assoc, Z.lxor_nilpotent, !Z.lxor_0_r in E. Qed.
Lemma fold_inj : forall l r s, Forall byte l -> word32 r -> word32 s -> fold_left byte_in l r = fold_left byte_in l s -> r = s.
Proof.
  induction l as [|x l IH]; intros r s F R S E; [exact E|]. inversion F as [|? ? B G]; subst. cbn [fold_left] in E. rewrite !byte_steps in E by assumption.
  apply byte32 in B. apply IH in E; [|assumption|apply steps32, lxor32; assumption|apply steps32, lxor32; assumption].
  apply steps_inj in E; [|apply lxor32; assumption|apply lxor32; assumption]. now apply lxor_cancel in E.
Qed.
Fixpoint pack (l : list Z) : Z := match l with [] => 0 | b :: l => Z.lxor b (Z.shiftl (pack l) 8) end.
Lemma fold_pack : forall l r, Forall byte l -> fold_left byte_in l r = crc_steps (8 * length l) (Z.lxor r (pack l)).
Proof.
  induction l as [|b l IH]; intros r F; [cbn; now rewrite Z.lxor_0_r|]. inversion F; subst. cbn [fold_left pack length]. rewrite IH, byte_steps by assumption.
  rewrite steps_later, steps_add. replace (8 + 8 * length l)%nat with (8 * S (length l))%nat by lia. now rewrite Z.lxor_assoc.
Qed.
Lemma pack_low : forall b x, byte b -> Z.land (Z.lxor b (Z.shiftl x 8)) 255 = b /\ Z.shiftr (Z.lxor b (Z.shiftl x 8)) 8 = x.
Proof.
  intros b x B. rewrite land_xor, low_byte, Z.shiftr_lxor, high_byte by assumption. split.
  - replace (Z.land (Z.shiftl x 8) 255) with 0; [apply Z.lxor_0_r|]. change 255 with (Z.ones 8). rewrite Z.land_ones, Z.shiftl_mul_pow2 by lia. change (2 ^ 8) with 256. lia.
  - rewrite Z.shiftr_shiftl_l by lia. change (8 - 8) with 0. now rewrite Z.shiftl_0_r, Z.lxor_0_l.
Qed.
Lemma pack_inj : forall d e, length d = length e -> Forall byte d -> Forall byte e -> pack d = pack e -> d = e.
Proof.
  induction d as [|b d IH]; intros [|c e] L F G E; try discriminate L; [reflexivity|]. inversion F; inversion G; subst. cbn [pack] in E.
  destruct (pack_low b (pack d)) as (B1 & B2); [assumption|]. destruct (pack_low c (pack e)) as (C1 & C2); [assumption|]. rewrite E in B1, B2.
  f_equal; [congruence|]. apply IH; auto; congruence.
Qed.
Lemma pack32 : forall d, length d = 4%nat -> Forall byte d -> word32 (pack d).
Proof.
  intros d L F. do 4 (destruct d as [|? d]; [discriminate L|]). destruct d; [|discriminate L].
  repeat match goal with H : Forall byte (_ :: _) |- _ => inversion H; clear H; subst end. cbn [pack].
  assert (S : forall x n, 0 <= x < 2 ^ n -> 0 <= n -> n + 8 <= 32 -> word32 (Z.shiftl x 8) /\ Z.shiftl x 8 < 2 ^ (n + 8)).
  { intros x n H N M. rewrite Z.shiftl_mul_pow2 by lia. rewrite Z.pow_add_r by lia. change (2 ^ 8) with 256. 
    assert (P : 2 ^ (n + 8) <= 2 ^ 32) by (apply Z.pow_le_mono_r; lia). rewrite Z.pow_add_r in P by lia. change (2 ^ 8) with 256 in P. change (2 ^ 32) with 4294967296 in P.
    unfold word32. split; lia. }
  assert (A : forall b x, byte b -> 0 <= x -> Z.lxor b (Z.shiftl x 8) = b + 256 * x).
  { intros b x B X. destruct (pack_low b x B) as (P & Q). change 255 with (Z.ones 8) in P. rewrite Z.land_ones in P by lia. rewrite Z.shiftr_div_pow2 in Q by lia.
    change (2 ^ 8) with 256 in P, Q. assert (0 <= Z.lxor b (Z.shiftl x 8)); [|lia]. apply Z.lxor_nonneg. unfold byte in B. rewrite Z.shiftl_mul_pow2 by lia. lia. }
  unfold byte in *. change (Z.shiftl 0 8) with 0. rewrite Z.lxor_0_r. rewrite (A z1) by (unfold byte; lia). rewrite (A z0) by (unfold byte; lia). rewrite (A z) by (unfold byte; lia). unfold word32. lia.
Qed.
Lemma window : forall p d e s, length d = 4%nat -> length e = 4%nat -> Forall byte p -> Forall byte d -> Forall byte e -> Forall byte s ->
  crc32 (p ++ d ++ s) = crc32 (p ++ e ++ s) -> d = e.
Proof.
  intros p d e s D E Fp Fd Fe Fs H. unfold crc32 in H. apply lxor_cancel in H. rewrite !fold_left_app in H.
  assert (R : word32 (fold_left byte_in p 0xffffffff)) by (apply fold32; [assumption|unfold word32; lia]).
  set (r := fold_left byte_in p 0xffffffff) in *. clearbody r.
  apply fold_inj in H; [|assumption|apply fold32; assumption|apply fold32; assumption]. rewrite !fold_pack, D, E in H by assumption.
  apply steps_inj in H; [|apply lxor32; [exact R|now apply pack32]|apply lxor32; [exact R|now apply pack32]].
  rewrite !(Z.lxor_comm r) in H. apply lxor_cancel in H. apply pack_inj; auto. congruence.
Qed.

(** * The fingerprint of a packet *)
Lemma get_at : forall (a : list Z) x r i, i = Z.of_nat (length a) -> get i (a ++ x :: r) = Done x.
Proof. intros a x r i ->. unfold get. rewrite Nat2Z.id, nth_error_app2, Nat.sub_diag by lia. reflexivity. Qed.
Lemma put_at : forall (a : list Z) x y r i, i = Z.of_nat (length a) -> put i y (a ++ x :: r) = Done (a ++ y :: r).
Proof.
  intros a x y r i ->. unfold put. rewrite app_length. cbn [length]. replace (_ <? _) with true by lia. rewrite Nat2Z.id.
  rewrite firstn_app, Nat.sub_diag, firstn_all, firstn_O, app_nil_r. f_equal. f_equal. f_equal.
  rewrite skipn_app. rewrite skipn_all2 by lia. replace (S (length a) - length a)%nat with 1%nat by lia. reflexivity.
Qed.
Lemma fingerprint : forall m len, (20 <= length m)%nat -> Forall byte m -> 0 < len <= Z.of_nat (length m) ->
  exists n, normal m n /\ Forall byte n /\ packet_crc32 m len = Done (crc32 (firstn (Z.to_nat (Z.min len 256)) n), m).
Proof.
  intros m len L F B. do 12 (destruct m as [|? m]; [cbn in L; lia|]).
  exists ([z; z0; z1; z2; z3; z4; z5; z6] ++ 255 :: z8 :: 90 :: 90 :: m). split; [|split].
  - repeat split.
    + intros i V. do 12 (destruct i as [|i]; [try reflexivity; exfalso; apply V; unfold volatile; lia|]). reflexivity.
  - repeat match goal with H : Forall byte (_ :: _) |- _ => inversion H; clear H; subst end. cbn [app]. repeat (constructor; [first [assumption|unfold byte; lia]|]). assumption.
  - unfold packet_crc32. replace (len >? 0) with true by lia. cbn [negb].
    change (z :: z0 :: z1 :: z2 :: z3 :: z4 :: z5 :: z6 :: z7 :: z8 :: z9 :: z10 :: m) with ([z; z0; z1; z2; z3; z4; z5; z6] ++ z7 :: z8 :: z9 :: z10 :: m).
    rewrite get_at by reflexivity. cbn [obind]. unfold get16.
    assert (G : forall x y u v, [z; z0; z1; z2; z3; z4; z5; z6] ++ x :: y :: u :: v :: m = [z; z0; z1; z2; z3; z4; z5; z6; x; y] ++ u :: v :: m) by reflexivity.
    assert (G' : forall x y u v, [z; z0; z1; z2; z3; z4; z5; z6; x; y] ++ u :: v :: m = [z; z0; z1; z2; z3; z4; z5; z6; x; y; u] ++ v :: m) by reflexivity.
    rewrite G at 1. rewrite get_at by reflexivity. cbn [obind]. rewrite G at 1. rewrite G' at 1. rewrite get_at by reflexivity. cbn [obind].
    rewrite put_at by reflexivity. cbn [obind]. unfold put16. rewrite G at 1. rewrite put_at by reflexivity. cbn [obind]. rewrite G', put_at by reflexivity. cbn [obind].
    change (23130 / 256 mod 256) with 90. change (23130 mod 256) with 90. rewrite <- G', <- G. unfold calc_crc32.
    assert (Fb : Forall byte ([z; z0; z1; z2; z3; z4; z5; z6] ++ 255 :: z8 :: 90 :: 90 :: m)).
    { repeat match goal with H : Forall byte (_ :: _) |- _ => inversion H; clear H; subst end. cbn [app]. repeat (constructor; [first [assumption|unfold byte; lia]|]). assumption. }
    rewrite calc_ok; [|rewrite app_length; cbn [length] in *; destruct (len >? 256) eqn:Q; lia|exact Fb]. cbn [obind].
    rewrite put_at by reflexivity. cbn [obind]. rewrite G, put_at by reflexivity. cbn [obind]. rewrite G', put_at by reflexivity. cbn [obind].
    f_equal. f_equal.
    + unfold crc32. do 3 f_equal. destruct (len >? 256) eqn:Q; lia.
    + repeat match goal with H : Forall byte (_ :: _) |- _ => inversion H; clear H; subst end. unfold byte in *. cbn [app]. do 10 f_equal. f_equal; [lia|]. f_equal. lia.
Qed.
Lemma nth_ext' : forall (m n : list Z), length m = length n -> (forall i, (i < length m)%nat -> nth_error m i = nth_error n i) -> m = n.
Proof.
  intros m. induction m as [|x m IH]; intros [|y n] L H; try discriminate L; [reflexivity|]. f_equal.
  - specialize (H 0%nat). cbn in H. assert (E : Some x = Some y) by (apply H; lia). congruence.
  - apply IH; [cbn in L; lia|]. intros i I. apply (H (S i)). cbn. lia.
Qed.
Lemma normal_alike : forall m m' n n', alike m m' -> normal m n -> normal m' n' -> n = n'.
Proof.
  intros m m' n n' (L & A) (Ln & N & N8 & N10 & N11) (Ln' & N' & N8' & N10' & N11'). apply nth_ext'; [congruence|]. intros i _.
  destruct (Nat.eq_dec i 8) as [->|]; [congruence|]. destruct (Nat.eq_dec i 10) as [->|]; [congruence|]. destruct (Nat.eq_dec i 11) as [->|]; [congruence|].
  assert (V : ~ volatile i) by (unfold volatile; lia). rewrite N, N', A by exact V. reflexivity.
Qed.
Lemma nth_firstn : forall (l : list Z) k i, (i < k)%nat -> nth_error (firstn k l) i = nth_error l i.
Proof. induction l as [|x l IH]; intros [|k] [|i] H; cbn; try lia; auto. apply IH. lia. Qed.
Lemma nth_skipn : forall (l : list Z) k i, nth_error (skipn k l) i = nth_error l (k + i).
Proof. induction l as [|x l IH]; intros [|k] i; cbn; auto. - now destruct i. Qed.
Lemma differing : forall k L m m' n n', differ_at k m m' -> normal m n -> normal m' n' -> Forall byte n -> Forall byte n' ->
  (k + 4 <= L <= length m)%nat -> crc32 (firstn L n) <> crc32 (firstn L n').
Proof.
  intros k L m m' n n' (Lm & A & w & Vw & W) (Ln & N & N8 & N10 & N11) (Ln' & N' & N8' & N10' & N11') F F' B E.
  assert (Out : forall i, (i < k \/ k + 4 <= i)%nat -> nth_error n i = nth_error n' i).
  { intros i I. destruct (Nat.eq_dec i 8) as [->|]; [congruence|]. destruct (Nat.eq_dec i 10) as [->|]; [congruence|]. destruct (Nat.eq_dec i 11) as [->|]; [congruence|].
    assert (V : ~ volatile i) by (unfold volatile; lia). rewrite N, N', A by assumption. reflexivity. }
  assert (Sp : forall l : list Z, firstn L l = firstn k l ++ firstn 4 (skipn k l) ++ skipn 4 (skipn k (firstn L l))).
  { intros l. rewrite <- (firstn_skipn k (firstn L l)) at 1. f_equal; [rewrite firstn_firstn; f_equal; lia|].
    rewrite <- (firstn_skipn 4 (skipn k (firstn L l))) at 1. f_equal. apply nth_ext'.
    - rewrite !firstn_length, !skipn_length, !firstn_length. lia.
    - intros i I. rewrite firstn_length in I. rewrite !nth_firstn, !nth_skipn, nth_firstn by lia. reflexivity. }
  rewrite (Sp n), (Sp n') in E.
  assert (P : firstn k n = firstn k n').
  { apply nth_ext'; [rewrite !firstn_length; lia|]. intros i I. rewrite firstn_length in I. rewrite !nth_firstn by lia. apply Out. lia. }
  assert (S : skipn 4 (skipn k (firstn L n)) = skipn 4 (skipn k (firstn L n'))).
  { apply nth_ext'; [rewrite !skipn_length, !firstn_length; lia|]. intros i I. rewrite !skipn_length, firstn_length in I. rewrite !nth_skipn, !nth_firstn by lia. apply Out. lia. }
  assert (Ff : forall (l : list Z) j, Forall byte l -> Forall byte (firstn j l)) by (intros l j G; rewrite <- (firstn_skipn j l) in G; now apply Forall_app in G).
  assert (Fs : forall (l : list Z) j, Forall byte l -> Forall byte (skipn j l)) by (intros l j G; rewrite <- (firstn_skipn j l) in G; now apply Forall_app in G).
  rewrite P, S in E. apply window in E; auto; try (rewrite firstn_length, skipn_length; lia).
  assert (I : (k <= w < k + 4)%nat) by (destruct (le_lt_dec k w); [destruct (le_lt_dec (k + 4) w); [|lia]|]; exfalso; apply W, A; auto).
  apply W. rewrite <- N, <- N' by exact Vw.
  assert (H : nth_error (firstn 4 (skipn k n)) (w - k) = nth_error (firstn 4 (skipn k n')) (w - k)) by now rewrite E.
  rewrite !nth_firstn, !nth_skipn in H by lia. replace (k + (w - k))%nat with w in H by lia. exact H.
Qed.

(** Proofs about the windows, the ordering of addresses and the border flags. *)
From Verif Require Import Base Bytes Compare CompareProofs HelloSpec Tc TcSpec.

Lemma high_old s m k : 0 <= s < 65536 -> 0 <= m < 65536 -> 0 < k < 32768 -> inrange_high (s - k) s m = (ahead m s <? k).
Proof.
  intros Hs Hm Hk. unfold inrange_high, ahead, u16.
  destruct (Z.ltb_spec (s - k) 0); [lia|]. destruct (Z.leb_spec 65536 s); lia.
Qed.
Lemma high_new s m k : 0 <= s < 65536 -> 0 <= m < 65536 -> 0 < k < 32768 -> inrange_high s (s + k) m = (1 <=? ahead s m) && (ahead s m <=? k).
Proof.
  intros Hs Hm Hk. unfold inrange_high, ahead, u16.
  destruct (Z.ltb_spec s 0); [lia|]. destruct (Z.leb_spec 65536 (s + k)); lia.
Qed.
Lemma low_new s m k : 0 <= s < 65536 -> 0 <= m < 65536 -> 0 < k < 32768 -> inrange_low s (s + k) m = (ahead s m <? k).
Proof.
  intros Hs Hm Hk. unfold inrange_low, ahead, u16.
  destruct (Z.ltb_spec s 0); [lia|]. destruct (Z.leb_spec 65536 (s + k)); lia.
Qed.
Lemma seqno_gt_newer a b : 0 <= a < 65536 -> 0 <= b < 65536 -> seqno_gt a b = newer a b.
Proof. intros Ha Hb. unfold seqno_gt, newer, ahead. lia. Qed.

(** * Values of addresses *)
Lemma val_ntohl a : val a = ntohl_val a.
Proof. unfold val, ntohl_val. generalize 0. induction a as [|x a IH]; intros v; [reflexivity|]. cbn [fold_left be_val]. apply IH. Qed.

Definition bytesl (l : list Z) := Forall (fun b => 0 <= b < 256) l.

Lemma memcmp_val a : forall b, length a = length b -> bytesl a -> bytesl b -> memcmp a b = comp_etx (ntohl_val a) (ntohl_val b).
Proof.
  unfold ntohl_val. induction a as [|x a IH]; intros [|y b] L Fa Fb; cbn [length] in L; try discriminate; [reflexivity|].
  inversion Fa as [|? ? A1 A2]; inversion Fb as [|? ? B1 B2]; subst. cbn [memcmp be_val].
  rewrite (be_val_acc a), (be_val_acc b). assert (L' : length a = length b) by lia. rewrite (IH b L' A2 B2), L'.
  pose proof (be_val_range a A2) as Ra. pose proof (be_val_range b B2) as Rb. rewrite L' in Ra.
  set (p := 256 ^ Z.of_nat (length b)) in *. unfold comp_etx.
  destruct (Z.ltb_spec x y).
  - replace ((0 * 256 + x) * p + be_val 0 a <? (0 * 256 + y) * p + be_val 0 b) with true by nia. reflexivity.
  - destruct (Z.gtb_spec x y).
    + replace ((0 * 256 + x) * p + be_val 0 a <? (0 * 256 + y) * p + be_val 0 b) with false by nia.
      replace ((0 * 256 + x) * p + be_val 0 a >? (0 * 256 + y) * p + be_val 0 b) with true by nia. reflexivity.
    + assert (x = y) by lia. subst y. set (q := (0 * 256 + x) * p).
      replace (q + be_val 0 a <? q + be_val 0 b) with (be_val 0 a <? be_val 0 b) by lia.
      replace (q + be_val 0 a >? q + be_val 0 b) with (be_val 0 a >? be_val 0 b) by lia. reflexivity.
Qed.

Lemma acmp_key e a b : is_addr e a -> is_addr e b -> acmp e a b = comp_etx (akey e a) (akey e b).
Proof.
  intros (La & Fa) (Lb & Fb). unfold acmp, akey, ip6cmp. rewrite !val_ntohl.
  destruct (te_v6 e); cbn [orb].
  - apply memcmp_val; auto. unfold blen in *. lia.
  - rewrite ip4cmp_etx. unfold s_addr. destruct (te_little e); reflexivity.
Qed.
Lemma akey_inj e a b : is_addr e a -> is_addr e b -> akey e a = akey e b -> a = b.
Proof.
  intros (La & Fa) (Lb & Fb). unfold akey. rewrite !val_ntohl. intros H.
  assert (Q : s_addr (negb (te_v6 e || negb (te_little e))) a = s_addr (negb (te_v6 e || negb (te_little e))) b).
  { unfold s_addr. destruct (te_v6 e || negb (te_little e)); exact H. }
  apply (s_addr_inj _ (length a)) in Q; [exact Q|split; auto|split; auto]. unfold blen in *. lia.
Qed.
Lemma acmp_zero e a b : is_addr e a -> is_addr e b -> (acmp e a b =? 0) = (if list_eq_dec Z.eq_dec b a then true else false).
Proof.
  intros A B. rewrite (acmp_key e a b A B). destruct (list_eq_dec Z.eq_dec b a) as [->|N].
  - unfold comp_etx. destruct (Z.ltb_spec (akey e a) (akey e a)), (Z.gtb_spec (akey e a) (akey e a)); lia.
  - assert (akey e a <> akey e b) by (intros Q; apply N; symmetry; now apply (akey_inj e)).
    unfold comp_etx. destruct (Z.ltb_spec (akey e a) (akey e b)), (Z.gtb_spec (akey e a) (akey e b)); lia.
Qed.
Lemma acmp_le e a b : is_addr e a -> is_addr e b -> (acmp e a b <=? 0) = (akey e a <=? akey e b).
Proof.
  intros A B. rewrite (acmp_key e a b A B). unfold comp_etx.
  destruct (Z.ltb_spec (akey e a) (akey e b)), (Z.gtb_spec (akey e a) (akey e b)); lia.
Qed.
Lemma acmp_lt e a b : is_addr e a -> is_addr e b -> (acmp e a b <? 0) = (akey e a <? akey e b).
Proof.
  intros A B. rewrite (acmp_key e a b A B). unfold comp_etx.
  destruct (Z.ltb_spec (akey e a) (akey e b)), (Z.gtb_spec (akey e a) (akey e b)); lia.
Qed.

(** * Values and bytes *)
Lemma val_app a x : val (a ++ [x]) = val a * 256 + x.
Proof. unfold val. rewrite fold_left_app. reflexivity. Qed.
Lemma of_val_len n : forall v, length (of_val n v) = n.
Proof. induction n as [|n IH]; intros v; [reflexivity|]. cbn [of_val]. rewrite app_length, IH. cbn [length]. lia. Qed.
Lemma of_val_bytes n : forall v, bytesl (of_val n v).
Proof.
  induction n as [|n IH]; intros v; [constructor|]. cbn [of_val]. apply Forall_app. split; [apply IH|]. repeat constructor; lia.
Qed.
Lemma of_val_val n : forall a, length a = n -> bytesl a -> of_val n (val a) = a.
Proof.
  induction n as [|n IH]; intros a L F.
  - destruct a; [reflexivity|discriminate].
  - destruct (exists_last (l := a)) as (a' & x & ->); [intros ->; discriminate|].
    apply Forall_app in F. destruct F as (F1 & F2). inversion F2 as [|? ? X _]; subst. rewrite app_length in L. cbn [length] in L.
    cbn [of_val]. rewrite val_app.
    replace ((val a' * 256 + x) / 256) with (val a') by lia. replace ((val a' * 256 + x) mod 256) with x by lia.
    rewrite IH; [reflexivity|lia|exact F1].
Qed.
Lemma val_of_val n : forall v, 0 <= v < 256 ^ Z.of_nat n -> val (of_val n v) = v.
Proof.
  induction n as [|n IH]; intros v H.
  - change (256 ^ Z.of_nat 0) with 1 in H. cbn. lia.
  - cbn [of_val]. rewrite val_app. rewrite Nat2Z.inj_succ, Z.pow_succ_r in H by lia. rewrite IH; lia.
Qed.
Lemma val_range a : bytesl a -> 0 <= val a < 256 ^ Z.of_nat (length a).
Proof. intros F. rewrite val_ntohl. now apply be_val_range. Qed.
Lemma val_app2 a b : val (a ++ b) = val a * 256 ^ Z.of_nat (length b) + val b.
Proof.
  rewrite !val_ntohl. unfold ntohl_val. assert (G : forall acc, be_val acc (a ++ b) = be_val (be_val acc a) b).
  { induction a as [|x a IH]; intros acc; [reflexivity|]. cbn [app be_val]. apply IH. }
  rewrite G. apply be_val_acc.
Qed.
Lemma repeat_val0 n : repeat 0 n = of_val n 0.
Proof.
  induction n as [|n IH]; [reflexivity|]. cbn [of_val]. change (0 / 256) with 0. change (0 mod 256) with 0. rewrite <- IH.
  clear. induction n as [|n IH]; [reflexivity|]. cbn [repeat app]. now rewrite <- IH.
Qed.
Lemma pow_div n : 0 <= n -> (256 ^ (n + 1) - 1) / 256 = 256 ^ n - 1 /\ (256 ^ (n + 1) - 1) mod 256 = 255.
Proof. intros H. rewrite Z.pow_add_r by lia. change (256 ^ 1) with 256. split; lia. Qed.
Lemma repeat_val1 n : repeat 255 n = of_val n (256 ^ Z.of_nat n - 1).
Proof.
  induction n as [|n IH]; [reflexivity|]. cbn [of_val]. rewrite Nat2Z.inj_succ. unfold Z.succ.
  destruct (pow_div (Z.of_nat n) ltac:(lia)) as (A & B). rewrite A, B, <- IH.
  clear. induction n as [|n IH]; [reflexivity|]. cbn [repeat app]. now rewrite <- IH.
Qed.
Lemma ips_val e : Z.of_nat (Z.to_nat (ips e)) = ips e.
Proof. unfold ips. destruct (te_v6 e); reflexivity. Qed.
Lemma ips_pos e : 0 < ips e. Proof. unfold ips. destruct (te_v6 e); lia. Qed.
Lemma is_addr_of_val e v : is_addr e (of_val (Z.to_nat (ips e)) v).
Proof. split; [|apply of_val_bytes]. unfold blen. rewrite of_val_len. apply ips_val. Qed.

(** all pairs of a byte and a bit position *)
Definition byte_bit (x b : Z) : bool :=
  Z.lor (Z.land x (u8 (Z.shiftl 255 b))) (u8 (Z.shiftl 1 b)) =? x / 2 ^ (b + 1) * 2 ^ (b + 1) + 2 ^ b.
Definition upto (n : nat) : list Z := map Z.of_nat (seq 0 n).
Lemma upto_in n x : 0 <= x < Z.of_nat n -> In x (upto n).
Proof. intros H. unfold upto. apply in_map_iff. exists (Z.to_nat x). split; [lia|]. apply in_seq. lia. Qed.
Lemma byte_bits_all : forallb (fun x => forallb (byte_bit x) (upto 8)) (upto 256) = true.
Proof. vm_compute. reflexivity. Qed.
Lemma byte_bit_ok x b : 0 <= x < 256 -> 0 <= b < 8 ->
  Z.lor (Z.land x (u8 (Z.shiftl 255 b))) (u8 (Z.shiftl 1 b)) = x / 2 ^ (b + 1) * 2 ^ (b + 1) + 2 ^ b.
Proof.
  intros Hx Hb. pose proof byte_bits_all as A. rewrite forallb_forall in A. specialize (A x (upto_in 256 x ltac:(lia))).
  cbv beta in A. rewrite forallb_forall in A. specialize (A b (upto_in 8 b ltac:(lia))). unfold byte_bit in A. lia.
Qed.

(** splitting an address at a byte *)
Lemma split_byte (a : list Z) i : (i < length a)%nat -> exists x, nth_error a i = Some x /\ a = firstn i a ++ [x] ++ skipn (S i) a.
Proof.
  intros H. destruct (nth_error a i) as [x|] eqn:E; [|apply nth_error_None in E; lia]. exists x. split; [reflexivity|].
  rewrite <- (firstn_skipn i a) at 1. f_equal. revert a H E. induction i as [|i IH]; intros [|y a] H E; cbn in *; try discriminate; try lia.
  - apply Some_inj in E. now subst.
  - apply IH; [lia|exact E].
Qed.

(** the border address in numbers *)
Lemma bval_split h x l q b : 0 <= x < 256 -> 0 <= l < 256 ^ q -> 0 <= q -> 0 <= b < 8 ->
  (h * 256 * 256 ^ q + x * 256 ^ q + l) / 2 ^ (8 * q + b + 1) * 2 ^ (8 * q + b + 1) + 2 ^ (8 * q + b)
  = (h * 256 + (x / 2 ^ (b + 1) * 2 ^ (b + 1) + 2 ^ b)) * 256 ^ q.
Proof.
  intros Hx Hl Hq Hb.
  assert (P : 2 ^ (8 * q) = 256 ^ q) by (rewrite Z.pow_mul_r by lia; reflexivity).
  replace (8 * q + b + 1) with (8 * q + (b + 1)) by lia. rewrite !(Z.pow_add_r 2 (8 * q)) by lia. rewrite P.
  set (p := 256 ^ q) in *. assert (Hp : 0 < p) by (apply Z.pow_pos_nonneg; lia).
  rewrite <- (Z.div_div _ p (2 ^ (b + 1))) by (try apply Z.pow_nonzero; lia).
  replace (h * 256 * p + x * p + l) with (l + (h * 256 + x) * p) by ring. rewrite Z.div_add by lia. rewrite (Z.div_small l p) by lia.
  rewrite Z.add_0_l.
  assert (D : (h * 256 + x) / 2 ^ (b + 1) = h * (256 / 2 ^ (b + 1)) + x / 2 ^ (b + 1)).
  { assert (M : 256 = 256 / 2 ^ (b + 1) * 2 ^ (b + 1)).
    { assert (C : b = 0 \/ b = 1 \/ b = 2 \/ b = 3 \/ b = 4 \/ b = 5 \/ b = 6 \/ b = 7) by lia.
      destruct C as [->|[->|[->|[->|[->|[->|[->| ->]]]]]]]; reflexivity. }
    rewrite M at 1. replace (h * (256 / 2 ^ (b + 1) * 2 ^ (b + 1)) + x) with (x + (h * (256 / 2 ^ (b + 1))) * 2 ^ (b + 1)) by ring.
    rewrite Z.div_add by (apply Z.pow_nonzero; lia). ring. }
  rewrite D.
  assert (M : h * 256 = h * (256 / 2 ^ (b + 1)) * 2 ^ (b + 1)).
  { assert (C : b = 0 \/ b = 1 \/ b = 2 \/ b = 3 \/ b = 4 \/ b = 5 \/ b = 6 \/ b = 7) by lia.
    destruct C as [->|[->|[->|[->|[->|[->|[->| ->]]]]]]]; cbn; ring. }
  rewrite M. ring.
Qed.

Lemma border_ip_ok e f a : is_addr e a -> 1 <= f <= 8 * ips e -> border_ip (ips e) f a = Some (border (ips e) f a).
Proof.
  intros (L & F) Hf. unfold border_ip. cbv zeta. pose proof (ips_val e) as I.
  assert (I16 : ips e <= 16) by (unfold ips; destruct (te_v6 e); lia).
  replace (u8 (f - 1)) with (f - 1) by (unfold u8; lia). set (q := (f - 1) / 8). set (b := (f - 1) mod 8).
  replace (q >=? ips e) with false by lia. unfold blen in L.
  destruct (split_byte a (Z.to_nat (ips e - q - 1)) ltac:(lia)) as (x & E & Sp). rewrite E. f_equal.
  set (i := Z.to_nat (ips e - q - 1)) in *. set (h := firstn i a) in *. set (l := skipn (S i) a) in *.
  assert (Fx : 0 <= x < 256). { rewrite Sp in F. apply Forall_app in F. destruct F as (_ & F). inversion F; auto. }
  assert (Fl : bytesl l). { rewrite Sp in F. apply Forall_app in F. destruct F as (_ & F). inversion F; auto. }
  assert (Fh : bytesl h). { rewrite Sp in F. apply Forall_app in F. tauto. }
  assert (Ll : Z.of_nat (length l) = q) by (unfold l; rewrite skipn_length; lia).
  assert (Lh : length h = i) by (unfold h; rewrite firstn_length; lia).
  assert (V : val a = val h * 256 * 256 ^ q + x * 256 ^ q + val l).
  { rewrite Sp. rewrite val_app2, val_app2. rewrite app_length. rewrite Nat2Z.inj_add, Z.pow_add_r, Ll by lia.
    change (val [x]) with x. change (Z.of_nat (length [x])) with 1. change (256 ^ 1) with 256. ring. }
  unfold border. rewrite V. pose proof (val_range l Fl) as Rl. rewrite Ll in Rl.
  assert (B := byte_bit_ok x b Fx ltac:(lia)).
  replace f with (8 * q + b + 1) by lia. replace (8 * q + b + 1 - 1) with (8 * q + b) by lia.
  rewrite (bval_split (val h) x (val l) q b) by lia. rewrite B.
  set (z := x / 2 ^ (b + 1) * 2 ^ (b + 1) + 2 ^ b).
  assert (Fz : 0 <= z < 256).
  { unfold z. assert (C : b = 0 \/ b = 1 \/ b = 2 \/ b = 3 \/ b = 4 \/ b = 5 \/ b = 6 \/ b = 7) by lia.
    destruct C as [->|[->|[->|[->|[->|[->|[->| ->]]]]]]];
      match goal with |- context [x / 2 ^ ?k] => let v := eval vm_compute in (2 ^ k) in change (2 ^ k) with v end;
      match goal with |- context [2 ^ ?k] => let v := eval vm_compute in (2 ^ k) in change (2 ^ k) with v | _ => idtac end; lia. }
  set (w := h ++ [z] ++ repeat 0 (Z.to_nat q)).
  assert (W : val w = (val h * 256 + z) * 256 ^ q).
  { unfold w. assert (R0 : val (repeat 0 (Z.to_nat q)) = 0) by (rewrite repeat_val0; apply val_of_val; split; [lia|apply Z.pow_pos_nonneg; lia]).
    rewrite val_app2, val_app2, R0.
    rewrite app_length, repeat_length. cbn [length]. rewrite Nat2Z.inj_add, Z.pow_add_r by lia.
    change (val [z]) with z. change (Z.of_nat 1) with 1. change (256 ^ 1) with 256. replace (Z.of_nat (Z.to_nat q)) with q by lia. ring. }
  rewrite <- W. symmetry. apply of_val_val.
  - unfold w. rewrite !app_length, repeat_length, Lh. cbn [length]. lia.
  - unfold w. apply Forall_app. split; [exact Fh|]. constructor; [exact Fz|].
    apply Forall_forall. intros y Hy. apply repeat_spec in Hy. lia.
Qed.

(** * The flag between two addresses *)
Definition byte_pair (x y : Z) : bool :=
  (x =? y) ||
  let b := bit_diff 8 0 254 x y in
  (0 <=? b) && (b <? 8) && (x / 2 ^ (b + 1) =? y / 2 ^ (b + 1)) &&
  (if x <? y then (x <? x / 2 ^ (b + 1) * 2 ^ (b + 1) + 2 ^ b) && (x / 2 ^ (b + 1) * 2 ^ (b + 1) + 2 ^ b <=? y) else true).
Lemma byte_pairs_all : forallb (fun x => forallb (byte_pair x) (upto 256)) (upto 256) = true.
Proof. vm_compute. reflexivity. Qed.
Lemma byte_pair_ok x y : 0 <= x < 256 -> 0 <= y < 256 -> x <> y ->
  let b := bit_diff 8 0 254 x y in
  0 <= b < 8 /\ x / 2 ^ (b + 1) = y / 2 ^ (b + 1) /\
  (x < y -> x < x / 2 ^ (b + 1) * 2 ^ (b + 1) + 2 ^ b <= y).
Proof.
  intros Hx Hy N b. pose proof byte_pairs_all as A. rewrite forallb_forall in A. specialize (A x (upto_in 256 x ltac:(lia))).
  cbv beta in A. rewrite forallb_forall in A. specialize (A y (upto_in 256 y ltac:(lia))). unfold byte_pair in A.
  cbv zeta in A. fold b in A. split; [lia|]. split; [lia|]. intros L. replace (x <? y) with true in A by lia. lia.
Qed.

Lemma first_diff_spec a : forall b, length a = length b ->
  match first_diff a b with
  | None => a = b
  | Some (i, x, y) => x <> y /\ exists h la lb, a = h ++ x :: la /\ b = h ++ y :: lb /\ length h = i
  end.
Proof.
  induction a as [|x a IH]; intros [|y b] L; cbn [length] in L; try discriminate; [reflexivity|].
  cbn [first_diff]. destruct (Z.eqb_spec x y) as [->|N].
  - specialize (IH b ltac:(lia)). destruct (first_diff a b) as [[[i u] v]|]; cbn [option_map].
    + destruct IH as (Q & h & la & lb & A & B & C). split; [exact Q|]. exists (y :: h), la, lb. cbn [length app]. repeat split; congruence.
    + now subst.
  - split; [exact N|]. exists [], a, b. repeat split.
Qed.

Lemma digits_lt h x y la lb p : 0 <= la < p -> 0 <= lb < p -> h * 256 * p + x * p + la < h * 256 * p + y * p + lb -> x <> y -> x < y.
Proof.
  intros A B H N. destruct (Z_lt_le_dec x y) as [C|C]; [exact C|].
  assert ((y + 1) * p <= x * p) by (apply Z.mul_le_mono_nonneg_r; lia). lia.
Qed.
Lemma digits_between h x y z la lb p : 0 <= la < p -> 0 <= lb < p -> x < z <= y ->
  h * 256 * p + x * p + la < (h * 256 + z) * p <= h * 256 * p + y * p + lb.
Proof.
  intros A B C. assert ((x + 1) * p <= z * p) by (apply Z.mul_le_mono_nonneg_r; lia).
  assert (z * p <= y * p) by (apply Z.mul_le_mono_nonneg_r; lia). lia.
Qed.
Lemma digits_range h z p ph : 0 <= h < ph -> 0 <= z < 256 -> 0 < p -> 0 <= (h * 256 + z) * p < ph * 256 * p.
Proof.
  intros A B C. split; [apply Z.mul_nonneg_nonneg; lia|]. apply Z.mul_lt_mono_pos_r; lia.
Qed.
Lemma flag_ok e a b : is_addr e a -> is_addr e b -> a <> b ->
  let f := calculate_border_flag (ips e) a b in
  1 <= f <= 8 * ips e /\ border (ips e) f a = border (ips e) f b /\
  (val a < val b -> val a < val (border (ips e) f a) <= val b).
Proof.
  intros (La & Fa) (Lb & Fb) N f.
  pose proof (first_diff_spec a b ltac:(unfold blen in *; lia)) as D. unfold f, calculate_border_flag.
  destruct (first_diff a b) as [[[i x] y]|]; [|congruence]. destruct D as (Nxy & h & la & lb & Ea & Eb & Li).
  assert (Fx : 0 <= x < 256 /\ bytesl la /\ bytesl h).
  { rewrite Ea in Fa. apply Forall_app in Fa. destruct Fa as (F1 & F). inversion F; auto. }
  assert (Fy : 0 <= y < 256 /\ bytesl lb).
  { rewrite Eb in Fb. apply Forall_app in Fb. destruct Fb as (F1 & F). inversion F; auto. }
  destruct Fx as (Fx & Fla & Fh). destruct Fy as (Fy & Flb).
  destruct (byte_pair_ok x y Fx Fy Nxy) as (B1 & B2 & B3). cbv zeta in *. set (t := bit_diff 8 0 254 x y) in *.
  unfold blen in La, Lb. pose proof (ips_val e) as I.
  assert (I16 : ips e <= 16) by (unfold ips; destruct (te_v6 e); lia).
  set (q := ips e - Z.of_nat i - 1).
  assert (IQ : ips e = Z.of_nat (length h) + 1 + q) by (unfold q; clear - Li; lia).
  assert (Lla : Z.of_nat (length la) = q) by (rewrite Ea, app_length in La; cbn [length] in La; lia).
  assert (Llb : Z.of_nat (length lb) = q) by (rewrite Eb, app_length in Lb; cbn [length] in Lb; lia).
  replace (u8 (u8 (t + 8 * q) + 1)) with (8 * q + t + 1) by (unfold u8; lia).
  split; [lia|].
  assert (Va : val a = val h * 256 * 256 ^ q + x * 256 ^ q + val la).
  { rewrite Ea. change (x :: la) with ([x] ++ la). rewrite val_app2, val_app2, app_length. rewrite Nat2Z.inj_add, Z.pow_add_r, Lla by lia.
    change (val [x]) with x. change (Z.of_nat (length [x])) with 1. change (256 ^ 1) with 256. ring. }
  assert (Vb : val b = val h * 256 * 256 ^ q + y * 256 ^ q + val lb).
  { rewrite Eb. change (y :: lb) with ([y] ++ lb). rewrite val_app2, val_app2, app_length. rewrite Nat2Z.inj_add, Z.pow_add_r, Llb by lia.
    change (val [y]) with y. change (Z.of_nat (length [y])) with 1. change (256 ^ 1) with 256. ring. }
  pose proof (val_range la Fla) as Ra. rewrite Lla in Ra. pose proof (val_range lb Flb) as Rb. rewrite Llb in Rb.
  unfold border. replace (8 * q + t + 1 - 1) with (8 * q + t) by lia.
  assert (Q0 : 0 <= q) by lia.
  pose proof (bval_split (val h) x (val la) q t Fx Ra Q0 B1) as Ba.
  pose proof (bval_split (val h) y (val lb) q t Fy Rb Q0 B1) as Bb.
  rewrite <- Va in Ba. rewrite <- Vb in Bb. rewrite Ba, Bb. split; [now rewrite B2|].
  intros Hlt. assert (Hxy : x < y).
  { rewrite Va, Vb in Hlt. exact (digits_lt (val h) x y (val la) (val lb) (256 ^ q) Ra Rb Hlt Nxy). }
  specialize (B3 Hxy). set (z := x / 2 ^ (t + 1) * 2 ^ (t + 1) + 2 ^ t) in *.
  pose proof (val_range h Fh) as Rh.
  assert (Rz : val (of_val (Z.to_nat (ips e)) ((val h * 256 + z) * 256 ^ q)) = (val h * 256 + z) * 256 ^ q).
  { apply val_of_val. rewrite I.
    assert (IE : 256 ^ ips e = 256 ^ Z.of_nat (length h) * 256 * 256 ^ q).
    { rewrite IQ. rewrite !Z.pow_add_r by (clear -Q0; lia). reflexivity. }
    rewrite IE. apply digits_range; [exact Rh| |apply Z.pow_pos_nonneg; [reflexivity|exact Q0]].
    clear - Fx Fy B3. clearbody z. lia. }
  rewrite Rz, Va, Vb. clearbody z. apply digits_between; [exact Ra|exact Rb|exact B3].
Qed.

(** Proofs about the message digest. *)
From Verif Require Import Base Md5 Md5Spec.

Definition w32 (x : Z) : Prop := 0 <= x < 2 ^ 32.
Definition w32q (q : quad) : Prop := w32 (qa q) /\ w32 (qb q) /\ w32 (qc q) /\ w32 (qd q).
Lemma u32_w : forall x, w32 (u32 x).
Proof. intros x. unfold w32, u32. apply Z.mod_pos_bound. reflexivity. Qed.
Lemma not_ok : forall x, w32 x -> u32 (Z.lnot x) = not32 x.
Proof. intros x H. unfold w32, u32, not32, Z.lnot in *. lia. Qed.

(** or of disjoint bits *)
Lemma lor_add : forall k b n, 0 <= n -> 0 <= b < 2 ^ n -> Z.lor (k * 2 ^ n) b = k * 2 ^ n + b.
Proof.
  intros k b n N B. assert (D : Z.land (k * 2 ^ n) b = 0).
  { apply Z.bits_inj'. intros i I. rewrite Z.land_spec, Z.bits_0. destruct (Z_lt_le_dec i n) as [L|L].
    - now rewrite Z.mul_pow2_bits_low by lia.
    - replace (Z.testbit b i) with false; [now rewrite andb_false_r|]. symmetry.
      rewrite <- (Z.mod_small b (2 ^ n)) by lia. rewrite Z.mod_pow2_bits_high by lia. reflexivity. }
  rewrite <- Z.lxor_lor by exact D. symmetry. now apply Z.add_nocarry_lxor.
Qed.
Lemma rotl_ok : forall x n, w32 x -> 0 < n < 32 -> rotl x n = rot x n.
Proof.
  intros x n X N. unfold rotl, rot, w32 in *. rewrite Z.shiftl_mul_pow2, Z.shiftr_div_pow2 by lia.
  change (u32 (x * 2 ^ n)) with ((x * 2 ^ n) mod 2 ^ 32).
  replace (2 ^ 32) with (2 ^ (32 - n) * 2 ^ n) in * by (rewrite <- Z.pow_add_r by lia; f_equal; lia).
  pose proof (Z.pow_pos_nonneg 2 n eq_refl ltac:(lia)) as P1.
  pose proof (Z.pow_pos_nonneg 2 (32 - n) eq_refl ltac:(lia)) as P2.
  rewrite Z.mul_mod_distr_r by lia. apply lor_add; [lia|]. split; [apply Z.div_pos; lia|]. apply Z.div_lt_upper_bound; lia.
Qed.

(** the functions of the rounds *)
Definition opZ (r : Z) : op := if r =? 0 then FF else if r =? 1 then GG else if r =? 2 then HH else II.
Lemma fn_ok : forall r x y z, w32 x -> w32 z -> fn (opZ r) x y z = rfun r x y z.
Proof.
  intros r x y z X Z. unfold opZ, rfun. destruct (r =? 0); [unfold fn, fF; now rewrite not_ok|].
  destruct (r =? 1); [unfold fn, fG; now rewrite not_ok|].
  destruct (r =? 2); [unfold fn, fH; now rewrite Z.lxor_assoc|]. unfold fn, fI. now rewrite not_ok.
Qed.
Lemma mix_ok : forall r a b c d x s ac, w32 b -> w32 d -> 0 < s < 32 ->
  mix (fn (opZ r)) a b c d x s ac =
  add32 b (rot (add32 a (add32 (add32 (rfun r b c d) x) ac)) s).
Proof.
  intros r a b c d x s ac B D S. unfold mix. rewrite fn_ok, rotl_ok by (assumption || apply u32_w).
  unfold add32, u32. change (2 ^ 32) with 4294967296. f_equal. apply Z.add_comm.
Qed.

(** the state of the specification, after a number of steps *)
Definition turned (k : nat) (q : quad) : words :=
  match k with
  | 0%nat => (qa q, qb q, qc q, qd q)
  | 1%nat => (qd q, qa q, qb q, qc q)
  | 2%nat => (qc q, qd q, qa q, qb q)
  | _ => (qb q, qc q, qd q, qa q)
  end.
Definition var_of (k : nat) : var := match k with 0%nat => Va | 1%nat => Vd | 2%nat => Vc | _ => Vb end.
Definition row (i : nat) : line :=
  (opZ (Z.of_nat i / 16), var_of (i mod 4), Z.to_nat (index (Z.of_nat i)), shift (Z.of_nat i), nth i T 0).
Lemma rows : lines = map row (seq 0 64).
Proof. vm_compute. reflexivity. Qed.
Lemma shift_ok : forall i, (i < 64)%nat -> 0 < shift (Z.of_nat i) < 32.
Proof.
  intros i L. assert (F : Forall (fun i => 0 < shift (Z.of_nat i) < 32) (seq 0 64)).
  { apply Forall_forall. intros x I. apply in_seq in I.
    assert (E : forallb (fun i => (0 <? shift (Z.of_nat i)) && (shift (Z.of_nat i) <? 32)) (seq 0 64) = true) by (vm_compute; reflexivity).
    rewrite forallb_forall in E. specialize (E x ltac:(apply in_seq; lia)). lia. }
  rewrite Forall_forall in F. apply F. apply in_seq. lia.
Qed.
Lemma index_ok : forall i, 0 <= index i < 16.
Proof. intros i. unfold index. apply Z.mod_pos_bound. reflexivity. Qed.

Lemma step_ok : forall blk x q i, (i < 64)%nat -> w32q q ->
  (forall k, 0 <= k < 16 -> nth (Z.to_nat k) x 0 = word_of blk k) ->
  turned (S i mod 4) (exec x q (row i)) = step blk (turned (i mod 4) q) i /\ w32q (exec x q (row i)).
Proof.
  intros blk x q i L (A & B & C & D) X. pose proof (shift_ok i L) as Sh.
  pose proof (X _ (index_ok (Z.of_nat i))) as Xi.
  assert (K : (i mod 4 = 0 /\ S i mod 4 = 1 \/ i mod 4 = 1 /\ S i mod 4 = 2 \/ i mod 4 = 2 /\ S i mod 4 = 3 \/ i mod 4 = 3 /\ S i mod 4 = 0)%nat) by lia.
  assert (M : forall p b c d, w32 b -> w32 d ->
    mix (fn (opZ (Z.of_nat i / 16))) p b c d (nth (Z.to_nat (index (Z.of_nat i))) x 0) (shift (Z.of_nat i)) (nth i T 0) =
    add32 b (rot (add32 p (add32 (add32 (rfun (Z.of_nat i / 16) b c d) (word_of blk (index (Z.of_nat i)))) (nth (Z.to_nat (Z.of_nat i)) T 0))) (shift (Z.of_nat i)))).
  { intros. rewrite Nat2Z.id, Xi. now apply mix_ok. }
  assert (W : forall p b c d, w32 (mix (fn (opZ (Z.of_nat i / 16))) p b c d (nth (Z.to_nat (index (Z.of_nat i))) x 0) (shift (Z.of_nat i)) (nth i T 0))).
  { intros. unfold mix. apply u32_w. }
  destruct K as [(K1 & K2)|[(K1 & K2)|[(K1 & K2)|(K1 & K2)]]]; rewrite K2; unfold row; rewrite K1; cbn [var_of exec turned qa qb qc qd];
    (split; [unfold step; rewrite <- M by assumption; reflexivity|]);
    (split; [|split; [|split]]); cbn [qa qb qc qd]; try assumption; apply W.
Qed.
Lemma steps_ok : forall blk x q, w32q q -> (forall k, 0 <= k < 16 -> nth (Z.to_nat k) x 0 = word_of blk k) ->
  forall n, (n <= 64)%nat ->
  turned (n mod 4) (fold_left (exec x) (map row (seq 0 n)) q) = fold_left (step blk) (seq 0 n) (turned 0 q) /\
  w32q (fold_left (exec x) (map row (seq 0 n)) q).
Proof.
  intros blk x q W X. induction n as [|n IH]; intros L; [split; [reflexivity|exact W]|].
  destruct IH as (E & W'); [lia|]. rewrite seq_S, map_app, !fold_left_app. cbn [map fold_left Nat.add].
  rewrite <- E. apply step_ok; [lia|exact W'|exact X].
Qed.

(** words of a block *)
Lemma word_ok : forall a b c d, byte a -> byte b -> byte c -> byte d ->
  Z.lor (Z.lor (Z.lor a (u32 (Z.shiftl b 8))) (u32 (Z.shiftl c 16))) (u32 (Z.shiftl d 24)) = le_word [a; b; c; d].
Proof.
  intros a b c d A B C D. unfold le_word, byte in *. cbn [nth]. rewrite !Z.shiftl_mul_pow2 by lia.
  unfold u32. rewrite (Z.mod_small (b * 2 ^ 8)), (Z.mod_small (c * 2 ^ 16)), (Z.mod_small (d * 2 ^ 24)) by lia.
  rewrite (Z.lor_comm a), (lor_add b a 8) by lia.
  rewrite (Z.lor_comm (_ + _)), (lor_add c _ 16) by lia.
  rewrite (Z.lor_comm (_ + _)), (lor_add d _ 24) by lia. lia.
Qed.
Lemma decode_ok : forall k l, Forall byte l -> (4 * k + 4 <= length l)%nat ->
  nth k (decode l) 0 = le_word (firstn 4 (skipn (4 * k) l)).
Proof.
  induction k as [|k IH]; intros l F L.
  - destruct l as [|a [|b [|c [|d r]]]]; cbn [length] in L; try lia. cbn [Nat.mul skipn firstn decode nth].
    inversion F as [|? ? A F1]; inversion F1 as [|? ? B F2]; inversion F2 as [|? ? C F3]; inversion F3 as [|? ? D F4]; subst.
    now apply word_ok.
  - destruct l as [|a [|b [|c [|d r]]]]; cbn [length] in L; try lia.
    replace (4 * S k)%nat with (S (S (S (S (4 * k))))) by lia. cbn [skipn decode nth]. apply IH; [|lia].
    inversion F as [|? ? A F1]; inversion F1 as [|? ? B F2]; inversion F2 as [|? ? C F3]; inversion F3 as [|? ? D F4]; subst. exact F4.
Qed.

Definition wordsq (q : quad) : words := (qa q, qb q, qc q, qd q).
Lemma transform_ok : forall s b, w32q s -> length b = 64%nat -> Forall byte b ->
  wordsq (transform s b) = compress (wordsq s) b /\ w32q (transform s b).
Proof.
  intros s b W L F. unfold transform. rewrite rows.
  destruct (steps_ok b (decode b) s W) with (n := 64%nat) as (E & W'); [|lia|].
  { intros k K. unfold word_of. rewrite decode_ok by (assumption || lia).
    replace (Z.to_nat (4 * k)) with (4 * Z.to_nat k)%nat by lia. reflexivity. }
  set (q := fold_left _ (map _ _) _) in *. clearbody q. change (64 mod 4)%nat with 0%nat in E. cbn [turned] in E.
  unfold compress, wordsq. rewrite <- E. cbn [qa qb qc qd]. split; [reflexivity|].
  split; [|split; [|split]]; cbn [qa qb qc qd]; apply u32_w.
Qed.

(** * Absorbing *)
Definition absorb (p : list Z) : words := fold_left (fun w k => compress w (block p k)) (seq 0 (length p / 64)) start.
Lemma fold_ext : forall {A B} (f g : A -> B -> A) l a, (forall x b, In b l -> f x b = g x b) -> fold_left f l a = fold_left g l a.
Proof.
  induction l as [|b l IH]; intros a H; [reflexivity|]. cbn [fold_left]. rewrite H by now left. apply IH. intros; apply H; now right.
Qed.
Lemma absorb_snoc : forall p b k, length p = (64 * k)%nat -> length b = 64%nat -> absorb (p ++ b) = compress (absorb p) b.
Proof.
  intros p b k P B. unfold absorb. rewrite app_length, P, B.
  replace ((64 * k + 64) / 64)%nat with (S k) by lia. replace (64 * k / 64)%nat with k by lia.
  rewrite seq_S, fold_left_app. cbn [fold_left Nat.add]. f_equal.
  - apply fold_ext. intros x i I. apply in_seq in I. f_equal. unfold block.
    rewrite skipn_app. rewrite firstn_app. rewrite skipn_length, P.
    replace (64 - (64 * k - 64 * i))%nat with 0%nat by lia. now rewrite firstn_O, app_nil_r.
  - unfold block. rewrite skipn_app, P, Nat.sub_diag, skipn_all2 by lia. cbn [skipn app]. apply firstn_all2. lia.
Qed.

Record holds (c : ctx) (m : list Z) : Prop := {
  h_c0 : x_c0 c = (8 * Z.of_nat (length m)) mod 2 ^ 32;
  h_c1 : x_c1 c = (8 * Z.of_nat (length m) / 2 ^ 32) mod 2 ^ 32;
  h_w : w32q (x_state c);
  h_buf : length (x_buf c) = 64%nat;
  h_byte : Forall byte m;
  h_cut : exists p t k, m = p ++ t /\ length p = (64 * k)%nat /\ (length t < 64)%nat /\
      wordsq (x_state c) = absorb p /\ firstn (length t) (x_buf c) = t }.

Lemma rd_ok : forall l i n, 0 <= i -> 0 <= n -> i + n <= Z.of_nat (length l) ->
  rd l i n = Some (firstn (Z.to_nat n) (skipn (Z.to_nat i) l)).
Proof. intros l i n I N L. unfold rd. replace (_ && _) with true by lia. reflexivity. Qed.
Lemma wr_ok : forall l i d, 0 <= i -> i + Z.of_nat (length d) <= Z.of_nat (length l) ->
  wr l i d = Some (firstn (Z.to_nat i) l ++ d ++ skipn (Z.to_nat i + length d) l).
Proof. intros l i d I L. unfold wr. replace (_ && _) with true by lia. reflexivity. Qed.

Lemma skip_first : forall {A} (l : list A) a b, firstn a (skipn b l) = skipn b (firstn (b + a) l).
Proof. intros A l a b. rewrite skipn_firstn_comm. f_equal. lia. Qed.
Lemma first_split : forall {A} (l : list A) a b, (a <= b)%nat -> firstn b l = firstn a l ++ firstn (b - a) (skipn a l).
Proof.
  intros A l a b L. rewrite <- (firstn_skipn a (firstn b l)) at 1. rewrite firstn_firstn, Nat.min_l by lia. f_equal.
  rewrite skip_first. f_equal. f_equal. lia.
Qed.
Lemma forall_first : forall {A} (P : A -> Prop) l n, Forall P l -> Forall P (firstn n l).
Proof. intros A P l n F. rewrite <- (firstn_skipn n l) in F. now apply Forall_app in F. Qed.
Lemma forall_skip : forall {A} (P : A -> Prop) l n, Forall P l -> Forall P (skipn n l).
Proof. intros A P l n F. rewrite <- (firstn_skipn n l) in F. now apply Forall_app in F. Qed.

(** the loop over whole blocks *)
Lemma middle_ok : forall fuel s inp len i m k, 0 <= i <= len -> len <= Z.of_nat (length inp) -> len + 64 <= 2 ^ 32 ->
  Forall byte inp -> (Z.to_nat (len - i) < fuel)%nat ->
  length (m ++ firstn (Z.to_nat i) inp) = (64 * k)%nat -> w32q s -> wordsq s = absorb (m ++ firstn (Z.to_nat i) inp) ->
  exists s' i' k', middle fuel s inp len i = Some (s', i') /\ i <= i' <= len /\ len - i' < 64 /\
    length (m ++ firstn (Z.to_nat i') inp) = (64 * k')%nat /\ w32q s' /\ wordsq s' = absorb (m ++ firstn (Z.to_nat i') inp).
Proof.
  induction fuel as [|fuel IH]; intros s inp len i m k I L B F Fu Lk W E; [lia|]. cbn [middle].
  unfold u32 at 1. rewrite Z.mod_small by lia. destruct (i + 63 <? len) eqn:Q.
  - rewrite rd_ok by lia. unfold u32. rewrite Z.mod_small by lia.
    set (b := firstn (Z.to_nat 64) (skipn (Z.to_nat i) inp)).
    assert (Lb : length b = 64%nat) by (unfold b; rewrite firstn_length, skipn_length; lia).
    assert (Fb : Forall byte b) by (apply forall_first, forall_skip; exact F).
    destruct (transform_ok s b W Lb Fb) as (T & W').
    assert (J : m ++ firstn (Z.to_nat (i + 64)) inp = (m ++ firstn (Z.to_nat i) inp) ++ b).
    { rewrite <- app_assoc. f_equal. rewrite (first_split inp (Z.to_nat i) (Z.to_nat (i + 64))) by lia.
      unfold b. f_equal. f_equal. lia. }
    destruct (IH (transform s b) inp len (i + 64) m (S k)) as (s' & i' & k' & R1 & R2 & R3 & R4); try assumption; try lia.
    + rewrite J, app_length, Lk, Lb. lia.
    + rewrite J, (absorb_snoc _ _ k Lk Lb), <- E. exact T.
    + exists s', i', k'. split; [exact R1|]. split; [lia|]. split; [exact R3|exact R4].
  - exists s, i, k. split; [reflexivity|]. split; [lia|]. split; [lia|]. split; [exact Lk|]. split; assumption.
Qed.

(** one call *)
Lemma counts : forall n len : Z, 0 <= n -> 0 <= len < 2 ^ 32 ->
  let c0 := (8 * n) mod 2 ^ 32 in let c1 := (8 * n / 2 ^ 32) mod 2 ^ 32 in
  let bits := u32 (Z.shiftl len 3) in
  u32 (c0 + bits) = (8 * (n + len)) mod 2 ^ 32 /\
  u32 ((if u32 (c0 + bits) <? bits then u32 (c1 + 1) else c1) + Z.shiftr len 29) = (8 * (n + len) / 2 ^ 32) mod 2 ^ 32.
Proof.
  intros n len N L c0 c1 bits. subst bits. rewrite Z.shiftl_mul_pow2, Z.shiftr_div_pow2 by lia.
  unfold u32. change (2 ^ 32) with 4294967296 in *. change (2 ^ 3) with 8. change (2 ^ 29) with 536870912.
  subst c0 c1.
  set (h := 8 * n / 4294967296). set (l := 8 * n mod 4294967296).
  assert (E : 8 * n = 4294967296 * h + l) by (unfold h, l; apply Z.div_mod; lia).
  assert (Bl : 0 <= l < 4294967296) by (unfold l; apply Z.mod_pos_bound; lia). clearbody h l.
  set (h2 := len / 536870912). set (l2 := len * 8 mod 4294967296).
  assert (E2 : 8 * len = 4294967296 * h2 + l2) by (unfold h2, l2; lia).
  assert (Bl2 : 0 <= l2 < 4294967296) by (unfold l2; apply Z.mod_pos_bound; lia). clearbody h2 l2.
  replace (8 * (n + len)) with (l + l2 + (h + h2) * 4294967296) by lia.
  split.
  - now rewrite Z.mod_add by lia.
  - rewrite Z.div_add by lia. destruct (Z_lt_le_dec (l + l2) 4294967296) as [C|C].
    + rewrite (Z.mod_small (l + l2)) by lia. replace (l + l2 <? l2) with false by lia.
      rewrite Z.add_mod_idemp_l by lia. f_equal. rewrite (Z.div_small (l + l2)) by lia. lia.
    + replace ((l + l2) mod 4294967296) with (l + l2 - 4294967296) by lia. replace (l + l2 - 4294967296 <? l2) with true by lia.
      rewrite Z.add_mod_idemp_l by lia. replace ((l + l2) / 4294967296) with 1 by lia.
      rewrite <- Z.add_assoc, Z.add_mod_idemp_l by lia. f_equal. lia.
Qed.

Lemma update_ok : forall c m inp len, holds c m -> Forall byte inp -> 0 <= len <= Z.of_nat (length inp) -> len + 64 <= 2 ^ 32 ->
  exists c', update c inp len = Some c' /\ holds c' (m ++ firstn (Z.to_nat len) inp).
Proof.
  intros c m inp len [H0 H1 HW HB HY (p & t & k & Em & Lp & Lt & Ew & Eb)] F L B.
  set (n := Z.of_nat (length m)) in *.
  assert (En : n = 64 * Z.of_nat k + Z.of_nat (length t)) by (unfold n; rewrite Em, app_length, Lp; lia).
  assert (Ln : Z.of_nat (length (m ++ firstn (Z.to_nat len) inp)) = n + len) by (rewrite app_length, firstn_length; unfold n; lia).
  assert (Ix : Z.land (Z.shiftr (x_c0 c) 3) 63 = Z.of_nat (length t)).
  { change 63 with (Z.ones 6). rewrite Z.land_ones, Z.shiftr_div_pow2, H0 by lia. change (2 ^ 32) with 4294967296. change (2 ^ 3) with 8. change (2 ^ 6) with 64. lia. }
  destruct (counts n len ltac:(lia) ltac:(lia)) as (C0 & C1). cbv zeta in C0, C1.
  unfold update. cbv zeta. rewrite Ix. rewrite H0, H1. rewrite C1, C0.
  set (c0 := (8 * (n + len)) mod 2 ^ 32). set (c1 := (8 * (n + len) / 2 ^ 32) mod 2 ^ 32).
  assert (Pt : u32 (64 - Z.of_nat (length t)) = 64 - Z.of_nat (length t)) by (unfold u32; apply Z.mod_small; lia). rewrite Pt.
  assert (FY : Forall byte (m ++ firstn (Z.to_nat len) inp)) by (apply Forall_app; split; [exact HY|now apply forall_first]).
  destruct (64 - Z.of_nat (length t) <=? len) eqn:Q.
  - rewrite rd_ok by lia. cbn [Z.to_nat skipn]. set (part := 64 - Z.of_nat (length t)) in *.
    set (d := firstn (Z.to_nat part) inp). assert (Ld : length d = Z.to_nat part) by (unfold d; rewrite firstn_length; lia).
    rewrite wr_ok by lia. rewrite Nat2Z.id, Eb, Ld, skipn_all2, app_nil_r by lia.
    set (b := t ++ d). assert (Lb : length b = 64%nat) by (unfold b; rewrite app_length, Ld; lia).
    assert (Fb : Forall byte b).
    { unfold b. apply Forall_app. split; [rewrite Em in HY; now apply Forall_app in HY|now apply forall_first]. }
    destruct (transform_ok (x_state c) b HW Lb Fb) as (T & W').
    assert (J : m ++ firstn (Z.to_nat part) inp = p ++ b) by (rewrite Em; unfold b; now rewrite <- app_assoc).
    destruct (middle_ok (S (Z.to_nat len)) (transform (x_state c) b) inp len part m (S k)) as (s' & i' & k' & R1 & R2 & R3 & R4 & R5 & R6);
      try assumption; try lia.
    { rewrite J, app_length, Lp, Lb. lia. }
    { rewrite J, (absorb_snoc _ _ k Lp Lb), <- Ew. exact T. }
    rewrite R1. unfold u32. rewrite Z.mod_small by lia. rewrite rd_ok by lia.
    set (e := firstn (Z.to_nat (len - i')) (skipn (Z.to_nat i') inp)).
    assert (Le : length e = Z.to_nat (len - i')) by (unfold e; rewrite firstn_length, skipn_length; lia).
    rewrite wr_ok by lia. eexists. split; [reflexivity|]. cbn [Z.to_nat firstn app Nat.add].
    constructor; cbn [x_c0 x_c1 x_state x_buf].
    + rewrite Ln. reflexivity.
    + rewrite Ln. reflexivity.
    + exact R5.
    + rewrite app_length, skipn_length. lia.
    + exact FY.
    + exists (m ++ firstn (Z.to_nat i') inp), e, k'. split.
      * rewrite <- app_assoc. f_equal. rewrite (first_split inp (Z.to_nat i') (Z.to_nat len)) by lia. unfold e. f_equal. f_equal. lia.
      * split; [exact R4|]. split; [lia|]. split; [exact R6|]. rewrite firstn_app, Nat.sub_diag, firstn_O, app_nil_r. apply firstn_all.
  - unfold u32. rewrite Z.sub_0_r, Z.mod_small by lia. rewrite rd_ok by lia. cbn [Z.to_nat skipn].
    set (d := firstn (Z.to_nat len) inp) in *. assert (Ld : length d = Z.to_nat len) by (unfold d; rewrite firstn_length; lia).
    rewrite wr_ok by lia. eexists. split; [reflexivity|]. rewrite Nat2Z.id, Eb.
    constructor; cbn [x_c0 x_c1 x_state x_buf].
    + rewrite Ln. reflexivity.
    + rewrite Ln. reflexivity.
    + exact HW.
    + rewrite !app_length, skipn_length. lia.
    + exact FY.
    + exists p, (t ++ d), k. split; [rewrite Em; now rewrite <- app_assoc|]. split; [exact Lp|]. split; [rewrite app_length; lia|].
      split; [exact Ew|]. rewrite app_assoc, firstn_app, Nat.sub_diag, firstn_O, app_nil_r. apply firstn_all.
Qed.

Lemma init_ok : forall junk, length junk = 64%nat -> holds (init junk) [].
Proof.
  intros junk J. constructor; try reflexivity; try exact J; [|constructor|].
  - unfold w32q, w32. cbn. lia.
  - exists [], [], 0%nat. split; [reflexivity|]. split; [reflexivity|]. split; [cbn; lia|]. split; reflexivity.
Qed.

(** several calls *)
Lemma updates_ok : forall l c m, holds c m -> Forall (Forall byte) l -> Forall (fun d => Z.of_nat (length d) + 64 <= 2 ^ 32) l ->
  exists c', updates c l = Some c' /\ holds c' (m ++ concat l).
Proof.
  induction l as [|d l IH]; intros c m H F B; [exists c; split; [reflexivity|now rewrite app_nil_r]|].
  inversion F as [|? ? Fd F']; inversion B as [|? ? Bd B']; subst. cbn [updates concat].
  destruct (update_ok c m d (Z.of_nat (length d)) H Fd ltac:(lia) Bd) as (c1 & E & H1). rewrite E.
  rewrite Nat2Z.id, firstn_all in H1. destruct (IH c1 _ H1 F' B') as (c2 & E2 & H2). exists c2. split; [exact E2|].
  now rewrite <- app_assoc in H2.
Qed.

Lemma encode_ok : forall ws, encode ws = flat_map (le_bytes 4) ws.
Proof.
  induction ws as [|w ws IH]; [reflexivity|]. unfold encode in *. cbn [flat_map]. rewrite IH. f_equal.
  change 255 with (Z.ones 8). rewrite !Z.land_ones, !Z.shiftr_div_pow2 by lia. unfold le_bytes. cbn [seq map Z.of_nat].
  change (8 * 0) with 0. rewrite Z.pow_0_r, Z.div_1_r. reflexivity.
Qed.
Lemma bits_ok : forall n, flat_map (le_bytes 4) [n mod 2 ^ 32; (n / 2 ^ 32) mod 2 ^ 32] = le_bytes 8 (n mod 2 ^ 64).
Proof.
  intros n. cbn [flat_map]. unfold le_bytes. cbn [seq map app].
  replace (n mod 2 ^ 64) with (n mod 2 ^ 32 + (n / 2 ^ 32) mod 2 ^ 32 * 2 ^ 32).
  2:{ change (2 ^ 64) with (2 ^ 32 * 2 ^ 32). rewrite (Z.rem_mul_r n (2 ^ 32) (2 ^ 32)) by lia. now rewrite (Z.mul_comm (2 ^ 32)). }
  set (a := n mod 2 ^ 32). assert (A : 0 <= a < 2 ^ 32) by (apply Z.mod_pos_bound; lia). clearbody a.
  set (b := (n / 2 ^ 32) mod 2 ^ 32). assert (B : 0 <= b < 2 ^ 32) by (apply Z.mod_pos_bound; lia). clearbody b. clear n.
  assert (Lo : forall e f, 0 <= e -> 0 <= f -> e + 8 + f = 32 -> ((a + b * 2 ^ 32) / 2 ^ e) mod 2 ^ 8 = (a / 2 ^ e) mod 2 ^ 8).
  { intros e f E F S. replace (b * 2 ^ 32) with (b * 2 ^ f * 2 ^ 8 * 2 ^ e).
    2:{ rewrite <- !Z.mul_assoc, <- !Z.pow_add_r by lia. f_equal. f_equal. lia. }
    rewrite Z.div_add by (apply Z.pow_nonzero; lia). rewrite Z.mod_add by lia. reflexivity. }
  assert (Hi : forall e, 0 <= e -> ((a + b * 2 ^ 32) / 2 ^ (32 + e)) mod 2 ^ 8 = (b / 2 ^ e) mod 2 ^ 8).
  { intros e E. pose proof (Z.pow_pos_nonneg 2 e eq_refl E) as P. rewrite Z.pow_add_r by lia. rewrite <- Z.div_div by lia.
    rewrite Z.div_add by lia. rewrite (Z.div_small a) by lia. reflexivity. }
  cbn [Z.of_nat Pos.of_succ_nat Pos.succ].
  change (8 * 0) with 0. change (8 * 1) with 8. change (8 * 2) with 16. change (8 * 3) with 24.
  change (8 * 4) with (32 + 0). change (8 * 5) with (32 + 8). change (8 * 6) with (32 + 16). change (8 * 7) with (32 + 24).
  rewrite (Lo 0 24), (Lo 8 16), (Lo 16 8), (Lo 24 0), !Hi by lia. reflexivity.
Qed.
Lemma le_bytes_byte : forall n w, Forall byte (le_bytes n w).
Proof. intros n w. unfold le_bytes. apply Forall_forall. intros x I. apply in_map_iff in I. destruct I as (k & <- & _). apply Z.mod_pos_bound. reflexivity. Qed.

Lemma pad_ok : forall pad, 1 <= pad <= 64 -> firstn (Z.to_nat pad) padding = [128] ++ repeat 0 (Z.to_nat (pad - 1)).
Proof.
  intros pad P. unfold padding. replace (Z.to_nat pad) with (S (Z.to_nat (pad - 1))) by lia. cbn [firstn app]. f_equal.
  assert (R : forall a b, (a <= b)%nat -> firstn a (repeat 0 b) = repeat 0 a).
  { induction a as [|a IH]; intros [|b] L; try reflexivity; try lia. cbn [repeat firstn]. rewrite IH by lia. reflexivity. }
  apply R. lia.
Qed.
Lemma padding_byte : Forall byte padding.
Proof. apply Forall_cons; [unfold byte; lia|]. apply Forall_forall. intros x I. apply repeat_spec in I. subst. unfold byte. lia. Qed.

Lemma final_ok : forall c m, holds c m -> final c = Some (md5 m).
Proof.
  intros c m H. unfold final. cbv zeta.
  assert (Ix : Z.land (Z.shiftr (x_c0 c) 3) 63 = Z.of_nat (length m) mod 64).
  { change 63 with (Z.ones 6). rewrite Z.land_ones, Z.shiftr_div_pow2, (h_c0 _ _ H) by lia. change (2 ^ 32) with 4294967296. change (2 ^ 3) with 8. change (2 ^ 6) with 64. lia. }
  rewrite Ix. set (n := Z.of_nat (length m)) in *. set (pad := if n mod 64 <? 56 then 56 - n mod 64 else 120 - n mod 64).
  assert (Pd : pad - 1 = (55 - n) mod 64).
  { unfold pad. destruct (n mod 64 <? 56) eqn:Q; lia. }
  assert (Pb : 1 <= pad <= 64) by lia.
  destruct (update_ok c m padding pad H padding_byte) as (c1 & E1 & K1); [cbn [padding length]; rewrite repeat_length; lia|lia|].
  rewrite E1. rewrite pad_ok, Pd in K1 by exact Pb.
  rewrite encode_ok. rewrite (h_c0 _ _ H), (h_c1 _ _ H). fold n. rewrite bits_ok.
  set (bits := le_bytes 8 ((8 * n) mod 2 ^ 64)).
  assert (Lb : length bits = 8%nat) by (unfold bits, le_bytes; rewrite map_length, seq_length; reflexivity).
  destruct (update_ok c1 _ bits 8 K1) as (c2 & E2 & K2); [apply le_bytes_byte|lia|lia|].
  rewrite E2. change (Z.to_nat 8) with 8%nat in K2. rewrite firstn_all2 in K2 by lia.
  assert (Pm : (m ++ [128] ++ repeat 0 (Z.to_nat ((55 - n) mod 64))) ++ bits = padded m).
  { unfold padded. fold n. fold bits. now rewrite <- !app_assoc. }
  rewrite Pm in K2. destruct (h_cut _ _ K2) as (p & t & k & Em & Lp & Lt & Ew & _).
  assert (L64 : (length (padded m) mod 64 = 0)%nat).
  { rewrite <- Pm, !app_length, repeat_length, Lb. cbn [length]. unfold n. lia. }
  assert (t = []). { destruct t as [|y t]; [reflexivity|]. exfalso. rewrite Em, app_length, Lp in L64. cbn [length] in L64, Lt. lia. }
  subst t. rewrite app_nil_r in Em. rewrite <- Em in Ew. rewrite encode_ok. f_equal. unfold md5.
  unfold absorb in Ew. rewrite <- Ew. reflexivity.
Qed.

Lemma bytes_ok : forall l, forallb (fun x => (0 <=? x) && (x <? 256)) l = true -> Forall byte l.
Proof. intros l H. rewrite forallb_forall in H. apply Forall_forall. intros x I. specialize (H x I). unfold byte. lia. Qed.

From Verif Require Import Base PluginUtil ConfScanSpec PudRx PudRxProofs PudId PudIdSpec.

(** * digits *)
Definition bdigit (base : Z) (c : Z) : Prop := (base = 10 /\ digit c) \/ (base = 16 /\ hexdigit c).
Lemma in_base_ok base c : bdigit base c -> in_base base c = Some (hexvalue c) /\ 0 <= hexvalue c < base.
Proof.
  unfold bdigit, hexdigit, digit, in_base, digit_of, hexvalue. intros [[-> H]|[-> [H|[H|H]]]].
  - replace ((48 <=? c) && (c <=? 57)) with true by lia. replace (c - 48 <? 10) with true by lia. replace (c <=? 57) with true by lia. split; [reflexivity|lia].
  - replace ((48 <=? c) && (c <=? 57)) with true by lia. replace (c - 48 <? 16) with true by lia. replace (c <=? 57) with true by lia. split; [reflexivity|lia].
  - replace ((48 <=? c) && (c <=? 57)) with false by lia. replace ((65 <=? c) && (c <=? 90)) with false by lia. replace ((97 <=? c) && (c <=? 122)) with true by lia.
    replace (c - 87 <? 16) with true by lia. replace (c <=? 57) with false by lia. replace (c <=? 70) with false by lia. split; [reflexivity|lia].
  - replace ((48 <=? c) && (c <=? 57)) with false by lia. replace ((65 <=? c) && (c <=? 90)) with true by lia.
    replace (c - 55 <? 16) with true by lia. replace (c <=? 57) with false by lia. replace (c <=? 70) with true by lia. split; [reflexivity|lia].
Qed.
Lemma take_ok base : forall s a, Forall (bdigit base) s -> take_digits base a s = (fold_left (fun a c => a * base + hexvalue c) s a, []).
Proof.
  induction s as [|c s IH]; intros a F; [reflexivity|]. inversion F as [|x y D F' EQ]; subst x y. cbn [take_digits fold_left].
  rewrite (proj1 (in_base_ok _ _ D)). apply IH. exact F'.
Qed.
Lemma fold_pos base : 0 < base -> forall s a, 0 <= a -> Forall (bdigit base) s -> 0 <= fold_left (fun a c => a * base + hexvalue c) s a.
Proof.
  intros B. induction s as [|c s IH]; intros a A F; [exact A|]. inversion F as [|x y D F' EQ]; subst x y. cbn [fold_left]. apply IH; [|exact F'].
  pose proof (in_base_ok _ _ D) as [_ R]. assert (0 <= a * base) by (apply Z.mul_nonneg_nonneg; lia). lia.
Qed.
Lemma base_pos base c : bdigit base c -> 0 < base.
Proof. intros [[-> _]|[-> _]]; lia. Qed.
Lemma number_nonneg base s : Forall (bdigit base) s -> 0 <= number base s.
Proof. intros F. destruct s as [|c s]; [unfold number; cbn; lia|]. apply fold_pos; [|lia|exact F]. inversion F; subst. exact (base_pos _ _ H1). Qed.
Lemma read_ok base s : s <> [] -> Forall (bdigit base) s -> number base s < 2 ^ 64 -> read_ull base s = Some (number base s).
Proof.
  intros N F B. destruct s as [|c s]; [congruence|]. pose proof F as F0. inversion F as [|x y D F' EQ]; subst x y.
  assert (C : 48 <= c <= 57 \/ 65 <= c <= 70 \/ 97 <= c <= 102) by (unfold bdigit, hexdigit, digit in D; lia).
  unfold read_ull. assert (SK : skip_space (c :: s) = c :: s).
  { cbn [skip_space]. unfold space. replace ((c =? 32) || (9 <=? c) && (c <=? 13)) with false by lia. reflexivity. }
  rewrite SK. replace (c =? 45) with false by lia. replace (c =? 43) with false by lia. cbn iota beta zeta.
  assert (P : (match c :: s with
       | z :: x :: d :: r => if (base =? 16) && (z =? 48) && ((x =? 120) || (x =? 88)) && match in_base 16 d with Some _ => true | None => false end then d :: r else c :: s
       | _ => c :: s end) = c :: s).
  { destruct s as [|x [|d r]]; [reflexivity|reflexivity|]. inversion F' as [|x' y' D' F'' EQ]; subst x' y'.
    assert (48 <= x <= 57 \/ 65 <= x <= 70 \/ 97 <= x <= 102) by (unfold bdigit, hexdigit, digit in D'; lia).
    replace ((x =? 120) || (x =? 88)) with false by lia. rewrite andb_false_r. reflexivity. }
  rewrite P. rewrite (proj1 (in_base_ok _ _ D)). rewrite (take_ok _ _ _ F0). fold (number base (c :: s)).
  replace (number base (c :: s) >? 2 ^ 64 - 1) with false by lia. reflexivity.
Qed.

(** * printing *)
Lemma number_snoc base l c : number base (l ++ [c]) = number base l * base + hexvalue c.
Proof. unfold number. rewrite fold_left_app. reflexivity. Qed.
Lemma char_ok base c : bdigit base c -> (if hexvalue c <? 10 then 48 + hexvalue c else 87 + hexvalue c) = lower c.
Proof.
  intros H. assert (C : 48 <= c <= 57 \/ 65 <= c <= 70 \/ 97 <= c <= 102) by (unfold bdigit, hexdigit, digit in H; lia). clear H.
  assert (V : hexvalue c = if c <=? 57 then c - 48 else if c <=? 70 then c - 55 else c - 87) by reflexivity.
  assert (L : lower c = if (65 <=? c) && (c <=? 70) then c + 32 else c) by reflexivity.
  set (v := hexvalue c) in *. set (w := lower c) in *. clearbody v w.
  destruct (v <? 10) eqn:A; destruct ((65 <=? c) && (c <=? 70)) eqn:B; destruct (c <=? 57) eqn:D; try (destruct (c <=? 70) eqn:E); lia.
Qed.
Lemma number_ge base : forall l, Forall (bdigit base) l -> l <> [] -> hd 0 l <> 48 -> 1 <= number base l.
Proof.
  intros l F N H. destruct l as [|c l]; [congruence|]. inversion F as [|x y D F' EQ]; subst x y. cbn in H.
  unfold number. cbn [fold_left]. pose proof (in_base_ok _ _ D) as [_ R]. assert (V : 1 <= hexvalue c).
  { unfold bdigit, hexdigit, digit in D. unfold hexvalue in *. destruct (c <=? 57) eqn:A; [lia|]. destruct (c <=? 70) eqn:B; lia. }
  pose proof (base_pos _ _ D) as BP. clear - F' V BP.
  assert (G : forall l a, Forall (bdigit base) l -> 1 <= a -> 1 <= fold_left (fun a c => a * base + hexvalue c) l a).
  { clear - BP. induction l as [|c l IH]; intros a F A; [exact A|]. inversion F as [|x y D F' EQ]; subst x y. cbn [fold_left]. apply IH; [exact F'|].
    pose proof (in_base_ok _ _ D) as [_ R]. assert (1 * 1 <= a * base) by (apply Z.mul_le_mono_nonneg; lia). lia. }
  apply G; [exact F'|lia].
Qed.
Definition canon (l : list Z) : Prop := l <> [] /\ (hd 0 l = 48 -> l = [48]).
Lemma print_ok base : forall fuel l acc, Forall (bdigit base) l -> canon l -> (length l <= fuel)%nat ->
  print fuel base (number base l) acc = map lower l ++ acc.
Proof.
  induction fuel as [|fuel IH]; intros l acc F [N C] L; [destruct l; [congruence|cbn in L; lia]|].
  destruct (exists_last N) as [l' [c E]]. subst l. apply Forall_app in F. destruct F as [F' FC]. inversion FC as [|x y D _ EQ]; subst x y.
  pose proof (in_base_ok _ _ D) as [_ R]. pose proof (number_nonneg _ _ F') as NN. cbn [print]. rewrite number_snoc.
  assert (M : (number base l' * base + hexvalue c) mod base = hexvalue c).
  { rewrite Z.add_comm, Z.mod_add by lia. apply Z.mod_small. lia. }
  assert (Q : (number base l' * base + hexvalue c) / base = number base l').
  { rewrite Z.add_comm, Z.div_add by lia. rewrite Z.div_small by lia. lia. }
  rewrite M, Q, (char_ok base c D). rewrite map_app. cbn [map]. rewrite <- app_assoc. cbn [app].
  destruct l' as [|d l'].
  - change (number base []) with 0. replace (0 * base + hexvalue c <? base) with true by lia. reflexivity.
  - assert (HD : hd 0 (d :: l') <> 48).
    { cbn. intros ->. specialize (C eq_refl). cbn in C. destruct l'; discriminate. }
    pose proof (number_ge _ _ F' ltac:(discriminate) HD) as G.
    assert (GG : 1 * base <= number base (d :: l') * base) by (apply Z.mul_le_mono_nonneg_r; lia).
    replace (number base (d :: l') * base + hexvalue c <? base) with false by lia. apply IH; [exact F'| |rewrite app_length in L; cbn [length] in *; lia].
    split; [discriminate|]. intros H. congruence.
Qed.
Lemma number_zeros base k l : number base (repeat 48 k ++ l) = number base l.
Proof. unfold number. rewrite fold_left_app. replace (fold_left _ (repeat 48 k) 0) with 0; [reflexivity|]. induction k as [|k IH]; [reflexivity|]. cbn [repeat fold_left]. exact IH. Qed.
Lemma number_small base : forall l, Forall (bdigit base) l -> 0 < base -> number base l < base ^ Z.of_nat (length l).
Proof.
  intros l. induction l as [|c l IH] using rev_ind; intros F B; [cbn; unfold number; cbn; lia|]. apply Forall_app in F. destruct F as [F FC].
  inversion FC as [|x y D _ EQ]; subst x y. rewrite number_snoc. rewrite app_length. cbn [length].
  replace (Z.of_nat (length l + 1)) with (Z.of_nat (length l) + 1) by lia. rewrite Z.pow_add_r by lia. rewrite Z.pow_1_r.
  specialize (IH F B). pose proof (in_base_ok _ _ D) as [_ R].
  assert ((number base l + 1) * base <= base ^ Z.of_nat (length l) * base) by (apply Z.mul_le_mono_nonneg_r; lia). lia.
Qed.

(** * bytes *)
Lemma split_ok : forall n v acc, 0 <= v -> exists l, split_bytes n v acc = (l ++ acc, v / 256 ^ Z.of_nat n) /\ length l = n /\
  Forall (fun b => 0 <= b < 256) l /\ fold_left (fun v b => v * 256 + b) l 0 = v mod 256 ^ Z.of_nat n.
Proof.
  induction n as [|n IH]; intros v acc V; cbn [split_bytes].
  - exists []. split; [change (256 ^ Z.of_nat 0) with 1; rewrite Z.div_1_r; reflexivity|]. split; [reflexivity|]. split; [constructor|]. change (256 ^ Z.of_nat 0) with 1. rewrite Z.mod_1_r. reflexivity.
  - destruct (IH (v / 256) (v mod 256 :: acc)) as [l [E [L [B F]]]]; [apply Z.div_pos; lia|].
    assert (P : 0 < 256 ^ Z.of_nat n) by (apply Z.pow_pos_nonneg; lia).
    replace (256 ^ Z.of_nat (S n)) with (256 * 256 ^ Z.of_nat n) by (rewrite Nat2Z.inj_succ, Z.pow_succ_r by lia; reflexivity).
    exists (l ++ [v mod 256]). split; [rewrite E, <- app_assoc, Z.div_div by lia; reflexivity|]. split; [rewrite app_length; cbn [length]; lia|].
    split; [apply Forall_app; split; [exact B|constructor; [lia|constructor]]|]. rewrite fold_left_app. cbn [fold_left]. rewrite F.
    rewrite Z.rem_mul_r by lia. lia.
Qed.
Lemma val_ok : forall l, Forall (fun b => 0 <= b < 256) l -> (length l <= 8)%nat -> val_of l = fold_left (fun v b => v * 256 + b) l 0.
Proof.
  intros l. assert (G : Forall (fun b => 0 <= b < 256) l -> (length l <= 8)%nat ->
    val_of l = fold_left (fun v b => v * 256 + b) l 0 /\ 0 <= fold_left (fun v b => v * 256 + b) l 0 < 256 ^ Z.of_nat (length l)).
  { induction l as [|c l IH] using rev_ind; intros F L; [split; [reflexivity|cbn; lia]|]. apply Forall_app in F. destruct F as [F FC].
    inversion FC as [|x y D _ EQ]; subst x y. rewrite app_length in *. cbn [length] in *. destruct (IH F ltac:(lia)) as [E B].
    unfold val_of in *. rewrite !fold_left_app. cbn [fold_left]. rewrite E. set (w := fold_left (fun v b => v * 256 + b) l 0) in *.
    replace (Z.of_nat (length l + 1)) with (Z.of_nat (length l) + 1) by lia. rewrite Z.pow_add_r, Z.pow_1_r by lia.
    assert (P : 256 ^ Z.of_nat (length l) <= 256 ^ 7) by (apply Z.pow_le_mono_r; lia).
    change (256 ^ 7) with 72057594037927936 in P.
    rewrite (u64_small (w * 256)) by (change (2 ^ 64) with 18446744073709551616; lia). split; [|lia].
    apply u64_small. change (2 ^ 64) with 18446744073709551616. lia. }
  intros F L. exact (proj1 (G F L)).
Qed.

(** * the buffer *)
Lemma wr_ok mem i l : (i + length l <= length mem)%nat -> exists m, wr mem (Z.of_nat i) l = Some m /\ length m = length mem /\
  (forall j, (j < i)%nat \/ (i + length l <= j)%nat -> nth j m 0 = nth j mem 0) /\
  (forall j, (j < length l)%nat -> nth (i + j) m 0 = nth j l 0).
Proof.
  intros B. unfold wr. replace ((Z.of_nat i <? 0) || (Z.of_nat i + Z.of_nat (length l) >? Z.of_nat (length mem))) with false by lia.
  rewrite Nat2Z.id. eexists. split; [reflexivity|]. split; [rewrite !app_length, firstn_length, skipn_length; lia|]. split.
  - intros j [J|J].
    + rewrite app_nth1 by (rewrite firstn_length; lia). rewrite <- (firstn_skipn i mem) at 2. rewrite app_nth1 by (rewrite firstn_length; lia). reflexivity.
    + rewrite app_nth2 by (rewrite firstn_length; lia). rewrite firstn_length. replace (Nat.min i (length mem)) with i by lia. rewrite app_nth2 by lia.
      rewrite <- (firstn_skipn (i + length l) mem) at 2. destruct (le_lt_dec (length mem) j) as [Q|Q].
      * rewrite nth_overflow by (rewrite skipn_length; lia). rewrite nth_overflow by (rewrite app_length, firstn_length, skipn_length; lia). reflexivity.
      * rewrite app_nth2 by (rewrite firstn_length; lia). rewrite firstn_length. f_equal. lia.
  - intros j J. rewrite app_nth2 by (rewrite firstn_length; lia). rewrite firstn_length. rewrite app_nth1 by lia. f_equal. lia.
Qed.
Lemma nth_sent m size j : (j < Z.to_nat size)%nat -> nth j (sent (m, size)) 0 = nth (4 + j) m 0.
Proof.
  intros J. unfold sent, UPHDR. cbn [fst snd]. change (Z.to_nat 4) with 4%nat.
  assert (G : forall (l : list Z) n j, (j < n)%nat -> nth j (firstn n l) 0 = nth j l 0).
  { clear. induction l as [|x l IH]; intros [|n] [|j] H; try lia; try reflexivity. cbn. apply IH. lia. }
  rewrite G by exact J. clear. generalize 4%nat as k. intros k. revert m. induction k as [|k IH]; intros m; [reflexivity|]. destruct m as [|x m]; [destruct j; reflexivity|]. cbn. apply IH.
Qed.
Lemma testbit_id b : Z.testbit (with_id b) 7 = true.
Proof. unfold with_id. rewrite Z.lor_spec. change (Z.testbit 128 7) with true. apply orb_true_r. Qed.
Lemma compose_ok v6 hd fx ty bin mem l nl : node_info ty bin = Some (l, nl) -> header v6 hd -> fields fx -> length mem = 1024%nat ->
  nl = Z.of_nat (length l) \/ nl = Z.of_nat (length l) + 1 -> 2 <= Z.of_nat (length l) <= 960 ->
  exists p, compose v6 hd fx ty bin mem = Some p /\ let M := sent p in let h := if v6 then 24%nat else 12%nat in
    Z.of_nat (length M) = snd p /\ (h + 21 + Z.to_nat nl <= length M <= 1010)%nat /\
    Z.testbit (nth (h + 2) M 0) 7 = true /\ nth (h + 21) M 0 = ty /\
    (forall j, (j < length l)%nat -> nth (h + 22 + j) (firstn (Z.to_nat 1020) (skipn 4 (fst p))) 0 = nth j l 0) /\
    nth 2 M 0 * 256 + nth 3 M 0 = snd p /\ (forall j, (4 <= j < h)%nat -> nth j M 0 = nth j hd 0).
Proof.
  intros NI H F L NL B. unfold header in H. unfold fields in F. unfold compose. rewrite NI.
  set (h := if v6 then 24%nat else 12%nat) in *. assert (HH : hdr v6 = Z.of_nat h) by (unfold h; destruct v6; reflexivity). rewrite HH.
  assert (HR : (h = 12 \/ h = 24)%nat) by (unfold h; destruct v6; [right|left]; reflexivity). clearbody h. unfold UPHDR, FIXED.
  set (rem := (21 + nl) mod 4). assert (RB : 0 <= rem < 4) by (apply Z.mod_pos_bound; lia). clearbody rem.
  set (pad := if rem =? 0 then 0 else 4 - rem). assert (PB : 0 <= pad <= 3) by (unfold pad; destruct (rem =? 0) eqn:E; lia).
  assert (PD : (rem =? 0) = false -> pad = 4 - rem) by (unfold pad; intros ->; reflexivity). clearbody pad.
  set (size := 21 + nl + pad + Z.of_nat h). cbn [app wrs].
  replace (4 + Z.of_nat h) with (Z.of_nat (4 + h)) by lia.
  destruct (wr_ok mem (4 + h) (fx ++ [0; 0])) as [m1 [E1 [L1 [O1 I1]]]]; [rewrite app_length; cbn [length]; lia|]. rewrite E1.
  replace (Z.of_nat (4 + h) + 21) with (Z.of_nat (4 + h + 21)) by lia.
  destruct (wr_ok m1 (4 + h + 21) [ty]) as [m2 [E2 [L2 [O2 I2]]]]; [cbn [length]; lia|]. rewrite E2.
  replace (Z.of_nat (4 + h) + 22) with (Z.of_nat (4 + h + 22)) by lia.
  destruct (wr_ok m2 (4 + h + 22) l) as [m3 [E3 [L3 [O3 I3]]]]; [lia|]. rewrite E3.
  replace (Z.of_nat (4 + h) + 2) with (Z.of_nat (4 + h + 2)) by lia.
  destruct (wr_ok m3 (4 + h + 2) [with_id (nth 2 fx 0)]) as [m4 [E4 [L4 [O4 I4]]]]; [cbn [length]; lia|]. rewrite E4.
  change 4 with (Z.of_nat 4) at 1.
  assert (WL : length (with_size hd size) = h).
  { unfold with_size. rewrite !app_length, firstn_length, skipn_length. cbn [length]. lia. }
  destruct (wr_ok m4 4 (with_size hd size)) as [m5 [E5 [L5 [O5 I5]]]]; [lia|]. rewrite E5. rewrite WL in O5, I5.
  assert (X : exists m6, wrs m5 (if rem =? 0 then [] else [(Z.of_nat (4 + h + 22) + nl, repeat 0 (Z.to_nat (4 - rem)))]) = Some m6 /\ length m6 = 1024%nat /\
    forall j, (j < 4 + h + 22 + Z.to_nat nl)%nat -> nth j m6 0 = nth j m5 0).
  { destruct (rem =? 0) eqn:R.
    - exists m5. split; [reflexivity|]. split; [lia|]. intros; reflexivity.
    - cbn [wrs]. replace (Z.of_nat (4 + h + 22) + nl) with (Z.of_nat (4 + h + 22 + Z.to_nat nl)) by lia.
      destruct (wr_ok m5 (4 + h + 22 + Z.to_nat nl) (repeat 0 (Z.to_nat (4 - rem)))) as [m6 [E6 [L6 [O6 _]]]]; [rewrite repeat_length; lia|].
      rewrite E6. exists m6. split; [reflexivity|]. split; [lia|]. intros j J. apply O6. left. exact J. }
  destruct X as [m6 [E6 [L6 O6]]]. rewrite E6. exists (m6, size). split; [reflexivity|]. cbn zeta. cbn [fst snd].
  assert (SL : length (sent (m6, size)) = Z.to_nat size).
  { unfold sent, UPHDR. cbn [fst snd]. rewrite firstn_length, skipn_length, L6. change (Z.to_nat 4) with 4%nat. unfold size. lia. }
  rewrite SL. split; [unfold size; lia|]. split; [unfold size; lia|].
  split; [|split; [|split; [|split]]].
  - rewrite nth_sent by (unfold size; lia). rewrite O6 by lia. rewrite O5 by lia.
    replace (4 + (h + 2))%nat with (4 + h + 2 + 0)%nat by lia. rewrite I4 by (cbn; lia). apply testbit_id.
  - rewrite nth_sent by (unfold size; lia). rewrite O6 by lia. rewrite O5 by lia. rewrite O4 by (cbn [length]; lia). rewrite O3 by lia.
    replace (4 + (h + 21))%nat with (4 + h + 21 + 0)%nat by lia. rewrite I2 by (cbn; lia). reflexivity.
  - intros j J. pose proof (nth_sent m6 1020 (h + 22 + j)) as NS. unfold sent in NS. cbn [fst snd] in NS.
    change (Z.to_nat UPHDR) with 4%nat in NS. rewrite NS by lia. rewrite O6 by lia. rewrite O5 by lia. rewrite O4 by (cbn [length]; lia).
    replace (4 + (h + 22 + j))%nat with (4 + h + 22 + j)%nat by lia. apply I3. exact J.
  - rewrite !nth_sent by (unfold size; lia). rewrite !O6 by lia. rewrite (I5 2%nat), (I5 3%nat) by lia.
    assert (W : forall k, (k < 2)%nat -> nth (2 + k) (with_size hd size) 0 = nth k [size / 256 mod 256; size mod 256] 0).
    { intros k K. unfold with_size. rewrite app_nth2 by (rewrite firstn_length; lia). rewrite firstn_length.
      rewrite app_nth1 by (cbn [length]; lia). f_equal. lia. }
    pose proof (W 0%nat ltac:(lia)) as W0. pose proof (W 1%nat ltac:(lia)) as W1. cbn [Nat.add nth] in W0, W1. rewrite W0, W1.
    assert (0 <= size < 65536) by (unfold size; lia). clearbody size. lia.
  - intros j J. rewrite nth_sent by (unfold size; lia). rewrite O6 by lia. rewrite I5 by lia. unfold with_size.
    rewrite app_nth2 by (rewrite firstn_length; lia). rewrite firstn_length. rewrite app_nth2 by (cbn [length]; lia). cbn [length].
    assert (SK : forall k, nth k (skipn 4 hd) 0 = nth (4 + k) hd 0).
    { intros k. rewrite <- (firstn_skipn 4 hd) at 2. rewrite app_nth2 by (rewrite firstn_length; lia). rewrite firstn_length. f_equal. lia. }
    rewrite SK. f_equal. lia.
Qed.
Lemma rds_nth mem i n l : (i + n <= length mem)%nat -> length l = n -> (forall j, (j < n)%nat -> nth (i + j) mem 0 = nth j l 0) ->
  rds mem (Z.of_nat i) (Z.of_nat n) = Some l.
Proof.
  intros B L H. rewrite rds_ok by lia. f_equal. rewrite !Nat2Z.id. apply nth_ext with (d := 0) (d' := 0); [rewrite firstn_length, skipn_length; lia|].
  intros j J. rewrite firstn_length in J. rewrite <- H by lia.
  rewrite <- (firstn_skipn i mem) at 2. rewrite app_nth2 by (rewrite firstn_length; lia). rewrite firstn_length.
  replace (i + j - Nat.min i (length mem))%nat with j by lia.
  rewrite <- (firstn_skipn n (skipn i mem)) at 2. rewrite app_nth1 by (rewrite firstn_length; lia). reflexivity.
Qed.
(** what a receiver sees of a message that was composed *)
Lemma seen_id v6 hd fx ty bin mem l nl : node_info ty bin = Some (l, nl) -> header v6 hd -> fields fx -> length mem = 1024%nat ->
  nl = Z.of_nat (length l) \/ nl = Z.of_nat (length l) + 1 -> 2 <= Z.of_nat (length l) <= 960 ->
  exists p, compose v6 hd fx ty bin mem = Some p /\ Z.of_nat (length (sent p)) = snd p /\
    id_type v6 (sent p) = Some ty /\
    (forall i n t, (i + n < Z.to_nat nl)%nat -> length t = n -> (forall j, (j < n)%nat -> nth (i + j) l 0 = nth j t 0) ->
       rds (sent p) (hdr v6 + 22 + Z.of_nat i) (Z.of_nat n) = Some t) /\
    (exists a b, rds (sent p) 2 2 = Some [a; b] /\ a * 256 + b = snd p) /\
    (forall i, (i + 1 < Z.to_nat nl)%nat -> rd (sent p) (hdr v6 + 22 + Z.of_nat i) = Some (nth i l 0)) /\
    hdr v6 + 21 + nl <= snd p.
Proof.
  intros NI H F L NL B. destruct (compose_ok v6 hd fx ty bin mem l nl NI H F L NL B) as [p [E X]]. cbn zeta in X.
  set (h := if v6 then 24%nat else 12%nat) in *. assert (HH : hdr v6 = Z.of_nat h) by (unfold h; destruct v6; reflexivity).
  assert (HR : (h = 12 \/ h = 24)%nat) by (unfold h; destruct v6; [right|left]; reflexivity). clearbody h.
  destruct X as [SL [SZ [TB [TY [ID [SF OR]]]]]]. exists p. split; [exact E|]. split; [exact SL|]. rewrite HH.
  assert (IDS : forall j, (j < length l)%nat -> (h + 22 + j < length (sent p))%nat -> nth (h + 22 + j) (sent p) 0 = nth j l 0).
  { intros j J K. rewrite <- ID by exact J. destruct p as [m size]. rewrite nth_sent by (cbn [snd] in SL; lia).
    pose proof (nth_sent m 1020 (h + 22 + j)) as NS. unfold sent in NS. cbn [fst snd] in *. change (Z.to_nat UPHDR) with 4%nat in NS. rewrite NS by lia. reflexivity. }
  split; [|split; [|split; [|split]]].
  - unfold id_type. rewrite HH. replace (Z.of_nat h + 2) with (Z.of_nat (h + 2)) by lia. rewrite rd_ok by lia. rewrite Nat2Z.id, TB.
    replace (Z.of_nat h + 21) with (Z.of_nat (h + 21)) by lia. rewrite rd_ok by lia. rewrite Nat2Z.id, TY. reflexivity.
  - intros i n t J LT K. replace (Z.of_nat h + 22 + Z.of_nat i) with (Z.of_nat (h + 22 + i)) by lia. apply rds_nth; [lia|exact LT|].
    intros j JJ. rewrite <- K by exact JJ. rewrite <- Nat.add_assoc. apply IDS; lia.
  - exists (nth 2 (sent p) 0), (nth 3 (sent p) 0). split; [|exact SF]. change 2 with (Z.of_nat 2). apply rds_nth; [lia|reflexivity|].
    intros [|[|j]] J; [reflexivity|reflexivity|lia].
  - intros i J. replace (Z.of_nat h + 22 + Z.of_nat i) with (Z.of_nat (h + 22 + i)) by lia. rewrite rd_ok by lia. rewrite Nat2Z.id. f_equal. apply IDS; lia.
  - lia.
Qed.

(** * from the parameter to the text *)
(** the text that a receiver makes of the message about the id *)
Definition shown (v6 : bool) (hd fx : list Z) (ty : Z) (bin mem t : list Z) : Prop :=
  exists p, compose v6 hd fx ty bin mem = Some p /\ id_string v6 (sent p) = Some (Text t).
Lemma canon_digits t : decimal t -> Forall (bdigit 10) t /\ canon t.
Proof.
  intros [[N F] C]. split; [|split; [exact N|exact C]]. eapply Forall_impl; [|exact F]. intros c D. left. split; [reflexivity|exact D].
Qed.
Lemma lower_digits t : Forall (bdigit 10) t -> map lower t = t.
Proof.
  induction 1 as [|c t D F IH]; [reflexivity|]. cbn [map]. rewrite IH. f_equal. unfold lower. destruct D as [[_ D]|[D _]]; [|discriminate]. unfold digit in D.
  replace ((65 <=? c) && (c <=? 70)) with false by lia. reflexivity.
Qed.
Lemma digits_len t : Forall (bdigit 10) t -> canon t -> number 10 t < 10 ^ 18 -> (length t <= 18)%nat.
Proof.
  intros F [N C] B. destruct (le_lt_dec (length t) 18) as [Q|Q]; [exact Q|exfalso].
  destruct t as [|c t]; [congruence|]. cbn [length] in Q.
  assert (HD : hd 0 (c :: t) <> 48) by (intros E; specialize (C E); injection C as C1 C2; subst t; cbn in Q; lia).
  assert (G : forall l a, Forall (bdigit 10) l -> 0 <= a -> a * 10 ^ Z.of_nat (length l) <= fold_left (fun a c => a * 10 + hexvalue c) l a).
  { clear. induction l as [|c l IH]; intros a F A; [cbn; lia|]. inversion F as [|x y D F' EQ]; subst x y. cbn [fold_left length].
    pose proof (in_base_ok _ _ D) as [_ R]. specialize (IH (a * 10 + hexvalue c) F' ltac:(lia)).
    rewrite Nat2Z.inj_succ, Z.pow_succ_r by lia. set (q := 10 ^ Z.of_nat (length l)) in *. assert (0 < q) by (apply Z.pow_pos_nonneg; lia).
    assert (a * 10 * q <= (a * 10 + hexvalue c) * q) by (apply Z.mul_le_mono_nonneg_r; lia). lia. }
  inversion F as [|x y D F' EQ]; subst x y. unfold number in B. cbn [fold_left] in B.
  pose proof (number_ge 10 [c] ltac:(constructor; [exact D|constructor]) ltac:(discriminate) HD) as GE. unfold number in GE. cbn [fold_left] in GE.
  specialize (G t _ F' (Z.le_trans _ _ _ Z.le_0_1 GE)).
  assert (10 ^ 18 <= 10 ^ Z.of_nat (length t)) by (apply Z.pow_le_mono_r; lia).
  set (q := 10 ^ Z.of_nat (length t)) in *. clearbody q. set (z := 0 * 10 + hexvalue c) in *.
  assert (1 * q <= z * q) by (apply Z.mul_le_mono_nonneg_r; lia). lia.
Qed.
Theorem number_ok v6 hd fx mem host mac ip ty mn mx k t : number_type ty mn mx -> decimal t -> mn <= number 10 t <= mx -> (k + length t <= 1023)%nat ->
  header v6 hd -> fields fx -> length mem = 1024%nat ->
  exists bin, set_node_id host mac ip ty (repeat 48 k ++ t) = Bin bin /\ shown v6 hd fx ty bin mem t.
Proof.
  intros NT D R LEN HH FX LM. destruct (canon_digits t D) as [F C].
  assert (X : exists n, range_of ty = Some (mn, mx, n) /\ 2 <= n <= 8 /\ mx < 256 ^ n /\ mx < 10 ^ 18 /\ 0 <= mn /\
    ty <> MAC /\ ty <> DNS /\ ty <> IPV4 /\ ty <> IPV6 /\ ty <> UUID /\ ty <> MIP).
  { unfold number_type in NT. unfold MAC, DNS, IPV4, IPV6, UUID, MIP.
    destruct NT as [[-> [-> ->]]|[[-> [-> ->]]|[[-> [-> ->]]|[[-> [-> ->]]|[[-> [-> ->]]|[[-> [-> ->]]|[-> [-> ->]]]]]]]];
      eexists; (split; [reflexivity|]); repeat split; try lia; discriminate. }
  destruct X as [n [RG [NB [M1 [M2 [MN [N1 [N2 [N3 [N4 [N5 N6]]]]]]]]]]].
  assert (FA : Forall (bdigit 10) (repeat 48 k ++ t)).
  { apply Forall_app. split; [|exact F]. clear. induction k as [|k IH]; [constructor|]. cbn [repeat]. constructor; [|exact IH]. left. split; [reflexivity|]. unfold digit. lia. }
  assert (NE : repeat 48 k ++ t <> []). { destruct C as [C _]. intros E. apply app_eq_nil in E. destruct E. congruence. }
  assert (V : read_ull 10 (repeat 48 k ++ t) = Some (number 10 t)).
  { rewrite read_ok; [rewrite number_zeros; reflexivity|exact NE|exact FA|]. rewrite number_zeros. change (10 ^ 18) with 1000000000000000000 in M2. change (2 ^ 64) with 18446744073709551616. lia. }
  set (s := repeat 48 k ++ t) in *. assert (SL : (length s <= 1023)%nat) by (unfold s; rewrite app_length, repeat_length; exact LEN).
  destruct (split_ok (Z.to_nat n) (number 10 t) [] ltac:(lia)) as [l [E [LL [BL FL]]]]. rewrite app_nil_r in E. rewrite Z2Nat.id in E, FL by lia.
  exists l. split.
  - unfold set_node_id. replace (Z.of_nat (length s) >? 1023) with false by lia. destruct s as [|c s0] eqn:ES; [congruence|]. rewrite <- ES in *. cbn zeta.
    replace (ty =? MAC) with false by lia. replace (ty =? DNS) with false by lia. replace (ty =? IPV4) with false by lia.
    replace (ty =? IPV6) with false by lia. replace (ty =? UUID) with false by lia. replace (ty =? MIP) with false by lia. cbn [orb].
    rewrite RG. unfold setup_number. rewrite V. replace ((number 10 t <? mn) || (number 10 t >? mx)) with false by lia. rewrite E.
    rewrite Z.div_small by lia. reflexivity.
  - destruct (seen_id v6 hd fx ty l mem l (Z.of_nat (length l) + 1)) as [p [EP [SP [TP [RP _]]]]]; try assumption; [|lia|lia|].
    { unfold node_info. replace (ty =? DNS) with false by lia. rewrite RG, orb_true_r. reflexivity. }
    exists p. split; [exact EP|]. unfold id_string. rewrite TP.
    replace (ty =? MAC) with false by lia. replace (ty =? DNS) with false by lia. replace (ty =? UUID) with false by lia. replace (ty =? MIP) with false by lia.
    rewrite RG. specialize (RP 0%nat (length l) l ltac:(lia) eq_refl ltac:(reflexivity)). rewrite Z.add_0_r in RP. rewrite LL, Z2Nat.id in RP by lia. rewrite RP.
    rewrite val_ok by (try exact BL; lia). rewrite FL. rewrite Z.mod_small by lia. rewrite print_ok; [rewrite lower_digits by exact F; rewrite app_nil_r; reflexivity|exact F|exact C|].
    assert (length t <= 18)%nat by (apply digits_len; [exact F|exact C|lia]). lia.
Qed.
Lemma hex2_ok b : 0 <= b < 256 -> pair b (hex2 b).
Proof.
  intros B. unfold hex2, pair. eexists _, _. split; [reflexivity|].
  assert (G : forall d, 0 <= d < 16 -> let x := if d <? 10 then 48 + d else 87 + d in hexdigit x /\ hexvalue x = d /\ lower x = x).
  { intros d D. cbn zeta. unfold hexdigit, digit, hexvalue, lower. destruct (d <? 10) eqn:E.
    - replace (48 + d <=? 57) with true by lia. replace ((65 <=? 48 + d) && (48 + d <=? 70)) with false by lia. split; [lia|]. split; [lia|reflexivity].
    - replace (87 + d <=? 57) with false by lia. replace (87 + d <=? 70) with false by lia. rewrite andb_false_r. split; [lia|]. split; [lia|reflexivity]. }
  destruct (G (b / 16) ltac:(lia)) as [A1 [A2 A3]]. destruct (G (b mod 16) ltac:(lia)) as [B1 [B2 B3]].
  split; [exact A1|]. split; [exact B1|]. rewrite A2, B2. split; [lia|]. split; [exact A3|exact B3].
Qed.
Theorem mac_ok v6 hd fx mem host ip a b c d e f : Forall (fun b => 0 <= b < 256) [a; b; c; d; e; f] -> header v6 hd -> fields fx -> length mem = 1024%nat ->
  exists bin ta tb tc td te tf, set_node_id host [a; b; c; d; e; f] ip 0 [] = Bin bin /\
    shown v6 hd fx 0 bin mem (ta ++ 58 :: tb ++ 58 :: tc ++ 58 :: td ++ 58 :: te ++ 58 :: tf) /\
    pair a ta /\ pair b tb /\ pair c tc /\ pair d td /\ pair e te /\ pair f tf.
Proof.
  intros B HH FX LM. set (l := [a; b; c; d; e; f]) in *. exists l, (hex2 a), (hex2 b), (hex2 c), (hex2 d), (hex2 e), (hex2 f).
  split; [reflexivity|]. split.
  - destruct (seen_id v6 hd fx 0 l mem l 7) as [p [EP [SP [TP [RP _]]]]]; try assumption; [reflexivity|right; reflexivity|cbn; lia|].
    exists p. split; [exact EP|]. unfold id_string. rewrite TP. specialize (RP 0%nat 6%nat l ltac:(cbn; lia) eq_refl ltac:(reflexivity)).
    rewrite Z.add_0_r in RP. change (Z.of_nat 6) with 6 in RP. rewrite RP. reflexivity.
  - unfold l in B. inversion B as [|? ? B1 T1]; subst. inversion T1 as [|? ? B2 T2]; subst. inversion T2 as [|? ? B3 T3]; subst.
    inversion T3 as [|? ? B4 T4]; subst. inversion T4 as [|? ? B5 T5]; subst. inversion T5 as [|? ? B6 T6]; subst.
    split; [exact (hex2_ok _ B1)|]. split; [exact (hex2_ok _ B2)|]. split; [exact (hex2_ok _ B3)|]. split; [exact (hex2_ok _ B4)|].
    split; [exact (hex2_ok _ B5)|exact (hex2_ok _ B6)].
Qed.
Lemma dns_ok mem : forall s fuel i last, (length s < fuel)%nat -> Forall (fun c => c <> 0) s ->
  (forall j, (j < length s)%nat -> rd mem (i + Z.of_nat j) = Some (nth j s 0)) -> rd mem (i + Z.of_nat (length s)) = Some 0 ->
  i + Z.of_nat (length s) <= last -> dns_len fuel mem i last = Some (Z.of_nat (length s)).
Proof.
  induction s as [|c s IH]; intros fuel i last L F R E B; (destruct fuel as [|fuel]; [cbn in L; lia|]); cbn [dns_len].
  - cbn [length] in E. rewrite Z.add_0_r in E. rewrite E. reflexivity.
  - pose proof (R 0%nat ltac:(cbn; lia)) as R0. rewrite Z.add_0_r in R0. rewrite R0. cbn [nth]. inversion F as [|x y N F' EQ]; subst x y.
    cbn [length] in *. replace ((c =? 0) || (i >? last)) with false by lia.
    rewrite (IH fuel (i + 1) last); [f_equal; lia|lia|exact F'| |rewrite <- E; f_equal; lia|lia].
    intros j J. specialize (R (S j) ltac:(lia)). cbn [nth] in R. rewrite <- R. f_equal. lia.
Qed.
Theorem name_ok v6 hd fx mem host mac ip s : s <> [] -> (length s <= 900)%nat -> Forall name_char s ->
  header v6 hd -> fields fx -> length mem = 1024%nat ->
  exists bin, set_node_id host mac ip 3 s = Bin bin /\ shown v6 hd fx 3 bin mem s.
Proof.
  intros N L F HH FX LM. exists (s ++ [0]). split.
  - unfold set_node_id. replace (Z.of_nat (length s) >? 1023) with false by lia. destruct s as [|c s0] eqn:ES; [congruence|]. rewrite <- ES in *. cbn zeta.
    change (3 =? MAC) with false. change (3 =? DNS) with true. cbn iota. unfold setup_string.
    replace (existsb bad_char s) with false; [replace (Z.of_nat (length s) >? 1023) with false by lia; reflexivity|].
    symmetry. clear - F. induction F as [|x l C F IH]; [reflexivity|]. cbn [existsb]. rewrite IH, orb_false_r. unfold name_char in C. unfold bad_char. lia.
  - set (l := s ++ [0; 0; 0]).
    assert (NI : node_info 3 (s ++ [0]) = Some (l, Z.of_nat (length l))).
    { unfold node_info. change (3 =? DNS) with true. cbn iota zeta. unfold TXBUF, UPHDR. rewrite app_length. cbn [length].
      replace (Z.of_nat (length s + 1) + 1 >? 1024 - 4 - 22 - 1) with false by lia.
      replace (Z.to_nat (Z.of_nat (length s + 1) + 1)) with (length s + 2)%nat by lia. unfold l. f_equal. f_equal.
      - change 1024%nat with (1 + 1023)%nat. rewrite repeat_app. change (repeat 0 1) with [0]. rewrite (app_assoc (s ++ [0])).
        rewrite firstn_app. rewrite firstn_all2 by (rewrite !app_length; cbn [length]; lia).
        replace (length s + 2 - length ((s ++ [0%Z]) ++ [0%Z]))%nat with 0%nat by (rewrite !app_length; cbn [length]; lia). cbn [firstn]. rewrite app_nil_r, <- !app_assoc. reflexivity.
      - rewrite app_length. cbn [length]. lia. }
    assert (LL : length l = (length s + 3)%nat) by (unfold l; rewrite app_length; reflexivity).
    destruct (seen_id v6 hd fx 3 (s ++ [0]) mem l (Z.of_nat (length l))) as [p [EP [SP [TP [RP [SF [RD LB]]]]]]]; try assumption; [left; reflexivity|lia|].
    exists p. split; [exact EP|]. unfold id_string. rewrite TP. change (3 =? MAC) with false. change (3 =? DNS) with true. cbn iota.
    destruct SF as [a [b [SF SV]]]. rewrite SF, SV.
    assert (HP : 0 <= hdr v6) by (destruct v6; cbn; lia).
    rewrite (dns_ok (sent p) s); [|lia| | | |lia].
    + replace (Z.of_nat (length s) >=? 1024) with false by lia.
      specialize (RP 0%nat (length s) s ltac:(lia) eq_refl). rewrite Z.add_0_r in RP. rewrite RP; [reflexivity|].
      intros j J. unfold l. cbn [Nat.add]. rewrite app_nth1 by exact J. reflexivity.
    + eapply Forall_impl; [|exact F]. intros c C. unfold name_char in C. lia.
    + intros j J. rewrite RD by lia. f_equal. unfold l. rewrite app_nth1 by exact J. reflexivity.
    + rewrite RD by lia. f_equal. unfold l. rewrite app_nth2 by lia. rewrite Nat.sub_diag. reflexivity.
Qed.
Lemma double_ok v6 hd fx mem ty n1 v1 v2 : (n1 = 1 \/ n1 = 8)%nat -> (ty = UUID /\ n1 = 8%nat) \/ (ty = MIP /\ n1 = 1%nat) ->
  0 <= v1 < 256 ^ Z.of_nat n1 -> 0 <= v2 < 2 ^ 64 -> header v6 hd -> fields fx -> length mem = 1024%nat ->
  exists l1 l2 p, split_bytes n1 v1 [] = (l1, 0) /\ split_bytes 8 v2 [] = (l2, 0) /\ compose v6 hd fx ty (l1 ++ l2) mem = Some p /\
    id_type v6 (sent p) = Some ty /\
    rds (sent p) (hdr v6 + 22) (Z.of_nat n1) = Some l1 /\ rds (sent p) (hdr v6 + 22 + Z.of_nat n1) 8 = Some l2 /\ val_of l1 = v1 /\ val_of l2 = v2.
Proof.
  intros N T V1 V2 HH FX LM. destruct (split_ok n1 v1 [] ltac:(lia)) as [l1 [E1 [L1 [B1 F1]]]]. destruct (split_ok 8 v2 [] ltac:(lia)) as [l2 [E2 [L2 [B2 F2]]]].
  rewrite app_nil_r in E1, E2. rewrite Z.div_small in E1 by lia. change (256 ^ Z.of_nat 8) with (2 ^ 64) in E2, F2. rewrite Z.div_small in E2 by lia.
  rewrite Z.mod_small in F1, F2 by lia. exists l1, l2.
  destruct (seen_id v6 hd fx ty (l1 ++ l2) mem (l1 ++ l2) (Z.of_nat (length (l1 ++ l2)) + 1)) as [p [EP [SP [TP [RP _]]]]]; try assumption; [|right; reflexivity|rewrite app_length; lia|].
  { unfold node_info. destruct T as [[-> _]|[-> _]]; reflexivity. }
  exists p. split; [exact E1|]. split; [exact E2|]. split; [exact EP|]. split; [exact TP|]. rewrite app_length in RP. split; [|split; [|split]].
  - specialize (RP 0%nat n1 l1 ltac:(lia) L1). rewrite Z.add_0_r in RP. apply RP. intros j J. cbn [Nat.add]. apply app_nth1. lia.
  - change 8 with (Z.of_nat 8). apply RP; [lia|exact L2|]. intros j J. rewrite app_nth2 by lia. f_equal. lia.
  - rewrite val_ok by (try exact B1; lia). exact F1.
  - rewrite val_ok by (try exact B2; lia). exact F2.
Qed.
Lemma hex_b s : Forall hexdigit s -> Forall (bdigit 16) s.
Proof. intros F. eapply Forall_impl; [|exact F]. intros c D. right. split; [reflexivity|exact D]. Qed.
Theorem uuid_ok v6 hd fx mem host mac ip a b : length a = 16%nat -> hd_error a <> Some 48 -> Forall hexdigit a ->
  b <> [] -> (length b <= 16)%nat -> (hd_error b = Some 48 -> b = [48]) -> Forall hexdigit b -> header v6 hd -> fields fx -> length mem = 1024%nat ->
  exists bin, set_node_id host mac ip 5 (a ++ b) = Bin bin /\ shown v6 hd fx 5 bin mem (map lower (a ++ b)).
Proof.
  intros LA HA FA NB LB HB FB HH FX LM. pose proof (hex_b _ FA) as FA'. pose proof (hex_b _ FB) as FB'.
  assert (NA : a <> []) by (intros ->; discriminate).
  pose proof (number_small 16 a FA' ltac:(lia)) as VA. pose proof (number_small 16 b FB' ltac:(lia)) as VB. rewrite LA in VA.
  assert (VB' : number 16 b < 16 ^ 16) by (eapply Z.lt_le_trans; [exact VB|apply Z.pow_le_mono_r; lia]).
  change (16 ^ Z.of_nat 16) with (2 ^ 64) in VA. change (16 ^ 16) with (2 ^ 64) in VB'.
  pose proof (number_nonneg _ _ FA') as PA. pose proof (number_nonneg _ _ FB') as PB.
  destruct (double_ok v6 hd fx mem UUID 8 (number 16 a) (number 16 b)) as [l1 [l2 [p [S1 [S2 [EP [TP [R1 [R2 [W1 W2]]]]]]]]]]; try assumption;
    [right; reflexivity|left; split; reflexivity|change (256 ^ Z.of_nat 8) with (2 ^ 64); lia|lia|].
  exists (l1 ++ l2). split.
  - unfold set_node_id. rewrite app_length. replace (Z.of_nat (length a + length b) >? 1023) with false by lia.
    destruct (a ++ b) as [|c s0] eqn:ES; [apply app_eq_nil in ES; destruct ES; congruence|]. rewrite <- ES in *. cbn zeta.
    change (5 =? MAC) with false. change (5 =? DNS) with false. change (5 =? IPV4) with false. change (5 =? IPV6) with false. change (5 =? UUID) with true. cbn [orb]. cbn iota.
    unfold setup_double. change (Z.to_nat 16) with 16%nat. change (Z.to_nat 8) with 8%nat.
    assert (FN : firstn 16 (a ++ b) = a). { rewrite <- LA. rewrite firstn_app, firstn_all, Nat.sub_diag. cbn [firstn]. apply app_nil_r. }
    assert (SK : skipn 16 (a ++ b) = b). { rewrite <- LA. rewrite skipn_app, skipn_all, Nat.sub_diag. reflexivity. }
    rewrite FN, SK. rewrite (read_ok 16 a NA FA') by lia. rewrite (read_ok 16 b NB FB') by lia.
    replace (match a ++ b with [] => Some 0 | _ :: _ => Some (number 16 a) end) with (Some (number 16 a)) by (rewrite ES; reflexivity).
    rewrite S1, S2. rewrite app_length. replace (number 16 a >? 2 ^ 64 - 1) with false by lia. replace (number 16 b >? 2 ^ 64 - 1) with false by lia.
    replace (Z.of_nat (length a + length b) >? 16) with true; [reflexivity|]. destruct b; [congruence|]. cbn [length]. lia.
  - exists p. split; [exact EP|]. unfold id_string. rewrite TP. change (UUID =? MAC) with false. change (UUID =? DNS) with false. change (UUID =? UUID) with true. cbn iota.
    change (Z.of_nat 8) with 8 in R1, R2. rewrite R1, R2, W1, W2. cbn zeta.
    assert (CA : canon a). { split; [exact NA|]. intros E. exfalso. apply HA. destruct a; [congruence|]. cbn in *. congruence. }
    assert (CB : canon b). { split; [exact NB|]. intros E. apply HB. destruct b; [congruence|]. cbn in *. congruence. }
    rewrite print_ok by (try exact FA'; try exact CA; lia). rewrite print_ok by (try exact FB'; try exact CB; lia). rewrite !app_nil_r.
    rewrite firstn_all2 by (rewrite map_length; lia). rewrite map_length, LA. change (Z.of_nat 16 =? 16) with true. cbn iota. rewrite map_app. reflexivity.
Qed.
Theorem mip_ok v6 hd fx mem host mac ip c b : digit c -> decimal b -> number 10 b <= 9999999999999999999 -> (length b <= 64)%nat ->
  header v6 hd -> fields fx -> length mem = 1024%nat ->
  exists bin, set_node_id host mac ip 9 (c :: b) = Bin bin /\ shown v6 hd fx 9 bin mem (c :: b).
Proof.
  intros DC DB VB LB HH FX LM. destruct (canon_digits b DB) as [FB CB].
  assert (BC : bdigit 10 c) by (left; split; [reflexivity|exact DC]). pose proof (in_base_ok _ _ BC) as [_ R]. pose proof (number_nonneg _ _ FB) as PB.
  assert (NC : number 10 [c] = hexvalue c) by reflexivity.
  destruct (double_ok v6 hd fx mem MIP 1 (number 10 [c]) (number 10 b)) as [l1 [l2 [p [S1 [S2 [EP [TP [R1 [R2 [W1 W2]]]]]]]]]]; try assumption;
    [left; reflexivity|right; split; reflexivity|change (256 ^ Z.of_nat 1) with 256; lia|change (2 ^ 64) with 18446744073709551616; lia|].
  assert (FC : Forall (bdigit 10) [c]) by (constructor; [exact BC|constructor]).
  exists (l1 ++ l2). split.
  - unfold set_node_id. replace (Z.of_nat (length (c :: b)) >? 1023) with false by (cbn [length]; lia). cbn zeta.
    change (9 =? MAC) with false. change (9 =? DNS) with false. change (9 =? IPV4) with false. change (9 =? IPV6) with false. change (9 =? UUID) with false. change (9 =? MIP) with true. cbn [orb]. cbn iota.
    unfold setup_double. change (Z.to_nat 1) with 1%nat. change (Z.to_nat 8) with 8%nat. cbn [firstn skipn].
    rewrite (read_ok 10 [c]) by (try discriminate; try exact FC; lia).
    rewrite (read_ok 10 b) by (try exact (proj1 CB); try exact FB; change (2 ^ 64) with 18446744073709551616; lia).
    rewrite S1, S2. replace (number 10 [c] >? 9) with false by lia. replace (number 10 b >? 9999999999999999999) with false by lia.
    replace (Z.of_nat (length (c :: b)) >? 1) with true; [reflexivity|]. destruct CB as [CB _]. destruct b; [congruence|]. cbn [length]. lia.
  - exists p. split; [exact EP|]. unfold id_string. rewrite TP. change (MIP =? MAC) with false. change (MIP =? DNS) with false. change (MIP =? UUID) with false. change (MIP =? MIP) with true. cbn iota.
    change (Z.of_nat 1) with 1 in R1, R2. rewrite R1, R2, W1, W2.
    rewrite (print_ok 10 64 [c]); [|exact FC|split; [discriminate|intros E; cbn in E; subst c; reflexivity]|cbn; lia].
    rewrite (print_ok 10 64 b); [|exact FB|exact CB|exact LB].
    rewrite (lower_digits [c] FC), (lower_digits b FB). cbn [app firstn]. rewrite app_nil_r. reflexivity.
Qed.

(** Proofs about the P2PD plugin. *)
From Verif Require Import Base Bytes Parser Mantissa SchedTime BmfPacket BmfPacketSpec BmfPacketProofs BmfSumProofs BmfHistory NetBuf P2pd P2pdSpec.

(** * Reading a packet at the start of some memory *)
Lemma get_nth p r i : 0 <= i < Z.of_nat (length p) -> get i (p ++ r) = Done (nth (Z.to_nat i) p 0).
Proof.
  intros I. unfold get. rewrite nth_error_app1 by lia. rewrite (nth_error_nth' p 0) by lia. reflexivity.
Qed.
Lemma get16_nth p r i : 0 <= i -> i + 1 < Z.of_nat (length p) -> get16 i (p ++ r) = Done (be16 p (Z.to_nat i)).
Proof.
  intros I J. unfold get16. rewrite !get_nth by lia. cbn [obind]. unfold be16. replace (Z.to_nat (i + 1)) with (Z.to_nat i + 1)%nat by lia. reflexivity.
Qed.
Lemma gets_slice p r i n : 0 <= i -> 0 <= n -> i + n <= Z.of_nat (length p) -> gets i n (p ++ r) = Done (slice p (Z.to_nat i) (Z.to_nat n)).
Proof.
  intros I N L. unfold gets. rewrite app_length. replace (_ >? _) with false by lia. unfold slice.
  rewrite skipn_app. replace (Z.to_nat i - length p)%nat with 0%nat by lia. cbn [skipn]. rewrite firstn_app, skipn_length.
  replace (Z.to_nat n - (length p - Z.to_nat i))%nat with 0%nat by lia. cbn [firstn]. now rewrite app_nil_r.
Qed.
Lemma bytes_eqb_ok a b : bytes_eqb a b = true <-> a = b.
Proof. unfold bytes_eqb. destruct (list_eq_dec Z.eq_dec a b); split; intros; congruence. Qed.
Lemma in_list_ok c v6 a p : in_list c v6 a p = true <-> wanted c v6 a p.
Proof.
  unfold in_list, wanted. rewrite existsb_exists. split.
  - intros (d & I & E). exists d. apply andb_prop in E. destruct E as (E & P). apply andb_prop in E. destruct E as (V & A).
    apply Bool.eqb_prop in V. apply bytes_eqb_ok in A. repeat split; try assumption. lia.
  - intros (d & I & V & A & P). exists d. split; [exact I|]. rewrite V, A, P, Bool.eqb_reflx, Z.eqb_refl. replace (bytes_eqb a a) with true; [reflexivity|]. symmetry. now apply bytes_eqb_ok.
Qed.
Lemma nth_byte p i : Forall byte p -> byte (nth i p 0).
Proof.
  intros F. destruct (Nat.lt_ge_cases i (length p)) as [L|L]; [|rewrite nth_overflow by lia; unfold byte; lia].
  rewrite Forall_forall in F. apply F. now apply nth_In.
Qed.

(** * Capturing *)
(** what is done with a packet that is to be relayed *)
Definition after (c : cfg) (v6 : bool) (m : list Z) (n : Z) (h : list (Z * Z)) : outcome (list (Z * Z) * option (list Z)) :=
  let* r := decrement c (if v6 then 7 else 8) (negb v6) m in
  match r with None => Done (h, None) | Some m => let* b := gets 0 n m in Done (h, Some b) end.
Lemma capture4 c now h p dst port r n : c_hash c = false -> udp4 p dst port ->
  captured c now h (p ++ r) n = if in_list c false dst port then after c false (p ++ r) n h else Done (h, None).
Proof.
  intros H (F & V & I & T & O & U & L & D & P). pose proof (nth_byte p 0 F) as B0. unfold byte in *. assert (L2 : 4 * (nth 0 p 0 mod 16) + 8 <= Z.of_nat (length p)) by (unfold hlen in L; lia).
  unfold captured. rewrite get_nth by lia. cbn [obind]. change (Z.to_nat 0) with 0%nat. rewrite V. cbn [Z.eqb]. change (4 =? 4) with true. cbn iota.
  rewrite (gets_slice p r 16 4) by lia. cbn [obind]. rewrite get_nth by lia. cbn [obind]. change (Z.to_nat 9) with 9%nat. rewrite U. change (17 =? 17) with true. cbn [negb].
  rewrite get16_nth by lia. cbn [obind]. change (Z.to_nat 6) with 6%nat. rewrite O. change (0 =? 0) with true. cbn [negb].
  unfold check_recent. rewrite H. cbn [negb obind]. unfold ip_header_length. rewrite get_nth by lia. cbn [obind]. change (Z.to_nat 0) with 0%nat.
  rewrite get16_nth by lia. cbn [obind]. change (Z.to_nat 16) with 16%nat. change (Z.to_nat 4) with 4%nat. rewrite <- D.
  replace (Z.to_nat (nth 0 p 0 mod 16 * 4 + 2)) with (hlen p + 2)%nat by (unfold hlen; lia). rewrite <- P.
  destruct (in_list c false dst port); cbn [negb]; reflexivity.
Qed.
Lemma capture6 c now h p dst port r n : c_hash c = false -> udp6 p dst port ->
  captured c now h (p ++ r) n = if in_list c true dst port then after c true (p ++ r) n h else Done (h, None).
Proof.
  intros H (F & V & T & U & L & D & G & P).
  unfold captured. rewrite get_nth by lia. cbn [obind]. change (Z.to_nat 0) with 0%nat. rewrite V. change (6 =? 4) with false. change (6 =? 6) with true. cbn iota.
  rewrite (gets_slice p r 24 16) by lia. cbn [obind]. change (Z.to_nat 24) with 24%nat. change (Z.to_nat 16) with 16%nat. rewrite <- D, G. change (255 =? 255) with true. cbn [negb].
  rewrite get_nth by lia. cbn [obind]. change (Z.to_nat 6) with 6%nat. rewrite U. change (17 =? 17) with true. cbn [negb].
  unfold check_recent. rewrite H. cbn [negb obind]. rewrite get16_nth by lia. cbn [obind].
  change (Z.to_nat (40 + 2)) with 42%nat. rewrite <- P. destruct (in_list c true dst port); cbn [negb]; reflexivity.
Qed.
Lemma udp_length v6 p dst port : udp v6 p dst port -> (28 <= length p)%nat.
Proof. destruct v6; cbn [udp]; [intros (_ & _ & _ & _ & L & _); lia|intros (_ & _ & I & _ & _ & _ & L & _); unfold hlen in L; lia]. Qed.
Lemma slice_whole (l : list Z) n : n = Z.of_nat (length l) -> slice l 0 (Z.to_nat n) = l.
Proof. intros ->. unfold slice. cbn [skipn]. rewrite Nat2Z.id. apply firstn_all. Qed.
Theorem receive_ok c now h rx p extra dst port v6 ty : c_hash c = false -> udp v6 p dst port ->
  Z.of_nat (length (p ++ extra)) <= 2040 -> length rx = 2048%nat -> taken ty ->
  do_p2pd c now h rx (p ++ extra) ty =
  if in_list c v6 dst port then after c v6 (p ++ extra ++ skipn (8 + length (p ++ extra)) rx) (Z.of_nat (length (p ++ extra))) h else Done (h, None).
Proof.
  intros H U L R T. pose proof (udp_length _ _ _ _ U) as LP. unfold do_p2pd, RXBUF, ENCAP. rewrite firstn_all2 by lia.
  replace (_ >? 2048) with false by lia. rewrite app_length in *. replace (_ <? 20) with false by lia.
  replace (group ty) with true by (unfold group, taken in *; lia). rewrite <- app_assoc.
  destruct v6; cbn [udp] in U; [now rewrite (capture6 c now h p dst port) by assumption|now rewrite (capture4 c now h p dst port) by assumption].
Qed.
Lemma after_plain c v6 m r h : c_dec c = false -> after c v6 (m ++ r) (Z.of_nat (length m)) h = Done (h, Some m).
Proof.
  intros D. unfold after, decrement. rewrite D. cbn [negb obind]. rewrite gets_slice by lia. cbn [obind]. change (Z.to_nat 0) with 0%nat. now rewrite slice_whole.
Qed.
Theorem relay_ok c now h rx p extra dst port v6 ty : c_hash c = false -> c_dec c = false -> udp v6 p dst port ->
  Z.of_nat (length (p ++ extra)) <= 2040 -> length rx = 2048%nat -> taken ty ->
  exists r, do_p2pd c now h rx (p ++ extra) ty = Done (h, r) /\ (wanted c v6 dst port -> r = Some (p ++ extra)) /\ (~ wanted c v6 dst port -> r = None).
Proof.
  intros H D U L R T. rewrite (receive_ok c now h rx p extra dst port v6 ty) by assumption. rewrite app_assoc, after_plain by exact D.
  destruct (in_list c v6 dst port) eqn:E; eexists; (split; [reflexivity|]); split; intros W; try reflexivity.
  - exfalso. apply W. now apply in_list_ok.
  - apply in_list_ok in W. congruence.
Qed.

(** * The time to live *)
Lemma put_nth p r i x : 0 <= i < Z.of_nat (length p) -> exists q, put i x (p ++ r) = Done (q ++ r) /\ length q = length p /\
  nth (Z.to_nat i) q 0 = x /\ (forall j, j <> Z.to_nat i -> nth j q 0 = nth j p 0) /\ (Forall byte p -> byte x -> Forall byte q).
Proof.
  intros I. exists (firstn (Z.to_nat i) p ++ x :: skipn (S (Z.to_nat i)) p). unfold put. rewrite app_length. replace (_ <? _) with true by lia.
  assert (L : length (firstn (Z.to_nat i) p) = Z.to_nat i) by (rewrite firstn_length; lia). split; [|split; [|split; [|split]]].
  - f_equal. rewrite firstn_app. replace (Z.to_nat i - length p)%nat with 0%nat by lia. cbn [firstn]. rewrite app_nil_r, <- app_assoc. cbn [app]. do 2 f_equal.
    rewrite skipn_app. replace (S (Z.to_nat i) - length p)%nat with 0%nat by lia. reflexivity.
  - rewrite app_length, L. cbn [length]. rewrite skipn_length. lia.
  - rewrite app_nth2 by lia. rewrite L, Nat.sub_diag. reflexivity.
  - intros j J. destruct (Nat.lt_ge_cases j (Z.to_nat i)) as [A|A].
    + rewrite app_nth1 by lia. rewrite <- (firstn_skipn (Z.to_nat i) p) at 2. rewrite app_nth1 by lia. reflexivity.
    + rewrite app_nth2 by lia. rewrite L. destruct (j - Z.to_nat i)%nat as [|k] eqn:K; [lia|]. cbn [nth].
      rewrite <- (firstn_skipn (S (Z.to_nat i)) p) at 2. rewrite app_nth2 by (rewrite firstn_length; lia). f_equal. rewrite firstn_length. lia.
  - intros F B. apply Forall_app. split; [now apply forall_take|]. constructor; [exact B|]. rewrite Forall_forall in *. intros z Z0. apply F. rewrite <- (firstn_skipn (S (Z.to_nat i)) p). apply in_or_app. now right.
Qed.
Lemma put16_nth p r i x : 0 <= i -> i + 1 < Z.of_nat (length p) -> exists q, put16 i x (p ++ r) = Done (q ++ r) /\ length q = length p /\
  nth (Z.to_nat i) q 0 = x / 256 mod 256 /\ nth (Z.to_nat i + 1) q 0 = x mod 256 /\ (forall j, j <> Z.to_nat i -> j <> (Z.to_nat i + 1)%nat -> nth j q 0 = nth j p 0) /\ (Forall byte p -> Forall byte q).
Proof.
  intros I J. unfold put16. destruct (put_nth p r i (x / 256 mod 256)) as (q & E & L & A & B & F); [lia|]. rewrite E. cbn [obind].
  destruct (put_nth q r (i + 1) (x mod 256)) as (q' & E' & L' & A' & B' & F'); [lia|]. exists q'. split; [exact E'|]. split; [lia|].
  replace (Z.to_nat (i + 1)) with (Z.to_nat i + 1)%nat in * by lia. split; [rewrite B' by lia; exact A|]. split; [exact A'|]. split.
  - intros j J1 J2. rewrite B' by exact J2. now apply B.
  - intros G. apply F'; [|unfold byte; lia]. apply F; [exact G|unfold byte; lia].
Qed.
(** the words of a list of even length *)
Lemma words_app a b : Nat.even (length a) = true -> words (a ++ b) = words a + words b.
Proof. revert a. apply (two (fun a => Nat.even (length a) = true -> words (a ++ b) = words a + words b)); cbn; intros; try discriminate; [reflexivity|]. rewrite H by assumption. lia. Qed.
Lemma words_sum m : Nat.even (length m) = true -> words m = sum16 m.
Proof. revert m. apply (two (fun m => Nat.even (length m) = true -> words m = sum16 m)); cbn; intros; try discriminate; [reflexivity|]. rewrite H by assumption. lia. Qed.
Lemma words_range m : Forall byte m -> 0 <= words m <= 65535 * Z.of_nat (length m).
Proof.
  revert m. apply (two (fun m => Forall byte m -> 0 <= words m <= 65535 * Z.of_nat (length m))); cbn [words length].
  - lia.
  - intros a F. lia.
  - intros a b m I F. inversion F as [|? ? A F']; inversion F' as [|? ? B F2]; subst. unfold byte in *. specialize (I F2). lia.
Qed.
Lemma sum_words_ok : forall n i p r s, (i + 2 * n <= length p)%nat -> Forall byte p -> 0 <= s -> s + words (slice p i (2 * n)) < 4294967296 ->
  sum_words n (Z.of_nat i) (p ++ r) s = Done (s + words (slice p i (2 * n))).
Proof.
  induction n as [|n IH]; intros i p r s L F S0 B.
  - cbn [sum_words]. change (2 * 0)%nat with 0%nat. unfold slice. cbn [firstn words]. f_equal. lia.
  - cbn [sum_words]. rewrite get16_nth by lia. cbn [obind]. rewrite Nat2Z.id.
    assert (E : slice p i (2 * S n) = nth i p 0 :: nth (i + 1) p 0 :: slice p (i + 2) (2 * n)).
    { unfold slice. replace (2 * S n)%nat with (S (S (2 * n))) by lia.
      assert (K : forall (l : list Z) j, (j < length l)%nat -> skipn j l = nth j l 0 :: skipn (S j) l).
      { induction l as [|x l IHl]; intros [|j] J; cbn [length] in J; try lia; [reflexivity|]. cbn [skipn nth]. rewrite IHl by lia. reflexivity. }
      rewrite (K p i) by lia. rewrite (K p (S i)) by lia. cbn [firstn]. replace (i + 1)%nat with (S i) by lia. replace (i + 2)%nat with (S (S i)) by lia. reflexivity. }
    rewrite E in *. cbn [words] in *. pose proof (nth_byte p i F) as B1. pose proof (nth_byte p (i + 1) F) as B2. unfold byte in *. unfold be16.
    assert (W : 0 <= words (slice p (i + 2) (2 * n))).
    { apply words_range. unfold slice. apply forall_take. rewrite Forall_forall in *. intros z Z0. apply F. rewrite <- (firstn_skipn (i + 2) p). apply in_or_app. now right. }
    replace (u32 _) with (s + (nth i p 0 * 256 + nth (i + 1) p 0)) by (unfold u32; lia).
    replace (Z.of_nat i + 2) with (Z.of_nat (i + 2)) by lia. rewrite IH; [f_equal; lia|lia|exact F|lia|lia].
Qed.
Lemma hlen_ihl p : hlen p = ihl p.
Proof. unfold hlen, ihl. lia. Qed.
Lemma not32_fold s : 0 <= s < 4294967296 -> let f := s / 65536 + s mod 65536 in
  0 <= not32 f mod 65536 < 65536 /\ (f <= 65535 -> not32 f mod 65536 = 65535 - f).
Proof. intros B f. unfold f, not32. split; lia. Qed.
Lemma recompute_ok p r : Forall byte p -> 5 <= nth 0 p 0 mod 16 -> (hlen p <= length p)%nat ->
  exists q, recompute (p ++ r) = Done (q ++ r) /\ length q = length p /\ Forall byte q /\ (forall i, i <> 10%nat -> i <> 11%nat -> nth i q 0 = nth i p 0) /\
    header_sum q = header_sum p /\ (header_sum p / 65536 + header_sum p mod 65536 <= 65535 -> header_ok q).
Proof.
  intros F H L. rewrite hlen_ihl in L. assert (I20 : (20 <= ihl p <= 60)%nat) by (unfold ihl; lia).
  do 12 (destruct p as [|? p]; [cbn [length] in L; lia|]).
  set (a := [z; z0; z1; z2; z3; z4; z5; z6; z7; z8]) in *.
  assert (PE : z :: z0 :: z1 :: z2 :: z3 :: z4 :: z5 :: z6 :: z7 :: z8 :: z9 :: z10 :: p = a ++ z9 :: z10 :: p) by reflexivity.
  set (k := (ihl (z :: z0 :: z1 :: z2 :: z3 :: z4 :: z5 :: z6 :: z7 :: z8 :: z9 :: z10 :: p) - 12)%nat).
  assert (K : forall x y, ihl (a ++ x :: y :: p) = (12 + k)%nat) by (intros x y; change (ihl (a ++ x :: y :: p)) with (ihl (a ++ z9 :: z10 :: p)); unfold k; rewrite PE in *; lia).
  assert (LK : (k <= length p)%nat) by (rewrite PE in L; rewrite K in L; rewrite app_length in L; cbn [length a] in L; lia).
  rewrite PE in *. assert (Fa : Forall byte a) by (apply Forall_app in F; apply F).
  assert (Fp : Forall byte p) by (apply Forall_app in F; destruct F as (_ & F); inversion F as [|? ? _ F']; now inversion F').
  assert (Bx : 0 <= z9 < 256 /\ 0 <= z10 < 256) by (apply Forall_app in F; destruct F as (_ & F); inversion F as [|? ? Q F']; inversion F' as [|? ? Q' _]; split; assumption).
  assert (HF : forall x y, header_field (a ++ x :: y :: p) = x * 256 + y) by reflexivity.
  assert (EV : Nat.even (length a) = true) by reflexivity.
  assert (FN : forall x y, firstn (12 + k) (a ++ x :: y :: p) = a ++ x :: y :: firstn k p) by reflexivity.
  assert (W : forall x y, words (firstn (ihl (a ++ x :: y :: p)) (a ++ x :: y :: p)) = words a + (x * 256 + y) + words (firstn k p)).
  { intros x y. rewrite K, FN, words_app by exact EV. cbn [words]. lia. }
  assert (HS : forall x y, header_sum (a ++ x :: y :: p) = words a + words (firstn k p)) by (intros x y; unfold header_sum; rewrite W, HF; lia).
  assert (R1 : 0 <= words a <= 655350) by (apply (words_range a Fa)).
  assert (Fk : Forall byte (firstn k p)) by now apply forall_take.
  assert (Lk : length (firstn k p) = k) by (rewrite firstn_length; lia).
  assert (K48 : (k <= 48)%nat) by (rewrite K in I20; lia).
  assert (R2 : 0 <= words (firstn k p) <= 65535 * 48) by (pose proof (words_range _ Fk) as Q; rewrite Lk in Q; lia).
  set (s := words a + words (firstn k p)) in *. set (f := s / 65536 + s mod 65536).
  destruct (not32_fold s) as (C1 & C2); [lia|]. fold f in C1, C2. set (ck := not32 f mod 65536) in *.
  exists (a ++ ck / 256 mod 256 :: ck mod 256 :: p).
  assert (RE : recompute ((a ++ z9 :: z10 :: p) ++ r) = Done ((a ++ ck / 256 mod 256 :: ck mod 256 :: p) ++ r)).
  { unfold recompute. rewrite <- !app_assoc. cbn [app]. rewrite put16_at by reflexivity. cbn [obind]. change (0 / 256 mod 256) with 0. change (0 mod 256) with 0.
    change (a ++ 0 :: 0 :: p ++ r) with ((a ++ 0 :: 0 :: p) ++ r). rewrite get_nth by (rewrite app_length; cbn [length]; lia). cbn [obind]. change (Z.to_nat 0) with 0%nat.
    assert (N : (2 * Z.to_nat (nth 0 (a ++ 0%Z :: 0%Z :: p) 0%Z mod 16 * 2))%nat = (12 + k)%nat) by (rewrite <- (K 0 0); unfold ihl; lia).
    change 0 with (Z.of_nat 0) at 4. assert (SL : slice (a ++ 0 :: 0 :: p) 0 (2 * Z.to_nat (nth 0 (a ++ 0 :: 0 :: p) 0 mod 16 * 2)) = a ++ 0 :: 0 :: firstn k p) by (unfold slice; cbn [skipn]; rewrite N; apply FN).
    assert (WS : words (a ++ 0 :: 0 :: firstn k p) = s) by (rewrite words_app by exact EV; cbn [words]; unfold s; lia).
    rewrite sum_words_ok.
    - rewrite SL, WS. cbn [obind]. rewrite Z.add_0_l. fold f. fold ck. rewrite <- app_assoc. cbn [app]. apply put16_at. reflexivity.
    - rewrite N, app_length. cbn [length a]. lia.
    - apply Forall_app. split; [exact Fa|]. constructor; [unfold byte; lia|]. constructor; [unfold byte; lia|exact Fp].
    - lia.
    - rewrite SL, WS. lia. }
  split; [exact RE|]. split; [rewrite !app_length; reflexivity|]. split.
  - apply Forall_app. split; [exact Fa|]. constructor; [unfold byte; lia|]. constructor; [unfold byte; lia|exact Fp].
  - split; [|split].
    + intros i I1 I2. do 12 (destruct i as [|i]; [first [reflexivity|lia]|]). reflexivity.
    + now rewrite !HS.
    + rewrite HS. fold f. intros SF. specialize (C2 SF). unfold header_ok. rewrite K, FN. split; [rewrite app_length; cbn [length a]; rewrite K in I20; lia|].
      apply osum_iff.
      * apply Forall_app. split; [exact Fa|]. constructor; [unfold byte; lia|]. constructor; [unfold byte; lia|exact Fk].
      * assert (E2 : Nat.even (length (a ++ ck / 256 mod 256 :: ck mod 256 :: firstn k p)) = true).
        { rewrite app_length. cbn [length a]. rewrite Lk. assert (Q : exists j, k = (2 * j)%nat). { pose proof (K z9 z10) as Q. unfold ihl in Q. set (w := Z.to_nat _) in Q. exists (2 * w - 6)%nat. lia. }
          destruct Q as (j & ->). replace (10 + S (S (2 * j)))%nat with (2 * (6 + j))%nat by lia. rewrite Nat.even_mul. reflexivity. }
        rewrite <- words_sum by exact E2. rewrite words_app by exact EV. cbn [words].
        replace (ck / 256 mod 256 * 256 + ck mod 256) with ck by lia. replace (words a + (ck + words (firstn k p))) with (s + 65535 - f) by lia.
        assert (SR : 0 <= s < 4294967296) by lia. unfold f in *. clear - SR SF. clearbody s. split; lia.
Qed.
Lemma hlen_same p q : nth 0 q 0 = nth 0 p 0 -> hlen q = hlen p.
Proof. unfold hlen. now intros ->. Qed.
Theorem ttl4_ok c now h rx p extra dst port ty : c_hash c = false -> c_dec c = true -> udp4 p dst port ->
  Z.of_nat (length (p ++ extra)) <= 2040 -> length rx = 2048%nat -> taken ty -> wanted c false dst port ->
  (nth 8 p 0 <= 1 -> do_p2pd c now h rx (p ++ extra) ty = Done (h, None)) /\
  (2 <= nth 8 p 0 -> exists q, do_p2pd c now h rx (p ++ extra) ty = Done (h, Some (q ++ extra)) /\ hop4 p q /\
     (header_sum q / 65536 + header_sum q mod 65536 <= 65535 -> header_ok q)).
Proof.
  intros H D U L R T W. rewrite (receive_ok c now h rx p extra dst port false ty) by assumption. replace (in_list c false dst port) with true by (symmetry; now apply in_list_ok).
  set (rest := extra ++ skipn (8 + length (p ++ extra)) rx). destruct U as (F & V & I & TT & O & U & LL & DD & P).
  assert (L28 : (28 <= length p)%nat) by (unfold hlen in LL; lia). pose proof (nth_byte p 8 F) as B8. unfold byte in B8.
  unfold after, decrement. rewrite D. cbn [negb]. cbn iota. rewrite get_nth by lia. cbn [obind]. change (Z.to_nat 8) with 8%nat. split.
  - intros Q. destruct (nth 8 p 0 =? 0) eqn:E; [reflexivity|]. destruct (put_nth p rest 8 (nth 8 p 0 - 1)) as (q & PE & _); [lia|]. rewrite PE. cbn [obind]. replace (nth 8 p 0 - 1 =? 0) with true by lia. reflexivity.
  - intros Q. replace (nth 8 p 0 =? 0) with false by lia. destruct (put_nth p rest 8 (nth 8 p 0 - 1)) as (p1 & PE & L1 & N1 & S1 & F1); [lia|]. rewrite PE. cbn [obind].
    replace (nth 8 p 0 - 1 =? 0) with false by lia. change (Z.to_nat 8) with 8%nat in *.
    assert (Z0 : nth 0 p1 0 = nth 0 p 0) by (apply S1; lia).
    destruct (recompute_ok p1 rest) as (q & RE & LQ & FQ & SQ & HS & OK).
    + apply F1; [exact F|unfold byte; lia].
    + rewrite Z0. exact I.
    + rewrite (hlen_same p) by exact Z0. lia.
    + exists q. rewrite RE. cbn [obind]. split; [|split].
      * unfold rest. rewrite app_assoc, gets_slice; [|lia|lia|rewrite !app_length; lia]. cbn [obind]. change (Z.to_nat 0) with 0%nat. rewrite slice_whole; [reflexivity|]. rewrite !app_length. lia.
      * split; [lia|]. split; [rewrite SQ by lia; exact N1|]. intros i I1 I2 I3. rewrite SQ by assumption. now apply S1.
      * intros B. apply OK. now rewrite <- HS.
Qed.
Theorem ttl6_ok c now h rx p extra dst port ty : c_hash c = false -> c_dec c = true -> udp6 p dst port ->
  Z.of_nat (length (p ++ extra)) <= 2040 -> length rx = 2048%nat -> taken ty -> wanted c true dst port ->
  (nth 7 p 0 <= 1 -> do_p2pd c now h rx (p ++ extra) ty = Done (h, None)) /\
  (2 <= nth 7 p 0 -> exists q, do_p2pd c now h rx (p ++ extra) ty = Done (h, Some (q ++ extra)) /\ hop6 p q).
Proof.
  intros H D U L R T W. rewrite (receive_ok c now h rx p extra dst port true ty) by assumption. replace (in_list c true dst port) with true by (symmetry; now apply in_list_ok).
  set (rest := extra ++ skipn (8 + length (p ++ extra)) rx). destruct U as (F & V & TT & U & LL & DD & P). pose proof (nth_byte p 7 F) as B8. unfold byte in B8.
  unfold after, decrement. rewrite D. cbn [negb]. cbn iota. rewrite get_nth by lia. cbn [obind]. change (Z.to_nat 7) with 7%nat. split.
  - intros Q. destruct (nth 7 p 0 =? 0) eqn:E; [reflexivity|]. destruct (put_nth p rest 7 (nth 7 p 0 - 1)) as (q & PE & _); [lia|]. rewrite PE. cbn [obind]. replace (nth 7 p 0 - 1 =? 0) with true by lia. reflexivity.
  - intros Q. replace (nth 7 p 0 =? 0) with false by lia. destruct (put_nth p rest 7 (nth 7 p 0 - 1)) as (p1 & PE & L1 & N1 & S1 & F1); [lia|]. rewrite PE. cbn [obind].
    replace (nth 7 p 0 - 1 =? 0) with false by lia. change (Z.to_nat 7) with 7%nat in *. exists p1. split.
    + cbn iota. cbn [obind]. unfold rest. rewrite app_assoc, gets_slice; [|lia|lia|rewrite !app_length; lia]. cbn [obind]. change (Z.to_nat 0) with 0%nat. rewrite slice_whole; [reflexivity|]. rewrite !app_length. lia.
    + split; [lia|]. split; [exact N1|]. intros i I1. now apply S1.
Qed.

(** * The message *)
Lemma aligned_ok n : 0 <= n -> 0 <= aligned n - n < 4 /\ aligned n mod 4 = 0.
Proof. intros N. unfold aligned. destruct (n mod 4 =? 0) eqn:E; lia. Qed.
Theorem gen_ok c seq stack pkt : sane c -> 0 <= seq < 65536 -> Z.of_nat (length pkt) <= 2048 -> Z.of_nat (length stack) = 10240 ->
  exists pad m, gen c seq stack pkt = Done m /\ padding (length pkt) pad /\
    message c seq (pkt ++ pad ++ if c_v6 c then slice stack (24 + length pkt + length pad) 84 else []) m.
Proof.
  intros (LM & FM & TT) SQ L ST. destruct (aligned_ok (Z.of_nat (length pkt))) as (A1 & A2); [lia|]. set (n := Z.of_nat (length pkt)) in *. set (a := aligned n) in *.
  exists (repeat 0 (Z.to_nat (a - n))). unfold gen. destruct (reltime_to_me 180000) as [vt|] eqn:RV; [|vm_compute in RV; discriminate].
  assert (BV : byte vt) by (vm_compute in RV; apply Some_inj in RV; subst vt; unfold byte; lia). fold n. fold a.
  assert (HD : hdr (c_v6 c) = 8 + Z.of_nat (length (c_main c))) by (unfold hdr; rewrite LM; destruct (c_v6 c); reflexivity).
  replace (hdr (c_v6 c) + a >? _) with false by (rewrite HD, LM; destruct (c_v6 c); lia).
  set (sz := a + added (c_v6 c)). set (tt := if c_ttl c =? 0 then 255 else c_ttl c).
  assert (TB : u8 tt = tt) by (unfold tt, u8; destruct (c_ttl c =? 0) eqn:E; lia). rewrite TB. unfold net16 at 1 2.
  assert (SB : 0 <= sz < 65536) by (unfold sz, added; destruct (c_v6 c); lia). replace (u16 sz) with sz by (unfold u16; lia). replace (u16 seq) with seq by (unfold u16; lia).
  set (head := [132; vt] ++ [sz / 256; sz mod 256] ++ c_main c ++ [tt; 0] ++ [seq / 256; seq mod 256]).
  set (pad := repeat 0 (Z.to_nat (a - n))). set (tail := if c_v6 c then slice stack (24 + length pkt + length pad) 84 else []).
  assert (LP : length pad = Z.to_nat (a - n)) by apply repeat_length.
  assert (LH : length head = Z.to_nat (hdr (c_v6 c))) by (unfold head; rewrite !app_length; cbn [length]; lia).
  set (big := head ++ pkt ++ pad ++ skipn (Z.to_nat (hdr (c_v6 c) + a)) stack).
  assert (G : gets 0 sz big = Done (head ++ pkt ++ pad ++ tail)).
  { unfold gets. rewrite Z.add_0_l. change (Z.to_nat 0) with 0%nat. cbn [skipn].
    assert (LB : length big = (length head + length pkt + length pad + (length stack - Z.to_nat (hdr (c_v6 c) + a)))%nat) by (unfold big; rewrite !app_length, skipn_length; lia).
    replace (sz >? _) with false by (rewrite LB, LH, LP; unfold sz, added, hdr; destruct (c_v6 c); lia). f_equal.
    unfold big. replace (head ++ pkt ++ pad ++ skipn (Z.to_nat (hdr (c_v6 c) + a)) stack) with ((head ++ pkt ++ pad) ++ skipn (Z.to_nat (hdr (c_v6 c) + a)) stack) by (now rewrite <- !app_assoc).
    rewrite firstn_app. rewrite firstn_all2 by (rewrite !app_length, LH, LP; unfold sz, added, hdr; destruct (c_v6 c); lia). rewrite <- !app_assoc. do 3 f_equal.
    rewrite !app_length, LH, LP. unfold tail, slice, sz, added, hdr. destruct (c_v6 c).
    - rewrite LP. f_equal; [lia|]. f_equal. lia.
    - replace (_ - _)%nat with 0%nat by lia. reflexivity. }
  exists (head ++ pkt ++ pad ++ tail). split; [exact G|]. split.
  - split; [lia|]. split; [unfold pad; apply Forall_forall; intros x X; now apply repeat_spec in X|]. rewrite LP. replace (length pkt + Z.to_nat (a - n))%nat with (Z.to_nat a) by lia.
    apply Nat2Z.inj. rewrite Nat2Z.inj_mod, Z2Nat.id by lia. exact A2.
  - exists vt, (sz / 256), (sz mod 256), tt. split; [unfold head; rewrite <- !app_assoc; reflexivity|]. split; [exact BV|]. split; [unfold byte; lia|]. split; [unfold byte; lia|]. split; [|reflexivity].
    rewrite !app_length, LH, LP. unfold tail, slice. destruct (c_v6 c) eqn:V.
    + rewrite firstn_length, skipn_length, LP. assert (SZ : sz = a + 108) by reflexivity. replace (sz / 256 * 256 + sz mod 256) with sz by lia. unfold hdr. lia.
    + cbn [length]. assert (SZ : sz = a + 12) by reflexivity. replace (sz / 256 * 256 + sz mod 256) with sz by lia. unfold hdr. lia.
Qed.

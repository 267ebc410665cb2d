(** Proofs about the packets of the mDNS plugin. *)
From Verif Require Import Base BmfPacket BmfPacketSpec BmfPacketProofs BmfSumProofs MdnsElect MdnsElectProofs MdnsRelay MdnsRelaySpec.

(** * The checksum *)
Fixpoint lesum (m : list Z) : Z := match m with x :: y :: m => x + 256 * y + lesum m | _ => 0 end.
Fixpoint firsts (m : list Z) : Z := match m with x :: y :: m => x + firsts m | _ => 0 end.
Lemma swap_sum : forall n m, length m = (2 * n)%nat -> 256 * sum16 m - lesum m = 65535 * firsts m.
Proof.
  induction n as [|n IH]; intros m L; [destruct m; [reflexivity|discriminate]|]. destruct m as [|x [|y m]]; [discriminate|cbn [length] in L; lia|]. cbn [sum16 lesum firsts]. specialize (IH m ltac:(cbn [length] in L; lia)). lia.
Qed.
Lemma lesum_bound : forall n m, length m = (2 * n)%nat -> Forall byte m -> 0 <= lesum m <= 65535 * Z.of_nat n.
Proof.
  induction n as [|n IH]; intros m L F; [destruct m; [cbn; lia|discriminate]|]. destruct m as [|x [|y m]]; [discriminate|cbn [length] in L; lia|].
  apply bytes_inv in F. destruct F as (X & F). apply bytes_inv in F. destruct F as (Y & F). cbn [lesum]. specialize (IH m ltac:(cbn [length] in L; lia) F). lia.
Qed.
Lemma lesum_app : forall n a b, length a = (2 * n)%nat -> lesum (a ++ b) = lesum a + lesum b.
Proof.
  induction n as [|n IH]; intros a b L; [destruct a; [reflexivity|discriminate]|]. destruct a as [|x [|y a]]; [discriminate|cbn [length] in L; lia|]. cbn [app lesum]. rewrite IH by (cbn [length] in L; lia). lia.
Qed.
Lemma loop_ok : forall n m s, (2 * n <= length m)%nat -> Forall byte m -> 0 <= s -> s + 65535 * Z.of_nat n < 4294967296 -> check_loop n m s = Done (s + lesum (firstn (2 * n) m)).
Proof.
  induction n as [|n IH]; intros m s L F Sp B; [cbn; f_equal; lia|]. destruct m as [|x [|y m]]; [cbn in L; lia|cbn [length] in L; lia|].
  apply bytes_inv in F. destruct F as (X & F). apply bytes_inv in F. destruct F as (Y & F). cbn [check_loop]. assert (E : u32 (s + (x + 256 * y)) = s + (x + 256 * y)) by (unfold u32; apply Z.mod_small; lia). rewrite E.
  cbn [length] in L. rewrite IH by (try assumption; lia). replace (2 * S n)%nat with (S (S (2 * n))) by lia. cbn [firstn lesum]. f_equal. lia.
Qed.
Lemma checksum_ok : forall m n, (2 * n <= length m)%nat -> (n <= 30)%nat -> Forall byte m ->
  exists c, ip_checksum m (Z.of_nat (2 * n)) = Done c /\ 0 <= c < 65536 /\ (lesum (firstn (2 * n) m) + c) mod 65535 = 0.
Proof.
  intros m n L N F. unfold ip_checksum. assert (Ev : Z.even (Z.of_nat (2 * n)) = true) by (rewrite Nat2Z.inj_mul; rewrite Z.even_mul; reflexivity). rewrite Ev.
  replace (Z.to_nat (Z.shiftr (Z.of_nat (2 * n)) 1)) with n by (rewrite Z.shiftr_div_pow2 by lia; change (2 ^ 1) with 2; lia).
  rewrite (loop_ok n m 0 L F) by lia. cbn [obind]. pose proof (lesum_bound n (firstn (2 * n) m) ltac:(rewrite firstn_length; lia) (forall_take _ _ F)) as B. set (s := lesum (firstn (2 * n) m)) in *. clearbody s.
  assert (B' : 0 <= s <= 1966050) by lia. clear B. rewrite !Z.shiftr_div_pow2 by lia. change 0xffff with (Z.ones 16). rewrite Z.land_ones by lia. change (2 ^ 16) with 65536. rewrite Z.add_0_l.
  set (s1 := s / 65536 + s mod 65536). assert (R1 : 0 <= s1 <= 65565 /\ (s1 - s) mod 65535 = 0) by (unfold s1; lia). destruct R1 as (R1 & M1). clearbody s1.
  replace (u32 s1) with s1 by (unfold u32; symmetry; apply Z.mod_small; lia).
  set (s2 := s1 + s1 / 65536). assert (R2 : 0 <= s2 <= 65566 /\ s2 mod 65536 <= 65535 /\ (s2 mod 65536 - s1) mod 65535 = 0) by (unfold s2; lia). destruct R2 as (R2 & R3 & M2). clearbody s2.
  replace (u32 s2) with s2 by (unfold u32; symmetry; apply Z.mod_small; lia).
  exists (65535 - s2 mod 65536). split; [f_equal; unfold u16, Z.lnot, Z.pred; lia|]. split; [lia|]. set (t := s2 mod 65536) in *. clearbody t. apply Z.mod_divide in M1, M2; [|lia|lia]. destruct M1 as (a & M1), M2 as (b & M2).
  replace (s + (65535 - t)) with ((1 - a - b) * 65535) by lia. apply Z.mod_mul. discriminate.
Qed.

(** * One interface *)
Definition form (b0 b1 b2 b3 b4 b5 b6 b7 x8 b9 x y : Z) (rest : list Z) : list Z := b0 :: b1 :: b2 :: b3 :: b4 :: b5 :: b6 :: b7 :: x8 :: b9 :: x :: y :: rest.
Lemma four : forall b, byte b -> b / 16 = 4 -> (Z.land b 0xf0 =? 0x40) = true /\ (Z.land b 0xf0 =? 0x60) = false /\ 4 * Z.land b 0xf = 4 * (b mod 16).
Proof.
  intros b B E. assert (H : b = 64 \/ b = 65 \/ b = 66 \/ b = 67 \/ b = 68 \/ b = 69 \/ b = 70 \/ b = 71 \/ b = 72 \/ b = 73 \/ b = 74 \/ b = 75 \/ b = 76 \/ b = 77 \/ b = 78 \/ b = 79) by lia.
  repeat (destruct H as [->|H]; [repeat split; reflexivity|]). subst. repeat split; reflexivity.
Qed.
Definition body4 (check : bool) (i : iface) (m : list Z) (t : Z) (f : list Z -> outcome (list (Z * list Z) * list Z)) : outcome (list (Z * list Z) * list Z) :=
  if negb (if_active i) then Done ([], m) else let* (l, m') := f m in Done ((if_capture i, firstn (Z.to_nat t) m) :: l, m').
Lemma unpack_step : forall (check : bool) i ifs b0 b1 b2 b3 b4 b5 b6 b7 x8 b9 x y rest stripped t8,
  Forall byte (form b0 b1 b2 b3 b4 b5 b6 b7 x8 b9 x y rest) -> b0 / 16 = 4 -> 20 <= 4 * (b0 mod 16) <= b2 * 256 + b3 -> b2 * 256 + b3 <= 12 + Z.of_nat (length rest) ->
  t8 = (if check then 1 else x8) ->
  exists c, 0 <= c < 65536 /\ (lesum (firstn (4 * Z.to_nat (b0 mod 16)) (form b0 b1 b2 b3 b4 b5 b6 b7 t8 b9 0 0 rest)) + c) mod 65535 = 0 /\
    ip_checksum (form b0 b1 b2 b3 b4 b5 b6 b7 t8 b9 0 0 rest) (4 * (b0 mod 16)) = Done c /\
    unpack check (i :: ifs) (form b0 b1 b2 b3 b4 b5 b6 b7 x8 b9 x y rest) stripped =
      body4 check i (form b0 b1 b2 b3 b4 b5 b6 b7 t8 b9 (c mod 256) (c / 256) rest) (b2 * 256 + b3) (fun m => unpack check ifs m (b2 * 256 + b3)).
Proof.
  intros check i ifs b0 b1 b2 b3 b4 b5 b6 b7 x8 b9 x y rest stripped t8 F V Ih To T8. pose proof F as F'. unfold form in F'.
  repeat match goal with H : Forall byte (_ :: _) |- _ => let B := fresh "B" in apply bytes_inv in H; destruct H as (B & H) end.
  destruct (four b0 B V) as (Q1 & Q2 & Q3).
  set (m0 := form b0 b1 b2 b3 b4 b5 b6 b7 t8 b9 0 0 rest).
  assert (L0 : Z.of_nat (length m0) = 12 + Z.of_nat (length rest)) by (unfold m0, form; cbn [length]; lia).
  assert (F0 : Forall byte m0).
  { unfold m0, form. repeat (constructor; [first [unfold byte; lia | subst t8; destruct check; unfold byte; lia]|]). exact F'. }
  assert (R16 : 5 <= b0 mod 16 <= 15) by lia.
  destruct (checksum_ok m0 (2 * Z.to_nat (b0 mod 16)) ltac:(lia) ltac:(lia) F0) as (c & Ec & Rc & Mc).
  replace (2 * (2 * Z.to_nat (b0 mod 16)))%nat with (4 * Z.to_nat (b0 mod 16))%nat in * by lia. replace (Z.of_nat (4 * Z.to_nat (b0 mod 16))) with (4 * (b0 mod 16)) in Ec by lia.
  exists c. split; [exact Rc|]. split; [exact Mc|]. split; [exact Ec|].
  cbn [unpack]. change (get 0 (form b0 b1 b2 b3 b4 b5 b6 b7 x8 b9 x y rest)) with (Done b0). cbn [obind]. rewrite Q1, Q2.
  change (get16 2 (form b0 b1 b2 b3 b4 b5 b6 b7 x8 b9 x y rest)) with (Done (b2 * 256 + b3)). cbn [obind].
  assert (P8 : forall z, put 8 z (form b0 b1 b2 b3 b4 b5 b6 b7 x8 b9 x y rest) = Done (form b0 b1 b2 b3 b4 b5 b6 b7 z b9 x y rest)).
  { intros z. exact (put_at [b0; b1; b2; b3; b4; b5; b6; b7] x8 z (b9 :: x :: y :: rest) 8 eq_refl). }
  replace (if check then put 8 1 (form b0 b1 b2 b3 b4 b5 b6 b7 x8 b9 x y rest) else Done (form b0 b1 b2 b3 b4 b5 b6 b7 x8 b9 x y rest)) with (Done (form b0 b1 b2 b3 b4 b5 b6 b7 t8 b9 x y rest)) by (rewrite T8; destruct check; [now rewrite P8|reflexivity]).
  cbn [obind].
  assert (P10 : put16 10 0 (form b0 b1 b2 b3 b4 b5 b6 b7 t8 b9 x y rest) = Done m0) by (exact (put16_at [b0; b1; b2; b3; b4; b5; b6; b7; t8; b9] x y rest 10 0 eq_refl)).
  rewrite P10. cbn [obind]. rewrite Q3, Ec. cbn [obind].
  assert (P1 : put 10 (c mod 256) m0 = Done (form b0 b1 b2 b3 b4 b5 b6 b7 t8 b9 (c mod 256) 0 rest)) by (exact (put_at [b0; b1; b2; b3; b4; b5; b6; b7; t8; b9] 0 (c mod 256) (0 :: rest) 10 eq_refl)).
  assert (P2 : put 11 (c / 256) (form b0 b1 b2 b3 b4 b5 b6 b7 t8 b9 (c mod 256) 0 rest) = Done (form b0 b1 b2 b3 b4 b5 b6 b7 t8 b9 (c mod 256) (c / 256) rest)) by (exact (put_at [b0; b1; b2; b3; b4; b5; b6; b7; t8; b9; c mod 256] 0 (c / 256) rest 11 eq_refl)).
  rewrite P1. cbn [obind]. rewrite P2. cbn [obind].
  replace (b2 * 256 + b3 =? 0) with false by lia. replace (b2 * 256 + b3 >? Z.of_nat (length (form b0 b1 b2 b3 b4 b5 b6 b7 t8 b9 (c mod 256) (c / 256) rest))) with false by (unfold form; cbn [length]; lia). reflexivity.
Qed.

(** * All interfaces *)
Lemma to_form : forall m : list Z, (20 <= length m)%nat -> exists b0 b1 b2 b3 b4 b5 b6 b7 x8 b9 x y rest, m = form b0 b1 b2 b3 b4 b5 b6 b7 x8 b9 x y rest.
Proof. intros m L. do 12 (destruct m as [|? m]; [cbn [length] in L; lia|]). do 13 eexists. reflexivity. Qed.
Lemma firstn_form : forall k b0 b1 b2 b3 b4 b5 b6 b7 x8 b9 x y rest, (12 <= k)%nat -> firstn k (form b0 b1 b2 b3 b4 b5 b6 b7 x8 b9 x y rest) = form b0 b1 b2 b3 b4 b5 b6 b7 x8 b9 x y (firstn (k - 12) rest).
Proof. intros k. intros. do 12 (destruct k as [|k]; [lia|]). cbn [form firstn Nat.sub]. now replace (k - 0)%nat with k by lia. Qed.
Lemma unpack_ok : forall check m ifs stripped, whole m -> (ifs <> []) ->
  exists m1, unpack check ifs m stripped = Done (map (fun i => (if_capture i, firstn (total m) m1)) (upto ifs), m1) /\
    copy_of check m (firstn (total m) m1) /\ length m1 = length m /\ (forall i, ~ volatile i -> nth_error m1 i = nth_error m i).
Proof.
  intros check m ifs stripped (F & V & Ih & To) Ne. destruct (to_form m ltac:(lia)) as (b0 & b1 & b2 & b3 & b4 & b5 & b6 & b7 & x8 & b9 & x & y & rest & ->).
  unfold total, ihl in *. cbn [form nth] in V, Ih, To. pose proof F as F'. unfold form in F'.
  repeat match goal with H : Forall byte (_ :: _) |- _ => let B := fresh "B" in apply bytes_inv in H; destruct H as (B & H) end.
  assert (Len : Z.of_nat (length (form b0 b1 b2 b3 b4 b5 b6 b7 x8 b9 x y rest)) = 12 + Z.of_nat (length rest)) by (unfold form; cbn [length]; lia).
  set (t8 := if check then 1 else x8).
  assert (I1 : 20 <= 4 * (b0 mod 16) <= b2 * 256 + b3) by lia. assert (I2 : b2 * 256 + b3 <= 12 + Z.of_nat (length rest)) by (cbn [length] in To; lia).
  destruct (unpack_step check (hd (mkIface 0 0 0 true) ifs) [] b0 b1 b2 b3 b4 b5 b6 b7 x8 b9 x y rest 0 t8 F V I1 I2 eq_refl) as (c & Rc & Mc & Ec & _).
  set (m1 := form b0 b1 b2 b3 b4 b5 b6 b7 t8 b9 (c mod 256) (c / 256) rest). exists m1. cbn [form nth]. split; [|split; [|split; [reflexivity|]]].
  - assert (G : forall ifs stripped x8' x' y', ifs <> [] -> Forall byte (form b0 b1 b2 b3 b4 b5 b6 b7 x8' b9 x' y' rest) -> t8 = (if check then 1 else x8') ->
      unpack check ifs (form b0 b1 b2 b3 b4 b5 b6 b7 x8' b9 x' y' rest) stripped = Done (map (fun i => (if_capture i, firstn (Z.to_nat (b2 * 256 + b3)) m1)) (upto ifs), m1)).
    { clear stripped Ne F Len. intros ifs0. induction ifs0 as [|i ifs' IH]; intros stripped x8' x' y' Ne F T; [congruence|].
      destruct (unpack_step check i ifs' b0 b1 b2 b3 b4 b5 b6 b7 x8' b9 x' y' rest stripped t8 F V I1 I2 T) as (c' & _ & _ & Ec' & ->). rewrite Ec in Ec'. inversion Ec'; subst c'. fold m1. unfold body4. cbn [upto].
      destruct (if_active i); cbn [negb]; [|reflexivity]. destruct ifs' as [|i' ifs'].
      - cbn [unpack obind upto map]. reflexivity.
      - unfold m1 at 1. rewrite (IH (b2 * 256 + b3) t8 (c mod 256) (c / 256)); [cbn [obind map]; reflexivity|discriminate| |].
        + unfold form. repeat (constructor; [first [unfold byte; lia | unfold t8; destruct check; unfold byte; lia]|]). exact F'.
        + unfold t8. now destruct check. }
    apply G; [exact Ne|exact F|reflexivity].
  - assert (T12 : (20 <= Z.to_nat (b2 * 256 + b3))%nat) by lia. unfold copy_of, total, ihl. cbn [form nth]. fold (form b0 b1 b2 b3 b4 b5 b6 b7 x8 b9 x y rest). split; [|split; [|split]].
    + rewrite firstn_length. unfold m1, form. cbn [length]. lia.
    + intros k K Vk. rewrite nth_firstn by lia. unfold m1, form. do 12 (destruct k as [|k]; [try reflexivity; exfalso; apply Vk; unfold volatile; lia|]). reflexivity.
    + rewrite nth_firstn by lia. unfold m1, form, t8. cbn [nth_error]. now destruct check.
    + rewrite firstn_firstn. replace (Nat.min (4 * Z.to_nat (b0 mod 16)) (Z.to_nat (b2 * 256 + b3))) with (4 * Z.to_nat (b0 mod 16))%nat by lia.
      unfold m1. rewrite firstn_form in Mc |- * by lia. set (r := firstn (4 * Z.to_nat (b0 mod 16) - 12) rest) in *.
      assert (Fr : Forall byte r) by now apply forall_take. assert (Lr : length r = (4 * Z.to_nat (b0 mod 16) - 12)%nat) by (unfold r; rewrite firstn_length; lia).
      assert (T8 : 0 <= t8 < 256) by (unfold t8; destruct check; lia).
      assert (Fh : Forall byte (form b0 b1 b2 b3 b4 b5 b6 b7 t8 b9 (c mod 256) (c / 256) r)) by (unfold form; repeat (constructor; [unfold byte; lia|]); exact Fr).
      apply (osum_iff _ Fh). pose proof (swap_sum (2 * Z.to_nat (b0 mod 16)) (form b0 b1 b2 b3 b4 b5 b6 b7 t8 b9 (c mod 256) (c / 256) r) ltac:(unfold form; cbn [length]; lia)) as Sw.
      pose proof (sum16_nonneg r Fr) as Nr. unfold form in *. cbn [sum16 lesum firsts] in *. set (q := sum16 r) in *. set (p := lesum r) in *. set (o := firsts r) in *. clearbody q p o r.
      assert (b0 <> 0) by (intros ->; cbn in I1; lia). clear - Sw Mc Nr B B0 B1 B2 B3 B4 B5 B6 B7 B8 B9 B10 T8 Rc H. set (hi := c / 256) in *. set (lo := c mod 256) in *. assert (c = 256 * hi + lo /\ 0 <= lo /\ 0 <= hi) as (Hc & Hlo & Hhi) by (unfold hi, lo; lia). clearbody hi lo. subst c.
      set (w := b0 * 256 + b1 + (b2 * 256 + b3 + (b4 * 256 + b5 + (b6 * 256 + b7 + (t8 * 256 + b9 + (lo * 256 + hi + q)))))) in *.
      assert (W : 0 < w) by (unfold w; lia).
      set (u := b0 + 256 * b1 + (b2 + 256 * b3 + (b4 + 256 * b5 + (b6 + 256 * b7 + (t8 + 256 * b9 + (lo + 256 * hi + p)))))) in *.
      assert (U : u mod 65535 = 0). { rewrite <- Mc. f_equal. unfold u. lia. }
      clearbody w u. clear Mc Rc Hhi Hlo. split; [|exact W]. clear - Sw U. set (v := b0 + _) in Sw. clearbody v. assert (Q : exists a, u = 65535 * a) by (exists (u / 65535); lia). destruct Q as (a & ->). clear U.
      replace w with (65535 * (256 * (v + a) - w)) by lia. rewrite Z.mul_comm. apply Z.mod_mul. lia.
  - intros k Vk. unfold m1, form. do 12 (destruct k as [|k]; [try reflexivity; exfalso; apply Vk; unfold volatile; lia|]). reflexivity.
Qed.

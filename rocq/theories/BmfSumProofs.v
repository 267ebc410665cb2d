(** Proofs about the checksums in the packets of the BMF plugin. *)
From Verif Require Import Base BmfPacket BmfPacketSpec BmfPacketProofs.

Fixpoint sum16 (m : list Z) : Z :=
  match m with a :: b :: m => a * 256 + b + sum16 m | [a] => a * 256 | [] => 0 end.
Lemma two : forall P : list Z -> Prop, P [] -> (forall a, P [a]) -> (forall a b m, P m -> P (a :: b :: m)) -> forall m, P m.
Proof.
  intros P N O T. assert (H : forall m, P m /\ forall a, P (a :: m)); [|intros m; apply H].
  induction m as [|x m (I & J)]; split; auto.
Qed.
Lemma sum16_app : forall x y, Nat.even (length x) = true -> sum16 (x ++ y) = sum16 x + sum16 y.
Proof. intros x y. revert x. apply (two (fun x => Nat.even (length x) = true -> sum16 (x ++ y) = sum16 x + sum16 y)); cbn; intros; try discriminate; [reflexivity|]. rewrite H by assumption. lia. Qed.
Lemma osum_sum : forall m, Forall byte m -> 0 <= osum m <= 65535 /\ (osum m = 65535 <-> sum16 m mod 65535 = 0 /\ 0 < sum16 m) /\ (osum m < 65535 -> osum m = sum16 m mod 65535) /\ 0 <= sum16 m /\ (sum16 m = 0 <-> osum m = 0).
Proof.
  intros m. pattern m. apply two; clear m.
  - intros _. cbn. lia.
  - intros a F. inversion F; subst. unfold byte in *. cbn. lia.
  - intros a b m IH F. inversion F as [|? ? A F1]; inversion F1 as [|? ? B F2]; subst. destruct (IH F2) as (R & E & S & P & Q). unfold byte in *.
    cbn [osum sum16]. unfold oadd. set (o := osum m) in *. set (s := sum16 m) in *. clearbody o s. clear IH F F1 F2.
    assert (O : (o - s) mod 65535 = 0) by (destruct (Z.eq_dec o 65535) as [H|H]; [apply E in H; lia|assert (o = s mod 65535) by lia; lia]).
    assert (PZ : 0 < s <-> 0 < o) by lia. clear E S. destruct (a * 256 + b + o >? 65535) eqn:G; lia.
Qed.
Lemma osum_iff : forall m, Forall byte m -> (osum m = 65535 <-> sum16 m mod 65535 = 0 /\ 0 < sum16 m).
Proof. intros m F. apply (osum_sum m F). Qed.
Lemma sum16_nonneg : forall m, Forall byte m -> 0 <= sum16 m.
Proof. intros m F. apply (osum_sum m F). Qed.
Lemma new_check_ok : forall c o n, 0 <= c < 65536 -> 0 <= o < 4294967296 -> 0 <= n < 4294967296 -> carries c o n ->
  0 <= new_check c o n < 65536 /\ (new_check c o n - (c + halves o - halves n)) mod 65535 = 0.
Proof.
  intros c o n C O N (K1 & K2). unfold new_check, halves, not32, u32, u16 in *.
  assert (O1 : 0 <= o / 65536 < 65536) by lia. assert (O2 : 0 <= o mod 65536 < 65536) by lia.
  assert (N1 : 0 <= n / 65536 < 65536) by lia. assert (N2 : 0 <= n mod 65536 < 65536) by lia.
  set (o1 := o / 65536) in *. set (o2 := o mod 65536) in *. set (n1 := n / 65536) in *. set (n2 := n mod 65536) in *. clearbody o1 o2 n1 n2. clear O N o n.
  replace (4294967295 - ((4294967295 - c - o1) mod 4294967296 + n1) mod 4294967296) with ((c + o1 - n1) mod 4294967296) by lia.
  replace (4294967295 - ((4294967295 - (c + o1 - n1) mod 4294967296 - o2) mod 4294967296 + n2) mod 4294967296) with ((c + o1 - n1 + o2 - n2) mod 4294967296) by lia.
  remember (c + o1 - n1 + o2 - n2) as x eqn:X. replace (c + (o1 + o2) - (n1 + n2)) with x in * by lia.
  assert (R : -131070 <= x <= 196605) by lia. clear X C O1 O2 N1 N2 c o1 o2 n1 n2.
  split; [lia|].
  assert (D : 0 <= x < 65536 \/ 65536 <= x < 131071 \/ 131072 <= x <= 196605 \/ -65536 < x < 0 \/ -131070 <= x < -65536) by lia.
  destruct D as [D|[D|[D|[D|D]]]].
  - replace (x mod 4294967296) with x by lia. replace (x / 65536) with 0 by lia. rewrite Z.add_0_r. replace ((x mod 4294967296) mod 65536) with x by lia. rewrite Z.sub_diag. reflexivity.
  - replace (x mod 4294967296) with x by lia. replace (x / 65536) with 1 by lia. replace (((x + 1) mod 4294967296) mod 65536) with (x + 1 - 65536) by lia. replace (x + 1 - 65536 - x) with (-65535) by lia. reflexivity.
  - replace (x mod 4294967296) with x by lia. replace (x / 65536) with 2 by lia. replace (((x + 2) mod 4294967296) mod 65536) with (x + 2 - 131072) by lia. replace (x + 2 - 131072 - x) with (-131070) by lia. reflexivity.
  - replace (x mod 4294967296) with (x + 4294967296) by lia. replace ((x + 4294967296) / 65536) with 65535 by lia.
    replace (((x + 4294967296 + 65535) mod 4294967296) mod 65536) with (x + 65535) by lia. replace (x + 65535 - x) with 65535 by lia. reflexivity.
  - replace (x mod 4294967296) with (x + 4294967296) by lia. replace ((x + 4294967296) / 65536) with 65534 by lia.
    replace (((x + 4294967296 + 65534) mod 4294967296) mod 65536) with (x + 131070) by lia. replace (x + 131070 - x) with 131070 by lia. reflexivity.
Qed.

(** access to fields *)
Lemma get16_at : forall (a : list Z) x y r i, i = Z.of_nat (length a) -> get16 i (a ++ x :: y :: r) = Done (x * 256 + y).
Proof.
  intros a x y r i ->. unfold get16. rewrite get_at by reflexivity. cbn [obind]. change (a ++ x :: y :: r) with (a ++ [x] ++ y :: r). rewrite app_assoc.
  rewrite get_at by (rewrite app_length; cbn [length]; lia). reflexivity.
Qed.
Lemma put16_at : forall (a : list Z) x y r i v, i = Z.of_nat (length a) -> put16 i v (a ++ x :: y :: r) = Done (a ++ v / 256 mod 256 :: v mod 256 :: r).
Proof.
  intros a x y r i v ->. unfold put16. rewrite put_at by reflexivity. cbn [obind].
  change (a ++ ?p :: y :: r) with (a ++ [p] ++ y :: r). rewrite app_assoc. rewrite put_at by (rewrite app_length; cbn [length]; lia). now rewrite <- app_assoc.
Qed.
Lemma bytes_inv : forall (x : Z) l, Forall byte (x :: l) -> 0 <= x < 256 /\ Forall byte l.
Proof. intros x l F. inversion F; subst. auto. Qed.

(** the header and the rest *)
Definition fixed (b0 b1 b2 b3 b4 b5 b6 b7 b8 b9 c d b12 b13 b14 b15 e f g h : Z) : list Z :=
  [b0; b1; b2; b3; b4; b5; b6; b7; b8; b9; c; d; b12; b13; b14; b15; e; f; g; h].
Lemma split_ihl : forall (b : Z) (r : list Z), (20 <= 4 * Z.to_nat (b mod 16))%nat -> (68 <= 20 + length r)%nat ->
  exists (opts : list Z) u0 u1 u2 u3 u4 u5 u6 u7 s, r = opts ++ u0 :: u1 :: u2 :: u3 :: u4 :: u5 :: u6 :: u7 :: s /\
    (length opts + 20 = 4 * Z.to_nat (b mod 16))%nat.
Proof.
  intros b r H L. assert (B : (4 * Z.to_nat (b mod 16) <= 60)%nat) by lia. set (k := (4 * Z.to_nat (b mod 16) - 20)%nat).
  assert (K : (length (firstn k r) = k)%nat) by (apply firstn_length_le; lia). pose proof (skipn_length k r) as S. rewrite <- (firstn_skipn k r).
  destruct (skipn k r) as [|u0 [|u1 [|u2 [|u3 [|u4 [|u5 [|u6 [|u7 s]]]]]]]]; cbn [length] in S; try lia.
  exists (firstn k r), u0, u1, u2, u3, u4, u5, u6, u7, s. split; [reflexivity|]. rewrite K. lia.
Qed.
Lemma take_app : forall (a b : list Z) n, n = length a -> firstn n (a ++ b) = a.
Proof. intros a b n ->. rewrite firstn_app, Nat.sub_diag, firstn_all, firstn_O, app_nil_r. reflexivity. Qed.
Lemma drop_app : forall (a b : list Z) n, n = length a -> skipn n (a ++ b) = b.
Proof. intros a b n ->. rewrite skipn_app, Nat.sub_diag, skipn_all. reflexivity. Qed.
Lemma seg_at : forall (a u s : list Z) k t, k = length a -> (k + length u <= t)%nat -> skipn k (firstn t (a ++ u ++ s)) = u ++ firstn (t - k - length u) s.
Proof.
  intros a u s k t -> T. rewrite firstn_app, (firstn_all2 a) by lia. rewrite drop_app by reflexivity. rewrite firstn_app, firstn_all2 by lia. reflexivity.
Qed.
Lemma nth_put : forall (a : list Z) x y u v r i, ~ (length a <= i < length a + 2)%nat -> nth_error (a ++ x :: y :: r) i = nth_error (a ++ u :: v :: r) i.
Proof.
  intros a x y u v r i H. destruct (le_lt_dec (length a) i).
  - rewrite !nth_error_app2 by lia. destruct (i - length a)%nat as [|[|k]] eqn:E; try lia. reflexivity.
  - rewrite !nth_error_app1 by lia. reflexivity.
Qed.
Lemma forall_take : forall n (l : list Z), Forall byte l -> Forall byte (firstn n l).
Proof. intros n l F. rewrite <- (firstn_skipn n l) in F. now apply Forall_app in F. Qed.
Lemma update_ok : forall m broad, (68 <= length m)%nat -> Forall byte m -> 0 <= broad < 4294967296 -> (20 <= ihl m)%nat -> ~ multicast (address m) ->
  exists m', update_broadcast m broad = Done m' /\ length m' = length m /\ Forall byte m' /\ dest m' = bytes_of broad /\ untouched m m' /\
    (header_ok m -> carries (header_field m) (address m) broad -> header_ok m') /\
    (nth 9 m 0 = 17 -> udp_ok m -> udp_field m <> 0 -> carries (udp_field m) (address m) broad -> udp_ok m').
Proof.
  intros m broad L F Bd I Mc. do 20 (destruct m as [|? m]; [cbn in L; lia|]). rename m into r.
  unfold ihl in I. cbn [nth] in I.
  destruct (split_ihl z r I ltac:(cbn [length] in L; lia)) as (opts & u0 & u1 & u2 & u3 & u4 & u5 & u6 & u7 & s & -> & Lo).
  assert (Ev : Nat.even (length opts) = true) by (apply Nat.even_spec; exists (2 * Z.to_nat (z mod 16) - 10)%nat; lia).
  repeat match goal with H : Forall byte (_ :: _) |- _ => let B := fresh "B" in apply bytes_inv in H; destruct H as (B & H) end.
  apply Forall_app in F. destruct F as (Fo & F).
  repeat match goal with H : Forall byte (_ :: _) |- _ => let B := fresh "B" in apply bytes_inv in H; destruct H as (B & H) end.
  set (o := address _) in *. assert (Eo : o = ((z15 * 256 + z16) * 65536 + (z17 * 256 + z18))) by (unfold o, address, dest; cbn; lia).
  assert (Ro : 0 <= o < 4294967296) by lia. clearbody o.
  set (r := opts ++ _) in *.
  unfold update_broadcast, get32.
  change (z :: z0 :: z1 :: z2 :: z3 :: z4 :: z5 :: z6 :: z7 :: z8 :: z9 :: z10 :: z11 :: z12 :: z13 :: z14 :: z15 :: z16 :: z17 :: z18 :: r)
    with ([z; z0; z1; z2; z3; z4; z5; z6; z7; z8; z9; z10; z11; z12; z13; z14] ++ z15 :: z16 :: z17 :: z18 :: r).
  rewrite get16_at by reflexivity. cbn [obind].
  assert (G1 : forall a b c d, [z; z0; z1; z2; z3; z4; z5; z6; z7; z8; z9; z10; z11; z12; z13; z14] ++ a :: b :: c :: d :: r =
    [z; z0; z1; z2; z3; z4; z5; z6; z7; z8; z9; z10; z11; z12; z13; z14; a; b] ++ c :: d :: r) by reflexivity.
  rewrite (G1 z15 z16 z17 z18). change (16 + 2) with 18. rewrite get16_at by reflexivity. cbn [obind]. rewrite <- (G1 z15 z16 z17 z18). rewrite <- Eo.
  replace (is_multicast o) with false by (unfold is_multicast; unfold multicast in Mc; lia).
  unfold put32. rewrite put16_at by reflexivity. cbn [obind]. change (16 + 2) with 18. rewrite G1, put16_at by reflexivity. cbn [obind].
  set (e := broad / 65536 / 256 mod 256). set (f := broad / 65536 mod 256). set (g := broad mod 65536 / 256 mod 256). set (h := broad mod 65536 mod 256).
  assert (Ee : e = broad / 16777216 /\ f = broad / 65536 mod 256 /\ g = broad / 256 mod 256 /\ h = broad mod 256) by (unfold e, f, g, h; lia).
  assert (Be : 0 <= e < 256 /\ 0 <= f < 256 /\ 0 <= g < 256 /\ 0 <= h < 256) by lia.
  assert (Hn : halves broad = e * 256 + f + g * 256 + h) by (unfold halves; lia).
  assert (Ho : halves o = z15 * 256 + z16 + z17 * 256 + z18) by (unfold halves; lia).
  clearbody e f g h.
  change ([z; z0; z1; z2; z3; z4; z5; z6; z7; z8; z9; z10; z11; z12; z13; z14; e; f] ++ g :: h :: r)
    with ([z; z0; z1; z2; z3; z4; z5; z6; z7; z8] ++ z9 :: z10 :: z11 :: z12 :: z13 :: z14 :: e :: f :: g :: h :: r).
  rewrite get16_at by reflexivity. cbn [obind]. rewrite put16_at by reflexivity. cbn [obind].
  set (hc := new_check (z9 * 256 + z10) o broad).
  assert (Hc : carries (z9 * 256 + z10) o broad -> 0 <= hc < 65536 /\ (hc - (z9 * 256 + z10 + halves o - halves broad)) mod 65535 = 0) by (intros K; apply new_check_ok; auto; lia).
  assert (Rc : 0 <= hc < 65536) by (unfold hc, new_check, u16; lia). clearbody hc.
  set (c := hc / 256 mod 256). set (d := hc mod 256). assert (Ec : c * 256 + d = hc) by (unfold c, d; lia). assert (Bc : 0 <= c < 256 /\ 0 <= d < 256) by (unfold c, d; lia). clearbody c d. destruct Bc as (Bc1 & Bc2). destruct Be as (Be1 & Be2 & Be3 & Be4).
  change (get 9 _) with (Done z8). cbn [obind].
  assert (Nc : forall r', header_ok ([z; z0; z1; z2; z3; z4; z5; z6; z7; z8] ++ z9 :: z10 :: z11 :: z12 :: z13 :: z14 :: z15 :: z16 :: z17 :: z18 :: r) ->
    carries (header_field ([z; z0; z1; z2; z3; z4; z5; z6; z7; z8] ++ z9 :: z10 :: z11 :: z12 :: z13 :: z14 :: z15 :: z16 :: z17 :: z18 :: r)) o broad ->
    header_ok ([z; z0; z1; z2; z3; z4; z5; z6; z7; z8] ++ c :: d :: z11 :: z12 :: z13 :: z14 :: e :: f :: g :: h :: opts ++ r')).
  { intros r' (_ & S) K. unfold header_field in K. cbn [nth app] in K. apply Hc in K. destruct K as (_ & K).
    split; [unfold ihl; cbn [nth app length]; rewrite app_length; lia|]. revert S. unfold ihl. cbn [nth app].
    assert (Fz : forall a b a1 a2 a3 a4 t, firstn (4 * Z.to_nat (z mod 16)) (z :: z0 :: z1 :: z2 :: z3 :: z4 :: z5 :: z6 :: z7 :: z8 :: a :: b :: z11 :: z12 :: z13 :: z14 :: a1 :: a2 :: a3 :: a4 :: opts ++ t) =
      z :: z0 :: z1 :: z2 :: z3 :: z4 :: z5 :: z6 :: z7 :: z8 :: a :: b :: z11 :: z12 :: z13 :: z14 :: a1 :: a2 :: a3 :: a4 :: opts).
    { intros. change (firstn (4 * Z.to_nat (z mod 16)) ((z :: z0 :: z1 :: z2 :: z3 :: z4 :: z5 :: z6 :: z7 :: z8 :: a :: b :: z11 :: z12 :: z13 :: z14 :: a1 :: a2 :: a3 :: a4 :: opts) ++ t) = 
        (z :: z0 :: z1 :: z2 :: z3 :: z4 :: z5 :: z6 :: z7 :: z8 :: a :: b :: z11 :: z12 :: z13 :: z14 :: a1 :: a2 :: a3 :: a4 :: opts)). apply take_app. cbn [length]. lia. }
    unfold r at 1. rewrite !Fz. intros S.
    apply osum_iff in S; [|repeat (apply Forall_cons; [assumption|]); assumption]. apply osum_iff; [repeat (apply Forall_cons; [assumption|]); assumption|].
    cbn [sum16] in *. pose proof (sum16_nonneg opts Fo) as P. rewrite Hn, Ho in K. set (so := sum16 opts) in *. clearbody so. lia. }
  assert (Dst : forall t, dest ([z; z0; z1; z2; z3; z4; z5; z6; z7; z8] ++ c :: d :: z11 :: z12 :: z13 :: z14 :: e :: f :: g :: h :: t) = bytes_of broad).
  { intros t. unfold dest, bytes_of. cbn [app skipn firstn]. destruct Ee as (-> & -> & -> & ->). reflexivity. }
  destruct (Z.eqb_spec z8 17) as [P|P].
  - unfold ip_header_length. change (get 0 _) with (Done z). cbn [obind].
    set (A := z :: z0 :: z1 :: z2 :: z3 :: z4 :: z5 :: z6 :: z7 :: z8 :: c :: d :: z11 :: z12 :: z13 :: z14 :: e :: f :: g :: h :: opts ++ [u0; u1; u2; u3; u4; u5]).
    assert (EA : forall x y, [z; z0; z1; z2; z3; z4; z5; z6; z7; z8] ++ c :: d :: z11 :: z12 :: z13 :: z14 :: e :: f :: g :: h :: opts ++ u0 :: u1 :: u2 :: u3 :: u4 :: u5 :: x :: y :: s = A ++ x :: y :: s).
    { intros x y. unfold A. cbn [app]. rewrite <- app_assoc. reflexivity. }
    subst r. rewrite EA. assert (LA : z mod 16 * 4 + 6 = Z.of_nat (length A)) by (unfold A; cbn [length]; rewrite app_length; cbn [length]; lia).
    rewrite LA, get16_at by reflexivity. cbn [obind]. rewrite put16_at by reflexivity.
    set (uc := new_check (u6 * 256 + u7) o broad).
    assert (Uc : carries (u6 * 256 + u7) o broad -> 0 <= uc < 65536 /\ (uc - (u6 * 256 + u7 + halves o - halves broad)) mod 65535 = 0) by (intros K; apply new_check_ok; auto; lia).
    assert (Ru : 0 <= uc < 65536) by (unfold uc, new_check, u16; lia). clearbody uc.
    set (v := uc / 256 mod 256). set (w := uc mod 256). assert (Ev' : v * 256 + w = uc) by (unfold v, w; lia). assert (Bv : 0 <= v < 256 /\ 0 <= w < 256) by (unfold v, w; lia). clearbody v w. destruct Bv as (Bv1 & Bv2).
    exists (A ++ v :: w :: s). split; [reflexivity|]. rewrite <- EA. split; [|split; [|split; [|split; [|split]]]].
    + cbn [app length]. rewrite !app_length. reflexivity.
    + cbn [app]. repeat (apply Forall_cons; [assumption|]). apply Forall_app. split; [assumption|]. repeat (apply Forall_cons; [assumption|]). assumption.
    + apply Dst.
    + intros i N1 N2. unfold ihl in N2. cbn [nth app] in N2. rewrite EA. rewrite (nth_put A v w u6 u7 s i) by (intros H; apply N2; split; [exact P|lia]). rewrite <- EA.
      do 20 (destruct i as [|i]; [try reflexivity; exfalso; apply N1; lia|]). reflexivity.
    + apply Nc.
    + intros _ (_ & T & U) Nz K. unfold udp_ok.
      set (m := [z; z0; z1; z2; z3; z4; z5; z6; z7; z8] ++ z9 :: z10 :: z11 :: z12 :: z13 :: z14 :: z15 :: z16 :: z17 :: z18 :: opts ++ u0 :: u1 :: u2 :: u3 :: u4 :: u5 :: u6 :: u7 :: s) in *.
      set (m' := [z; z0; z1; z2; z3; z4; z5; z6; z7; z8] ++ c :: d :: z11 :: z12 :: z13 :: z14 :: e :: f :: g :: h :: opts ++ u0 :: u1 :: u2 :: u3 :: u4 :: u5 :: v :: w :: s) in *.
      change ((ihl m + 8 <= total m <= length m)%nat) in T. change (udp_field m <> 0) in Nz. change (carries (udp_field m) o broad) in K.
      change (udp_field m = 0 \/ (let l := Z.of_nat (total m - ihl m) in osum (firstn 8 (skipn 12 m) ++ [0; 17; l / 256; l mod 256] ++ segment m) = 65535)) in U.
      assert (Ei : ihl m' = ihl m) by reflexivity. assert (Et : total m' = total m) by reflexivity. assert (El : length m' = length m) by (unfold m, m'; cbn [app length]; rewrite !app_length; reflexivity).
      rewrite Ei, Et, El. assert (Ih : ihl m = (length opts + 20)%nat) by (unfold ihl; cbn [nth app m]; lia).
      split; [lia|]. split; [exact T|]. right.
      assert (Sm : segment m = [u0; u1; u2; u3; u4; u5; u6; u7] ++ firstn (total m - ihl m - 8) s).
      { exact (seg_at (z :: z0 :: z1 :: z2 :: z3 :: z4 :: z5 :: z6 :: z7 :: z8 :: z9 :: z10 :: z11 :: z12 :: z13 :: z14 :: z15 :: z16 :: z17 :: z18 :: opts) [u0; u1; u2; u3; u4; u5; u6; u7] s (ihl m) (total m)
          ltac:(cbn [length]; lia) ltac:(cbn [length]; lia)). }
      assert (Sm' : segment m' = [u0; u1; u2; u3; u4; u5; v; w] ++ firstn (total m - ihl m - 8) s).
      { rewrite <- Ei, <- Et. exact (seg_at (z :: z0 :: z1 :: z2 :: z3 :: z4 :: z5 :: z6 :: z7 :: z8 :: c :: d :: z11 :: z12 :: z13 :: z14 :: e :: f :: g :: h :: opts) [u0; u1; u2; u3; u4; u5; v; w] s (ihl m') (total m')
          ltac:(cbn [length]; lia) ltac:(cbn [length]; lia)). }
      assert (Uf : udp_field m = u6 * 256 + u7) by (unfold udp_field; rewrite Sm; reflexivity).
      rewrite Uf in *. destruct U as [U|U]; [lia|]. apply Uc in K. destruct K as (_ & K). revert U. rewrite Sm, Sm'.
      change (firstn 8 (skipn 12 m)) with [z11; z12; z13; z14; z15; z16; z17; z18]. change (firstn 8 (skipn 12 m')) with [z11; z12; z13; z14; e; f; g; h].
      set (q := firstn _ s). assert (Fq : Forall byte q) by exact (forall_take _ _ F).
      cbv zeta. set (l := Z.of_nat (total m - ihl m)). cbn [app].
      assert (Rl : 0 <= l < 65536) by (unfold l, total; cbn [nth m app]; lia).
      assert (Bl1 : 0 <= l / 256 < 256) by lia. assert (Bl2 : 0 <= l mod 256 < 256) by lia. assert (Bb0 : byte 0) by (unfold byte; lia). assert (Bb17 : byte 17) by (unfold byte; lia).
      intros U. apply osum_iff in U; [|repeat (apply Forall_cons; [assumption|]); assumption]. apply osum_iff; [repeat (apply Forall_cons; [assumption|]); assumption|].
      cbn [sum16] in *. pose proof (sum16_nonneg q Fq) as Pq. rewrite Hn, Ho in K. set (sq := sum16 q) in *. clearbody sq l. lia.
  - eexists. split; [reflexivity|]. split; [|split; [|split; [|split; [|split]]]].
    + reflexivity.
    + cbn [app]. repeat (apply Forall_cons; [assumption|]). unfold r. apply Forall_app. split; [assumption|]. repeat (apply Forall_cons; [assumption|]). assumption.
    + apply Dst.
    + intros i N1 N2. do 20 (destruct i as [|i]; [try reflexivity; exfalso; apply N1; lia|]). reflexivity.
    + apply Nc.
    + intros Q. cbn [nth app] in Q. lia.
Qed.
Lemma multicast_same : forall m broad, (68 <= length m)%nat -> Forall byte m -> multicast (address m) -> update_broadcast m broad = Done m.
Proof.
  intros m broad L F M. do 20 (destruct m as [|? m]; [cbn in L; lia|]). unfold address, dest in M. cbn [skipn firstn fold_left] in M. unfold multicast in M.
  unfold update_broadcast, get32, get16, get. change (Z.to_nat 16) with 16%nat. change (Z.to_nat (16 + 1)) with 17%nat. change (Z.to_nat (16 + 2)) with 18%nat. change (Z.to_nat (16 + 2 + 1)) with 19%nat.
  cbn [nth_error obind]. replace (is_multicast _) with true; [reflexivity|]. unfold is_multicast. lia.
Qed.

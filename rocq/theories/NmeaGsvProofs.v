(** Lemmas about the satellites in view *)
From Coq Require Import String.
From Verif Require Import Base Regex NmeaScan NmeaScanSpec NmeaScanProofs NmeaTime NmeaTimeProofs NmeaGsv NmeaGsvSpec.

Definition clean (x : sat) : sat := if prn x =? 0 then no_sat else x.
Lemma copy_eq ps : forall i v, List.length v = 72%nat -> (i + List.length ps <= 72)%nat ->
  copy ps i v = firstn i v ++ map clean ps ++ skipn (i + List.length ps) v.
Proof.
  induction ps as [|x r IH]; intros i v L B; cbn [copy map List.length app] in *.
  - rewrite Nat.add_0_r. symmetry. apply firstn_skipn.
  - replace (i <? maxsat)%nat with true by (symmetry; apply Nat.ltb_lt; unfold maxsat; lia).
    assert (Lf : List.length (firstn i v) = i) by (rewrite firstn_length; lia).
    assert (Lp : List.length (put i (if prn x =? 0 then no_sat else x) v) = 72%nat) by (unfold put; rewrite app_length; cbn [List.length]; rewrite Lf, skipn_length; lia).
    rewrite IH by (try exact Lp; lia). unfold put at 1 2. rewrite firstn_app, Lf. replace (S i - i)%nat with 1%nat by lia. rewrite firstn_firstn. replace (Nat.min (S i) i) with i by lia. cbn [firstn].
    rewrite skipn_app, Lf. rewrite skipn_all2 by lia. cbn [app]. replace (S i + List.length r - i)%nat with (S (List.length r)) by lia. cbn [skipn].
    rewrite <- app_assoc. cbn [app]. fold (clean x). do 2 f_equal. f_equal. 
    assert (G : forall (A : Type) a b (l : list A), skipn a (skipn b l) = skipn (b + a) l).
    { intros A a b. induction b as [|b IHb]; intros l; [reflexivity|]. destruct l as [|y l]; [rewrite !skipn_nil; reflexivity|]. cbn [skipn Nat.add]. apply IHb. }
    change (match v with [] => [] | _ :: l => skipn i l end) with (skipn (S i) v). rewrite G. f_equal. lia.
Qed.
Lemma sentences_eq n : 0 <= n -> to_sentences n = if n =? 0 then 1 else (n + 3) / 4.
Proof.
  intros H. unfold to_sentences. destruct (n =? 0) eqn:E; [reflexivity|]. rewrite Z.shiftr_div_pow2 by lia. change 3 with (Z.ones 2) at 1. rewrite Z.land_ones by lia. change (2 ^ 2) with 4.
  destruct (negb (n mod 4 =? 0)) eqn:M; lia.
Qed.
Lemma to_info_ok p v : hasCount p = true -> hasView p = true -> 0 <= cnt p <= 72 -> sCount p = to_sentences (cnt p) -> 1 <= sNum p <= sCount p ->
  List.length (sats p) = 4%nat -> List.length (vSats v) = 72%nat ->
  to_info p v = Some (mkView true true (cnt p) (firstn (4 * Z.to_nat (sNum p - 1)) (vSats v) ++ map clean (sats p) ++ repeat no_sat (72 - 4 * Z.to_nat (sNum p))) (negb (sNum p =? sCount p))).
Proof.
  intros HC HV C SC SN L4 L. unfold to_info. rewrite HC, HV. replace (cnt p >? 72) with false by lia. cbn [andb vSats vHasCount vCnt].
  rewrite SC, Z.eqb_refl. pose proof (sentences_eq (cnt p) ltac:(lia)) as T. assert (B : 1 <= to_sentences (cnt p) <= 18) by (rewrite T; destruct (cnt p =? 0) eqn:?; lia).
  unfold maxsent. replace (to_sentences (cnt p) =? 0) with false by lia. replace (to_sentences (cnt p) >? 18) with false by lia. replace (sNum p =? 0) with false by lia. replace (sNum p >? to_sentences (cnt p)) with false by lia. cbn [orb negb].
  rewrite !Z.shiftl_mul_pow2 by lia. change (2 ^ 2) with 4.
  replace (Z.to_nat (sNum p * 4)) with (4 * Z.to_nat (sNum p))%nat by lia. replace (Z.to_nat ((sNum p - 1) * 4)) with (4 * Z.to_nat (sNum p - 1))%nat by lia.
  remember (Z.to_nat (sNum p - 1)) as k eqn:K. replace (Z.to_nat (sNum p)) with (S k) by lia. assert (Kb : (k < 18)%nat) by lia.
  replace (maxsat <? 4 * S k)%nat with false by (symmetry; apply Nat.ltb_ge; unfold maxsat; lia). unfold maxsat.
  assert (Lf : List.length (firstn (4 * S k) (vSats v)) = (4 * S k)%nat) by (rewrite firstn_length; lia).
  rewrite copy_eq; [|rewrite app_length, Lf, repeat_length; lia|lia]. rewrite L4. do 2 f_equal. rewrite firstn_app, Lf, firstn_firstn.
  replace (Nat.min (4 * k) (4 * S k)) with (4 * k)%nat by lia. replace (4 * k - 4 * S k)%nat with 0%nat by lia. cbn [firstn]. rewrite app_nil_r. f_equal. f_equal.
  rewrite skipn_app, Lf. rewrite skipn_all2 by lia. replace (4 * k + 4 - 4 * S k)%nat with 0%nat by lia. reflexivity.
Qed.
Lemma check_ok tk l p : Forall u_ok l -> check tk l = Some p ->
  hasCount p = true /\ hasView p = true /\ 0 <= cnt p <= 72 /\ sCount p = to_sentences (cnt p) /\ 1 <= sNum p <= sCount p /\ List.length (sats p) = 4%nat /\ Forall possible (sats p).
Proof.
  intros F. assert (U : forall i old, 0 <= old -> 0 <= destU l i old).
  { intros i old O. unfold destU. destruct (nth i l VKeep) eqn:N; try exact O. destruct (Nat.lt_ge_cases i (List.length l)) as [Lt|Ge]; [|rewrite nth_overflow in N by exact Ge; discriminate].
    rewrite Forall_forall in F. specialize (F _ (nth_In l VKeep Lt)). rewrite N in F. unfold u_ok, held in F. lia. }
  clear F. unfold check. cbv zeta. assert (T0 : 0 <= 2 ^ 32 - 1) by lia. remember (2 ^ 32 - 1) as big eqn:Bg. clear Bg.
  pose proof (U 0%nat big T0) as U0. pose proof (U 1%nat big T0) as U1. pose proof (U 2%nat big T0) as U2.
  destruct ((destU l 0 big =? big) || (destU l 1 big =? big) || (destU l 2 big =? big)); [discriminate|].
  destruct (counters (destU l 0 big) (destU l 1 big) (destU l 2 big)) eqn:C; cbn [negb]; [|discriminate].
  match goal with |- (if ?b then _ else _) = _ -> _ => destruct b; [discriminate|] end.
  destruct (forallb valid_sat (map (sat_at l) [0; 1; 2; 3]%nat)) eqn:V; [|discriminate]. intros H. apply Some_inj in H. rewrite <- H. clear H p. cbn [hasCount hasView cnt sCount sNum sats].
  unfold counters, maxsent in C. rewrite !andb_true_iff in C. destruct C as (((((C1 & C2) & C3) & C4) & C5) & C6).
  split; [reflexivity|]. split; [reflexivity|]. split; [lia|]. split; [lia|]. split; [lia|]. split; [reflexivity|].
  rewrite forallb_forall in V. rewrite Forall_forall. intros x I. specialize (V x I). apply in_map_iff in I. destruct I as (j & <- & _).
  unfold possible, valid_sat, sat_at in *. cbn [prn elev azim snr] in *. pose proof (U (3 + 4 * j)%nat 0 ltac:(lia)). pose proof (U (5 + 4 * j)%nat 0 ltac:(lia)). pose proof (U (6 + 4 * j)%nat 0 ltac:(lia)). lia.
Qed.
Lemma scanf_u isnum s t f m l : nmea_scanf isnum s t f = Some (m, l) -> Forall u_ok l.
Proof. unfold nmea_scanf. apply scan_u. Qed.
Lemma parse_ok isnum s p : parse isnum s = Some p ->
  hasCount p = true /\ hasView p = true /\ 0 <= cnt p <= 72 /\ sCount p = to_sentences (cnt p) /\ 1 <= sNum p <= sCount p /\ List.length (sats p) = 4%nat /\ Forall possible (sats p).
Proof.
  unfold parse. destruct s as [|c r]; [discriminate|]. destruct (nmea_scanf isnum (c :: r) (Some 0) gsv_format) as [[tk l]|] eqn:E; [|discriminate].
  intros H. exact (check_ok tk l p (scanf_u _ _ _ _ _ _ E) H).
Qed.
Lemma take_eq n : forall i v, (i + n <= 72)%nat -> List.length v = 72%nat -> take n i v = firstn n (skipn i v).
Proof.
  induction n as [|n IH]; intros i v B L; [reflexivity|]. cbn [take]. replace (i <? maxsat)%nat with true by (symmetry; apply Nat.ltb_lt; unfold maxsat; lia). rewrite IH by lia.
  assert (G : forall i (v : list sat), (i < List.length v)%nat -> skipn i v = nth i v no_sat :: skipn (S i) v).
  { clear. induction i as [|i IHi]; intros [|x v] B; cbn [List.length] in B; try lia; [reflexivity|]. cbn [skipn nth]. apply IHi. lia. }
  rewrite (G i v) by lia. reflexivity.
Qed.
Lemma firstn_add (A : Type) a b (l : list A) : firstn (a + b) l = firstn a l ++ firstn b (skipn a l).
Proof. revert l. induction a as [|a IH]; intros [|x l]; cbn [Nat.add firstn skipn app]; [reflexivity|reflexivity|rewrite firstn_nil; reflexivity|rewrite IH; reflexivity]. Qed.
Lemma clean_seen l n : Forall seen l -> map clean (l ++ repeat no_sat n) = l ++ repeat no_sat n.
Proof.
  intros F. rewrite map_app. f_equal.
  - induction F as [|x l H _ IH]; [reflexivity|]. cbn [map]. rewrite IH. unfold clean, seen in *. replace (prn x =? 0) with false by lia. reflexivity.
  - induction n as [|n IH]; [reflexivity|]. cbn [repeat map]. rewrite IH. reflexivity.
Qed.
Lemma map_firstn_clean a b (L : list sat) : map clean L = L -> map clean (firstn a (skipn b L)) = firstn a (skipn b L).
Proof. intros H. rewrite <- H at 2. rewrite skipn_map, firstn_map. reflexivity. Qed.
(** the sentences from number [k] on, from an array that holds the ones before *)
Lemma fed_from w l : Forall seen l -> (1 <= List.length l <= 72)%nat -> vHasCount w = true -> vHas w = true -> vCnt w = Z.of_nat (List.length l) -> vSats w = l ++ repeat no_sat (72 - List.length l) ->
  forall m k v, (k + m)%nat = Z.to_nat (to_sentences (Z.of_nat (List.length l))) -> (1 <= m)%nat -> List.length (vSats v) = 72%nat -> firstn (4 * k) (vSats v) = firstn (4 * k) (vSats w) ->
  fed (map (fun j => from_info w (Z.of_nat j)) (seq k m)) v (mkView true true (Z.of_nat (List.length l)) (vSats w) false).
Proof.
  intros Fs Ln H1 H2 H3 H4 m. pose proof (sentences_eq (Z.of_nat (List.length l)) ltac:(lia)) as T. replace (Z.of_nat (List.length l) =? 0) with false in T by lia.
  assert (Lw : List.length (vSats w) = 72%nat) by (rewrite H4, app_length, repeat_length; lia).
  assert (Cw : map clean (vSats w) = vSats w) by (rewrite H4; apply clean_seen, Fs).
  induction m as [|m IH]; intros k v Km M Lv Pf; [lia|]. cbn [seq map].
  set (p := from_info w (Z.of_nat k)).
  assert (P : p = mkGsv true true (to_sentences (Z.of_nat (List.length l))) (Z.of_nat k + 1) (Z.of_nat (List.length l)) (firstn 4 (skipn (4 * k) (vSats w)))).
  { unfold p, from_info. rewrite H1, H2, H3. replace (Z.of_nat (List.length l) =? 0) with false by lia. cbn [negb orb].
    replace (Z.of_nat k >=? to_sentences (Z.of_nat (List.length l))) with false by lia. f_equal. rewrite Z.shiftl_mul_pow2 by lia. change (2 ^ 2) with 4.
    replace (Z.to_nat (Z.of_nat k * 4)) with (4 * k)%nat by lia. apply take_eq; [lia|exact Lw]. }
  assert (L4 : List.length (firstn 4 (skipn (4 * k) (vSats w))) = 4%nat) by (rewrite firstn_length, skipn_length; lia).
  pose proof (to_info_ok p v) as TI. rewrite P in TI. cbn [hasCount hasView cnt sCount sNum sats] in TI.
  specialize (TI eq_refl eq_refl ltac:(lia) eq_refl ltac:(lia) L4 Lv). rewrite <- P in TI.
  replace (Z.to_nat (Z.of_nat k + 1 - 1)) with k in TI by lia. replace (Z.to_nat (Z.of_nat k + 1)) with (S k) in TI by lia.
  rewrite Pf, map_firstn_clean in TI by exact Cw. rewrite app_assoc, <- firstn_add in TI. replace (4 * k + 4)%nat with (4 * S k)%nat in TI by lia.
  assert (Lf : List.length (firstn (4 * S k) (vSats w)) = (4 * S k)%nat) by (rewrite firstn_length; lia).
  destruct m as [|m].
  - econstructor; [exact TI|]. replace (Z.of_nat k + 1 =? to_sentences (Z.of_nat (List.length l))) with true by lia. cbn [negb seq map].
    replace (firstn (4 * S k) (vSats w) ++ repeat no_sat (72 - 4 * S k)) with (vSats w); [apply fed_nil|].
    rewrite H4, firstn_app, firstn_all2 by lia. rewrite <- app_assoc. f_equal. assert (Rp : forall a b, (a <= b)%nat -> firstn a (repeat no_sat b) = repeat no_sat a).
    { clear. induction a as [|a IHa]; intros [|b] B; cbn [repeat firstn]; try reflexivity; [lia|]. rewrite IHa by lia. reflexivity. }
    rewrite Rp by lia. rewrite <- repeat_app. f_equal. lia.
  - econstructor; [exact TI|]. apply IH; [lia|lia| |]; cbn [vSats].
    + rewrite app_length, Lf, repeat_length. lia.
    + rewrite firstn_app, Lf, Nat.sub_diag. cbn [firstn]. rewrite app_nil_r, firstn_firstn. f_equal. lia.
Qed.
Lemma parse_scan isnum s t l : s <> [] -> nmea_scanf isnum s (Some 0) gsv_format = Some (t, l) -> parse isnum s = check t l.
Proof. intros N E. unfold parse. destruct s as [|c r]; [congruence|]. rewrite E. reflexivity. Qed.
Lemma scanf_fields isnum pre ks xs vs tl : ~ In 37 pre -> all_give (fun t => isnum t = true) ks xs vs -> (tl = [] \/ exists ck, tl = 42 :: ck) ->
  nmea_scanf isnum (pre ++ txt xs ++ tl) (Some 0) (pre ++ fmt ks ++ [42]) = Some (List.length ks, vs).
Proof.
  intros N A T. unfold nmea_scanf. rewrite scan_pre by exact N. rewrite (scan_fields isnum (Some 0) ks xs vs 42 [] tl A) by auto.
  destruct T as [->|(ck & ->)]; cbn [scan Z.eqb Pos.eqb Nat.add]; rewrite app_nil_r; reflexivity.
Qed.
Definition gsv_kinds : list kind := [KUns; KUns; KUns] ++ [KUns; KInt; KUns; KUns] ++ [KUns; KInt; KUns; KUns] ++ [KUns; KInt; KUns; KUns] ++ [KUns; KInt; KUns; KUns].
Lemma gsv_format_eq : gsv_format = str "$GPGSV" ++ fmt gsv_kinds ++ [42].
Proof. vm_compute. reflexivity. Qed.
Lemma valid_possible s : possible s -> valid_sat s = true.
Proof. intros (? & ? & ? & ?). unfold valid_sat. lia. Qed.
Lemma check_full sc sn n (a b c d : four_fields) : 1 <= n <= 72 -> 4 * sc - 4 < n <= 4 * sc -> 1 <= sn <= sc -> Forall possible (map sat_of [a; b; c; d]) ->
  check 19 ([VUns sc; VUns sn; VUns n] ++ flat_map vals_of [a; b; c; d]) = Some (mkGsv true true sc sn n (map sat_of [a; b; c; d])).
Proof.
  intros N SC SN F. pose proof (sentences_eq n ltac:(lia)) as Ts. replace (n =? 0) with false in Ts by lia.
  assert (Cs : counters sc sn n = true) by (unfold counters, maxsent; rewrite Ts; lia).
  assert (Es : map (sat_at ([VUns sc; VUns sn; VUns n] ++ flat_map vals_of [a; b; c; d])) [0; 1; 2; 3]%nat = map sat_of [a; b; c; d]).
  { assert (Gu : forall o, match ou o with VUns v => v | _ => 0 end = dz o) by (intros []; reflexivity). assert (Gi : forall o, match oi o with VInt v => v | _ => 0 end = dz o) by (intros []; reflexivity).
    destruct a as [[[a1 a2] a3] a4], b as [[[b1 b2] b3] b4], c as [[[c1 c2] c3] c4], d as [[[d1 d2] d3] d4]. unfold sat_at, destU, destI, vals_of, sat_of. cbn [app flat_map nth map Nat.add Nat.mul]. rewrite !Gu, !Gi. reflexivity. }
  assert (Fv : forallb valid_sat (map sat_of [a; b; c; d]) = true) by (apply forallb_forall; intros x I; apply valid_possible; rewrite Forall_forall in F; apply F; exact I).
  unfold check. rewrite Es, Fv. unfold destU. cbn [app nth].
  replace ((sc =? 2 ^ 32 - 1) || (sn =? 2 ^ 32 - 1) || (n =? 2 ^ 32 - 1)) with false by lia. rewrite Cs. cbn [negb Nat.eqb]. rewrite andb_false_r. reflexivity.
Qed.

From Verif Require Import Base PudRx PudRxSpec.

(** * the list of the messages seen *)
Definition dinv (N : Z) (d : dlist) (h : list key) : Prop :=
  d_max d = N /\ 1 <= N /\ N * 20 < 2 ^ 64 /\ Z.of_nat (length (d_ents d)) = N /\ 0 <= d_newest d < N /\
  d_count d = Z.min N (Z.of_nat (length h)) /\
  forall i k, nth_error h i = Some k -> Z.of_nat i < N ->
    nth_error (d_ents d) (Z.to_nat ((d_newest d + Z.of_nat i) mod N)) = Some (Some k).
Lemma beqb_ok a b : beqb a b = true <-> a = b.
Proof. unfold beqb. destruct (list_eq_dec Z.eq_dec a b); split; congruence. Qed.
Lemma key_eqb (e k : key) : beqb (fst e) (fst k) && beqb (snd e) (snd k) = true <-> e = k.
Proof.
  destruct e as [e1 e2], k as [k1 k2]. cbn [fst snd]. rewrite andb_true_iff, !beqb_ok. split; [intros [-> ->]; reflexivity|].
  intros E. injection E as -> ->. split; reflexivity.
Qed.
Lemma u64_small x : 0 <= x < 2 ^ 64 -> u64 x = x.
Proof. intros H. unfold u64. apply Z.mod_small. exact H. Qed.
Lemma mod_next N a : 0 < N -> (a mod N + 1) mod N = (a + 1) mod N.
Proof. intros H. rewrite Z.add_mod_idemp_l by lia. reflexivity. Qed.
Lemma look_ok N d h k : dinv N d h -> forall n j, (j + n <= length h)%nat -> Z.of_nat (j + n) <= N ->
  exists b, look n d ((d_newest d + Z.of_nat j) mod N) k = Some b /\ (b = true <-> In k (firstn n (skipn j h))).
Proof.
  intros [M [N1 [N2 [L [NW [C I]]]]]]. induction n as [|n IH]; intros j J K.
  - exists false. split; [reflexivity|]. cbn. split; [discriminate|intros []].
  - cbn [look]. assert (R : 0 <= (d_newest d + Z.of_nat j) mod N < N) by (apply Z.mod_pos_bound; lia).
    rewrite L. replace (((d_newest d + Z.of_nat j) mod N <? 0) || ((d_newest d + Z.of_nat j) mod N >=? N)) with false by lia.
    destruct (nth_error h j) as [e|] eqn:E; [|apply nth_error_None in E; lia].
    rewrite (I j e E) by lia.
    assert (SK : skipn j h = e :: skipn (S j) h).
    { clear - E. revert j E. induction h as [|x r IHh]; intros [|j] E; try discriminate.
      - cbn in E. injection E as ->. reflexivity.
      - cbn in E. apply IHh in E. cbn [skipn]. exact E. }
    rewrite SK. cbn [firstn].
    destruct (beqb (fst e) (fst k) && beqb (snd e) (snd k)) eqn:B.
    + apply key_eqb in B. subst e. exists true. split; [reflexivity|]. split; [intros _; left; reflexivity|reflexivity].
    + rewrite M. rewrite u64_small by lia. rewrite mod_next by lia.
      replace (d_newest d + Z.of_nat j + 1) with (d_newest d + Z.of_nat (S j)) by lia.
      destruct (IH (S j)) as [b [Hb Ib]]; [lia|lia|]. exists b. split; [exact Hb|]. rewrite Ib. cbn [In]. split.
      * intros H. right. exact H.
      * intros [H|H]; [|exact H]. exfalso. apply key_eqb in H. congruence.
Qed.
Lemma in_ok N d h k : dinv N d h -> exists b, in_dedup d k = Some b /\ (b = true <-> In k (firstn (Z.to_nat N) h)).
Proof.
  intros I. pose proof I as [M [N1 [N2 [L [NW [C _]]]]]]. unfold in_dedup. rewrite C.
  destruct (look_ok N d h k I (Z.to_nat (Z.min N (Z.of_nat (length h)))) 0) as [b [Hb Ib]]; [lia|lia|].
  rewrite Z.add_0_r in Hb. rewrite Z.mod_small in Hb by exact NW.
  exists b. split; [exact Hb|]. rewrite Ib. cbn [skipn].
  destruct (Z.le_gt_cases N (Z.of_nat (length h))) as [A|A].
  - rewrite Z.min_l by exact A. reflexivity.
  - rewrite Z.min_r by lia. rewrite Nat2Z.id. rewrite firstn_all. rewrite (firstn_all2 h) by lia. reflexivity.
Qed.
Lemma put_len l i k l' : put l i k = Some l' -> length l' = length l.
Proof.
  unfold put. destruct ((i <? 0) || (i >=? Z.of_nat (length l))) eqn:B; [discriminate|]. intros E. apply Some_inj in E. subst l'.
  rewrite app_length, firstn_length. cbn [length]. rewrite skipn_length. lia.
Qed.
Lemma put_nth l i k l' j : put l i k = Some l' -> 0 <= j ->
  nth_error l' (Z.to_nat j) = if j =? i then Some (Some k) else nth_error l (Z.to_nat j).
Proof.
  unfold put. destruct ((i <? 0) || (i >=? Z.of_nat (length l))) eqn:B; [discriminate|]. intros E J. apply Some_inj in E. subst l'.
  destruct (j =? i) eqn:E.
  - assert (j = i) by lia. subst j. rewrite nth_error_app2 by (rewrite firstn_length; lia).
    rewrite firstn_length. replace (Z.to_nat i - Nat.min (Z.to_nat i) (length l))%nat with O by lia. reflexivity.
  - destruct (Z.lt_ge_cases j i) as [A|A].
    + rewrite nth_error_app1 by (rewrite firstn_length; lia).
      rewrite <- (firstn_skipn (Z.to_nat i) l) at 2. rewrite nth_error_app1 by (rewrite firstn_length; lia). reflexivity.
    + rewrite nth_error_app2 by (rewrite firstn_length; lia). rewrite firstn_length.
      replace (Z.to_nat j - Nat.min (Z.to_nat i) (length l))%nat with (S (Z.to_nat j - S (Z.to_nat i)))%nat by lia. cbn [nth_error].
      rewrite <- (firstn_skipn (S (Z.to_nat i)) l) at 2. rewrite nth_error_app2 by (rewrite firstn_length; lia).
      rewrite firstn_length. f_equal. lia.
Qed.
Lemma add_ok N d h k : dinv N d h -> exists d', add_dedup d k = Some d' /\ dinv N d' (k :: h).
Proof.
  intros [M [N1 [N2 [L [NW [C I]]]]]]. unfold add_dedup. rewrite M.
  rewrite (u64_small (d_newest d + N)) by lia. rewrite u64_small by lia.
  set (i := (d_newest d + N - 1) mod N). assert (R : 0 <= i < N) by (apply Z.mod_pos_bound; lia).
  destruct (put (d_ents d) i k) as [l|] eqn:P.
  - eexists. split; [reflexivity|]. unfold dinv. cbn [d_max d_ents d_count d_newest].
    split; [reflexivity|]. split; [exact N1|]. split; [exact N2|]. split; [rewrite (put_len _ _ _ _ P); exact L|]. split; [exact R|].
    split.
    + cbn [length]. rewrite C. destruct (Z.min N (Z.of_nat (length h)) <? N) eqn:B.
      * rewrite u64_small by lia. lia.
      * lia.
    + intros j x E J. rewrite (put_nth _ _ _ _ _ P) by (apply Z.mod_pos_bound; lia).
      destruct j as [|j].
      * cbn in E. injection E as ->. rewrite Z.add_0_r. rewrite Z.mod_small by exact R. rewrite Z.eqb_refl. reflexivity.
      * cbn [nth_error] in E.
        assert (EQ : (i + Z.of_nat (S j)) mod N = (d_newest d + Z.of_nat j) mod N).
        { unfold i. rewrite Z.add_mod_idemp_l by lia.
          replace (d_newest d + N - 1 + Z.of_nat (S j)) with (d_newest d + Z.of_nat j + 1 * N) by lia. apply Z.mod_add. lia. }
        rewrite EQ. replace ((d_newest d + Z.of_nat j) mod N =? i) with false; [apply I; [exact E|lia]|].
        symmetry. apply Z.eqb_neq. intros Q. unfold i in Q.
        assert (H1 : d_newest d + N - 1 = N * ((d_newest d + N - 1) / N) + (d_newest d + N - 1) mod N) by (apply Z.div_mod; lia).
        assert (H2 : d_newest d + Z.of_nat j = N * ((d_newest d + Z.of_nat j) / N) + (d_newest d + Z.of_nat j) mod N) by (apply Z.div_mod; lia).
        set (a := (d_newest d + N - 1) / N) in *. set (b := (d_newest d + Z.of_nat j) / N) in *. clearbody a b.
        assert (H3 : N * (a - b) = N - 1 - Z.of_nat j) by lia.
        destruct (Z.lt_trichotomy (a - b) 0) as [S1|[S1|S1]].
        -- assert (N * (a - b) <= N * (-1)) by (apply Z.mul_le_mono_nonneg_l; lia). lia.
        -- rewrite S1 in H3. lia.
        -- assert (N * 1 <= N * (a - b)) by (apply Z.mul_le_mono_nonneg_l; lia). lia.
  - exfalso. unfold put in P. replace ((i <? 0) || (i >=? Z.of_nat (length (d_ents d)))) with false in P by lia. discriminate.
Qed.
Lemma init_ok avail N : 1 <= N -> N * 20 < 2 ^ 64 -> N * 20 <= avail -> exists d, init_dedup avail N = Some d /\ dinv N d [].
Proof.
  intros N1 N2 A. unfold init_dedup, ENTRY. replace (N <? 1) with false by lia. rewrite u64_small by lia.
  replace (N * 20 >? avail) with false by lia. eexists. split; [reflexivity|]. unfold dinv. cbn [d_max d_ents d_count d_newest].
  split; [reflexivity|]. split; [exact N1|]. split; [exact N2|]. split; [rewrite repeat_length; rewrite Z.div_mul by lia; lia|].
  split; [lia|]. split; [cbn; lia|]. intros [|i] k E; discriminate.
Qed.
Lemma adds_ok N : forall ks d h, dinv N d h -> exists d', adds d ks = Some d' /\ dinv N d' (rev ks ++ h).
Proof.
  induction ks as [|k r IH]; intros d h I; cbn [adds].
  - exists d. split; [reflexivity|exact I].
  - destruct (add_ok N d h k I) as [d1 [E1 I1]]. rewrite E1. destruct (IH d1 (k :: h) I1) as [d2 [E2 I2]].
    exists d2. split; [exact E2|]. cbn [rev]. rewrite <- app_assoc. exact I2.
Qed.
Theorem seen_ok avail N ks : 1 <= N -> N * 20 < 2 ^ 64 -> N * 20 <= avail ->
  exists d0 d, init_dedup avail N = Some d0 /\ adds d0 ks = Some d /\
    forall k, exists b, in_dedup d k = Some b /\ (b = true <-> In k (firstn (Z.to_nat N) (rev ks))).
Proof.
  intros N1 N2 A. destruct (init_ok avail N N1 N2 A) as [d0 [E0 I0]]. destruct (adds_ok N ks d0 [] I0) as [d [E I]].
  exists d0, d. split; [exact E0|]. split; [exact E|]. intros k. rewrite app_nil_r in I. exact (in_ok N d (rev ks) k I).
Qed.

(** * messages of the OLSR network *)
Lemma rds_ok mem i n : 0 <= i -> 0 <= n -> i + n <= Z.of_nat (length mem) -> rds mem i n = Some (firstn (Z.to_nat n) (skipn (Z.to_nat i) mem)).
Proof. intros A B C. unfold rds. replace ((i <? 0) || (i + n >? Z.of_nat (length mem))) with false by lia. reflexivity. Qed.
Lemma rd_ok mem i : 0 <= i < Z.of_nat (length mem) -> rd mem i = Some (nth (Z.to_nat i) mem 0).
Proof.
  intros A. unfold rd. replace ((i <? 0) || (i >=? Z.of_nat (length mem))) with false by lia. apply nth_error_nth'. lia.
Qed.
Lemma key_ok v6 m : whole v6 m -> key_at v6 m 0 = Some (ident v6 m).
Proof.
  unfold whole, key_at, ident, seqno, origin. intros W. destruct v6; cbn [hdr asize]; rewrite !rds_ok by lia; reflexivity.
Qed.
Lemma sentence_ok v6 m : whole v6 m -> exists b, sentence v6 m 0 = Some b /\ (b = true <-> version v6 m = 3).
Proof.
  unfold whole, sentence, version, FIXED. intros W.
  set (h := hdr v6). assert (H : h = if v6 then 24 else 12) by (unfold h; destruct v6; reflexivity). clearbody h.
  rewrite rd_ok by (destruct v6; lia). rewrite rds_ok by (destruct v6; lia).
  replace (nth (Z.to_nat (0 + h)) m 0) with (if v6 then nth 24 m 0 else nth 12 m 0) by (rewrite H; destruct v6; reflexivity).
  set (v := if v6 then nth 24 m 0 else nth 12 m 0); clearbody v; destruct (v =? 3) eqn:B; cbn [negb].
  - exists true. split; [reflexivity|]. split; intros; [lia|reflexivity].
  - exists false. split; [reflexivity|]. split; intros; [discriminate|lia].
Qed.
Definition own_of (c : conf) : option (list Z) := if c_loop c then None else Some (c_main c).
Lemma rx_ok c N : c_dedup c = true -> forall ms d h, dinv N d h -> Forall (whole (c_v6 c)) ms ->
  exists fs, received_all c d ms = Some fs /\ relays (c_v6 c) (own_of c) (Z.to_nat N) h ms fs.
Proof.
  intros CD. induction ms as [|m r IH]; intros d h I F; cbn [received_all].
  - exists []. split; [reflexivity|constructor].
  - inversion F as [|x y W FR EQ]; subst x y. unfold received.
    assert (O : rds m (0 + 4) (asize (c_v6 c)) = Some (origin (c_v6 c) m)).
    { unfold whole in W. unfold origin. destruct (c_v6 c); cbn [asize]; rewrite rds_ok by lia; reflexivity. }
    rewrite O. rewrite CD. destruct (negb (c_loop c) && beqb (origin (c_v6 c) m) (c_main c)) eqn:B.
    + destruct (IH d h I FR) as [fs [E R]]. rewrite E. exists (false :: fs). split; [reflexivity|].
      apply R_own; [|exact R]. apply andb_true_iff in B. destruct B as [B1 B2]. apply beqb_ok in B2. unfold own_of.
      destruct (c_loop c); [discriminate|]. rewrite B2. reflexivity.
    + assert (NO : own_of c <> Some (origin (c_v6 c) m)).
      { unfold own_of. intros Q. destruct (c_loop c); [discriminate|]. injection Q as Q. cbn in B.
        symmetry in Q. apply beqb_ok in Q. congruence. }
      rewrite key_ok by exact W. destruct (in_ok N d h (ident (c_v6 c) m) I) as [b [Eb Ib]]. rewrite Eb. destruct b.
      * destruct (IH d h I FR) as [fs [E R]]. rewrite E. exists (false :: fs). split; [reflexivity|].
        apply R_again; [exact NO|apply Ib; reflexivity|exact R].
      * destruct (add_ok N d h (ident (c_v6 c) m) I) as [d' [Ed I']]. rewrite Ed.
        destruct (sentence_ok (c_v6 c) m W) as [b [Es Is]]. rewrite Es.
        destruct (IH d' (ident (c_v6 c) m :: h) I' FR) as [fs [E R]]. rewrite E. exists (b :: fs). split; [reflexivity|].
        apply R_new; [exact NO| |exact Is|exact R]. intros Q. apply Ib in Q. discriminate.
Qed.
Theorem relay_ok c avail N d ms : c_dedup c = true -> 1 <= N -> N * 20 < 2 ^ 64 -> N * 20 <= avail ->
  init_dedup avail N = Some d -> Forall (whole (c_v6 c)) ms ->
  exists fs, received_all c d ms = Some fs /\
    relays (c_v6 c) (if c_loop c then None else Some (c_main c)) (Z.to_nat N) [] ms fs.
Proof.
  intros CD N1 N2 A E F. destruct (init_ok avail N N1 N2 A) as [d0 [E0 I0]]. rewrite E0 in E. apply Some_inj in E. subst d0.
  exact (rx_ok c N CD ms d [] I0 F).
Qed.

(** a message is not relayed again before [depth] others came *)
Lemma relays_seen v6 own depth k : forall seen ms fs, relays v6 own depth seen ms fs ->
  forall n j m, (j < n)%nat -> (n <= depth)%nat -> nth_error seen (depth - n) = Some k -> nth_error ms j = Some m -> ident v6 m = k ->
  nth_error fs j = Some false.
Proof.
  intros seen ms fs R. induction R as [seen|seen m0 ms fs O R IH|seen m0 ms fs O G R IH|seen m0 ms fs b O G V R IH]; intros n j m J D S M K.
  - destruct j; discriminate.
  - destruct j as [|j]; [reflexivity|]. cbn [nth_error] in *. apply (IH n j m); try assumption; lia.
  - destruct j as [|j]; [reflexivity|]. cbn [nth_error] in *. apply (IH n j m); try assumption; lia.
  - destruct j as [|j].
    + exfalso. cbn in M. injection M as ->. apply G. rewrite K.
      assert (P : nth_error (firstn depth seen) (depth - n) = Some k).
      { rewrite <- S. rewrite <- (firstn_skipn depth seen) at 2. rewrite nth_error_app1; [reflexivity|].
        rewrite firstn_length. assert (depth - n < length seen)%nat by (apply nth_error_Some; congruence). lia. }
      exact (nth_error_In _ _ P).
    + cbn [nth_error] in *. apply (IH (n - 1)%nat j m); try assumption; try lia.
      replace (depth - (n - 1))%nat with (Datatypes.S (depth - n)) by lia. exact S.
Qed.
Theorem relays_once v6 own depth seen ms fs : relays v6 own depth seen ms fs ->
  forall i j m m', (i < j)%nat -> nth_error ms i = Some m -> nth_error ms j = Some m' -> ident v6 m = ident v6 m' ->
  nth_error fs i = Some true -> nth_error fs j = Some true -> (depth < j - i)%nat.
Proof.
  intros R. induction R as [seen|seen m0 ms fs O R IH|seen m0 ms fs O G R IH|seen m0 ms fs b O G V R IH]; intros i j m m' L MI MJ K FI FJ.
  - destruct i; discriminate.
  - destruct i as [|i]; [discriminate|]. destruct j as [|j]; [lia|]. cbn [nth_error] in *.
    specialize (IH i j m m' ltac:(lia) MI MJ K FI FJ). lia.
  - destruct i as [|i]; [discriminate|]. destruct j as [|j]; [lia|]. cbn [nth_error] in *.
    specialize (IH i j m m' ltac:(lia) MI MJ K FI FJ). lia.
  - destruct j as [|j]; [lia|]. destruct i as [|i].
    + cbn in MI. injection MI as ->. cbn [nth_error] in MJ, FJ.
      destruct (le_lt_dec (S j) depth) as [C|C]; [|lia]. exfalso.
      assert (F : nth_error fs j = Some false).
      { apply (relays_seen _ _ _ (ident v6 m) _ _ _ R depth j m'); [lia|lia| |exact MJ|congruence].
        rewrite Nat.sub_diag. reflexivity. }
      congruence.
    + cbn [nth_error] in *. specialize (IH i j m m' ltac:(lia) MI MJ K FI FJ). lia.
Qed.

(** * datagrams of the downlink *)
Lemma rd_app a x b : rd (a ++ x :: b) (Z.of_nat (length a)) = Some x.
Proof.
  rewrite rd_ok by (rewrite app_length; cbn [length]; lia). rewrite Nat2Z.id. rewrite app_nth2 by lia. rewrite Nat.sub_diag. reflexivity.
Qed.
Lemma rd_at a x b i : i = Z.of_nat (length a) -> rd (a ++ x :: b) i = Some x.
Proof. intros ->. apply rd_app. Qed.
Lemma pack_len p : length (pack p) = (4 + length (p_body p))%nat.
Proof. unfold pack. cbn [length]. lia. Qed.
Lemma odd_mod f : (f mod 2 =? 1) = Z.odd f.
Proof. rewrite Zmod_odd. destruct (Z.odd f); reflexivity. Qed.
Lemma down_ok c : forall ps pre rest, Z.of_nat (length (pre ++ datagram ps)) < 65532 ->
  exists ev, downlink (S (length ps)) c (pre ++ datagram ps ++ rest) (Z.of_nat (length (pre ++ datagram ps))) (Z.of_nat (length pre)) = Some (ev, Finished) /\
    evs (c_sgw c) (pre ++ datagram ps ++ rest) (filter (meant (c_v6 c)) ps) ev.
Proof.
  induction ps as [|p ps IH]; intros pre rest B.
  - exists []. cbn [datagram map concat length filter]. rewrite !app_nil_r. split; [|constructor].
    cbn [downlink]. rewrite Z.ltb_irrefl. reflexivity.
  - change (datagram (p :: ps)) with (pack p ++ datagram ps) in *.
    assert (LP : Z.of_nat (length (pre ++ pack p ++ datagram ps)) = Z.of_nat (length pre) + 4 + Z.of_nat (length (p_body p)) + Z.of_nat (length (datagram ps))).
    { rewrite !app_length, pack_len. lia. }
    rewrite LP in B. set (n := Z.of_nat (length (p_body p))) in *.
    specialize (IH (pre ++ pack p) rest). rewrite <- !app_assoc in IH.
    destruct IH as [ev [E V]]; [lia|].
    set (mem := pre ++ (pack p ++ datagram ps) ++ rest). assert (MEM : mem = pre ++ pack p ++ datagram ps ++ rest) by (unfold mem; rewrite <- app_assoc; reflexivity).
    rewrite <- MEM in E, V. cbn [length]. remember (S (length ps)) as fuel. cbn [downlink]. rewrite LP.
    replace (Z.of_nat (length pre) <? Z.of_nat (length pre) + 4 + n + Z.of_nat (length (datagram ps))) with true by lia.
    assert (R0 : rd mem (Z.of_nat (length pre)) = Some (p_type p)) by (rewrite MEM; unfold pack; cbn [app]; apply rd_app).
    assert (R1 : rd mem (Z.of_nat (length pre) + 1) = Some (n / 256)).
    { rewrite MEM. unfold pack. cbn [app]. fold n. change (pre ++ p_type p :: ?x) with (pre ++ [p_type p] ++ x). rewrite app_assoc.
      apply rd_at. rewrite app_length. cbn [length]. lia. }
    assert (R2 : rd mem (Z.of_nat (length pre) + 2) = Some (n mod 256)).
    { rewrite MEM. unfold pack. cbn [app]. fold n. change (pre ++ p_type p :: n / 256 :: ?x) with (pre ++ [p_type p; n / 256] ++ x). rewrite app_assoc.
      apply rd_at. rewrite app_length. cbn [length]. lia. }
    assert (R3 : rd mem (Z.of_nat (length pre) + 3) = Some (p_flags p)).
    { rewrite MEM. unfold pack. cbn [app]. fold n. change (pre ++ p_type p :: n / 256 :: n mod 256 :: ?x) with (pre ++ [p_type p; n / 256; n mod 256] ++ x). rewrite app_assoc.
      apply rd_at. rewrite app_length. cbn [length]. lia. }
    rewrite R0, R1, R2, R3. replace (n / 256 * 256 + n mod 256) with n by lia.
    replace (w16 (n + 4)) with (n + 4) by (unfold w16; rewrite Z.mod_small; lia).
    replace (Z.of_nat (length pre) + (n + 4) >? Z.of_nat (length pre) + 4 + n + Z.of_nat (length (datagram ps))) with false by lia.
    replace (Z.of_nat (length pre) + (n + 4)) with (Z.of_nat (length (pre ++ pack p))) by (rewrite app_length, pack_len; lia).
    rewrite LP in E. cbn [filter]. unfold meant at 1. rewrite odd_mod.
    destruct (p_type p =? 0); cbn [negb andb].
    + replace (Bool.eqb (Z.odd (p_flags p)) (c_v6 c)) with (negb (xorb (Z.odd (p_flags p)) (c_v6 c))) by (destruct (Z.odd (p_flags p)), (c_v6 c); reflexivity).
      destruct (xorb (Z.odd (p_flags p)) (c_v6 c)); cbn [negb].
      * exists ev. split; [exact E|exact V].
      * rewrite E. eexists. split; [reflexivity|]. apply V_cons; [|exact V]. split; [lia|].
        exists (pre ++ [p_type p; n / 256; n mod 256; p_flags p]), (datagram ps ++ rest). split.
        -- rewrite MEM. unfold pack. fold n. rewrite <- !app_assoc. reflexivity.
        -- rewrite app_length. cbn [length]. lia.
    + exists ev. split; [exact E|exact V].
Qed.
Theorem unpack_ok c ps rest : Z.of_nat (length (datagram ps)) <= 2047 ->
  exists ev, downlink (S (length ps)) c (datagram ps ++ rest) (Z.of_nat (length (datagram ps))) 0 = Some (ev, Finished) /\
    evs (c_sgw c) (datagram ps ++ rest) (filter (meant (c_v6 c)) ps) ev.
Proof. intros H. exact (down_ok c ps [] rest ltac:(cbn [app]; lia)). Qed.
Lemma endless c rest : forall n, downlink n c ([1; 255; 252; 0] ++ rest) 4 0 = None.
Proof.
  induction n as [|n IH]; [reflexivity|]. cbn [downlink]. change (0 <? 4) with true.
  assert (R : forall i x, nth_error [1; 255; 252; 0] i = Some x -> rd ([1; 255; 252; 0] ++ rest) (Z.of_nat i) = Some x).
  { intros i x E. assert (i < 4)%nat by (apply (nth_error_Some [1; 255; 252; 0]); congruence).
    unfold rd. replace ((Z.of_nat i <? 0) || (Z.of_nat i >=? Z.of_nat (length ([1; 255; 252; 0] ++ rest)))) with false by (rewrite app_length; cbn [length]; lia).
    rewrite Nat2Z.id. rewrite nth_error_app1 by (cbn [length]; lia). exact E. }
  pose proof (R 0%nat 1 eq_refl) as R0. pose proof (R 1%nat 255 eq_refl) as R1. pose proof (R 2%nat 252 eq_refl) as R2. pose proof (R 3%nat 0 eq_refl) as R3.
  change (Z.of_nat 0) with 0 in R0. change (Z.of_nat 1) with (0 + 1) in R1. change (Z.of_nat 2) with (0 + 2) in R2. change (Z.of_nat 3) with (0 + 3) in R3.
  rewrite R0, R1, R2, R3. change (w16 (255 * 256 + 252 + 4)) with 0. change (0 + 0 >? 4) with false. change (negb (1 =? 0)) with true. exact IH.
Qed.

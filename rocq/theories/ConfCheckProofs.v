(** Proofs about the checks on the configuration. *)
From Coq Require Import QArith Sorting.Sorted.
From Verif Require Import Base ConfIf ConfCheck ConfCheckSpec.

Lemma rej_if_acc : forall {A} b (k : res A) x, rej_if b k = Acc x <-> b = false /\ k = Acc x.
Proof. intros A b k x. unfold rej_if. destruct b; split; intuition congruence. Qed.

Lemma qle_false : forall p q, negb (Qle_bool p q) = false -> (p <= q)%Q.
Proof. intros p q H. apply negb_false_iff in H. now apply Qle_bool_iff. Qed.

Lemma qle_true : forall p q, negb (Qle_bool p q) = true -> (q < p)%Q.
Proof.
  intros p q H. apply negb_true_iff in H. apply Qnot_le_lt. intro L.
  apply Qle_bool_iff in L. congruence.
Qed.

Lemma flt_false : forall a b, a <> NaN -> b <> NaN -> (flt a b = false <-> ext_le b a).
Proof.
  intros a b Ha Hb. split.
  - destruct a as [p|[]|], b as [q|[]|]; cbn [flt]; intros H; try congruence; try discriminate;
      try (now constructor).
    constructor. now apply qle_false.
  - intros H. inversion H as [p q L|x X|x X]; subst; cbn [flt].
    + apply negb_false_iff. now apply Qle_bool_iff.
    + destruct a as [r|[]|]; try reflexivity; congruence.
    + destruct b as [r|[]|]; try reflexivity; congruence.
Qed.

Lemma between_iff : forall lo hi x, x <> NaN ->
  (flt x (Fin lo) = false /\ flt (Fin hi) x = false <-> between lo hi x).
Proof.
  intros lo hi x Hx. rewrite !flt_false by (try discriminate; assumption). split.
  - intros (H1 & H2). inversion H1; inversion H2; subst; try congruence; try discriminate.
    exists q. repeat split; congruence.
  - intros (q & -> & H1 & H2). split; now constructor.
Qed.

Lemma fle_iff : forall a b, a <> NaN -> b <> NaN -> (fle a b = true <-> ext_le a b).
Proof.
  intros a b Ha Hb. unfold fle.
  assert (E : match a, b with NaN, _ => false | _, NaN => false | _, _ => negb (flt b a) end = negb (flt b a)).
  { destruct a, b; try reflexivity; congruence. }
  destruct a as [p|s|]; [| |congruence]; (destruct b as [q|t|]; [| |congruence]);
    rewrite negb_true_iff; now rewrite flt_false.
Qed.

Ltac split_or H :=
  repeat match type of H with
  | (_ || _) = false => let H' := fresh H in apply orb_false_iff in H; destruct H as (H & H')
  end.

Lemma land3 : forall x, Z.land x 3 = x mod 4.
Proof. intros. change 3 with (Z.ones 2). now rewrite Z.land_ones by lia. Qed.

Definition nan_free (g : gen) : Prop :=
  g_hscale g <> NaN /\ g_hhigh g <> NaN /\ g_hlow g <> NaN /\ g_poll g <> NaN /\ g_nic g <> NaN /\
  g_aging g <> NaN /\ g_nat g <> NaN /\ g_mintc g <> NaN.

Lemma gen_ok : forall g, nan_free g ->
  (bad_gen g = false /\ flt (g_mintc g) (fz 0) = false <-> good_gen g).
Proof.
  intros g (N1 & N2 & N3 & N4 & N5 & N6 & N7 & N8). split.
  - intros (H & Hm). unfold bad_gen in H.
    rewrite !orb_false_iff in H.
    decompose [and] H. clear H.
    repeat match goal with
    | h : flt ?x ?lo = false, h' : flt ?hi ?x = false |- _ =>
        let B := fresh "B" in
        pose proof (proj1 (between_iff _ _ x ltac:(assumption)) (conj h h')) as B; clear h h'
    end.
    constructor.
    + lia.
    + destruct (Z.eqb_spec (g_ipv g) 2); [now left|]. destruct (Z.eqb_spec (g_ipv g) 10); [now right|].
      cbn in *. congruence.
    + match goal with h : negb (Z.land _ _ =? 0) = false |- _ => rewrite land3 in h end. lia.
    + intro E. match goal with h : negb (g_willauto g) && _ = false |- _ => rewrite E in h; cbn [negb andb] in h end. lia.
    + intro E. match goal with h : g_hyst g && (_ || _) = false |- _ => rewrite E in h; cbn [andb] in h; rewrite !orb_false_iff in h; decompose [and] h; clear h end.
      repeat match goal with
      | h : flt ?x ?lo = false, h' : flt ?hi ?x = false |- _ =>
        let B := fresh "B" in
        pose proof (proj1 (between_iff _ _ x ltac:(assumption)) (conj h h')) as B; clear h h'
      end.
      split; [assumption|]. split; [assumption|]. split; [assumption|].
      intro L. apply fle_iff in L; [congruence|assumption|assumption].
    + assumption.
    + assumption.
    + lia.
    + lia.
    + destruct (Z.eqb_spec (g_lq g) 0); [now left|]. destruct (Z.eqb_spec (g_lq g) 2); [now right|].
      cbn in *. congruence.
    + intros (E1 & E2). apply Z.eqb_neq in E2.
      match goal with h : g_hyst g && negb _ = false |- _ => rewrite E1, E2 in h; discriminate end.
    + intro E2. apply Z.eqb_neq in E2.
      match goal with h : negb (g_lq g =? 0) && (flt (g_aging g) _ || _) = false |- _ =>
        rewrite E2 in h; cbn [negb andb] in h; apply orb_false_iff in h; destruct h end.
      match goal with h : negb (g_lq g =? 0) && (flt (g_nat g) _ || _) = false |- _ =>
        rewrite E2 in h; cbn [negb andb] in h; apply orb_false_iff in h; destruct h end.
      split; apply between_iff; try assumption; split; assumption.
    + apply flt_false in Hm; [exact Hm|assumption|discriminate].
  - intros G. destruct G as [G1 G2 [G3 G3'] G4 G5 G6 G7 G8 G9 G10 G11 G12 G13].
    apply between_iff in G6; [|assumption]. apply between_iff in G7; [|assumption].
    destruct G6 as (P1 & P2), G7 as (Q1 & Q2).
    split; [|apply flt_false; [assumption|discriminate|exact G13]].
    unfold bad_gen. rewrite !orb_false_iff.
    change f001 with (Fin q001). change (fz 1) with (Fin 1) at 2. change (fz 1) with (Fin 1) in *.
    change (fz 100) with (Fin 100).
    repeat split; try assumption; try lia.
    + rewrite land3. lia.
    + destruct (g_willauto g); cbn [negb andb]; [reflexivity|]. specialize (G4 eq_refl). lia.
    + destruct (g_hyst g); cbn [andb]; [|reflexivity]. destruct (G5 eq_refl) as (A & B & C & D).
      apply between_iff in A; [|assumption]. apply between_iff in B; [|assumption].
      apply between_iff in C; [|assumption].
      change (fz 0) with (Fin 0). rewrite !orb_false_iff.
      repeat split; try tauto.
      apply not_true_iff_false. intro L. apply fle_iff in L; [contradiction|assumption|assumption].
    + destruct (g_hyst g); cbn [andb]; [|reflexivity]. destruct (Z.eqb_spec (g_lq g) 0); [reflexivity|].
      exfalso. apply G11. split; [reflexivity|assumption].
    + destruct (Z.eqb_spec (g_lq g) 0) as [E|E]; cbn [negb andb]; [reflexivity|].
      destruct (G12 E) as (A & B). apply between_iff in A; [|assumption].
      apply orb_false_iff. exact A.
    + destruct (Z.eqb_spec (g_lq g) 0) as [E|E]; cbn [negb andb]; [reflexivity|].
      destruct (G12 E) as (A & B). apply between_iff in B; [|assumption].
      apply orb_false_iff. exact B.
Qed.

(** * Interfaces *)
Lemma params_ok : forall poll p, poll <> NaN -> em p <> NaN -> vt p <> NaN ->
  (bad_params poll p = false <-> good_params poll p).
Proof.
  intros poll p H1 H2 H3. unfold bad_params, good_params. rewrite orb_false_iff.
  now rewrite !flt_false.
Qed.

Lemma pos_of : forall poll p, between q001 1 poll -> good_params poll p ->
  em p = Inf false \/ exists e, em p = Fin e /\ (0 < e)%Q.
Proof.
  intros poll p (q & -> & Q1 & Q2) (H & _). inversion H; subst; [|left; reflexivity].
  right. eexists. split; [reflexivity|]. eapply Qlt_le_trans; [|eassumption].
  eapply Qlt_le_trans; [|exact Q1]. reflexivity.
Qed.

Lemma quot_ok : forall poll p, between q001 1 poll -> good_params poll p ->
  (quot_lt_128 (vt p) (em p) = false <-> times_128 p).
Proof.
  intros poll p B G. destruct (pos_of poll p B G) as [E|(e & E & P)].
  - destruct G as (_ & G). rewrite E in G. inversion G as [|? X|]; subst.
    unfold times_128. rewrite E. cbn. split; [left; congruence|reflexivity].
  - destruct G as (_ & G). rewrite E in G. unfold times_128. rewrite E.
    assert (NP : Qle_bool e 0 = false).
    { apply not_true_iff_false. intro L. apply Qle_bool_iff in L. exact (Qlt_not_le _ _ P L). }
    inversion G as [a b L E1 E2|? X|a X]; subst; cbn [quot_lt_128].
    + rewrite NP. cbn [negb]. split.
      * intro H. right. exists e, b. repeat split. now apply qle_false.
      * intros [H|(e' & v' & H1 & H2 & H3)]; [discriminate|].
        inversion H1; inversion H2; subst. apply negb_false_iff. now apply Qle_bool_iff.
    + destruct (Qle_bool 0 e) eqn:Q.
      * split; [now left|reflexivity].
      * exfalso. apply not_true_iff_false in Q. apply Q. apply Qle_bool_iff. now apply Qlt_le_weak.
Qed.

Lemma mults_ok : forall l : list (addr * Z),
  existsb (fun m => snd m >? 65536) l = false <-> Forall (fun m => snd m <= 65536) l.
Proof.
  induction l as [|m r IH]; cbn [existsb]; [split; [constructor|reflexivity]|].
  rewrite orb_false_iff, IH. split.
  - intros (H1 & H2). constructor; [lia|assumption].
  - intros H. inversion H; subst. split; [lia|assumption].
Qed.

Lemma if_ok : forall poll mintc v, between q001 1 poll -> mintc <> NaN -> clean_if v ->
  (bad_if poll mintc v = false <-> good_if poll mintc v).
Proof.
  intros poll mintc v B M C. unfold clean_if in C.
  inversion C as [|? ? (C1 & C1') C2]; subst. inversion C2 as [|? ? (C3 & C3') C4]; subst.
  inversion C4 as [|? ? (C5 & C5') C6]; subst. inversion C6 as [|? ? (C7 & C7') _]; subst.
  assert (P : poll <> NaN) by (destruct B as (q & -> & _); discriminate).
  unfold bad_if. rewrite !orb_false_iff, !params_ok, mults_ok by assumption.
  assert (Tm : flt (fz 0) mintc = true <-> ~ ext_le mintc (Fin 0)).
  { rewrite <- (flt_false (Fin 0) mintc) by (try discriminate; assumption).
    change (fz 0) with (Fin 0). destruct (flt (Fin 0) mintc); split; intros; congruence. }
  split.
  - intros (((((H1 & H2) & H3) & H4) & H5) & H6). constructor; try assumption.
    intro N. apply Tm in N. rewrite N in H3. cbn [andb] in H3.
    now apply (quot_ok poll).
  - intros [H1 H2 H3 H4 H5 H6]. repeat split; try assumption; try apply H1; try apply H2; try apply H3; try apply H4.
    destruct (flt (fz 0) mintc) eqn:E; cbn [andb]; [|reflexivity].
    apply (quot_ok poll); try assumption. apply H5. now apply Tm.
Qed.

Lemma check_ifs_acc : forall g hold d l vs, check_ifs g hold d l = Acc vs ->
  Forall2 (fun i v => check_if g hold d i = Acc v) l vs.
Proof.
  induction l as [|i r IH]; intros vs H; cbn [check_ifs] in H.
  - inversion H; subst. constructor.
  - destruct (check_if g hold d i) as [| |v] eqn:E; try discriminate.
    destruct (check_ifs g hold d r) as [| |ws] eqn:E2; try discriminate.
    inversion H; subst. constructor; [assumption|]. now apply IH.
Qed.

(** * More than one gateway *)
Lemma id_ok : forall o, bad_id o = false -> (forall a r, o = Some (a :: r) -> ~ space a) ->
  exists s, o = Some s /\ s <> [] /\ Forall (fun c => ~ space c) s.
Proof.
  intros [s|] H N; cbn [bad_id] in H; [|discriminate].
  apply orb_false_iff in H. destruct H as (H1 & H2). exists s.
  destruct s as [|a r]; [discriminate|]. split; [reflexivity|]. split; [discriminate|].
  constructor; [now apply (N a r)|]. unfold id_space in H2. cbn [tl] in H2.
  rewrite existsb_app in H2. apply orb_false_iff in H2. destruct H2 as (H2 & _).
  apply Forall_forall. intros c I S.
  assert (X : existsb isspace r = true).
  { apply existsb_exists. exists c. split; [assumption|]. unfold isspace, space in *. lia. }
  congruence.
Qed.

Lemma script_ok : forall o, bad_script o = false ->
  (forall st, o = Some (Some st) -> Z.testbit (s_mode st) 8 = true -> Z.testbit (s_mode st) 6 = true) ->
  exists st, o = Some (Some st) /\ s_reg st = true /\ s_uid st = 0 /\ Z.testbit (s_mode st) 6 = true.
Proof.
  intros [[st|]|] H N; cbn [bad_script] in H; try discriminate.
  rewrite !orb_false_iff in H. destruct H as ((H1 & H2) & H3).
  exists st. split; [reflexivity|]. split; [now apply negb_false_iff in H1|].
  split; [lia|]. specialize (N st eq_refl).
  destruct (Z.testbit (s_mode st) 6) eqn:B6; [reflexivity|].
  destruct (Z.testbit (s_mode st) 8) eqn:B8; [now rewrite N|].
  exfalso. apply Z.eqb_neq in H3. apply H3. apply Z.bits_inj'. intros n Hn.
  rewrite Z.land_spec, Z.bits_0. change 320 with (2 ^ 8 + 2 ^ 6).
  destruct (Z.eq_dec n 8) as [->|N8]; [now rewrite B8|].
  destruct (Z.eq_dec n 6) as [->|N6]; [now rewrite B6|].
  replace (Z.testbit (2 ^ 8 + 2 ^ 6) n) with false; [apply andb_false_r|].
  change (2 ^ 8 + 2 ^ 6) with (Z.lor (2 ^ 8) (2 ^ 6)). rewrite Z.lor_spec.
  rewrite !Z.pow2_bits_false by lia. reflexivity.
Qed.

Lemma name_eqb_spec : forall a b, name_eqb a b = true <-> a = b.
Proof. intros. unfold name_eqb. destruct (list_eq_dec Z.eq_dec a b); intuition congruence. Qed.

Lemma count_ok : forall ifs l n k, count_egress ifs l n = Acc k -> 0 <= n < 256 ->
  Forall (fun o => bad_egress ifs o = false) l /\ k = (n + Z.of_nat (length l)) mod 256.
Proof.
  induction l as [|o r IH]; intros n k H R; cbn [count_egress] in H.
  - inversion H; subst. split; [constructor|]. cbn [length]. rewrite Z.add_0_r. symmetry. apply Z.mod_small. lia.
  - apply rej_if_acc in H. destruct H as (H1 & H2). apply IH in H2; [|unfold u8; lia].
    destruct H2 as (H2 & H3). split; [now constructor|]. rewrite H3. unfold u8. cbn [length].
    rewrite Zplus_mod_idemp_l. f_equal. lia.
Qed.

Lemma egress_ok : forall ifs o, bad_egress ifs o = false -> (forall n, o = Some n -> length n <> 16%nat) ->
  exists n, o = Some n /\ (1 <= length n <= 15)%nat /\ ~ In n (map i_name ifs).
Proof.
  intros ifs [n|] H N; cbn [bad_egress] in H; [|discriminate].
  rewrite !orb_false_iff in H. destruct H as ((H1 & H2) & H3). exists n.
  split; [reflexivity|]. specialize (N n eq_refl). split; [lia|].
  intro I. apply in_map_iff in I. destruct I as (i & Ei & I).
  assert (X : existsb (fun i => name_eqb (i_name i) n) ifs = true).
  { apply existsb_exists. exists i. split; [assumption|]. now apply name_eqb_spec. }
  congruence.
Qed.

(** the tables and rules that were checked *)
Lemma tables_acc : forall nifs n use offt offr r,
  check_tables nifs n use offt offr = Acc r ->
  0 <= n <= 32 -> 1 <= use <= 64 -> 0 <= nifs < 1073741824 ->
  0 <= offt < 4294967296 -> 0 <= offr < 4294967296 ->
  0 < offt /\ offt + (1 + n + use) <= 2147483649 /\
  (offt + (1 + n + use) < 253 \/ 255 < offt) /\
  0 < r /\ r + (1 + n + use) + n + nifs <= 4294967295 /\
  (r + (1 + n + use) + n + nifs < 32766 \/ 32767 < r).
Proof.
  intros nifs n use offt offr r H Hn Hu Hi Ht Hr. unfold check_tables in H.
  rewrite !rej_if_acc in H. destruct H as (H1 & H2 & H3 & H4 & H5 & H6 & H7 & H8).
  unfold overlap, in_rng, u32 in *.
  rewrite (Z.mod_small (1 + n + use)) in * by lia.
  rewrite (Z.mod_small (n + nifs)) in * by lia.
  rewrite (Z.mod_small (n + nifs + (1 + n + use))) in * by lia.
  rewrite (Z.mod_small (2147483648 - (1 + n + use) + 1)) in * by lia.
  rewrite (Z.mod_small (4294967295 - (n + nifs + (1 + n + use)))) in * by lia.
  assert (T : offt + (1 + n + use) < 4294967296) by lia.
  rewrite (Z.mod_small (offt + (1 + n + use))) in * by lia.
  set (rl := if offr =? 0 then (offt - (n + nifs)) mod 4294967296 else offr) in *.
  assert (Rr : 0 <= rl < 4294967296).
  { unfold rl. destruct (offr =? 0); [apply Z.mod_pos_bound; lia|lia]. }
  inversion H8; subst r. clearbody rl.
  rewrite (Z.mod_small (rl + _)) in * by lia.
  lia.
Qed.

Lemma multi_acc : forall ipv ifs m k, check_multi ipv ifs m = Acc k ->
  exists n offr, k = with_gw m n offr /\ ipv = 2 /\ m_takedown m <= 100 /\
    bad_id (m_id m) = false /\ bad_script (m_script m) = false /\ m_egress m <> [] /\
    count_egress ifs (m_egress m) (m_count m) = Acc n /\ n <= 32 /\ 1000 <= m_fper m /\
    check_tables (u32 (Z.of_nat (length ifs))) n (m_use m) (m_offt m) (m_offr m) = Acc offr.
Proof.
  intros ipv ifs m k H. unfold check_multi in H. rewrite !rej_if_acc in H.
  destruct H as (H1 & H2 & H3 & H4 & H5 & H6).
  destruct (count_egress ifs (m_egress m) (m_count m)) as [| |n] eqn:E; try discriminate.
  rewrite !rej_if_acc in H6. destruct H6 as (H7 & H8 & H9).
  destruct (check_tables _ n _ _ _) as [| |offr] eqn:T; try discriminate.
  inversion H9; subst. exists n, offr.
  split; [reflexivity|]. split; [lia|]. split; [lia|]. split; [assumption|]. split; [assumption|].
  split; [intro Q; rewrite Q in H5; discriminate|]. split; [reflexivity|]. split; [lia|]. split; [lia|].
  exact T.
Qed.

Lemma multi_ok : forall c k, check_multi (g_ipv (c_gen c)) (c_ifs c) (c_gw c) = Acc k -> no_gap c ->
  good_multi (g_ipv (c_gen c)) (map i_name (c_ifs c)) (c_gw c).
Proof.
  intros c k H G. destruct (multi_acc _ _ _ _ H) as (n & offr & _ & H1 & H2 & H3 & H4 & H5 & H6 & H7 & H8 & _).
  rewrite (ng_zero _ G) in H6. apply count_ok in H6; [|lia]. destruct H6 as (H6 & Hn).
  pose proof (ng_count _ G) as NC.
  constructor.
  - exact H1.
  - exact H2.
  - apply id_ok; [assumption|apply (ng_id _ G)].
  - apply script_ok; [assumption|apply (ng_script _ G)].
  - assert (L : (length (m_egress (c_gw c)) <> 0)%nat).
    { intro Q. apply length_zero_iff_nil in Q. contradiction. }
    rewrite Z.mod_small in Hn by lia. lia.
  - rewrite Forall_forall in H6 |- *. intros o I. apply egress_ok; [now apply H6|].
    intros m E. apply (ng_names _ G). now rewrite <- E.
  - exact H8.
Qed.

Lemma sgw_ok : forall m, bad_sgw m = false <-> good_sgw m.
Proof.
  intros m. unfold bad_sgw, good_sgw. rewrite !orb_false_iff. split.
  - intros H. decompose [and] H. clear H.
    match goal with h : _ && _ = false |- _ => apply andb_false_iff in h end.
    repeat split; lia.
  - intros H. decompose [and] H. clear H. repeat split; lia.
Qed.

(** * The whole check *)
Lemma sanity_acc : forall hold c k, sanity hold c = Acc k ->
  bad_gen (c_gen c) = false /\ rtpolicy (c_sgw c) (c_rt c) = Acc (k_rt k) /\ c_ifs c <> [] /\
  flt (g_mintc (c_gen c)) (fz 0) = false /\ 1 <= m_use (c_gw c) <= 64 /\
  (if m_use (c_gw c) >? 1 then check_multi (g_ipv (c_gen c)) (c_ifs c) (c_gw c)
   else Acc (c_gw c)) = Acc (k_gw k) /\
  bad_sgw (k_gw k) = false /\
  check_ifs (c_gen c) hold (the_defaults (g_lq (c_gen c)) hold (c_defs c)) (c_ifs c) = Acc (k_ifs k).
Proof.
  intros hold c k H. unfold sanity in H. apply rej_if_acc in H. destruct H as (H1 & H).
  destruct (rtpolicy (c_sgw c) (c_rt c)) as [| |rt] eqn:E1; try discriminate.
  rewrite !rej_if_acc in H. destruct H as (H2 & H3 & H4 & H).
  destruct (if m_use (c_gw c) >? 1 then _ else _) as [| |m] eqn:E2; try discriminate.
  apply rej_if_acc in H. destruct H as (H5 & H).
  destruct (check_ifs _ _ _ _) as [| |vs] eqn:E3; try discriminate.
  inversion H; subst. cbn [k_rt k_gw k_ifs].
  repeat split; try assumption; try reflexivity; try lia.
  intro Q. rewrite Q in H2. discriminate.
Qed.

Lemma good_sgw_with : forall m n o, good_sgw (with_gw m n o) <-> good_sgw m.
Proof. intros. unfold good_sgw, with_gw. cbn. tauto. Qed.

Lemma sanity_sound : forall hold c k, sanity hold c = Acc k -> no_gap c ->
  Forall clean_if (k_ifs k) ->
  good_gen (c_gen c) /\ good_sgw (c_gw c) /\ c_ifs c <> [] /\ 1 <= m_use (c_gw c) <= 64 /\
  (m_use (c_gw c) > 1 -> good_multi (g_ipv (c_gen c)) (map i_name (c_ifs c)) (c_gw c)) /\
  Forall (fun i => i_name i <> []) (c_ifs c) /\
  length (k_ifs k) = length (c_ifs c) /\
  Forall (good_if (g_poll (c_gen c)) (g_mintc (c_gen c))) (k_ifs k).
Proof.
  intros hold c k H G C. destruct (sanity_acc _ _ _ H) as (H1 & H2 & H3 & H4 & H5 & H6 & H7 & H8).
  assert (GG : good_gen (c_gen c)) by (apply gen_ok; [apply (ng_gen _ G)|now split]).
  split; [exact GG|]. split.
  { apply sgw_ok in H7. destruct (m_use (c_gw c) >? 1).
    - destruct (multi_acc _ _ _ _ H6) as (n & o & E & _). rewrite E in H7. now apply good_sgw_with in H7.
    - inversion H6 as [E]. rewrite <- E in H7. exact H7. }
  split; [exact H3|]. split; [exact H5|]. split.
  { intro U. destruct (m_use (c_gw c) >? 1) eqn:E; [|lia]. eapply multi_ok; eassumption. }
  apply check_ifs_acc in H8. clear - H8 GG C G.
  split; [|split].
  - induction H8 as [|i v l vs E X IH]; constructor.
    + unfold check_if in E. apply rej_if_acc in E. destruct E as (E & _). intro Q. rewrite Q in E. discriminate.
    + apply IH. now inversion C.
  - induction H8 as [|i v l vs E X IH]; cbn [length]; [reflexivity|]. f_equal. apply IH. now inversion C.
  - induction H8 as [|i v l vs E X IH]; constructor.
    + unfold check_if in E. rewrite !rej_if_acc in E. destruct E as (_ & E1 & E2). inversion E2 as [E3]. subst v.
      inversion C as [|? ? C1 _]; subst.
      apply if_ok; [apply (gg_poll _ GG)| |assumption|assumption].
      apply (ng_gen _ G).
    + apply IH. now inversion C.
Qed.

(** a good configuration for one gateway is accepted *)
Lemma sanity_complete : forall hold c rt, nan_free (c_gen c) -> good_gen (c_gen c) ->
  good_sgw (c_gw c) -> c_ifs c <> [] -> m_use (c_gw c) = 1 ->
  rtpolicy (c_sgw c) (c_rt c) = Acc rt ->
  Forall (fun i => i_name i <> []) (c_ifs c) ->
  Forall (fun i => let v := fix_hello (g_lq (c_gen c)) hold
      (apply_defaults (the_defaults (g_lq (c_gen c)) hold (c_defs c)) (i_own i)) in
      clean_if v /\ good_if (g_poll (c_gen c)) (g_mintc (c_gen c)) v) (c_ifs c) ->
  exists k, sanity hold c = Acc k.
Proof.
  intros hold c rt N GG GS HI HU HR HN HG. unfold sanity.
  pose proof (proj2 (gen_ok _ N) GG) as (B & M). rewrite B. cbn [rej_if]. rewrite HR.
  destruct (c_ifs c) as [|i0 l0] eqn:EI; [congruence|]. cbn [rej_if]. rewrite M. cbn [rej_if].
  rewrite HU. cbn [Z.ltb Z.gtb Z.compare Pos.compare orb rej_if Pos.compare_cont].
  rewrite (proj2 (sgw_ok _) GS). cbn [rej_if].
  assert (X : exists vs, check_ifs (c_gen c) hold (the_defaults (g_lq (c_gen c)) hold (c_defs c)) (i0 :: l0) = Acc vs).
  { clear EI HI. revert HN HG. generalize (i0 :: l0). induction l as [|i r IH]; intros HN HG.
    - eexists. reflexivity.
    - inversion HN as [|? ? Hn HN']; subst. inversion HG as [|? ? (Hc & Hg) HG']; subst.
      destruct (IH HN' HG') as (vs & E). cbn [check_ifs]. rewrite E.
      unfold check_if. destruct (i_name i); [congruence|]. cbn [rej_if].
      rewrite (proj2 (if_ok _ _ _ (gg_poll _ GG) ltac:(apply N) Hc) Hg). cbn [rej_if].
      eexists. reflexivity. }
  destruct X as (vs & E). rewrite E. eexists. reflexivity.
Qed.

(** * Routing policy *)
Lemma check_prios_acc : forall r r', check_prios r = Acc r' ->
  r_tab r' = r_tab r /\ r_tabd r' = r_tabd r /\ r_tabt r' = r_tabt r /\
  r_pri r' = r_pri r /\ r_prio r' = r_prio r /\ r_prit r' = r_prit r /\ r_prid r' = r_prid r /\
  ((-1 <= r_pri r /\ -1 <= r_prio r /\ -1 <= r_prit r /\ -1 <= r_prid r) ->
   r_pri r <> 0 /\ r_prio r <> 0 /\ r_prit r <> 0 /\ r_prid r <> 0 -> rules_ok r').
Proof.
  intros r r' H. unfold check_prios in H. rewrite !rej_if_acc in H.
  destruct H as (H1 & H2 & H3 & H4 & H5). inversion H5 as [E]. clear H5.
  cbn [r_tab r_tabd r_tabt r_pri r_prio r_prit r_prid].
  repeat (split; [reflexivity|]).
  intros (A1 & A2 & A3 & A4) (B1 & B2 & B3 & B4).
  unfold rules_ok, installed. cbn [r_tab r_tabd r_tabt r_pri r_prio r_prit r_prid filter fst].
  destruct (Z.gtb_spec (r_pri r) 0); destruct (Z.gtb_spec (r_prio r) 0);
  destruct (Z.gtb_spec (r_prit r) 0); destruct (Z.gtb_spec (r_prid r) 0);
  repeat match goal with
  | |- context [(?x =? -1)] => destruct (Z.eqb_spec x (-1)); [try (exfalso; lia)|try (exfalso; lia)]
  end; cbn [negb map fst andb] in *;
  (split; [repeat (apply SSorted_cons; [|repeat (apply Forall_cons; [lia|]); apply Forall_nil]); apply SSorted_nil
          |repeat (apply Forall_cons; [cbn [fst snd]; lia|]); apply Forall_nil]).
Qed.

Lemma iadd_acc : forall {A} a b (k : Z -> res A) x, iadd a b k = Acc x -> k (a + b) = Acc x /\ a + b <= 2147483647.
Proof. intros A a b k x H. unfold iadd in H. destruct (a + b >? 2147483647) eqn:E; [discriminate|]. split; [assumption|lia]. Qed.

Lemma next_prio_acc : forall {A} p x (k : Z -> Z -> res A) y, next_prio p x k = Acc y -> 0 < p ->
  exists p' x', k p' x' = Acc y /\ 0 < p' /\ (x <> 0 -> x' = x) /\ (x = 0 -> x' = p + 10).
Proof.
  intros A p x k y H Hp. unfold next_prio in H. apply iadd_acc in H. destruct H as (H & L).
  destruct (Z.gtb_spec x 0).
  - exists x, x. repeat split; try assumption; try lia.
  - exists (p + 10). eexists. split; [exact H|]. unfold rt_auto.
    destruct (Z.eqb_spec x 0); repeat split; intros; try lia; try congruence.
Qed.

Lemma rtpolicy_acc : forall sgw r r', rtpolicy sgw r = Acc r' ->
  (r_tab r <> 0 -> r_tab r' = r_tab r) /\ (r_tabd r <> 0 -> r_tabd r' = r_tabd r) /\
  (sgw = true -> r_tabt r <> 0 -> r_tabt r' = r_tabt r) /\
  (r_pri r <> 0 -> r_pri r' = r_pri r) /\ (r_prio r <> 0 -> r_prio r' = r_prio r) /\
  (r_prit r <> 0 -> r_prit r' = r_prit r) /\ (r_prid r <> 0 -> r_prid r' = r_prid r) /\
  (sgw = true -> (r_prio r = 0 -> 0 < r_prio r') /\ (r_prit r = 0 -> 0 < r_prit r') /\
                 (r_prid r = 0 -> 0 < r_prid r')) /\
  ((-1 <= r_pri r /\ -1 <= r_prio r /\ -1 <= r_prit r /\ -1 <= r_prid r) -> rules_ok r').
Proof.
  intros sgw r r' H. unfold rtpolicy in H. destruct sgw.
  - unfold defaults_sgw in H.
    set (p0 := if r_pri r >? 0 then r_pri r else 32766) in *.
    assert (P0 : 0 < p0) by (unfold p0; destruct (Z.gtb_spec (r_pri r) 0); lia).
    apply next_prio_acc in H; [|exact P0]. destruct H as (p1 & x1 & H & P1 & A1 & B1).
    apply next_prio_acc in H; [|exact P1]. destruct H as (p2 & x2 & H & P2 & A2 & B2).
    apply next_prio_acc in H; [|exact P2]. destruct H as (p3 & x3 & H & P3 & A3 & B3).
    apply check_prios_acc in H. cbn [r_tab r_tabd r_tabt r_pri r_prio r_prit r_prid] in H.
    destruct H as (E1 & E2 & E3 & E4 & E5 & E6 & E7 & R).
    unfold auto_or, rt_auto, rt_none in *.
    split; [intro; rewrite E1; destruct (Z.eqb_spec (r_tab r) 0); congruence|].
    split; [intro; rewrite E2; destruct (Z.eqb_spec (r_tabd r) 0); congruence|].
    split; [intros; rewrite E3; destruct (Z.eqb_spec (r_tabt r) 0); congruence|].
    split; [intros; rewrite E4; destruct (Z.eqb_spec (r_pri r) 0); destruct (r_pri r >? 0); congruence|].
    split; [intros Q; rewrite E5; auto|].
    split; [intros Q; rewrite E6; auto|].
    split; [intros Q; rewrite E7; auto|].
    split; [intros _; repeat split; intro Q;
            [rewrite E5, (B1 Q)|rewrite E6, (B2 Q)|rewrite E7, (B3 Q)]; lia|].
    intros (N1 & N2 & N3 & N4). apply R.
    + repeat split.
      * destruct (r_pri r >? 0); [lia|]. destruct (Z.eqb_spec (r_pri r) 0); lia.
      * destruct (Z.eq_dec (r_prio r) 0) as [Q|Q]; [rewrite (B1 Q)|rewrite (A1 Q)]; lia.
      * destruct (Z.eq_dec (r_prit r) 0) as [Q|Q]; [rewrite (B2 Q)|rewrite (A2 Q)]; lia.
      * destruct (Z.eq_dec (r_prid r) 0) as [Q|Q]; [rewrite (B3 Q)|rewrite (A3 Q)]; lia.
    + repeat split.
      * destruct (Z.gtb_spec (r_pri r) 0); [lia|]. destruct (Z.eqb_spec (r_pri r) 0); lia.
      * destruct (Z.eq_dec (r_prio r) 0) as [Q|Q]; [rewrite (B1 Q)|rewrite (A1 Q)]; lia.
      * destruct (Z.eq_dec (r_prit r) 0) as [Q|Q]; [rewrite (B2 Q)|rewrite (A2 Q)]; lia.
      * destruct (Z.eq_dec (r_prid r) 0) as [Q|Q]; [rewrite (B3 Q)|rewrite (A3 Q)]; lia.
  - apply check_prios_acc in H. unfold defaults_plain in H.
    cbn [r_tab r_tabd r_tabt r_pri r_prio r_prit r_prid] in H.
    destruct H as (E1 & E2 & E3 & E4 & E5 & E6 & E7 & R).
    unfold auto_or, rt_auto, rt_none in *.
    split; [intro; rewrite E1; destruct (Z.eqb_spec (r_tab r) 0); congruence|].
    split; [intro; rewrite E2; destruct (Z.eqb_spec (r_tabd r) 0); congruence|].
    split; [discriminate|].
    split; [intros; rewrite E4; destruct (Z.eqb_spec (r_pri r) 0); congruence|].
    split; [intros; rewrite E5; destruct (Z.eqb_spec (r_prio r) 0); congruence|].
    split; [intros; rewrite E6; destruct (Z.eqb_spec (r_prit r) 0); congruence|].
    split; [intros; rewrite E7; destruct (Z.eqb_spec (r_prid r) 0); congruence|].
    split; [discriminate|].
    intros (N1 & N2 & N3 & N4). apply R.
    + repeat split;
      match goal with |- context [?x =? 0] => destruct (Z.eqb_spec x 0); lia end.
    + repeat split;
      match goal with |- context [?x =? 0] => destruct (Z.eqb_spec x 0); lia end.
Qed.

(** * Numbers *)
Lemma some_of_app : forall a b, some_of (a ++ b) = some_of a ++ some_of b.
Proof. induction a as [|[x|] r IH]; intros b; cbn [app some_of]; rewrite ?IH; reflexivity. Qed.

Lemma some_of_some : forall {A} (f : A -> Z) l, some_of (map (fun x => Some (f x)) l) = map f l.
Proof. induction l as [|x r IH]; cbn [map some_of]; congruence. Qed.

Lemma some_of_none : forall {A} (l : list A), some_of (map (fun _ => None) l) = [].
Proof. induction l as [|x r IH]; cbn [map some_of]; congruence. Qed.

Lemma upto_in : forall n x, In x (upto n) <-> 0 <= x < Z.of_nat n.
Proof.
  intros n x. unfold upto. rewrite in_map_iff. split.
  - intros (y & E & I). apply in_seq in I. lia.
  - intros H. exists (Z.to_nat x). rewrite in_seq. lia.
Qed.

Lemma map_nodup_on : forall {A B} (f : A -> B) l, NoDup l ->
  (forall x y, In x l -> In y l -> f x = f y -> x = y) -> NoDup (map f l).
Proof.
  intros A B f l N H. induction N as [|x r Hx N IH]; cbn [map]; constructor.
  - intro I. apply in_map_iff in I. destruct I as (y & E & I). apply H in E; [subst; contradiction|now right|now left].
  - apply IH. intros a b Ia Ib. apply H; now right.
Qed.

Lemma upto_nodup : forall n, NoDup (upto n).
Proof.
  intro n. unfold upto. apply map_nodup_on; [apply seq_NoDup|]. intros a b _ _ E. lia.
Qed.

Lemma nodup_app : forall {A} (a b : list A), NoDup a -> NoDup b ->
  (forall x, In x a -> In x b -> False) -> NoDup (a ++ b).
Proof.
  intros A a b Na Nb H. induction Na as [|x r Hx Na IH]; cbn [app]; [assumption|].
  constructor.
  - intro I. apply in_app_or in I. destruct I as [I|I]; [contradiction|]. apply (H x); [now left|assumption].
  - apply IH. intros y I. apply H. now right.
Qed.

(** a consecutive run of numbers *)
Lemma run_nodup : forall f n b, (forall i, 0 <= i < Z.of_nat n -> f i = b + i) -> NoDup (map f (upto n)).
Proof.
  intros f n b H. apply map_nodup_on; [apply upto_nodup|]. intros x y Ix Iy E.
  apply upto_in in Ix, Iy. rewrite !H in E by assumption. lia.
Qed.

Lemma run_in : forall f n b x, (forall i, 0 <= i < Z.of_nat n -> f i = b + i) ->
  In x (map f (upto n)) -> b <= x < b + Z.of_nat n.
Proof.
  intros f n b x H I. apply in_map_iff in I. destruct I as (i & E & I). apply upto_in in I.
  rewrite H in E by assumption. lia.
Qed.

Lemma tables_list : forall nifs m,
  tables_of (all_nums nifs m) = m_offt m
    :: map (fun i => u8 (m_offt m + 1 + u8 i)) (upto (length (m_egress m)))
    ++ map (fun i => u8 (u32 (m_offt m + 1 + m_count m + i))) (upto (Z.to_nat (m_use m))).
Proof.
  intros nifs m. unfold tables_of, all_nums. cbn [map some_of srv_nums n_table]. f_equal.
  rewrite !map_app, !some_of_app, !map_map.
  cbn [egress_nums olsr_nums tunnel_nums n_table].
  rewrite !some_of_some, some_of_none. reflexivity.
Qed.

Lemma rules_list : forall nifs m,
  rules_of (all_nums nifs m) =
    (u32 (m_offr m + m_count m + Z.of_nat nifs)
     :: map (fun i => u32 (m_offr m + m_count m + Z.of_nat nifs + 1 + u8 i)) (upto (length (m_egress m)))
     ++ map (fun i => u32 (m_offr m + m_count m + Z.of_nat nifs + 1 + m_count m + i)) (upto (Z.to_nat (m_use m))))
    ++ map (fun i => u32 (m_offr m + u8 i)) (upto (length (m_egress m)))
    ++ map (fun i => u32 (m_offr m + m_count m + i)) (upto nifs).
Proof.
  intros nifs m. unfold rules_of, all_nums. cbn [map some_of srv_nums n_rule n_bypass].
  rewrite !map_app, !some_of_app, !map_map.
  cbn [egress_nums olsr_nums tunnel_nums n_rule n_bypass].
  rewrite !some_of_some, !some_of_none, !app_nil_r. reflexivity.
Qed.

Lemma multi_numbers : forall hold c k, sanity hold c = Acc k -> m_use (c_gw c) > 1 ->
  m_count (c_gw c) = 0 -> (length (m_egress (c_gw c)) < 256)%nat ->
  Z.of_nat (length (c_ifs c)) < 1073741824 ->
  0 <= m_offt (c_gw c) < 4294967296 -> 0 <= m_offr (c_gw c) < 4294967296 ->
  let m := k_gw k in let n := m_count m in let nifs := Z.of_nat (length (c_ifs c)) in
  m_egress m = m_egress (c_gw c) /\ m_use m = m_use (c_gw c) /\ m_offt m = m_offt (c_gw c) /\
  1 < m_use m <= 64 /\ n = Z.of_nat (length (m_egress m)) /\ 0 <= n <= 32 /\
  0 < m_offt m /\ m_offt m + (1 + n + m_use m) <= 2147483649 /\
  (m_offt m + (1 + n + m_use m) < 253 \/ 255 < m_offt m) /\
  0 < m_offr m /\ m_offr m + (1 + n + m_use m) + n + nifs <= 4294967295 /\
  (m_offr m + (1 + n + m_use m) + n + nifs < 32766 \/ 32767 < m_offr m).
Proof.
  intros hold c k H U Z0 L LI T R. destruct (sanity_acc _ _ _ H) as (_ & _ & _ & _ & H5 & H6 & _).
  destruct (m_use (c_gw c) >? 1) eqn:E; [|lia].
  destruct (multi_acc _ _ _ _ H6) as (n & offr & Ek & _ & _ & _ & _ & _ & C & C2 & _ & X).
  rewrite Z0 in C. apply count_ok in C; [|lia]. destruct C as (_ & C). rewrite Z.mod_small in C by lia.
  unfold u32 in X at 1. rewrite Z.mod_small in X by lia.
  apply tables_acc in X; try lia. rewrite Ek. cbn [with_gw m_egress m_use m_offt m_offr m_count].
  cbn zeta. repeat split; try lia; try apply X.
Qed.

Lemma rules_distinct : forall hold c k, sanity hold c = Acc k -> m_use (c_gw c) > 1 ->
  m_count (c_gw c) = 0 -> (length (m_egress (c_gw c)) < 256)%nat ->
  Z.of_nat (length (c_ifs c)) < 1073741824 ->
  0 <= m_offt (c_gw c) < 4294967296 -> 0 <= m_offr (c_gw c) < 4294967296 ->
  NoDup (rules_of (all_nums (length (c_ifs c)) (k_gw k))) /\
  Forall (fun x => 0 < x < 4294967296 /\ x <> 32766 /\ x <> 32767)
    (rules_of (all_nums (length (c_ifs c)) (k_gw k))).
Proof.
  intros hold c k H U Z0 L LI T R.
  destruct (multi_numbers _ _ _ H U Z0 L LI T R) as (E1 & E2 & E3 & B1 & B2 & B3 & _ & _ & _ & B4 & B5 & B6).
  rewrite rules_list. set (m := k_gw k) in *. set (nifs := length (c_ifs c)) in *.
  set (F1 := fun i => u32 (m_offr m + m_count m + Z.of_nat nifs + 1 + u8 i)).
  set (F2 := fun i => u32 (m_offr m + m_count m + Z.of_nat nifs + 1 + m_count m + i)).
  set (F3 := fun i => u32 (m_offr m + u8 i)).
  set (F4 := fun i => u32 (m_offr m + m_count m + i)).
  set (ne := length (m_egress m)) in *. set (nu := Z.to_nat (m_use m)).
  assert (X0 : u32 (m_offr m + m_count m + Z.of_nat nifs) = m_offr m + m_count m + Z.of_nat nifs)
    by (unfold u32; apply Z.mod_small; lia).
  assert (X1 : forall i, 0 <= i < Z.of_nat ne -> F1 i = (m_offr m + m_count m + Z.of_nat nifs + 1) + i).
  { intros i Hi. unfold F1, u32, u8. rewrite (Z.mod_small i) by lia. apply Z.mod_small. lia. }
  assert (X2 : forall i, 0 <= i < Z.of_nat nu -> F2 i = (m_offr m + m_count m + Z.of_nat nifs + 1 + m_count m) + i).
  { intros i Hi. unfold F2, u32. apply Z.mod_small. lia. }
  assert (X3 : forall i, 0 <= i < Z.of_nat ne -> F3 i = m_offr m + i).
  { intros i Hi. unfold F3, u32, u8. rewrite (Z.mod_small i) by lia. apply Z.mod_small. lia. }
  assert (X4 : forall i, 0 <= i < Z.of_nat nifs -> F4 i = (m_offr m + m_count m) + i).
  { intros i Hi. unfold F4, u32. apply Z.mod_small. lia. }
  rewrite X0.
  pose proof (run_nodup F1 ne _ X1) as N1. pose proof (run_nodup F2 nu _ X2) as N2.
  pose proof (run_nodup F3 ne _ X3) as N3. pose proof (run_nodup F4 nifs _ X4) as N4.
  pose proof (fun x => run_in F1 ne _ x X1) as I1. pose proof (fun x => run_in F2 nu _ x X2) as I2.
  pose proof (fun x => run_in F3 ne _ x X3) as I3. pose proof (fun x => run_in F4 nifs _ x X4) as I4.
  assert (Hnu : Z.of_nat nu = m_use m) by (unfold nu; lia).
  clearbody F1 F2 F3 F4. split.
  - cbn [app]. constructor.
    + rewrite !in_app_iff. intros [[I|I]|[I|I]];
        [apply I1 in I|apply I2 in I|apply I3 in I|apply I4 in I]; lia.
    + apply nodup_app; [apply nodup_app; try assumption|apply nodup_app; try assumption|].
      * intros x A B. apply I1 in A. apply I2 in B. lia.
      * intros x A B. apply I3 in A. apply I4 in B. lia.
      * intros x A B. rewrite in_app_iff in A, B.
        destruct A as [A|A]; [apply I1 in A|apply I2 in A];
        (destruct B as [B|B]; [apply I3 in B|apply I4 in B]); lia.
  - apply Forall_forall. intros x I. cbn [app In] in I. rewrite !in_app_iff in I.
    destruct I as [I|[[I|I]|[I|I]]];
      [|apply I1 in I|apply I2 in I|apply I3 in I|apply I4 in I]; lia.
Qed.

Lemma tables_distinct : forall hold c k, sanity hold c = Acc k -> m_use (c_gw c) > 1 ->
  m_count (c_gw c) = 0 -> (length (m_egress (c_gw c)) < 256)%nat ->
  Z.of_nat (length (c_ifs c)) < 1073741824 ->
  0 <= m_offt (c_gw c) < 4294967296 -> 0 <= m_offr (c_gw c) < 4294967296 ->
  m_offt (c_gw c) < 256 ->
  NoDup (tables_of (all_nums (length (c_ifs c)) (k_gw k))) /\
  Forall (fun x => 0 < x < 253) (tables_of (all_nums (length (c_ifs c)) (k_gw k))).
Proof.
  intros hold c k H U Z0 L LI T R T8.
  destruct (multi_numbers _ _ _ H U Z0 L LI T R) as (E1 & E2 & E3 & B1 & B2 & B3 & B7 & _ & B8 & _).
  rewrite tables_list. set (m := k_gw k) in *.
  assert (B9 : m_offt m + (1 + m_count m + m_use m) < 253) by lia.
  set (F1 := fun i => u8 (m_offt m + 1 + u8 i)).
  set (F2 := fun i => u8 (u32 (m_offt m + 1 + m_count m + i))).
  set (ne := length (m_egress m)) in *. set (nu := Z.to_nat (m_use m)).
  assert (X1 : forall i, 0 <= i < Z.of_nat ne -> F1 i = (m_offt m + 1) + i).
  { intros i Hi. unfold F1, u8. rewrite (Z.mod_small i) by lia. apply Z.mod_small. lia. }
  assert (X2 : forall i, 0 <= i < Z.of_nat nu -> F2 i = (m_offt m + 1 + m_count m) + i).
  { intros i Hi. unfold F2, u8, u32. rewrite (Z.mod_small (_ + i) 4294967296) by lia. apply Z.mod_small. lia. }
  pose proof (run_nodup F1 ne _ X1) as N1. pose proof (run_nodup F2 nu _ X2) as N2.
  pose proof (fun x => run_in F1 ne _ x X1) as I1. pose proof (fun x => run_in F2 nu _ x X2) as I2.
  assert (Hnu : Z.of_nat nu = m_use m) by (unfold nu; lia).
  clearbody F1 F2. split.
  - constructor.
    + rewrite in_app_iff. intros [I|I]; [apply I1 in I|apply I2 in I]; lia.
    + apply nodup_app; try assumption. intros x A B. apply I1 in A. apply I2 in B. lia.
  - apply Forall_forall. intros x [I|I]; [lia|]. rewrite in_app_iff in I.
    destruct I as [I|I]; [apply I1 in I|apply I2 in I]; lia.
Qed.

(** * The times in use *)
Lemma times_ok : forall hold c k, sanity hold c = Acc k -> c_defs c = None ->
  Forall2 (times (g_lq (c_gen c)) hold) (c_ifs c) (k_ifs k).
Proof.
  intros hold c k H D. apply sanity_acc in H. decompose [and] H. clear H.
  match goal with Q : check_ifs _ _ _ _ = _ |- _ => rename Q into Y end. rewrite D in Y. cbn [the_defaults] in Y. apply check_ifs_acc in Y.
  clear - Y. induction Y as [|i v l vs E _ IH]; [constructor|]. constructor; [|exact IH]. clear IH. unfold check_if in E. apply rej_if_acc in E. destruct E as (_ & E). apply rej_if_acc in E. destruct E as (_ & E).
  assert (EV : fix_hello (g_lq (c_gen c)) hold (apply_defaults builtin (i_own i)) = v) by (now inversion E). clear E. subst v.
  unfold fix_hello, apply_defaults, effp, eff, builtin. cbn [v_hello v_tc v_mid v_hna v_mults em vt].
  set (b := flt _ _). unfold times, in_use.
  split; [destruct b; reflexivity|]. split; [destruct b; reflexivity|]. split; [destruct b; reflexivity|]. split; [destruct b; reflexivity|].
  split; [destruct b; reflexivity|]. split; [destruct b; reflexivity|]. split; [destruct b; reflexivity|]. unfold b.
  split; [intros ->; reflexivity|]. split.
  - intros q -> Q. cbn [flt fz]. replace (Qle_bool (inject_Z 0) q) with true by (symmetry; apply Qle_bool_iff; exact Q). reflexivity.
  - intros q -> Q. cbn [flt fz]. destruct (Qle_bool (inject_Z 0) q) eqn:Z0; [apply Qle_bool_iff in Z0; exfalso; exact (Qlt_not_le _ _ Q Z0)|]. cbn [negb v_hello vt].
    split; intros L; [replace (g_lq (c_gen c) =? 0) with true by lia|replace (g_lq (c_gen c) =? 0) with false by lia]; reflexivity.
Qed.

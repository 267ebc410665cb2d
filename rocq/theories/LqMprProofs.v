(** Proofs: results of the MPR selections that need no well-formed neighborhood,
    and the selection with link qualities. *)
From Verif Require Import Base Mpr MprSpec MprProofs.

(** *** src/mpr.c in general *)
Section Gen.
Variable g : graph.
Variable c : Z.
Notation n := (length (g_nbrs g)).
Lemma cover_m l : forall a, m_mpr (fst (fold_left (cover1 g c) l a)) = m_mpr (fst a) /\ m_was (fst (fold_left (cover1 g c) l a)) = m_was (fst a).
Proof.
  induction l as [|x l IH]; intros a; [auto|]. cbn [fold_left]. destruct (IH (cover1 g c a x)) as (A & B). rewrite A, B. destruct a as [s k]. unfold cover1. destruct (strict g x); [|auto]. destruct (_ >=? c); auto.
Qed.
Lemma chosen_m a b : m_mpr (fst (chosen_mpr g c a b)) = upd (m_mpr (fst a)) b true /\ m_was (fst (chosen_mpr g c a b)) = m_was (fst a).
Proof. destruct a as [s k]. unfold chosen_mpr. destruct (cover_m (b_two (nb g b)) (mkM (upd (m_mpr s) b true) (m_was s) (m_nocov s) (m_cov s), k)) as (A & B). cbn [fst m_mpr m_was] in *. auto. Qed.

(** from [s] to [s'] the set of MPRs has grown by neighbors with property [P] *)
Definition gr (P : nat -> Prop) (s s' : mst) : Prop := m_was s' = m_was s /\ (forall b, m_mpr s b = true -> m_mpr s' b = true) /\ (forall b, m_mpr s' b = true -> m_mpr s b = true \/ P b).
Lemma gr_refl P s : gr P s s. Proof. repeat split; auto. Qed.
Lemma gr_trans P s1 s2 s3 : gr P s1 s2 -> gr P s2 s3 -> gr P s1 s3.
Proof. intros (A & B & E) (A' & B' & E'). split; [congruence|]. split; [auto|]. intros b H. destruct (E' b H) as [Q|Q]; auto. Qed.
Lemma gr_chosen (P : nat -> Prop) a b : P b -> gr P (fst a) (fst (chosen_mpr g c a b)).
Proof.
  intros Pb. destruct (chosen_m a b) as (A & B). split; [exact B|]. rewrite A. split; [intros x Hx; now apply upd_grows|]. intros x Hx. unfold upd in Hx. destruct (Nat.eqb_spec x b) as [Q|Q]; [right; rewrite Q; exact Pb|now left].
Qed.
Definition okw (b : nat) : Prop := 1 <= b_will (nb g b) <= 7.
Lemma always_gr l : forall a, let a' := fold_left (fun a b => if negb (b_sym (nb g b)) || negb (b_will (nb g b) =? 7) then a else chosen_mpr g c a b) l a in
  gr okw (fst a) (fst a') /\ forall b, In b l -> b_sym (nb g b) = true -> b_will (nb g b) = 7 -> m_mpr (fst a') b = true.
Proof.
  induction l as [|b l IH]; intros a; cbv zeta; [split; [apply gr_refl|contradiction]|]. cbn [fold_left]. rewrite <- negb_andb. destruct (b_sym (nb g b) && (b_will (nb g b) =? 7)) eqn:E; cbn [negb].
  - apply andb_true_iff in E. destruct E as (E1 & E2). apply Z.eqb_eq in E2. destruct (IH (chosen_mpr g c a b)) as (A & B). cbv zeta in *. assert (Q : gr okw (fst a) (fst (chosen_mpr g c a b))) by (apply gr_chosen; unfold okw; lia).
    split; [exact (gr_trans _ _ _ _ Q A)|]. intros x [<-|Hx] S W; [|now apply B]. destruct A as (_ & A & _). apply A. destruct (chosen_m a b) as (M & _). rewrite M. apply upd_eq.
  - destruct (IH a) as (A & B). cbv zeta in *. split; [exact A|]. intros x [<-|Hx] S W; [|now apply B]. rewrite S, W in E. discriminate.
Qed.
Lemma max_gr total w k : 1 <= w <= 6 -> forall a, todo g (fst a) <= Z.of_nat k -> exists a' fl, max_loop g c total w k a = Some (a', fl) /\ gr okw (fst a) (fst a').
Proof.
  intros Hw. induction k as [|k IH]; intros a T; cbn [max_loop]; destruct (find_max g (fst a) w) as [b|] eqn:F; try (exists a, false; split; [reflexivity|apply gr_refl]).
  - destruct (find_max_some g _ _ _ F) as (Hb & M & _). pose proof (cntb_pos (fun b => negb (m_mpr (fst a) b)) (all_nbrs g) b ltac:(now apply all_in) ltac:(cbn; now rewrite M)). unfold todo in T. lia.
  - destruct (find_max_some g _ _ _ F) as (Hb & M & W). set (a1 := chosen_mpr g c a b). assert (G1 : gr okw (fst a) (fst a1)) by (apply gr_chosen; unfold okw; lia). destruct (snd a1 >=? total); [exists a1, true; auto|].
    destruct (IH a1) as (a' & fl & E & G2); [|exists a', fl; split; [exact E|exact (gr_trans _ _ _ _ G1 G2)]]. unfold todo, a1. destruct (chosen_m a b) as (M1 & _). rewrite M1, todo_upd by assumption. unfold todo in T. lia.
Qed.
Lemma link_gr w l : 1 <= w <= 6 -> (forall b, In b l -> b_will (nb g b) = w) -> forall a, gr okw (fst a) (fst (fold_left (fun a b => if m_mpr (fst a) b then a else chosen_mpr g c a b) l a)).
Proof.
  intros Hw. induction l as [|b l IH]; intros L a; [apply gr_refl|]. cbn [fold_left]. destruct (m_mpr (fst a) b); [apply IH; intros x Hx; apply L; now right|].
  refine (gr_trans _ _ _ _ _ (IH _ _)); [apply gr_chosen; unfold okw; rewrite (L b) by (now left); lia|intros x Hx; apply L; now right].
Qed.
Lemma one_link_will w b : In b (one_link g w) -> b_will (nb g b) = w.
Proof.
  unfold one_link. rewrite <- in_rev, in_flat_map. intros (x & _ & Q). destruct (negb (strict g x)); [contradiction|]. destruct (nbl g x) as [|b' [|? ?]]; try contradiction.
  destruct ((b_will (nb g b') =? w) && b_sym (nb g b')) eqn:W; [|contradiction]. destruct Q as [<-|[]]. lia.
Qed.
Lemma will_gr total ws : (forall w, In w ws -> 1 <= w <= 6) -> forall a, exists a', will_loop g c total ws a = Some a' /\ gr okw (fst a) (fst a').
Proof.
  induction ws as [|w ws IH]; intros HW a; cbn [will_loop]; [exists a; split; [reflexivity|apply gr_refl]|].
  assert (Hw := HW w (or_introl eq_refl)). pose proof (link_gr w (one_link g w) Hw (one_link_will w) a) as G1. set (a1 := fold_left _ (one_link g w) a) in *. destruct (snd a1 >=? total); [exists a1; auto|].
  destruct (max_gr total w n Hw a1) as (a2 & fl & E & G2).
  { unfold todo. pose proof (cntb_range (fun b => negb (m_mpr (fst a1) b)) (all_nbrs g)) as Q. unfold all_nbrs in Q at 3. rewrite seq_length in Q. lia. }
  rewrite E. destruct fl; [exists a2; split; [reflexivity|exact (gr_trans _ _ _ _ G1 G2)]|].
  destruct (IH (fun x Hx => HW x (or_intror Hx)) a2) as (a' & E' & G3). exists a'. split; [exact E'|]. exact (gr_trans _ _ _ _ G1 (gr_trans _ _ _ _ G2 G3)).
Qed.
Lemma thc_m s : m_mpr (fst (two_hop_count g s)) = m_mpr s /\ m_was (fst (two_hop_count g s)) = m_was s.
Proof.
  unfold two_hop_count. assert (G : forall l a, m_mpr (fst (fst (fst (fst (fold_left (thc_step g) l a))))) = m_mpr (fst (fst (fst (fst a)))) /\ m_was (fst (fst (fst (fst (fold_left (thc_step g) l a))))) = m_was (fst (fst (fst (fst a))))).
  { induction l as [|b l IH]; intros a; [auto|]. cbn [fold_left]. destruct (IH (thc_step g a b)) as (A & B). rewrite A, B. destruct a as [[[[s1 c1] n1] p1] sum1]. unfold thc_step. destruct (negb _); [auto|]. destruct (count_two _ _ _) as [[? ?] ?]. auto. }
  change (fun (a : mst * Z * Z * (nat -> bool) * Z) (b : nat) => _) with (thc_step g). specialize (G (all_nbrs g) (s, 0, 0, fun _ => false, 0)). destruct (fold_left _ _ _) as [[[[s' c'] n'] p'] sum']. exact G.
Qed.

Lemma calc_gen s red : exists s' r, calculate_mpr g c red s = Some (s', r) /\
  (forall b, (b < n)%nat -> m_mpr s' b = true -> okw b) /\ (forall b, (b < n)%nat -> b_sym (nb g b) = true -> b_will (nb g b) = 7 -> m_mpr s' b = true) /\
  (forall b, (b < n)%nat -> m_was s' b = false) /\
  r = existsb (fun b => (m_was s b || m_mpr s b) && negb (m_mpr s' b)) (all_nbrs g) && (red >? 0).
Proof.
  unfold calculate_mpr, select. destruct (clear_val g s) as (C2 & C3 & _). cbv zeta in *. set (s0 := clear_mprs g s) in *. destruct (thc_m s0) as (T1 & T2). destruct (two_hop_count g s0) as [s1 total]. cbn [fst] in *.
  destruct (always_gr (all_nbrs g) (s1, 0)) as (A1 & A2). cbv zeta in *. fold (add_always g c s1) in A1, A2. cbn [fst] in A1.
  destruct (will_gr total [6; 5; 4; 3; 2; 1] ltac:(cbn; intros w Hw; lia) (add_always g c s1)) as (a' & E & G). rewrite E. cbn [option_map].
  destruct (opt_val g c (fst a')) as (O1 & O2 & O3 & O4). cbv zeta in *. destruct (check_val g (optimize g c (fst a'))) as (K1 & K2 & K3). destruct (check_changes g (optimize g c (fst a'))) as [s3 r]. cbn [fst snd] in *.
  exists s3, (r && (red >? 0)). split; [reflexivity|]. assert (GG := gr_trans _ _ _ _ A1 G). destruct GG as (GW & _ & GP). split; [|split; [|split; [exact K3|]]].
  - intros b Hb H. rewrite K1 in H. apply O3 in H. destruct (GP b H) as [Q|Q]; [|exact Q]. rewrite T1, C2 in Q by exact Hb. discriminate.
  - intros b Hb Sb Wb. rewrite K1. apply O4; [|left; lia]. destruct G as (_ & G & _). apply G. apply A2; auto. now apply all_in.
  - f_equal. rewrite K2. assert (X : forall l, (forall b, In b l -> (b < n)%nat) -> existsb (fun b => m_was (optimize g c (fst a')) b && negb (m_mpr (optimize g c (fst a')) b)) l = existsb (fun b => (m_was s b || m_mpr s b) && negb (m_mpr s3 b)) l).
    { induction l as [|b l IH]; intros L; [reflexivity|]. cbn [existsb]. rewrite IH by (intros x Hx; apply L; now right). rewrite O2, GW, T2, K1, C3 by (apply L; now left). reflexivity. }
    apply X. intros b Hb. now apply all_in in Hb.
Qed.
End Gen.

(** *** src/lq_mpr.c *)
Section Lq.
Variable g : graph.
Notation n := (length (g_nbrs g)).

(** the best neighbor that is not skipped *)
Lemma lq_best_aux skip l : forall a : option nat * Z,
  let r := fold_left (fun a w => if b_sym (nb g (fst w)) && negb (skip (fst w)) && (snd w <? snd a) then (Some (fst w), snd w) else a) l a in
  snd r <= snd a /\ (forall w, In w l -> b_sym (nb g (fst w)) = true -> skip (fst w) = false -> snd r <= snd w) /\
  (r = a \/ exists w, In w l /\ b_sym (nb g (fst w)) = true /\ skip (fst w) = false /\ r = (Some (fst w), snd w) /\ snd w < snd a).
Proof.
  induction l as [|w l IH]; intros a; cbv zeta; [cbn; split; [lia|]; split; [contradiction|now left]|]. cbn [fold_left].
  set (a1 := if b_sym (nb g (fst w)) && negb (skip (fst w)) && (snd w <? snd a) then _ else a). destruct (IH a1) as (A & B & E). cbv zeta in *. set (r := fold_left _ l a1) in *.
  destruct (b_sym (nb g (fst w)) && negb (skip (fst w)) && (snd w <? snd a)) eqn:Q; unfold a1 in *; cbn [fst snd] in *.
  - apply andb_true_iff in Q. destruct Q as (Q & Q3). apply andb_true_iff in Q. destruct Q as (Q1 & Q2). apply negb_true_iff in Q2. split; [lia|]. split.
    + intros w' [<-|Hw] S K; [lia|now apply B].
    + right. destruct E as [E|(w' & E1 & E2 & E3 & E4 & E5)]; [exists w; split; [now left|]; rewrite E; repeat split; auto; lia|]. exists w'. split; [now right|]. repeat split; auto. lia.
  - split; [exact A|]. split.
    + intros w' [<-|Hw] S K; [|now apply B]. rewrite S, K in Q. cbn [andb negb] in Q. lia.
    + destruct E as [E|(w' & E1 & E2 & E3 & E4 & E5)]; [now left|right]. exists w'. split; [now right|]. repeat split; auto.
Qed.
Lemma lq_best_some skip x b v : lq_best g skip x = (Some b, v) ->
  In (b, v) (t_nbl (tw g x)) /\ b_sym (nb g b) = true /\ skip b = false /\ v < BROKEN /\ forall w, In w (t_nbl (tw g x)) -> b_sym (nb g (fst w)) = true -> skip (fst w) = false -> v <= snd w.
Proof.
  intros H. unfold lq_best in H. destruct (lq_best_aux skip (t_nbl (tw g x)) (None, BROKEN)) as (A & B & E). cbv zeta in *. rewrite H in *. cbn [snd] in *. destruct E as [E|(w & E1 & E2 & E3 & E4 & E5)]; [discriminate|]. injection E4 as -> ->. destruct w as [b v]. cbn [fst snd] in *. repeat split; auto.
Qed.
Lemma lq_best_none skip x v : lq_best g skip x = (None, v) -> forall w, In w (t_nbl (tw g x)) -> b_sym (nb g (fst w)) = true -> skip (fst w) = false -> BROKEN <= snd w.
Proof.
  intros H. unfold lq_best in H. destruct (lq_best_aux skip (t_nbl (tw g x)) (None, BROKEN)) as (A & B & E). cbv zeta in *. rewrite H in *. cbn [snd] in *. destruct E as [E|(w & E1 & E2 & E3 & E4 & E5)]; [|discriminate]. injection E as ->. exact B.
Qed.

(** what the rounds for one two-hop neighbor select *)
Lemma rounds_val was x lim k : NoDup (nbl g x) -> forall mpr skip chg,
  let '(mpr', skip', chg') := lq_rounds g was x lim k (mpr, skip, chg) in
  exists sel, NoDup (map fst sel) /\ (forall w, In w sel -> candidate g x lim w /\ skip (fst w) = false) /\ (length sel <= k)%nat /\
    (forall b, mpr' b = mpr b || existsb (Nat.eqb b) (map fst sel)) /\ (chg' = chg || existsb (fun w => negb (was (fst w))) sel) /\
    (forall w, candidate g x lim w -> skip (fst w) = false -> ~ In w sel -> length sel = k /\ forall w', In w' sel -> snd w' <= snd w).
Proof.
  intros N. induction k as [|k IH]; intros mpr skip chg; cbn [lq_rounds].
  - exists []. split; [constructor|]. split; [contradiction|]. split; [cbn; lia|]. split; [intros b; cbn; now rewrite orb_false_r|]. split; [cbn; now rewrite orb_false_r|]. intros w _ _ _. split; [reflexivity|contradiction].
  - destruct (lq_best g skip x) as [[b|] v] eqn:E.
    + destruct (lq_best_some _ _ _ _ E) as (E1 & E2 & E3 & E4 & E5). destruct (Z.ltb_spec v lim) as [L|L].
      * specialize (IH (upd mpr b true) (upd skip b true) (chg || negb (was b))). destruct (lq_rounds _ _ _ _ _ _) as [[mpr' skip'] chg']. destruct IH as (sel & S1 & S2 & S3 & S4 & S5 & S6).
        assert (NB : ~ In b (map fst sel)). { intros X. apply in_map_iff in X. destruct X as (w & <- & X). destruct (S2 w X) as (_ & Q). rewrite upd_eq in Q. discriminate. }
        exists ((b, v) :: sel). cbn [map fst]. split; [constructor; assumption|]. split; [|split; [|split; [|split]]].
        -- intros w [<-|Hw]; [split; [|exact E3]; split; [exact E1|]; auto|]. destruct (S2 w Hw) as (Q1 & Q2). split; [exact Q1|]. unfold upd in Q2. destruct (Nat.eqb (fst w) b); [discriminate|exact Q2].
        -- cbn [length]. lia.
        -- intros y. rewrite S4. cbn [existsb]. unfold upd. destruct (Nat.eqb y b); cbn [orb]; rewrite ?orb_true_r; reflexivity.
        -- rewrite S5. cbn [existsb fst]. rewrite orb_assoc. reflexivity.
        -- intros w Cw Kw Nw. destruct Cw as (C2 & C3 & C4 & C5). assert (NEQ : fst w <> b).
           { intros Q. apply Nw. left. destruct w as [b' v']. cbn [fst] in Q. subst b'. f_equal. unfold nbl in N. clear - N E1 C2. revert N E1 C2. induction (t_nbl (tw g x)) as [|[p q] l IH]; [contradiction|]. cbn [map fst]. intros N A B. inversion N as [|? ? N1 N2]; subst.
             destruct A as [A|A], B as [B|B]; [congruence| | |now apply IH]; exfalso; apply N1; [inversion A; subst; now apply (in_map fst) in B|inversion B; subst; now apply (in_map fst) in A]. }
           destruct (S6 w (conj C2 (conj C3 (conj C4 C5)))) as (Q1 & Q2); [rewrite upd_neq by exact NEQ; exact Kw|intros X; apply Nw; now right|]. split; [cbn [length]; lia|]. intros w' [<-|Hw']; [now apply E5|now apply Q2].
      * exists []. split; [constructor|]. split; [contradiction|]. split; [cbn; lia|]. split; [intros y; cbn; now rewrite orb_false_r|]. split; [cbn; now rewrite orb_false_r|]. intros w (C2 & C3 & C4 & C5) Kw _. specialize (E5 w C2 C3 Kw). lia.
    + exists []. split; [constructor|]. split; [contradiction|]. split; [cbn; lia|]. split; [intros y; cbn; now rewrite orb_false_r|]. split; [cbn; now rewrite orb_false_r|]. intros w (C2 & C3 & C4 & C5) Kw _. pose proof (lq_best_none _ _ _ E w C2 C3 Kw). lia.
Qed.

Lemma unskip l : forall f b, fold_left (fun f b => upd f b false) l f b = f b && negb (existsb (Nat.eqb b) l).
Proof.
  induction l as [|a l IH]; intros f b; [cbn; now rewrite andb_true_r|]. cbn [fold_left existsb]. rewrite IH. unfold upd. destruct (Nat.eqb b a); cbn [orb negb andb]; rewrite ?andb_false_r; reflexivity.
Qed.

(** [sel] is a right choice for [x] *)
Definition right_choice (c : Z) (x : nat) (sel : list (nat * Z)) : Prop :=
  match limit g x with
  | None => sel = []
  | Some lim => NoDup (map fst sel) /\ (forall w, In w sel -> candidate g x lim w) /\ Z.of_nat (length sel) <= Z.max 0 c /\
      forall w, candidate g x lim w -> ~ In w sel -> Z.of_nat (length sel) = Z.max 0 c /\ forall w', In w' sel -> snd w' <= snd w
  end.
Lemma lq_two_val c was x : NoDup (nbl g x) -> forall mpr skip chg,
  let '(mpr', skip', chg') := lq_two g c was (mpr, skip, chg) x in
  exists sel, right_choice c x sel /\ (forall b, mpr' b = mpr b || existsb (Nat.eqb b) (map fst sel)) /\ chg' = chg || existsb (fun w => negb (was (fst w))) sel.
Proof.
  intros N mpr skip chg. unfold lq_two, right_choice, limit. set (sk := fold_left (fun f b => upd f b false) (nbl g x) skip).
  assert (SK : forall w, In w (t_nbl (tw g x)) -> sk (fst w) = false). { intros w Hw. unfold sk. rewrite unskip. replace (existsb _ (nbl g x)) with true; [apply andb_false_r|]. symmetry. apply existsb_in. unfold nbl. now apply in_map. }
  assert (R : forall lim, let '(mpr', skip', chg') := lq_rounds g was x lim (Z.to_nat c) (mpr, sk, chg) in
    exists sel, (NoDup (map fst sel) /\ (forall w, In w sel -> candidate g x lim w) /\ Z.of_nat (length sel) <= Z.max 0 c /\
      forall w, candidate g x lim w -> ~ In w sel -> Z.of_nat (length sel) = Z.max 0 c /\ forall w', In w' sel -> snd w' <= snd w) /\
      (forall b, mpr' b = mpr b || existsb (Nat.eqb b) (map fst sel)) /\ chg' = chg || existsb (fun w => negb (was (fst w))) sel).
  { intros lim. pose proof (rounds_val was x lim (Z.to_nat c) N mpr sk chg) as Q. destruct (lq_rounds _ _ _ _ _ _) as [[mpr' skip'] chg']. destruct Q as (sel & S1 & S2 & S3 & S4 & S5 & S6). exists sel. split; [|auto]. split; [exact S1|]. split; [intros w Hw; now apply S2|]. split; [lia|].
    intros w Cw Nw. destruct (S6 w Cw (SK w (proj1 Cw)) Nw) as (Q1 & Q2). split; [lia|exact Q2]. }
  destruct (t_dup (tw g x)); [|apply R]. destruct (t_direct (tw g x)) as [lim|].
  - destruct (existsb (fun w => snd w <? lim) (t_nbl (tw g x))) eqn:E; [apply R|]. exists []. split; [|split; [intros b; cbn; now rewrite orb_false_r|cbn; now rewrite orb_false_r]]. split; [constructor|]. split; [contradiction|]. split; [cbn; lia|].
    intros w (C2 & _ & _ & C5) _. exfalso. apply not_true_iff_false in E. apply E. apply existsb_exists. exists w. split; [exact C2|lia].
  - exists []. split; [reflexivity|]. split; [intros b; cbn; now rewrite orb_false_r|cbn; now rewrite orb_false_r].
Qed.

Lemma lq_fold c was l : (forall x, In x l -> NoDup (nbl g x)) -> forall mpr skip chg,
  let '(mpr', skip', chg') := fold_left (lq_two g c was) l (mpr, skip, chg) in
  (forall b, mpr b = true -> mpr' b = true) /\
  (forall x, In x l -> exists sel, right_choice c x sel /\ forall w, In w sel -> mpr' (fst w) = true) /\
  (forall b, mpr' b = true -> mpr b = true \/ exists x sel, In x l /\ right_choice c x sel /\ In b (map fst sel)) /\
  (chg = true -> chg' = true) /\
  (forall b, mpr' b = true -> mpr b = false -> was b = false -> chg' = true) /\
  (chg' = true -> chg = true \/ exists b, mpr' b = true /\ was b = false).
Proof.
  induction l as [|x l IH]; intros HN mpr skip chg; [cbn; repeat split; auto; [contradiction|congruence]|]. cbn [fold_left].
  pose proof (lq_two_val c was x (HN x (or_introl eq_refl)) mpr skip chg) as Q. destruct (lq_two g c was (mpr, skip, chg) x) as [[mpr1 skip1] chg1]. destruct Q as (sel & R1 & R2 & R3).
  specialize (IH (fun y Hy => HN y (or_intror Hy)) mpr1 skip1 chg1). destruct (fold_left (lq_two g c was) l (mpr1, skip1, chg1)) as [[mpr' skip'] chg']. destruct IH as (A1 & A2 & A3 & A4 & A5 & A6).
  assert (SM : forall w, In w sel -> mpr1 (fst w) = true). { intros w Hw. rewrite R2. replace (existsb _ (map fst sel)) with true; [apply orb_true_r|]. symmetry. apply existsb_in. now apply in_map. }
  split; [intros b Hb; apply A1; rewrite R2, Hb; reflexivity|]. split; [|split; [|split; [|split]]].
  - intros y [<-|Hy]; [|now apply A2]. exists sel. split; [exact R1|]. intros w Hw. apply A1. now apply SM.
  - intros b Hb. destruct (A3 b Hb) as [Q|(y & sel' & Q1 & Q2 & Q3)]; [|right; exists y, sel'; split; [now right|auto]]. rewrite R2 in Q. apply orb_true_iff in Q. destruct Q as [Q|Q]; [now left|right]. apply existsb_in in Q. exists x, sel. split; [now left|auto].
  - intros H. apply A4. rewrite R3, H. reflexivity.
  - intros b Hb F W. destruct (mpr1 b) eqn:M1; [|now apply (A5 b)]. apply A4. rewrite R3. rewrite R2, F in M1. cbn [orb] in M1. apply existsb_in in M1. apply in_map_iff in M1. destruct M1 as (w & <- & Hw). replace (existsb _ sel) with true; [apply orb_true_r|]. symmetry. apply existsb_exists. exists w. split; [exact Hw|now rewrite W].
  - intros H. destruct (A6 H) as [Q|Q]; [|now right]. rewrite R3 in Q. apply orb_true_iff in Q. destruct Q as [Q|Q]; [now left|right]. apply existsb_exists in Q. destruct Q as (w & Q1 & Q2). exists (fst w). split; [apply A1; now apply SM|now apply negb_true_iff in Q2].
Qed.

Lemma init_mpr (h : nat -> bool) l : forall f b, fold_left (fun f b => upd f b (h b)) l f b = if existsb (Nat.eqb b) l then h b else f b.
Proof.
  induction l as [|a l IH]; intros f b; [reflexivity|]. cbn [fold_left existsb]. rewrite IH. unfold upd. destruct (Nat.eqb_spec b a) as [->|]; cbn [orb]; [destruct (existsb _ l)|]; reflexivity.
Qed.

Lemma lq_val c red mpr0 skip0 : (forall x, (x < length (g_twos g))%nat -> NoDup (nbl g x) /\ forall b, In b (nbl g x) -> (b < n)%nat) ->
  let '(mpr, sig) := calculate_lq_mpr g c red mpr0 skip0 in
  (forall b, (b < n)%nat -> b_sym (nb g b) = true -> b_will (nb g b) = 7 -> mpr b = true) /\
  (forall x, (x < length (g_twos g))%nat -> exists sel, right_choice c x sel /\ forall w, In w sel -> mpr (fst w) = true) /\
  (forall b, (b < n)%nat -> mpr b = true -> (b_sym (nb g b) = true /\ b_will (nb g b) = 7) \/ exists x sel, (x < length (g_twos g))%nat /\ right_choice c x sel /\ In b (map fst sel)) /\
  (sig = true <-> red > 0 /\ exists b, (b < n)%nat /\ mpr b = true /\ mpr0 b = false).
Proof.
  intros HN. unfold calculate_lq_mpr. set (always := fun b => b_sym (nb g b) && (b_will (nb g b) =? 7)). set (mpr1 := fold_left _ (all_nbrs g) mpr0). set (chg1 := existsb _ (all_nbrs g)).
  pose proof (lq_fold c mpr0 (all_twos g) (fun x Hx => proj1 (HN x ltac:(unfold all_twos in Hx; apply in_seq in Hx; lia))) mpr1 skip0 chg1) as Q.
  destruct (fold_left (lq_two g c mpr0) (all_twos g) (mpr1, skip0, chg1)) as [[mpr skip] chg]. destruct Q as (A1 & A2 & A3 & A4 & A5 & A6).
  assert (M1 : forall b, (b < n)%nat -> mpr1 b = always b). { intros b Hb. unfold mpr1. rewrite init_mpr. replace (existsb (Nat.eqb b) (all_nbrs g)) with true; [reflexivity|]. symmetry. apply existsb_in. now apply all_in. }
  assert (M2 : forall b, ~ (b < n)%nat -> mpr1 b = mpr0 b). { intros b Hb. unfold mpr1. rewrite init_mpr. destruct (existsb (Nat.eqb b) (all_nbrs g)) eqn:E; [|reflexivity]. apply existsb_in in E. apply all_in in E. contradiction. }
  assert (TW : forall x, In x (all_twos g) <-> (x < length (g_twos g))%nat) by (intros x; unfold all_twos; rewrite in_seq; lia).
  split; [|split; [|split]].
  - intros b Hb S W. apply A1. rewrite M1 by exact Hb. unfold always. rewrite S, W. reflexivity.
  - intros x Hx. apply A2. now apply TW.
  - intros b Hb H. destruct (A3 b H) as [Q|(x & sel & Q1 & Q2 & Q3)].
    + left. rewrite M1 in Q by exact Hb. unfold always in Q. apply andb_true_iff in Q. destruct Q as (Q1 & Q2). apply Z.eqb_eq in Q2. auto.
    + right. exists x, sel. apply TW in Q1. auto.
  - rewrite andb_true_iff, Z.gtb_lt. split.
    + intros (H & R). split; [lia|]. destruct (A6 H) as [Q|(b & Q1 & Q2)].
      * unfold chg1 in Q. apply existsb_exists in Q. destruct Q as (b & Q1 & Q2). apply all_in in Q1. apply andb_true_iff in Q2. destruct Q2 as (Q2 & Q3). apply negb_true_iff in Q3. exists b. split; [exact Q1|]. split; [|exact Q3]. apply A1. rewrite M1 by exact Q1. exact Q2.
      * exists b. split; [|auto]. destruct (A3 b Q1) as [Q|(x & sel & X1 & X2 & X3)].
        -- destruct (Nat.lt_ge_cases b n) as [L|L]; [exact L|]. rewrite M2 in Q by lia. congruence.
        -- apply TW in X1. apply (proj2 (HN x X1)). unfold right_choice in X2. destruct (limit g x) as [lim|]; [|rewrite X2 in X3; contradiction]. destruct X2 as (_ & X2 & _). apply in_map_iff in X3. destruct X3 as (w & <- & X3). destruct (X2 w X3) as (X4 & _). unfold nbl. now apply in_map.
    + intros (R & b & Hb & H & F). split; [|lia]. destruct (mpr1 b) eqn:E; [|now apply (A5 b)]. apply A4. unfold chg1. apply existsb_exists. exists b. split; [now apply all_in|]. rewrite M1 in E by exact Hb. rewrite F. unfold always in E. cbn [negb]. rewrite andb_true_r. exact E.
Qed.
End Lq.

(** *** a decision procedure for the examples *)
Fixpoint nodupb (l : list nat) : bool := match l with [] => true | a :: l' => negb (existsb (Nat.eqb a) l') && nodupb l' end.
Lemma nodupb_ok l : nodupb l = true -> NoDup l.
Proof. induction l as [|a l IH]; intros H; [constructor|]. cbn [nodupb] in H. apply andb_true_iff in H. destruct H as (H1 & H2). constructor; [|auto]. intros X. apply existsb_in in X. rewrite X in H1. discriminate. Qed.
Definition wf_check (g : graph) : bool :=
  forallb (fun b => nodupb (b_two (nb g b)) && forallb (fun x => Nat.ltb x (length (g_twos g))) (b_two (nb g b))) (all_nbrs g) &&
  forallb (fun x => nodupb (nbl g x) && forallb (fun b => Nat.ltb b (length (g_nbrs g))) (nbl g x)) (all_twos g) &&
  forallb (fun b => forallb (fun x => Bool.eqb (existsb (Nat.eqb x) (b_two (nb g b))) (existsb (Nat.eqb b) (nbl g x))) (all_twos g)) (all_nbrs g).
Lemma wf_check_ok g : wf_check g = true -> wf_graph g.
Proof.
  unfold wf_check. intros H. apply andb_true_iff in H. destruct H as (H & H3). apply andb_true_iff in H. destruct H as (H1 & H2). rewrite forallb_forall in H1, H2, H3.
  assert (TW : forall x, (x < length (g_twos g))%nat -> In x (all_twos g)) by (intros x Hx; unfold all_twos; apply in_seq; lia).
  split; [|split].
  - intros b Hb. specialize (H1 b ltac:(now apply all_in)). apply andb_true_iff in H1. destruct H1 as (A & B). split; [now apply nodupb_ok|]. rewrite forallb_forall in B. intros x Hx. specialize (B x Hx). now apply Nat.ltb_lt in B.
  - intros x Hx. specialize (H2 x (TW x Hx)). apply andb_true_iff in H2. destruct H2 as (A & B). split; [now apply nodupb_ok|]. rewrite forallb_forall in B. intros b Hb. specialize (B b Hb). now apply Nat.ltb_lt in B.
  - intros b x Hb Hx. specialize (H3 b ltac:(now apply all_in)). rewrite forallb_forall in H3. specialize (H3 x (TW x Hx)). apply eqb_prop in H3. rewrite <- !existsb_in, H3. tauto.
Qed.

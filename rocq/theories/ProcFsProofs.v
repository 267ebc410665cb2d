(** Proofs about the settings of the kernel. *)
From Coq Require Import String.
From Verif Require Import Base Regex NameSvc ProcFs ProcFsSpec.

(** ** Names and releases *)
Lemma upto_none : forall d, ~ In 58 d -> upto_colon d = None.
Proof. induction d as [|c d IH]; [reflexivity|]. intros H. cbn [upto_colon]. destruct (c =? 58) eqn:E; [exfalso; apply H; left; lia|]. rewrite IH; [reflexivity|]. intros I. apply H. now right. Qed.
Lemma upto_some : forall d l, ~ In 58 d -> upto_colon (d ++ 58 :: l) = Some d.
Proof. induction d as [|c d IH]; [reflexivity|]. intros l H. cbn [upto_colon app]. destruct (c =? 58) eqn:E; [exfalso; apply H; left; lia|]. rewrite IH; [reflexivity|]. intros I. apply H. now right. Qed.
Lemma basename_ok : forall name d, device name d -> basename name = d.
Proof.
  intros name d (N & L & [->|(l & ->)]); unfold basename.
  - now rewrite upto_none.
  - rewrite upto_some by exact N. replace (31 <=? Z.of_nat (length d)) with false by lia. reflexivity.
Qed.
Lemma digits_ok : forall ds rest v k, Forall (fun d => 48 <= d <= 57) ds -> (forall r l, rest = r :: l -> ~ 48 <= r <= 57) ->
  digits 10 (length (ds ++ rest)) (ds ++ rest) v k = (k + Z.of_nat (length ds), fold_left (fun v d => 10 * v + (d - 48)) ds v, rest).
Proof.
  induction ds as [|d ds IH]; intros rest v k F R.
  - cbn [app length fold_left]. replace (k + Z.of_nat 0) with k by lia. destruct rest as [|r l]; [reflexivity|]. cbn [length digits]. unfold dig, digitc. specialize (R r l eq_refl).
    replace ((48 <=? r) && (r <=? 57)) with false by lia. reflexivity.
  - inversion F; subst. cbn [app length digits fold_left]. unfold dig, digitc. replace ((48 <=? d) && (d <=? 57)) with true by lia. replace (d - 48 <? 10) with true by lia.
    rewrite IH by assumption. replace (v * 10 + (d - 48)) with (10 * v + (d - 48)) by lia. f_equal. f_equal. cbn [length]. lia.
Qed.
Lemma fold_nonneg : forall ds v, Forall (fun d => 48 <= d <= 57) ds -> 0 <= v -> 0 <= fold_left (fun v d => 10 * v + (d - 48)) ds v.
Proof. induction ds as [|d ds IH]; [auto|]. intros v F P. inversion F; subst. cbn [fold_left]. apply IH; [assumption|lia]. Qed.
Lemma strtol_ok : forall ds rest v, written ds v -> v < 2 ^ 31 -> (forall r l, rest = r :: l -> ~ 48 <= r <= 57) -> strtol (ds ++ rest) = (v, rest).
Proof.
  intros ds rest v (Ne & F & ->) B R. unfold strtol, scan_d. destruct ds as [|d ds]; [congruence|]. inversion F; subst. cbn [app skip_ws].
  replace (oneof [32; 9; 10; 11; 12; 13] d) with false by (unfold oneof; cbn [existsb]; lia).
  replace (oneof (str "+-") d) with false by (unfold oneof; change (str "+-") with [43; 45]; cbn [existsb]; lia).
  rewrite (digits_ok (d :: ds) rest 0 0 F R : digits 10 (length (d :: ds ++ rest)) (d :: ds ++ rest) 0 0 = _).
  pose proof (fold_nonneg (d :: ds) 0 F ltac:(lia)) as P. set (v := fold_left _ (d :: ds) 0) in *. replace (0 + Z.of_nat (length (d :: ds)) =? 0) with false by (cbn [length]; lia).
  change (2 ^ 63) with 9223372036854775808. change (2 ^ 31) with 2147483648 in B. f_equal. unfold as_int. change (2 ^ 31) with 2147483648. change (2 ^ 32) with 4294967296. rewrite Z.min_l by lia. unfold u32. rewrite Z.mod_small by lia. replace (v <? 2147483648) with true by lia. reflexivity.
Qed.
Lemma dot_stop : forall l r l', 46 :: l = r :: l' -> ~ 48 <= r <= 57.
Proof. intros l r l' H. inversion H. lia. Qed.
Lemma version_ok : forall s a b c, release s a b c -> (at_least_2_6_31 (Some s) = true <-> modern a b c).
Proof.
  intros s a b c (x & y & z & rest & -> & Wx & Wy & Wz & A & B & C & R). unfold at_least_2_6_31, modern.
  change ([46] ++ y ++ [46] ++ z ++ rest) with (46 :: y ++ 46 :: z ++ rest). rewrite (strtol_ok x _ a Wx A) by apply dot_stop.
  destruct (3 <=? a) eqn:E; [intuition lia|]. rewrite (strtol_ok y _ b Wy B) by apply dot_stop. rewrite (strtol_ok z rest c Wz C R). rewrite !andb_true_iff. lia.
Qed.

(** ** One entry *)
Section PATHS.
Context (ro : path -> bool).
Lemma pset_same : forall p v f, pset p v f p = Some [v].
Proof. intros. unfold pset. destruct (path_dec p p); congruence. Qed.
Lemma pset_other : forall p q v f, p <> q -> pset p v f q = f q.
Proof. intros. unfold pset. destruct (path_dec p q); congruence. Qed.
Lemma write_other : forall p q v f, p <> q -> snd (write_proc ro p v f) q = f q.
Proof.
  intros p q v f N. unfold write_proc. destruct (ro p); [reflexivity|]. destruct (f p) as [[|rv l]|]; try reflexivity.
  destruct (_ && _); [|reflexivity]. destruct (_ && _); [now apply pset_other|reflexivity].
Qed.
Lemma write_sets : forall p v f x l, ro p = false -> f p = Some (x :: l) -> 48 <= v <= 57 -> exists l', snd (write_proc ro p v f) p = Some (v :: l').
Proof.
  intros p v f x l R E V. unfold write_proc. rewrite R, E. replace (v =? 0) with false by lia. destruct (x =? v) eqn:X; cbn [negb andb].
  - exists l. cbn [snd]. rewrite E. apply Z.eqb_eq in X. congruence.
  - replace ((48 <=? v) && (v <=? 57)) with true by lia. exists []. apply pset_same.
Qed.
Lemma write_zero : forall p f, snd (write_proc ro p 0 f) = f.
Proof. intros. unfold write_proc. destruct (ro p); [reflexivity|]. destruct (f p) as [[|rv l]|]; try reflexivity. now rewrite andb_false_r. Qed.
Lemma write_fst : forall p v f, 48 <= v <= 57 -> (exists x, fst (write_proc ro p v f) = Some x) <-> ro p = false /\ exists x l, f p = Some (x :: l).
Proof.
  intros p v f V. unfold write_proc. destruct (ro p) eqn:R; [split; [intros (x & H); discriminate|intros (H & _); discriminate]|].
  destruct (f p) as [[|rv l]|]; try (split; [intros (x & H); discriminate|intros (_ & x & l' & H); discriminate]).
  split; [intros _; split; [reflexivity|now exists rv, l]|]. intros _. exists rv. destruct (_ && _); [|reflexivity]. replace ((48 <=? v) && (v <=? 57)) with true by lia. reflexivity.
Qed.

(** an entry that is as wanted stays so, one that can be changed stays one *)
Definition fine (p : path) (f : procfs) : Prop := exists l, f p = Some (goal p :: l).
Lemma goal_digit : forall p, 48 <= goal p <= 57.
Proof. intros []; cbn; lia. Qed.
Lemma fine_write : forall p q f, fine p f -> fine p (snd (write_proc ro q (goal q) f)).
Proof.
  intros p q f (l & E). destruct (path_dec q p) as [->|N]; [|exists l; now rewrite write_other].
  unfold write_proc. rewrite E. destruct (ro p); [now exists l|]. rewrite Z.eqb_refl. cbn [negb andb]. now exists l.
Qed.
Lemma fine_now : forall p f, ro p = false -> (exists x l, f p = Some (x :: l)) -> fine p (snd (write_proc ro p (goal p) f)).
Proof. intros p f R (x & l & E). exact (write_sets p (goal p) f x l R E (goal_digit p)). Qed.
Lemma there_write : forall p q f, (exists x l, f p = Some (x :: l)) -> exists x l, snd (write_proc ro q (goal q) f) p = Some (x :: l).
Proof.
  intros p q f (x & l & E). destruct (path_dec q p) as [->|N]; [|exists x, l; now rewrite write_other].
  destruct (ro p) eqn:R; [unfold write_proc; rewrite R; now exists x, l|]. destruct (fine_now p f R) as (l' & H); [now exists x, l|]. exists (goal p), l'. exact H.
Qed.

(** ** Saved values *)
Definition saved := list (path * Z).
Context (f0 : procfs) (T : one_digit f0).
Definition inv (L : saved) (f : procfs) : Prop :=
  (forall p o, In (p, o) L -> o = 0 \/ o = goal p \/ f0 p = Some [o]) /\
  (forall p, f p = f0 p \/ ro p = false /\ f p = Some [goal p] /\ exists o, In (p, o) L /\ o <> goal p /\ f0 p = Some [o]).
Lemma inv_incl : forall L L' f, (forall x, In x L <-> In x L') -> inv L f -> inv L' f.
Proof.
  intros L L' f S (A & B). split; [intros p o I; apply A; now apply S|]. intros p. destruct (B p) as [E|(R & E & o & I & N)]; [now left|]. right. repeat split; auto. exists o. split; [now apply S|exact N].
Qed.
Lemma inv_zero : forall L f p, inv L f -> inv ((p, 0) :: L) f.
Proof.
  intros L f p (A & B). split; [intros q o [E|I]; [inversion E; now left|now apply A]|]. intros q. destruct (B q) as [E|(R & E & o & I & N)]; [now left|]. right. repeat split; auto. exists o. split; [now right|exact N].
Qed.
Lemma inv_save : forall L f p, inv L f -> inv ((p, kept (fst (write_proc ro p (goal p) f)) 0) :: L) (snd (write_proc ro p (goal p) f)).
Proof.
  intros L f p I. unfold write_proc. destruct (ro p) eqn:R; [now apply inv_zero|]. destruct (f p) as [[|rv l]|] eqn:E; try now apply inv_zero.
  pose proof (goal_digit p) as G. replace (goal p =? 0) with false by lia. destruct I as (A & B). destruct (rv =? goal p) eqn:X; cbn [negb andb fst snd kept].
  - apply Z.eqb_eq in X. split; [intros q o [Eq|Hi]; [inversion Eq; subst; right; now left|now apply A]|]. intros q. destruct (B q) as [Eq|(Rq & Eq & o & Hi & N)]; [now left|]. right. repeat split; auto. exists o. split; [now right|exact N].
  - replace ((48 <=? goal p) && (goal p <=? 57)) with true by lia. cbn [fst snd kept].
    assert (F0 : f0 p = Some [rv]). { destruct (B p) as [Eq|(_ & Eq & _)]; [|rewrite E in Eq; inversion Eq; lia]. rewrite E in Eq. destruct (T p _ (eq_sym Eq)) as (d & D & _). rewrite D in Eq. inversion D; subst. exact (eq_sym Eq). }
    split; [intros q o [Eq|Hi]; [inversion Eq; subst; right; now right|now apply A]|]. intros q. destruct (path_dec p q) as [<-|N].
    + right. split; [exact R|]. split; [apply pset_same|]. exists rv. split; [now left|]. split; [lia|exact F0].
    + rewrite pset_other by exact N. destruct (B q) as [Eq|(Rq & Eq & o & Hi & N')]; [now left|]. right. repeat split; auto. exists o. split; [now right|exact N'].
Qed.

(** putting them back *)
Definition back (f : procfs) (x : path * Z) : procfs := restore_proc ro (fst x) (snd x) (goal (fst x)) f.
Lemma back_other : forall f p q o, q <> p -> back f (p, o) q = f q.
Proof. intros f p q o N. unfold back, restore_proc. cbn [fst snd]. destruct (o =? goal p); [reflexivity|]. apply write_other. congruence. Qed.
Lemma back_all : forall L f, (forall p o, In (p, o) L -> o = 0 \/ o = goal p \/ f0 p = Some [o]) ->
  (forall p, f p = f0 p \/ ro p = false /\ f p = Some [goal p] /\ exists o, In (p, o) L /\ o <> goal p /\ f0 p = Some [o]) -> forall p, fold_left back L f p = f0 p.
Proof.
  induction L as [|[q o] L IH]; intros f A B p.
  - cbn [fold_left]. destruct (B p) as [E|(_ & _ & o & [] & _)]. exact E.
  - cbn [fold_left]. apply IH; [intros; apply A; now right|]. intros r. destruct (path_dec r q) as [->|N].
    2:{ rewrite back_other by exact N. destruct (B r) as [E|(R & E & o' & [Eq|I] & X)]; [now left|inversion Eq; congruence|]. right. repeat split; auto. exists o'. now split. }
    unfold back, restore_proc. cbn [fst snd]. destruct (o =? goal q) eqn:X.
    + apply Z.eqb_eq in X. destruct (B q) as [E|(R & E & o' & [Eq|I] & N & Y)]; [now left|inversion Eq; congruence|]. right. repeat split; auto. exists o'. now split.
    + apply Z.eqb_neq in X. destruct (A q o (or_introl eq_refl)) as [->|[E|F0]]; [|congruence|].
      * rewrite write_zero. destruct (B q) as [E|(R & E & o' & [Eq|I] & N & Y)]; [now left| |].
        { inversion Eq; subst o'. destruct (T q _ Y) as (d & D & Rd). inversion D. lia. } right. repeat split; auto. exists o'. now split.
      * left. unfold write_proc. destruct (T q _ F0) as (d & D & Rd). inversion D; subst d. destruct (B q) as [E|(R & E & _)].
        -- destruct (ro q); [exact E|]. rewrite E, F0. rewrite Z.eqb_refl. cbn [negb andb snd]. exact (eq_trans E F0).
        -- rewrite R, E. replace (goal q =? o) with false by lia. replace (o =? 0) with false by lia. cbn [negb andb]. replace ((48 <=? o) && (o <=? 57)) with true by lia. cbn [snd]. now rewrite pset_same.
Qed.
End PATHS.

(** ** The whole *)
Definition nic_saved (n : nic) : saved := if n_hcif n then [] else [(Redirect (n_name n), n_redirect n); (Spoof (n_name n), n_spoof n)].
Definition all_saved (c : nconf) (s : nstate) : saved :=
  (if k_forward c then [(fwd_path c, n_fwd s)] else []) ++
  (if k_sgw c && (negb (k_v6 c) || k_niit c) then [(Spoof TUNL0, n_tun s)] else []) ++
  (if k_v6 c then [] else (Redirect ALL, n_red s) :: (if at_least_2_6_31 (k_uts c) then [(Spoof ALL, n_rp s)] else []) ++ flat_map nic_saved (n_ifs s)).
Lemma goal_fwd : forall c, goal (fwd_path c) = 49.
Proof. intros c. unfold fwd_path. now destruct (k_v6 c). Qed.
Lemma restore_ifs_fold : forall ro l f, restore_ifs ro l f = fold_left (back ro) (flat_map nic_saved l) f.
Proof. induction l as [|n l IH]; [reflexivity|]. intros f. cbn [restore_ifs flat_map]. unfold nic_saved at 1. destruct (n_hcif n); [apply IH|]. cbn [app fold_left]. rewrite IH. reflexivity. Qed.
Lemma restore_fold : forall c s f, restore c s f = fold_left (back (k_ro c)) (all_saved c s) f.
Proof.
  intros c s f. unfold restore, all_saved. rewrite !fold_left_app.
  replace (if k_forward c then restore_proc (k_ro c) (fwd_path c) (n_fwd s) 49 f else f) with (fold_left (back (k_ro c)) (if k_forward c then [(fwd_path c, n_fwd s)] else []) f)
    by (destruct (k_forward c); [cbn [fold_left]; unfold back; cbn [fst snd]; now rewrite goal_fwd|reflexivity]).
  set (f1 := fold_left _ (if k_forward c then _ else _) f).
  replace (if k_sgw c && (negb (k_v6 c) || k_niit c) then restore_proc (k_ro c) (Spoof TUNL0) (n_tun s) 48 f1 else f1) with (fold_left (back (k_ro c)) (if k_sgw c && (negb (k_v6 c) || k_niit c) then [(Spoof TUNL0, n_tun s)] else []) f1)
    by (destruct (k_sgw c && _); reflexivity).
  destruct (k_v6 c); [reflexivity|]. cbn [fold_left]. rewrite fold_left_app. rewrite restore_ifs_fold. destruct (at_least_2_6_31 (k_uts c)); reflexivity.
Qed.
Lemma write_pair : forall ro p v f, write_proc ro p v f = (fst (write_proc ro p v f), snd (write_proc ro p v f)).
Proof. intros. apply surjective_pairing. Qed.
Lemma set_global_inv : forall c f0 s f, one_digit f0 -> set_global c nstart f0 = Some (s, f) -> n_ifs s = [] /\ inv (k_ro c) f0 (all_saved c s) f.
Proof.
  intros c f0 s f T. unfold set_global. rewrite write_pair.
  assert (I0 : inv (k_ro c) f0 [] f0) by (split; [intros p o []|now left]).
  set (w := write_proc (k_ro c) (fwd_path c) _ f0).
  assert (I1 : inv (k_ro c) f0 (if k_forward c then [(fwd_path c, kept (fst w) 0)] else []) (snd w)).
  { subst w. destruct (k_forward c); [|rewrite write_zero; exact I0]. rewrite <- (goal_fwd c). exact (inv_save _ _ T [] f0 (fwd_path c) I0). }
  destruct (_ && negb (k_forward c) && _); [discriminate|]. change (n_tun nstart) with 0. change (n_red nstart) with 0. change (n_rp nstart) with 0. change (n_fwd nstart) with 0. change (n_ifs nstart) with (@nil nic).
  rewrite write_pair. set (f1 := snd w) in *. set (L1 := if k_forward c then [(fwd_path c, kept (fst w) 0)] else []) in *. set (sg := k_sgw c && _) in *.
  set (w2 := write_proc (k_ro c) (Spoof TUNL0) 48 f1).
  assert (I2 : inv (k_ro c) f0 ((if sg then [(Spoof TUNL0, if sg then kept (fst w2) 0 else 0)] else []) ++ L1) (if sg then snd w2 else f1)).
  { subst w2. destruct sg; [|exact I1]. exact (inv_save _ _ T L1 f1 (Spoof TUNL0) I1). }
  replace (if sg then (kept (fst w2) 0, snd w2) else (0, f1)) with (if sg then kept (fst w2) 0 else 0, if sg then snd w2 else f1) by (now destruct sg).
  set (tun := if sg then kept (fst w2) 0 else 0) in *. set (f2 := if sg then snd w2 else f1) in *. clearbody tun f2.
  destruct (k_v6 c) eqn:V.
  { intros H. inversion H; subst. split; [reflexivity|]. refine (inv_incl _ _ _ _ _ _ I2). intros x. unfold all_saved. cbn [n_fwd n_tun]. rewrite V. fold sg. rewrite app_nil_r. rewrite !in_app_iff. subst L1. tauto. }
  rewrite write_pair. set (w3 := write_proc (k_ro c) (Redirect ALL) 48 f2).
  pose proof (inv_save _ _ T _ f2 (Redirect ALL) I2) as I3. change (goal (Redirect ALL)) with 48 in I3. fold w3 in I3. set (f3 := snd w3) in *.
  rewrite write_pair. set (w4 := write_proc (k_ro c) (Spoof ALL) 48 f3). set (L3 := (Redirect ALL, _) :: _) in *.
  assert (I4 : inv (k_ro c) f0 ((if at_least_2_6_31 (k_uts c) then [(Spoof ALL, if at_least_2_6_31 (k_uts c) then kept (fst w4) 0 else 0)] else []) ++ L3) (if at_least_2_6_31 (k_uts c) then snd w4 else f3)).
  { subst w4. destruct (at_least_2_6_31 (k_uts c)); [|exact I3]. exact (inv_save _ _ T L3 f3 (Spoof ALL) I3). }
  replace (if at_least_2_6_31 (k_uts c) then (kept (fst w4) 0, snd w4) else (0, f3)) with (if at_least_2_6_31 (k_uts c) then kept (fst w4) 0 else 0, if at_least_2_6_31 (k_uts c) then snd w4 else f3) by (now destruct (at_least_2_6_31 (k_uts c))).
  intros H. inversion H; subst. split; [reflexivity|]. refine (inv_incl _ _ _ _ _ _ I4). intros x. unfold all_saved. cbn [n_fwd n_tun n_red n_rp n_ifs flat_map]. rewrite V. fold sg. subst L3 L1. rewrite app_nil_r. cbn [app]. rewrite !in_app_iff. cbn [In]. rewrite !in_app_iff. tauto.
Qed.
Lemma set_if_inv : forall ro f0 L name f, one_digit f0 -> inv ro f0 L f -> inv ro f0 (nic_saved (fst (set_if ro name f)) ++ L) (snd (set_if ro name f)).
Proof.
  intros ro f0 L name f T I. unfold set_if. rewrite write_pair. pose proof (inv_save _ _ T L f (Redirect name) I) as I1. change (goal (Redirect name)) with 48 in I1.
  set (w := write_proc ro (Redirect name) 48 f) in *. destruct (fst w) as [r|] eqn:E; cbn [kept] in I1.
  - rewrite write_pair. pose proof (inv_save _ _ T _ (snd w) (Spoof name) I1) as I2. change (goal (Spoof name)) with 48 in I2. cbn [fst snd nic_saved n_hcif n_name n_redirect n_spoof app]. refine (inv_incl _ _ _ _ _ _ I2). intros x. cbn [In]. tauto.
  - cbn [fst snd nic_saved n_hcif n_name n_redirect n_spoof app]. refine (inv_incl _ _ _ _ _ _ (inv_zero _ _ _ _ (Spoof name) I1)). intros x. cbn [In]. tauto.
Qed.
Lemma nsteps_inv : forall c f0 l s f, one_digit f0 -> Forall stays l -> inv (k_ro c) f0 (all_saved c s) f -> inv (k_ro c) f0 (all_saved c (fst (nsteps c l s f))) (snd (nsteps c l s f)).
Proof.
  induction l as [|e l IH]; intros s f T F I; [exact I|]. inversion F as [|? ? S F']; subst. cbn [nsteps]. destruct (nstep c e s f) as [s1 f1] eqn:E. apply IH; [assumption..|]. clear IH.
  destruct e as [name send|name|i]; cbn [stays] in S; [subst send| |contradiction]; unfold nstep in E.
  - destruct (k_v6 c) eqn:V.
    + inversion E; subst. refine (inv_incl _ _ _ _ _ _ I). intros x. unfold all_saved. rewrite V. cbn [n_fwd n_tun]. tauto.
    + pose proof (set_if_inv (k_ro c) f0 _ (basename name) f T I) as J. destruct (set_if (k_ro c) (basename name) f) as [n f2]. inversion E; subst. cbn [fst snd] in J. refine (inv_incl _ _ _ _ _ _ J).
      intros x. unfold all_saved. rewrite V. cbn [n_fwd n_tun n_red n_rp n_ifs flat_map]. rewrite !in_app_iff. cbn [In]. rewrite !in_app_iff. tauto.
  - inversion E; subst. refine (inv_incl _ _ _ _ _ _ I). intros x. unfold all_saved. cbn [n_fwd n_tun n_red n_rp n_ifs flat_map nic_saved n_hcif app]. tauto.
Qed.
Lemma life_ok : forall c l f, one_digit f -> Forall stays l -> forall p, life true c l f p = f p.
Proof.
  intros c l f T F p. unfold life. destruct (set_global c nstart f) as [[s f1]|] eqn:E; [|reflexivity]. destruct (set_global_inv c f s f1 T E) as (_ & I). pose proof (nsteps_inv c f l s f1 T F I) as J.
  destruct (nsteps c l s f1) as [s2 f2]. unfold finish. rewrite restore_fold. cbn [fst snd] in J. destruct J as (A & B). exact (back_all (k_ro c) f T (all_saved c s2) f2 A B p).
Qed.

(** ** While it runs *)
Definition runs (c : nconf) (l : list nevent) (f f' : procfs) : Prop := exists s f1 s', set_global c nstart f = Some (s, f1) /\ nsteps c l s f1 = (s', f').
Lemma keeps_if : forall ro name f (P : procfs -> Prop), (forall p g, P g -> P (snd (write_proc ro p (goal p) g))) -> P f -> P (snd (set_if ro name f)).
Proof.
  intros ro name f P K H. unfold set_if. rewrite write_pair. pose proof (K (Redirect name) f H) as H1. change (goal (Redirect name)) with 48 in H1. destruct (fst (write_proc ro (Redirect name) 48 f)); [|exact H1].
  rewrite write_pair. exact (K (Spoof name) _ H1).
Qed.
Lemma keeps_steps : forall c l s f (P : procfs -> Prop), (forall p g, P g -> P (snd (write_proc (k_ro c) p (goal p) g))) -> P f -> P (snd (nsteps c l s f)).
Proof.
  induction l as [|e l IH]; intros s f P K H; [exact H|]. cbn [nsteps]. destruct (nstep c e s f) as [s1 f1] eqn:E. apply IH; [exact K|]. destruct e as [name send|name|i]; unfold nstep in E; try (inversion E; subst; exact H).
  destruct (k_v6 c); [inversion E; subst; exact H|]. pose proof (keeps_if (k_ro c) (basename name) f P K H) as J. destruct (set_if _ _ f). inversion E; subst. exact J.
Qed.
Lemma steps_app : forall c l1 l2 s f, nsteps c (l1 ++ l2) s f = nsteps c l2 (fst (nsteps c l1 s f)) (snd (nsteps c l1 s f)).
Proof. induction l1 as [|e l IH]; [reflexivity|]. intros. cbn [app nsteps]. destruct (nstep c e s f). apply IH. Qed.
Section GLOBAL.
Context (c : nconf) (P : procfs -> Prop) (K : forall p g, P g -> P (snd (write_proc (k_ro c) p (goal p) g))).
(** what holds at some point of net_os_set_global_ifoptions and is kept *)
Lemma global_keeps : forall s f s1 f1, set_global c s f = Some (s1, f1) -> P f -> P f1.
Proof.
  intros s f s1 f1. unfold set_global. rewrite write_pair. set (w := write_proc _ _ _ f). intros E H.
  assert (H1 : P (snd w)). { subst w. destruct (k_forward c); [rewrite <- (goal_fwd c); now apply K|now rewrite write_zero]. }
  destruct (_ && negb (k_forward c) && _); [discriminate|]. rewrite write_pair in E. destruct (k_sgw c && _).
  - pose proof (K (Spoof TUNL0) _ H1) as H2. change (goal (Spoof TUNL0)) with 48 in H2. destruct (k_v6 c); [inversion E; subst; exact H2|]. rewrite write_pair in E. pose proof (K (Redirect ALL) _ H2) as H3. change (goal (Redirect ALL)) with 48 in H3.
    rewrite write_pair in E. pose proof (K (Spoof ALL) _ H3) as H4. change (goal (Spoof ALL)) with 48 in H4. destruct (at_least_2_6_31 _); inversion E; subst; assumption.
  - destruct (k_v6 c); [inversion E; subst; exact H1|]. rewrite write_pair in E. pose proof (K (Redirect ALL) _ H1) as H3. change (goal (Redirect ALL)) with 48 in H3.
    rewrite write_pair in E. pose proof (K (Spoof ALL) _ H3) as H4. change (goal (Spoof ALL)) with 48 in H4. destruct (at_least_2_6_31 _); inversion E; subst; assumption.
Qed.
End GLOBAL.
Lemma global_sets : forall c f s f1 p, set_global c nstart f = Some (s, f1) -> open_for c f p ->
  (k_forward c = true /\ p = fwd_path c) \/ (k_sgw c && (negb (k_v6 c) || k_niit c) = true /\ p = Spoof TUNL0) \/ (k_v6 c = false /\ p = Redirect ALL) \/ (k_v6 c = false /\ at_least_2_6_31 (k_uts c) = true /\ p = Spoof ALL) ->
  fine p f1.
Proof.
  intros c f s f1 p E (R & O) D. set (Th := fun g : procfs => exists x l, g p = Some (x :: l)).
  assert (KT : forall q g, Th g -> Th (snd (write_proc (k_ro c) q (goal q) g))) by (intros q g; apply there_write).
  assert (KF : forall q g, fine p g -> fine p (snd (write_proc (k_ro c) q (goal q) g))) by (intros q g; apply fine_write).
  unfold set_global in E. rewrite write_pair in E. set (w := write_proc _ _ _ f) in E.
  assert (T1 : Th (snd w)). { subst w. destruct (k_forward c); [rewrite <- (goal_fwd c); now apply KT|now rewrite write_zero]. }
  assert (F1 : k_forward c = true -> p = fwd_path c -> fine p (snd w)). { intros Fo ->. subst w. rewrite Fo. rewrite <- (goal_fwd c). now apply fine_now. }
  assert (F1k : fine p f -> fine p (snd w)). { intros Fi. subst w. destruct (k_forward c); [rewrite <- (goal_fwd c); now apply KF|now rewrite write_zero]. }
  destruct (_ && negb (k_forward c) && _); [discriminate|]. rewrite write_pair in E. set (f2 := snd w) in *. clearbody f2. clear F1k.
  set (f3 := if k_sgw c && (negb (k_v6 c) || k_niit c) then snd (write_proc (k_ro c) (Spoof TUNL0) 48 f2) else f2).
  assert (T3 : Th f3). { subst f3. destruct (k_sgw c && _); [exact (KT (Spoof TUNL0) _ T1)|exact T1]. }
  assert (F3 : fine p f2 -> fine p f3). { intros Fi. subst f3. destruct (k_sgw c && _); [exact (KF (Spoof TUNL0) _ Fi)|exact Fi]. }
  assert (F3n : k_sgw c && (negb (k_v6 c) || k_niit c) = true -> p = Spoof TUNL0 -> fine p f3). { intros S ->. subst f3. rewrite S. exact (fine_now _ (Spoof TUNL0) f2 R T1). }
  set (tun := if k_sgw c && (negb (k_v6 c) || k_niit c) then kept (fst (write_proc (k_ro c) (Spoof TUNL0) 48 f2)) (n_tun nstart) else n_tun nstart).
  replace (if k_sgw c && (negb (k_v6 c) || k_niit c) then _ else (n_tun nstart, f2)) with (tun, f3) in E by (subst tun f3; now destruct (k_sgw c && _)). clearbody f3 tun.
  destruct (k_v6 c) eqn:V.
  { inversion E; subst. destruct D as [(A & B)|[(A & B)|[(A & B)|(A & B)]]]; [auto|auto|discriminate|discriminate]. }
  rewrite write_pair in E. set (f4 := snd (write_proc (k_ro c) (Redirect ALL) 48 f3)) in *.
  assert (T4 : Th f4) by exact (KT (Redirect ALL) _ T3). assert (F4 : fine p f3 -> fine p f4) by exact (KF (Redirect ALL) f3).
  assert (F4n : p = Redirect ALL -> fine p f4) by (intros ->; exact (fine_now _ (Redirect ALL) f3 R T3)). clearbody f4.
  rewrite write_pair in E. destruct (at_least_2_6_31 (k_uts c)) eqn:U; inversion E; subst f1.
  - pose proof (KF (Spoof ALL) f4) as F5. change (goal (Spoof ALL)) with 48 in F5. destruct D as [(A & B)|[(A & B)|[(A & B)|(A & B & C)]]]; auto 6. subst p. exact (fine_now _ (Spoof ALL) f4 R T4).
  - destruct D as [(A & B)|[(A & B)|[(A & B)|(A & B & C)]]]; auto 6. discriminate.
Qed.
Lemma in_force_ok : forall c l f f' p, runs c l f f' -> wanted c f l p -> open_for c f p -> fine p f'.
Proof.
  intros c l f f' p (s & f1 & s' & E & S) W O.
  assert (KF : forall q g, fine p g -> fine p (snd (write_proc (k_ro c) q (goal q) g))) by (intros q g; apply fine_write).
  assert (G : fine p f1 -> fine p f'). { intros Fi. pose proof (keeps_steps c l s f1 (fine p) KF Fi) as H. now rewrite S in H. }
  assert (KT : forall q r g, (exists x l, g q = Some (x :: l)) -> exists x l, snd (write_proc (k_ro c) r (goal r) g) q = Some (x :: l)) by (intros; now apply there_write).
  assert (U : forall name send, In (Up name send) l -> k_v6 c = false -> (p = Redirect (basename name) \/ p = Spoof (basename name) /\ open_for c f (Redirect (basename name))) -> fine p f').
  { intros name send I V D. apply in_split in I. destruct I as (l1 & l2 & ->). rewrite steps_app in S. set (f2 := snd (nsteps c l1 s f1)) in *. set (s2 := fst (nsteps c l1 s f1)) in *.
    assert (Th : forall q, (exists x y, f q = Some (x :: y)) -> exists x y, f2 q = Some (x :: y)).
    { intros q H. apply (keeps_steps c l1 s f1 (fun g => exists x y, g q = Some (x :: y)) (KT q)). exact (global_keeps c (fun g => exists x y, g q = Some (x :: y)) (KT q) _ _ _ _ E H). }
    clearbody f2 s2. cbn [nsteps] in S. unfold nstep in S. rewrite V in S.
    assert (Fi : fine p (snd (set_if (k_ro c) (basename name) f2))).
    { unfold set_if. rewrite write_pair. destruct O as (R & O). destruct D as [->|(-> & R2 & O2)].
      - pose proof (fine_now _ (Redirect (basename name)) f2 R (Th _ O)) as H. change (goal (Redirect (basename name))) with 48 in H.
        destruct (fst (write_proc (k_ro c) (Redirect (basename name)) 48 f2)); [|exact H]. rewrite write_pair. exact (KF (Spoof (basename name)) _ H).
      - destruct (proj2 (write_fst (k_ro c) (Redirect (basename name)) 48 f2 ltac:(lia)) (conj R2 (Th _ O2))) as (x & X). rewrite X. rewrite write_pair.
        exact (fine_now _ (Spoof (basename name)) _ R (KT _ (Redirect (basename name)) _ (Th _ O))). }
    destruct (set_if (k_ro c) (basename name) f2) as [n f3]. pose proof (keeps_steps c l2 (if send then mkN (n_fwd s2) (n_red s2) (n_rp s2) (n_tun s2) (n :: n_ifs s2) else s2) f3 (fine p) KF Fi) as H. now rewrite S in H. }
  inversion W; subst.
  - apply G. eapply global_sets; [exact E|exact O|]. left. unfold fwd_path. now rewrite H0.
  - apply G. eapply global_sets; [exact E|exact O|]. left. unfold fwd_path. now rewrite H0.
  - apply G. eapply global_sets; [exact E|exact O|]. right. left. split; [|reflexivity]. destruct H0 as [-> | ->]; rewrite H; cbn; now rewrite ?orb_true_r.
  - apply G. eapply global_sets; [exact E|exact O|]. right. right. now left.
  - apply G. eapply global_sets; [exact E|exact O|]. right. right. right. split; [assumption|]. split; [|reflexivity]. rewrite H0. eapply version_ok; eassumption.
  - apply (U name send); [assumption..|]. left. now rewrite (basename_ok name d).
  - apply (U name send); [assumption..|]. right. now rewrite (basename_ok name d).
Qed.

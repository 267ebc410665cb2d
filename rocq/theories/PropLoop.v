(** C46, C47: change flags, recalculation and the advertised sequence number. *)
From Verif Require Import Base Loop.

Definition is_process (x : lev) : bool := match x with Process _ => true | _ => false end.
Definition is_check (x : lev) : bool := match x with CheckLinks => true | _ => false end.
(** the last route calculation, if any, is at least one backoff timer ago *)
Definition rested (l : list lev) : Prop :=
  forallb (fun x => negb (is_process x)) l = true \/
  exists l1 l2, l = l1 ++ BackoffExpire :: l2 /\ forallb (fun x => negb (is_process x)) l2 = true.
Definition after (n : nat) (red : Z) (l : list lev) : ls := fst (lrun n red linit l).
Definition trace (n : nat) (red : Z) (s : ls) (l : list lev) : list out := snd (lrun n red s l).
(** events that change the topology or the neighborhood in state [s] *)
Definition changes (s : ls) (x : lev) : Prop :=
  match x with
  | LinkCost | Topology | Networks => True
  | NbStatus a b => exists n, In n (nbrs s) /\ n_addr n = a /\ n_sym n <> b
  | NbDel a => In a (map n_addr (nbrs s))
  | _ => False
  end.
Definition neighborhood (x : lev) : Prop := match x with LinkCost | NbStatus _ _ | NbDel _ => True | _ => False end.

Lemma run_app n red : forall l1 l2 s,
  lrun n red s (l1 ++ l2) = let (s1, o1) := lrun n red s l1 in let (s2, o2) := lrun n red s1 l2 in (s2, o1 ++ o2).
Proof.
  induction l1 as [|x l1 IH]; intros l2 s; cbn [app lrun]; [destruct (lrun n red s l2); reflexivity|].
  destruct (lstep n red s x) as [s1 o1]. rewrite IH. destruct (lrun n red s1 l1) as [s2 o2]. destruct (lrun n red s2 l2) as [s3 o3].
  rewrite app_assoc. reflexivity.
Qed.
Lemma after_app n red l1 l2 : after n red (l1 ++ l2) = fst (lrun n red (after n red l1) l2).
Proof. unfold after. rewrite run_app. destruct (lrun n red linit l1) as [s1 o1]. cbn. destruct (lrun n red s1 l2). reflexivity. Qed.

Ltac cases := repeat match goal with
  | |- context [if ?b then _ else _] => destruct b
  | |- context [match ?x with _ => _ end] => destruct x
  end.
(** flags stay up until they are processed *)
Lemma step_keep n red s x : is_process x = false ->
  (f_nb s = true -> f_nb (fst (lstep n red s x)) = true) /\ (f_topo s = true -> f_topo (fst (lstep n red s x)) = true) /\
  (f_hna s = true -> f_hna (fst (lstep n red s x)) = true).
Proof.
  destruct x; cbn [is_process lstep fst]; try discriminate; intros _;
    unfold update_mprs, expire_mprs, nb_status, nb_add, nb_del, check_links, raise, with_mprs, with_nbrs, with_backoff; cases; cbn;
    repeat split; intros ->; reflexivity.
Qed.
Lemma run_keep n red : forall l s, forallb (fun x => negb (is_process x)) l = true ->
  (f_nb s = true -> f_nb (fst (lrun n red s l)) = true) /\ (f_topo s = true -> f_topo (fst (lrun n red s l)) = true) /\
  (f_hna s = true -> f_hna (fst (lrun n red s l)) = true).
Proof.
  induction l as [|x l IH]; cbn [lrun forallb]; intros s H; [auto|]. apply andb_true_iff in H. destruct H as [H1 H2].
  destruct (lstep n red s x) as [s1 o1] eqn:E. pose proof (step_keep n red s x) as K. rewrite E in K. cbn [fst] in K.
  specialize (IH s1 H2). destruct (lrun n red s1 l) as [s2 o2]. cbn [fst] in *. destruct (is_process x); [discriminate|].
  destruct (K eq_refl) as [K1 [K2 K3]]. destruct IH as [I1 [I2 I3]]. auto.
Qed.
Lemma run_rested n red : forall l s, forallb (fun x => negb (is_process x)) l = true -> backoff s = false -> backoff (fst (lrun n red s l)) = false.
Proof.
  induction l as [|x l IH]; cbn [lrun forallb]; intros s H B; [auto|]. apply andb_true_iff in H. destruct H as [H1 H2].
  destruct (lstep n red s x) as [s1 o1] eqn:E. assert (B1 : backoff s1 = false).
  { change s1 with (fst (s1, o1)). rewrite <- E. destruct x; cbn [is_process lstep fst negb] in *; try discriminate;
    unfold update_mprs, expire_mprs, nb_status, nb_add, nb_del, check_links, raise, with_mprs, with_nbrs, with_backoff; cases; cbn; congruence. }
  specialize (IH s1 H2 B1). destruct (lrun n red s1 l). exact IH.
Qed.
Lemma rested_backoff n red l : rested l -> backoff (after n red l) = false.
Proof.
  intros [H|[l1 [l2 [-> H]]]]; [apply run_rested; auto|]. rewrite after_app. cbn [lrun lstep].
  pose proof (run_rested n red l2 (with_backoff (after n red l1) false) H eq_refl) as R.
  destruct (lrun n red (with_backoff (after n red l1) false) l2). exact R.
Qed.

Theorem C46_recalculation_partial : forall n red l1 x l2 k, changes (after n red l1) x ->
  forallb (fun y => negb (is_process y)) l2 = true -> rested (l1 ++ x :: l2) ->
  let s := after n red (l1 ++ x :: l2) in
  let s' := after n red (l1 ++ x :: l2 ++ [Process k]) in
  exists o1 o2 a b c, trace n red s [Process k] = o1 ++ ORoutes :: o2 /\
    (neighborhood x -> o1 = [OMpr]) /\ (o1 = [OMpr] \/ o1 = []) /\
    o2 = map (fun i => OListener i a b c) (seq 0 n) /\ (f_nb s = true -> a = true) /\ (f_topo s = true -> b = true) /\ (f_hna s = true -> c = true) /\
    f_nb s' = false /\ f_topo s' = false /\ f_hna s' = false.
Proof.
  intros n red l1 x l2 k C P R s s'.
  assert (B : backoff s = false) by (apply rested_backoff; exact R).
  assert (F : (f_nb s || f_topo s || f_hna s) = true /\ (neighborhood x -> f_nb s = true)).
  { subst s. rewrite after_app. cbn [lrun]. set (s0 := after n red l1) in *. destruct (lstep n red s0 x) as [s1 o1] eqn:E.
    pose proof (run_keep n red l2 s1 P) as K. destruct (lrun n red s1 l2) as [s2 o2]. cbn [fst] in *. destruct K as [K1 [K2 K3]].
    assert (Q : (f_nb s1 = true \/ f_topo s1 = true \/ f_hna s1 = true) /\ (neighborhood x -> f_nb s1 = true)).
    { change s1 with (fst (s1, o1)). rewrite <- E. destruct x; cbn [changes neighborhood lstep fst] in *; try contradiction.
      - unfold nb_status. destruct C as [m [C1 [C2 C3]]]. assert (X : existsb (fun q => (n_addr q =? a) && negb (eqb (n_sym q) sym)) (nbrs s0) = true).
        { apply existsb_exists. exists m. split; [exact C1|]. destruct (n_sym m), sym; cbn; try lia; congruence. }
        rewrite X. cbn. rewrite !orb_true_r. auto.
      - unfold nb_del. apply in_map_iff in C. destruct C as [m [C1 C2]]. assert (X : existsb (fun q => n_addr q =? a) (nbrs s0) = true).
        { apply existsb_exists. exists m. split; [exact C2|lia]. }
        rewrite X. cbn. rewrite !orb_true_r. auto.
      - cbn. rewrite !orb_true_r. auto.
      - cbn. rewrite !orb_true_r. split; [auto|contradiction].
      - cbn. rewrite !orb_true_r. split; [auto|contradiction]. }
    destruct Q as [Q1 Q2]. split; [|auto]. rewrite !orb_true_iff. destruct Q1 as [Q1|[Q1|Q1]]; auto. }
  subst s'. change (l1 ++ x :: l2 ++ [Process k]) with (l1 ++ (x :: l2) ++ [Process k]). rewrite app_assoc, after_app. fold s.
  destruct F as [F1 F2]. unfold trace. cbn [lrun lstep]. unfold process_changes.
  assert (G : negb (f_nb s) && negb (f_topo s) && negb (f_hna s) = false) by (destruct (f_nb s), (f_topo s), (f_hna s); cbn in *; congruence).
  rewrite G.
  set (s1 := if f_nb s then _ else s). assert (B1 : backoff s1 = false) by (subst s1; destruct (f_nb s); exact B). rewrite B1.
  assert (E1 : f_nb s1 = f_nb s /\ f_topo s1 = f_topo s /\ f_hna s1 = f_hna s).
  { subst s1. destruct (f_nb s) eqn:Y; cbn; rewrite ?Y, ?orb_false_r; auto. }
  destruct E1 as [E1 [E2 E3]]. cbn [fst snd].
  exists (if f_nb s then [OMpr] else []), (map (fun i => OListener i (f_nb s1 || false) (f_topo s1 || k_topo k) (f_hna s1 || k_hna k)) (seq 0 n)).
  eexists _, _, _. split; [rewrite app_nil_r; destruct (f_nb s); reflexivity|]. split; [intros N; rewrite (F2 N); reflexivity|].
  split; [destruct (f_nb s); auto|]. split; [reflexivity|]. rewrite E1, E2, E3. split; [intros ->; reflexivity|]. split; [intros ->; reflexivity|].
  split; [intros ->; reflexivity|]. auto.
Qed.
Print Assumptions C46_recalculation_partial.
Example C46_ex : let l := [NbAdd 7; NbStatus 7 true; Process (mkCalc [7] true false false); CheckLinks; BackoffExpire] in
  changes (after 2 0 l) (NbDel 7) /\ rested (l ++ [NbDel 7]) /\
  trace 2 0 (after 2 0 (l ++ [NbDel 7])) [Process (mkCalc [] false false true)] =
    [OMpr; ORoutes; OListener 0 true false true; OListener 1 true false true].
Proof.
  split; [left; reflexivity|]. split; [right; exists [NbAdd 7; NbStatus 7 true; Process (mkCalc [7] true false false); CheckLinks], [NbDel 7]; split; reflexivity|].
  vm_compute. reflexivity.
Qed.

Theorem C46_quiet : forall n red s k, f_nb s = false -> f_topo s = false -> f_hna s = false -> lstep n red s (Process k) = (s, []).
Proof. intros n red s k A B C. cbn [lstep]. unfold process_changes. rewrite A, B, C. reflexivity. Qed.
Print Assumptions C46_quiet.

(** one pass of the main loop in which nothing but the backoff timer happens *)
Definition quiet_pass (k : calc) : list lev := [BackoffExpire; Process k; CheckLinks].
(** A change of the topology during the second after a route calculation: the
    change flag is cleared without a calculation, and none follows in any number of
    further passes. *)
Theorem C46_stale_refuted : exists l x, changes (after 0 0 l) x /\
  forall k ks, existsb (fun o => match o with ORoutes => true | _ => false end)
    (trace 0 0 (after 0 0 l) (x :: Process k :: CheckLinks :: concat (map quiet_pass ks))) = false.
Proof.
  exists [Topology; Process (mkCalc [] false false false); CheckLinks], Topology. split; [exact I|]. intros k ks.
  assert (H : forall b ks, snd (lrun 0 0 (mkLs false false false false 0 b [] []) (concat (map quiet_pass ks))) = []).
  2:{ replace (after 0 0 _) with (mkLs false false false false 0 true [] []) by reflexivity. unfold trace.
      change (Topology :: Process k :: CheckLinks :: concat (map quiet_pass ks)) with ([Topology; Process k; CheckLinks] ++ concat (map quiet_pass ks)).
      rewrite run_app. replace (lrun 0 0 _ [Topology; Process k; CheckLinks]) with (mkLs false false false false 0 true [] [], @nil out) by reflexivity.
      specialize (H true ks). destruct (lrun 0 0 _ (concat (map quiet_pass ks))) as [s2 o2]. cbn in *. subst o2. reflexivity. }
  intros b ks'. revert b. induction ks' as [|q ks' IH]; intros b; [reflexivity|].
  cbn [map concat]. rewrite run_app. replace (lrun 0 0 _ (quiet_pass q)) with (mkLs false false false false 0 false [] [], @nil out) by reflexivity.
  specialize (IH false). destruct (lrun 0 0 _ (concat (map quiet_pass ks'))) as [s2 o2]. exact IH.
Qed.
Print Assumptions C46_stale_refuted.

(** C47 *)
(** [a] was selected by HELLO messages and has not expired since *)
Fixpoint selector (a : Z) (l : list lev) (b : bool) : bool :=
  match l with
  | [] => b
  | Selected x :: l' => selector a l' (b || (x =? a))
  | SelExpire x :: l' => selector a l' (b && negb (x =? a))
  | _ :: l' => selector a l' b
  end.
Lemma dequeue_in a x l : NoDup l -> (In x (dequeue a l) <-> In x l /\ x <> a).
Proof.
  induction 1 as [|y l N D IH]; cbn [dequeue In]; [tauto|]. destruct (Z.eqb_spec y a) as [->|E]; cbn [In].
  - split; [intros H; split; [auto|intros ->; contradiction]|intros [[->|H] K]; [contradiction|exact H]].
  - rewrite IH. split; [intros [->|[H K]]; auto|intros [[->|H] K]; auto].
Qed.
Lemma dequeue_nodup a l : NoDup l -> NoDup (dequeue a l).
Proof.
  induction 1 as [|y l N D IH]; cbn [dequeue]; [constructor|]. destruct (y =? a); [exact D|]. constructor; [|exact IH].
  intros H. apply (dequeue_in a y l D) in H. tauto.
Qed.
Lemma lookup_in s a : lookup_mprs s a = true <-> In a (mprs s).
Proof.
  unfold lookup_mprs. rewrite existsb_exists. split; [intros [x [A B]]; apply Z.eqb_eq in B; subst; exact A|].
  intros H. exists a. split; [exact H|apply Z.eqb_refl].
Qed.
Lemma mprs_step n red s x : mprs (fst (lstep n red s x)) =
  match x with
  | Selected a => if lookup_mprs s a then mprs s else a :: mprs s
  | SelExpire a => if lookup_mprs s a then dequeue a (mprs s) else mprs s
  | _ => mprs s
  end.
Proof.
  destruct x; cbn [lstep fst]; unfold update_mprs, expire_mprs, nb_status, nb_add, nb_del, check_links, process_changes, raise, with_mprs, with_nbrs, with_backoff;
  cases; reflexivity.
Qed.
Theorem C47_selectors : forall n red l a, NoDup (mprs (after n red l)) /\ (In a (mprs (after n red l)) <-> selector a l false = true).
Proof.
  intros n red l a. unfold after. enough (H : forall l s, NoDup (mprs s) ->
    NoDup (mprs (fst (lrun n red s l))) /\ (In a (mprs (fst (lrun n red s l))) <-> selector a l (lookup_mprs s a) = true)).
  { apply (H l linit). constructor. }
  clear l. induction l as [|x l IH]; intros s D; cbn [lrun]; [cbn; split; [exact D|symmetry; apply lookup_in]|].
  destruct (lstep n red s x) as [s1 o1] eqn:E. pose proof (mprs_step n red s x) as M. rewrite E in M. cbn [fst] in M.
  assert (D1 : NoDup (mprs s1)).
  { rewrite M. destruct x; auto; destruct (lookup_mprs s a0) eqn:L; auto; [|apply dequeue_nodup; exact D].
    constructor; [|exact D]. intros H. apply lookup_in in H. congruence. }
  specialize (IH s1 D1). destruct (lrun n red s1 l) as [s2 o2]. cbn [fst] in *. destruct IH as [I1 I2]. split; [exact I1|]. rewrite I2.
  assert (Q : lookup_mprs s1 a = match x with Selected y => lookup_mprs s a || (y =? a) | SelExpire y => lookup_mprs s a && negb (y =? a) | _ => lookup_mprs s a end).
  { apply eq_true_iff_eq. rewrite lookup_in, M. destruct x; try (symmetry; apply lookup_in).
    - rewrite orb_true_iff, lookup_in, Z.eqb_eq. destruct (lookup_mprs s a0) eqn:L; cbn [In].
      + apply lookup_in in L. split; [tauto|intros [H|<-]; auto].
      + split; intros [H|H]; auto.
    - rewrite andb_true_iff, negb_true_iff, Z.eqb_neq, lookup_in. destruct (lookup_mprs s a0) eqn:L.
      + rewrite dequeue_in by exact D. split; intros [A B]; auto.
      + split; [intros A; split; [exact A|]|tauto]. intros ->. apply lookup_in in A. congruence. }
  cbn [selector]. destruct x; rewrite Q; reflexivity.
Qed.
Print Assumptions C47_selectors.
Example C47_selectors_ex : let l := [Selected 1; Selected 2; Selected 1; CheckLinks; SelExpire 2] in
  mprs (after 0 0 l) = [1] /\ selector 1 l false = true /\ selector 2 l false = false.
Proof. vm_compute. auto. Qed.

(** does the event change the selector set in state [s]? *)
Definition alters (s : ls) (x : lev) : Prop :=
  match x with Selected a => ~ In a (mprs s) | SelExpire a => In a (mprs s) | _ => False end.
Lemma link_step n red s x : is_check x = false -> ansn (fst (lstep n red s x)) = ansn s /\ (f_link s = true -> f_link (fst (lstep n red s x)) = true).
Proof.
  destruct x; cbn [is_check lstep fst]; try discriminate; intros _;
    unfold update_mprs, expire_mprs, nb_status, nb_add, nb_del, process_changes, raise, with_mprs, with_nbrs, with_backoff; cases; cbn;
    split; try reflexivity; intros ->; reflexivity.
Qed.
Lemma link_run n red : forall l s, forallb (fun x => negb (is_check x)) l = true ->
  ansn (fst (lrun n red s l)) = ansn s /\ (f_link s = true -> f_link (fst (lrun n red s l)) = true).
Proof.
  induction l as [|x l IH]; intros s H; cbn [lrun]; [auto|]. cbn [forallb] in H. apply andb_true_iff in H. destruct H as [H1 H2].
  destruct (lstep n red s x) as [s1 o1] eqn:E. pose proof (link_step n red s x ltac:(destruct (is_check x); [discriminate|reflexivity])) as K.
  rewrite E in K. cbn [fst] in K. specialize (IH s1 H2). destruct (lrun n red s1 l). cbn [fst] in *. destruct K, IH. split; [congruence|auto].
Qed.
Theorem C47_increase : forall n red l1 x l2, alters (after n red l1) x -> forallb (fun y => negb (is_check y)) l2 = true ->
  ansn (after n red (l1 ++ x :: l2 ++ [CheckLinks])) = (ansn (after n red l1) + 1) mod 65536 /\
  f_link (after n red (l1 ++ x :: l2 ++ [CheckLinks])) = false.
Proof.
  intros n red l1 x l2 A P. rewrite after_app. set (s := after n red l1) in *. cbn [lrun].
  destruct (lstep n red s x) as [s1 o1] eqn:E.
  assert (K : ansn s1 = ansn s /\ f_link s1 = true).
  { change s1 with (fst (s1, o1)). rewrite <- E. destruct x; cbn [alters] in A; try contradiction; cbn [lstep fst]; unfold update_mprs, expire_mprs.
    - destruct (lookup_mprs s a) eqn:L; [apply lookup_in in L; contradiction|]. cbn. rewrite orb_true_r. auto.
    - apply lookup_in in A. rewrite A. cbn. rewrite orb_true_r. auto. }
  destruct K as [K1 K2]. rewrite run_app. pose proof (link_run n red l2 s1 P) as R. destruct (lrun n red s1 l2) as [s2 o2]. cbn [fst] in R.
  destruct R as [R1 R2]. cbn [lrun lstep]. unfold check_links. rewrite (R2 K2). cbn. rewrite R1, K1. auto.
Qed.
Print Assumptions C47_increase.
Example C47_increase_ex : alters (after 0 0 [Selected 1; CheckLinks]) (SelExpire 1) /\
  ansn (after 0 0 ([Selected 1; CheckLinks] ++ SelExpire 1 :: [Selected 3; SendTc] ++ [CheckLinks])) = 2.
Proof. split; [left; reflexivity|vm_compute; reflexivity]. Qed.

(** only the check in the main loop changes the number, and only if a change was signalled *)
Theorem C47_only : forall n red s x, ansn (fst (lstep n red s x)) <> ansn s -> x = CheckLinks /\ f_link s = true.
Proof.
  intros n red s x H. destruct (is_check x) eqn:C.
  - destruct x; try discriminate. split; [reflexivity|]. cbn [lstep fst] in H. unfold check_links in H. destruct (f_link s); [reflexivity|congruence].
  - exfalso. apply H. apply link_step. exact C.
Qed.
Print Assumptions C47_only.

(** with tc_redundancy 2: same number, no signal pending, so the same neighbors *)
Lemma adv_step n s x : f_link (fst (lstep n 2 s x)) = false -> f_link s = false -> advertised 2 (fst (lstep n 2 s x)) = advertised 2 s.
Proof.
  unfold advertised. cbn [Z.eqb Pos.eqb]. destruct x; cbn [lstep fst];
    unfold update_mprs, expire_mprs, nb_status, nb_add, nb_del, process_changes, check_links; cbn [Z.gtb Z.compare Pos.compare Pos.compare_cont].
  - destruct (lookup_mprs s a); cbn; [auto|rewrite orb_true_r; discriminate].
  - destruct (lookup_mprs s a); cbn; [rewrite orb_true_r; discriminate|auto].
  - destruct (existsb _ (nbrs s)) eqn:X; cbn; [rewrite orb_true_r; discriminate|]. intros _ _. f_equal. revert X. generalize (nbrs s).
    induction l as [|m l IH]; cbn [existsb map filter]; [reflexivity|]. intros X. apply orb_false_iff in X. destruct X as [X1 X2]. rewrite (IH X2).
    destruct (Z.eqb_spec (n_addr m) a) as [E|E]; cbn [andb] in X1; [|reflexivity]. destruct m as [ma ms mm]. cbn in *. subst ma.
    destruct ms, sym; cbn in X1; try discriminate; reflexivity.
  - destruct (existsb _ (nbrs s)); reflexivity.
  - destruct (existsb _ (nbrs s)); cbn; [rewrite orb_true_r; discriminate|reflexivity].
  - cbn. rewrite orb_true_r. discriminate.
  - reflexivity.
  - reflexivity.
  - reflexivity.
  - reflexivity.
  - intros _ _. destruct (negb (f_nb s) && _ && _); [reflexivity|]. cbn [fst nbrs].
    assert (Q : forall t, nbrs (if backoff t then t else raise (with_backoff t true) false (k_topo k) (k_hna k) false) = nbrs t) by (intros t; destruct (backoff t); reflexivity).
    rewrite Q. destruct (f_nb s); [|reflexivity]. cbn. generalize (nbrs s). induction l as [|m l IH]; cbn [map filter n_sym n_addr]; [reflexivity|].
    destruct (n_sym m); cbn [andb map n_addr]; rewrite IH; reflexivity.
  - intros _ F. rewrite F. reflexivity.
Qed.
Theorem C47_advertised_partial : forall n l s, f_link s = false -> (forall l1 l2, l = l1 ++ l2 -> f_link (fst (lrun n 2 s l1)) = false) ->
  advertised 2 (fst (lrun n 2 s l)) = advertised 2 s.
Proof.
  intros n. induction l as [|x l IH]; intros s F H; [reflexivity|]. pose proof (H [x] l eq_refl) as H1. cbn [lrun] in H1 |- *.
  destruct (lstep n 2 s x) as [s1 o1] eqn:E. cbn [fst] in H1. pose proof (adv_step n s x) as A. rewrite E in A. cbn [fst] in A.
  specialize (IH s1 H1). destruct (lrun n 2 s1 l) as [s2 o2] eqn:R. cbn [fst] in *. rewrite IH; [auto|]. intros l1 l2 ->.
  specialize (H (x :: l1) l2 eq_refl). cbn [lrun] in H. rewrite E in H. destruct (lrun n 2 s1 l1). exact H.
Qed.
Print Assumptions C47_advertised_partial.
Example C47_advertised_ex : let s := after 1 2 [NbAdd 5; NbStatus 5 true; CheckLinks] in f_link s = false /\ advertised 2 s = [5] /\
  (forall l1 l2, [NbAdd 6; Topology; SendTc; Process (mkCalc [] false false false)] = l1 ++ l2 -> f_link (fst (lrun 1 2 s l1)) = false).
Proof.
  split; [reflexivity|]. split; [reflexivity|]. intros l1 l2. do 5 (destruct l1 as [|? l1]; [intros _; reflexivity|try discriminate; intros [= <- H]; revert H]).
Qed.

(** A TC message with the new neighbors and the old number: the timers run before
    the number is increased. *)
Theorem C47_early_refuted : exists l s a m1 m2, s = after 0 0 l /\
  trace 0 0 linit (l ++ [CheckLinks]) = [OTc a m1; OTc a m2] /\ m1 <> m2.
Proof.
  exists [NbAdd 5; NbStatus 5 true; SendTc; Selected 5; SendTc]. eexists. exists 0, [], [5]. split; [reflexivity|].
  split; [vm_compute; reflexivity|discriminate].
Qed.
Print Assumptions C47_early_refuted.
(** With tc_redundancy 0 a selector that is no longer symmetric disappears from the
    TC messages, and no signal is raised. *)
Theorem C47_status_refuted : exists l a m1 m2, f_link (after 0 0 l) = false /\
  trace 0 0 (after 0 0 l) [SendTc; NbStatus 5 false; Process (mkCalc [] false false false); CheckLinks; SendTc] =
    [OTc a m1; OMpr; OTc a m2] /\ m1 <> m2.
Proof.
  exists [NbAdd 5; NbStatus 5 true; Selected 5; Process (mkCalc [] false false false); CheckLinks], 1, [5], [].
  split; [vm_compute; reflexivity|]. split; [vm_compute; reflexivity|discriminate].
Qed.
Print Assumptions C47_status_refuted.
(** The number also grows when nothing about the selectors or the advertised
    neighbors changed: a change of a link cost is enough. *)
Theorem C47_other_refuted : exists l, let s := after 0 0 l in let s' := after 0 0 (l ++ [LinkCost; CheckLinks]) in
  ansn s' <> ansn s /\ mprs s' = mprs s /\ (forall red, advertised red s' = advertised red s) /\ f_link s = false.
Proof.
  exists [NbAdd 5; NbStatus 5 true; Selected 5; CheckLinks]. cbv zeta. split; [vm_compute; discriminate|]. split; [reflexivity|].
  split; [|reflexivity]. intros red. reflexivity.
Qed.
Print Assumptions C47_other_refuted.

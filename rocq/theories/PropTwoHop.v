(** Properties of the two-hop neighbor table: C41, C82. *)
From Verif Require Import Base SchedTime TwoHop TwoHopSpec MidProofs LinkSetProofs LinkSetRunProofs TwoHopProofs TwoHopRunProofs TwoHopExec.

(** A run used below: neighbors 1 (id 0) and 2 (id 1); both list 9, neighbor 1 also lists 11 (an
    alias of 8) and itself; then 1 is heard again. *)
Definition ex_events : list (Z * dev) :=
  [ (1000, DOther (TInsert 1)); (1000, DOther (TStatus 0 true (fun _ => [])));
    (2000, DOther (TInsert 2));
    (3000, DHello 0 [100] [(11, 8)] true 6000 0 (Some 10) [mkH 9 true 5; mkH 11 true 7; mkH 100 true 1; mkH 12 false 3; mkH 9 true 2]);
    (4000, DHello 1 [100] [(11, 8)] true 6000 0 (Some 20) [mkH 9 true 1]);
    (5000, DHello 0 [100] [(11, 8)] true 6000 0 (Some 10) [mkH 9 true 5; mkH 8 true 7]) ].
Definition ex_hash (a : Z) : Z := a mod 128.

(** In all runs without the excluded events the tables agree. *)
Theorem C41_consistent_partial : forall rmax hsh s, nrun rmax hsh tolerable s -> consistent s.
Proof. intros rmax hsh s R. destruct (nrun_wf _ _ _ R) as [W P]. now apply wf_consistent. Qed.
Print Assumptions C41_consistent_partial.
Example C41_consistent_partial_ex : exists s, nrun 2147483647 ex_hash tolerable s /\ nexec 2147483647 ex_hash true tinit ex_events = Some s /\
  map t_addr (twos s) = [8; 9] /\ map t_cnt (twos s) = [1; 2] /\ map (fun t => map e_nbr (t_list t)) (twos s) = [[0]; [1; 0]].
Proof.
  destruct (nexec 2147483647 ex_hash true tinit ex_events) as [s|] eqn:E; [|vm_compute in E; discriminate].
  pose proof (nexec_run 2147483647 ex_hash true ex_events tinit s (nrun0 _ _ _) E) as R.
  exists s. split; [exact R|]. split; [reflexivity|]. vm_compute in E. inversion E; subst. auto.
Qed.

(** In such a run no event follows a pointer to freed memory. *)
Theorem C41_safe_partial : forall rmax hsh s now e, nrun rmax hsh tolerable s -> tolerable s e -> tpossible now s e = true -> exists s', tstep rmax hsh now s e = Some s'.
Proof.
  intros rmax hsh s now e R TO PO. destruct (nrun_wf _ _ _ R) as [W P]. destruct (step_spec rmax hsh now s e W P TO PO) as (s' & A & _). eauto.
Qed.
Print Assumptions C41_safe_partial.
Example C41_safe_partial_ex : exists s, nrun 2147483647 ex_hash tolerable s /\ tolerable s (TMid 50 1 false [51]) /\ tpossible 6000 s (TMid 50 1 false [51]) = true /\
  option_map (fun x => (map b_addr (nbs x), map l_nbr (n2ls x), map t_cnt (twos x))) (tstep 2147483647 ex_hash 6000 s (TMid 50 1 false [51])) = Some ([50; 2], [1], [1]).
Proof.
  destruct (nexec 2147483647 ex_hash true tinit ex_events) as [s|] eqn:E; [|vm_compute in E; discriminate].
  pose proof (nexec_run 2147483647 ex_hash true ex_events tinit s (nrun0 _ _ _) E) as R.
  exists s. split; [exact R|]. vm_compute in E. inversion E; subst. split; [apply (tolb_ok _ (DOther (TMid 50 1 false [51]))); reflexivity|]. auto.
Qed.

(** With the events that were excluded: a MID message frees a neighbor whose two-hop list is not
    empty, the lists disagree, and the next deletion of that two-hop neighbor uses freed memory. *)
Definition dangling_events : list (Z * dev) :=
  [ (1000, DOther (TInsert 5)); (1100, DHello 0 [] [(5, 1)] false 6000 0 None [mkH 9 true 0]); (1200, DOther (TInsert 1));
    (1300, DOther (TMid 1 7 false [5])); (1400, DOther (TInsert 9)) ].
Theorem C41_dangling_refuted : exists rmax hsh s now e, nrun rmax hsh any s /\ ~ consistent s /\ tpossible now s e = true /\ tstep rmax hsh now s e = None.
Proof.
  destruct (nexec 2147483647 ex_hash false tinit dangling_events) as [s|] eqn:E; [|vm_compute in E; discriminate].
  pose proof (nexec_run 2147483647 ex_hash false dangling_events tinit s (nrun0 _ _ _) E) as R.
  exists 2147483647, ex_hash, s, 1500, (TStatus 4 true (fun _ => [])). split; [exact R|]. vm_compute in E. inversion E; subst. split; [|auto].
  intro C. pose proof (c_nbr _ C _ (or_introl eq_refl)) as Q. cbn in Q. lia.
Qed.
Print Assumptions C41_dangling_refuted.

(** With a chain in the MID set (129 has alias 1, 1 has alias 10) and 129 and 1 in the same bucket, a
    HELLO that lists 129 and 10 links the same pair twice: the count is 2, the number of neighbors 1. *)
Theorem C41_dup_refuted : exists rmax hsh s t ns, nrun rmax hsh any s /\ In t (twos s) /\ NoDup ns /\ (forall n, In n ns <-> reaches s n (t_addr t)) /\
  t_cnt t <> Z.of_nat (length ns).
Proof.
  destruct (nexec 2147483647 ex_hash false tinit
    [ (1000, DOther (TInsert 3)); (1100, DHello 0 [] [(10, 1); (1, 129)] false 6000 0 None [mkH 129 true 0; mkH 10 true 0]) ]) as [s|] eqn:E; [|vm_compute in E; discriminate].
  pose proof (nexec_run 2147483647 ex_hash false _ tinit s (nrun0 _ _ _) E) as R.
  destruct (twos s) as [|t r] eqn:T; [vm_compute in E; inversion E; subst; discriminate|].
  exists 2147483647, ex_hash, s, t, [0]. split; [exact R|]. rewrite T. split; [now left|]. split; [constructor; [easy|constructor]|].
  vm_compute in E. inversion E; subst. cbn in T. inversion T; subst. split; [|cbn; lia].
  intro n. split.
  - intros [<-|[]]. eexists. eexists. cbn. split; [left; reflexivity|]. split; [left; reflexivity|]. auto.
  - intros (l & t & A & B & C & D & F). cbn in A. destruct A as [<-|[<-|[]]]; left; exact C.
Qed.
Print Assumptions C41_dup_refuted.

(** A HELLO adds exactly the two-hop neighbors it names and forgets none. *)
Theorem C41_learned_partial : forall rmax hsh s now n v msg s' m x, nrun rmax hsh tolerable s -> tolerable s (THello n v msg) -> tpossible now s (THello n v msg) = true ->
  tstep rmax hsh now s (THello n v msg) = Some s' -> (reaches s' m x <-> reaches s m x \/ (m = n /\ existsb (names v x) msg = true)).
Proof.
  intros rmax hsh s now n v msg s' m x R [B NC] PO ST. destruct (nrun_wf _ _ _ R) as [W P].
  now apply (hello_paths rmax hsh now v n msg s s' W P NC (possible_nb _ _ PO) B ST).
Qed.
Print Assumptions C41_learned_partial.
Example C41_learned_partial_ex : exists s s', nrun 2147483647 ex_hash tolerable s /\ tolerable s (ev_of (DHello 1 [100] [(11, 8)] true 6000 0 (Some 20) [mkH 11 true 1])) /\
  tstep 2147483647 ex_hash 6000 s (ev_of (DHello 1 [100] [(11, 8)] true 6000 0 (Some 20) [mkH 11 true 1])) = Some s' /\ ~ reaches s 1 8 /\ reaches s' 1 8.
Proof.
  destruct (nexec 2147483647 ex_hash true tinit ex_events) as [s|] eqn:E; [|vm_compute in E; discriminate].
  pose proof (nexec_run 2147483647 ex_hash true ex_events tinit s (nrun0 _ _ _) E) as R. set (d := DHello 1 [100] [(11, 8)] true 6000 0 (Some 20) [mkH 11 true 1]).
  exists s. vm_compute in E. inversion E; subst. clear E. eexists. split; [exact R|]. split; [apply (tolb_ok _ d); reflexivity|]. split; [vm_compute; reflexivity|]. split.
  - intros (l & t & A & B & C & D & F). cbn in A, B. destruct B as [<-|[<-|[]]]; cbn in F; [|discriminate F].
    destruct A as [<-|[<-|[<-|[]]]]; cbn in C, D; discriminate.
  - eexists. eexists. cbn. split; [left; reflexivity|]. split; [left; reflexivity|]. auto.
Qed.

(** A record that a later HELLO confirmed is gone at the latest when the validity has passed. *)
Theorem C41_expiry_partial : forall rmax hsh slack h t s l w tc v, 0 <= rmax < 2147483648 -> 0 <= slack <= 536870912 -> at_time rmax hsh slack h t s ->
  In l (n2ls s) -> In w (twos s) -> l_two l = t_id w -> last_confirmation (l_id l) (l_nbr l) (t_addr w) h = Some (tc, v) -> t <= tc + v + slack.
Proof.
  intros rmax hsh slack h t s l w tc v Hm HS A Il Iw E C. pose proof (at_time_inv _ _ _ _ _ _ Hm HS A) as V.
  destruct (i_rec _ _ _ _ V l (t_addr w) Il) as (t1 & v1 & M & _ & _ & D & K). { rewrite E. now apply in_pairs. }
  pose proof (K _ C) as Q. inversion Q; subst t1 v1. destruct (l_timer l) as [d|]; [|congruence]. destruct D as (D & _ & D1 & D2 & _). lia.
Qed.
Print Assumptions C41_expiry_partial.
Example C41_expiry_partial_ex : exists h s l w, at_time 2147483647 ex_hash 100 h 11000 s /\ In l (n2ls s) /\ In w (twos s) /\ l_two l = t_id w /\
  last_confirmation (l_id l) (l_nbr l) (t_addr w) h = Some (5000, 6000) /\ l_nbr l = 0 /\ t_addr w = 8.
Proof.
  destruct (ntexec 2147483647 ex_hash 100 [] 0 tinit ex_events) as [[[h t] s]|] eqn:E; [|vm_compute in E; discriminate].
  pose proof (ntexec_run 2147483647 ex_hash 100 _ _ _ _ _ _ _ (ntrun0 _ _ _ 0 ltac:(lia)) E) as R. vm_compute in E. inversion E; subst. clear E.
  eexists. eexists. eexists. eexists. split; [exists 5000; split; [exact R|split; [lia|apply promptb_ok; reflexivity]]|].
  split; [right; left; reflexivity|]. split; [left; reflexivity|]. split; [reflexivity|]. split; [vm_compute; reflexivity|]. auto.
Qed.

(** A record that was learned from a single HELLO has no timer and stays. *)
Theorem C41_expiry_refuted : exists rmax hsh slack h t s l w tc v, at_time rmax hsh slack h t s /\ In l (n2ls s) /\ In w (twos s) /\ l_two l = t_id w /\
  last_mention (l_nbr l) (t_addr w) h = Some (tc, v) /\ t > tc + 1000 * v + slack.
Proof.
  destruct (ntexec 2147483647 ex_hash 100 [] 0 tinit [ (1000, DOther (TInsert 1)); (3000, DHello 0 [] [] false 6000 0 None [mkH 9 true 5]) ]) as [[[h t] s]|] eqn:E; [|vm_compute in E; discriminate].
  pose proof (ntexec_run 2147483647 ex_hash 100 _ _ _ _ _ _ _ (ntrun0 _ _ _ 0 ltac:(lia)) E) as R. vm_compute in E. inversion E; subst. clear E.
  exists 2147483647, ex_hash, 100. eexists. exists 10000000. eexists. eexists. eexists. exists 3000, 6000. split; [exists 3000; split; [exact R|split; [lia|apply promptb_ok; reflexivity]]|].
  split; [left; reflexivity|]. split; [left; reflexivity|]. split; [reflexivity|]. split; [vm_compute; reflexivity|]. lia.
Qed.
Print Assumptions C41_expiry_refuted.

(** The timer never fires early: not before 95% of the validity of the last HELLO that named the
    two-hop neighbor has passed. *)
Theorem C41_not_early_partial : forall rmax hsh slack h t s i, 0 <= rmax < 2147483648 -> 0 <= slack <= 536870912 -> at_time rmax hsh slack h t s ->
  tpossible (u32 t) s (TFire i) = true ->
  exists l w t1 v, In l (n2ls s) /\ l_id l = i /\ In w (twos s) /\ l_two l = t_id w /\ last_mention (l_nbr l) (t_addr w) h = Some (t1, v) /\ 95 * v <= 100 * (t - t1).
Proof.
  intros rmax hsh slack h t s i Hm HS A PO. pose proof (at_time_inv _ _ _ _ _ _ Hm HS A) as V. cbn in PO.
  destruct (find (fun l => l_id l =? i) (n2ls s)) as [l|] eqn:F; [|discriminate]. apply find_some in F. destruct F as [Il Ei].
  pose proof (w_lt _ (i_wf _ _ _ _ V) l Il) as Q. apply in_map_iff in Q. destruct Q as (w & Q1 & Q2). pose proof (in_pairs s w Q2) as Q3. rewrite Q1 in Q3.
  destruct (i_rec _ _ _ _ V l (t_addr w) Il Q3) as (t1 & v1 & M & M1 & M2 & D & K). exists l, w, t1, v1. split; [exact Il|]. split; [lia|]. split; [exact Q2|]. split; [auto|]. split; [exact M|].
  destruct (l_timer l) as [d|]; [|discriminate]. destruct D as (D & -> & D1 & D2 & D3). rewrite due_iff in PO by lia. lia.
Qed.
Print Assumptions C41_not_early_partial.
Example C41_not_early_partial_ex : exists h s, at_time 2147483647 ex_hash 100 h 11000 s /\ tpossible (u32 11000) s (TFire 6) = false /\ tpossible (u32 11000) s (TFire 3) = true.
Proof.
  destruct (ntexec 2147483647 ex_hash 100 [] 0 tinit ex_events) as [[[h t] s]|] eqn:E; [|vm_compute in E; discriminate].
  pose proof (ntexec_run 2147483647 ex_hash 100 _ _ _ _ _ _ _ (ntrun0 _ _ _ 0 ltac:(lia)) E) as R. vm_compute in E. inversion E; subst. clear E.
  eexists. eexists. split; [exists 5000; split; [exact R|split; [lia|apply promptb_ok; reflexivity]]|]. split; reflexivity.
Qed.

(** After a HELLO with link quality the cost by way of its sender to each two-hop neighbor it names is
    the best of the listed costs, plus that of the first hop, and never above the cost of a broken link. *)
Theorem C82_path_partial : forall rmax hsh s now n v msg s' x p, nrun rmax hsh tolerable s -> tolerable s (THello n v msg) -> tpossible now s (THello n v msg) = true ->
  tstep rmax hsh now s (THello n v msg) = Some s' -> v_lq v = true -> existsb (names v x) msg = true ->
  match v_best v with Some c => forall k, In k msg -> 0 <= c + h_cost k < 4294967296 | None => True end ->
  (path_cost s' n x p <-> p = match v_best v with Some c => best_path c (listed_costs v x msg) | None => LINK_COST_BROKEN end).
Proof.
  intros rmax hsh s now n v msg s' x p R [B NC] PO ST LQ NM BD. destruct (nrun_wf _ _ _ R) as [W P].
  now apply (hello_paths rmax hsh now v n msg s s' W P NC (possible_nb _ _ PO) B ST).
Qed.
Print Assumptions C82_path_partial.
(** All other costs stay. *)
Theorem C82_other_partial : forall rmax hsh s now n v msg s' m x p, nrun rmax hsh tolerable s -> tolerable s (THello n v msg) -> tpossible now s (THello n v msg) = true ->
  tstep rmax hsh now s (THello n v msg) = Some s' -> ~ (m = n /\ existsb (names v x) msg = true) -> (path_cost s' m x p <-> path_cost s m x p).
Proof.
  intros rmax hsh s now n v msg s' m x p R [B NC] PO ST NM. destruct (nrun_wf _ _ _ R) as [W P].
  now apply (hello_paths rmax hsh now v n msg s s' W P NC (possible_nb _ _ PO) B ST).
Qed.
Print Assumptions C82_other_partial.
Example C82_ex : exists s s' d, nrun 2147483647 ex_hash tolerable s /\ tolerable s (ev_of d) /\ tpossible 6000 s (ev_of d) = true /\ tstep 2147483647 ex_hash 6000 s (ev_of d) = Some s' /\
  path_cost s 0 9 15 /\ path_cost s' 0 9 13 /\ path_cost s 1 9 21 /\ path_cost s' 1 9 21 /\ path_cost s' 0 8 17.
Proof.
  destruct (nexec 2147483647 ex_hash true tinit ex_events) as [s|] eqn:E; [|vm_compute in E; discriminate].
  pose proof (nexec_run 2147483647 ex_hash true ex_events tinit s (nrun0 _ _ _) E) as R. set (d := DHello 0 [100] [(11, 8)] true 6000 0 (Some 10) [mkH 9 true 70; mkH 9 true 3; mkH 9 true 40]).
  exists s. vm_compute in E. inversion E; subst. clear E. eexists. exists d. split; [exact R|]. split; [apply (tolb_ok _ d); reflexivity|]. split; [reflexivity|]. split; [vm_compute; reflexivity|].
  repeat split; [eexists; eexists; cbn; split; [right; left; reflexivity|]; split; [reflexivity|]; split; [right; left; reflexivity|]; auto
   |eexists; eexists; cbn; split; [right; left; reflexivity|]; split; [reflexivity|]; split; [right; left; reflexivity|]; auto
   |eexists; eexists; cbn; split; [right; left; reflexivity|]; split; [reflexivity|]; split; [left; reflexivity|]; auto
   |eexists; eexists; cbn; split; [right; left; reflexivity|]; split; [reflexivity|]; split; [left; reflexivity|]; auto
   |eexists; eexists; cbn; split; [left; reflexivity|]; split; [reflexivity|]; split; [left; reflexivity|]; auto].
Qed.

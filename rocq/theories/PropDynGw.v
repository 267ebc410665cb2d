(** Theorems about the plugins dyn_gw and dyn_gw_plain (C156-C158). *)
From Verif Require Import Base Parser IpCalc DynGw DynGwSpec DynGwProofs DynGwPingProofs.
From Verif Require Rib.

Definition everywhere : list Z * Z := ([0; 0; 0; 0], 0).
Definition up (metric : Z) : line := mkR [0; 0; 0; 0] [0; 0; 0; 0] 3 metric.
Definition ex_secs : list section := [mkSec [[8; 8; 8; 8]; [9; 9; 9; 9]] [everywhere]; mkSec [[10; 0; 0; 1]] [([10; 0; 0; 0], 8); ([10; 1; 0; 0], 16)]].

(** With sections of addresses to ping and networks, after the timer has read the routing
    table a network is announced just if there is a route to it and the last ping of its
    section was answered; other entries stay; pings go to the addresses of the section and
    their results are the answers. *)
Theorem C156_announced dm secs e t0 evs lines s log : secs <> [] -> Forall full secs -> NoDup (all_nets secs) -> (forall p, In p (all_nets secs) -> ~ In p e) ->
  run dm (init dm (config secs) e t0) (evs ++ [Timer (Some lines)]) = (s, log) ->
  (forall i sec p, nth_error secs i = Some sec -> In p (s_nets sec) -> (In p (d_ents s) <-> uplink dm lines p /\ answered log (number secs i))) /\
  (forall q, ~ In q (all_nets secs) -> (In q (d_ents s) <-> In q e)) /\
  (forall i sec a b, nth_error secs i = Some sec -> In (number secs i, a, b) log -> In a (s_pings sec) /\ exists ans, In (Thread ans) (evs ++ [Timer (Some lines)]) /\ ans a = b).
Proof.
  intros NE F N D R. destruct (announced dm secs e t0 evs lines s log NE F N D R) as (A & B & C). split; [exact A|]. split; [exact B|].
  intros i sec a b E I. split; [eapply C; eassumption|]. apply (log_true dm _ (init dm (config secs) e t0) (number secs i) a b). rewrite R. exact I.
Qed.
Print Assumptions C156_announced.
Lemma ex_secs_ok : ex_secs <> [] /\ Forall full ex_secs /\ NoDup (all_nets ex_secs).
Proof.
  split; [discriminate|]. split.
  - repeat constructor; try discriminate; cbn; lia.
  - cbn. repeat constructor; cbn; intuition discriminate.
Qed.
Example C156_announced_ex :
  let r := run 2 (init 2 (config ex_secs) [([1; 2; 3; 0], 24)] None)
    ([Timer (Some [up 0; mkR [10; 1; 0; 0] [255; 255; 0; 0] 1 0]); Thread (fun _ => true); Thread (fun _ => true); Thread (fun a => bytes_eqb a [9; 9; 9; 9])] ++ [Timer (Some [up 0])]) in
  d_ents (fst r) = [everywhere; ([1; 2; 3; 0], 24)] /\ snd r = [(0%nat, [10; 0; 0; 1], true); (1%nat, [9; 9; 9; 9], true)] /\ answered (snd r) (number ex_secs 0) /\ uplink 2 [up 0] everywhere.
Proof.
  split; [vm_compute; reflexivity|]. split; [vm_compute; reflexivity|]. split.
  - exists [(0%nat, [10; 0; 0; 1], true)], [9; 9; 9; 9], []. split; [vm_compute; reflexivity|intros x []].
  - exists (up 0). repeat split; try reflexivity; [left; reflexivity|discriminate].
Qed.

(** Every section with a route to one of its networks is pinged before the thread has looked
    at twice as many networks as there are and one more. *)
Theorem C156_pinged dm secs e t0 evs lines s1 l1 answers s2 l2 : Forall full secs -> NoDup (all_nets secs) -> (forall p, In p (all_nets secs) -> ~ In p e) ->
  run dm (init dm (config secs) e t0) (evs ++ [Timer (Some lines)]) = (s1, l1) -> run dm s1 (map Thread answers) = (s2, l2) -> (2 * length (all_nets secs) + 1 <= length answers)%nat ->
  forall i sec p, nth_error secs i = Some sec -> In p (s_nets sec) -> uplink dm lines p -> exists a b, In (number secs i, a, b) l2.
Proof. apply all_pinged. Qed.
Print Assumptions C156_pinged.
Example C156_pinged_ex :
  let r1 := run 2 (init 2 (config ex_secs) [] None) ([] ++ [Timer (Some [up 0])]) in
  snd (run 2 (fst r1) (map Thread (repeat (fun _ => false) 7))) = [(1%nat, [9; 9; 9; 9], false); (1%nat, [8; 8; 8; 8], false); (1%nat, [9; 9; 9; 9], false); (1%nat, [8; 8; 8; 8], false)].
Proof. vm_compute. reflexivity. Qed.

(** Without addresses to ping, a network is announced just if there is a route to it; without
    networks this is the default route. *)
Theorem C156_unchecked dm nets e t0 evs lines s log : Forall length_ok nets -> NoDup nets ->
  (forall p, In p (match nets with [] => [everywhere] | _ => nets end) -> ~ In p e) ->
  run dm (init dm (map (fun p => PHna (fst p) (mask (snd p))) nets) e t0) (evs ++ [Timer (Some lines)]) = (s, log) ->
  log = [] /\ forall p, In p (d_ents s) <-> In p e \/ In p (match nets with [] => [everywhere] | _ => nets end) /\ uplink dm lines p.
Proof. apply announced_unchecked. Qed.
Print Assumptions C156_unchecked.
Example C156_unchecked_ex : d_ents (fst (run 2 (init 2 [] [([1; 2; 3; 0], 24)] None) ([] ++ [Timer (Some [up 0])]))) = [everywhere; ([1; 2; 3; 0], 24)] /\
  d_ents (fst (run 2 (init 2 [] [([1; 2; 3; 0], 24)] None) ([Timer (Some [up 0])] ++ [Timer (Some [up 2])]))) = [([1; 2; 3; 0], 24)].
Proof. split; vm_compute; reflexivity. Qed.

(** A route that went away and comes back is announced at once on the strength of the old
    answer: nothing has been pinged since it was away. *)
Theorem C156_stale_refuted : exists secs ans lines, Forall full secs /\
  let r := run 2 (init 2 (config secs) [] None) [Timer (Some lines); Thread ans; Timer (Some []); Timer (Some lines)] in
  In everywhere (d_ents (fst r)) /\ uplink 2 lines everywhere /\ ~ uplink 2 [] everywhere.
Proof.
  exists [mkSec [[8; 8; 8; 8]] [everywhere]], (fun _ => true), [up 0]. split; [repeat constructor; try discriminate; cbn; lia|].
  split; [vm_compute; left; reflexivity|]. split; [exists (up 0); repeat split; try reflexivity; [left; reflexivity|discriminate]|]. intros (x & [] & _).
Qed.
Print Assumptions C156_stale_refuted.

(** An entry of the configuration for the same network is removed with the plugin's own. *)
Theorem C156_static_refuted : exists e lines, In everywhere e /\ uplink 2 lines everywhere /\
  ~ In everywhere (d_ents (fst (run 2 (init 2 [] e None) [Timer (Some lines); Timer (Some [])]))).
Proof.
  exists [everywhere], [up 0]. split; [left; reflexivity|]. split; [exists (up 0); repeat split; try reflexivity; [left; reflexivity|discriminate]|]. vm_compute. intros [].
Qed.
Print Assumptions C156_static_refuted.

(** A default route that olsrd itself has written to the kernel counts as a route to the
    Internet, so the node announces what it has only learned: with smart gateways for FLAT
    metrics, and with the number of hops as the metric. *)
Theorem C156_own_refuted : forall cf hops, Rib.cf_smart cf && Rib.cf_gwnet cf everywhere = true \/ Rib.cf_fib cf <> Rib.FLAT /\ Rib.cf_smart cf = false /\ hops <> Rib.cf_default cf ->
  Rib.cf_fib cf = Rib.FLAT \/ Rib.cf_smart cf = false ->
  let own := up (Rib.kmetric cf everywhere hops) in
  In everywhere (d_ents (fst (run (Rib.cf_default cf) (init (Rib.cf_default cf) [] [] None) ([] ++ [Timer (Some [own])])))).
Proof.
  intros cf hops H J own. set (dm := Rib.cf_default cf). destruct (run dm (init dm [] [] None) ([] ++ [Timer (Some [own])])) as [s log] eqn:E. cbn [fst].
  destruct (C156_unchecked dm [] [] None [] [own] s log) as (_ & A); [constructor|constructor|intros p _ []|exact E|]. apply A. right. split; [left; reflexivity|].
  exists own. split; [left; reflexivity|]. split; [reflexivity|]. split; [reflexivity|]. split; [reflexivity|]. cbn [own up r_metric]. unfold Rib.kmetric, dm.
  destruct H as [H|(H1 & H2 & H3)].
  - rewrite H. destruct J as [-> | J]; [lia|]. rewrite J in H. discriminate.
  - rewrite H2. cbn [andb]. destruct (Rib.cf_fib cf); [congruence|lia|lia].
Qed.
Print Assumptions C156_own_refuted.
Example C156_own_refuted_ex : let cf := Rib.mkCf false true Rib.FLAT 2 true 0 (fun d => snd d =? 0) (fun x => x) true in
  Rib.cf_smart cf && Rib.cf_gwnet cf everywhere = true /\ Rib.kmetric cf everywhere 3 = 4 /\ d_ents (fst (run 2 (init 2 [] [] None) [Timer (Some [up 4])])) = [everywhere].
Proof. repeat split; vm_compute; reflexivity. Qed.

(** C157: a network listed before the first address to ping is announced though no ping was
    answered; the section that the address opens gets the default route of its own. *)
Theorem C157_order_refuted : exists ps evs s log, any_ping ps = true /\ run 2 (init 2 ps [] None) evs = (s, log) /\ In ([10; 0; 0; 0], 8) (d_ents s) /\ (forall g a b, In (g, a, b) log -> b = false) /\
  In (Thread (fun _ => false)) evs /\ d_hnas s <> [] /\ exists h, In h (d_hnas s) /\ h_addr h = [0; 0; 0; 0] /\ h_plen h = 0 /\ ~ In (PHna [0; 0; 0; 0] (mask 0)) ps.
Proof.
  exists [PHna [10; 0; 0; 0] (mask 8); PPing [8; 8; 8; 8]], [Timer (Some [mkR [10; 0; 0; 0] [255; 0; 0; 0] 1 0; up 0]); Thread (fun _ => false); Thread (fun _ => false); Thread (fun _ => false); Timer (Some [mkR [10; 0; 0; 0] [255; 0; 0; 0] 1 0])].
  eexists. eexists. split; [reflexivity|]. split; [vm_compute; reflexivity|]. split; [vm_compute; tauto|]. split; [|split; [right; left; reflexivity|split; [discriminate|]]].
  - intros g a b [E|[]]. injection E as _ _ <-. reflexivity.
  - eexists. split; [left; reflexivity|]. split; [reflexivity|]. split; [reflexivity|]. intros [E|[E|[]]]; vm_compute in E; discriminate.
Qed.
Print Assumptions C157_order_refuted.

(** A network in two sections is never announced for the first of them. *)
Theorem C157_twice_refuted : forall t0 answers lines, let secs := [mkSec [[8; 8; 8; 8]] [everywhere]; mkSec [[9; 9; 9; 9]] [everywhere]] in
  Forall (fun ans => ans [8; 8; 8; 8] = true /\ ans [9; 9; 9; 9] = false) answers ->
  ~ In everywhere (d_ents (fst (run 2 (init 2 (config secs) [] t0) (Timer (Some lines) :: map Thread answers ++ [Timer (Some lines)])))).
Proof. apply twice. Qed.
Print Assumptions C157_twice_refuted.
Example C157_twice_refuted_ex : let secs := [mkSec [[8; 8; 8; 8]] [everywhere]; mkSec [[9; 9; 9; 9]] [everywhere]] in
  snd (run 2 (init 2 (config secs) [] None) (Timer (Some [up 0]) :: map Thread (repeat (fun a => bytes_eqb a [8; 8; 8; 8]) 9) ++ [Timer (Some [up 0])])) = repeat (0%nat, [9; 9; 9; 9], false) 3.
Proof. vm_compute. reflexivity. Qed.

(** A mask with holes is taken for the ones at its start: a larger network is announced. *)
Theorem C157_mask_refuted : exists m lines, m = [255; 0; 255; 0] /\ ~ (exists len, 0 <= len <= 32 /\ m = mask len) /\
  In ([10; 0; 0; 0], 8) (d_ents (fst (run 2 (init 2 [PHna [10; 0; 0; 0] m] [] None) [Timer (Some lines)]))).
Proof.
  exists [255; 0; 255; 0], [mkR [10; 0; 0; 0] [255; 0; 0; 0] 1 0]. split; [reflexivity|]. split; [|vm_compute; left; reflexivity].
  intros (len & L & E). assert (X := proj2 (mask_all len L)). rewrite <- E in X. vm_compute in X. subst len. vm_compute in E. discriminate.
Qed.
Print Assumptions C157_mask_refuted.

(** C158: the plugin dyn_gw_plain announces the default route just if the routing table has
    one that is up with metric 0, and touches no other entry. *)
Theorem C158_plain e ts lines : let ents := snd (plain_run e (ts ++ [Some lines])) in
  (In everywhere ents <-> default_route lines) /\ (forall q, q <> everywhere -> (In q ents <-> In q e)).
Proof. apply plain. Qed.
Print Assumptions C158_plain.
Example C158_plain_ex : plain_run [everywhere; ([1; 2; 3; 0], 24)] [None] = (false, [([1; 2; 3; 0], 24)]) /\ plain_run [([1; 2; 3; 0], 24)] [None; Some [up 0]; None] = (true, [everywhere; ([1; 2; 3; 0], 24)]).
Proof. split; vm_compute; reflexivity. Qed.

(** A default route with any other metric is not seen, and one of metric 0 is there for the
    plugin even while the file cannot be read any more. *)
Theorem C158_metric_refuted : forall m e ts, m <> 0 -> ~ In everywhere (snd (plain_run e (ts ++ [Some [up m]]))).
Proof. intros m e ts M H. apply (proj1 (C158_plain e ts [up m])) in H. destruct H as (x & [<-|[]] & _ & _ & _ & X). cbn in X. congruence. Qed.
Print Assumptions C158_metric_refuted.
Example C158_metric_refuted_ex : plain_run [everywhere] [Some [up 100]] = (false, []).
Proof. vm_compute. reflexivity. Qed.

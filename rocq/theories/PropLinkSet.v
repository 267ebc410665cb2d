(** Link status and the choice of a link (C40), neighbor marks (C75), the status of a neighbor
    interface (C76), links and neighbor entries (C77), the life time of a link (C78). *)
From Verif Require Import Base SchedTime SchedTimeProofs LinkSet LinkSetSpec LinkSetProofs LinkSetRunProofs LinkSetNbrProofs LinkSetExec.

(** Two local interfaces; node 10 has the addresses 10 and 11. *)
Definition ex_if1 := mkIf 1 101 2.
Definition ex_if2 := mkIf 2 102 1.
Definition ex_cfg := mkCfg false 0 2147483647.
Definition ex_cfg_lq := mkCfg false 2 2147483647.
Definition ex_ifs := EIfs [ex_if1; ex_if2].
(** node 10 on interface 1 and 2, listing us symmetric, or not listing us *)
Definition ex_sym1 := EHello ex_if1 10 10 6000 [(55, 1); (101, 2)] 0 0.
Definition ex_new1 := EHello ex_if1 10 10 6000 [(55, 2)] 0 0.
Definition ex_sym2 := EHello ex_if2 10 10 6000 [(102, 2)] 0 0.
Definition ex_run1 := [(1000, ex_ifs); (1000, ex_new1); (2000, ex_sym1); (3000, ex_sym2); (8000, ESymFire 0); (8000, ex_new1)].
Definition ex_state (c : lcfg) (evs : list (Z * lev)) : history * Z * lstate :=
  match lexec c 1000 [] 0 linit evs with Some x => x | None => ([], 0, linit) end.

(** A link counts as symmetric while the last HELLO that confirmed it is valid and not longer than
    the timers are late; otherwise as asymmetric while the last HELLO is valid, and as lost
    afterwards. *)
Theorem C40_status : forall c slack h t s l,
  0 <= rmax c < 2147483648 -> 0 <= slack <= 536870912 -> use_hyst c = false -> at_time c slack h t s -> In l (links s) ->
  (link_status c (u32 t) (links s) l = 2 -> exists t0 v, confirmed (l_id l) h = Some (t0, v) /\ t0 <= t <= t0 + v + slack) /\
  (forall t0 v, confirmed (l_id l) h = Some (t0, v) -> t < t0 + v -> link_status c (u32 t) (links s) l = 2) /\
  (link_status c (u32 t) (links s) l <> 2 ->
    (link_status c (u32 t) (links s) l = 1 /\ exists t1 v1, heard (l_id l) h = Some (t1, v1) /\ t < t1 + v1) \/
    (link_status c (u32 t) (links s) l = 3 /\ forall t1 v1, heard (l_id l) h = Some (t1, v1) -> t1 + v1 <= t)).
Proof.
  intros c slack h t s l Hm Hs Hh A I. split; [|split].
  - now apply status_sym_sound.
  - intros t0 v. now apply (status_sym_complete c slack).
  - now apply (status_asym c slack).
Qed.
Print Assumptions C40_status.
Example C40_status_ex : let '(h, _, s) := ex_state ex_cfg ex_run1 in
  at_time ex_cfg 1000 h 8500 s /\
  map (fun l => (l_id l, l_remote l, l_if l, link_status ex_cfg (u32 8500) (links s) l)) (links s) = [(0, 10, 1, 1); (2, 10, 2, 2)] /\
  map (fun i => (confirmed i h, heard i h)) [0; 2] = [(Some (2000, 6000), Some (8000, 6000)); (Some (3000, 6000), Some (3000, 6000))].
Proof.
  destruct (ex_state ex_cfg ex_run1) as [[h t] s] eqn:E. pose proof E as E'. vm_compute in E'. inversion E'; subst h t s.
  split; [|split; reflexivity]. eapply (lexec_at ex_cfg 1000 ex_run1 0); [lia|vm_compute; reflexivity|vm_compute; reflexivity].
Qed.

(** With the hysteresis as well, only a confirmed link counts as symmetric. *)
Theorem C40_sym : forall c slack h t s l,
  0 <= rmax c < 2147483648 -> 0 <= slack <= 536870912 -> at_time c slack h t s -> In l (links s) ->
  link_status c (u32 t) (links s) l = 2 -> exists t0 v, confirmed (l_id l) h = Some (t0, v) /\ t0 <= t <= t0 + v + slack.
Proof. intros c slack h t s l. apply status_sym_sound. Qed.
Print Assumptions C40_sym.
Definition ex_cfg_hyst := mkCfg true 0 2147483647.
Definition ex_run2 := [(1000, ex_ifs); (1000, ex_sym1); (2000, EHello ex_if1 10 10 6000 [(101, 2)] 0 1)].
Example C40_sym_ex : let '(h, _, s) := ex_state ex_cfg_hyst ex_run2 in
  at_time ex_cfg_hyst 1000 h 3000 s /\
  map (fun l => (l_id l, link_status ex_cfg_hyst (u32 3000) (links s) l, confirmed (l_id l) h)) (links s) = [(0, 2, Some (2000, 6000))].
Proof.
  destruct (ex_state ex_cfg_hyst ex_run2) as [[h t] s] eqn:E. pose proof E as E'. vm_compute in E'. inversion E'; subst h t s.
  split; [|reflexivity]. eapply (lexec_at ex_cfg_hyst 1000 ex_run2 0); [lia|vm_compute; reflexivity|vm_compute; reflexivity].
Qed.

(** There is one link for each remote address and interface, and a HELLO concerns that link. *)
Theorem C40_entry : forall c slack h t s ifc remote main vt msg r q s',
  0 <= rmax c < 2147483648 -> 0 <= slack <= 536870912 -> at_time c slack h t s ->
  lstep c (u32 t) s (EHello ifc remote main vt msg r q) = Some s' ->
  exists l, In l (links s') /\ l_remote l = remote /\ l_if l = i_name ifc /\
    (forall x, In x (links s') -> l_remote x = remote -> l_if x = i_name ifc -> x = l) /\
    items c t s (EHello ifc remote main vt msg r q) = [(t, Heard (l_id l) (said (i_addr ifc) msg) vt)].
Proof.
  intros c slack h t s ifc remote main vt msg r q s' Hm Hs A H. destruct (at_time_inv _ _ _ _ _ Hm Hs A) as [B _ _].
  pose proof (base_step _ _ _ _ _ B H) as B'. cbn [lstep items] in *.
  destruct (update_link c (u32 t) s ifc remote main vt msg r q) as [[s1 i]|] eqn:U; [|discriminate]. apply Some_inj in H. subst s1.
  destruct (update_link_cases _ _ _ _ _ _ _ _ _ _ _ _ B U) as (l0 & l2 & ls & E1 & I0 & Ei & R0 & F0 & S2 & _).
  unfold stat in S2. inversion S2 as [[S3 S4 S5 S6]].
  assert (In l2 (links s')) as I2.
  { rewrite E1. apply in_map_iff. exists l0. split; [|exact I0]. replace (l_id l0 =? i) with true by lia. reflexivity. }
  exists l2. split; [exact I2|]. split; [congruence|]. split; [congruence|]. split; [|now rewrite S3, Ei].
  intros x Ix R1 R2. pose proof (keys_base _ _ B' Ix) as K1. pose proof (keys_base _ _ B' I2) as K2. rewrite R1, R2 in K1. rewrite S5, S6, R0, F0 in K2. congruence.
Qed.
Print Assumptions C40_entry.
Example C40_entry_ex : let '(h, _, s) := ex_state ex_cfg ex_run1 in
  at_time ex_cfg 1000 h 8500 s /\
  match lstep ex_cfg (u32 8500) s ex_sym2 with Some s' => length (links s') = 2%nat | None => False end /\
  items ex_cfg 8500 s ex_sym2 = [(8500, Heard 2 2 6000)].
Proof.
  destruct (ex_state ex_cfg ex_run1) as [[h t] s] eqn:E. pose proof E as E'. vm_compute in E'. inversion E'; subst h t s.
  split; [|split; reflexivity]. eapply (lexec_at ex_cfg 1000 ex_run1 0); [lia|vm_compute; reflexivity|vm_compute; reflexivity].
Qed.

(** The link chosen towards a neighbor is not symmetric although a symmetric one exists: the loop
    keeps one best cost for symmetric and other links alike, so a cheaper link that is not
    symmetric hides the symmetric one.  Here with link quality ... *)
Definition ex_run3 := [(1000, ex_ifs); (1000, ex_new1); (2000, ex_sym2); (2000, ECost 0 1024); (2000, ECost 2 2048)].
Theorem C40_best_refuted : exists c slack h t s x y,
  at_time c slack h t s /\ best_link c (u32 t) s 10 = Some (Some x) /\ In y (links s) /\ to_nbr s 10 y /\
  link_status c (u32 t) (links s) x = 1 /\ link_status c (u32 t) (links s) y = 2.
Proof.
  destruct (ex_state ex_cfg_lq ex_run3) as [[h t] s] eqn:E. pose proof E as E'. vm_compute in E'. inversion E'; subst h t s.
  exists ex_cfg_lq, 1000. eexists. exists 2500. eexists. eexists. eexists.
  split; [eapply (lexec_at ex_cfg_lq 1000 ex_run3 0); [lia|vm_compute; reflexivity|vm_compute; reflexivity]|].
  split; [vm_compute; reflexivity|]. split; [right; left; reflexivity|].
  split; [eexists; split; [left; reflexivity|split; reflexivity]|]. split; vm_compute; reflexivity.
Qed.
Print Assumptions C40_best_refuted.

(** ... and here without, by the metrics of the interfaces. *)
Definition ex_run4 := [(1000, ex_ifs); (1000, EHello ex_if2 10 10 6000 [] 0 0); (2000, ex_sym1)].
Theorem C40_best_metric_refuted : exists c slack h t s x y, lq_level c = 0 /\
  at_time c slack h t s /\ best_link c (u32 t) s 10 = Some (Some x) /\ In y (links s) /\ to_nbr s 10 y /\
  link_status c (u32 t) (links s) x = 1 /\ link_status c (u32 t) (links s) y = 2.
Proof.
  destruct (ex_state ex_cfg ex_run4) as [[h t] s] eqn:E. pose proof E as E'. vm_compute in E'. inversion E'; subst h t s.
  exists ex_cfg, 1000. eexists. exists 2500. eexists. eexists. eexists. split; [reflexivity|].
  split; [eapply (lexec_at ex_cfg 1000 ex_run4 0); [lia|vm_compute; reflexivity|vm_compute; reflexivity]|].
  split; [vm_compute; reflexivity|]. split; [right; left; reflexivity|].
  split; [eexists; split; [left; reflexivity|split; reflexivity]|]. split; vm_compute; reflexivity.
Qed.
Print Assumptions C40_best_metric_refuted.

(** The cost of the links that lead to a neighbor. *)
Definition costs (c : lcfg) (s : lstate) (main : Z) (l : link) (m : Z) : Prop := In l (links s) /\ to_nbr s main l /\ metric c s l = Some m.

(** If a cheapest link to the neighbor is symmetric and everything not symmetric costs more, the
    link chosen is a symmetric one of that cost.  Missing: cheaper links that are not symmetric
    (see above). *)
Theorem C40_best_partial : forall c slack h t s a res l0 m0,
  0 <= rmax c < 2147483648 -> 0 <= slack <= 536870912 -> at_time c slack h t s ->
  let main := match mid_main s a with Some m => m | None => a end in
  best_link c (u32 t) s a = Some res ->
  costs c s main l0 m0 -> link_status c (u32 t) (links s) l0 = 2 -> m0 < (if lq_level c =? 0 then 100 else 4194304) ->
  (forall x m, costs c s main x m -> m0 <= m /\ (link_status c (u32 t) (links s) x <> 2 -> m0 < m)) ->
  exists g, res = Some g /\ costs c s main g m0 /\ link_status c (u32 t) (links s) g = 2.
Proof.
  intros c slack h t s a res l0 m0 Hm Hs A main H (I0 & T0 & M0) S0 LT MIN. destruct (at_time_inv _ _ _ _ _ Hm Hs A) as [B _ _].
  assert (forall x m, cand c s main x m -> to_nbr s main x /\ metric c s x = Some m) as C1.
  { intros x m ((n & D & E) & M). split; [|exact M]. apply deref_in in D. exists n. intuition. }
  assert (forall x m, to_nbr s main x -> metric c s x = Some m -> cand c s main x m) as C2.
  { intros x m (n & D & E1 & E2) M. split; [|exact M]. exists n. split; [|exact E2]. rewrite <- E1. apply deref_of; [apply (b_nids _ B)|exact D]. }
  destruct (best_loop_sym c (u32 t) s main a (links s) _ None None res m0 H) as (g & G1 & G2 & G3 & G4).
  - intros x m Ix Cx. apply MIN. destruct (C1 _ _ Cx). split; [exact Ix|auto].
  - right. split; [exact LT|]. exists l0. auto.
  - intros x Ix. exact Ix.
  - exists g. split; [exact G1|]. split; [|exact G3]. destruct (C1 _ _ G4). split; [exact G2|auto].
Qed.
Print Assumptions C40_best_partial.
Definition ex_run5 := [(1000, ex_ifs); (1000, ex_new1); (2000, ex_sym2); (2000, ECost 0 4000); (2000, ECost 2 2048)].
Example C40_best_partial_ex : let '(h, _, s) := ex_state ex_cfg_lq ex_run5 in
  at_time ex_cfg_lq 1000 h 2500 s /\
  map (fun l => (l_id l, metric ex_cfg_lq s l, link_status ex_cfg_lq (u32 2500) (links s) l)) (links s) = [(0, Some 4000, 1); (2, Some 2048, 2)] /\
  option_map (option_map l_id) (best_link ex_cfg_lq (u32 2500) s 10) = Some (Some 2).
Proof.
  destruct (ex_state ex_cfg_lq ex_run5) as [[h t] s] eqn:E. pose proof E as E'. vm_compute in E'. inversion E'; subst h t s.
  split; [|split; reflexivity]. eapply (lexec_at ex_cfg_lq 1000 ex_run5 0); [lia|vm_compute; reflexivity|vm_compute; reflexivity].
Qed.

(** Whatever is chosen leads to the neighbor and costs no more than the limit. *)
Theorem C40_chosen : forall c slack h t s a l,
  0 <= rmax c < 2147483648 -> 0 <= slack <= 536870912 -> at_time c slack h t s ->
  best_link c (u32 t) s a = Some (Some l) ->
  exists m, costs c s (match mid_main s a with Some m => m | None => a end) l m /\ m <= (if lq_level c =? 0 then 100 else 4194304).
Proof.
  intros c slack h t s a l Hm Hs A H. apply best_loop_sound in H. destruct H as [H|[H|(I & m & ((n & D & E) & M) & L)]]; [discriminate|discriminate|].
  exists m. split; [|exact L]. split; [exact I|]. split; [|exact M]. apply deref_in in D. exists n. intuition.
Qed.
Print Assumptions C40_chosen.
Example C40_chosen_ex : let '(h, _, s) := ex_state ex_cfg ex_run4 in
  at_time ex_cfg 1000 h 2500 s /\ option_map (option_map l_id) (best_link ex_cfg (u32 2500) s 10) = Some (Some 0).
Proof.
  destruct (ex_state ex_cfg ex_run4) as [[h t] s] eqn:E. pose proof E as E'. vm_compute in E'. inversion E'; subst h t s.
  split; [|reflexivity]. eapply (lexec_at ex_cfg 1000 ex_run4 0); [lia|vm_compute; reflexivity|vm_compute; reflexivity].
Qed.

(** A neighbor stays marked symmetric without any symmetric link: a HELLO that lists us as
    asymmetric starts the symmetry timer, but when it runs out the neighbor is only looked at if the
    HELLO before had said symmetric. *)
Definition ex_run6 := [(1000, ex_ifs); (1000, EHello ex_if1 10 10 6000 [(101, 1)] 0 0); (7000, ESymFire 0)].
Theorem C75_refuted : exists c slack h t s, at_time c slack h t s /\ ~ marks_ok c (u32 t) s.
Proof.
  destruct (ex_state ex_cfg ex_run6) as [[h t] s] eqn:E. pose proof E as E'. vm_compute in E'. inversion E'; subst h t s.
  exists ex_cfg, 1000. eexists. exists 9000. eexists.
  split; [eapply (lexec_at ex_cfg 1000 ex_run6 0); [lia|vm_compute; reflexivity|vm_compute; reflexivity]|].
  intro M. destruct (M (mkNbr 1 10 1 1) (or_introl eq_refl)) as [M1 _]. destruct (M1 eq_refl) as (l & [<-|[]] & _ & L). vm_compute in L. discriminate.
Qed.
Print Assumptions C75_refuted.

(** Neighbors with one address, whose HELLOs list us as symmetric or lost: marked symmetric exactly
    if there is a symmetric link.  Missing: HELLOs that list us as asymmetric or not at all, MID
    aliases, hysteresis, and links or interfaces that go while the link is symmetric. *)
Theorem C75_partial : forall c now s, use_hyst c = false -> 0 <= rmax c < 2147483648 -> prun c quiet_event s -> marks_ok c now s.
Proof. intros c now s Hh Hm R. apply quiet_marks; [exact Hh|]. now apply prun_quiet with (c := c). Qed.
Print Assumptions C75_partial.
Definition ex_lost1 := EHello ex_if1 10 10 6000 [(101, 3)] 0 0.
Definition ex_evs7 := [(1000, ex_ifs); (1000, ex_sym1); (3000, ex_sym2); (4000, ex_lost1); (9000, ESymFire 2)].
Example C75_partial_ex : exists s s', prun ex_cfg quiet_event s /\ prun ex_cfg quiet_event s' /\
  map n_status (nbrs s) = [1] /\ map l_sym (links s) = [None; Some 9000] /\
  map n_status (nbrs s') = [0] /\ map l_sym (links s') = [None; None].
Proof.
  eexists. eexists. split; [|split; [|split; [|split; [|split]]]].
  - eapply (pexec_run ex_cfg quietb quiet_event (firstn 4 ex_evs7)); [exact quietb_ok|apply prun0|vm_compute; reflexivity].
  - eapply (pexec_run ex_cfg quietb quiet_event ex_evs7); [exact quietb_ok|apply prun0|vm_compute; reflexivity].
  - reflexivity.
  - reflexivity.
  - reflexivity.
  - reflexivity.
Qed.

(** The status of a neighbor interface is that of the oldest link to it: messages from a symmetric
    neighbor are refused if an older link, over another interface, is not symmetric. *)
Theorem C76_refuted : exists c slack h t s l, at_time c slack h t s /\ In l (links s) /\ l_remote l = 10 /\
  link_status c (u32 t) (links s) l = 2 /\ check_nbr_link c (u32 t) s 10 <> 2.
Proof.
  destruct (ex_state ex_cfg_lq ex_run3) as [[h t] s] eqn:E. pose proof E as E'. vm_compute in E'. inversion E'; subst h t s.
  exists ex_cfg_lq, 1000. eexists. exists 2500. eexists. eexists.
  split; [eapply (lexec_at ex_cfg_lq 1000 ex_run3 0); [lia|vm_compute; reflexivity|vm_compute; reflexivity]|].
  split; [right; left; reflexivity|]. split; [reflexivity|]. split; [reflexivity|]. vm_compute. discriminate.
Qed.
Print Assumptions C76_refuted.

(** Never symmetric without a symmetric link, and symmetric if the only link to the address is.
    Missing: addresses heard on several interfaces. *)
Theorem C76_partial : forall c now s a,
  (check_nbr_link c now s a = 2 -> exists l, In l (links s) /\ l_remote l = a /\ link_status c now (links s) l = 2) /\
  (forall l, In l (links s) -> l_remote l = a -> (forall x, In x (links s) -> l_remote x = a -> x = l) ->
    check_nbr_link c now s a = link_status c now (links s) l).
Proof.
  intros c now s a. unfold check_nbr_link. split.
  - destruct (find _ (links s)) as [l|] eqn:F; [|discriminate]. intro E. apply find_some in F. cbn in F. exists l. split; [tauto|]. split; [lia|exact E].
  - intros l I R U. destruct (find _ (links s)) as [x|] eqn:F.
    + apply find_some in F. cbn in F. now rewrite (U x) by (tauto || lia).
    + pose proof (find_none _ _ F _ I). cbn in *. lia.
Qed.
Print Assumptions C76_partial.
Example C76_partial_ex : let '(_, _, s) := ex_state ex_cfg (firstn 3 ex_run1) in
  map (fun l => (l_remote l, link_status ex_cfg 3000 (links s) l)) (links s) = [(10, 2)] /\ check_nbr_link ex_cfg 3000 s 10 = 2 /\ check_nbr_link ex_cfg 3000 s 11 = 0.
Proof. vm_compute. auto. Qed.

(** In a network where every address belongs to one node and all messages say so, every link points
    to a live neighbor entry, entries are counted correctly, and no event uses freed memory.
    Missing: messages that claim addresses of others (see below). *)
Theorem C77_partial : forall own c s, (forall x, own (own x) = own x) -> 0 <= rmax c < 2147483648 -> prun c (sane_event own) s ->
  consistent s /\
  (forall l, In l (links s) -> to_nbr s (own (l_remote l)) l) /\
  forall now e, 0 <= now < 4294967296 -> event_ok c e -> sane_event own s e -> possible now s e = true -> lstep c now s e <> None.
Proof.
  intros own c s OO Hm R. pose proof (prun_sane own c s OO Hm R) as SN. split; [now apply sane_consistent with (own := own)|]. split.
  - intros l I. destruct (s_link _ _ SN _ I) as (n & H). exists n. tauto.
  - intros now e Hn EO SE PO. destruct (sane_step own c now s e OO Hm Hn EO SE PO SN) as (s' & E & _). congruence.
Qed.
Print Assumptions C77_partial.
(** nodes 10 (addresses 10, 11) and 20 *)
Definition ex_own (a : Z) : Z := if a =? 11 then 10 else a.
Definition ex_evs8 := [(1000, ex_ifs); (1000, ex_sym1); (2000, EHello ex_if2 11 10 6000 [(102, 2)] 0 0); (2000, EAlias 10 11);
  (2500, EHello ex_if1 20 20 6000 [] 0 0); (9000, ELinkFire 3)].
Example C77_partial_ex : (forall x, ex_own (ex_own x) = ex_own x) /\ exists s, prun ex_cfg (sane_event ex_own) s /\
  map (fun n => (n_id n, n_addr n, n_count n)) (nbrs s) = [(1, 10, 2)] /\ map (fun l => (l_remote l, l_nbr l)) (links s) = [(10, 1); (11, 1)].
Proof.
  split; [intro x; unfold ex_own; destruct (x =? 11) eqn:E; cbn; [reflexivity|now rewrite E]|].
  eexists. split; [|split].
  - eapply (pexec_run ex_cfg (saneb ex_own) _ ex_evs8); [apply saneb_ok|apply prun0|vm_compute; reflexivity].
  - reflexivity.
  - reflexivity.
Qed.

(** A HELLO that carries another neighbor's main address makes two neighbor entries with one
    address; when a link goes, the wrong entry is freed and the next HELLO uses it. *)
Definition ex_run9 := [(1000, ex_ifs); (1000, EHello ex_if1 10 10 6000 [] 0 0); (3000, EHello ex_if1 20 20 6000 [] 0 0);
  (3500, EHello ex_if1 20 10 6000 [] 0 0); (3500, EAlias 10 20); (7000, ELinkFire 0)].
Theorem C77_source_refuted : exists c slack h t s ifc, at_time c slack h t s /\ ~ consistent s /\
  lstep c (u32 t) s (EHello ifc 20 20 6000 [] 0 0) = None.
Proof.
  destruct (ex_state ex_cfg ex_run9) as [[h t] s] eqn:E. pose proof E as E'. vm_compute in E'. inversion E'; subst h t s.
  exists ex_cfg, 1000. eexists. exists 7500. eexists. exists ex_if1.
  split; [eapply (lexec_at ex_cfg 1000 ex_run9 0); [lia|vm_compute; reflexivity|vm_compute; reflexivity]|]. split; [|vm_compute; reflexivity].
  intros (C & _). destruct (C _ (or_introl eq_refl)) as (n & [<-|[]] & Q). vm_compute in Q. discriminate.
Qed.
Print Assumptions C77_source_refuted.

(** A MID message that lists its own originator as an alias frees the neighbor entry its links
    point to; the next HELLO uses it. *)
Definition ex_run10 := [(1000, ex_ifs); (1000, ex_sym1); (2000, EAlias 10 10)].
Theorem C77_alias_refuted : exists c slack h t s, at_time c slack h t s /\ ~ consistent s /\ lstep c (u32 t) s ex_sym1 = None.
Proof.
  destruct (ex_state ex_cfg ex_run10) as [[h t] s] eqn:E. pose proof E as E'. vm_compute in E'. inversion E'; subst h t s.
  exists ex_cfg, 1000. eexists. exists 3000. eexists.
  split; [eapply (lexec_at ex_cfg 1000 ex_run10 0); [lia|vm_compute; reflexivity|vm_compute; reflexivity]|]. split; [|vm_compute; reflexivity].
  intros (C & _). destruct (C _ (or_introl eq_refl)) as (n & [] & Q).
Qed.
Print Assumptions C77_alias_refuted.

(** A MID message that makes a neighbor's address an alias of another node resets the count; the
    entry outlives all its links. *)
Definition ex_run11 := [(1000, ex_ifs); (1000, EHello ex_if1 10 10 6000 [] 0 0); (2000, EAlias 20 10); (7000, ELinkFire 0)].
Theorem C77_count_refuted : exists c slack h t s n, at_time c slack h t s /\ links s = [] /\ In n (nbrs s) /\ n_count n = -1.
Proof.
  destruct (ex_state ex_cfg ex_run11) as [[h t] s] eqn:E. pose proof E as E'. vm_compute in E'. inversion E'; subst h t s.
  exists ex_cfg, 1000. eexists. exists 7500. eexists. eexists.
  split; [eapply (lexec_at ex_cfg 1000 ex_run11 0); [lia|vm_compute; reflexivity|vm_compute; reflexivity]|].
  split; [reflexivity|]. split; [left; reflexivity|reflexivity].
Qed.
Print Assumptions C77_count_refuted.

(** A link may be removed while the last HELLO heard on it is still valid: the link timer is
    shortened by up to five percent ... *)
Definition ex_run12 := [(1000, ex_ifs); (1000, EHello ex_if1 10 10 6000 [] 2147483647 0)].
Theorem C78_jitter_refuted : exists c slack h t s i t1 v1, at_time c slack h t s /\ heard i h = Some (t1, v1) /\ t + 200 < t1 + v1 /\
  possible (u32 t) s (ELinkFire i) = true.
Proof.
  destruct (ex_state ex_cfg ex_run12) as [[h t] s] eqn:E. pose proof E as E'. vm_compute in E'. inversion E'; subst h t s.
  exists ex_cfg, 1000. eexists. exists 6710. eexists. exists 0, 1000, 6000.
  split; [eapply (lexec_at ex_cfg 1000 ex_run12 0); [lia|vm_compute; reflexivity|vm_compute; reflexivity]|].
  split; [reflexivity|]. split; [lia|vm_compute; reflexivity].
Qed.
Print Assumptions C78_jitter_refuted.

(** ... and around the wrap of the clock the timer is not prolonged at all, because the clocks are
    compared as numbers. *)
Definition ex_run13 := [(4294961000, ex_ifs); (4294961196, EHello ex_if1 10 10 6000 [] 0 0); (4294967096, EHello ex_if1 10 10 6000 [] 0 0)].
Theorem C78_wrap_refuted : exists c slack h t s i t1 v1, at_time c slack h t s /\ heard i h = Some (t1, v1) /\ t - t1 < 150 /\ v1 = 6000 /\
  possible (u32 t) s (ELinkFire i) = true.
Proof.
  destruct (lexec ex_cfg 1000 [] 4294961000 linit ex_run13) as [[[h t] s]|] eqn:E; [|vm_compute in E; discriminate].
  exists ex_cfg, 1000, h, 4294967220, s, 0, 4294967096, 6000. pose proof E as E'. vm_compute in E'. inversion E'; subst h t s.
  split; [eapply (lexec_at ex_cfg 1000 ex_run13 4294961000); [lia|exact E|vm_compute; reflexivity]|].
  split; [reflexivity|]. split; [lia|]. split; [reflexivity|vm_compute; reflexivity].
Qed.
Print Assumptions C78_wrap_refuted.

(** Before the clock gets near its wrap, a link is removed only after 95 percent of the validity of
    its last HELLO.  Missing: the last five percent, and later times (see above). *)
Theorem C78_partial : forall c slack h t s i t1 v1, 0 <= rmax c < 2147483648 -> 0 <= slack <= 536870912 ->
  at_time c slack h t s -> t <= 3221225472 -> possible (u32 t) s (ELinkFire i) = true ->
  heard i h = Some (t1, v1) -> 95 * v1 <= 100 * (t - t1).
Proof. exact lifetime_low. Qed.
Print Assumptions C78_partial.
Example C78_partial_ex : let '(h, _, s) := ex_state ex_cfg ex_run12 in
  at_time ex_cfg 1000 h 6710 s /\ possible (u32 6710) s (ELinkFire 0) = true /\ heard 0 h = Some (1000, 6000) /\ 95 * 6000 <= 100 * (6710 - 1000).
Proof.
  destruct (ex_state ex_cfg ex_run12) as [[h t] s] eqn:E. pose proof E as E'. vm_compute in E'. inversion E'; subst h t s.
  split; [|split; [vm_compute; reflexivity|split; [reflexivity|lia]]]. eapply (lexec_at ex_cfg 1000 ex_run12 0); [lia|vm_compute; reflexivity|vm_compute; reflexivity].
Qed.

(** At any time, over any number of wraps, a link that is there has had a HELLO not longer ago than
    its validity, the hold time of 20 seconds and the delay of the timers. *)
Theorem C78_removed : forall c slack h t s l, 0 <= rmax c < 2147483648 -> 0 <= slack <= 536870912 ->
  at_time c slack h t s -> In l (links s) -> exists tk k vk, In (tk, Heard (l_id l) k vk) h /\ t <= tk + vk + 20000 + slack.
Proof. exact lifetime_up. Qed.
Print Assumptions C78_removed.
Example C78_removed_ex : let '(h, _, s) := ex_state ex_cfg ex_run1 in
  at_time ex_cfg 1000 h 8500 s /\ length (links s) = 2%nat /\ length h = 4%nat.
Proof.
  destruct (ex_state ex_cfg ex_run1) as [[h t] s] eqn:E. pose proof E as E'. vm_compute in E'. inversion E'; subst h t s.
  split; [|split; reflexivity]. eapply (lexec_at ex_cfg 1000 ex_run1 0); [lia|vm_compute; reflexivity|vm_compute; reflexivity].
Qed.

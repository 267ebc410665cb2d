(** C22, C64: the kernel follows the calculated routes. *)
From Verif Require Import Base Parser Compare RtBest RtBestSpec RtBestProofs Rib RibSpec RibProofs.

(** C22: IPv4 with flat metric, where a new route replaces the old one.  After any
    history of calculations and removals of paths, in which the kernel may refuse
    any request, a calculation whose requests are all accepted leaves in the kernel,
    for every prefix, exactly the route of its best path, and no other. *)
Theorem C22_flat_partial : forall cf n ops rs acc, cf_v6 cf = false -> cf_fib cf = FLAT -> cf_rep cf = true ->
  Forall (op_A n) ops -> wf_results n rs -> accepts acc ->
  exists s s', rrun cf rs_init ops = Some s /\ rstep cf s (OCalc rs acc) = Some s' /\ forall d, mirrors cf rs (rs_kern s') d.
Proof.
  intros cf n ops rs acc V F R HO WR AC. assert (DF : del_first cf = false) by (unfold del_first; rewrite V, F; reflexivity).
  destruct (run_A cf n ops R DF HO rs_init (SI_init n cf)) as (s & E & S & K); [intros d L; reflexivity|].
  destruct (calc_acc cf n s rs S WR acc (or_introl R) AC K) as (s' & E' & _ & _ & _ & _ & M). exists s, s'. split; [exact E|]. split; [exact E'|].
  intros d. apply M. unfold nll, is_linklocal. rewrite V. reflexivity.
Qed.
Print Assumptions C22_flat_partial.

(** C22: any metric, IPv4 and IPv6, interfaces going down.  The kernel accepts every
    request of the history; it replaces routes or old routes are deleted first; an
    interface goes down, and loses its routes in the kernel, when no path was
    removed since the last calculation.  Not for link-local destinations. *)
Theorem C22_accepting_partial : forall cf n ops rs acc, (cf_v6 cf = false -> cf_fib cf = FLAT -> cf_rep cf = true) ->
  hist_B n false ops -> wf_results n rs -> accepts acc ->
  exists s s', rrun cf rs_init ops = Some s /\ rstep cf s (OCalc rs acc) = Some s' /\
    forall d, is_linklocal (cf_v6 cf) (fst d) = false -> mirrors cf rs (rs_kern s') d.
Proof.
  intros cf n ops rs acc R HB WR AC.
  assert (SN : sane cf). { unfold sane, del_first. destruct (cf_v6 cf) eqn:V; [now right|]. destruct (cf_fib cf) eqn:F; [left; auto|now right|now right]. }
  destruct (run_B cf n ops SN false rs_init HB (SI_init n cf)) as (s & E & S & K); [intros d L; reflexivity|intros d e o p _ Q; discriminate|intros _ d e _ Q; discriminate|].
  destruct (calc_acc cf n s rs S WR acc SN AC K) as (s' & E' & _ & _ & _ & _ & M). exists s, s'. split; [exact E|]. split; [exact E'|]. exact M.
Qed.
Print Assumptions C22_accepting_partial.

Definition ok_all : bool -> list Z * Z -> bool := fun _ _ => true.
Definition no_add : bool -> list Z * Z -> bool := fun add _ => negb add.
Lemma ok_accepts : accepts ok_all. Proof. intros b d. reflexivity. Qed.
Definition cf4 (f : fibm) : rcfg := mkCf false true f 2 false 32 (fun d => snd d =? 0) (fun x => x) true.
Definition cf6 : rcfg := mkCf true true FLAT 2 false 128 (fun d => snd d =? 0) (fun x => x) true.
Definition A1 : list Z := [10; 0; 0; 1].
Definition A2 : list Z := [10; 0; 0; 2].
Definition A5 : list Z := [10; 0; 0; 5].
Definition N8 : list Z * Z := ([192; 168; 8; 0], 24).

(** C22: with a metric that is not flat the old route is deleted and then the new
    one is refused.  When the best path returns to the old next hop the daemon
    believes that the route is still there. *)
Theorem C22_rejected_refuted : exists cf n ops rs acc s s' d, Forall (op_A n) ops /\ wf_results n rs /\ accepts acc /\
  rrun cf rs_init ops = Some s /\ rstep cf s (OCalc rs acc) = Some s' /\ chosen cf rs d (mkRes A5 d A1 3 2 2048) /\ routes (rs_kern s') d = [].
Proof.
  exists (cf4 CORRECT), 4%nat, [OCalc [mkRes A5 N8 A1 3 2 2048] ok_all; OCalc [mkRes A5 N8 A2 3 2 2048] no_add], [mkRes A5 N8 A1 3 2 2048], ok_all.
  eexists. eexists. exists N8. split; [repeat constructor; cbn; intuition (congruence || lia)|]. split; [repeat constructor; cbn; intuition (congruence || lia)|]. split; [apply ok_accepts|].
  split; [vm_compute; reflexivity|]. split; [vm_compute; reflexivity|]. split; [|reflexivity].
  split; [now left|]. split; [reflexivity|]. split; [cbn; lia|]. exists (fun _ => False). split; [tauto|]. split; [tauto|]. exists rp_cost. split; [tauto|]. split; [reflexivity|].
  intros r' [<-|[]] _. intros [Q|(_ & [Q|(_ & Q)])]; [lia|lia|exact (lexlt_irrefl (fun x => x) (fun _ => true) _ Q)].
Qed.
Print Assumptions C22_rejected_refuted.

(** C22: a link-local destination is installed only while it is one hop away.  When
    it returns to one hop over the same next hop it is not installed again. *)
Definition L1 : list Z := [254; 128; 0; 0; 0; 0; 0; 0; 0; 0; 0; 0; 0; 0; 0; 1].
Definition L2 : list Z := [254; 128; 0; 0; 0; 0; 0; 0; 0; 0; 0; 0; 0; 0; 0; 2].
Theorem C22_linklocal_refuted : exists cf n ops rs acc s s' d, hist_B n false ops /\ wf_results n rs /\ accepts acc /\
  rrun cf rs_init ops = Some s /\ rstep cf s (OCalc rs acc) = Some s' /\ chosen cf rs d (mkRes L1 d L1 3 1 1024) /\ routes (rs_kern s') d = [].
Proof.
  exists cf6, 16%nat, [OCalc [mkRes L1 (L1, 128) L1 3 1 1024] ok_all; OCalc [mkRes L1 (L1, 128) L2 3 2 2048] ok_all], [mkRes L1 (L1, 128) L1 3 1 1024], ok_all.
  eexists. eexists. exists (L1, 128). split; [repeat constructor; cbn; intuition (congruence || lia)|]. split; [repeat constructor; cbn; intuition (congruence || lia)|]. split; [apply ok_accepts|].
  split; [vm_compute; reflexivity|]. split; [vm_compute; reflexivity|]. split; [|reflexivity].
  split; [now left|]. split; [reflexivity|]. split; [cbn; lia|]. exists (fun _ => False). split; [tauto|]. split; [tauto|]. exists rp_cost. split; [tauto|]. split; [reflexivity|].
  intros r' [<-|[]] _. intros [Q|(_ & [Q|(_ & Q)])]; [lia|lia|exact (lexlt_irrefl (fun x => x) (fun _ => true) _ Q)].
Qed.
Print Assumptions C22_linklocal_refuted.

(** C22: the last path is removed (its announcement expired), then its interface
    goes down and comes back: the entry without path is not cleaned up, and the
    route is not installed again although the kernel accepts everything. *)
Theorem C22_ifdown_refuted : exists cf n ops rs acc s s' d, wf_results n rs /\ accepts acc /\ cf_rep cf = true /\
  Forall (fun o => match o with OCalc rs acc => wf_results n rs /\ accepts acc | OIfdown _ f acc => f = true /\ accepts acc | ODelPath _ _ => True end) ops /\
  rrun cf rs_init ops = Some s /\ rstep cf s (OCalc rs acc) = Some s' /\ chosen cf rs d (mkRes A5 d A1 3 2 2048) /\ routes (rs_kern s') d = [].
Proof.
  exists (cf4 FLAT), 4%nat, [OCalc [mkRes A5 N8 A1 3 2 2048] ok_all; ODelPath A5 N8; OIfdown 3 true ok_all], [mkRes A5 N8 A1 3 2 2048], ok_all.
  eexists. eexists. exists N8. split; [repeat constructor; cbn; intuition (congruence || lia)|]. split; [apply ok_accepts|]. split; [reflexivity|].
  split. { constructor; [split; [repeat constructor; cbn; intuition (congruence || lia)|apply ok_accepts]|]. constructor; [exact Logic.I|]. constructor; [split; [reflexivity|apply ok_accepts]|constructor]. }
  split; [vm_compute; reflexivity|]. split; [vm_compute; reflexivity|]. split; [|reflexivity].
  split; [now left|]. split; [reflexivity|]. split; [cbn; lia|]. exists (fun _ => False). split; [tauto|]. split; [tauto|]. exists rp_cost. split; [tauto|]. split; [reflexivity|].
  intros r' [<-|[]] _. intros [Q|(_ & [Q|(_ & Q)])]; [lia|lia|exact (lexlt_irrefl (fun x => x) (fun _ => true) _ Q)].
Qed.
Print Assumptions C22_ifdown_refuted.

(** C22: the removal of an interface drops entries without telling the kernel.  If
    the kernel has not flushed the routes (the interface lost its address only), or
    a refused request left an older route over another interface, the route stays
    for good. *)
Theorem C22_unflushed_refuted : exists cf n ops acc s s' d, accepts acc /\ cf_rep cf = true /\ cf_fib cf = FLAT /\
  Forall (fun o => match o with OCalc rs _ => wf_results n rs | OIfdown _ f _ => f = true | ODelPath _ _ => True end) ops /\
  rrun cf rs_init ops = Some s /\ rstep cf s (OCalc [] acc) = Some s' /\ rs_ents s' = [] /\ routes (rs_kern s') d <> [].
Proof.
  exists (cf4 FLAT), 4%nat, [OCalc [mkRes A5 N8 A1 3 2 2048] ok_all; OCalc [mkRes A5 N8 A2 4 2 1024] no_add; OIfdown 4 true ok_all], ok_all.
  eexists. eexists. exists N8. split; [apply ok_accepts|]. split; [reflexivity|]. split; [reflexivity|]. split; [repeat constructor; cbn; intuition (congruence || lia)|].
  split; [vm_compute; reflexivity|]. split; [vm_compute; reflexivity|]. split; [reflexivity|discriminate].
Qed.
Print Assumptions C22_unflushed_refuted.

Definition ex_res : list result := [mkRes A5 N8 A2 3 3 3000; mkRes A1 N8 A1 3 1 3000; mkRes A1 (A1, 32) A1 3 1 1024].
Ltac wfr := unfold ex_res; split; [cbn [map rr_orig rr_dst]; repeat (apply NoDup_cons; [cbn; intuition discriminate|]); apply NoDup_nil|repeat (apply Forall_cons; [split; [reflexivity|split; [cbn; lia|cbn; lia]]|]); apply Forall_nil].
(** C22: a history with changes of next hop, refusals, a removed path and a lost node *)
Definition ex_ops : list rop :=
  [OCalc [mkRes A5 N8 A1 3 2 2048; mkRes A2 (A2, 32) A2 3 1 1024] ok_all;
   OCalc [mkRes A5 N8 A2 3 2 1500; mkRes A2 (A2, 32) A2 3 1 1024; mkRes A1 N8 A1 3 1 1500] no_add;
   ODelPath A2 (A2, 32); OCalc [mkRes A5 N8 A2 4 2 1500] (fun _ _ => false)].
Example C22_ex : Forall (op_A 4) ex_ops /\ wf_results 4 ex_res /\
  option_map (fun s => option_map rs_kern (rstep (cf4 FLAT) s (OCalc ex_res ok_all))) (rrun (cf4 FLAT) rs_init ex_ops) = Some (Some [mkKr N8 2 A1 3; mkKr (A1, 32) 2 A1 3]).
Proof.
  split; [|split; [wfr|vm_compute; reflexivity]].
  unfold ex_ops. repeat (constructor; [first [exact Logic.I|cbn [op_A]; wfr]|]). constructor.
Qed.
Definition ex_opsB : list rop :=
  [OCalc [mkRes A5 N8 A1 3 2 2048; mkRes A2 (A2, 32) A2 4 1 1024] ok_all; OIfdown 3 true ok_all;
   OCalc [mkRes A5 N8 A2 4 3 4000; mkRes A2 (A2, 32) A2 4 1 1024] ok_all; ODelPath A2 (A2, 32)].
Example C22_exB : hist_B 4 false ex_opsB /\
  option_map (fun s => option_map rs_kern (rstep (cf4 CORRECT) s (OCalc ex_res ok_all))) (rrun (cf4 CORRECT) rs_init ex_opsB) = Some (Some [mkKr (A1, 32) 1 A1 3; mkKr N8 1 A1 3]).
Proof.
  split; [|vm_compute; reflexivity]. unfold ex_opsB. cbn [hist_B]. repeat (split; [first [apply ok_accepts|reflexivity|wfr]|]). exact Logic.I.
Qed.

(** C64: IPv4: directly after an accepted calculation olsr_force_kernelroutes_refresh
    goes through and no next hop of the kernel changes *)
Theorem C64_refresh_partial : forall cf n ops rs acc acc', cf_v6 cf = false -> (cf_fib cf = FLAT -> cf_rep cf = true) ->
  hist_B n false ops -> wf_results n rs -> accepts acc -> accepts acc' ->
  exists s s', rrun cf rs_init (ops ++ [OCalc rs acc]) = Some s /\ force_refresh cf acc' s = Some s' /\
  forall d, map (fun r => (k_gw r, k_oif r)) (routes (rs_kern s') d) = map (fun r => (k_gw r, k_oif r)) (routes (rs_kern s) d).
Proof.
  intros cf n ops rs acc acc' V R HB WR AC AC'.
  assert (SN : sane cf). { unfold sane, del_first. rewrite V. destruct (cf_fib cf) eqn:F; [left; auto|now right|now right]. }
  assert (NL : forall d, nll cf d) by (intros d; unfold nll, is_linklocal; rewrite V; reflexivity).
  destruct (run_B cf n ops SN false rs_init HB (SI_init n cf)) as (s & E & S & K); [intros d L; reflexivity|intros d e o p _ Q; discriminate|intros _ d e _ Q; discriminate|].
  destruct (calc_acc cf n s rs S WR acc SN AC K) as (s1 & E' & S1 & K1 & B1 & C1 & M). exists s1.
  destruct (refresh_ok cf n s1 acc' SN AC' S1 K1 B1) as (s' & Q1 & Q2); [intros d e F; exact (C1 d e (NL d) F)|]. exists s'. split; [|split; [exact Q1|intros d; exact (Q2 d (NL d))]].
  clear - E E'. revert E. generalize rs_init. induction ops as [|o ops IH]; intros s0 E; cbn [rrun app] in *; [apply Some_inj in E; subst; cbn [rstep]; rewrite E'; reflexivity|]. destruct (rstep cf s0 o); [now apply IH|discriminate].
Qed.
Print Assumptions C64_refresh_partial.

(** C64: if the only path of a prefix was removed since the last update the
    refresh reads through a NULL pointer (routing_table.h:157, process_routes.c:444-450) *)
Theorem C64_refresh_refuted : exists cf n ops s acc, hist_B n false ops /\ rrun cf rs_init ops = Some s /\ accepts acc /\ force_refresh cf acc s = None.
Proof.
  exists (cf4 FLAT), 4%nat, [OCalc [mkRes A5 N8 A1 3 2 2048] ok_all; ODelPath A5 N8]. eexists. exists ok_all. split; [|split; [vm_compute; reflexivity|split; [apply ok_accepts|vm_compute; reflexivity]]].
  cbn [hist_B]. repeat (split; [first [apply ok_accepts|reflexivity|wfr]|]). exact Logic.I.
Qed.
Print Assumptions C64_refresh_refuted.

Example C64_ex : option_map (fun s => (rs_kern s, option_map rs_kern (force_refresh (cf4 CORRECT) ok_all s))) (rrun (cf4 CORRECT) rs_init (ex_opsB ++ [OCalc ex_res ok_all])) =
  Some ([mkKr (A1, 32) 1 A1 3; mkKr N8 1 A1 3], Some [mkKr (A1, 32) 1 A1 3; mkKr N8 1 A1 3]).
Proof. vm_compute. reflexivity. Qed.

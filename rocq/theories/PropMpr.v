(** C23, C24, C65, C66, C67: selection of multipoint relays. *)
From Verif Require Import Base Mpr MprSpec MprProofs LqMprProofs.

(** C23: if every two-hop neighbor has at most as many neighbors as the coverage
    asks for, the selection of RFC 3626 ends and covers every two-hop neighbor that
    some willing neighbor reaches.  The former state is arbitrary.  Missing: more
    neighbors than the coverage; neighbors that are not symmetric but still have
    two-hop neighbors. *)
Theorem C23_cover_partial : forall g c red s, wf_graph g -> 1 <= c ->
  (length (g_nbrs g) < 256)%nat -> Z.of_nat (length (g_nbrs g)) * Z.of_nat (length (g_twos g)) < 65536 -> Z.of_nat (length (g_twos g)) < 65536 ->
  (forall b, (b < length (g_nbrs g))%nat -> b_sym (nb g b) = false -> b_two (nb g b) = []) ->
  (forall x, distance_two g x -> Z.of_nat (length (nbl g x)) <= c) ->
  exists s' sig, calculate_mpr g c red s = Some (s', sig) /\
    forall x b, distance_two g x -> In b (nbl g x) -> willing g b -> is_covered g (m_mpr s') x.
Proof.
  intros g c red s WF C1 N S1 S2 Q DEG.
  destruct (select_val g WF c C1 N ltac:(intros x Hx; specialize (DEG x Hx); lia) S1 S2 Q s) as (s2 & E & CV & COV).
  unfold calculate_mpr. rewrite E. destruct (opt_val g c s2) as (O1 & O2 & O3 & O4). cbv zeta in *. destruct (check_val g (optimize g c s2)) as (K1 & _). destruct (check_changes g (optimize g c s2)) as [s3 r]. cbn [fst] in K1.
  exists s3, (r && (red >? 0)). split; [reflexivity|]. intros x b Dx Hb Wb. destruct (COV x b Dx Hb Wb) as (b' & B1 & B2). destruct (nbl_two g WF b' x (proj1 Dx) B1) as (X & Hn). exists b'. split; [exact B1|]. split.
  - rewrite K1. apply O4; [exact B2|]. right. exists x. split; [exact X|]. split; [now apply strict_dist|]. rewrite (CV x Dx) by (intros Z0; rewrite Z0 in B1; contradiction). pose proof (cntb_range (m_mpr s2) (nbl g x)). specialize (DEG x Dx). lia.
  - destruct (b_sym (nb g b')) eqn:Sb; [reflexivity|]. rewrite (Q b' Hn Sb) in X. contradiction.
Qed.
Print Assumptions C23_cover_partial.

(** C23: the selection before the optimisation covers everything with one more
    neighbor per two-hop neighbor *)
Theorem C23_select_partial : forall g c s, wf_graph g -> 1 <= c ->
  (length (g_nbrs g) < 256)%nat -> Z.of_nat (length (g_nbrs g)) * Z.of_nat (length (g_twos g)) < 65536 -> Z.of_nat (length (g_twos g)) < 65536 ->
  (forall b, (b < length (g_nbrs g))%nat -> b_sym (nb g b) = false -> b_two (nb g b) = []) ->
  (forall x, distance_two g x -> Z.of_nat (length (nbl g x)) <= c + 1) ->
  exists s', select g c s = Some s' /\ forall x b, distance_two g x -> In b (nbl g x) -> willing g b -> is_covered g (m_mpr s') x.
Proof.
  intros g c s WF C1 N S1 S2 Q DEG. destruct (select_val g WF c C1 N DEG S1 S2 Q s) as (s2 & E & CV & COV). exists s2. split; [exact E|]. intros x b Dx Hb Wb. destruct (COV x b Dx Hb Wb) as (b' & B1 & B2). exists b'. split; [exact B1|]. split; [exact B2|].
  destruct (nbl_two g WF b' x (proj1 Dx) B1) as (X & Hn). destruct (b_sym (nb g b')) eqn:Sb; [reflexivity|]. rewrite (Q b' Hn Sb) in X. contradiction.
Qed.
Print Assumptions C23_select_partial.

Definition fresh : mst := mkM (fun _ => false) (fun _ => false) (fun _ => 0) (fun _ => 0).
Definition t1 (l : list nat) : two := mkTw false None (map (fun b => (b, 1024)) l).
Ltac wfg := apply wf_check_ok; vm_compute; reflexivity.

(** C23: three neighbors in a ring: the optimisation removes all of them, because
    it does not count down the coverage of the two-hop neighbors *)
Definition ring : graph := mkG [mkNb true 3 [0%nat]; mkNb true 3 [1%nat; 2%nat]; mkNb true 3 [2%nat; 3%nat]; mkNb true 3 [3%nat; 1%nat]]
  [t1 [0%nat]; t1 [1%nat; 3%nat]; t1 [1%nat; 2%nat]; t1 [2%nat; 3%nat]].
Theorem C23_optimize_refuted : exists g c s s' sig x b, wf_graph g /\ (forall b, (b < length (g_nbrs g))%nat -> b_sym (nb g b) = true) /\ c = 1 /\
  calculate_mpr g c 0 s = Some (s', sig) /\ distance_two g x /\ In b (nbl g x) /\ willing g b /\ ~ is_covered g (m_mpr s') x.
Proof.
  assert (Y : option_map (fun a => map (m_mpr (fst a)) [0; 1; 2; 3]%nat) (calculate_mpr ring 1 0 fresh) = Some [true; false; false; false]) by (vm_compute; reflexivity).
  destruct (calculate_mpr ring 1 0 fresh) as [[s' r]|] eqn:E; [|discriminate]. cbn [option_map map fst] in Y. apply Some_inj in Y. injection Y as Y0 Y1 Y2 Y3.
  exists ring, 1, fresh, s', r, 1%nat, 1%nat. split; [wfg|]. split; [intros b Hb; do 4 (destruct b as [|b]; [reflexivity|]); cbn in Hb; lia|]. split; [reflexivity|]. split; [exact E|]. split; [split; [cbn; lia|reflexivity]|]. split; [now left|]. split; [split; [reflexivity|cbn; lia]|].
  intros (b & HB & M & _). cbn in HB. destruct HB as [HB|[HB|[]]]; subst b; congruence.
Qed.
Print Assumptions C23_optimize_refuted.

(** C23: before the optimisation: the counter of uncovered two-hop neighbors goes
    down once per MPR, not once per two-hop neighbor, so that two neighbors with a
    two-hop neighbor of their own are never chosen *)
Definition fan : graph := mkG [mkNb true 3 [0%nat; 1%nat]; mkNb true 3 [0%nat; 1%nat]; mkNb true 7 [0%nat]; mkNb true 7 [0%nat]; mkNb true 7 [0%nat]; mkNb true 7 [0%nat]]
  [t1 [0; 1; 2; 3; 4; 5]%nat; t1 [0; 1]%nat].
Theorem C23_greedy_refuted : exists g c s s' x b, wf_graph g /\ (forall b, (b < length (g_nbrs g))%nat -> b_sym (nb g b) = true) /\ c = 1 /\
  select g c s = Some s' /\ distance_two g x /\ In b (nbl g x) /\ willing g b /\ ~ is_covered g (m_mpr s') x.
Proof.
  assert (Y : option_map (fun a => map (m_mpr a) [0; 1; 2; 3; 4; 5]%nat) (select fan 1 fresh) = Some [false; false; true; true; true; true]) by (vm_compute; reflexivity).
  destruct (select fan 1 fresh) as [s'|] eqn:E; [|discriminate]. cbn [option_map map] in Y. apply Some_inj in Y. injection Y as Y0 Y1 _ _ _ _.
  exists fan, 1, fresh, s', 1%nat, 1%nat. split; [wfg|]. split; [intros b Hb; do 6 (destruct b as [|b]; [reflexivity|]); cbn in Hb; lia|]. split; [reflexivity|]. split; [exact E|]. split; [split; [cbn; lia|reflexivity]|]. split; [right; now left|]. split; [split; [reflexivity|cbn; lia]|].
  intros (b & HB & M & _). cbn in HB. destruct HB as [HB|[HB|[]]]; subst b; congruence.
Qed.
Print Assumptions C23_greedy_refuted.

(** C23: an example with coverage 2 *)
Definition mesh : graph := mkG [mkNb true 3 [0; 1]%nat; mkNb false 3 []; mkNb true 6 [1; 2]%nat; mkNb true 0 [2]%nat; mkNb true 7 [3]%nat]
  [t1 [0]%nat; t1 [0; 2]%nat; t1 [2; 3]%nat; mkTw true (Some 1024) [(4%nat, 512)]].
Example C23_ex : wf_graph mesh /\ (forall x, distance_two mesh x -> Z.of_nat (length (nbl mesh x)) <= 2) /\
  option_map (fun a => map (m_mpr (fst a)) [0; 1; 2; 3; 4]%nat) (calculate_mpr mesh 2 1 fresh) = Some [true; false; true; false; true].
Proof. split; [wfg|]. split; [|vm_compute; reflexivity]. intros x (Hx & _). do 4 (destruct x as [|x]; [cbn; lia|]). cbn in Hx. lia. Qed.

(** C24: with link qualities: for every two-hop neighbor that is not reached better
    directly, min(coverage, candidates) candidates are MPRs and no other candidate
    is cheaper; every MPR that is not always one is there for such a choice. *)
Theorem C24_cheapest : forall g c red mpr0 skip0, wf_graph g -> 0 <= c ->
  let mpr := fst (calculate_lq_mpr g c red mpr0 skip0) in
  (forall x lim, (x < length (g_twos g))%nat -> limit g x = Some lim ->
     exists sel, NoDup (map fst sel) /\ Z.of_nat (length sel) = Z.min c (Z.of_nat (length (candidates g x lim))) /\
       (forall w, In w sel -> candidate g x lim w /\ mpr (fst w) = true) /\
       (forall w w', candidate g x lim w -> ~ In w sel -> In w' sel -> snd w' <= snd w)) /\
  (forall b, (b < length (g_nbrs g))%nat -> mpr b = true ->
     (b_sym (nb g b) = true /\ b_will (nb g b) = 7) \/
     exists x lim v, (x < length (g_twos g))%nat /\ limit g x = Some lim /\ candidate g x lim (b, v) /\
       Z.of_nat (length (filter (fun w => snd w <? v) (candidates g x lim))) < c).
Proof.
  intros g c red mpr0 skip0 (_ & WF & _) C0. pose proof (lq_val g c red mpr0 skip0 WF) as L. destruct (calculate_lq_mpr g c red mpr0 skip0) as [mpr sig]. cbn [fst]. destruct L as (_ & A & B & _).
  assert (CA : forall x lim w, In w (candidates g x lim) <-> candidate g x lim w). { intros x lim w. unfold candidates, candidate. rewrite filter_In, !andb_true_iff, !Z.ltb_lt. tauto. }
  assert (NC' : forall x lim, (x < length (g_twos g))%nat -> NoDup (map fst (candidates g x lim))).
  { intros x lim Hx. destruct (WF x Hx) as (N & _). unfold nbl in N. unfold candidates. induction (t_nbl (tw g x)) as [|w l IH]; [constructor|]. cbn [map] in N. inversion N as [|? ? N1 N2]; subst. cbn [filter]. destruct (_ && _); [|now apply IH]. cbn [map]. constructor; [|now apply IH]. intros X. apply N1. apply in_map_iff in X. destruct X as (w' & X1 & X2). apply filter_In in X2. rewrite <- X1. now apply in_map. }
  assert (ND : forall l : list (nat * Z), NoDup (map fst l) -> NoDup l) by (intros l H; now apply NoDup_map_inv in H).
  assert (INV : forall x lim sel, (x < length (g_twos g))%nat -> limit g x = Some lim -> right_choice g c x sel -> Z.of_nat (length sel) = Z.min c (Z.of_nat (length (candidates g x lim)))).
  { intros x lim sel Hx HL R. unfold right_choice in R. rewrite HL in R. destruct R as (R1 & R2 & R3 & R4).
    assert (LE : (length sel <= length (candidates g x lim))%nat) by (apply NoDup_incl_length; [now apply ND|]; intros w Hw; apply CA; now apply R2).
    destruct (Z.eq_dec (Z.of_nat (length sel)) c) as [Q|Q]; [lia|].
    assert (GE : (length (candidates g x lim) <= length sel)%nat).
    { apply NoDup_incl_length; [apply ND; now apply NC'|]. intros w Hw. apply CA in Hw. destruct (in_dec (fun a b : nat * Z => ltac:(decide equality; [apply Z.eq_dec|apply Nat.eq_dec])) w sel) as [X|X]; [exact X|]. destruct (R4 w Hw X) as (Y & _). lia. }
    lia. }
  split.
  - intros x lim Hx HL. destruct (A x Hx) as (sel & R & M). pose proof (INV x lim sel Hx HL R) as LEN. unfold right_choice in R. rewrite HL in R. destruct R as (R1 & R2 & R3 & R4). exists sel. split; [exact R1|]. split; [exact LEN|]. split; [intros w Hw; split; [now apply R2|now apply M]|]. intros w w' Cw Nw Hw'. destruct (R4 w Cw Nw) as (_ & Q). now apply Q.
  - intros b Hb M. destruct (B b Hb M) as [Q|(x & sel & Hx & R & Q)]; [now left|right]. pose proof R as R0. unfold right_choice in R. destruct (limit g x) as [lim|] eqn:HL; [|rewrite R in Q; contradiction]. destruct R as (R1 & R2 & R3 & R4). apply in_map_iff in Q. destruct Q as ([b' v] & <- & Q). cbn [fst].
    exists x, lim, v. split; [exact Hx|]. split; [exact HL|]. split; [now apply R2|].
    assert (INC : incl (filter (fun w => snd w <? v) (candidates g x lim)) sel). { intros w Hw. apply filter_In in Hw. destruct Hw as (Hw & V). apply CA in Hw. destruct (in_dec (fun a b : nat * Z => ltac:(decide equality; [apply Z.eq_dec|apply Nat.eq_dec])) w sel) as [X|X]; [exact X|]. destruct (R4 w Hw X) as (_ & Y). specialize (Y _ Q). cbn [snd] in Y. lia. }
    assert (LT : le (length ((b', v) :: filter (fun w => snd w <? v) (candidates g x lim))) (length sel)).
    { apply NoDup_incl_length; [|intros w [<-|Hw]; [exact Q|now apply INC]]. constructor; [rewrite filter_In; cbn [snd]; lia|]. apply ND. specialize (NC' x lim Hx). clear - NC'. induction (candidates g x lim) as [|w l IH]; [constructor|]. cbn [map] in NC'. inversion NC' as [|? ? N1 N2]; subst. cbn [filter]. destruct (snd w <? v); [|now apply IH]. cbn [map]. constructor; [|now apply IH]. intros X. apply N1. apply in_map_iff in X. destruct X as (w' & X1 & X2). apply filter_In in X2. rewrite <- X1. now apply in_map. }
    cbn [length] in LT. lia.
Qed.
Print Assumptions C24_cheapest.

Definition lqg : graph := mkG [mkNb true 3 [0; 1]%nat; mkNb true 3 [0; 1]%nat; mkNb true 3 [0]%nat; mkNb false 3 [0]%nat; mkNb true 0 [2]%nat]
  [mkTw false None [(0%nat, 3000); (1%nat, 2000); (2%nat, 2500); (3%nat, 100)]; mkTw true (Some 2100) [(0%nat, 2050); (1%nat, 5000)]; mkTw false None [(4%nat, 2048)]].
Example C24_ex : wf_graph lqg /\ map (fst (calculate_lq_mpr lqg 2 1 (fun _ => true) (fun _ => true))) [0; 1; 2; 3; 4]%nat = [true; true; true; false; true] /\
  map (fst (calculate_lq_mpr lqg 1 1 (fun _ => true) (fun _ => true))) [0; 1; 2; 3; 4]%nat = [true; true; false; false; true].
Proof. split; [wfg|]. split; vm_compute; reflexivity. Qed.

(** C65: RFC 3626 selection respects the willingness, in every neighborhood *)
Theorem C65_rfc : forall g c red s, exists s' sig, calculate_mpr g c red s = Some (s', sig) /\
  forall b, (b < length (g_nbrs g))%nat ->
    (b_will (nb g b) = 0 -> m_mpr s' b = false) /\ (b_sym (nb g b) = true -> b_will (nb g b) = 7 -> m_mpr s' b = true).
Proof.
  intros g c red s. destruct (calc_gen g c s red) as (s' & r & E & A & B & _). exists s', r. split; [exact E|]. intros b Hb. split; [|now apply B]. intros W. destruct (m_mpr s' b) eqn:M; [|reflexivity]. specialize (A b Hb M). unfold okw in A. lia.
Qed.
Print Assumptions C65_rfc.
(** C65: the selection with link qualities always selects WILL_ALWAYS neighbors *)
Theorem C65_lq_partial : forall g c red mpr0 skip0, wf_graph g -> forall b, (b < length (g_nbrs g))%nat ->
  b_sym (nb g b) = true -> b_will (nb g b) = 7 -> fst (calculate_lq_mpr g c red mpr0 skip0) b = true.
Proof. intros g c red mpr0 skip0 (_ & WF & _). pose proof (lq_val g c red mpr0 skip0 WF) as L. destruct (calculate_lq_mpr g c red mpr0 skip0) as [mpr sig]. cbn [fst]. apply L. Qed.
Print Assumptions C65_lq_partial.
(** C65: but it also selects neighbors that announce WILL_NEVER *)
Theorem C65_lq_refuted : exists g c red mpr0 skip0 b, wf_graph g /\ (b < length (g_nbrs g))%nat /\ b_will (nb g b) = 0 /\ fst (calculate_lq_mpr g c red mpr0 skip0) b = true.
Proof. exists lqg, 1, 0, (fun _ => false), (fun _ => false), 4%nat. split; [wfg|]. split; [cbn; lia|]. split; reflexivity. Qed.
Print Assumptions C65_lq_refuted.
Example C65_ex : wf_graph mesh /\ b_will (nb mesh 3) = 0 /\ b_will (nb mesh 4) = 7 /\ b_sym (nb mesh 4) = true /\
  map (fst (calculate_lq_mpr mesh 2 1 (fun _ => true) (fun _ => true))) [0; 1; 2; 3; 4]%nat = [true; false; true; true; true].
Proof. split; [wfg|]. repeat split. Qed.

(** C66: with link qualities only symmetric neighbors become MPRs *)
Theorem C66_lq : forall g c red mpr0 skip0, wf_graph g -> forall b, (b < length (g_nbrs g))%nat -> fst (calculate_lq_mpr g c red mpr0 skip0) b = true -> b_sym (nb g b) = true.
Proof.
  intros g c red mpr0 skip0 (_ & WF & _) b Hb. pose proof (lq_val g c red mpr0 skip0 WF) as L. destruct (calculate_lq_mpr g c red mpr0 skip0) as [mpr sig]. cbn [fst]. destruct L as (_ & _ & B & _). intros M. destruct (B b Hb M) as [(Q & _)|(x & sel & _ & R & Q)]; [exact Q|].
  unfold right_choice in R. destruct (limit g x) as [lim|]; [|rewrite R in Q; contradiction]. destruct R as (_ & R & _). apply in_map_iff in Q. destruct Q as (w & <- & Q). apply (R w Q).
Qed.
Print Assumptions C66_lq.
(** C66: the selection of RFC 3626 chooses a neighbor that is not symmetric *)
Theorem C66_rfc_refuted : exists g c s s' sig b, wf_graph g /\ calculate_mpr g c 0 s = Some (s', sig) /\ (b < length (g_nbrs g))%nat /\ b_sym (nb g b) = false /\ m_mpr s' b = true.
Proof.
  (* a neighbor that became asymmetric keeps its two-hop neighbors until they expire *)
  set (gg := mkG [mkNb true 3 [0]%nat; mkNb true 3 [0]%nat; mkNb false 6 [0; 1]%nat] [t1 [0; 1; 2]%nat; t1 [2]%nat]).
  assert (Y : option_map (fun a => m_mpr (fst a) 2%nat) (calculate_mpr gg 1 0 fresh) = Some true) by (vm_compute; reflexivity).
  destruct (calculate_mpr gg 1 0 fresh) as [[s' r]|] eqn:E; [|discriminate]. cbn [option_map fst] in Y. apply Some_inj in Y.
  exists gg, 1, fresh, s', r, 2%nat. split; [wfg|]. split; [exact E|]. split; [cbn; lia|]. split; [reflexivity|exact Y].
Qed.
Print Assumptions C66_rfc_refuted.
Example C66_ex : wf_graph lqg /\ b_sym (nb lqg 3) = false /\ fst (calculate_lq_mpr lqg 4 1 (fun _ => true) (fun _ => true)) 3%nat = false /\ fst (calculate_lq_mpr lqg 4 1 (fun _ => true) (fun _ => true)) 2%nat = true.
Proof. split; [wfg|]. repeat split. Qed.

(** C67: the RFC 3626 selection signals exactly the loss of an MPR *)
Theorem C67_rfc_partial : forall g c red s, (forall b, (b < length (g_nbrs g))%nat -> m_was s b = false) ->
  exists s' sig, calculate_mpr g c red s = Some (s', sig) /\ (forall b, (b < length (g_nbrs g))%nat -> m_was s' b = false) /\
  (sig = true <-> red > 0 /\ exists b, (b < length (g_nbrs g))%nat /\ m_mpr s b = true /\ m_mpr s' b = false).
Proof.
  intros g c red s W0. destruct (calc_gen g c s red) as (s' & r & E & _ & _ & W & R). exists s', r. split; [exact E|]. split; [exact W|]. rewrite R, andb_true_iff, Z.gtb_lt, existsb_exists. split.
  - intros ((b & H1 & H2) & H3). split; [lia|]. apply all_in in H1. rewrite (W0 b H1) in H2. cbn [orb] in H2. apply andb_true_iff in H2. destruct H2 as (H2 & H4). apply negb_true_iff in H4. exists b. auto.
  - intros (H & b & H1 & H2 & H3). split; [|lia]. exists b. split; [now apply all_in|]. rewrite H2, H3, orb_true_r. reflexivity.
Qed.
Print Assumptions C67_rfc_partial.
(** C67: the selection with link qualities signals exactly a new MPR *)
Theorem C67_lq_partial : forall g c red mpr0 skip0, wf_graph g ->
  (snd (calculate_lq_mpr g c red mpr0 skip0) = true <->
   red > 0 /\ exists b, (b < length (g_nbrs g))%nat /\ fst (calculate_lq_mpr g c red mpr0 skip0) b = true /\ mpr0 b = false).
Proof. intros g c red mpr0 skip0 (_ & WF & _). pose proof (lq_val g c red mpr0 skip0 WF) as L. destruct (calculate_lq_mpr g c red mpr0 skip0) as [mpr sig]. cbn [fst snd]. apply L. Qed.
Print Assumptions C67_lq_partial.
(** C67: so a new MPR goes unnoticed in one and a lost one in the other *)
Theorem C67_rfc_refuted : exists g c red s s' b, red > 0 /\ wf_graph g /\ (forall b, m_was s b = false) /\ calculate_mpr g c red s = Some (s', false) /\ (b < length (g_nbrs g))%nat /\ m_mpr s' b <> m_mpr s b.
Proof.
  assert (Y : option_map (fun a => (m_mpr (fst a) 0%nat, snd a)) (calculate_mpr mesh 2 1 fresh) = Some (true, false)) by (vm_compute; reflexivity).
  destruct (calculate_mpr mesh 2 1 fresh) as [[s' r]|] eqn:E; [|discriminate]. cbn [option_map fst snd] in Y. apply Some_inj in Y. injection Y as Y1 Y2. subst r.
  exists mesh, 2, 1, fresh, s', 0%nat. split; [lia|]. split; [wfg|]. split; [reflexivity|]. split; [exact E|]. split; [cbn; lia|]. rewrite Y1. discriminate.
Qed.
Print Assumptions C67_rfc_refuted.
Theorem C67_lq_refuted : exists g c red mpr0 skip0 b, red > 0 /\ wf_graph g /\ (b < length (g_nbrs g))%nat /\
  snd (calculate_lq_mpr g c red mpr0 skip0) = false /\ fst (calculate_lq_mpr g c red mpr0 skip0) b <> mpr0 b.
Proof. exists lqg, 1, 1, (fun _ => true), (fun _ => false), 2%nat. split; [lia|]. split; [wfg|]. split; [cbn; lia|]. split; [reflexivity|discriminate]. Qed.
Print Assumptions C67_lq_refuted.
Example C67_ex : wf_graph lqg /\ snd (calculate_lq_mpr lqg 1 1 (fun _ => false) (fun _ => true)) = true /\
  option_map snd (calculate_mpr mesh 2 1 (mkM (fun _ => true) (fun _ => false) (fun _ => 0) (fun _ => 0))) = Some true.
Proof. split; [wfg|]. split; reflexivity. Qed.

(** The thread of the plugin dyn_gw pings every group that has a route. *)
From Coq Require Permutation.
From Verif Require Import Base Parser ParserProofs IpCalc DynGw DynGwSpec DynGwProofs.

Lemma log_true dm evs : forall s g a b, In (g, a, b) (snd (run dm s evs)) -> exists ans, In (Thread ans) evs /\ ans a = b.
Proof.
  induction evs as [|x evs IH]; intros s g a b I; [destruct I|]. cbn [run] in I. destruct (step dm s x) as [s1 l1] eqn:E. specialize (IH s1).
  destruct (run dm s1 evs) as [s2 l2]. cbn [snd] in *. apply in_app_or in I. destruct I as [I|I].
  - destruct x as [t|ans]; cbn [step] in E; [injection E as <- <-; destruct I|]. exists ans. split; [left; reflexivity|].
    unfold thread in E. destruct (negb (d_ping s)); [injection E as <- <-; destruct I|]. destruct (nth_error (d_hnas s) (d_pos s)) as [h|]; [|injection E as <- <-; destruct I].
    destruct (negb (h_active h)); [injection E as <- <-; destruct I|]. destruct (nth_error (d_groups s) (h_grp h)) as [gr|]; [|injection E as <- <-; destruct I].
    unfold check_gw in E. assert (PI := pings_in ans (g_pings gr)). destruct (g_pings gr) as [|q qs]; [injection E as <- <-; destruct I|].
    destruct (pings ans (q :: qs)) as [lg ok]. injection E as <- <-. apply in_map_iff in I. destruct I as (y & Y & I). injection Y as _ <- <-. now apply PI.
  - destruct (IH g a b I) as (ans & A & B). exists ans. split; [right; exact A|exact B].
Qed.

Lemma skip_bounds g l : forall i, (i <= skip_group i g l <= i + length l)%nat.
Proof. induction l as [|h l IH]; intros i; cbn [skip_group length]; [lia|]. destruct (h_grp h =? g)%nat; [specialize (IH (S i)); lia|lia]. Qed.
Lemma skip_same g l : forall i k h, nth_error l k = Some h -> (i + k < skip_group i g l)%nat -> h_grp h = g.
Proof.
  induction l as [|x l IH]; intros i k h N L; [destruct k; discriminate|]. cbn [skip_group] in L. destruct (h_grp x =? g)%nat eqn:E; [|lia].
  destruct k as [|k]; cbn [nth_error] in N; [injection N as <-; now apply Nat.eqb_eq|]. apply (IH (S i) k h N). lia.
Qed.
Definition good (s : dst) : Prop := d_ping s = true /\ (forall h, In h (d_hnas s) -> exists g, nth_error (d_groups s) (h_grp h) = Some g /\ g_pings g <> []).
Lemma thread_step s ans : good s -> let (s', log) := thread ans s in
  good s' /\ d_hnas s' = d_hnas s /\
  ((length (d_hnas s) <= d_pos s)%nat -> d_pos s' = 0%nat) /\
  ((d_pos s < length (d_hnas s))%nat -> (d_pos s < d_pos s' <= length (d_hnas s))%nat) /\
  (forall j h, nth_error (d_hnas s) j = Some h -> h_active h = true -> (d_pos s <= j < d_pos s')%nat -> exists a b, In (h_grp h, a, b) log).
Proof.
  intros (G1 & G2). unfold thread. rewrite G1. cbn [negb]. destruct (nth_error (d_hnas s) (d_pos s)) as [h|] eqn:EH.
  - assert (L : (d_pos s < length (d_hnas s))%nat) by (apply nth_error_Some; congruence). destruct (h_active h) eqn:EA; cbn [negb].
    + destruct (G2 h (nth_error_In _ _ EH)) as (g & EG & GN). rewrite EG. assert (EC : check_gw ans (g_pings g) = pings ans (g_pings g)) by (unfold check_gw; destruct (g_pings g); congruence). rewrite EC.
      destruct (pings_last ans _ GN) as (l1 & a & PL). destruct (pings ans (g_pings g)) as [lg ok]. cbn [fst snd] in PL.
      assert (BK := skip_bounds (h_grp h) (skipn (S (d_pos s)) (d_hnas s)) (S (d_pos s))). rewrite skipn_length in BK.
      split; [|split; [reflexivity|split; [cbn [d_pos]; lia|split; [cbn [d_pos]; destruct ok; lia|]]]].
      * split; cbn [d_ping d_hnas d_groups]; [reflexivity|]. intros k I. destruct (G2 k I) as (gk & A & B). rewrite set_ok_nth, A. cbn [option_map]. destruct (h_grp k =? h_grp h)%nat; eexists; (split; [reflexivity|exact B]).
      * cbn [d_pos]. intros j k N AC J. assert (KH : h_grp k = h_grp h).
        { destruct (Nat.eq_dec j (d_pos s)) as [->|NE]; [congruence|]. destruct ok; [|lia].
          apply (skip_same (h_grp h) (skipn (S (d_pos s)) (d_hnas s)) (S (d_pos s)) (j - S (d_pos s))); [|lia].
          rewrite <- N. rewrite <- (firstn_skipn (S (d_pos s)) (d_hnas s)) at 2. rewrite nth_error_app2 by (rewrite firstn_length; lia). rewrite firstn_length. f_equal. lia. }
        rewrite KH, PL, map_app. exists a, ok. apply in_or_app. right. left. reflexivity.
    + split; [split; [reflexivity|exact G2]|]. split; [reflexivity|]. cbn [d_pos]. split; [lia|]. split; [lia|]. intros j k N AC J. assert (j = d_pos s) by lia. subst j. congruence.
  - apply nth_error_None in EH. split; [split; [reflexivity|exact G2]|]. split; [reflexivity|]. cbn [d_pos]. split; [reflexivity|]. split; [lia|]. intros. lia.
Qed.
Lemma reach_ping dm j h : forall n s answers, good s -> nth_error (d_hnas s) j = Some h -> h_active h = true -> (d_pos s <= j)%nat -> (j - d_pos s < n)%nat -> (n <= length answers)%nat ->
  exists a b, In (h_grp h, a, b) (snd (run dm s (map Thread answers))).
Proof.
  induction n as [|n IH]; intros s answers G N A P L LA; [lia|]. destruct answers as [|ans answers]; [cbn in LA; lia|]. cbn [map run step length] in *.
  assert (T := thread_step s ans G). destruct (thread ans s) as [s1 l1]. destruct T as (T1 & T2 & T3 & T4 & T5).
  assert (JL : (j < length (d_hnas s))%nat) by (apply nth_error_Some; congruence).
  destruct (Nat.lt_ge_cases j (d_pos s1)) as [C|C].
  - destruct (T5 j h N A) as (a & b & I); [lia|]. exists a, b. destruct (run dm s1 (map Thread answers)). cbn [snd]. apply in_or_app. left. exact I.
  - rewrite <- T2 in N. destruct (IH s1 answers T1 N A C) as (a & b & I); [lia|lia|]. exists a, b. destruct (run dm s1 (map Thread answers)). cbn [snd] in *. apply in_or_app. right. exact I.
Qed.
Lemma wrap_ping dm j h : forall n s answers, good s -> nth_error (d_hnas s) j = Some h -> h_active h = true -> (length (d_hnas s) - d_pos s < n)%nat -> (n + length (d_hnas s) <= length answers)%nat ->
  exists a b, In (h_grp h, a, b) (snd (run dm s (map Thread answers))).
Proof.
  induction n as [|n IH]; intros s answers G N A L LA; [lia|]. assert (JL : (j < length (d_hnas s))%nat) by (apply nth_error_Some; congruence).
  destruct answers as [|ans answers]; [cbn in LA; lia|]. cbn [map run step length] in *.
  assert (T := thread_step s ans G). destruct (thread ans s) as [s1 l1]. destruct T as (T1 & T2 & T3 & T4 & T5). assert (N1 := N). rewrite <- T2 in N1.
  assert (X : exists a b, In (h_grp h, a, b) (snd (run dm s1 (map Thread answers)))).
  { destruct (Nat.lt_ge_cases (d_pos s) (length (d_hnas s))) as [C|C].
    - apply IH; try assumption; rewrite ?T2; lia.
    - apply (reach_ping dm j h (length (d_hnas s)) s1 answers T1 N1 A); rewrite ?(T3 C); lia. }
  destruct X as (a & b & I). exists a, b. destruct (run dm s1 (map Thread answers)). cbn [snd] in *. apply in_or_app. right. exact I.
Qed.
Theorem all_pinged dm secs e t0 evs lines s1 l1 answers s2 l2 : Forall full secs -> NoDup (all_nets secs) -> (forall p, In p (all_nets secs) -> ~ In p e) ->
  run dm (init dm (config secs) e t0) (evs ++ [Timer (Some lines)]) = (s1, l1) -> run dm s1 (map Thread answers) = (s2, l2) -> (2 * length (all_nets secs) + 1 <= length answers)%nat ->
  forall i sec p, nth_error secs i = Some sec -> In p (s_nets sec) -> uplink dm lines p -> exists a b, In (number secs i, a, b) l2.
Proof.
  intros F N D R1 R2 L i sec p NI IP U. assert (NE : secs <> []) by (intros ->; destruct i; discriminate).
  destruct (setup dm secs e t0 NE F N D) as (gs & K & EGS & KM & KS & KN & KL & PN & KE & V).
  rewrite run_app in R1. assert (RI := run_inv dm K (map fst gs) true e KN KL PN KE evs _ _ V). destruct (run dm (init dm (config secs) e t0) evs) as [sa la]. cbn [fst snd run step app] in *. injection R1 as <- <-.
  destruct (timer_inv dm K (map fst gs) true e KN KL KE (Some lines) sa la RI) as (T1 & _). assert (V1 := v_key _ _ _ _ _ _ RI).
  assert (GN : nth_error gs (number secs i) = Some (sec_group sec)).
  { rewrite EGS. unfold number. rewrite <- (map_length sec_group secs). rewrite nth_error_rev; [now apply map_nth_error|]. rewrite map_length. apply nth_error_Some. congruence. }
  assert (IK : In (number secs i, p) K).
  { rewrite KM. change (number secs i) with (0 + number secs i)%nat. eapply flatten_in; [exact GN|]. rewrite <- in_rev. exact IP. }
  assert (V2 := v_key _ _ _ _ _ _ T1). assert (IK2 := IK). rewrite <- V2 in IK2. apply in_map_iff in IK2. destruct IK2 as (h & EK & IH). injection EK as EK1 EK2.
  assert (AC : h_active h = true).
  { unfold timer in IH. destruct (upd_all dm K e KN KL KE (Some lines) _ V1) as (U1 & U2).
    assert (NP : NoDup (map pre (update_routing dm (Some lines) (d_hnas sa)))) by (rewrite (keys_pre K e KN KL KE _ U1); exact KN).
    assert (U3 := upd_in dm K e KN KL KE (Some lines) (d_hnas sa) (fun p b => In p (d_ents sa) <-> b = true) V1 (v_in _ _ _ _ _ _ RI)).
    destruct (sync_ok (d_groups sa) (update_routing dm (Some lines) (d_hnas sa)) (d_ents sa) NP U3) as (S1 & _).
    destruct (sync (d_groups sa) (update_routing dm (Some lines) (d_hnas sa)) (d_ents sa)) as [l e']. cbn [fst d_hnas] in *. rewrite S1 in IH. apply in_map_iff in IH. destruct IH as (k & <- & IH). cbn [add h_active].
    apply (update_active dm lines (d_hnas sa) k (keys_len K KL _ V1)); [rewrite (keys_pre K e KN KL KE _ V1); exact KN|exact IH|].
    change (pre (add (ok_of (d_groups sa) k && h_active k) k)) with (pre k) in EK2. rewrite EK2. exact U. }
  destruct (In_nth_error _ _ IH) as (j & NJ).
  assert (GO : good (timer dm (Some lines) sa)).
  { split; [apply T1|]. intros k I. assert (J : In (key k) K) by (rewrite <- V2; now apply in_map). rewrite KM in J. apply flatten_lt in J. cbn [key fst] in J.
    assert (VP := v_pings _ _ _ _ _ _ T1). destruct (nth_error (d_groups (timer dm (Some lines) sa)) (h_grp k)) as [g|] eqn:EN.
    - exists g. split; [reflexivity|]. specialize (PN eq_refl). rewrite Forall_forall in PN. apply PN. rewrite <- VP. apply in_map. eapply nth_error_In. exact EN.
    - apply nth_error_None in EN. apply (f_equal (@length _)) in VP. rewrite !map_length in VP. exfalso. apply (Nat.lt_irrefl (h_grp k)). eapply Nat.lt_le_trans; [exact J|]. etransitivity; [|exact EN]. apply Nat.eq_le_incl. symmetry. exact VP. }
  assert (HL : length (d_hnas (timer dm (Some lines) sa)) = length (all_nets secs)).
  { rewrite <- (map_length key), V2, <- (map_length snd). rewrite KS. apply Permutation.Permutation_length, perm_nets. }
  destruct (wrap_ping dm j h (S (length (all_nets secs))) _ answers GO NJ AC) as (a & b & I); [rewrite HL; lia|rewrite HL; lia|].
  exists a, b. rewrite R2 in I. cbn [snd] in I. rewrite <- EK1. exact I.
Qed.

(** A network in two sections: lines only ever count for the last section, so the first one is
    neither pinged nor announced. *)
Definition two (t : option (list line)) (s : dst) : Prop :=
  exists o1 o2 a c, d_groups s = [mkG [[9; 9; 9; 9]] false; mkG [[8; 8; 8; 8]] false] /\ d_ping s = true /\ d_ents s = [] /\
    d_hnas s = [mkH 0 [0; 0; 0; 0] 0 false o1 a; mkH 1 [0; 0; 0; 0] 0 false o2 c] /\ c = false.
Lemma two_update dm t x1 x2 a c : c = false -> exists y1 y2 a', update_routing dm t [mkH 0 [0; 0; 0; 0] 0 false x1 a; mkH 1 [0; 0; 0; 0] 0 false x2 c] = [mkH 0 [0; 0; 0; 0] 0 false y1 a'; mkH 1 [0; 0; 0; 0] 0 false y2 false].
Proof.
  intros ->. destruct t as [lines|]; [|exists x1, x2, a; reflexivity]. cbn [update_routing map h_grp h_addr h_plen h_added h_checked h_active].
  assert (X : forall l b, exists b', fold_left (one_line dm) l [mkH 0 [0; 0; 0; 0] 0 false b a; mkH 1 [0; 0; 0; 0] 0 false false false] = [mkH 0 [0; 0; 0; 0] 0 false b' a; mkH 1 [0; 0; 0; 0] 0 false false false]).
  { induction l as [|x l IH]; intros b; [exists b; reflexivity|]. cbn [fold_left]. unfold one_line at 2. destruct ((r_flags x mod 2 =? 1) && negb (r_metric x =? dm)); [|apply IH].
    cbn [check_first]. unfold fits. cbn [h_addr h_plen]. destruct (bytes_eqb _ _ && bytes_eqb _ _); [cbn [h_grp h_addr h_plen h_added h_checked h_active]; apply IH|apply IH]. }
  destruct (X lines false) as (b' & ->). exists b', false, b'. reflexivity.
Qed.
Lemma two_timer dm t t' s : two t s -> two t (timer dm t' s).
Proof.
  intros (o1 & o2 & a & c & G & P & E & H & C). unfold timer. rewrite H, G, P, E. destruct (two_update dm t' o1 o2 a c C) as (y1 & y2 & a' & ->).
  exists y1, y2, a', false. cbn [sync sync_one h_added negb ok_of nth_error h_grp g_ok andb h_active]. repeat split.
Qed.
Lemma two_thread t ans s : ans [9; 9; 9; 9] = false -> two t s -> two t (fst (thread ans s)).
Proof.
  intros A (o1 & o2 & a & c & G & P & E & H & C). unfold thread. rewrite P, H. cbn [negb]. destruct (d_pos s) as [|[|[|n]]]; cbn [nth_error].
  - cbn [h_active h_grp]. destruct a; cbn [negb]; rewrite ?G; cbn [nth_error check_gw g_pings pings].
    + rewrite A. cbn [fst set_ok g_pings]. exists o1, o2, true, c. cbn. repeat split; assumption.
    + cbn [fst]. exists o1, o2, false, c. cbn. repeat split; assumption.
  - subst c. cbn [h_active negb fst]. exists o1, o2, a, false. cbn. repeat split; assumption.
  - cbn [fst]. exists o1, o2, a, c. cbn. repeat split; assumption.
  - cbn [fst]. exists o1, o2, a, c. cbn. repeat split; assumption.
Qed.
Lemma twice t0 answers lines : let secs := [mkSec [[8; 8; 8; 8]] [([0; 0; 0; 0], 0)]; mkSec [[9; 9; 9; 9]] [([0; 0; 0; 0], 0)]] in
  Forall (fun ans => ans [8; 8; 8; 8] = true /\ ans [9; 9; 9; 9] = false) answers ->
  ~ In ([0; 0; 0; 0], 0) (d_ents (fst (run 2 (init 2 (config secs) [] t0) (Timer (Some lines) :: map Thread answers ++ [Timer (Some lines)])))).
Proof.
  intros secs F. assert (I : two t0 (init 2 (config secs) [] t0)).
  { unfold init. change (with_default (fold_left set_param (config secs) [])) with [([[9; 9; 9; 9]], [([0; 0; 0; 0], 0)]); ([[8; 8; 8; 8]], [([0; 0; 0; 0], 0)])]. cbn [flatten map app fst snd].
    destruct (two_update 2 t0 false false false false eq_refl) as (y1 & y2 & a' & ->). exists y1, y2, a', false. repeat split. }
  assert (R : forall l s, Forall (fun ans => ans [8; 8; 8; 8] = true /\ ans [9; 9; 9; 9] = false) l -> two t0 s -> two t0 (fst (run 2 s (map Thread l ++ [Timer (Some lines)])))).
  { induction l as [|x l IH]; intros s Fl T.
    - cbn [map app run step fst]. now apply two_timer.
    - inversion Fl as [|? ? F1 F2]; subst. cbn [map app run step]. assert (T1 := two_thread t0 x s (proj2 F1) T). destruct (thread x s) as [s1 l1]. cbn [fst] in T1. specialize (IH s1 F2 T1).
      destruct (run 2 s1 (map Thread l ++ [Timer (Some lines)])). exact IH. }
  cbn [run step]. specialize (R answers _ F (two_timer 2 t0 (Some lines) _ I)). destruct (run 2 (timer 2 (Some lines) (init 2 (config secs) [] t0)) (map Thread answers ++ [Timer (Some lines)])) as [s2 l2]. cbn [fst] in *.
  destruct R as (_ & _ & _ & _ & _ & _ & E & _). rewrite E. intros [].
Qed.

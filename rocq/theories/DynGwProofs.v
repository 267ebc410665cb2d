(** Proofs about the plugins dyn_gw and dyn_gw_plain. *)
From Coq Require Permutation.
From Verif Require Import Base Parser ParserProofs IpCalc DynGw DynGwSpec.

(** * Masks *)
Lemma mask_all len : length_ok ([], len) -> fst (prefix_to_netmask 4 len) = mask len /\ netmask_to_prefix (mask len) = len.
Proof.
  unfold length_ok. cbn [snd]. intros H.
  assert (B : forallb (fun k => bytes_eqb (fst (prefix_to_netmask 4 (Z.of_nat k))) (mask (Z.of_nat k)) && (netmask_to_prefix (mask (Z.of_nat k)) =? Z.of_nat k)) (seq 0 33) = true) by (vm_compute; reflexivity).
  rewrite forallb_forall in B. specialize (B (Z.to_nat len)). rewrite Z2Nat.id in B by lia.
  assert (I : In (Z.to_nat len) (seq 0 33)) by (apply in_seq; lia). specialize (B I). apply andb_prop in B. destruct B as (B1 & B2).
  split; [now apply bytes_eqb_spec|lia].
Qed.
Lemma net_eqb_ok p q : net_eqb p q = true <-> p = q.
Proof.
  unfold net_eqb. destruct p as [a n], q as [b m]. cbn [fst snd]. rewrite andb_true_iff, bytes_eqb_spec, Z.eqb_eq.
  split; [intros (-> & ->); reflexivity|intros E; injection E as -> ->; split; reflexivity].
Qed.
Lemma in_remove p q e : In q (net_remove_all p e) <-> In q e /\ q <> p.
Proof.
  unfold net_remove_all. rewrite filter_In. destruct (net_eqb p q) eqn:E; cbn [negb].
  - apply net_eqb_ok in E. subst. split; [intros (_ & H); discriminate|intros (_ & H); congruence].
  - split; [|tauto]. intros (I & _). split; [exact I|]. intros ->. assert (net_eqb p p = true) by now apply net_eqb_ok. congruence.
Qed.

Definition pre (h : hna) : list Z * Z := (h_addr h, h_plen h).
Definition key (h : hna) : nat * (list Z * Z) := (h_grp h, pre h).
Lemma odd_mod f : (f mod 2 =? 1) = Z.odd f.
Proof. rewrite Zmod_odd. destruct (Z.odd f); reflexivity. Qed.

(** * The routing table *)
Definition chk (b : bool) (h : hna) : hna := mkH (h_grp h) (h_addr h) (h_plen h) (h_added h) b (h_active h).
Lemma fits_ok x h : length_ok (pre h) -> (fits x h = true <-> r_dst x = fst (pre h) /\ r_mask x = mask (snd (pre h))).
Proof.
  intros L. unfold fits. rewrite andb_true_iff, !bytes_eqb_spec. cbn [pre fst snd].
  assert (M := proj1 (mask_all (h_plen h) L)). rewrite M. intuition congruence.
Qed.
Lemma check_first_map x l : Forall (fun h => length_ok (pre h)) l -> NoDup (map pre l) -> check_first x l = map (fun h => if fits x h then chk true h else h) l.
Proof.
  induction l as [|h l IH]; intros F N; [reflexivity|]. cbn [check_first map]. inversion F as [|? ? F1 F2]; subst. cbn [map] in N. inversion N as [|? ? N1 N2]; subst.
  destruct (fits x h) eqn:E; [|now rewrite IH]. f_equal. rewrite <- (map_id l) at 1. apply map_ext_in. intros k I.
  destruct (fits x k) eqn:E2; [|reflexivity]. exfalso. apply N1. apply in_map_iff. exists k. split; [|exact I].
  rewrite Forall_forall in F2. specialize (F2 _ I). apply fits_ok in E; [|exact F1]. apply fits_ok in E2; [|exact F2].
  destruct E as (A & B), E2 as (A2 & B2). unfold pre in *. cbn [fst snd] in *.
  assert (h_plen k = h_plen h) by (rewrite <- (proj2 (mask_all (h_plen k) F2)), <- (proj2 (mask_all (h_plen h) F1)); congruence). congruence.
Qed.
Definition counts (dm : Z) (x : line) (h : hna) : bool := ((r_flags x mod 2 =? 1) && negb (r_metric x =? dm)) && fits x h.
Lemma one_line_map dm x l : Forall (fun h => length_ok (pre h)) l -> NoDup (map pre l) -> one_line dm l x = map (fun h => chk (h_checked h || counts dm x h) h) l.
Proof.
  intros F N. unfold one_line, counts. destruct ((r_flags x mod 2 =? 1) && negb (r_metric x =? dm)).
  - rewrite check_first_map by assumption. apply map_ext. intros h. destruct h, (fits _ _); cbn; unfold chk; cbn; now rewrite ?orb_true_r, ?orb_false_r.
  - rewrite <- (map_id l) at 1. apply map_ext. intros h. destruct h; cbn. unfold chk; cbn. now rewrite orb_false_r.
Qed.
Lemma lines_map dm lines : forall l, Forall (fun h => length_ok (pre h)) l -> NoDup (map pre l) ->
  fold_left (one_line dm) lines l = map (fun h => chk (h_checked h || existsb (fun x => counts dm x h) lines) h) l.
Proof.
  induction lines as [|x lines IH]; intros l F N; cbn [fold_left existsb].
  - rewrite <- (map_id l) at 1. apply map_ext. intros h. destruct h; unfold chk; cbn. now rewrite orb_false_r.
  - rewrite one_line_map by assumption. rewrite IH.
    + rewrite map_map. apply map_ext. intros h. destruct h; unfold chk, counts, fits; cbn. now rewrite orb_assoc.
    + apply Forall_forall. intros h I. apply in_map_iff in I. destruct I as (k & <- & I). rewrite Forall_forall in F. exact (F _ I).
    + rewrite map_map. exact N.
Qed.
Lemma counts_uplink dm lines h : length_ok (pre h) -> (existsb (fun x => counts dm x h) lines = true <-> uplink dm lines (pre h)).
Proof.
  intros L. rewrite existsb_exists. unfold uplink, counts. split.
  - intros (x & I & E). apply andb_prop in E. destruct E as (E & F). apply andb_prop in E. destruct E as (E1 & E2). apply fits_ok in F; [|exact L].
    exists x. split; [exact I|]. split; [tauto|]. split; [tauto|]. rewrite <- odd_mod. split; [exact E1|]. apply negb_true_iff in E2. lia.
  - intros (x & I & A & B & C & D). exists x. split; [exact I|]. rewrite odd_mod, C. replace (r_metric x =? dm) with false by (symmetry; lia). cbn [negb andb]. apply fits_ok; [exact L|tauto].
Qed.
Lemma update_key dm t l : Forall (fun h => length_ok (pre h)) l -> NoDup (map pre l) ->
  map (fun h => (key h, h_added h)) (update_routing dm t l) = map (fun h => (key h, h_added h)) l.
Proof.
  intros F N. destruct t as [lines|]; [|reflexivity]. cbn [update_routing]. rewrite lines_map.
  - rewrite !map_map. apply map_ext. intros h. destruct h; reflexivity.
  - apply Forall_forall. intros h I. apply in_map_iff in I. destruct I as (k & <- & I). rewrite Forall_forall in F. exact (F _ I).
  - rewrite map_map. exact N.
Qed.
Lemma update_active dm lines l h : Forall (fun h => length_ok (pre h)) l -> NoDup (map pre l) -> In h (update_routing dm (Some lines) l) ->
  (h_active h = true <-> uplink dm lines (pre h)).
Proof.
  intros F N I. cbn [update_routing] in I. rewrite lines_map in I.
  - rewrite !map_map in I. apply in_map_iff in I. destruct I as (k & <- & I). rewrite Forall_forall in F. specialize (F _ I).
    rewrite <- counts_uplink by exact F. destruct k; unfold chk, counts, fits; cbn. reflexivity.
  - apply Forall_forall. intros k J. apply in_map_iff in J. destruct J as (k' & <- & J). rewrite Forall_forall in F. exact (F _ J).
  - rewrite map_map. exact N.
Qed.

(** * The timer *)
Definition add (b : bool) (h : hna) : hna := mkH (h_grp h) (h_addr h) (h_plen h) b (h_checked h) (h_active h).
Lemma sync_ok gs l : forall e, NoDup (map pre l) -> (forall h, In h l -> (In (pre h) e <-> h_added h = true)) ->
  fst (sync gs l e) = map (fun h => add (ok_of gs h && h_active h) h) l /\
  (forall h, In h l -> (In (pre h) (snd (sync gs l e)) <-> ok_of gs h && h_active h = true)) /\
  (forall q, ~ In q (map pre l) -> (In q (snd (sync gs l e)) <-> In q e)).
Proof.
  induction l as [|h l IH]; intros e N A; cbn [sync map].
  - split; [reflexivity|]. split; [intros h []|]. intros q _. reflexivity.
  - cbn [map] in N. inversion N as [|? ? N1 N2]; subst.
    assert (Ah := A h (or_introl eq_refl)).
    assert (S1 : fst (sync_one gs h e) = add (ok_of gs h && h_active h) h /\ (In (pre h) (snd (sync_one gs h e)) <-> ok_of gs h && h_active h = true) /\
      (forall q, q <> pre h -> (In q (snd (sync_one gs h e)) <-> In q e))).
    { unfold sync_one. destruct h as [g a n ad c ac]. cbn [h_added h_active h_addr h_plen h_grp h_checked] in *. unfold pre, add in *. cbn [h_added h_active h_addr h_plen h_grp h_checked] in *.
      assert (EO : forall b, ok_of gs (mkH g a n b c ac) = match nth_error gs g with Some g0 => g_ok g0 | None => false end) by reflexivity. rewrite !EO.
      set (o := match nth_error gs g with Some g0 => g_ok g0 | None => false end). clearbody o. clear EO.
      destruct ad; cbn [negb].
      - destruct (negb o || negb ac) eqn:E; cbn [fst snd].
        + assert (E2 : o && ac = false) by (destruct o, ac; cbn in *; congruence). rewrite E2. split; [reflexivity|]. split; [|intros q Q; rewrite in_remove; tauto].
          rewrite in_remove. split; [intros (_ & X); congruence|discriminate].
        + assert (E2 : o && ac = true) by (destruct o, ac; cbn in *; congruence). rewrite E2. split; [reflexivity|]. split; [exact Ah|]. intros q _. reflexivity.
      - destruct (o && ac) eqn:E; cbn [fst snd net_add].
        + split; [reflexivity|]. split; [|intros q Q; cbn [In]; split; [intros [X|X]; [congruence|exact X]|intros X; right; exact X]]. split; [reflexivity|left; reflexivity].
        + split; [reflexivity|]. split; [exact Ah|]. intros q _. reflexivity. }
    destruct (sync_one gs h e) as [h' e1]. cbn [fst snd] in S1. destruct S1 as (S1 & S2 & S3).
    destruct (IH e1 N2) as (I1 & I2 & I3).
    { intros k K. rewrite S3; [apply A; right; exact K|]. intros X. apply N1. rewrite <- X. apply in_map. exact K. }
    destruct (sync gs l e1) as [r' e2]. cbn [fst snd] in *. rewrite S1, I1. split; [reflexivity|]. split.
    + intros k [<-|K]; [|apply I2; exact K]. rewrite I3 by exact N1. exact S2.
    + intros q Q. cbn [In] in Q. rewrite I3 by (intros X; apply Q; right; exact X). apply S3. intros X. apply Q. left. symmetry. exact X.
Qed.

(** * Pings *)
Lemma pings_last ans l : l <> [] -> exists l1 a, fst (pings ans l) = l1 ++ [(a, snd (pings ans l))].
Proof.
  induction l as [|a l IH]; [congruence|]. intros _. cbn [pings]. destruct (ans a) eqn:E; [exists [], a; reflexivity|].
  destruct l as [|b l]; [exists [], a; reflexivity|]. destruct IH as (l1 & c & H); [discriminate|].
  destruct (pings ans (b :: l)) as [log ok]. cbn [fst snd] in *. rewrite H. exists ((a, false) :: l1), c. reflexivity.
Qed.
Lemma pings_in ans l x : In x (fst (pings ans l)) -> In (fst x) l /\ ans (fst x) = snd x.
Proof.
  induction l as [|a l IH]; cbn [pings]; [intros []|]. destruct (ans a) eqn:E.
  - cbn [fst In]. intros [<-|[]]. cbn [fst snd]. tauto.
  - destruct (pings ans l) as [log ok]. cbn [fst In] in *. intros [<-|I]; [cbn [fst snd]; tauto|]. destruct (IH I). tauto.
Qed.
Lemma answered_other log l g : (forall x, In x l -> fst (fst x) <> g) -> (answered (log ++ l) g <-> answered log g).
Proof.
  intros H. split.
  - revert H. induction l as [|y l IH] using rev_ind; intros H; [now rewrite app_nil_r|].
    intros (l1 & a & l2 & E & F). apply IH; [intros x I; apply H, in_or_app; tauto|]. rewrite app_assoc in E.
    destruct l2 as [|z l2 _] using rev_ind.
    + apply app_inj_tail in E. destruct E as (_ & ->). exfalso. apply (H (g, a, true)); [apply in_or_app; right; left; reflexivity|reflexivity].
    + change ((g, a, true) :: l2 ++ [z]) with (((g, a, true) :: l2) ++ [z]) in E. rewrite app_assoc in E. apply app_inj_tail in E. destruct E as (E & _).
      exists l1, a, l2. split; [exact E|]. intros x I. apply F, in_or_app. tauto.
  - intros (l1 & a & l2 & -> & F). exists l1, a, (l2 ++ l). split; [now rewrite <- app_assoc|]. intros x I. apply in_app_or in I. destruct I; auto.
Qed.
Lemma answered_last log g a b : answered (log ++ [(g, a, b)]) g <-> b = true.
Proof.
  split.
  - intros (l1 & c & l2 & E & F). destruct l2 as [|z l2 _] using rev_ind.
    + apply app_inj_tail in E. destruct E as (_ & E). injection E as _ E. exact E.
    + change ((g, c, true) :: l2 ++ [z]) with (((g, c, true) :: l2) ++ [z]) in E. rewrite app_assoc in E. apply app_inj_tail in E. destruct E as (_ & <-).
      exfalso. apply (F (g, a, b)); [apply in_or_app; right; left; reflexivity|reflexivity].
  - intros ->. exists log, a, []. split; [reflexivity|]. intros x [].
Qed.
Lemma set_ok_pings b : forall gs i, map g_pings (set_ok i b gs) = map g_pings gs.
Proof. induction gs as [|g gs IH]; intros i; [destruct i; reflexivity|]. destruct i; cbn [set_ok map]; [reflexivity|now rewrite IH]. Qed.
Lemma set_ok_nth b : forall gs i j, nth_error (set_ok i b gs) j = if (j =? i)%nat then option_map (fun g => mkG (g_pings g) b) (nth_error gs j) else nth_error gs j.
Proof.
  induction gs as [|g gs IH]; intros i j; [destruct i, j; cbn [set_ok nth_error option_map]; destruct (_ =? _)%nat; reflexivity|]. destruct i, j; cbn [set_ok nth_error Nat.eqb option_map]; try reflexivity. apply IH.
Qed.

(** * Runs *)
Lemma flatten_added : forall gs i h, In h (flatten i gs) -> h_added h = false.
Proof.
  induction gs as [|[qs ks] gs IH]; intros i h I; [destruct I|]. cbn [flatten] in I. apply in_app_or in I. destruct I as [I|I]; [|eapply IH; exact I].
  apply in_map_iff in I. destruct I as (p & <- & _). reflexivity.
Qed.
Section core.
Variables (dm : Z) (K : list (nat * (list Z * Z))) (P : list (list (list Z))) (pg : bool) (e0 : nets).
Hypothesis KN : NoDup (map snd K).
Hypothesis KL : Forall (fun k => length_ok (snd k)) K.
Hypothesis PN : pg = true -> Forall (fun l => l <> []) P.
Hypothesis KE : forall p, In p (map snd K) -> ~ In p e0.

Record Inv (s : dst) (log : list (nat * list Z * bool)) : Prop := {
  v_key : map key (d_hnas s) = K;
  v_pings : map g_pings (d_groups s) = P;
  v_pg : d_ping s = pg;
  v_ok : forall i g, nth_error (d_groups s) i = Some g -> (g_ok g = true <-> pg = false \/ answered log i);
  v_in : forall h, In h (d_hnas s) -> (In (pre h) (d_ents s) <-> h_added h = true);
  v_other : forall q, ~ In q (map snd K) -> (In q (d_ents s) <-> In q e0);
  v_log : forall g a b, In (g, a, b) log -> exists l, nth_error P g = Some l /\ In a l
}.
Lemma keys_pre l : map key l = K -> map pre l = map snd K.
Proof. intros <-. rewrite map_map. reflexivity. Qed.
Lemma keys_len l : map key l = K -> Forall (fun h => length_ok (pre h)) l.
Proof. intros E. apply Forall_forall. intros h I. rewrite Forall_forall in KL. apply (KL (key h)). rewrite <- E. now apply in_map. Qed.
Lemma upd_all t l : map key l = K -> map key (update_routing dm t l) = K /\ map h_added (update_routing dm t l) = map h_added l.
Proof.
  intros E. assert (U := update_key dm t l (keys_len l E)). rewrite keys_pre in U by exact E. specialize (U KN).
  assert (U1 := f_equal (map fst) U). assert (U2 := f_equal (map snd) U). rewrite !map_map in U1, U2. cbn [fst snd] in U1, U2.
  split; [|exact U2]. rewrite <- E. exact U1.
Qed.
Lemma upd_in t l (Q : list Z * Z -> bool -> Prop) : map key l = K -> (forall h, In h l -> Q (pre h) (h_added h)) -> forall h, In h (update_routing dm t l) -> Q (pre h) (h_added h).
Proof.
  intros E H h I. assert (U := update_key dm t l (keys_len l E)). rewrite keys_pre in U by exact E. specialize (U KN).
  assert (J : In (key h, h_added h) (map (fun h => (key h, h_added h)) l)) by (rewrite <- U; apply in_map_iff; exists h; split; [reflexivity|exact I]).
  apply in_map_iff in J. destruct J as (k & X & J). injection X as _ X1 X2 X3. specialize (H _ J). unfold pre in *. rewrite X1, X2, X3 in H. exact H.
Qed.
Lemma timer_inv t s log : Inv s log -> Inv (timer dm t s) log /\
  (forall lines, t = Some lines -> forall k, In k K -> (In (snd k) (d_ents (timer dm t s)) <-> uplink dm lines (snd k) /\ exists g, nth_error (d_groups s) (fst k) = Some g /\ g_ok g = true)).
Proof.
  intros [V1 V2 V3 V4 V5 V6 V7]. destruct (upd_all t (d_hnas s) V1) as (U1 & U2).
  assert (U3 := upd_in t (d_hnas s) (fun p b => In p (d_ents s) <-> b = true) V1 V5).
  assert (NP : NoDup (map pre (update_routing dm t (d_hnas s)))) by (rewrite (keys_pre _ U1); exact KN).
  destruct (sync_ok (d_groups s) (update_routing dm t (d_hnas s)) (d_ents s) NP U3) as (S1 & S2 & S3).
  unfold timer. destruct (sync (d_groups s) (update_routing dm t (d_hnas s)) (d_ents s)) as [l e]. cbn [fst snd] in S1, S2, S3. rewrite (keys_pre _ U1) in S3.
  split.
  - constructor; cbn [d_hnas d_groups d_ping d_ents]; try assumption.
    + rewrite S1, map_map. exact U1.
    + rewrite S1. intros h I. apply in_map_iff in I. destruct I as (k & <- & I). change (pre (add (ok_of (d_groups s) k && h_active k) k)) with (pre k). apply S2. exact I.
    + intros q Q. rewrite S3 by exact Q. apply V6. exact Q.
  - intros lines -> k I. cbn [d_ents]. rewrite <- U1 in I. apply in_map_iff in I. destruct I as (h & <- & I). unfold key. cbn [fst snd].
    rewrite (S2 _ I), andb_true_iff, (update_active dm lines (d_hnas s) h (keys_len _ V1)); [|rewrite (keys_pre _ V1); exact KN|exact I].
    unfold ok_of. split.
    + intros (A & B). split; [exact B|]. destruct (nth_error (d_groups s) (h_grp h)) as [g|]; [|discriminate]. exists g. tauto.
    + intros (A & g & -> & B). tauto.
Qed.
Lemma thread_inv ans s log : Inv s log -> Inv (fst (thread ans s)) (log ++ snd (thread ans s)).
Proof.
  intros V. assert (V' := V). destruct V' as [V1 V2 V3 V4 V5 V6 V7]. unfold thread. destruct (d_ping s) eqn:EP; cbn [negb]; [|cbn [fst snd]; rewrite app_nil_r; exact V].
  destruct (nth_error (d_hnas s) (d_pos s)) as [h|] eqn:EH; cbn [fst snd].
  2:{ rewrite app_nil_r. constructor; cbn [d_hnas d_groups d_ping d_ents]; assumption. }
  destruct (h_active h) eqn:EA; cbn [negb fst snd].
  2:{ rewrite app_nil_r. constructor; cbn [d_hnas d_groups d_ping d_ents]; assumption. }
  destruct (nth_error (d_groups s) (h_grp h)) as [g|] eqn:EG; cbn [fst snd]; [|rewrite app_nil_r; exact V].
  assert (GP : nth_error P (h_grp h) = Some (g_pings g)) by (rewrite <- V2; apply map_nth_error; exact EG).
  assert (GN : g_pings g <> []).
  { symmetry in V3. specialize (PN V3). rewrite Forall_forall in PN. apply PN. eapply nth_error_In. exact GP. }
  assert (EC : check_gw ans (g_pings g) = pings ans (g_pings g)) by (unfold check_gw; destruct (g_pings g); congruence). rewrite EC.
  destruct (pings_last ans (g_pings g) GN) as (l1 & a & PL). assert (PI := pings_in ans (g_pings g)).
  destruct (pings ans (g_pings g)) as [lg ok]. cbn [fst snd] in *. constructor; cbn [d_hnas d_groups d_ping d_ents]; try assumption.
  - now rewrite set_ok_pings.
  - intros i g' N. rewrite set_ok_nth in N. destruct (i =? h_grp h)%nat eqn:EI.
    + apply Nat.eqb_eq in EI. subst i. rewrite EG in N. cbn [option_map] in N. injection N as <-. cbn [g_ok].
      rewrite PL, map_app, app_assoc. cbn [map fst snd]. rewrite answered_last. split; [tauto|]. intros [X|X]; [congruence|exact X].
    + apply Nat.eqb_neq in EI. rewrite (V4 _ _ N), answered_other; [reflexivity|]. intros x I. apply in_map_iff in I. destruct I as (y & <- & _). cbn [fst]. congruence.
  - intros g' a' b' I. apply in_app_or in I. destruct I as [I|I]; [eapply V7; exact I|]. apply in_map_iff in I. destruct I as (y & E & I). injection E as <- <- <-.
    exists (g_pings g). split; [exact GP|]. apply PI. exact I.
Qed.
Lemma run_inv l : forall s log, Inv s log -> Inv (fst (run dm s l)) (log ++ snd (run dm s l)).
Proof.
  induction l as [|x l IH]; intros s log V; cbn [run]; [cbn [fst snd]; now rewrite app_nil_r|].
  assert (V1 : Inv (fst (step dm s x)) (log ++ snd (step dm s x))).
  { destruct x as [t|ans]; cbn [step]; [cbn [fst snd]; rewrite app_nil_r; apply timer_inv; exact V|apply thread_inv; exact V]. }
  destruct (step dm s x) as [s1 l1]. cbn [fst snd] in V1. specialize (IH _ _ V1). destruct (run dm s1 l) as [s2 l2]. cbn [fst snd] in *. now rewrite app_assoc.
Qed.
Lemma run_app l r : forall s, run dm s (l ++ r) = (fst (run dm (fst (run dm s l)) r), snd (run dm s l) ++ snd (run dm (fst (run dm s l)) r)).
Proof.
  induction l as [|x l IH]; intros s; cbn [run app fst snd]; [now destruct (run dm s r)|].
  destruct (step dm s x) as [s1 l1]. rewrite IH. destruct (run dm s1 l) as [s2 l2]. cbn [fst snd]. destruct (run dm s2 r). cbn [fst snd]. now rewrite app_assoc.
Qed.
Lemma core s lines evs : Inv s [] -> Forall (fun k => (fst k < length P)%nat) K ->
  forall s' log, run dm s (evs ++ [Timer (Some lines)]) = (s', log) ->
  (forall k, In k K -> (In (snd k) (d_ents s') <-> uplink dm lines (snd k) /\ (pg = false \/ answered log (fst k)))) /\
  (forall q, ~ In q (map snd K) -> (In q (d_ents s') <-> In q e0)) /\
  (forall g a b, In (g, a, b) log -> exists l, nth_error P g = Some l /\ In a l).
Proof.
  intros V G s' log E. rewrite run_app in E. assert (R := run_inv evs s [] V). destruct (run dm s evs) as [s1 l1]. cbn [fst snd run step app] in *.
  injection E as <- <-. rewrite app_nil_r. destruct (timer_inv (Some lines) s1 l1 R) as (T1 & T2). specialize (T2 lines eq_refl). split; [|split; [apply T1|apply T1]].
  intros k I. rewrite (T2 k I). rewrite Forall_forall in G. specialize (G _ I). destruct R as [V1 V2 V3 V4 V5 V6 V7].
  split; intros (A & B); (split; [exact A|]).
  - destruct B as (g & N & O). apply V4 in N. now apply N.
  - destruct (nth_error (d_groups s1) (fst k)) as [g|] eqn:N; [|apply nth_error_None in N; rewrite <- V2, map_length in G; lia].
    exists g. split; [reflexivity|]. apply (V4 _ _ N). exact B.
Qed.
Lemma init_inv ps t gs : with_default (fold_left set_param ps []) = gs -> any_ping ps = pg -> P = map fst gs -> map key (flatten 0 gs) = K -> Inv (init dm ps e0 t) [].
Proof.
  intros E1 E2 E3 E4. unfold init. rewrite E1, E2. destruct (upd_all t _ E4) as (U1 & U2). constructor; cbn [d_hnas d_groups d_ping d_ents].
  - exact U1.
  - rewrite map_map, E3. reflexivity.
  - reflexivity.
  - intros i g N. assert (g_ok g = negb pg).
    { apply nth_error_In in N. apply in_map_iff in N. destruct N as (x & <- & _). reflexivity. }
    rewrite H. destruct pg; cbn [negb]; [|tauto]. split; [discriminate|]. intros [X|(l1 & a & l2 & X & _)]; [discriminate|]. destruct l1; discriminate.
  - intros h I. assert (B := upd_in t (flatten 0 gs) (fun p b => b = false) E4 (flatten_added gs 0) h I). cbv beta in B. rewrite B.
    split; [|discriminate]. intros X. exfalso. eapply KE; [|exact X]. rewrite <- (keys_pre _ U1). now apply in_map.
  - intros q _. reflexivity.
  - intros g a b [].
Qed.
End core.

(** * Configurations *)
Lemma set_pings a : forall ps hs r, fold_left set_param (map PPing a) ((ps, hs) :: r) = match a with [] => (ps, hs) :: r | _ => match hs with [] => (rev a ++ ps, []) :: r | _ => (rev a, []) :: (ps, hs) :: r end end.
Proof.
  induction a as [|x a IH]; intros ps hs r; [reflexivity|]. cbn [map fold_left set_param]. destruct hs as [|h hs].
  - rewrite IH. destruct a; [reflexivity|]. f_equal. f_equal. cbn [rev]. now rewrite <- !app_assoc.
  - rewrite IH. destruct a; [reflexivity|]. f_equal.
Qed.
Lemma set_hnas l : forall ps hs r, Forall length_ok l -> fold_left set_param (map (fun p => PHna (fst p) (mask (snd p))) l) ((ps, hs) :: r) = (ps, rev l ++ hs) :: r.
Proof.
  induction l as [|[a n] l IH]; intros ps hs r F; [reflexivity|]. inversion F as [|? ? F1 F2]; subst. cbn [map fold_left set_param fst snd]. rewrite (proj2 (mask_all n F1)), IH by exact F2.
  cbn [rev]. now rewrite <- app_assoc.
Qed.
Definition sec_group (s : section) : pgroup := (rev (s_pings s), rev (s_nets s)).
Lemma set_section s gs : full s -> (forall g, In g gs -> snd g <> []) ->
  fold_left set_param (map PPing (s_pings s) ++ map (fun p => PHna (fst p) (mask (snd p))) (s_nets s)) gs = sec_group s :: gs.
Proof.
  intros (A & B & C) H. rewrite fold_left_app. unfold sec_group. destruct (s_pings s) as [|x ps]; [congruence|].
  assert (E : fold_left set_param (map PPing (x :: ps)) gs = (rev (x :: ps), []) :: gs).
  { destruct gs as [|[qs hs] r].
    - cbn [map fold_left set_param]. rewrite set_pings. destruct ps; reflexivity.
    - rewrite set_pings. destruct hs as [|h hs]; [exfalso; apply (H (qs, [])); [left; reflexivity|reflexivity]|reflexivity]. }
  rewrite E, set_hnas by exact C. now rewrite app_nil_r.
Qed.
Lemma set_config secs : forall gs, Forall full secs -> (forall g, In g gs -> snd g <> []) -> fold_left set_param (config secs) gs = rev (map sec_group secs) ++ gs.
Proof.
  induction secs as [|s secs IH]; intros gs F H; [reflexivity|]. inversion F as [|? ? F1 F2]; subst. unfold config in *. cbn [flat_map map rev]. rewrite fold_left_app, set_section by assumption.
  rewrite IH; [now rewrite <- app_assoc|exact F2|]. intros g [<-|G]; [|now apply H]. destruct F1 as (_ & F1 & _). unfold sec_group. cbn [snd]. intros X. apply F1. destruct (s_nets s); [reflexivity|]. cbn [rev] in X. now destruct (rev l).
Qed.
Lemma flatten_snd : forall gs i, map snd (map key (flatten i gs)) = flat_map snd gs.
Proof.
  induction gs as [|[ps hs] gs IH]; intros i; [reflexivity|]. cbn [flatten flat_map snd]. rewrite !map_app, IH. f_equal. rewrite !map_map. rewrite <- (map_id hs) at 2. apply map_ext. intros [a n]. reflexivity.
Qed.
Lemma flatten_in : forall gs i k ps hs p, nth_error gs k = Some (ps, hs) -> In p hs -> In ((i + k)%nat, p) (map key (flatten i gs)).
Proof.
  induction gs as [|[qs ks] gs IH]; intros i k ps hs p N I; [destruct k; discriminate|]. cbn [flatten]. rewrite map_app. apply in_or_app. destruct k as [|k]; cbn [nth_error] in N.
  - injection N as -> ->. left. rewrite map_map. apply in_map_iff. exists p. split; [|exact I]. unfold key, pre. cbn. rewrite Nat.add_0_r. now destruct p.
  - right. replace (i + S k)%nat with (S i + k)%nat by lia. eapply IH; [exact N|exact I].
Qed.
Lemma flatten_lt : forall gs i k, In k (map key (flatten i gs)) -> (fst k < i + length gs)%nat.
Proof.
  induction gs as [|[qs ks] gs IH]; intros i k I; [destruct I|]. cbn [flatten length] in *. rewrite map_app in I. apply in_app_or in I. destruct I as [I|I].
  - rewrite map_map in I. apply in_map_iff in I. destruct I as (p & <- & _). cbn. lia.
  - apply IH in I. lia.
Qed.
Lemma nth_error_rev {A} (l : list A) i : (i < length l)%nat -> nth_error (rev l) (length l - 1 - i) = nth_error l i.
Proof.
  intros H. destruct l as [|d l0] eqn:EL; [cbn in H; lia|]. rewrite <- EL in *.
  rewrite (nth_error_nth' (rev l) d) by (rewrite rev_length; lia). rewrite (nth_error_nth' l d) by lia. f_equal. rewrite rev_nth by lia. f_equal. lia.
Qed.
Lemma perm_nets secs : Permutation.Permutation (flat_map snd (rev (map sec_group secs))) (all_nets secs).
Proof.
  unfold all_nets. transitivity (flat_map snd (map sec_group secs)).
  - apply Permutation.Permutation_flat_map. symmetry. apply Permutation.Permutation_rev.
  - induction secs as [|s secs IH]; [constructor|]. cbn [map flat_map]. apply Permutation.Permutation_app; [|exact IH]. symmetry. apply Permutation.Permutation_rev.
Qed.
Lemma setup dm secs e t0 : secs <> [] -> Forall full secs -> NoDup (all_nets secs) -> (forall p, In p (all_nets secs) -> ~ In p e) ->
  exists gs K, gs = rev (map sec_group secs) /\ K = map key (flatten 0 gs) /\ map snd K = flat_map snd (rev (map sec_group secs)) /\ NoDup (map snd K) /\ Forall (fun k => length_ok (snd k)) K /\
    (true = true -> Forall (fun l => l <> []) (map fst gs)) /\ (forall p, In p (map snd K) -> ~ In p e) /\ Inv K (map fst gs) true e (init dm (config secs) e t0) [].
Proof.
  intros NE F N D. set (gs := rev (map sec_group secs)).
  assert (EG : with_default (fold_left set_param (config secs) []) = gs).
  { rewrite set_config by (try exact F; intros g []). rewrite app_nil_r. fold gs.
    assert (H : forall g, In g gs -> snd g <> []).
    { intros g I. apply in_rev in I. apply in_map_iff in I. destruct I as (x & <- & I). rewrite Forall_forall in F. destruct (F _ I) as (_ & X & _). unfold sec_group. cbn [snd]. intros Y. apply X. destruct (s_nets x); [reflexivity|]. cbn [rev] in Y. now destruct (rev l). }
    destruct gs as [|[ps hs] r] eqn:E; [exfalso; apply NE; unfold gs in E; apply (f_equal (@length _)) in E; rewrite rev_length, map_length in E; destruct secs; [reflexivity|discriminate]|].
    cbn [with_default]. destruct hs; [exfalso; apply (H (ps, [])); [left; reflexivity|reflexivity]|reflexivity]. }
  assert (EA : any_ping (config secs) = true).
  { destruct secs as [|x r]; [congruence|]. inversion F as [|? ? F1 F2]; subst. destruct F1 as (F1 & _). unfold config. cbn [flat_map]. destruct (s_pings x); [congruence|]. reflexivity. }
  set (K := map key (flatten 0 gs)). assert (KS : map snd K = flat_map snd gs) by apply flatten_snd.
  assert (PM := perm_nets secs). fold gs in PM. rewrite <- KS in PM.
  assert (KI : forall p, In p (map snd K) <-> In p (all_nets secs)).
  { intros p. split; apply Permutation.Permutation_in; [exact PM|symmetry; exact PM]. }
  assert (KN : NoDup (map snd K)) by (eapply Permutation.Permutation_NoDup; [symmetry; exact PM|exact N]).
  assert (KL : Forall (fun k => length_ok (snd k)) K).
  { apply Forall_forall. intros k I. apply (in_map snd) in I. apply KI in I. unfold all_nets in I. apply in_flat_map in I. destruct I as (x & I & J).
    rewrite Forall_forall in F. destruct (F _ I) as (_ & _ & X). rewrite Forall_forall in X. now apply X. }
  assert (PN : true = true -> Forall (fun l => l <> []) (map fst gs)).
  { intros _. apply Forall_forall. intros l I. apply in_map_iff in I. destruct I as (g & <- & I). apply in_rev in I. apply in_map_iff in I. destruct I as (x & <- & I).
    rewrite Forall_forall in F. destruct (F _ I) as (X & _ & _). unfold sec_group. cbn [fst]. intros Y. apply X. destruct (s_pings x) as [|z zs]; [reflexivity|]. cbn [rev] in Y. now destruct (rev zs). }
  assert (KE : forall p, In p (map snd K) -> ~ In p e) by (intros p I; apply D; now apply KI).
  assert (V := init_inv dm K (map fst gs) true e KN KL PN KE (config secs) t0 gs EG EA eq_refl eq_refl).
  exists gs, K. split; [reflexivity|]. split; [reflexivity|]. split; [exact KS|]. split; [exact KN|]. split; [exact KL|]. split; [exact PN|]. split; [exact KE|exact V].
Qed.
Theorem announced dm secs e t0 evs lines s log : secs <> [] -> Forall full secs -> NoDup (all_nets secs) -> (forall p, In p (all_nets secs) -> ~ In p e) ->
  run dm (init dm (config secs) e t0) (evs ++ [Timer (Some lines)]) = (s, log) ->
  (forall i sec p, nth_error secs i = Some sec -> In p (s_nets sec) -> (In p (d_ents s) <-> uplink dm lines p /\ answered log (number secs i))) /\
  (forall q, ~ In q (all_nets secs) -> (In q (d_ents s) <-> In q e)) /\
  (forall i sec a b, nth_error secs i = Some sec -> In (number secs i, a, b) log -> In a (s_pings sec)).
Proof.
  intros NE F N D R. destruct (setup dm secs e t0 NE F N D) as (gs & K & EGS & KM & KS & KN & KL & PN & KE & V).
  assert (KI : forall p, In p (map snd K) <-> In p (all_nets secs)).
  { assert (PM := perm_nets secs). rewrite <- KS in PM. intros p. split; apply Permutation.Permutation_in; [exact PM|symmetry; exact PM]. }
  assert (G : Forall (fun k => (fst k < length (map fst gs))%nat) K) by (apply Forall_forall; intros k I; rewrite KM in I; apply flatten_lt in I; rewrite map_length; exact I).
  destruct (core dm K (map fst gs) true e KN KL PN KE _ lines evs V G s log R) as (C1 & C2 & C3).
  assert (GN : forall i sec, nth_error secs i = Some sec -> nth_error gs (number secs i) = Some (sec_group sec)).
  { intros i sec E. rewrite EGS. unfold number. rewrite <- (map_length sec_group secs). rewrite nth_error_rev.
    - now apply map_nth_error.
    - rewrite map_length. apply nth_error_Some. congruence. }
  split; [|split].
  - intros i sec p E I. assert (IK : In (number secs i, p) K).
    { rewrite KM. change (number secs i) with (0 + number secs i)%nat. eapply flatten_in; [apply GN; exact E|]. rewrite <- in_rev. exact I. }
    rewrite (C1 _ IK). cbn [fst snd]. split; [intros (A & [B|B]); [discriminate|tauto]|tauto].
  - intros q Q. apply C2. intros X. apply Q. now apply KI.
  - intros i sec a b E I. destruct (C3 _ _ _ I) as (l & X & Y). rewrite (map_nth_error fst _ _ (GN _ _ E)) in X. injection X as <-. cbn [fst sec_group] in Y. now apply in_rev.
Qed.
Theorem announced_unchecked dm nets e t0 evs lines s log : Forall length_ok nets -> NoDup nets ->
  (forall p, In p (match nets with [] => [([0; 0; 0; 0], 0)] | _ => nets end) -> ~ In p e) ->
  run dm (init dm (map (fun p => PHna (fst p) (mask (snd p))) nets) e t0) (evs ++ [Timer (Some lines)]) = (s, log) ->
  log = [] /\ forall p, In p (d_ents s) <-> In p e \/ In p (match nets with [] => [([0; 0; 0; 0], 0)] | _ => nets end) /\ uplink dm lines p.
Proof.
  intros F N D R. set (W := match nets with [] => [([0; 0; 0; 0], 0)] | _ => nets end) in *.
  assert (EG : with_default (fold_left set_param (map (fun p => PHna (fst p) (mask (snd p))) nets) []) = [([], rev W)]).
  { unfold W. destruct nets as [|[a n] r]; [reflexivity|]. inversion F as [|? ? F1 F2]; subst. cbn [map fold_left set_param fst snd]. rewrite (proj2 (mask_all n F1)), set_hnas by exact F2.
    cbn [with_default rev]. destruct (rev r ++ [(a, n)]) eqn:E; [now destruct (rev r)|reflexivity]. }
  assert (EA : any_ping (map (fun p => PHna (fst p) (mask (snd p))) nets) = false) by (clear; induction nets; [reflexivity|exact IHnets]).
  set (K := map key (flatten 0 [([], rev W)])). assert (KS : map snd K = rev W) by (unfold K; rewrite flatten_snd; cbn [flat_map snd]; now rewrite app_nil_r).
  assert (WN : NoDup W) by (unfold W; destruct nets; [constructor; [intros []|constructor]|exact N]).
  assert (WL : Forall length_ok W) by (unfold W; destruct nets; [constructor; [cbv; split; discriminate|constructor]|exact F]).
  assert (KN : NoDup (map snd K)) by (rewrite KS; apply NoDup_rev; exact WN).
  assert (KL : Forall (fun k => length_ok (snd k)) K).
  { apply Forall_forall. intros k I. apply (in_map snd) in I. rewrite KS in I. apply in_rev in I. rewrite Forall_forall in WL. now apply WL. }
  assert (KE : forall p, In p (map snd K) -> ~ In p e) by (intros p I; apply D; rewrite KS in I; now apply in_rev).
  assert (PN : false = true -> Forall (fun l => l <> []) (map fst [([], rev W) : pgroup])) by discriminate.
  assert (V := init_inv dm K (map fst [([], rev W) : pgroup]) false e KN KL PN KE _ t0 _ EG EA eq_refl eq_refl).
  assert (G : Forall (fun k => (fst k < length (map fst [([], rev W) : pgroup]))%nat) K) by (apply Forall_forall; intros k I; apply flatten_lt in I; rewrite map_length; exact I).
  destruct (core dm K _ false e KN KL PN KE _ lines evs V G s log R) as (C1 & C2 & C3). split.
  - destruct log as [|[[g a] b] log]; [reflexivity|]. destruct (C3 g a b) as (l & X & Y); [left; reflexivity|]. cbn [map fst] in X. destruct g as [|g]; cbn [nth_error] in X; [injection X as <-; destruct Y|destruct g; discriminate].
  - intros p. destruct (in_dec (fun x y : list Z * Z => ltac:(repeat decide equality) : {x = y} + {x <> y}) p W) as [I|I].
    + assert (J : In p (map snd K)) by (rewrite KS; now apply -> in_rev). assert (J' := KE _ J). apply in_map_iff in J. destruct J as (k & <- & J). rewrite (C1 _ J). tauto.
    + rewrite C2; [tauto|]. rewrite KS. intros X. apply in_rev in X. tauto.
Qed.

(** * The plugin dyn_gw_plain *)
Lemma inet_is : inet = ([0; 0; 0; 0], 0). Proof. reflexivity. Qed.
Theorem plain e ts lines : let ents := snd (plain_run e (ts ++ [Some lines])) in
  (In ([0; 0; 0; 0], 0) ents <-> default_route lines) /\ (forall q, q <> ([0; 0; 0; 0], 0) -> (In q ents <-> In q e)).
Proof.
  assert (V : forall l, let s := plain_run e l in (In inet (snd s) <-> fst s = true) /\ (forall q, q <> inet -> (In q (snd s) <-> In q e))).
  { induction l as [|t l IH] using rev_ind; cbv zeta in *; unfold plain_run in *.
    - cbn [fold_left plain_init fst snd]. split; [rewrite in_remove; split; [intros (_ & X); congruence|discriminate]|]. intros q Q. rewrite in_remove. tauto.
    - rewrite fold_left_app. cbn [fold_left]. destruct (fold_left (fun s t0 => plain_event t0 s) l (plain_init e)) as [b en]. cbn [fst snd] in *. destruct IH as (A & B).
      unfold plain_event. destruct (plain_check t) as [[]|]; cbn [fst snd]; [| |split; assumption].
      + destruct b; cbn [fst snd]; [split; assumption|]. split; [split; [reflexivity|left; reflexivity]|]. intros q Q. unfold net_add. cbn [In]. rewrite <- B by exact Q. split; [intros [X|X]; [congruence|exact X]|tauto].
      + destruct b; cbn [fst snd]; [|split; assumption]. split; [rewrite in_remove; split; [intros (_ & X); congruence|discriminate]|]. intros q Q. rewrite in_remove, <- B by exact Q. tauto. }
  cbv zeta. assert (V1 := V (ts ++ [Some lines])). cbv zeta in V1. rewrite <- inet_is. split; [|apply V1]. rewrite (proj1 V1). clear V1.
  unfold plain_run. rewrite fold_left_app. cbn [fold_left]. set (s := fold_left _ ts _). clearbody s.
  assert (C : existsb (fun x => (r_flags x mod 2 =? 1) && (r_metric x =? 0) && bytes_eqb (r_mask x) [0; 0; 0; 0] && bytes_eqb (r_dst x) [0; 0; 0; 0]) lines = true <-> default_route lines).
  { rewrite existsb_exists. unfold default_route. split; intros (x & I & H); exists x; (split; [exact I|]).
    - rewrite !andb_true_iff, !bytes_eqb_spec in H. rewrite <- odd_mod. destruct H as (((A & B) & C) & D). repeat split; try assumption. lia.
    - destruct H as (A & B & C & D). rewrite odd_mod, C, D, A, B. reflexivity. }
  rewrite <- C. unfold plain_event. cbn [plain_check]. destruct (existsb _ lines); destruct s as [[] en]; cbn [fst]; intuition congruence.
Qed.

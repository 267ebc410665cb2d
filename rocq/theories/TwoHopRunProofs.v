(** Proofs about the two-hop neighbor table: whole events and runs. *)
From Verif Require Import Base SchedTime SchedTimeProofs TwoHop TwoHopSpec LinkSetProofs LinkSetRunProofs MidProofs TwoHopProofs.

(** ** the second pass *)
Definition take (first : Z) (acc k : Z) : Z := if u32 (first + k) <? acc then u32 (first + k) else acc.
Definition counted (v : henv) (x : Z) (k : hnb) : bool := h_sym k && negb (v_own v (h_addr k)) && (h_addr k =? x).
Lemma pass2_spec : forall v n first msg s, wf s -> pos s ->
  exists s', pass2 v n first msg s = Some s' /\ wf s' /\ pos s' /\ n2ls s' = n2ls s /\ nbs s' = nbs s /\ fresh s' = fresh s /\ pairs s' = pairs s /\
    (forall t' e', In t' (twos s') -> In e' (t_list t') -> exists t e, In t (twos s) /\ t_addr t = t_addr t' /\ In e (t_list t) /\ e_nbr e = e_nbr e' /\
      if e_nbr e =? n then e_path e' = fold_left (take first) (map h_cost (filter (counted v (t_addr t)) msg)) (e_path e) else e' = e).
Proof.
  intros v n first msg. induction msg as [|k r IH]; intros s W P; cbn [pass2].
  - exists s. split; [reflexivity|]. split; [exact W|]. split; [exact P|]. do 4 (split; [reflexivity|]).
    intros t e A B. exists t, e. do 4 (split; [auto|]). cbn. now destruct (_ =? _).
  - cbn [filter]. destruct (v_own v (h_addr k) || negb (h_sym k)) eqn:SK.
    + destruct (IH s W P) as (s' & A1 & A2 & A3 & A4 & A5 & A6 & A7 & A8). exists s'. do 7 (split; [auto|]).
      intros t' e' B C. destruct (A8 t' e' B C) as (t & e & D1 & D2 & D3 & D4 & D5). exists t, e. do 4 (split; [auto|]).
      replace (counted v (t_addr t) k) with false; [exact D5|]. unfold counted. destruct (h_sym k), (v_own v (h_addr k)); try discriminate; reflexivity.
    + assert (h_sym k = true /\ v_own v (h_addr k) = false) as [SY OW] by (destruct (h_sym k), (v_own v (h_addr k)); try discriminate; auto).
      destruct (lookup_my_spec n (h_addr k) s W) as (o & LM & LS). rewrite LM. destruct o as [l|].
      * destruct LS as (Il & Nl & Pl).
        set (g := better n (h_cost k) (u32 (first + h_cost k))). set (s1 := set_twos (upd_two (l_two l) (fun t => set_tlist (map g (t_list t)) t) (twos s)) s).
        assert (forall e, e_nbr (g e) = e_nbr e) as Hg. { intro e. unfold g, better. destruct ((e_nbr e =? n) && _) eqn:Q; [cbn; lia|reflexivity]. }
        destruct (wf_costs (l_two l) g s Hg W P) as (W1 & P1 & E1). fold s1 in W1, P1, E1.
        destruct (IH s1 W1 P1) as (s' & A1 & A2 & A3 & A4 & A5 & A6 & A7 & A8). exists s'. do 6 (split; [auto|]). split; [congruence|].
        intros t' e' B C. destruct (A8 t' e' B C) as (t1 & e1 & D1 & D2 & D3 & D4 & D5). cbn [s1 twos set_twos] in D1. apply in_upd in D1. destruct D1 as (t & D1 & ->).
        exists t. unfold counted at 1. rewrite SY, OW. cbn [negb andb]. destruct (t_id t =? l_two l) eqn:Q.
        -- cbn [t_list set_tlist t_addr] in *. apply in_map_iff in D3. destruct D3 as (e & <- & D3). exists e. rewrite Hg in *. do 4 (split; [auto|]).
           assert (t_addr t = h_addr k) as Ea. { apply (pairs_uniq s (l_two l)); auto. replace (l_two l) with (t_id t) by lia. now apply in_pairs. }
           replace (h_addr k =? t_addr t) with true by lia. cbn [map fold_left]. destruct (e_nbr e =? n) eqn:Qn.
           ++ rewrite D5. f_equal. unfold g, better, take. rewrite Qn. cbn [andb]. now destruct (_ <? _).
           ++ rewrite D5. unfold g, better. now rewrite Qn.
        -- exists e1. do 4 (split; [auto|]). replace (h_addr k =? t_addr t) with false; [exact D5|]. symmetry. apply Z.eqb_neq. intro Q2.
           apply in_pairs in D1. rewrite <- Q2 in D1. pose proof (pairs_addr s _ _ _ W D1 Pl). lia.
      * destruct (IH s W P) as (s' & A1 & A2 & A3 & A4 & A5 & A6 & A7 & A8). exists s'. do 7 (split; [auto|]).
        intros t' e' B C. destruct (A8 t' e' B C) as (t & e & D1 & D2 & D3 & D4 & D5). exists t, e. do 4 (split; [auto|]).
        unfold counted at 1. rewrite SY, OW. cbn [negb andb]. destruct (h_addr k =? t_addr t) eqn:Q; [|exact D5].
        destruct (e_nbr e =? n) eqn:Qn; [|exact D5]. exfalso.
        assert (In n (map e_nbr (t_list t))) as Q2. { apply in_map_iff. exists e. split; [lia|exact D3]. }
        apply (w_agree _ W t n D1) in Q2. apply in_pair in Q2. destruct Q2 as (l & Q3 & Q4 & Q5). apply (LS l Q3 Q4).
        rewrite Q5. replace (h_addr k) with (t_addr t) by lia. now apply in_pairs.
Qed.

(** ** a whole HELLO *)
Lemma hello_spec : forall rmax hsh now v n msg s, wf s -> pos s -> no_chain v -> In n (map b_id (nbs s)) -> Z.of_nat (length (nbs s)) <= 32767 ->
  exists s' s1, process_hello rmax hsh now v n msg s = Some s' /\ wf s' /\ pos s' /\ n2ls s' = n2ls s1 /\ nbs s' = nbs s1 /\ fresh s' = fresh s1 /\ pairs s' = pairs s1 /\
    hello_rel (v_lq v) n (timer_at rmax now (v_time v) (v_rand v)) (fun x => existsb (names v x) msg = true) s s1 /\
    (forall t' e', In t' (twos s') -> In e' (t_list t') -> exists t e, In t (twos s1) /\ t_addr t = t_addr t' /\ In e (t_list t) /\ e_nbr e = e_nbr e' /\
      if e_nbr e =? n then e_path e' = match v_best v with
                                       | Some c => if v_lq v then fold_left (take c) (map h_cost (filter (counted v (t_addr t)) (map (replaced v) msg))) (e_path e) else e_path e
                                       | None => e_path e
                                       end else e' = e).
Proof.
  intros rmax hsh now v n msg s W P NC In1 B. unfold process_hello. destruct (get_nb_ex n s In1) as [b G]. rewrite G.
  destruct (pass1_step rmax hsh now v n msg s (fun _ => False) s NC W W P In1 B) as (s1 & A & W1 & P1 & R1). { apply rel_refl. }
  rewrite A. assert (hello_rel (v_lq v) n (timer_at rmax now (v_time v) (v_rand v)) (fun x => existsb (names v x) msg = true) s s1) as R2.
  { eapply rel_ext; [|exact R1]. intro x. cbn beta. split; [intros [Q|[]]; exact Q|now left]. }
  assert (forall t' e', In t' (twos s1) -> In e' (t_list t') -> exists t e, In t (twos s1) /\ t_addr t = t_addr t' /\ In e (t_list t) /\ e_nbr e = e_nbr e' /\
      if e_nbr e =? n then e_path e' = e_path e else e' = e) as SAME.
  { intros t e C D. exists t, e. do 4 (split; [auto|]). now destruct (_ =? _). }
  destruct (v_lq v) eqn:LQ.
  - destruct (v_best v) as [c|].
    + destruct (pass2_spec v n c (map (replaced v) msg) s1 W1 P1) as (s' & A1 & A2 & A3 & A4 & A5 & A6 & A7 & A8). exists s', s1. auto 12.
    + exists s1, s1. auto 12.
  - exists s1, s1. do 8 (split; [auto|]). intros t e C D. destruct (v_best v); now apply SAME.
Qed.

Lemma counted_listed : forall v x msg, map h_cost (filter (counted v x) (map (replaced v) msg)) = listed_costs v x msg.
Proof.
  intros v x msg. unfold listed_costs. induction msg as [|k r IH]; [now destruct (v_own v x)|]. cbn [map filter].
  assert (counted v x (replaced v k) = negb (v_own v x) && names v x k) as E.
  { unfold counted, replaced, names. destruct (v_own v (h_addr k)) eqn:OW; cbn [h_sym h_addr negb andb]; rewrite ?OW, ?andb_false_r; [reflexivity|]. cbn [negb].
    destruct (h_sym k); cbn [andb]; [|now rewrite andb_false_r]. destruct (main_of v (h_addr k) =? x) eqn:Q; [|now rewrite !andb_false_r].
    replace (main_of v (h_addr k)) with x by lia. reflexivity. }
  rewrite E. destruct (v_own v x) eqn:OX; cbn [negb andb]; [exact IH|]. destruct (names v x k) eqn:NK; [|exact IH]. cbn [map]. rewrite IH. f_equal.
  unfold replaced. now destruct (v_own v (h_addr k)).
Qed.
Lemma take_best : forall c ks acc, (forall k, In k ks -> 0 <= c + k < 4294967296) -> fold_left (take c) ks acc = fold_right (fun k acc => Z.min (c + k) acc) acc ks.
Proof.
  intros c ks. assert (forall a b ks, fold_right (fun k acc => Z.min (c + k) acc) (Z.min a b) ks = Z.min a (fold_right (fun k acc => Z.min (c + k) acc) b ks)) as M.
  { intros a b l. induction l as [|x r IH]; [reflexivity|]. cbn [fold_right]. rewrite IH. lia. }
  induction ks as [|k r IH]; intros acc H; [reflexivity|]. cbn [fold_left fold_right]. rewrite IH by (intros; apply H; now right). rewrite <- M. f_equal. unfold take.
  pose proof (H k (or_introl eq_refl)). replace (u32 (c + k)) with (c + k) by (unfold u32; lia). destruct (_ <? _) eqn:Q; lia.
Qed.

(** ** learning an alias *)
Lemma mid_loop_spec : forall main l s, wf s -> pos s -> (forall a, In a l -> ~ In a (map b_addr (nbs s))) ->
  exists s', mid_loop main l s = Some s' /\ wf s' /\ pos s' /\ nbs s' = nbs s /\ shrinks s s' /\ fresh s' = fresh s.
Proof.
  intros main l. induction l as [|a r IH]; intros s W P H; cbn [mid_loop].
  - exists s. split; [reflexivity|]. split; [exact W|]. split; [exact P|]. split; [reflexivity|]. split; [apply shrinks_refl|reflexivity].
  - assert (exists s1, match lookup_two_mid a s with Some t => del_two t s | None => Some s end = Some s1 /\ wf s1 /\ pos s1 /\ nbs s1 = nbs s /\ shrinks s s1 /\ fresh s1 = fresh s)
      as (s1 & -> & W1 & P1 & N1 & S1 & F1).
    { pose proof (shrinks_refl s). destruct (lookup_two_mid a s) as [t|] eqn:L; [|exists s; auto 9]. apply find_some in L. apply del_two_spec; tauto. }
    destruct (lookup_nb a s1) as [b|] eqn:L.
    { exfalso. apply find_some in L. apply (H a); [now left|]. rewrite <- N1. apply in_map_iff. exists b. split; [lia|tauto]. }
    destruct (IH s1 W1 P1) as (s' & A & W' & P' & N' & S' & F'). { intros x A. rewrite N1. apply H. now right. }
    exists s'. split; [exact A|]. split; [exact W'|]. split; [exact P'|]. split; [congruence|]. split; [eapply shrinks_trans; eauto|congruence].
Qed.
Lemma ins_shrinks : forall a s, shrinks s (ins_nb a s) /\ pos (ins_nb a s) = pos s /\ fresh s <= fresh (ins_nb a s).
Proof.
  intros a s. unfold ins_nb. destruct (lookup_nb a s).
  - split; [apply shrinks_refl|]. split; [reflexivity|lia].
  - split; [split; intros x H; exact H|]. split; [reflexivity|cbn; lia].
Qed.
Lemma mid_spec : forall main alias known others s, wf s -> pos s -> tolerable s (TMid main alias known others) ->
  exists s', mid_alias main alias known others s = Some s' /\ wf s' /\ pos s' /\ shrinks s s' /\ fresh s <= fresh s'.
Proof.
  intros main alias known others s W P (B & NM & NO & U). unfold mid_alias.
  assert (exists s2, (match lookup_nb alias s with Some _ => match del_nb alias s with Some s1 => Some (ins_nb main s1) | None => None end | None => Some s end) = Some s2 /\
     wf s2 /\ pos s2 /\ shrinks s s2 /\ fresh s <= fresh s2 /\ forall a, In a (alias :: others) -> ~ In a (map b_addr (nbs s2))) as (s2 & -> & W2 & P2 & S2 & F2 & N2).
  { destruct (lookup_nb alias s) as [b|] eqn:L.
    - destruct (del_nb_spec alias s W P B) as (s1 & D & W1 & P1 & S1 & F1 & N1). rewrite D, L in *. destruct (ins_shrinks main s1) as (I1 & I2 & I3).
      exists (ins_nb main s1). split; [reflexivity|]. split; [now apply wf_ins|]. split; [now rewrite I2|]. split; [eapply shrinks_trans; eauto|]. split; [lia|].
      apply find_some in L. destruct L as [Lb La].
      assert (forall a, In a (alias :: others) -> ~ In a (map b_addr (nbs s1))) as N.
      { intros a A Q. apply in_map_iff in Q. destruct Q as (x & Q1 & Q2). rewrite N1 in Q2. apply filter_In in Q2. destruct Q2 as [Q2 Q3]. destruct A as [<-|A].
        - assert (x = b) as -> by (apply U; auto; lia). rewrite Z.eqb_refl in Q3. discriminate.
        - apply (NO a A). apply in_map_iff. eauto. }
      intros a A. unfold ins_nb. destruct (lookup_nb main s1); [now apply N|]. cbn [nbs map b_addr]. intros [Q|Q]; [subst a; now apply NM|now apply (N a)].
    - exists s. split; [reflexivity|]. split; [exact W|]. split; [exact P|]. split; [apply shrinks_refl|]. split; [lia|].
      intros a [<-|A]; [|now apply NO]. intro Q. apply in_map_iff in Q. destruct Q as (x & Q1 & Q2). pose proof (find_none _ _ L x Q2) as Q. cbn in Q. lia. }
  destruct known.
  - exists s2. auto 9.
  - destruct (mid_loop_spec main (alias :: others) s2 W2 P2 N2) as (s' & A & W' & P' & N' & S' & F').
    exists s'. split; [exact A|]. split; [exact W'|]. split; [exact P'|]. split; [eapply shrinks_trans; eauto|lia].
Qed.

(** ** events *)
Lemma possible_nb : forall n s, match get_nb n s with Some _ => true | None => false end = true -> In n (map b_id (nbs s)).
Proof. intros n s H. destruct (get_nb n s) as [b|] eqn:G; [|discriminate]. apply get_nb_some in G. apply in_map_iff. exists b. tauto. Qed.
Definition is_hello (e : tev) : bool := match e with THello _ _ _ => true | _ => false end.
Lemma step_spec : forall rmax hsh now s e, wf s -> pos s -> tolerable s e -> tpossible now s e = true ->
  exists s', tstep rmax hsh now s e = Some s' /\ wf s' /\ pos s' /\ fresh s <= fresh s' /\ (is_hello e = false -> shrinks s s').
Proof.
  intros rmax hsh now s e W P TO PO. pose proof TO as [B _]. destruct e as [a|a|n sym al|n a|n v msg|i|main alias known others]; cbn [tstep tpossible is_hello] in *.
  - exists (ins_nb a s). destruct (ins_shrinks a s) as (I1 & I2 & I3). split; [reflexivity|]. split; [now apply wf_ins|]. split; [now rewrite I2|]. auto.
  - destruct (del_nb_spec a s W P B) as (s1 & D & W1 & P1 & S1 & F1 & N1). exists s1. do 3 (split; [auto|]). split; [lia|auto].
  - destruct (status_spec hsh al n sym s W P (possible_nb _ _ PO)) as (s1 & D & W1 & P1 & S1 & F1). exists s1. do 3 (split; [auto|]). split; [lia|auto].
  - exists (rename n a s). split; [reflexivity|]. split; [now apply wf_rename|]. unfold rename. destruct (get_nb n s); (split; [exact P|]; split; [cbn; lia|]; intros _; split; intros x H; exact H).
  - destruct (hello_spec rmax hsh now v n msg s W P) as (s' & s1 & A1 & A2 & A3 & A4 & A5 & A6 & A7 & A8 & _); auto; [apply TO|now apply possible_nb|].
    exists s'. do 3 (split; [auto|]). split; [|discriminate]. rewrite A6. apply A8.
  - destruct (find (fun l => l_id l =? i) (n2ls s)) as [l|] eqn:F; [|discriminate]. apply find_some in F.
    destruct (drop_spec l s W P B) as (s' & A1 & A2 & A3 & A4 & A5 & A6 & A7); [tauto|]. exists s'. do 3 (split; [auto|]). split; [lia|auto].
  - destruct (mid_spec main alias known others s W P TO) as (s' & A1 & A2 & A3 & A4 & A5). exists s'. auto 9.
Qed.
Lemma wf_init : wf tinit /\ pos tinit.
Proof. split; [constructor; cbn; try constructor; easy|easy]. Qed.
Lemma nrun_wf : forall rmax hsh s, nrun rmax hsh tolerable s -> wf s /\ pos s.
Proof.
  intros rmax hsh s R. induction R as [|s now e s' R IH N TO PO ST]; [apply wf_init|]. destruct IH as [W P].
  destruct (step_spec rmax hsh now s e W P TO PO) as (s1 & A & W1 & P1 & _). rewrite A in ST. apply Some_inj in ST. subst. auto.
Qed.
Lemma in_pairs_iff : forall s i x, In (i, x) (pairs s) <-> exists t, In t (twos s) /\ t_id t = i /\ t_addr t = x.
Proof.
  intros s i x. unfold pairs. rewrite in_map_iff. split; intros (t & A & B); exists t; [inversion A; auto|]. destruct B as [B1 B2]. split; [congruence|exact A].
Qed.
Lemma reaches_iff : forall s n x, reaches s n x <-> exists l, In l (n2ls s) /\ l_nbr l = n /\ In (l_two l, x) (pairs s).
Proof.
  intros s n x. split.
  - intros (l & t & A & B & C & D & E). exists l. split; [exact A|]. split; [exact C|]. apply in_pairs_iff. exists t. auto.
  - intros (l & A & B & C). apply in_pairs_iff in C. destruct C as (t & C1 & C2 & C3). exists l, t. auto.
Qed.
Lemma wf_consistent : forall s, wf s -> pos s -> consistent s.
Proof.
  intros s W P. assert (forall n x, reaches s n x <-> seen_from s n x) as BOTH.
  { intros n x. split.
    - intros (l & t & A & B & C & D & E). exists t. split; [exact B|]. split; [exact E|]. apply (w_agree _ W t n B). apply in_pair. exists l. auto.
    - intros (t & A & B & C). apply (w_agree _ W t n A) in C. apply in_pair in C. destruct C as (l & C1 & C2 & C3). exists l, t. auto. }
  constructor; try apply W.
  - exact BOTH.
  - intros t It. split; [now apply P|]. exists (map e_nbr (t_list t)). split; [now apply (w_once _ W)|]. split; [rewrite map_length; symmetry; now apply (w_cnt _ W)|].
    intro n. rewrite BOTH. split.
    + intro H. exists t. auto.
    + intros (t' & A & B & C). assert (t' = t) as <- by (apply (inj_nodup _ _ t_addr (twos s)); auto; apply W). exact C.
Qed.

(** ** time *)
Lemma timer_at_spec : forall rmax t rel r, 0 <= rmax < 2147483648 -> 1 <= rel < 536870912 -> 0 <= r <= rmax ->
  exists d, timer_at rmax (u32 t) rel r = Some (u32 (t + d)) /\ 0 <= d <= rel /\ 100 * (rel - d) <= 5 * rel.
Proof.
  intros rmax t rel r Hm Hr Hx. unfold timer_at. replace (rel =? 0) with false by lia.
  destruct (jitter_bounds rmax (u32 t) rel NBR2_LIST_JITTER r Hm (u32_range t)) as (d & E & A & B & C); try (unfold NBR2_LIST_JITTER; lia).
  exists d. rewrite E. unfold getTimestamp. rewrite u32_u32_add. auto.
Qed.
Lemma lm_app : forall n x h k, last_mention n x (h ++ [k]) = later (last_mention n x h) (mention n x k).
Proof. intros. unfold last_mention. now rewrite fold_left_app. Qed.
Lemma lc_app : forall i n x h k, last_confirmation i n x (h ++ [k]) = later (last_confirmation i n x h) (confirmation i n x k).
Proof. intros. unfold last_confirmation. now rewrite fold_left_app. Qed.

Definition rinv (slack : Z) (h : list (Z * tstate * tev)) (t : Z) (i n x : Z) (tm : option Z) : Prop :=
  exists t1 v, last_mention n x h = Some (t1, v) /\ t1 <= t /\ 1 <= v < 536870912 /\
    match tm with
    | None => last_confirmation i n x h = None
    | Some d => exists D, d = u32 D /\ t - slack <= D /\ t1 <= D <= t1 + v /\ 100 * (t1 + v - D) <= 5 * v
    end /\ (forall c, last_confirmation i n x h = Some c -> c = (t1, v)).
Record tinv (slack : Z) (h : list (Z * tstate * tev)) (t : Z) (s : tstate) : Prop := {
  i_wf : wf s; i_pos : pos s;
  i_ids : forall k l, In k h -> In l (n2ls (snd (fst k))) -> l_id l < fresh s;
  i_rec : forall l x, In l (n2ls s) -> In (l_two l, x) (pairs s) -> rinv slack h t (l_id l) (l_nbr l) x (l_timer l) }.

Lemma rinv_wait : forall slack h t0 t i n x tm, 0 <= slack <= 536870912 -> t0 <= t < t0 + 536870912 ->
  match tm with Some d => isTimedOut (u32 t) d = true -> u32 (u32 t - d) <= slack | None => True end -> rinv slack h t0 i n x tm -> rinv slack h t i n x tm.
Proof.
  intros slack h t0 t i n x tm HS HT PR (t1 & v & A & B & C & D & E). exists t1, v. split; [exact A|]. split; [lia|]. split; [exact C|]. split; [|exact E].
  destruct tm as [d|]; [|exact D]. destruct D as (D & -> & D1 & D2 & D3). exists D. split; [reflexivity|].
  assert (t - slack <= D) by (eapply (prompt_bound slack t0); [exact HS|exact HT|lia|exact PR]). auto.
Qed.
Lemma tinv_wait : forall slack h t0 t s, 0 <= slack <= 536870912 -> t0 <= t < t0 + 536870912 -> nprompt slack t s -> tinv slack h t0 s -> tinv slack h t s.
Proof.
  intros slack h t0 t s HS HT PR V. constructor; try apply V. intros l x A B. eapply rinv_wait; [exact HS|exact HT| |now apply (i_rec _ _ _ _ V)].
  unfold nprompt in PR. rewrite Forall_forall in PR. now apply PR.
Qed.
Lemma no_confirmation : forall i n x h, (forall k l, In k h -> In l (n2ls (snd (fst k))) -> l_id l <> i) -> last_confirmation i n x h = None.
Proof.
  intros i n x h. induction h as [|k h IH] using rev_ind; intro H; [reflexivity|]. rewrite lc_app, IH.
  - unfold confirmation. replace (existsb (fun l => l_id l =? i) (n2ls (snd (fst k)))) with false; [reflexivity|]. symmetry. apply not_true_is_false. intro Q.
    apply existsb_exists in Q. destruct Q as (l & Q1 & Q2). apply (H k l); [apply in_or_app; right; now left|exact Q1|lia].
  - intros k' l A. apply H. apply in_or_app. now left.
Qed.

Lemma tinv_step : forall rmax hsh slack h t s e s', 0 <= rmax < 2147483648 -> 0 <= slack -> tinv slack h t s -> event_ok rmax e -> tolerable s e ->
  tpossible (u32 t) s e = true -> tstep rmax hsh (u32 t) s e = Some s' -> tinv slack (h ++ [(t, s, e)]) t s'.
Proof.
  intros rmax hsh slack h t s e s' Hm HS V OK TO PO ST. pose proof (i_wf _ _ _ _ V) as W. pose proof (i_pos _ _ _ _ V) as P.
  destruct (step_spec rmax hsh (u32 t) s e W P TO PO) as (s0 & A & W1 & P1 & F1 & S1). rewrite ST in A. apply Some_inj in A. subst s0.
  assert (forall k l, In k (h ++ [(t, s, e)]) -> In l (n2ls (snd (fst k))) -> l_id l < fresh s) as IDS.
  { intros k l K L. apply in_app_or in K. destruct K as [K|[<-|[]]]; [now apply (i_ids _ _ _ _ V k)|]. now apply (w_lf _ W). }
  assert (forall i n x tm, mention n x (t, s, e) = None -> rinv slack h t i n x tm -> rinv slack (h ++ [(t, s, e)]) t i n x tm) as KEEP.
  { intros i n x tm M (t1 & v & Q1 & Q2 & Q3 & Q4 & Q5). exists t1, v. rewrite lm_app, lc_app. unfold confirmation. rewrite M. cbn [later].
    destruct (existsb _ _); cbn [later]; auto. }
  constructor; [exact W1|exact P1| |].
  { intros k l K L. pose proof (IDS k l K L). lia. }
  intros l x Il Ix. destruct (is_hello e) eqn:HE.
  - destruct e as [| | | |n v msg| |]; try discriminate. clear HE S1. cbn [tstep tpossible event_ok] in *. pose proof TO as [B NC].
    destruct (hello_spec rmax hsh (u32 t) v n msg s W P NC (possible_nb _ _ PO) B) as (s2 & s1 & A1 & A2 & A3 & A4 & A5 & A6 & A7 & A8 & _). rewrite ST in A1. apply Some_inj in A1. subst s2.
    rewrite A4 in Il. rewrite A7 in Ix. destruct OK as [OK1 OK2].
    destruct (timer_at_spec rmax t (v_time v) (v_rand v) Hm OK1 OK2) as (d & T1 & T2 & T3).
    destruct (r_recs _ _ _ _ _ _ A8 l x Il Ix) as [(H1 & H2 & H3)|(H1 & H2 & H3)].
    + apply KEEP; [|now apply (i_rec _ _ _ _ V)]. cbn [mention]. destruct (n =? l_nbr l) eqn:Q; [|reflexivity]. cbn [andb].
      destruct (existsb (names v x) msg) eqn:Q2; [|reflexivity]. exfalso. apply H3. split; [lia|reflexivity].
    + assert (mention (l_nbr l) x (t, s, THello n v msg) = Some (t, v_time v)) as M by (cbn [mention]; replace (n =? l_nbr l) with true by lia; now rewrite H2).
      exists t, (v_time v). rewrite lm_app, lc_app, M. unfold confirmation. rewrite M. cbn [later snd fst]. split; [reflexivity|]. split; [lia|]. split; [exact OK1|].
      destruct H3 as [(k & K1 & K2 & K3 & K4 & K5)|(K1 & K2)].
      * assert (existsb (fun l0 => l_id l0 =? l_id l) (n2ls s) = true) as -> by (apply existsb_exists; exists k; split; [exact K1|lia]). cbn [later].
        rewrite K5, T1. split; [|intros c Q; now inversion Q]. exists (t + d). split; [reflexivity|]. lia.
      * assert (existsb (fun l0 => l_id l0 =? l_id l) (n2ls s) = false) as ->.
        { apply not_true_is_false. intro Q. apply existsb_exists in Q. destruct Q as (k & Q1 & Q2). pose proof (w_lf _ W k Q1). lia. }
        cbn [later]. assert (last_confirmation (l_id l) (l_nbr l) x h = None) as NCF.
        { apply no_confirmation. intros k j K J Q. pose proof (i_ids _ _ _ _ V k j K J). lia. }
        rewrite NCF. split; [|discriminate]. destruct K2 as [->| ->]; [reflexivity|]. rewrite T1. exists (t + d). split; [reflexivity|]. lia.
  - destruct (S1 eq_refl) as [SH1 SH2]. apply KEEP; [now destruct e|]. apply (i_rec _ _ _ _ V); auto.
Qed.
Lemma ntrun_inv : forall rmax hsh slack h t s, 0 <= rmax < 2147483648 -> 0 <= slack <= 536870912 -> ntrun rmax hsh slack h t s -> tinv slack h t s.
Proof.
  intros rmax hsh slack h t s Hm HS R. induction R as [t T|h t0 s t e s' R IH T OK TO PR PO ST].
  - destruct wf_init. constructor; auto; easy.
  - apply (tinv_step rmax hsh slack h t s e s' Hm); auto; [lia|]. now apply (tinv_wait slack h t0).
Qed.
Lemma at_time_inv : forall rmax hsh slack h t s, 0 <= rmax < 2147483648 -> 0 <= slack <= 536870912 -> at_time rmax hsh slack h t s -> tinv slack h t s.
Proof.
  intros rmax hsh slack h t s Hm HS (t0 & R & T & PR). apply (tinv_wait slack h t0); auto. now apply (ntrun_inv rmax hsh).
Qed.

(** ** costs *)
Lemma path_uniq : forall s n x p q, wf s -> path_cost s n x p -> path_cost s n x q -> p = q.
Proof.
  intros s n x p q W (t & e & A1 & A2 & A3 & A4 & A5) (t' & e' & B1 & B2 & B3 & B4 & B5).
  assert (t = t') as <- by (apply (inj_nodup _ _ t_addr (twos s)); auto; [apply W|congruence]).
  assert (e = e') as <- by (apply (inj_nodup _ _ e_nbr (t_list t)); auto; [now apply (w_once _ W)|congruence]). congruence.
Qed.
Lemma path_ex : forall s n x, wf s -> (exists p, path_cost s n x p) <-> reaches s n x.
Proof.
  intros s n x W. split.
  - intros (p & t & e & A1 & A2 & A3 & A4 & A5). assert (In n (map e_nbr (t_list t))) as Q by (apply in_map_iff; eauto). apply (w_agree _ W t n A1) in Q.
    apply in_pair in Q. destruct Q as (l & Q1 & Q2 & Q3). exists l, t. auto.
  - intros (l & t & A & B & C & D & E). assert (In n (map e_nbr (t_list t))) as Q. { apply (w_agree _ W t n B). apply in_pair. exists l. auto. }
    apply in_map_iff in Q. destruct Q as (e & Q1 & Q2). exists (e_path e), t, e. auto.
Qed.
Lemma hello_paths : forall rmax hsh now v n msg s s', wf s -> pos s -> no_chain v -> In n (map b_id (nbs s)) -> Z.of_nat (length (nbs s)) <= 32767 ->
  process_hello rmax hsh now v n msg s = Some s' ->
  (forall m x, reaches s' m x <-> reaches s m x \/ (m = n /\ existsb (names v x) msg = true)) /\
  (forall m x p, ~ (m = n /\ existsb (names v x) msg = true) -> (path_cost s' m x p <-> path_cost s m x p)) /\
  (v_lq v = true -> forall x p, existsb (names v x) msg = true ->
    match v_best v with Some c => forall k, In k msg -> 0 <= c + h_cost k < 4294967296 | None => True end ->
    (path_cost s' n x p <-> p = match v_best v with Some c => best_path c (listed_costs v x msg) | None => LINK_COST_BROKEN end)).
Proof.
  intros rmax hsh now v n msg s s' W P NC In1 B ST.
  destruct (hello_spec rmax hsh now v n msg s W P NC In1 B) as (s2 & s1 & A1 & A2 & A3 & A4 & A5 & A6 & A7 & A8 & A9). rewrite ST in A1. apply Some_inj in A1. subst s2.
  assert (forall m x, reaches s' m x <-> reaches s m x \/ (m = n /\ existsb (names v x) msg = true)) as RE.
  { intros m x. rewrite !reaches_iff, A4, A7. split.
    - intros (l & L1 & L2 & L3). destruct (r_recs _ _ _ _ _ _ A8 l x L1 L3) as [(H1 & H2 & H3)|(H1 & H2 & H3)]; [left; exists l; auto|right; split; [congruence|exact H2]].
    - intros [(l & L1 & L2 & L3)|[-> H]]; [|now apply (r_there _ _ _ _ _ _ A8)]. destruct (r_keep _ _ _ _ _ _ A8 l L1) as (l' & K1 & K2 & K3 & K4).
      exists l'. split; [exact K1|]. split; [congruence|]. rewrite K4. now apply (r_pairs _ _ _ _ _ _ A8). }
  split; [exact RE|]. split.
  - intros m x p N. assert (forall p, path_cost s' m x p -> path_cost s m x p) as FW.
    { intros q (t' & e' & B1 & B2 & B3 & B4 & B5). destruct (A9 t' e' B1 B3) as (t & e & C1 & C2 & C3 & C4 & C5).
      destruct (r_other _ _ _ _ _ _ A8 t e C1 C3) as (t0 & D1 & D2 & D3). { intros [Q1 Q2]. apply N. split; [congruence|]. now rewrite <- B2, <- C2. }
      exists t0, e. split; [exact D1|]. split; [congruence|]. split; [exact D3|]. split; [congruence|]. rewrite <- B5. destruct (e_nbr e =? n) eqn:Q; [|now subst e'].
      rewrite counted_listed in C5. replace (listed_costs v (t_addr t) msg) with (@nil Z) in C5; [destruct (v_best v), (v_lq v); cbn [fold_left] in C5; now rewrite C5|].
      unfold listed_costs. destruct (v_own v (t_addr t)); [reflexivity|]. destruct (filter (names v (t_addr t)) msg) as [|k r] eqn:F; [reflexivity|]. exfalso. apply N.
      split; [lia|]. apply existsb_exists. exists k. rewrite <- B2, <- C2. apply filter_In. rewrite F. now left. }
    split; [apply FW|]. intro H. destruct (path_ex s' m x A2) as [_ Q]. destruct Q as [q Q]. { apply RE. left. apply path_ex; eauto. }
    pose proof (FW q Q) as H2. now rewrite (path_uniq s m x p q W H H2).
  - intros LQ x p NM BD.
    assert (forall p, path_cost s' n x p -> p = match v_best v with Some c => best_path c (listed_costs v x msg) | None => LINK_COST_BROKEN end) as FW.
    { intros q (t' & e' & B1 & B2 & B3 & B4 & B5). destruct (A9 t' e' B1 B3) as (t & e & C1 & C2 & C3 & C4 & C5).
      replace (e_nbr e =? n) with true in C5 by lia. rewrite LQ, counted_listed in C5. rewrite (r_cost _ _ _ _ _ _ A8 LQ t e C1 C3) in C5; [|lia|now rewrite C2, B2].
      rewrite <- B5, C5. destruct (v_best v) as [c|]; [|reflexivity]. rewrite C2, B2. apply take_best. intros k K. unfold listed_costs in K. destruct (v_own v x); [easy|].
      apply in_map_iff in K. destruct K as (y & <- & K). apply filter_In in K. now apply BD. }
    split; [apply FW|]. intros ->. destruct (path_ex s' n x A2) as [_ Q]. destruct Q as [q Q]. { apply RE. right. auto. } pose proof (FW q Q). now subst.
Qed.

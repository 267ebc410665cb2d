(** Proofs about the link set: status against what has been heard. *)
From Verif Require Import Base SchedTime SchedTimeProofs LinkSet LinkSetSpec LinkSetProofs.

Lemma last_cons' : forall (A : Type) (l : list A) a d, last (a :: l) d = last l a.
Proof.
  intros A l. induction l as [|b r IH]; intros a d; [reflexivity|].
  change (last (a :: b :: r) d) with (last (b :: r) d). now rewrite !IH.
Qed.
Lemma check_said : forall msg own ret, check_link_status ret msg own =
  if existsb (Z.eqb 2) (mentions own msg) then 2 else last (mentions own msg) ret.
Proof.
  intros msg own. induction msg as [|[a k] r IH]; intro ret; [reflexivity|].
  cbn [check_link_status]. unfold mentions. cbn [filter fst snd]. unfold UNSPEC_LINK, SYM_LINK.
  destruct ((a =? own) && negb (k =? 0)); [|apply IH].
  cbn [map snd existsb]. rewrite (Z.eqb_sym 2 k). destruct (k =? 2) eqn:E; [cbn; lia|].
  cbn [orb]. rewrite IH. fold (mentions own r). now rewrite last_cons'.
Qed.
Lemma check_is_said : forall msg own, check_link_status UNSPEC_LINK msg own = said own msg.
Proof. intros. apply check_said. Qed.

(** ** what a HELLO does to the timers of its link *)
Lemma refresh_spec : forall c t vt st r l, 0 <= rmax c < 2147483648 -> 2 <= vt < 536870912 -> 0 <= r <= rmax c ->
  l_timer l <> None ->
  let l' := refresh c (u32 t) vt st r l in
  l_asym l' = u32 (t + vt) /\
  l_sym l' = (if st =? 3 then None else if (st =? 1) || (st =? 2) then Some (u32 (t + vt)) else l_sym l) /\
  (l_timer l' = l_timer l \/ exists d, l_timer l' = Some (u32 (t + d)) /\ 0 <= d <= vt + 20000).
Proof.
  intros c t vt st r l Hm Hv Hr HT. cbv zeta. unfold refresh. cbv zeta.
  set (l1 := set_prev st (set_asym (getTimestamp (u32 t) vt) l)).
  set (l2 := if st =? LOST_LINK then set_sym None l1
             else if (st =? SYM_LINK) || (st =? ASYM_LINK)
             then set_link_timer c (u32 t) (vt + HOLD) r (set_sym (set_tm c (u32 t) vt OLSR_LINK_SYM_JITTER r) l1) else l1).
  assert (l_asym l2 = getTimestamp (u32 t) vt) as EA.
  { unfold l2. destruct (st =? LOST_LINK); [reflexivity|]. destruct ((st =? SYM_LINK) || (st =? ASYM_LINK)); reflexivity. }
  assert (l_sym l2 = (if st =? 3 then None else if (st =? 1) || (st =? 2) then Some (u32 (t + vt)) else l_sym l)) as ES.
  { unfold l2, LOST_LINK, SYM_LINK, ASYM_LINK. destruct (st =? 3); [reflexivity|]. rewrite (orb_comm (st =? 2)).
    destruct ((st =? 1) || (st =? 2)); [|reflexivity].
    destruct (set_tm_spec c t vt OLSR_LINK_SYM_JITTER r Hm) as (d & E & _ & _ & D0); [lia|unfold OLSR_LINK_SYM_JITTER; lia|exact Hr|].
    cbn [set_link_timer set_timer l_sym set_sym]. rewrite E, D0; reflexivity. }
  assert (l_timer l2 = l_timer l \/ exists d, l_timer l2 = Some (u32 (t + d)) /\ 0 <= d <= vt + 20000) as ET.
  { unfold l2. destruct (st =? LOST_LINK); [now left|]. destruct ((st =? SYM_LINK) || (st =? ASYM_LINK)); [|now left]. right.
    destruct (set_tm_spec c t (vt + HOLD) OLSR_LINK_JITTER r Hm) as (d & E & A & _ & _); [unfold HOLD; lia|unfold OLSR_LINK_JITTER; lia|exact Hr|].
    exists d. split; [exact E|unfold HOLD in A; lia]. }
  destruct (match l_timer l2 with None => true | Some d => d <? l_asym l2 end).
  - cbn [set_link_timer set_timer l_asym l_sym l_timer]. split; [|split].
    + rewrite EA. unfold getTimestamp. now rewrite u32_u32_add.
    + exact ES.
    + right. rewrite EA.
      assert (exists x, u32 (getTimeDue (u32 t) (getTimestamp (u32 t) vt)) = x /\ 1 <= x <= vt) as (x & E1 & E2).
      { destruct (timedue_approx (u32 t) vt 0 (u32_range t)) as [Q _]; [lia|lia|lia|]. specialize (Q ltac:(lia)).
        rewrite Z.add_0_r in Q. replace (u32 (u32 t)) with (u32 t) in Q by (unfold u32; lia).
        eexists. split; [reflexivity|]. set (z := getTimeDue _ _) in *. clearbody z. unfold u32. lia. }
      rewrite E1.
      destruct (set_tm_spec c t x OLSR_LINK_JITTER r Hm) as (d & E & A & _ & _); [lia|unfold OLSR_LINK_JITTER; lia|exact Hr|].
      exists d. split; [exact E|lia].
  - split; [rewrite EA; unfold getTimestamp; now rewrite u32_u32_add|]. auto.
Qed.

(** ** history *)
Lemma confirmed_app : forall i h x, confirmed i (h ++ [x]) = confirm1 i (confirmed i h) x.
Proof. intros. unfold confirmed. now rewrite fold_left_app. Qed.
Lemma heard_app : forall i h x, heard i (h ++ [x]) = heard1 i (heard i h) x.
Proof. intros. unfold heard. now rewrite fold_left_app. Qed.
Definition hist_lt (m : Z) (h : history) : Prop :=
  Forall (fun x => match snd x with Heard i _ _ => i < m | Reset => True end) h.
Lemma confirmed_none : forall i h, hist_lt i h -> confirmed i h = None.
Proof.
  intros i h. induction h as [|x h IH] using rev_ind; intro H; [reflexivity|].
  apply Forall_app in H. destruct H as [H1 H2]. rewrite confirmed_app, IH by exact H1.
  inversion H2 as [|? ? H3 _]; subst. destruct x as [t [j k v|]]; cbn in *; [|reflexivity].
  now replace (j =? i) with false by lia.
Qed.

Record inv1 (slack : Z) (h : history) (t : Z) (l : link) : Prop := mkInv1 {
  v_timer : exists D tl, l_timer l = Some (u32 D) /\ tl <= t /\ t - slack <= D <= tl + 536890912 /\
    ((exists v1, heard (l_id l) h = Some (tl, v1) /\ l_asym l = u32 (tl + v1) /\ 2 <= v1 < 536870912) \/
     (heard (l_id l) h = None /\ exists tr, l_asym l = u32 (tr - 1) /\ tl <= tr <= t));
  v_sym : match l_sym l with
    | Some x => exists t0 v, confirmed (l_id l) h = Some (t0, v) /\ x = u32 (t0 + v) /\ t - slack <= t0 + v /\ t0 <= t /\ 2 <= v < 536870912
    | None => confirmed (l_id l) h = None \/ exists t0 v, confirmed (l_id l) h = Some (t0, v) /\ t0 + v <= t
    end }.

Lemma prompt_bound : forall slack t0 t D, 0 <= slack <= 536870912 -> t0 <= t < t0 + 536870912 ->
  t0 - slack <= D <= t0 + 1073741824 -> prompt1 slack t (Some (u32 D)) -> t - slack <= D.
Proof.
  intros slack t0 t D H1 H2 H3 P. cbn in P. destruct (Z_le_dec D t) as [Q|Q]; [|lia].
  rewrite due_iff in P by lia. rewrite lag in P by lia. specialize (P ltac:(lia)). lia.
Qed.

(** waiting *)
Lemma inv1_wait : forall slack h t0 t l, 0 <= slack <= 536870912 -> t0 <= t < t0 + 536870912 ->
  prompt1 slack t (l_sym l) -> prompt1 slack t (l_timer l) -> inv1 slack h t0 l -> inv1 slack h t l.
Proof.
  intros slack h t0 t l Hs Ht P1 P2 [V1 V2]. constructor.
  - destruct V1 as (D & tl & E & L & B & C). exists D, tl. rewrite E in P2.
    assert (t - slack <= D) by (eapply (prompt_bound slack t0); [exact Hs|exact Ht|lia|exact P2]).
    split; [exact E|]. split; [lia|]. split; [lia|]. destruct C as [C|(C & tr & C1 & C2)]; [now left|right].
    split; [exact C|]. exists tr. split; [exact C1|lia].
  - destruct (l_sym l) as [x|].
    + destruct V2 as (t1 & v & C & Ex & B1 & B2 & B3). exists t1, v. subst x.
      assert (t - slack <= t1 + v) by (eapply (prompt_bound slack t0); [exact Hs|exact Ht|lia|exact P1]).
      repeat split; auto; lia.
    + destruct V2 as [V2|(t1 & v & C & B)]; [now left|right]. exists t1, v. split; [exact C|lia].
Qed.

Lemma inv1_same : forall slack h t l l', l_id l' = l_id l -> dyn l' = dyn l -> inv1 slack h t l -> inv1 slack h t l'.
Proof.
  intros slack h t l l' E D [V1 V2]. inversion D as [[D1 D2 D3]]. constructor; now rewrite ?E, ?D1, ?D2, ?D3.
Qed.

(** items about another link do not matter *)
Lemma inv1_other : forall slack h t l x, match snd x with Heard i _ _ => i <> l_id l | Reset => False end ->
  inv1 slack h t l -> inv1 slack (h ++ [x]) t l.
Proof.
  intros slack h t l [tx [j k v|]] H [V1 V2]; [|easy]. cbn in H.
  assert (heard (l_id l) (h ++ [(tx, Heard j k v)]) = heard (l_id l) h) as E1
    by (rewrite heard_app; cbn; now replace (j =? l_id l) with false by lia).
  assert (confirmed (l_id l) (h ++ [(tx, Heard j k v)]) = confirmed (l_id l) h) as E2
    by (rewrite confirmed_app; cbn; now replace (j =? l_id l) with false by lia).
  constructor; now rewrite ?E1, ?E2.
Qed.

(** the HELLO itself *)
Lemma inv1_hello : forall c slack h t vt st r l l', 0 <= rmax c < 2147483648 -> 0 <= slack <= 536870912 ->
  2 <= vt < 536870912 -> 0 <= r <= rmax c ->
  l_id l' = l_id l -> dyn l' = dyn (refresh c (u32 t) vt st r l) ->
  (exists D, l_timer l = Some (u32 D) /\ t - slack <= D <= t + 536890912) ->
  match l_sym l with
  | Some x => exists t0 v, confirmed (l_id l) h = Some (t0, v) /\ x = u32 (t0 + v) /\ t - slack <= t0 + v /\ t0 <= t /\ 2 <= v < 536870912
  | None => confirmed (l_id l) h = None \/ exists t0 v, confirmed (l_id l) h = Some (t0, v) /\ t0 + v <= t
  end ->
  inv1 slack (h ++ [(t, Heard (l_id l) st vt)]) t l'.
Proof.
  intros c slack h t vt st r l l' Hm Hs Hv Hr Ei Ed (D & ED & BD) V2.
  destruct (refresh_spec c t vt st r l Hm Hv Hr) as (R1 & R2 & R3); [now rewrite ED|].
  set (l1 := refresh c (u32 t) vt st r l) in *. clearbody l1. inversion Ed as [[D1 D2 D3]]. constructor.
  - assert (exists D', l_timer l1 = Some (u32 D') /\ t - slack <= D' <= t + 536890912) as (D' & E' & B').
    { destruct R3 as [R3|(d & R3 & B)]; [exists D; rewrite R3; auto|]. exists (t + d). split; [exact R3|lia]. }
    exists D', t. rewrite D3, E'. split; [reflexivity|]. split; [lia|]. split; [exact B'|]. left. exists vt.
    rewrite Ei, heard_app. cbn. rewrite Z.eqb_refl, D2, R1. auto.
  - rewrite Ei, confirmed_app, D1, R2. cbn [confirm1]. rewrite Z.eqb_refl.
    destruct (st =? 3); [now left|]. destruct ((st =? 1) || (st =? 2)); [|exact V2].
    exists t, vt. repeat split; lia.
Qed.

Record inv (slack : Z) (h : history) (t : Z) (s : lstate) : Prop := mkInv {
  i_base : base s;
  i_hist : hist_lt (fresh s) h;
  i_links : forall l, In l (links s) -> inv1 slack h t l }.

Lemma update_link_fresh : forall c now s ifc remote main vt msg r q s' i, base s ->
  update_link c now s ifc remote main vt msg r q = Some (s', i) -> i < fresh s' /\ fresh s <= fresh s'.
Proof.
  intros c now s ifc remote main vt msg r q s' i B H.
  destruct (update_link_cases _ _ _ _ _ _ _ _ _ _ _ _ B H) as (l0 & l2 & ls & E1 & I0 & Ei & _ & _ & _ & _ & _ & C).
  destruct C as [(L & Els & F)|(L & Ei' & F & _)]; [|lia]. subst ls.
  pose proof (b_lt _ B) as BL. rewrite Forall_forall in BL. specialize (BL _ I0). lia.
Qed.
Lemma fresh_mono : forall c now s e s', base s -> lstep c now s e = Some s' -> fresh s <= fresh s'.
Proof.
  intros c now s e s' B H. destruct e as [ifc remote main vt msg r q|i|i|i q|main alias|a| |i cost|l|m a]; cbn [lstep] in H.
  - destruct (update_link c now s ifc remote main vt msg r q) as [[s1 i]|] eqn:U; [|discriminate].
    apply Some_inj in H. subst s1. apply update_link_fresh in U; [tauto|exact B].
  - apply expire_sym_links in H. lia.
  - apply expire_link_links in H. lia.
  - apply expire_hello_links in H. lia.
  - apply Some_inj in H. subst s'. unfold insert_alias. cbv zeta.
    assert (fresh s <= fresh (alias_old s main alias)) as F.
    { unfold alias_old. destruct (nbr_lookup_alias alias (nbrs s)); [|lia].
      destruct (nbr_insert _ main) as [s1 n1] eqn:E. apply nbr_insert_links in E. cbn in *. lia. }
    destruct (match mid_main _ alias with Some m => m =? main | None => false end); [exact F|].
    revert F. generalize (alias :: mid_ali (alias_old s main alias) main) as l. generalize (alias_old s main alias).
    intros s0 l. revert s0. induction l as [|x r IH]; intros s1 F; [exact F|]. cbn. apply IH. revert F.
    unfold alias_dup. destruct (nbr_lookup_alias x (nbrs s1)); [|auto]. destruct (nbr_lookup_alias main (nbrs s1)); auto.
  - unfold delete_by_ip in H. apply delete_all_links in H. destruct H as (p & _ & H). lia.
  - apply reset_links in H. lia.
  - apply Some_inj in H. subst s'. cbn. lia.
  - apply Some_inj in H. subst s'. cbn. lia.
  - apply Some_inj in H. subst s'. cbn. lia.
Qed.
Lemma hist_lt_mono : forall m m' h, m <= m' -> hist_lt m h -> hist_lt m' h.
Proof. intros m m' h L H. eapply Forall_impl; [|exact H]. intros [t [i k v|]]; cbn; lia. Qed.

Lemma inv_step : forall c slack h t0 s t e s', 0 <= rmax c < 2147483648 -> 0 <= slack <= 536870912 ->
  inv slack h t0 s -> t0 <= t < t0 + 536870912 -> event_ok c e -> prompt slack t s -> possible (u32 t) s e = true ->
  lstep c (u32 t) s e = Some s' -> inv slack (h ++ items c t s e) t s'.
Proof.
  intros c slack h t0 s t e s' Hm Hs [B HL V] Ht OK P PO ST.
  assert (forall l, In l (links s) -> inv1 slack h t l) as W.
  { intros l I. unfold prompt in P. rewrite Forall_forall in P. destruct (P _ I). eapply inv1_wait; eauto. }
  pose proof (fresh_mono _ _ _ _ _ B ST) as FM.
  constructor.
  - eapply base_step; eauto.
  - apply Forall_app. split; [eapply hist_lt_mono; [exact FM|exact HL]|].
    destruct e; cbn [items]; try (constructor; fail); [|constructor; [exact Logic.I|constructor]].
    cbn [lstep] in ST. destruct (update_link _ _ _ _ _ _ _ _ _ _) as [[s1 i]|] eqn:U; [|constructor].
    apply Some_inj in ST. subst s1. constructor; [|constructor]. cbn. eapply update_link_fresh; eauto.
  - intros l' I'. destruct (step_link _ _ _ _ _ _ B ST I') as [(l & I & S & EV)|(ifc & remote & main & vt & msg & r & q & l0 & n & -> & EI & (s'' & U) & E0 & S & DY)].
    + specialize (W _ I). assert (l_id l' = l_id l) as EI by (unfold stat in S; congruence).
      destruct e as [ifc remote main vt msg r q|i|i|i q|main alias|a| |i cost|x|m a]; cbn [items]; rewrite ?app_nil_r;
        try (eapply inv1_same; eassumption).
      * cbn [lstep] in ST. destruct (update_link c (u32 t) s ifc remote main vt msg r q) as [[s1 i]|] eqn:U; [|discriminate].
        destruct EV as [EV1 EV2]. destruct (Z.eq_dec (l_id l) i) as [E|E].
        -- specialize (EV1 E). rewrite check_is_said in EV1. rewrite <- E. cbn in OK. destruct W as [W1 W2].
           eapply inv1_hello; [exact Hm|exact Hs|apply OK|apply OK|exact EI|exact EV1| |exact W2].
           destruct W1 as (D & tl & W1 & W3 & W4 & _). exists D. split; [exact W1|lia].
        -- apply inv1_other; [cbn; congruence|]. eapply inv1_same; [exact EI|now apply EV2|exact W].
      * destruct (l_id l =? i) eqn:Q; [|eapply inv1_same; eassumption].
        destruct EV as (EV1 & EV2 & EV3). destruct W as [W1 W2]. constructor.
        -- now rewrite EI, EV2, EV3.
        -- rewrite EV1, EI. cbn [possible] in PO.
           rewrite (get_link_nodup i (links s) l (b_ids _ B) I) in PO by lia.
           destruct (l_sym l) as [x|]; [|discriminate]. cbn [due] in PO.
           destruct W2 as (t1 & v & C & Ex & B1 & B2 & B3). subst x. right. exists t1, v. split; [exact C|].
           rewrite due_iff in PO by lia. lia.
      * destruct EV as (EV1 & EV2 & EV3). destruct W as [W1 W2]. constructor.
        -- destruct W1 as (D & tl & W1 & W3 & W4 & _). exists D, tl. rewrite EV3. repeat split; auto; try lia.
           right. rewrite heard_app. split; [reflexivity|]. exists t. rewrite EV2, u32_u32_sub. split; [reflexivity|lia].
        -- rewrite EV1, confirmed_app. now left.
    + cbn [items]. rewrite U. rewrite check_is_said in DY. cbn in OK. destruct OK as (OK1 & OK2 & _).
      assert (l_id l0 = fresh s) as E1 by (subst l0; reflexivity).
      rewrite <- E1. eapply inv1_hello; [exact Hm|exact Hs|exact OK1|exact OK2|congruence|exact DY| |].
      * destruct (set_tm_spec c t vt OLSR_LINK_JITTER r Hm) as (d & E & A & _ & _); [lia|unfold OLSR_LINK_JITTER; lia|exact OK2|].
        exists (t + d). subst l0. cbn [fresh_link l_timer]. split; [exact E|lia].
      * subst l0. cbn [fresh_link l_sym l_id]. left. now apply confirmed_none.
Qed.

Lemma run_inv : forall c slack h t s, 0 <= rmax c < 2147483648 -> 0 <= slack <= 536870912 ->
  lrun c slack h t s -> inv slack h t s.
Proof.
  intros c slack h t s Hm Hs R. induction R as [t H0|h t0 s t e s' R IH Ht OK P PO ST].
  - constructor; [apply base_init|constructor|easy].
  - eapply inv_step; eauto.
Qed.
Lemma at_time_inv : forall c slack h t s, 0 <= rmax c < 2147483648 -> 0 <= slack <= 536870912 ->
  at_time c slack h t s -> inv slack h t s.
Proof.
  intros c slack h t s Hm Hs (t0 & R & Ht & P). destruct (run_inv _ _ _ _ _ Hm Hs R) as [B HL V].
  constructor; [exact B|exact HL|]. intros l I. unfold prompt in P. rewrite Forall_forall in P. destruct (P _ I).
  eapply inv1_wait; eauto.
Qed.

Lemma link_status_plain : forall c now ls l, In l ls -> use_hyst c = false ->
  link_status c now ls l = match l_sym l with Some _ => 2 | None => if negb (isTimedOut now (l_asym l)) then 1 else 3 end.
Proof. intros c now ls l I H. unfold link_status. destruct ls; [easy|]. now rewrite H. Qed.
Lemma link_status_sym : forall c now ls l, link_status c now ls l = 2 -> l_sym l <> None.
Proof.
  intros c now ls l H. unfold link_status in H. destruct ls; [discriminate|].
  destruct (use_hyst c && negb (isTimedOut now (l_lostt l))); [discriminate|].
  destruct (use_hyst c && l_pending l); [discriminate|]. destruct (l_sym l); [easy|].
  destruct (negb _); discriminate.
Qed.

Lemma status_sym_sound : forall c slack h t s l, 0 <= rmax c < 2147483648 -> 0 <= slack <= 536870912 ->
  at_time c slack h t s -> In l (links s) -> link_status c (u32 t) (links s) l = 2 ->
  exists t0 v, confirmed (l_id l) h = Some (t0, v) /\ t0 <= t <= t0 + v + slack.
Proof.
  intros c slack h t s l Hm Hs A I E. destruct (at_time_inv _ _ _ _ _ Hm Hs A) as [B HL V].
  destruct (V _ I) as [_ V2]. apply link_status_sym in E. destruct (l_sym l); [|easy].
  destruct V2 as (t0 & v & C & _ & B1 & B2 & _). exists t0, v. split; [exact C|lia].
Qed.
Lemma status_sym_complete : forall c slack h t s l t0 v, 0 <= rmax c < 2147483648 -> 0 <= slack <= 536870912 ->
  use_hyst c = false ->
  at_time c slack h t s -> In l (links s) -> confirmed (l_id l) h = Some (t0, v) -> t < t0 + v ->
  link_status c (u32 t) (links s) l = 2.
Proof.
  intros c slack h t s l t0 v Hm Hs Hh A I C L. destruct (at_time_inv _ _ _ _ _ Hm Hs A) as [B HL V].
  destruct (V _ I) as [_ V2]. rewrite link_status_plain by assumption. destruct (l_sym l); [reflexivity|].
  destruct V2 as [V2|(t1 & v1 & C1 & L1)]; [congruence|]. rewrite C in C1. inversion C1; subst. lia.
Qed.
Lemma status_asym : forall c slack h t s l, 0 <= rmax c < 2147483648 -> 0 <= slack <= 536870912 ->
  use_hyst c = false -> at_time c slack h t s -> In l (links s) -> link_status c (u32 t) (links s) l <> 2 ->
  (link_status c (u32 t) (links s) l = 1 /\ exists t1 v1, heard (l_id l) h = Some (t1, v1) /\ t < t1 + v1) \/
  (link_status c (u32 t) (links s) l = 3 /\ forall t1 v1, heard (l_id l) h = Some (t1, v1) -> t1 + v1 <= t).
Proof.
  intros c slack h t s l Hm Hs Hh A I E. destruct (at_time_inv _ _ _ _ _ Hm Hs A) as [B HL V].
  destruct (V _ I) as [(D & tl & V1 & V2 & V3 & V4) _]. rewrite link_status_plain in * by assumption.
  destruct (l_sym l); [easy|]. clear E.
  destruct V4 as [(v1 & H1 & H2 & H3)|(H1 & tr & H2 & H3)]; rewrite H2, H1.
  - rewrite due_iff by lia. destruct (tl + v1 <=? t) eqn:Q; cbn [negb].
    + right. split; [reflexivity|]. intros t1 w E. inversion E; subst. lia.
    + left. split; [reflexivity|]. exists tl, v1. split; [reflexivity|lia].
  - rewrite due_iff by lia. replace (tr - 1 <=? t) with true by lia. right. split; [reflexivity|easy].
Qed.

Lemma keys_unique : forall c slack h t s l, 0 <= rmax c < 2147483648 -> 0 <= slack <= 536870912 ->
  at_time c slack h t s -> In l (links s) -> lookup_link (l_remote l) (l_if l) (links s) = Some l.
Proof.
  intros c slack h t s l Hm Hs A I. destruct (at_time_inv _ _ _ _ _ Hm Hs A) as [B _ _].
  pose proof (b_keys _ B) as K. revert I K. generalize (links s) as ls. intro ls. induction ls as [|x r IH]; intros I K; [easy|].
  inversion K as [|? ? K1 K2]; subst. unfold lookup_link. cbn [find]. destruct I as [->|I].
  - unfold key. now rewrite !Z.eqb_refl.
  - destruct (key (l_remote l) (l_if l) x) eqn:Q; [|now apply IH].
    exfalso. apply K1. apply key_spec in Q. destruct Q as [Q1 Q2]. rewrite Q1, Q2.
    apply in_map_iff. now exists l.
Qed.

(** ** the life time of a link *)
Lemma u32_small : forall x, 0 <= x < 4294967296 -> u32 x = x.
Proof. intros. unfold u32. lia. Qed.

Lemma refresh_low : forall c t vt st r l D, 0 <= rmax c < 2147483648 -> 2 <= vt < 536870912 -> 0 <= r <= rmax c ->
  0 <= t <= 3221225472 -> 0 <= D <= t + 536890912 -> l_timer l = Some (u32 D) ->
  exists D', l_timer (refresh c (u32 t) vt st r l) = Some (u32 D') /\ (D' = D \/ t <= D' <= t + vt + 20000) /\ 95 * vt <= 100 * (D' - t).
Proof.
  intros c t vt st r l D Hm Hv Hr Ht HB HD. unfold refresh. cbv zeta.
  set (l1 := set_prev st (set_asym (getTimestamp (u32 t) vt) l)).
  set (l2 := if st =? LOST_LINK then set_sym None l1
             else if (st =? SYM_LINK) || (st =? ASYM_LINK)
             then set_link_timer c (u32 t) (vt + HOLD) r (set_sym (set_tm c (u32 t) vt OLSR_LINK_SYM_JITTER r) l1) else l1).
  assert (l_asym l2 = t + vt) as EA.
  { assert (getTimestamp (u32 t) vt = t + vt) as E by (unfold getTimestamp; rewrite u32_u32_add; apply u32_small; lia).
    unfold l2. destruct (st =? LOST_LINK); [exact E|]. destruct ((st =? SYM_LINK) || (st =? ASYM_LINK)); exact E. }
  assert (exists D', l_timer l2 = Some (u32 D') /\ 0 <= D' < 4294967296 /\ (D' = D \/ t <= D' <= t + vt + 20000)) as (D' & ET & BT & CT).
  { assert (exists D', l_timer l = Some (u32 D') /\ 0 <= D' < 4294967296 /\ (D' = D \/ t <= D' <= t + vt + 20000)) as Q
      by (exists D; split; [exact HD|split; [lia|now left]]).
    unfold l2. destruct (st =? LOST_LINK); [exact Q|]. destruct ((st =? SYM_LINK) || (st =? ASYM_LINK)); [|exact Q].
    destruct (set_tm_spec c t (vt + HOLD) OLSR_LINK_JITTER r Hm) as (d & E & A & _ & _); [unfold HOLD; lia|unfold OLSR_LINK_JITTER; lia|exact Hr|].
    unfold HOLD in A. exists (t + d). split; [exact E|]. split; lia. }
  rewrite ET, EA, (u32_small D') by lia. destruct (D' <? t + vt) eqn:Q.
  - cbn [set_link_timer set_timer l_timer].
    assert (getTimeDue (u32 t) (t + vt) = vt) as ->.
    { pose proof (timedue_nowrap t vt 0) as N. rewrite Z.add_0_r in N. unfold getTimestamp in N. rewrite (u32_small (t + vt)) in N by lia.
      rewrite N by lia. lia. }
    rewrite (u32_small vt) by lia.
    destruct (set_tm_spec c t vt OLSR_LINK_JITTER r Hm) as (d & E & A & B & _); [lia|unfold OLSR_LINK_JITTER; lia|exact Hr|].
    exists (t + d). split; [exact E|]. unfold OLSR_LINK_JITTER in B. lia.
  - exists D'. split; [exact ET|]. split; [exact CT|lia].
Qed.

Definition in_history (i : Z) (h : history) (D : Z) : Prop :=
  exists tk k vk, In (tk, Heard i k vk) h /\ D <= tk + vk + 20000.

Definition life1 (slack : Z) (h : history) (t : Z) (l : link) : Prop :=
  exists D, l_timer l = Some (u32 D) /\ 0 <= D /\ t - slack <= D <= t + 536890912 /\ in_history (l_id l) h D /\
    (t <= 3221225472 -> forall t1 v1, heard (l_id l) h = Some (t1, v1) -> 95 * v1 <= 100 * (D - t1)).

Lemma in_history_app : forall i h x D, in_history i h D -> in_history i (h ++ [x]) D.
Proof. intros i h x D (tk & k & vk & I & L). exists tk, k, vk. split; [apply in_or_app; now left|exact L]. Qed.

Lemma life1_same : forall slack h t l l', l_id l' = l_id l -> l_timer l' = l_timer l -> life1 slack h t l -> life1 slack h t l'.
Proof. intros slack h t l l' E1 E2 F. unfold life1. now rewrite E1, E2. Qed.
Lemma life1_wait : forall slack h t0 t l, 0 <= slack <= 536870912 -> t0 <= t < t0 + 536870912 ->
  prompt1 slack t (l_timer l) -> life1 slack h t0 l -> life1 slack h t l.
Proof.
  intros slack h t0 t l Hs Ht P (D & E & F1 & F2 & F3 & F4). exists D. rewrite E in P.
  assert (t - slack <= D) by (eapply (prompt_bound slack t0); [exact Hs|exact Ht|lia|exact P]).
  split; [exact E|]. split; [exact F1|]. split; [lia|]. split; [exact F3|]. intro Q. apply F4. lia.
Qed.
Lemma life1_other : forall slack h t l x, (match snd x with Heard i _ _ => i <> l_id l | Reset => True end) ->
  life1 slack h t l -> life1 slack (h ++ [x]) t l.
Proof.
  intros slack h t l [tx k] H (D & E & F1 & F2 & F3 & F4). exists D.
  split; [exact E|]. split; [exact F1|]. split; [exact F2|]. split; [now apply in_history_app|].
  intros Q t1 v1 HH. apply F4; [exact Q|]. rewrite heard_app in HH. destruct k as [j k v|]; cbn in *; [|discriminate].
  now replace (j =? l_id l) with false in HH by lia.
Qed.
Lemma life1_hello : forall c slack h t vt st r l l' D, 0 <= rmax c < 2147483648 -> 0 <= slack -> 0 <= t -> 2 <= vt < 536870912 -> 0 <= r <= rmax c ->
  l_id l' = l_id l -> l_timer l' = l_timer (refresh c (u32 t) vt st r l) ->
  l_timer l = Some (u32 D) -> 0 <= D -> t - slack <= D <= t + 536890912 -> (in_history (l_id l) h D \/ D <= t + vt) ->
  life1 slack (h ++ [(t, Heard (l_id l) st vt)]) t l'.
Proof.
  intros c slack h t vt st r l l' D Hm Hs H0 Hv Hr Ei Et ED D0 LD HH.
  assert (in_history (l_id l) (h ++ [(t, Heard (l_id l) st vt)]) D) as HD.
  { destruct HH as [HH|HH]; [now apply in_history_app|]. exists t, st, vt. split; [apply in_or_app; right; now left|lia]. }
  assert (forall D', D' = D \/ t <= D' <= t + vt + 20000 -> 0 <= D' /\ t - slack <= D' <= t + 536890912 /\ in_history (l_id l) (h ++ [(t, Heard (l_id l) st vt)]) D') as G.
  { intros D' [->|Q]; [repeat split; auto; lia|]. split; [lia|]. split; [lia|]. exists t, st, vt. split; [apply in_or_app; right; now left|lia]. }
  unfold life1. rewrite Et, Ei. destruct (Z_le_dec t 3221225472) as [Q|Q].
  - destruct (refresh_low c t vt st r l D Hm Hv Hr) as (D' & E & C & L); [lia|lia|exact ED|].
    exists D'. destruct (G _ C) as (G1 & G2 & G3). repeat (split; [assumption|]). intros _ t1 v1 HH1.
    rewrite heard_app in HH1. cbn in HH1. rewrite Z.eqb_refl in HH1. inversion HH1; subst. exact L.
  - destruct (refresh_spec c t vt st r l Hm Hv Hr) as (_ & _ & R); [now rewrite ED|].
    assert (exists D', l_timer (refresh c (u32 t) vt st r l) = Some (u32 D') /\ (D' = D \/ t <= D' <= t + vt + 20000)) as (D' & E & C).
    { destruct R as [R|(d & R & B)]; [exists D; rewrite R; auto|exists (t + d); split; [exact R|lia]]. }
    exists D'. destruct (G _ C) as (G1 & G2 & G3). repeat (split; [assumption|]). intro; lia.
Qed.

Lemma life_step : forall c slack h t0 s t e s', 0 <= rmax c < 2147483648 -> 0 <= slack <= 536870912 ->
  base s -> (forall l, In l (links s) -> life1 slack h t0 l) -> 0 <= t0 -> t0 <= t < t0 + 536870912 -> event_ok c e ->
  prompt slack t s -> lstep c (u32 t) s e = Some s' -> forall l, In l (links s') -> life1 slack (h ++ items c t s e) t l.
Proof.
  intros c slack h t0 s t e s' Hm Hs B F H0 Ht OK P ST l' I'.
  assert (forall l, In l (links s) -> life1 slack h t l) as W.
  { intros l I. unfold prompt in P. rewrite Forall_forall in P. destruct (P _ I). eapply life1_wait; eauto. }
  destruct (step_link _ _ _ _ _ _ B ST I') as [(l & I & S & EV)|(ifc & remote & main & vt & msg & r & q & l0 & n & -> & EI & (s'' & U) & E0 & S & DY)].
  - specialize (W _ I). assert (l_id l' = l_id l) as EI by (unfold stat in S; congruence).
    destruct e as [ifc remote main vt msg r q|i|i|i q|main alias|a| |i cost|x|m a]; cbn [items]; rewrite ?app_nil_r;
      try (eapply life1_same; [exact EI|unfold dyn in EV; congruence|exact W]).
    + cbn [lstep] in ST. destruct (update_link c (u32 t) s ifc remote main vt msg r q) as [[s1 i]|] eqn:U; [|discriminate].
      destruct EV as [EV1 EV2]. destruct (Z.eq_dec (l_id l) i) as [E|E].
      * specialize (EV1 E). rewrite check_is_said in EV1. rewrite <- E. cbn in OK. destruct W as (D & W1 & W2 & W3 & W4 & _).
        eapply life1_hello; [exact Hm|lia|lia|apply OK|apply OK|exact EI|unfold dyn in EV1; congruence|exact W1|exact W2|exact W3|now left].
      * apply life1_other; [cbn; congruence|]. specialize (EV2 E). eapply life1_same; [exact EI|unfold dyn in EV2; congruence|exact W].
    + destruct (l_id l =? i); (eapply life1_same; [exact EI| |exact W]); unfold dyn in EV; intuition congruence.
    + apply life1_other; [exact Logic.I|]. eapply life1_same; [exact EI| |exact W]. intuition.
  - cbn [items]. rewrite U. rewrite check_is_said in DY. cbn in OK. destruct OK as (OK1 & OK2 & _).
    assert (l_id l0 = fresh s) as E1 by (subst l0; reflexivity).
    destruct (set_tm_spec c t vt OLSR_LINK_JITTER r Hm) as (d & E & A & _ & _); [lia|unfold OLSR_LINK_JITTER; lia|exact OK2|].
    rewrite <- E1. eapply (life1_hello c slack h t vt _ r l0 l' (t + d)); [exact Hm|lia|lia|exact OK1|exact OK2|congruence|unfold dyn in DY; congruence| | | |].
    + subst l0. exact E.
    + lia.
    + lia.
    + right. lia.
Qed.
Lemma lrun_pos : forall c slack h t s, lrun c slack h t s -> 0 <= t.
Proof. intros c slack h t s R. induction R; lia. Qed.
Lemma lrun_base : forall c slack h t s, lrun c slack h t s -> base s.
Proof. intros c slack h t s R. induction R; [apply base_init|eapply base_step; eauto]. Qed.
Lemma at_time_life : forall c slack h t s, 0 <= rmax c < 2147483648 -> 0 <= slack <= 536870912 ->
  at_time c slack h t s -> forall l, In l (links s) -> life1 slack h t l.
Proof.
  intros c slack h t s Hm Hs (t0 & R & Ht & P) l I.
  assert (forall l, In l (links s) -> life1 slack h t0 l) as F.
  { clear l I P Ht t. induction R as [t H0|h t0 s t e s' R IH Ht OK P PO ST]; [easy|].
    eapply life_step; eauto. - eapply lrun_base; eauto. - eapply lrun_pos; eauto. }
  unfold prompt in P. rewrite Forall_forall in P. destruct (P _ I). eapply life1_wait; eauto.
Qed.

Lemma lifetime_low : forall c slack h t s i t1 v1, 0 <= rmax c < 2147483648 -> 0 <= slack <= 536870912 ->
  at_time c slack h t s -> t <= 3221225472 -> possible (u32 t) s (ELinkFire i) = true ->
  heard i h = Some (t1, v1) -> 95 * v1 <= 100 * (t - t1).
Proof.
  intros c slack h t s i t1 v1 Hm Hs A Ht PO HH.
  cbn [possible] in PO. destruct (get_link i (links s)) as [l|] eqn:G; [|discriminate].
  apply get_link_in in G. destruct G as [I Ei].
  destruct (at_time_life _ _ _ _ _ Hm Hs A _ I) as (D & E & F1 & F2 & F3 & F4). rewrite Ei in F4. specialize (F4 Ht _ _ HH).
  rewrite E in PO. cbn [due] in PO. rewrite due_iff in PO by lia. lia.
Qed.
Lemma lifetime_up : forall c slack h t s l, 0 <= rmax c < 2147483648 -> 0 <= slack <= 536870912 ->
  at_time c slack h t s -> In l (links s) ->
  exists tk k vk, In (tk, Heard (l_id l) k vk) h /\ t <= tk + vk + 20000 + slack.
Proof.
  intros c slack h t s l Hm Hs A I.
  destruct (at_time_life _ _ _ _ _ Hm Hs A _ I) as (D & E & F1 & F2 & (tk & k & vk & H1 & H2) & F4).
  exists tk, k, vk. split; [exact H1|lia].
Qed.

(** Proofs about the link set: neighbor entries, the choice of a link. *)
From Verif Require Import Base SchedTime SchedTimeProofs LinkSet LinkSetSpec LinkSetProofs LinkSetRunProofs.

(** ** the choice of a link *)
Definition cand (c : lcfg) (s : lstate) (main : Z) (l : link) (m : Z) : Prop :=
  (exists n, deref (l_nbr l) (nbrs s) = Some n /\ n_addr n = main) /\ metric c s l = Some m.

Lemma best_loop_sym : forall c now s main remote ls cur good backup res m0,
  best_loop c now s main remote ls cur good backup = Some res ->
  (forall x m, In x ls -> cand c s main x m -> m0 <= m /\ (link_status c now (links s) x <> 2 -> m0 < m)) ->
  (cur = m0 /\ (exists g, good = Some g /\ link_status c now (links s) g = 2 /\ cand c s main g m0 /\ In g (links s))) \/
  (m0 < cur /\ exists g, In g ls /\ link_status c now (links s) g = 2 /\ cand c s main g m0) ->
  incl ls (links s) ->
  exists g, res = Some g /\ In g (links s) /\ link_status c now (links s) g = 2 /\ cand c s main g m0.
Proof.
  intros c now s main remote ls. induction ls as [|l r IH]; intros cur good backup res m0 H MIN W IN; cbn [best_loop] in H.
  - apply Some_inj in H. destruct W as [(_ & g & G & G2 & G3 & G4)|(_ & g & [] & _)]. subst good. exists g. subst res. auto.
  - assert (incl r (links s)) as INr by (intros x Ix; apply IN; now right).
    assert (forall x m, In x r -> cand c s main x m -> m0 <= m /\ (link_status c now (links s) x <> 2 -> m0 < m)) as MINr
      by (intros x m Ix; apply MIN; now right).
    assert (forall (P : Prop), (forall m, ~ cand c s main l m) ->
      (cur = m0 /\ (exists g, good = Some g /\ link_status c now (links s) g = 2 /\ cand c s main g m0 /\ In g (links s))) \/
      (m0 < cur /\ exists g, In g r /\ link_status c now (links s) g = 2 /\ cand c s main g m0)) as SKIP.
    { intros _ N. destruct W as [W|(W1 & g & [<-|Ig] & G2 & G3)]; [now left|exfalso; now apply (N m0)|right; eauto]. }
    specialize (SKIP True).
    destruct (deref (l_nbr l) (nbrs s)) as [n|] eqn:D; [|discriminate].
    destruct (n_addr n =? main) eqn:A; cbn [negb] in H.
    2: { eapply IH; [exact H|exact MINr| |exact INr]. apply SKIP. intros m ((n' & D' & A') & _). rewrite D in D'. inversion D'; subst. lia. }
    destruct (metric c s l) as [m|] eqn:M.
    2: { eapply IH; [exact H|exact MINr| |exact INr]. apply SKIP. intros m' (_ & M'). congruence. }
    assert (cand c s main l m) as CL by (split; [exists n; split; [exact D|lia]|exact M]).
    destruct (MIN l m (or_introl eq_refl) CL) as [ML MN].
    destruct ((m <? cur) || ((m =? cur) && (l_local l =? remote))) eqn:PK.
    + destruct (link_status c now (links s) l =? SYM_LINK) eqn:ST; unfold SYM_LINK in ST.
      * eapply IH; [exact H|exact MINr| |exact INr].
        destruct (Z.eq_dec m m0) as [->|NE].
        -- left. split; [reflexivity|]. exists l. split; [reflexivity|]. split; [lia|]. split; [exact CL|apply IN; now left].
        -- right. split; [lia|]. destruct W as [(W1 & _)|(W1 & g & [<-|Ig] & G2 & G3)].
           ++ exfalso. lia.
           ++ exfalso. destruct G3 as [_ G3]. congruence.
           ++ eauto.
      * specialize (MN ltac:(lia)). eapply IH; [exact H|exact MINr| |exact INr].
        right. split; [exact MN|]. destruct W as [(W1 & _)|(W1 & g & [<-|Ig] & G2 & G3)].
        -- exfalso. lia.
        -- exfalso. lia.
        -- eauto.
    + eapply IH; [exact H|exact MINr| |exact INr].
      destruct W as [W|(W1 & g & [<-|Ig] & G2 & G3)]; [now left| |right; eauto].
      exfalso. destruct G3 as [_ G3]. assert (m = m0) by congruence. lia.
Qed.

Lemma deref_of : forall ns n, NoDup (map n_id ns) -> In n ns -> deref (n_id n) ns = Some n.
Proof.
  intros ns. induction ns as [|x r IH]; intros n N I; [easy|]. inversion N as [|? ? N1 N2]; subst.
  unfold deref. cbn [find]. destruct I as [->|I]; [now rewrite Z.eqb_refl|].
  destruct (n_id x =? n_id n) eqn:E; [|now apply IH]. exfalso. apply N1. apply Z.eqb_eq in E. rewrite E. now apply in_map.
Qed.

(** what the chosen link costs, and that it leads to the neighbor *)
Lemma best_loop_sound : forall c now s main remote ls cur good backup l,
  best_loop c now s main remote ls cur good backup = Some (Some l) ->
  good = Some l \/ backup = Some l \/ (In l ls /\ exists m, cand c s main l m /\ m <= cur).
Proof.
  intros c now s main remote ls. induction ls as [|x r IH]; intros cur good backup l H; cbn [best_loop] in H.
  - apply Some_inj in H. destruct good; auto.
  - destruct (deref (l_nbr x) (nbrs s)) as [n|] eqn:D; [|discriminate].
    assert (forall cur' g b, best_loop c now s main remote r cur' g b = Some (Some l) -> cur' <= cur ->
      g = Some l \/ b = Some l \/ (In l (x :: r) /\ exists m, cand c s main l m /\ m <= cur)) as K.
    { intros cur' g b Q Lq. apply IH in Q. destruct Q as [Q|[Q|(Q & m & Q1 & Q2)]]; auto. right. right. split; [now right|]. exists m. split; [exact Q1|lia]. }
    destruct (n_addr n =? main) eqn:A; cbn [negb] in H; [|apply (K cur); [exact H|lia]].
    destruct (metric c s x) as [m|] eqn:M; [|apply (K cur); [exact H|lia]].
    assert (cand c s main x m) as CL by (split; [exists n; split; [exact D|lia]|exact M]).
    destruct ((m <? cur) || ((m =? cur) && (l_local x =? remote))) eqn:PK; [|apply (K cur); [exact H|lia]].
    assert (m <= cur) as ML by lia.
    destruct (link_status c now (links s) x =? SYM_LINK); (apply (K m) in H; [|lia]); destruct H as [H|[H|H]]; auto;
      right; right; inversion H; subst; (split; [now left|eauto]).
Qed.

(** ** neighbor entries *)
Definition lcore (l : link) := (stat l, l_nbr l).
Definition ncore (n : nbr) := (n_id n, n_addr n, n_count n).

Record sane (own : Z -> Z) (s : lstate) : Prop := mkSane {
  s_base : base s;
  s_addr : NoDup (map n_addr (nbrs s));
  s_own : forall n, In n (nbrs s) -> own (n_addr n) = n_addr n;
  s_link : forall l, In l (links s) -> exists n, In n (nbrs s) /\ n_id n = l_nbr l /\ n_addr n = own (l_remote l);
  s_cnt : forall n, In n (nbrs s) -> n_count n = cnt (n_id n) (links s) /\ 1 <= n_count n;
  s_tm : forall l, In l (links s) -> l_timer l <> None;
  s_main : forall x y, mid_main s x = Some y -> y = own x;
  s_ali : forall x y, In y (mid_ali s x) -> x = own y /\ y <> x }.

Lemma cnt_core : forall i ls ls', map l_nbr ls' = map l_nbr ls -> cnt i ls' = cnt i ls.
Proof.
  intros i ls ls' E. unfold cnt. f_equal.
  assert (forall k, length (filter (fun l => l_nbr l =? i) k) = length (filter (fun x => x =? i) (map l_nbr k))) as Q.
  { intro k. induction k as [|x r IH]; [reflexivity|]. cbn. destruct (l_nbr x =? i); cbn; congruence. }
  now rewrite !Q, E.
Qed.
Lemma lcore_maps : forall ls ls', map lcore ls' = map lcore ls -> map stat ls' = map stat ls /\ map l_nbr ls' = map l_nbr ls.
Proof.
  intros ls ls' E.
  assert (forall k, map stat k = map fst (map lcore k)) as Q1 by (intro; rewrite map_map; reflexivity).
  assert (forall k, map l_nbr k = map snd (map lcore k)) as Q2 by (intro; rewrite map_map; reflexivity).
  rewrite !Q1, !Q2, E. auto.
Qed.
Lemma ncore_maps : forall ns ns', map ncore ns' = map ncore ns -> map n_id ns' = map n_id ns /\ map n_addr ns' = map n_addr ns.
Proof.
  intros ns ns' E.
  assert (forall k, map n_id k = map (fun x => fst (fst x)) (map ncore k)) as Q1 by (intro; rewrite map_map; reflexivity).
  assert (forall k, map n_addr k = map (fun x => snd (fst x)) (map ncore k)) as Q2 by (intro; rewrite map_map; reflexivity).
  rewrite !Q1, !Q2, E. auto.
Qed.
Lemma in_map_eq : forall (A B : Type) (f : A -> B) l l' x, map f l' = map f l -> In x l' -> exists y, In y l /\ f y = f x.
Proof. intros A B f l l' x E I. apply (in_map f) in I. rewrite E in I. apply in_map_iff in I. destruct I as (y & Ey & I). eauto. Qed.

Lemma sane_core : forall own s s', sane own s -> map lcore (links s') = map lcore (links s) -> map ncore (nbrs s') = map ncore (nbrs s) ->
  fresh s' = fresh s -> mid_main s' = mid_main s -> mid_ali s' = mid_ali s -> (forall l, In l (links s') -> l_timer l <> None) -> sane own s'.
Proof.
  intros own s s' [B A O L C T M1 M2] EL EN F E1 E2 T'.
  destruct (lcore_maps _ _ EL) as [EL1 EL2]. destruct (ncore_maps _ _ EN) as [EN1 EN2]. constructor.
  - eapply base_same; eauto.
  - now rewrite EN2.
  - intros n I. destruct (in_map_eq _ _ _ _ _ _ EN I) as (n0 & I0 & E0). unfold ncore in E0. assert (n_addr n0 = n_addr n) as Q2 by congruence. now rewrite <- Q2, O.
  - intros l I. destruct (in_map_eq _ _ _ _ _ _ EL I) as (l0 & I0 & E0). unfold lcore, stat in E0.
    destruct (L _ I0) as (n & In0 & N1 & N2). destruct (in_map_eq _ _ _ _ _ _ (eq_sym EN) In0) as (n' & In' & E'). unfold ncore in E'.
    exists n'. repeat split; auto; congruence.
  - intros n I. destruct (in_map_eq _ _ _ _ _ _ EN I) as (n0 & I0 & E0). unfold ncore in E0. assert (n_id n0 = n_id n /\ n_count n0 = n_count n) as [Q1 Q3] by (split; congruence).
    rewrite (cnt_core _ _ _ EL2). rewrite <- Q3, <- Q1. now apply C.
  - exact T'.
  - now rewrite E1.
  - now rewrite E2.
Qed.

Lemma core_upd_nbr : forall i f ns, (forall n, ncore (f n) = ncore n) -> map ncore (upd_nbr i f ns) = map ncore ns.
Proof. intros i f ns H. unfold upd_nbr. rewrite map_map. apply map_ext. intro n. destruct (n_id n =? i); auto. Qed.
Lemma nbr_status_core : forall i lnk ns ns', nbr_status i lnk ns = Some ns' -> map ncore ns' = map ncore ns.
Proof.
  intros i lnk ns ns' H. unfold nbr_status in H. destruct (deref i ns); [|discriminate]. apply Some_inj in H. subst ns'.
  apply core_upd_nbr. reflexivity.
Qed.
Lemma nbr_status_live : forall i lnk ns, (exists n, In n ns /\ n_id n = i) -> nbr_status i lnk ns <> None.
Proof.
  intros i lnk ns (n & I & E) H. unfold nbr_status in H. destruct (deref i ns) eqn:D; [discriminate|].
  unfold deref in D. pose proof (find_none _ _ D _ I). cbn in *. lia.
Qed.
Lemma core_upd : forall i f ls, (forall l, In l ls -> l_id l = i -> lcore (f l) = lcore l) -> map lcore (upd_link i f ls) = map lcore ls.
Proof.
  intros i f ls H. unfold upd_link. rewrite map_map. apply map_ext_in. intros l I.
  destruct (l_id l =? i) eqn:E; [apply H; [exact I|lia]|reflexivity].
Qed.

Lemma cnt_app : forall i a b, cnt i (a ++ b) = cnt i a + cnt i b.
Proof. intros. unfold cnt. rewrite filter_app, app_length. lia. Qed.
Lemma cnt_filter : forall i l ls, NoDup (map l_id ls) -> In l ls ->
  cnt i (filter (fun x => negb (l_id x =? l_id l)) ls) = cnt i ls - (if l_nbr l =? i then 1 else 0).
Proof.
  intros i l ls. induction ls as [|x r IH]; intros N I; [easy|]. inversion N as [|? ? N1 N2]; subst.
  assert (forall y k, cnt i (y :: k) = (if l_nbr y =? i then 1 else 0) + cnt i k) as Q.
  { intros y k. unfold cnt. cbn [filter]. destruct (l_nbr y =? i); cbn [length]; lia. }
  cbn [filter]. destruct I as [->|I].
  - rewrite Z.eqb_refl. cbn [negb]. rewrite Q.
    assert (filter (fun x => negb (l_id x =? l_id l)) r = r) as ->.
    { clear -N1. induction r as [|y k IH]; [reflexivity|]. cbn in *. destruct (l_id y =? l_id l) eqn:E; [exfalso; apply N1; left; lia|].
      cbn. f_equal. apply IH. tauto. }
    lia.
  - assert (l_id x =? l_id l = false) as E.
    { apply Z.eqb_neq. intro E. apply N1. rewrite E. now apply in_map. }
    rewrite E. cbn [negb]. rewrite !Q, IH by assumption. lia.
Qed.
Lemma cnt_none : forall i ls, (forall l, In l ls -> l_nbr l <> i) -> cnt i ls = 0.
Proof.
  intros i ls H. unfold cnt. assert (filter (fun l => l_nbr l =? i) ls = []) as ->; [|reflexivity].
  induction ls as [|x r IH]; [reflexivity|]. cbn. replace (l_nbr x =? i) with false by (specialize (H x (or_introl eq_refl)); lia).
  apply IH. intros l I. apply H. now right.
Qed.
Lemma cnt_pos : forall i ls l, In l ls -> l_nbr l = i -> 1 <= cnt i ls.
Proof.
  intros i ls l I E. unfold cnt. assert (In l (filter (fun l => l_nbr l =? i) ls)) as Q by (apply filter_In; split; [exact I|lia]).
  destruct (filter _ ls); [easy|]. cbn [length]. lia.
Qed.
Lemma cnt_zero : forall i ls l, cnt i ls = 0 -> In l ls -> l_nbr l <> i.
Proof. intros i ls l C I E. pose proof (cnt_pos _ _ _ I E). lia. Qed.

Lemma delete_neq : forall a ns n, NoDup (map n_addr ns) -> In n ns -> n_addr n = a -> forall x, In x (nbr_delete a ns) <-> In x ns /\ n_addr x <> a.
Proof.
  intros a ns n N I E. induction ns as [|y r IH]; [easy|]. inversion N as [|? ? N1 N2]; subst. intro x. cbn [nbr_delete].
  destruct (n_addr y =? n_addr n) eqn:Q.
  - split.
    + intro J. split; [now right|]. intro Z0. apply N1. replace (n_addr y) with (n_addr x) by lia. now apply in_map.
    + intros [[->|J] Z0]; [lia|exact J].
  - destruct I as [->|I]; [lia|]. split.
    + intros [->|J]; [split; [now left|lia]|]. apply (IH N2 I) in J. split; [right|]; tauto.
    + intros [[->|J] Z0]; [now left|right]. apply (IH N2 I). tauto.
Qed.
Lemma same_nid : forall ns a b, NoDup (map n_id ns) -> In a ns -> In b ns -> n_id a = n_id b -> a = b.
Proof. intros ns a b N I J E. pose proof (deref_of _ _ N I) as A. pose proof (deref_of _ _ N J) as B. rewrite E in A. congruence. Qed.
Lemma same_naddr : forall ns a b, NoDup (map n_addr ns) -> In a ns -> In b ns -> n_addr a = n_addr b -> a = b.
Proof.
  intros ns. induction ns as [|x r IH]; intros a b N I J E; [easy|]. inversion N as [|? ? N1 N2]; subst.
  destruct I as [->|I], J as [->|J]; auto.
  - exfalso. apply N1. rewrite E. now apply in_map.
  - exfalso. apply N1. rewrite <- E. now apply in_map.
Qed.

Lemma sane_delete : forall own s l, sane own s -> In l (links s) -> exists s', delete_link s l = Some s' /\ sane own s' /\
  links s' = filter (fun x => negb (l_id x =? l_id l)) (links s).
Proof.
  intros own s l SN I. pose proof SN as [B A O L C T M1 M2]. destruct (L _ I) as (n & In0 & N1 & N2).
  pose proof (deref_of _ _ (b_nids _ B) In0) as D. rewrite N1 in D.
  destruct (delete_link s l) as [s'|] eqn:DL; [|unfold delete_link in DL; rewrite D in DL; discriminate].
  exists s'. split; [reflexivity|]. pose proof (base_delete_link _ _ _ B DL) as B'.
  unfold delete_link in DL. rewrite D in DL. apply Some_inj in DL. cbv zeta in DL.
  assert (links s' = filter (fun x => negb (l_id x =? l_id l)) (links s)) as EL by now subst s'.
  split; [|exact EL].
  destruct (C _ In0) as [C1 C2]. rewrite N1 in C1.
  assert (forall x, In x (links s') <-> In x (links s) /\ l_id x <> l_id l) as IL.
  { intro x. rewrite EL, filter_In. split; intros [H1 H2]; (split; [exact H1|]); lia. }
  destruct (n_count n =? 1) eqn:Q.
  - assert (forall x, In x (nbrs s') <-> In x (nbrs s) /\ n_addr x <> n_addr n) as IN.
    { intro x. subst s'. cbn [nbrs set_nbrs set_links]. now apply (delete_neq _ _ n). }
    assert (forall x, In x (links s') -> l_nbr x <> n_id n) as NO.
    { intros x Ix. apply (cnt_zero (n_id n) (links s')); [|exact Ix]. rewrite EL, cnt_filter; [|apply (b_ids _ B)|exact I].
      rewrite N1, Z.eqb_refl, <- C1. lia. }
    constructor; [exact B'| | | | | | |].
    + subst s'. cbn. now apply nbr_delete_nodup.
    + intros x Ix. apply IN in Ix. apply O, Ix.
    + intros x Ix. pose proof (NO _ Ix) as NX. apply IL in Ix. destruct (L _ (proj1 Ix)) as (n' & J1 & J2 & J3).
      exists n'. split; [|auto]. apply IN. split; [exact J1|]. intro E. apply NX.
      rewrite <- J2. f_equal. now apply (same_naddr (nbrs s)).
    + intros x Ix. apply IN in Ix. destruct Ix as [Ix Ne]. destruct (C _ Ix) as [K1 K2]. split; [|exact K2].
      rewrite EL, cnt_filter; [|apply (b_ids _ B)|exact I]. replace (l_nbr l =? n_id x) with false; [lia|].
      symmetry. apply Z.eqb_neq. intro E. apply Ne. f_equal. apply (same_nid (nbrs s)); [apply (b_nids _ B)|exact Ix|exact In0|congruence].
    + intros x Ix. apply IL in Ix. apply T, Ix.
    + subst s'. exact M1.
    + subst s'. exact M2.
  - assert (nbrs s' = upd_nbr (n_id n) (set_ncount (n_count n - 1)) (nbrs s)) as EN by now subst s'.
    constructor; [exact B'| | | | | | |].
    + rewrite EN. unfold upd_nbr. rewrite map_map. rewrite (map_ext _ n_addr); [exact A|]. intro x. destruct (n_id x =? n_id n); reflexivity.
    + intros x Ix. rewrite EN in Ix. apply in_map_iff in Ix. destruct Ix as (y & <- & Iy). destruct (n_id y =? n_id n); now apply O in Iy.
    + intros x Ix. apply IL in Ix. destruct (L _ (proj1 Ix)) as (n' & J1 & J2 & J3). rewrite EN.
      exists (if n_id n' =? n_id n then set_ncount (n_count n - 1) n' else n'). split; [unfold upd_nbr; apply in_map_iff; eauto|].
      destruct (n_id n' =? n_id n); auto.
    + intros x Ix. rewrite EN in Ix. apply in_map_iff in Ix. destruct Ix as (y & <- & Iy). destruct (C _ Iy) as [K1 K2].
      rewrite EL, cnt_filter; [|apply (b_ids _ B)|exact I].
      destruct (n_id y =? n_id n) eqn:E; cbn [set_ncount n_id n_count].
      * assert (y = n) as -> by (apply (same_nid (nbrs s)); [apply (b_nids _ B)|exact Iy|exact In0|lia]).
        replace (l_nbr l =? n_id n) with true by lia. rewrite K1. rewrite K1 in Q, K2. lia.
      * replace (l_nbr l =? n_id y) with false by lia. lia.
    + intros x Ix. apply IL in Ix. apply T, Ix.
    + subst s'. exact M1.
    + subst s'. exact M2.
Qed.

Lemma sane_delete_all : forall own ls a s, sane own s -> (forall l, In l ls -> In l (links s)) -> NoDup (map l_id ls) ->
  exists s', delete_all ls a s = Some s' /\ sane own s'.
Proof.
  intros own ls a. induction ls as [|l r IH]; intros s SN IN ND; [exists s; auto|].
  inversion ND as [|? ? N1 N2]; subst. cbn [delete_all]. destruct (l_local l =? a).
  - destruct (sane_delete own s l SN (IN _ (or_introl eq_refl))) as (s1 & E & SN1 & EL). rewrite E. apply IH; [exact SN1| |exact N2].
    intros x Ix. rewrite EL. apply filter_In. split; [apply IN; now right|]. apply negb_true_iff, Z.eqb_neq. intro Q. apply N1. rewrite <- Q. now apply in_map.
  - apply IH; [exact SN| |exact N2]. intros x Ix. apply IN. now right.
Qed.

Lemma sane_lookup_none : forall a ns, nbr_lookup_alias a ns = None -> forall n, In n ns -> n_addr n <> a.
Proof. intros a ns H n I. unfold nbr_lookup_alias in H. pose proof (find_none _ _ H _ I). cbn in *. lia. Qed.
Lemma sane_lookup_some : forall a ns n, nbr_lookup_alias a ns = Some n -> In n ns /\ n_addr n = a.
Proof. intros a ns n H. unfold nbr_lookup_alias in H. apply find_some in H. cbn in H. split; [tauto|lia]. Qed.

Lemma sane_add : forall own c now s ifc remote vt r, (forall x, own (own x) = own x) ->
  0 <= rmax c < 2147483648 -> 0 <= now < 4294967296 -> 2 <= vt < 536870912 -> 0 <= r <= rmax c -> sane own s ->
  exists s' i, add_link c now s ifc remote (own remote) vt r = Some (s', i) /\ sane own s' /\ exists l, get_link i (links s') = Some l.
Proof.
  intros own c now s ifc remote vt r OO Hm Hn Hv Hr SN. pose proof SN as [B A O L C T M1 M2].
  assert (set_tm c now vt OLSR_LINK_JITTER r <> None) as TM.
  { rewrite <- (u32_small now Hn). destruct (set_tm_spec c now vt OLSR_LINK_JITTER r Hm) as (d & E & _); [lia|unfold OLSR_LINK_JITTER; lia|exact Hr|]. now rewrite E. }
  destruct (add_link c now s ifc remote (own remote) vt r) as [[s' i]|] eqn:AD.
  2: { exfalso. unfold add_link, lookup_link_main in AD. destruct (lookup_link remote (i_name ifc) (links s)) as [l|] eqn:LL.
       - apply find_some in LL. destruct LL as [I K]. destruct (L _ I) as (n & In0 & N1 & N2).
         pose proof (deref_of _ _ (b_nids _ B) In0) as D. rewrite N1 in D. rewrite D in AD. destruct (n_addr n =? own remote); discriminate.
       - destruct (match nbr_lookup _ _ with Some n => _ | None => _ end); discriminate. }
  exists s', i. split; [reflexivity|]. pose proof (base_add_link _ _ _ _ _ _ _ _ _ _ B AD) as B'.
  unfold add_link, lookup_link_main in AD. destruct (lookup_link remote (i_name ifc) (links s)) as [l|] eqn:LL.
  - apply find_some in LL. destruct LL as [I K]. apply key_spec in K. destruct (L _ I) as (n & In0 & N1 & N2).
    pose proof (deref_of _ _ (b_nids _ B) In0) as D. rewrite N1 in D. rewrite D in AD.
    rewrite (proj1 K) in N2. replace (n_addr n =? own remote) with true in AD by lia. inversion AD; subst s' i.
    split; [exact SN|]. exists l. apply get_link_nodup; [apply (b_ids _ B)|exact I|reflexivity].
  - cbn [fresh links nbrs] in AD.
    set (s2 := mkL (links s) (nbrs s) (fresh s + 1) (ifs s) (mid_main s) (mid_ali s)) in *.
    set (nl := fun n => mkLink (fresh s) (i_addr ifc) remote (i_name ifc) n ASYM_LINK None 0 (set_tm c now vt OLSR_LINK_JITTER r)
                 (use_hyst c) (if use_hyst c then getTimestamp now vt else 0) LINK_COST_BROKEN).
    assert (nbr_lookup s2 (own remote) = nbr_lookup_alias (own remote) (nbrs s)) as NL.
    { unfold nbr_lookup. cbn [s2 mid_main nbrs]. destruct (mid_main s (own remote)) as [y|] eqn:Q; [|reflexivity].
      apply M1 in Q. rewrite Q, OO. reflexivity. }
    rewrite NL in AD. unfold nbr_insert in AD. cbn [s2 nbrs] in AD.
    destruct (nbr_lookup_alias (own remote) (nbrs s)) as [n|] eqn:Q.
    + inversion AD; subst s' i. clear AD. cbn [links set_nbrs set_links s2 nbrs fresh mid_main mid_ali] in *. apply sane_lookup_some in Q. destruct Q as [In0 N2].
      fold (nl (n_id n)) in *. split.
      * constructor; [exact B'| | | | | | |]; cbn [links set_nbrs set_links s2 nbrs fresh mid_main mid_ali].
        -- unfold upd_nbr. rewrite map_map. rewrite (map_ext _ n_addr); [exact A|]. intro x. destruct (n_id x =? n_id n); reflexivity.
        -- intros x Ix. apply in_map_iff in Ix. destruct Ix as (y & <- & Iy). destruct (n_id y =? n_id n); now apply O in Iy.
        -- intros x Ix. assert (exists n', In n' (nbrs s) /\ n_id n' = l_nbr x /\ n_addr n' = own (l_remote x)) as (n' & J1 & J2 & J3).
           { apply in_app_or in Ix. destruct Ix as [Ix|[<-|[]]]; [now apply L|]. exists n. auto. }
           eexists. split; [unfold upd_nbr; apply in_map_iff; exists n'; split; [reflexivity|exact J1]|]. destruct (n_id n' =? n_id n); auto.
        -- intros x Ix. apply in_map_iff in Ix. destruct Ix as (y & <- & Iy). destruct (C _ Iy) as [K1 K2]. rewrite cnt_app.
           unfold cnt at 2. cbn [filter nl l_nbr]. destruct (n_id y =? n_id n) eqn:E; cbn [set_ncount n_id n_count].
           ++ replace (n_id n =? n_id y) with true by lia. cbn [length]. lia.
           ++ replace (n_id n =? n_id y) with false by lia. cbn [length]. lia.
        -- intros x Ix. apply in_app_or in Ix. destruct Ix as [Ix|[<-|[]]]; [now apply T|exact TM].
        -- exact M1.
        -- exact M2.
      * exists (nl (n_id n)). apply get_link_nodup; [apply (b_ids _ B')|cbn; apply in_or_app; right; now left|reflexivity].
    + pose proof (sane_lookup_none _ _ Q) as Q'. pose proof (b_nlt _ B) as NLT. rewrite Forall_forall in NLT.
      assert (upd_nbr (fresh s + 1) (fun x => set_ncount (n_count x + 1) x) (mkNbr (fresh s + 1) (own remote) NOT_SYM 0 :: nbrs s)
        = mkNbr (fresh s + 1) (own remote) NOT_SYM 1 :: nbrs s) as EN.
      { unfold upd_nbr. cbn [map n_id n_count]. rewrite Z.eqb_refl. cbn [set_ncount n_id n_addr n_status n_count]. f_equal.
        etransitivity; [|apply map_id]. apply map_ext_in. intros x Ix. specialize (NLT _ Ix). now replace (n_id x =? fresh s + 1) with false by lia. }
      unfold s2 in AD. cbn [links nbrs fresh ifs mid_main mid_ali] in AD. rewrite EN in AD. fold (nl (fresh s + 1)) in AD.
      set (nn := mkNbr (fresh s + 1) (own remote) NOT_SYM 1) in *.
      inversion AD; subst s' i. clear AD.
      split.
      * constructor; [exact B'| | | | | | |]; cbn [links set_nbrs set_links s2 nbrs fresh mid_main mid_ali].
        -- cbn [map n_addr nn]. constructor; [|exact A]. intro J. apply in_map_iff in J. destruct J as (x & E & J). now apply (Q' x).
        -- intros x [<-|Ix]; [apply OO|now apply O].
        -- intros x Ix. apply in_app_or in Ix. destruct Ix as [Ix|[<-|[]]].
           ++ destruct (L _ Ix) as (n' & J1 & J2 & J3). exists n'. split; [now right|auto].
           ++ exists nn. split; [now left|auto].
        -- intros x [<-|Ix].
           ++ cbn [n_count n_id nn]. rewrite cnt_app. rewrite cnt_none.
              ** unfold cnt. cbn [filter nl l_nbr]. rewrite Z.eqb_refl. cbn [length]. lia.
              ** intros l Il. destruct (L _ Il) as (n' & J1 & J2 & J3). specialize (NLT _ J1). lia.
           ++ destruct (C _ Ix) as [K1 K2]. specialize (NLT _ Ix). rewrite cnt_app. unfold cnt at 2. cbn [filter nl l_nbr].
              replace (fresh s + 1 =? n_id x) with false by lia. cbn [length]. lia.
        -- intros x Ix. apply in_app_or in Ix. destruct Ix as [Ix|[<-|[]]]; [now apply T|exact TM].
        -- exact M1.
        -- exact M2.
      * exists (nl (fresh s + 1)). apply get_link_nodup; [apply (b_ids _ B')|cbn; apply in_or_app; right; now left|reflexivity].
Qed.

Lemma sane_nbr_status : forall own s i lnk, sane own s -> (exists n, In n (nbrs s) /\ n_id n = i) ->
  exists ns, nbr_status i lnk (nbrs s) = Some ns /\ sane own (set_nbrs ns s) /\ map ncore ns = map ncore (nbrs s).
Proof.
  intros own s i lnk SN E. destruct (nbr_status i lnk (nbrs s)) as [ns|] eqn:N; [|exfalso; now apply nbr_status_live in N].
  exists ns. split; [reflexivity|]. pose proof (nbr_status_core _ _ _ _ N) as C. split; [|exact C].
  eapply sane_core; [exact SN|reflexivity|exact C|reflexivity|reflexivity|reflexivity|apply (s_tm _ _ SN)].
Qed.
Lemma sane_live : forall own s l, sane own s -> In l (links s) -> exists n, In n (nbrs s) /\ n_id n = l_nbr l.
Proof. intros own s l SN I. destruct (s_link _ _ SN _ I) as (n & H & E & _). eauto. Qed.
Lemma sane_upd : forall own s i f, sane own s ->
  (forall l, In l (links s) -> l_id l = i -> lcore (f l) = lcore l /\ l_timer (f l) <> None) ->
  sane own (set_links (upd_link i f (links s)) s).
Proof.
  intros own s i f SN H. eapply sane_core; [exact SN| |reflexivity|reflexivity|reflexivity|reflexivity|].
  - cbn. apply core_upd. intros l I E. now apply H.
  - cbn. intros l I. apply in_map_iff in I. destruct I as (x & <- & I). destruct (l_id x =? i) eqn:E; [apply H; [exact I|lia]|now apply (s_tm _ _ SN)].
Qed.
Lemma live_upd : forall own s i f k, sane own s -> (exists n, In n (nbrs s) /\ n_id n = k) ->
  exists n, In n (nbrs (set_links (upd_link i f (links s)) s)) /\ n_id n = k.
Proof. auto. Qed.

Lemma refresh_timer : forall c now vt st r l, 0 <= rmax c < 2147483648 -> 0 <= now < 4294967296 -> 2 <= vt < 536870912 -> 0 <= r <= rmax c ->
  l_timer l <> None -> l_timer (refresh c now vt st r l) <> None /\
  l_sym (refresh c now vt st r l) = (if st =? 3 then None else if (st =? 1) || (st =? 2) then Some (u32 (now + vt)) else l_sym l).
Proof.
  intros c now vt st r l Hm Hn Hv Hr HT. destruct (refresh_spec c now vt st r l Hm Hv Hr HT) as (_ & S1 & T).
  rewrite (u32_small now Hn) in *. split; [|exact S1]. destruct T as [->|(d & -> & _)]; [exact HT|discriminate].
Qed.
Lemma process_hyst_live : forall now q l, l_timer l <> None -> exists l', process_hyst now q l = Some l'.
Proof. intros now q l H. unfold process_hyst. destruct (q =? 1); [eauto|]. destruct (q =? -1); [|eauto]. destruct (l_timer l); [eauto|easy]. Qed.

Lemma sane_hello : forall own c now s ifc remote vt msg r q, (forall x, own (own x) = own x) ->
  0 <= rmax c < 2147483648 -> 0 <= now < 4294967296 -> 2 <= vt < 536870912 -> 0 <= r <= rmax c -> sane own s ->
  exists s' i, update_link c now s ifc remote (own remote) vt msg r q = Some (s', i) /\ sane own s'.
Proof.
  intros own c now s ifc remote vt msg r q OO Hm Hn Hv Hr SN.
  destruct (sane_add own c now s ifc remote vt r OO Hm Hn Hv Hr SN) as (s1 & i & AD & SN1 & l & G).
  unfold update_link. rewrite AD, G. cbv zeta. set (st := check_link_status UNSPEC_LINK msg (i_addr ifc)).
  pose proof (get_link_in _ _ _ G) as [I Ei]. pose proof (s_tm _ _ SN1 _ I) as HT.
  destruct (refresh_timer c now vt st r l Hm Hn Hv Hr HT) as [RT _]. destruct (refresh_stat c now vt st r l) as [R1 R2].
  assert (exists l2, (if use_hyst c then process_hyst now q (refresh c now vt st r l) else Some (refresh c now vt st r l)) = Some l2 /\
    lcore l2 = lcore l /\ l_timer l2 <> None) as (l2 & E2 & C2 & T2).
  { destruct (use_hyst c).
    - destruct (process_hyst_live now q _ RT) as (l2 & E). exists l2. split; [exact E|]. apply process_hyst_stat in E.
      destruct E as (P1 & P2 & P3 & _). unfold lcore, dyn in *. split; [congruence|]. inversion P2. congruence.
    - eexists. split; [reflexivity|]. unfold lcore. split; [congruence|exact RT]. }
  rewrite E2. set (s2 := set_links (upd_link i (fun _ => l2) (links s1)) s1).
  assert (sane own s2) as SN2.
  { apply sane_upd; [exact SN1|]. intros x Ix Ex. split; [|exact T2]. rewrite C2. f_equal.
    apply (same_id (links s1)); [apply (b_ids _ (s_base _ _ SN1))|exact I|exact Ix|congruence]. }
  destruct (sane_nbr_status own s2 (l_nbr l2) (get_nbr_status c now s2 remote) SN2) as (ns & E & SN3 & _).
  { apply (sane_live own s1 l SN1) in I. unfold lcore in C2. destruct I as (n & I & En). exists n. split; [exact I|congruence]. }
  rewrite E. eauto.
Qed.

Lemma sane_expire_sym : forall own c now s i, sane own s -> (exists l, get_link i (links s) = Some l) ->
  exists s', expire_sym c now s i = Some s' /\ sane own s' /\ map lcore (links s') = map lcore (links s) /\ map ncore (nbrs s') = map ncore (nbrs s).
Proof.
  intros own c now s i SN (l & G). unfold expire_sym. rewrite G. pose proof (get_link_in _ _ _ G) as [I Ei].
  set (s1 := set_links (upd_link i (set_sym None) (links s)) s).
  assert (sane own s1) as SN1 by (apply sane_upd; [exact SN|]; intros x Ix _; split; [reflexivity|now apply (s_tm _ _ SN) in Ix]).
  assert (map lcore (links s1) = map lcore (links s)) as C1 by (apply core_upd; reflexivity).
  destruct (negb (l_prev l =? SYM_LINK)); [exists s1; auto|].
  set (p := link_status _ _ _ _). set (s2 := set_links (upd_link i (set_prev p) (links s1)) s1).
  assert (sane own s2) as SN2 by (apply sane_upd; [exact SN1|]; intros x Ix _; split; [reflexivity|now apply (s_tm _ _ SN1) in Ix]).
  assert (map lcore (links s2) = map lcore (links s)) as C2 by (rewrite <- C1; apply core_upd; reflexivity).
  destruct (sane_nbr_status own s2 (l_nbr l) (get_nbr_status c now s2 (l_remote l)) SN2) as (ns & E & SN3 & N3); [now apply (sane_live own s)|].
  rewrite E. eexists. split; [reflexivity|]. auto.
Qed.

Lemma sane_reset1 : forall own now ls s, sane own s -> (forall l, In l ls -> exists n, In n (nbrs s) /\ n_id n = l_nbr l) ->
  exists s', reset1 now ls s = Some s' /\ sane own s'.
Proof.
  intros own now ls. induction ls as [|l r IH]; intros s SN H; [exists s; auto|]. cbn [reset1].
  destruct (H l (or_introl eq_refl)) as (n & In0 & En). pose proof (deref_of _ _ (b_nids _ (s_base _ _ SN)) In0) as D. rewrite En in D. rewrite D.
  match goal with |- context [reset1 now r ?x] => set (s1 := x) end.
  assert (map ncore (nbrs s1) = map ncore (nbrs s)) as C1 by (apply core_upd_nbr; reflexivity).
  apply IH.
  - eapply sane_core; [exact SN| |exact C1|reflexivity|reflexivity|reflexivity|].
    + cbn. apply core_upd. reflexivity.
    + cbn. intros x Ix. apply in_map_iff in Ix. destruct Ix as (y & <- & Iy). apply (s_tm _ _ SN) in Iy. now destruct (l_id y =? l_id l).
  - intros x Ix. destruct (H x (or_intror Ix)) as (n' & I' & E'). destruct (in_map_eq _ _ _ _ _ _ (eq_sym C1) I') as (n2 & I2 & E2).
    unfold ncore in E2. exists n2. split; [exact I2|congruence].
Qed.
Lemma get_link_ids : forall i ls ls', map l_id ls' = map l_id ls -> (exists l, get_link i ls = Some l) -> exists l, get_link i ls' = Some l.
Proof.
  intros i ls ls' E (l & G). apply get_link_in in G. destruct G as [I Ei]. destruct (in_map_eq _ _ _ _ _ _ (eq_sym E) I) as (x & Ix & Ex).
  unfold get_link. destruct (find (fun l => l_id l =? i) ls') as [y|] eqn:F; [eauto|]. pose proof (find_none _ _ F _ Ix). cbn in *. lia.
Qed.
Lemma lcore_ids : forall ls ls', map lcore ls' = map lcore ls -> map l_id ls' = map l_id ls.
Proof.
  intros ls ls' E. assert (forall k, map l_id k = map (fun x => fst (fst (fst (fst x)))) (map lcore k)) as Q by (intro; rewrite map_map; reflexivity).
  now rewrite !Q, E.
Qed.
Lemma sane_reset2 : forall own c now ls s, sane own s -> (forall l, In l ls -> exists x, get_link (l_id l) (links s) = Some x) ->
  exists s', reset2 c now ls s = Some s' /\ sane own s'.
Proof.
  intros own c now ls. induction ls as [|l r IH]; intros s SN H; [exists s; auto|]. cbn [reset2].
  destruct (sane_expire_sym own c now s (l_id l) SN (H l (or_introl eq_refl))) as (s1 & E & SN1 & C1 & _). rewrite E.
  apply IH; [exact SN1|]. intros x Ix. eapply get_link_ids; [apply lcore_ids; exact C1|]. apply H. now right.
Qed.

Lemma delete_upd : forall s l f, In l (links s) -> (forall x, l_id (f x) = l_id x) -> (forall x, l_nbr (f x) = l_nbr x) ->
  delete_link (set_links (upd_link (l_id l) f (links s)) s) (f l) = delete_link s l.
Proof.
  intros s l f I F1 F2. unfold delete_link. cbn [nbrs set_links links]. rewrite F1, F2. destruct (deref (l_nbr l) (nbrs s)); [|reflexivity].
  do 2 f_equal. cbv zeta. unfold set_nbrs, set_links. cbn [links nbrs fresh ifs mid_main mid_ali]. f_equal.
  generalize (links s). intro ls. induction ls as [|x r IH]; [reflexivity|]. cbn [upd_link map filter].
  destruct (l_id x =? l_id l) eqn:E.
  - rewrite F1, E. cbn [negb]. exact IH.
  - rewrite E. cbn [negb]. now rewrite <- IH.
Qed.
Lemma expire_link_eq : forall s i l, get_link i (links s) = Some l -> expire_link s i = delete_link s l.
Proof.
  intros s i l G. unfold expire_link. rewrite G. pose proof (get_link_in _ _ _ G) as [I <-]. apply (delete_upd s l (set_timer None)); auto.
Qed.

Lemma sane_alias : forall own s main alias, (forall x, own (own x) = own x) -> sane own s -> main = own alias -> alias <> main ->
  insert_alias s main alias = s.
Proof.
  intros own s main alias OO SN E NE.
  assert (forall a, own a = main -> a <> main -> nbr_lookup_alias a (nbrs s) = None) as K.
  { intros a Ea Na. destruct (nbr_lookup_alias a (nbrs s)) as [n|] eqn:Q; [|reflexivity]. apply sane_lookup_some in Q. destruct Q as [I En].
    apply (s_own _ _ SN) in I. congruence. }
  assert (alias_old s main alias = s) as EO by (unfold alias_old; rewrite K; congruence).
  unfold insert_alias. cbv zeta. rewrite EO. destruct (match mid_main s alias with Some m => _ | None => _ end); [reflexivity|].
  assert (forall l, (forall a, In a l -> own a = main /\ a <> main) -> fold_left (alias_dup main) l s = s) as F.
  { induction l as [|a l IH]; intro H; [reflexivity|]. cbn [fold_left]. unfold alias_dup at 2. destruct (H a (or_introl eq_refl)) as [H1 H2].
    rewrite (K a H1 H2). apply IH. intros b Ib. apply H. now right. }
  apply F. intros a [<-|I]; [auto|]. apply (s_ali _ _ SN) in I. split; [symmetry|]; tauto.
Qed.

Lemma sane_step : forall own c now s e, (forall x, own (own x) = own x) -> 0 <= rmax c < 2147483648 -> 0 <= now < 4294967296 ->
  event_ok c e -> sane_event own s e -> possible now s e = true -> sane own s -> exists s', lstep c now s e = Some s' /\ sane own s'.
Proof.
  intros own c now s e OO Hm Hn EO SE PO SN. destruct e as [ifc remote main vt msg r q|i|i|i q|main alias|a| |i cost|l|m a]; cbn [lstep sane_event event_ok possible] in *.
  - subst main. destruct EO as (V & R & _). destruct (sane_hello own c now s ifc remote vt msg r q OO Hm Hn V R SN) as (s' & i & E & SN'). rewrite E. eauto.
  - destruct (get_link i (links s)) as [l|] eqn:G; [|discriminate]. destruct (sane_expire_sym own c now s i SN) as (s' & E & SN' & _); eauto.
  - destruct (get_link i (links s)) as [l|] eqn:G; [|discriminate]. rewrite (expire_link_eq _ _ _ G). apply get_link_in in G.
    destruct (sane_delete own s l SN (proj1 G)) as (s' & E & SN' & _). eauto.
  - destruct (get_link i (links s)) as [l|] eqn:G; [|discriminate]. unfold expire_hello. rewrite G. apply get_link_in in G. destruct G as [I Ei].
    pose proof (s_tm _ _ SN _ I) as HT. destruct (process_hyst_live now q l HT) as (l2 & E). rewrite E.
    apply process_hyst_stat in E. destruct E as (P1 & P2 & P3 & _).
    set (s2 := set_links (upd_link i (fun _ => l2) (links s)) s).
    assert (sane own s2) as SN2.
    { apply sane_upd; [exact SN|]. intros x Ix Ex. assert (x = l) as -> by (apply (same_id (links s)); [apply (b_ids _ (s_base _ _ SN))|exact Ix|exact I|congruence]).
      unfold lcore, dyn in *. split; [congruence|]. inversion P2. congruence. }
    destruct (sane_nbr_status own s2 (l_nbr l2) (get_nbr_status c now s2 (l_remote l2)) SN2) as (ns & En & SN3 & _).
    { apply (sane_live own s l SN) in I. now rewrite P3. }
    rewrite En. eauto.
  - rewrite (sane_alias own s main alias OO SN (proj1 SE) (proj2 SE)). eauto.
  - apply sane_delete_all; [exact SN|auto|apply (b_ids _ (s_base _ _ SN))].
  - unfold reset_all. destruct (sane_reset1 own now (links s) s SN) as (s1 & E & SN1); [intros l I; now apply (sane_live own s)|]. rewrite E.
    apply sane_reset2; [exact SN1|]. intros l I. exists l. apply get_link_nodup; [apply (b_ids _ (s_base _ _ SN1))|exact I|reflexivity].
  - eexists. split; [reflexivity|]. apply sane_upd; [exact SN|]. intros x Ix _. split; [reflexivity|now apply (s_tm _ _ SN) in Ix].
  - eexists. split; [reflexivity|]. destruct SN as [[] ? ? ? ? ? ? ?]. constructor; auto. constructor; auto.
  - eexists. split; [reflexivity|]. destruct SN as [[] ? ? ? ? ? ? ?]. destruct SE. constructor; auto. constructor; auto.
Qed.

Lemma sane_ifs : forall own s l, sane own s -> sane own (mkL (links s) (nbrs s) (fresh s) l (mid_main s) (mid_ali s)).
Proof. intros own s l SN. destruct SN as [[] ? ? ? ? ? ? ?]. constructor; auto. constructor; auto. Qed.
Lemma sane_init : forall own, sane own linit.
Proof. intro own. constructor; cbn; try easy; try apply base_init; constructor. Qed.
Lemma prun_sane : forall own c s, (forall x, own (own x) = own x) -> 0 <= rmax c < 2147483648 -> prun c (sane_event own) s -> sane own s.
Proof.
  intros own c s OO Hm H. induction H as [|s now e s' H IH Hn EO SE PO E]; [apply sane_init|].
  destruct (sane_step own c now s e OO Hm Hn EO SE PO IH) as (s2 & E2 & SN2). congruence.
Qed.
Lemma sane_consistent : forall own s, sane own s -> consistent s.
Proof.
  intros own s [B A O L C T M1 M2]. split; [|split; [|split]]; auto; [|apply (b_nids _ B)].
  intros l I. destruct (L _ I) as (n & I1 & E1 & _). eauto.
Qed.

(** ** the status of neighbors *)
Definition has_sym (k : Z) (ls : list link) : Prop := exists l, In l ls /\ l_nbr l = k /\ l_sym l <> None.
Definition mark1 (s : lstate) (n : nbr) : Prop := n_status n = 1 <-> has_sym (n_id n) (links s).

Record quiet (P : nbr -> Prop) (s : lstate) : Prop := mkQuiet {
  q_sane : sane (fun x => x) s;
  q_main : forall x, mid_main s x = None;
  q_ali : forall x, mid_ali s x = [];
  q_if : forall l, In l (links s) -> exists i, In i (ifs s) /\ i_name i = l_if l;
  q_prev : forall l, In l (links s) -> l_sym l <> None -> l_prev l = 2;
  q_mark : forall n, In n (nbrs s) -> P n -> mark1 s n }.

Lemma mark_iff : forall s n, quiet (fun _ => True) s -> In n (nbrs s) -> (n_status n = 1 <-> has_sym (n_id n) (links s)).
Proof. intros s n Q I. exact (q_mark _ _ Q n I Logic.I). Qed.

Lemma keys_base : forall s l, base s -> In l (links s) -> lookup_link (l_remote l) (l_if l) (links s) = Some l.
Proof.
  intros s l B I. pose proof (b_keys _ B) as K. revert I K. generalize (links s) as ls. intro ls. induction ls as [|x r IH]; intros I K; [easy|].
  inversion K as [|? ? K1 K2]; subst. unfold lookup_link. cbn [find]. destruct I as [->|I].
  - unfold key. now rewrite !Z.eqb_refl.
  - destruct (key (l_remote l) (l_if l) x) eqn:Q; [|now apply IH].
    exfalso. apply K1. apply key_spec in Q. destruct Q as [Q1 Q2]. rewrite Q1, Q2. apply in_map_iff. now exists l.
Qed.
Lemma plain_sym : forall c now ls l, In l ls -> use_hyst c = false -> (link_status c now ls l = 2 <-> l_sym l <> None).
Proof.
  intros c now ls l I H. unfold link_status. rewrite H. destruct ls; [easy|]. cbn [andb].
  destruct (l_sym l); [unfold SYM_LINK; split; [discriminate|reflexivity]|]. split; [|easy].
  destruct (negb _); unfold ASYM_LINK, LOST_LINK; lia.
Qed.
Lemma get_status_quiet : forall P c now s a, use_hyst c = false -> quiet P s ->
  (get_nbr_status c now s a = 2 <-> exists l, In l (links s) /\ l_remote l = a /\ l_sym l <> None).
Proof.
  intros P c now s a Hh Q. unfold get_nbr_status. rewrite (q_main _ _ Q). cbv zeta. rewrite (q_ali _ _ Q).
  match goal with |- context [if ?b then _ else _] => destruct b eqn:E end.
  - split; [intros _|reflexivity]. apply existsb_exists in E. destruct E as (i & Ii & E). cbn [existsb] in E. rewrite orb_false_r in E.
    destruct (lookup_link a (i_name i) (links s)) as [l|] eqn:L; [|discriminate]. apply find_some in L. destruct L as [I K]. apply key_spec in K.
    exists l. split; [exact I|]. split; [tauto|]. apply (plain_sym c now (links s)); [exact I|exact Hh|]. unfold SYM_LINK in E. lia.
  - split; [discriminate|]. intros (l & I & R & S1). exfalso.
    destruct (q_if _ _ Q _ I) as (i & Ii & En). rewrite <- not_true_iff_false in E. apply E. apply existsb_exists. exists i. split; [exact Ii|].
    cbn [existsb]. rewrite orb_false_r, <- R, En, (keys_base s l (s_base _ _ (q_sane _ _ Q)) I).
    apply (plain_sym c now (links s)) in S1; [|exact I|exact Hh]. unfold SYM_LINK. lia.
Qed.

Lemma nbr_status_in : forall i lnk ns ns' n', nbr_status i lnk ns = Some ns' -> In n' ns' ->
  exists n, In n ns /\ n_id n' = n_id n /\ n_addr n' = n_addr n /\ n_status n' = (if n_id n =? i then if lnk =? 2 then 1 else 0 else n_status n).
Proof.
  intros i lnk ns ns' n' H I. unfold nbr_status in H. destruct (deref i ns); [|discriminate]. apply Some_inj in H. subst ns'.
  apply in_map_iff in I. destruct I as (n0 & <- & I). exists n0. split; [exact I|]. destruct (n_id n0 =? i); auto.
Qed.

Lemma quiet_mark : forall c now s k a ns, use_hyst c = false -> quiet (fun n => n_id n <> k) s ->
  (exists n, In n (nbrs s) /\ n_id n = k /\ n_addr n = a) ->
  nbr_status k (get_nbr_status c now s a) (nbrs s) = Some ns -> quiet (fun _ => True) (set_nbrs ns s).
Proof.
  intros c now s k a ns Hh Q (n & I & Ek & Ea) E. pose proof (q_sane _ _ Q) as SN. pose proof (nbr_status_core _ _ _ _ E) as CN.
  constructor; try apply Q.
  - eapply sane_core; [exact SN|reflexivity|exact CN|reflexivity|reflexivity|reflexivity|apply (s_tm _ _ SN)].
  - intros n' I' _. destruct (nbr_status_in _ _ _ _ _ E I') as (n0 & I0 & E1 & E2 & E3). unfold mark1. rewrite E3, E1. cbn [links set_nbrs].
    destruct (n_id n0 =? k) eqn:K.
    + pose proof (get_status_quiet _ c now s a Hh Q) as G.
      assert ((exists l, In l (links s) /\ l_remote l = a /\ l_sym l <> None) <-> has_sym (n_id n0) (links s)) as W.
      { assert (n0 = n) as -> by (apply (same_nid (nbrs s)); [apply (b_nids _ (s_base _ _ SN))|exact I0|exact I|lia]).
        split; intros (l & Il & H1 & H2); exists l; (split; [exact Il|]); (split; [|exact H2]); destruct (s_link _ _ SN _ Il) as (m & Im & M1 & M2).
        - rewrite <- M1. f_equal. apply (same_naddr (nbrs s)); [apply (s_addr _ _ SN)|exact Im|exact I|congruence].
        - assert (m = n) by (apply (same_nid (nbrs s)); [apply (b_nids _ (s_base _ _ SN))|exact Im|exact I|congruence]). congruence. }
      rewrite <- W, <- G. destruct (get_nbr_status c now s a =? 2) eqn:Z2; lia.
    + apply (q_mark _ _ Q); [exact I0|lia].
Qed.

Lemma quiet_add : forall c now s ifc remote vt r s' i, 0 <= rmax c < 2147483648 -> 0 <= now < 4294967296 -> 2 <= vt < 536870912 -> 0 <= r <= rmax c ->
  quiet (fun _ => True) s -> (exists i, In i (ifs s) /\ i_name i = i_name ifc) ->
  add_link c now s ifc remote remote vt r = Some (s', i) -> quiet (fun _ => True) s'.
Proof.
  intros c now s ifc remote vt r s' i Hm Hn Hv Hr Q IF AD. pose proof (q_sane _ _ Q) as SN.
  destruct (sane_add (fun x => x) c now s ifc remote vt r (fun x => eq_refl) Hm Hn Hv Hr SN) as (s1 & i1 & AD1 & SN1 & _).
  cbn beta in AD1. rewrite AD in AD1. inversion AD1; subst s1 i1. clear AD1.
  unfold add_link, lookup_link_main in AD. destruct (lookup_link remote (i_name ifc) (links s)) as [l|] eqn:LL.
  - apply find_some in LL. destruct LL as [I K]. apply key_spec in K. destruct (s_link _ _ SN _ I) as (n & In0 & N1 & N2).
    pose proof (deref_of _ _ (b_nids _ (s_base _ _ SN)) In0) as D. rewrite N1 in D. rewrite D in AD.
    replace (n_addr n =? remote) with true in AD by lia. inversion AD; subst s' i. exact Q.
  - cbn [fresh links nbrs] in AD.
    destruct (match nbr_lookup _ _ with Some n => _ | None => _ end) as [s3 k] eqn:E3.
    assert (links s3 = links s /\ ifs s3 = ifs s /\ mid_main s3 = mid_main s /\ mid_ali s3 = mid_ali s /\
      forall n, In n (nbrs s3) -> In n (nbrs s) \/ (n_status n = 0 /\ fresh s < n_id n)) as (L3 & I3 & M3 & A3 & N3).
    { destruct (nbr_lookup _ _) in E3; [inversion E3; subst; cbn; auto 6|]. unfold nbr_insert in E3. cbn [nbrs links fresh ifs mid_main mid_ali] in E3.
      destruct (nbr_lookup_alias remote (nbrs s)); inversion E3; subst; cbn [nbrs links fresh ifs mid_main mid_ali]; repeat split; auto.
      intros n [<-|I]; [right; cbn; split; [reflexivity|lia]|auto]. }
    rewrite L3 in AD. set (nl := mkLink _ _ _ _ _ _ _ _ _ _ _ _) in AD. inversion AD; subst s' i. clear AD.
    constructor; [exact SN1| | | | |]; cbn [links set_nbrs set_links nbrs mid_main mid_ali ifs]; rewrite ?I3, ?M3, ?A3; try apply Q.
    + intros l I. apply in_app_or in I. destruct I as [I|[<-|[]]]; [now apply (q_if _ _ Q)|exact IF].
    + intros l I. apply in_app_or in I. destruct I as [I|[<-|[]]]; [now apply (q_prev _ _ Q)|easy].
    + intros n I _. apply in_map_iff in I. destruct I as (n0 & E0 & I0).
      assert (n_status n = n_status n0 /\ n_id n = n_id n0) as [ES EI] by (subst n; destruct (n_id n0 =? k); auto).
      unfold mark1. cbn [links set_nbrs set_links]. rewrite ES, EI.
      assert (has_sym (n_id n0) (links s ++ [nl]) <-> has_sym (n_id n0) (links s)) as ->.
      { split; intros (l & Il & H1 & H2); exists l; (split; [|auto]).
        - apply in_app_or in Il. destruct Il as [Il|[<-|[]]]; [exact Il|easy].
        - apply in_or_app. now left. }
      destruct (N3 _ I0) as [J|[J1 J2]]; [now apply (q_mark _ _ Q)|]. rewrite J1. split; [discriminate|].
      intros (l & Il & H1 & _). exfalso. destruct (s_link _ _ SN _ Il) as (m & Im & M & _).
      pose proof (b_nlt _ (s_base _ _ SN)) as NL. rewrite Forall_forall in NL. specialize (NL _ Im). lia.
Qed.

(** a change to one link leaves the marks of other neighbors correct *)
Lemma quiet_upd : forall s i l f, quiet (fun _ => True) s -> get_link i (links s) = Some l -> lcore (f l) = lcore l -> l_timer (f l) <> None ->
  (l_sym (f l) <> None -> l_prev (f l) = 2) -> quiet (fun n => n_id n <> l_nbr l) (set_links (upd_link i f (links s)) s).
Proof.
  intros s i l f Q G C T Pr. pose proof (q_sane _ _ Q) as SN. pose proof (get_link_in _ _ _ G) as [I Ei].
  assert (forall x, In x (links s) -> l_id x = i -> x = l) as U.
  { intros x Ix Ex. apply (same_id (links s)); [apply (b_ids _ (s_base _ _ SN))|exact Ix|exact I|congruence]. }
  constructor; try apply Q; cbn [links set_links nbrs ifs].
  - apply sane_upd; [exact SN|]. intros x Ix Ex. rewrite (U x Ix Ex). auto.
  - intros x Ix. apply in_map_iff in Ix. destruct Ix as (y & <- & Iy). destruct (l_id y =? i) eqn:E; [|now apply (q_if _ _ Q)].
    rewrite (U y Iy) by lia. unfold lcore, stat in C. destruct (q_if _ _ Q _ I) as (j & J1 & J2). exists j. split; [exact J1|congruence].
  - intros x Ix. apply in_map_iff in Ix. destruct Ix as (y & <- & Iy). destruct (l_id y =? i) eqn:E; [|now apply (q_prev _ _ Q)].
    rewrite (U y Iy) by lia. exact Pr.
  - intros n In0 NE. unfold mark1. cbn [links set_links]. rewrite (mark_iff _ _ Q In0).
    split; intros (x & Ix & H1 & H2).
    + exists x. split; [|auto]. apply in_map_iff. exists x. split; [|exact Ix]. destruct (l_id x =? i) eqn:E; [|reflexivity].
      exfalso. rewrite (U x Ix) in H1 by lia. congruence.
    + apply in_map_iff in Ix. destruct Ix as (y & Ey & Iy). destruct (l_id y =? i) eqn:E.
      * exfalso. rewrite (U y Iy) in Ey by lia. unfold lcore in C. subst x. congruence.
      * subst x. exists y. auto.
Qed.

Lemma quiet_step : forall c now s e s', use_hyst c = false -> 0 <= rmax c < 2147483648 -> 0 <= now < 4294967296 ->
  event_ok c e -> quiet_event s e -> possible now s e = true -> quiet (fun _ => True) s -> lstep c now s e = Some s' -> quiet (fun _ => True) s'.
Proof.
  intros c now s e s' Hh Hm Hn EO QE PO Q H. pose proof (q_sane _ _ Q) as SN.
  destruct e as [ifc remote main vt msg r q|i|i|i q|main alias|a| |i cost|l|m a]; cbn [lstep quiet_event event_ok possible] in *; try easy.
  - destruct QE as (-> & SD & IF). destruct EO as (V & R & _).
    destruct (update_link c now s ifc remote remote vt msg r q) as [[s1 i]|] eqn:U; [|discriminate]. apply Some_inj in H. subst s1.
    unfold update_link in U. destruct (add_link c now s ifc remote remote vt r) as [[s1 i1]|] eqn:A; [|discriminate].
    destruct (get_link i1 (links s1)) as [l|] eqn:G; [|discriminate]. rewrite Hh in U. cbv zeta in U. rewrite check_is_said in U.
    pose proof (quiet_add _ _ _ _ _ _ _ _ _ Hm Hn V R Q IF A) as Q1. pose proof (get_link_in _ _ _ G) as [Il Ei].
    pose proof (s_tm _ _ (q_sane _ _ Q1) _ Il) as HT.
    destruct (refresh_timer c now vt (said (i_addr ifc) msg) r l Hm Hn V R HT) as [RT RS]. destruct (refresh_stat c now vt (said (i_addr ifc) msg) r l) as [R1 R2].
    set (l2 := refresh c now vt (said (i_addr ifc) msg) r l) in *.
    set (s2 := set_links (upd_link i1 (fun _ => l2) (links s1)) s1) in *.
    assert (quiet (fun n => n_id n <> l_nbr l) s2) as Q2.
    { apply (quiet_upd s1 i1 l (fun _ => l2) Q1 G); [unfold lcore; congruence|exact RT|]. intro NS.
      destruct SD as [SD|SD]; rewrite SD in RS; cbn in RS; [|congruence].
      unfold l2, refresh. rewrite SD. cbv zeta. destruct (match l_timer _ with Some _ => _ | None => _ end); reflexivity. }
    destruct (nbr_status (l_nbr l2) (get_nbr_status c now s2 remote) (nbrs s2)) as [ns|] eqn:NS; [|discriminate].
    inversion U; subst s' i1. rewrite R2 in NS.
    apply (quiet_mark c now s2 (l_nbr l) remote ns Hh Q2); [|exact NS].
    assert (l_remote l = remote) as LR.
    { destruct (add_link_cases _ _ _ _ _ _ _ _ _ _ A) as [(l1 & L1 & F1 & F2 & _)|(L1 & F1 & _ & n & F2)].
      - pose proof (find_some _ _ L1) as [I1 K1]. apply key_spec in K1. rewrite F2 in Il.
        assert (l = l1) as -> by (apply (same_id (links s)); [apply (b_ids _ (s_base _ _ SN))|exact Il|exact I1|congruence]). tauto.
      - rewrite F2 in Il. apply in_app_or in Il. destruct Il as [Il|[<-|[]]]; [|reflexivity].
        pose proof (b_lt _ (s_base _ _ SN)) as BL. rewrite Forall_forall in BL. specialize (BL _ Il). lia. }
    destruct (s_link _ _ (q_sane _ _ Q1) _ Il) as (n & I1 & N1 & N2). exists n. cbn in N2. split; [exact I1|]. split; [exact N1|congruence].
  - destruct (get_link i (links s)) as [l|] eqn:G; [|discriminate]. pose proof (get_link_in _ _ _ G) as [Il Ei].
    assert (l_sym l <> None) as LS by (destruct (l_sym l); [discriminate|cbn in PO; discriminate]).
    unfold expire_sym in H. rewrite G in H. rewrite (q_prev _ _ Q _ Il LS) in H. cbv zeta in H. cbn [negb Z.eqb SYM_LINK Pos.eqb] in H.
    set (p := link_status _ _ _ _) in H. set (s1 := set_links (upd_link i (set_sym None) (links s)) s) in *.
    set (s2 := set_links (upd_link i (set_prev p) (links s1)) s1) in *.
    assert (s2 = set_links (upd_link i (fun x => set_prev p (set_sym None x)) (links s)) s) as E2.
    { unfold s2, s1, set_links. cbn [links]. f_equal. unfold upd_link. rewrite map_map. apply map_ext. intro x.
      destruct (l_id x =? i) eqn:E; cbn [set_sym l_id]; now rewrite E. }
    assert (quiet (fun n => n_id n <> l_nbr l) s2) as Q2.
    { rewrite E2. apply (quiet_upd s i l (fun x => set_prev p (set_sym None x)) Q G); [reflexivity| |easy].
      cbn. now apply (s_tm _ _ SN). }
    destruct (nbr_status _ _ _) as [ns|] eqn:NS in H; [|discriminate]. apply Some_inj in H. subst s'.
    apply (quiet_mark c now s2 (l_nbr l) (l_remote l) ns Hh Q2); [|exact NS].
    destruct (s_link _ _ SN _ Il) as (n & I1 & N1 & N2). exists n. auto.
  - destruct (get_link i (links s)) as [l|] eqn:G; [|discriminate]. rewrite (expire_link_eq _ _ _ G) in H. pose proof (get_link_in _ _ _ G) as [Il Ei].
    destruct (sane_delete (fun x => x) s l SN Il) as (s1 & E1 & SN1 & EL). rewrite H in E1. apply Some_inj in E1. subst s1.
    pose proof (QE _ Il Ei) as LS.
    assert (ifs s' = ifs s /\ mid_main s' = mid_main s /\ mid_ali s' = mid_ali s /\
      forall n', In n' (nbrs s') -> exists n, In n (nbrs s) /\ n_id n' = n_id n /\ n_status n' = n_status n) as (F1 & F2 & F3 & F4).
    { unfold delete_link in H. destruct (deref (l_nbr l) (nbrs s)) as [n|]; [|discriminate]. apply Some_inj in H. subst s'. cbn.
      repeat split; auto. intros n' I. destruct (n_count n =? 1).
      - apply nbr_delete_incl in I. eauto.
      - apply in_map_iff in I. destruct I as (n0 & <- & I). exists n0. destruct (n_id n0 =? n_id n); auto. }
    assert (forall x, In x (links s') <-> In x (links s) /\ l_id x <> l_id l) as IL.
    { intro x. rewrite EL, filter_In. split; intros [H1 H2]; (split; [exact H1|]); lia. }
    constructor; [exact SN1| | | | |]; rewrite ?F1, ?F2, ?F3; try apply Q.
    + intros x Ix. apply IL in Ix. now apply (q_if _ _ Q).
    + intros x Ix. apply IL in Ix. now apply (q_prev _ _ Q).
    + intros n' I' _. destruct (F4 _ I') as (n & I & E1 & E2). unfold mark1. rewrite E1, E2, (mark_iff _ _ Q I).
      split; intros (x & Ix & H1 & H2); exists x; (split; [|auto]).
      * apply IL. split; [exact Ix|]. intro E. apply H2. assert (x = l) as -> by (apply (same_id (links s)); [apply (b_ids _ (s_base _ _ SN))|exact Ix|exact Il|exact E]). exact LS.
      * now apply IL in Ix.
  - apply Some_inj in H. subst s'. destruct (get_link i (links s)) as [l|] eqn:G; [|discriminate].
    constructor; try apply Q; cbn [links set_links nbrs ifs].
    + apply sane_upd; [exact SN|]. intros x Ix _. split; [reflexivity|now apply (s_tm _ _ SN) in Ix].
    + intros x Ix. apply in_map_iff in Ix. destruct Ix as (y & <- & Iy). apply (q_if _ _ Q) in Iy. now destruct (l_id y =? i).
    + intros x Ix. apply in_map_iff in Ix. destruct Ix as (y & <- & Iy). pose proof (q_prev _ _ Q _ Iy). now destruct (l_id y =? i).
    + intros n I _. unfold mark1. cbn [links set_links]. rewrite (mark_iff _ _ Q I). split; intros (x & Ix & H1 & H2).
      * exists (if l_id x =? i then set_cost cost x else x). split; [now apply in_upd_link'|]. destruct (l_id x =? i); auto.
      * apply in_map_iff in Ix. destruct Ix as (y & <- & Iy). exists y. split; [exact Iy|]. destruct (l_id y =? i); auto.
  - apply Some_inj in H. subst s'. destruct Q as [Q1 Q2 Q3 Q4 Q5 Q6]. constructor; auto; cbn [links ifs].
    + now apply sane_ifs.
    + intros x Ix. destruct (Q4 _ Ix) as (j & J1 & J2). destruct (QE _ J1) as (k & K1 & K2). exists k. split; [exact K1|congruence].
Qed.
Lemma prun_quiet : forall c s, use_hyst c = false -> 0 <= rmax c < 2147483648 -> prun c quiet_event s -> quiet (fun _ => True) s.
Proof.
  intros c s Hh Hm H. induction H as [|s now e s' H IH Hn EO SE PO E].
  - constructor; try easy. apply sane_init.
  - eapply quiet_step; eauto.
Qed.
Lemma quiet_marks : forall c now s, use_hyst c = false -> quiet (fun _ => True) s -> marks_ok c now s.
Proof.
  intros c now s Hh Q n I. rewrite (mark_iff _ _ Q I). split; intros (l & Il & H1 & H2); exists l; (split; [exact Il|]); (split; [exact H1|]).
  - now apply plain_sym.
  - now apply plain_sym in H2.
Qed.

(** Proofs about the MID set. *)
From Verif Require Import Base SchedTime SchedTimeProofs Bytes Mid MidSpec LinkSetProofs.

Record wf (s : mstate) : Prop := mkWf {
  w_eid : NoDup (map e_id (ents s));
  w_elt : forall e, In e (ents s) -> e_id e < mfresh s;
  w_main : NoDup (map e_main (ents s));
  w_rid : NoDup (map r_id (revs s));
  w_rlt : forall r, In r (revs s) -> r_id r < mfresh s;
  w_raddr : NoDup (map r_addr (revs s));
  w_fwd : forall e a, In e (ents s) -> In a (e_ali e) -> In (mkR (a_id a) (a_addr a) (e_id e)) (revs s);
  w_rev : forall r, In r (revs s) -> exists e a, In e (ents s) /\ e_id e = r_entry r /\ In a (e_ali e) /\ a_id a = r_id r /\ a_addr a = r_addr r;
  w_aid : forall e, In e (ents s) -> NoDup (map a_id (e_ali e)) }.

Lemma inj_nodup : forall (A B : Type) (f : A -> B) l x y, NoDup (map f l) -> In x l -> In y l -> f x = f y -> x = y.
Proof.
  intros A B f l. induction l as [|z r IH]; intros x y N I J E; [easy|]. inversion N as [|? ? N1 N2]; subst.
  destruct I as [->|I], J as [->|J]; auto.
  - exfalso. apply N1. rewrite E. now apply in_map.
  - exfalso. apply N1. rewrite <- E. now apply in_map.
Qed.
Lemma find_uniq : forall (A : Type) (f : A -> Z) l x, NoDup (map f l) -> In x l -> find (fun y => f y =? f x) l = Some x.
Proof.
  intros A f l x N I. destruct (find (fun y => f y =? f x) l) as [y|] eqn:F.
  - apply find_some in F. destruct F as [J E]. f_equal. apply (inj_nodup _ _ f l); auto. lia.
  - pose proof (find_none _ _ F _ I). cbn in *. lia.
Qed.
Lemma by_main_some : forall m s e, by_main m s = Some e -> In e (ents s) /\ e_main e = m.
Proof. intros m s e H. apply find_some in H. cbn in H. split; [tauto|lia]. Qed.
Lemma by_main_none : forall m s, by_main m s = None -> forall e, In e (ents s) -> e_main e <> m.
Proof. intros m s H e I. pose proof (find_none _ _ H _ I). cbn in *. lia. Qed.
Lemma in_upd_ent : forall i f l e', In e' (upd_ent i f l) -> exists e, In e l /\ ((e_id e = i /\ e' = f e) \/ (e_id e <> i /\ e' = e)).
Proof.
  intros i f l e' I. apply in_map_iff in I. destruct I as (e & <- & I). exists e. split; [exact I|].
  destruct (e_id e =? i) eqn:E; [left|right]; (split; [lia|reflexivity]).
Qed.
Lemma upd_ent_in : forall i f l e, In e l -> In (if e_id e =? i then f e else e) (upd_ent i f l).
Proof. intros i f l e I. apply in_map_iff. eauto. Qed.

(** ** the two tables agree *)
Lemma lookup_listed : forall s a, wf s -> exists o, lookup_main a s = Some o /\ forall m, o = Some m <-> listed s m a.
Proof.
  intros s a W. unfold lookup_main. destruct (find (fun r => r_addr r =? a) (revs s)) as [r|] eqn:F.
  - apply find_some in F. destruct F as [I E]. destruct (w_rev _ W _ I) as (e & x & Ie & Ee & Ix & X1 & X2).
    rewrite <- Ee, (find_uniq _ e_id _ _ (w_eid _ W) Ie). eexists. split; [reflexivity|]. intro m. split.
    + intro H. inversion H; subst. exists e. split; [exact Ie|]. split; [reflexivity|]. apply in_map_iff. exists x. split; [lia|exact Ix].
    + intros (e2 & I2 & M2 & L2). apply in_map_iff in L2. destruct L2 as (x2 & E2 & L2). pose proof (w_fwd _ W _ _ I2 L2) as R2.
      assert (mkR (a_id x2) (a_addr x2) (e_id e2) = r) as Q by (apply (inj_nodup _ _ r_addr (revs s)); [apply (w_raddr _ W)|exact R2|exact I|cbn; lia]).
      f_equal. rewrite <- M2. f_equal. apply (inj_nodup _ _ e_id (ents s)); [apply (w_eid _ W)|exact Ie|exact I2|]. rewrite Ee, <- Q. reflexivity.
  - exists None. split; [reflexivity|]. intro m. split; [discriminate|]. intros (e2 & I2 & M2 & L2).
    apply in_map_iff in L2. destruct L2 as (x2 & E2 & L2). pose proof (find_none _ _ F _ (w_fwd _ W _ _ I2 L2)). cbn in *. lia.
Qed.
Lemma lookup_main_eq : forall s a o, wf s -> lookup_main a s = Some o -> forall m, o = Some m <-> listed s m a.
Proof. intros s a o W H. destruct (lookup_listed s a W) as (o' & H' & K). rewrite H in H'. apply Some_inj in H'. now subst. Qed.
Lemma listed_fun : forall s m m' a, wf s -> listed s m a -> listed s m' a -> m = m'.
Proof. intros s m m' a W L L'. destruct (lookup_listed s a W) as (o & _ & K). apply K in L, L'. congruence. Qed.

(** ** effects on the routing table, relative to the aliases before and after *)
Definition ok1 (s s' : mstate) (l : list reff) : Prop := forall a m b, (listed s m a -> b = true) -> listed s' m a -> fold_left (route1 a m) l b = true.
Definition ok2 (s s' : mstate) (l : list reff) : Prop := forall a m b, (b = true -> listed s m a) -> fold_left (route1 a m) l b = true -> listed s' m a.
Lemma ok1_app : forall s s1 s2 l1 l2, ok1 s s1 l1 -> ok1 s1 s2 l2 -> ok1 s s2 (l1 ++ l2).
Proof. intros s s1 s2 l1 l2 H1 H2 a m b B L. rewrite fold_left_app. apply H2; [|exact L]. intro L1. now apply H1. Qed.
Lemma ok2_app : forall s s1 s2 l1 l2, ok2 s s1 l1 -> ok2 s1 s2 l2 -> ok2 s s2 (l1 ++ l2).
Proof. intros s s1 s2 l1 l2 H1 H2 a m b B F. rewrite fold_left_app in F. eapply H2; [|exact F]. intro F1. eapply H1; [exact B|exact F1]. Qed.
Lemma ok_nil : forall s s', (forall m a, listed s' m a <-> listed s m a) -> ok1 s s' [] /\ ok2 s s' [].
Proof. intros s s' H. split; intros a m b B L; cbn in *; [apply B|]; apply H; auto. Qed.

Lemma fold_del : forall a m main l b, fold_left (route1 a m) (map (fun x => RDel (a_addr x) main) l) b =
  if (main =? m) && existsb (Z.eqb a) (map a_addr l) then false else b.
Proof.
  intros a m main l. induction l as [|x r IH]; intro b; cbn [map fold_left existsb]; [now rewrite andb_false_r|].
  rewrite IH. cbn [route1]. rewrite (Z.eqb_sym a (a_addr x)). destruct (main =? m), (a_addr x =? a); cbn [andb orb]; try reflexivity.
  destruct (existsb (Z.eqb a) (map a_addr r)); reflexivity.
Qed.
Lemma existsb_in : forall a l, existsb (Z.eqb a) l = true <-> In a l.
Proof.
  intros a l. rewrite existsb_exists. split.
  - intros (x & I & E). replace a with x by lia. exact I.
  - intro I. exists a. split; [exact I|lia].
Qed.

(** a change to one entry that keeps its aliases *)
Lemma wf_timer : forall s i f, wf s -> (forall e, e_id (f e) = e_id e /\ e_main (f e) = e_main e /\ e_ali (f e) = e_ali e) ->
  wf (mkM (upd_ent i f (ents s)) (revs s) (mfresh s)) /\ forall m a, listed (mkM (upd_ent i f (ents s)) (revs s) (mfresh s)) m a <-> listed s m a.
Proof.
  intros s i f [W1 W2 W3 W4 W5 W6 W7 W8 W9] F. split.
  - constructor; cbn [ents revs mfresh]; auto.
    + unfold upd_ent. rewrite map_map. rewrite (map_ext _ e_id); [exact W1|]. intro e. destruct (e_id e =? i); [apply F|reflexivity].
    + intros e I. apply in_upd_ent in I. destruct I as (e0 & I & [[_ ->]|[_ ->]]); [rewrite (proj1 (F e0))|]; now apply W2.
    + unfold upd_ent. rewrite map_map. rewrite (map_ext _ e_main); [exact W3|]. intro e. destruct (e_id e =? i); [apply F|reflexivity].
    + intros e a I J. apply in_upd_ent in I. destruct I as (e0 & I & [[_ ->]|[_ ->]]); [|now apply W7].
      destruct (F e0) as (F1 & F2 & F3). rewrite F1. rewrite F3 in J. now apply W7.
    + intros r I. destruct (W8 _ I) as (e & a & Ie & Ee & Ia & A). exists (if e_id e =? i then f e else e), a.
      split; [now apply upd_ent_in|]. destruct (F e) as (F1 & F2 & F3). destruct (e_id e =? i); [rewrite F1, F3|]; auto.
    + intros e I. apply in_upd_ent in I. destruct I as (e0 & I & [[_ ->]|[_ ->]]); [|now apply W9]. destruct (F e0) as (F1 & F2 & F3). rewrite F3. now apply W9.
  - intros m a. unfold listed. cbn [ents]. split.
    + intros (e & I & M & L). apply in_upd_ent in I. destruct I as (e0 & I & [[_ ->]|[_ ->]]); [|eauto].
      destruct (F e0) as (F1 & F2 & F3). rewrite F2 in M. rewrite F3 in L. eauto.
    + intros (e & I & M & L). exists (if e_id e =? i then f e else e). split; [now apply upd_ent_in|].
      destruct (F e) as (F1 & F2 & F3). destruct (e_id e =? i); [rewrite F2, F3|]; auto.
Qed.
Lemma set_mid_timer_same : forall now vt e, e_id (set_mid_timer now vt e) = e_id e /\ e_main (set_mid_timer now vt e) = e_main e /\ e_ali (set_mid_timer now vt e) = e_ali e.
Proof. intros now vt e. unfold set_mid_timer. cbv zeta. destruct (_ || _); auto. Qed.
Lemma wf_update : forall now main vt s, wf s -> wf (update_table now main vt s) /\ (forall m a, listed (update_table now main vt s) m a <-> listed s m a).
Proof.
  intros now main vt s W. unfold update_table. destruct (by_main main s); [|split; [exact W|tauto]].
  apply wf_timer; [exact W|]. apply set_mid_timer_same.
Qed.

Lemma wf_delete : forall s e, wf s -> In e (ents s) -> let '(s', l) := delete_entry e s in
  wf s' /\ (forall m a, listed s' m a <-> listed s m a /\ m <> e_main e) /\ ok1 s s' l /\ ok2 s s' l.
Proof.
  intros s e W I. pose proof W as [W1 W2 W3 W4 W5 W6 W7 W8 W9]. unfold delete_entry.
  set (s' := mkM _ _ _).
  assert (forall x, In x (ents s') <-> In x (ents s) /\ e_id x <> e_id e) as IE.
  { intro x. unfold s'. cbn [ents]. rewrite filter_In. split; intros [H1 H2]; (split; [exact H1|]); lia. }
  assert (forall r, In r (revs s') <-> In r (revs s) /\ r_entry r <> e_id e) as IR.
  { intro r. unfold s'. cbn [revs]. rewrite filter_In, negb_true_iff, <- not_true_iff_false, existsb_exists. split; intros [H1 H2]; (split; [exact H1|]).
    - intro E. apply H2. destruct (W8 _ H1) as (e2 & a & I2 & E2 & Ia & A1 & A2). exists a. split; [|lia].
      assert (e2 = e) as -> by (apply (inj_nodup _ _ e_id (ents s)); auto; lia). exact Ia.
    - intros (a & Ia & Ea). apply H2. pose proof (W7 _ _ I Ia) as R.
      assert (mkR (a_id a) (a_addr a) (e_id e) = r) as <- by (apply (inj_nodup _ _ r_id (revs s)); auto; cbn; lia). reflexivity. }
  assert (wf s') as W'.
  { constructor.
    - unfold s'. cbn. now apply nodup_filter_map'.
    - intros x Ix. apply IE in Ix. now apply W2.
    - unfold s'. cbn. now apply nodup_filter_map'.
    - unfold s'. cbn. now apply nodup_filter_map'.
    - intros r Ir. apply IR in Ir. now apply W5.
    - unfold s'. cbn. now apply nodup_filter_map'.
    - intros x a Ix Ia. apply IE in Ix. apply IR. split; [now apply W7|cbn; tauto].
    - intros r Ir. apply IR in Ir. destruct (W8 _ (proj1 Ir)) as (e2 & a & I2 & E2 & Ia & A). exists e2, a. split; [apply IE; split; [exact I2|lia]|auto].
    - intros x Ix. apply IE in Ix. now apply W9. }
  assert (forall m a, listed s' m a <-> listed s m a /\ m <> e_main e) as LE.
  { intros m a. split.
    - intros (x & Ix & M & L). apply IE in Ix. destruct Ix as [Ix N]. split; [exists x; auto|]. intro E. apply N.
      f_equal. apply (inj_nodup _ _ e_main (ents s)); auto. congruence.
    - intros [(x & Ix & M & L) N]. exists x. split; [apply IE; split; [exact Ix|]|auto]. intro E. apply N.
      assert (x = e) as -> by (apply (inj_nodup _ _ e_id (ents s)); auto). congruence. }
  split; [exact W'|]. split; [exact LE|]. split; intros a m b B L.
  - rewrite fold_del. apply LE in L. replace (e_main e =? m) with false by lia. cbn. apply B. tauto.
  - rewrite fold_del in L. apply LE. destruct (e_main e =? m) eqn:E.
    + cbn [andb] in L. destruct (existsb (Z.eqb a) (map a_addr (e_ali e))) eqn:X; [discriminate|]. exfalso.
      destruct (B L) as (x & Ix & M & Lx). assert (x = e) as -> by (apply (inj_nodup _ _ e_main (ents s)); auto; lia).
      rewrite <- existsb_in in Lx. congruence.
    + cbn in L. split; [now apply B|lia].
Qed.

Lemma wf_insert : forall now s main i alias vt s' l, wf s -> (forall r, In r (revs s) -> r_id r <> i) -> i < mfresh s ->
  (forall m, listed s m alias -> m = main) ->
  insert_tuple now s main i alias vt = Some (s', l) ->
  wf s' /\ (forall m a, listed s' m a <-> listed s m a \/ (m = main /\ a = alias)) /\ ok1 s s' l /\ ok2 s s' l.
Proof.
  intros now s main i alias vt s' l W FR LT ON H. unfold insert_tuple in H.
  destruct (lookup_main alias s) as [o|] eqn:LM; [|discriminate]. pose proof (lookup_main_eq _ _ _ W LM) as LK.
  destruct (match o with Some m => m =? main | None => false end) eqn:RG.
  - inversion H; subst s' l. destruct o as [m|]; [|discriminate]. assert (m = main) as -> by lia.
    assert (listed s main alias) as L0 by now apply LK.
    split; [exact W|]. split; [|apply ok_nil; tauto]. intros m a. split; [auto|]. intros [L|[-> ->]]; auto.
  - assert (forall m, ~ listed s m alias) as NL.
    { intros m L. pose proof (ON _ L) as ->. apply LK in L. subst o. lia. }
    assert (forall r, In r (revs s) -> r_addr r <> alias) as NR.
    { intros r Ir E. destruct (w_rev _ W _ Ir) as (e & a & Ie & _ & Ia & _ & A2). apply (NL (e_main e)). exists e. split; [exact Ie|].
      split; [reflexivity|]. apply in_map_iff. exists a. split; [congruence|exact Ia]. }
    pose proof W as [W1 W2 W3 W4 W5 W6 W7 W8 W9].
    assert (forall x, (forall m a, listed x m a <-> listed s m a \/ (m = main /\ a = alias)) -> ok1 s x [RAdd alias main] /\ ok2 s x [RAdd alias main]) as OK.
    { intros x E. split; intros a m b B L; cbn in *.
      - destruct ((alias =? a) && (main =? m)) eqn:Q; [reflexivity|]. apply B. apply E in L. destruct L as [L|[-> ->]]; [exact L|lia].
      - apply E. destruct ((alias =? a) && (main =? m)) eqn:Q; [right; lia|]. left. now apply B. }
    destruct (by_main main s) as [e|] eqn:BM; inversion H; subst s' l; clear H.
    + apply by_main_some in BM. destruct BM as [Ie Me].
      set (f := fun x => set_mid_timer now vt (set_ali (mkA i alias 0 :: e_ali x) x)).
      assert (forall x, e_id (f x) = e_id x /\ e_main (f x) = e_main x /\ e_ali (f x) = mkA i alias 0 :: e_ali x) as F.
      { intro x. unfold f. pose proof (set_mid_timer_same now vt (set_ali (mkA i alias 0 :: e_ali x) x)) as (F1 & F2 & F3). rewrite F1, F2, F3. auto. }
      clearbody f. set (s' := mkM _ _ _).
      assert (forall m a, listed s' m a <-> listed s m a \/ (m = main /\ a = alias)) as LE.
      { intros m a. unfold s', listed. cbn [ents]. split.
        - intros (x & Ix & M & L). apply in_upd_ent in Ix. destruct Ix as (x0 & Ix & [[E ->]|[E ->]]); [|left; eauto].
          destruct (F x0) as (F1 & F2 & F3). rewrite F3 in L. cbn in L. destruct L as [<-|L]; [right|left; exists x0; repeat split; auto; congruence].
          split; [|reflexivity]. assert (x0 = e) as -> by (apply (inj_nodup _ _ e_id (ents s)); auto). congruence.
        - intros [(x & Ix & M & L)|[-> ->]].
          + exists (if e_id x =? e_id e then f x else x). split; [now apply upd_ent_in|]. destruct (F x) as (F1 & F2 & F3).
            destruct (e_id x =? e_id e); [rewrite F2, F3; cbn|]; auto.
          + exists (f e). split; [pose proof (upd_ent_in (e_id e) f _ _ Ie) as Q; now rewrite Z.eqb_refl in Q|]. destruct (F e) as (F1 & F2 & F3). rewrite F2, F3. cbn. auto. }
      split; [|split; [exact LE|now apply OK]].
      constructor; unfold s'; cbn [ents revs mfresh].
      * unfold upd_ent. rewrite map_map. rewrite (map_ext _ e_id); [exact W1|]. intro x. destruct (e_id x =? e_id e); [apply F|reflexivity].
      * intros x I. apply in_upd_ent in I. destruct I as (e0 & I & [[_ ->]|[_ ->]]); [rewrite (proj1 (F e0))|]; now apply W2.
      * unfold upd_ent. rewrite map_map. rewrite (map_ext _ e_main); [exact W3|]. intro x. destruct (e_id x =? e_id e); [apply F|reflexivity].
      * cbn. constructor; [|exact W4]. intro C. apply in_map_iff in C. destruct C as (r & C1 & C2). now apply (FR r).
      * intros r [<-|I]; [exact LT|now apply W5].
      * cbn. constructor; [|exact W6]. intro C. apply in_map_iff in C. destruct C as (r & C1 & C2). now apply (NR r).
      * intros x a I J. apply in_upd_ent in I. destruct I as (e0 & I & [[E ->]|[_ ->]]); [|right; now apply W7].
        destruct (F e0) as (F1 & F2 & F3). rewrite F1. rewrite F3 in J. destruct J as [<-|J]; [left; cbn; congruence|right; now apply W7].
      * intros r [<-|I].
        -- exists (f e), (mkA i alias 0). destruct (F e) as (F1 & F2 & F3). rewrite F1, F3. cbn. repeat split; auto.
           pose proof (upd_ent_in (e_id e) f _ _ Ie) as Q; now rewrite Z.eqb_refl in Q.
        -- destruct (W8 _ I) as (x & a & Ix & Ex & Ia & A). exists (if e_id x =? e_id e then f x else x), a.
           split; [now apply upd_ent_in|]. destruct (F x) as (F1 & F2 & F3). destruct (e_id x =? e_id e); [rewrite F1, F3; cbn|]; auto.
      * intros x I. apply in_upd_ent in I. destruct I as (e0 & I & [[_ ->]|[_ ->]]); [|now apply W9]. destruct (F e0) as (F1 & F2 & F3). rewrite F3. cbn.
        constructor; [|now apply W9]. intro C. apply in_map_iff in C. destruct C as (y & C1 & C2). apply (FR _ (W7 _ _ I C2)). exact C1.
    + pose proof (by_main_none _ _ BM) as NM.
      pose proof (set_mid_timer_same now vt (mkE (mfresh s) main [mkA i alias 0] None)) as (F1 & F2 & F3). cbn [e_id e_main e_ali] in F1, F2, F3.
      set (e := set_mid_timer now vt _) in *. clearbody e. set (s' := mkM _ _ _).
      assert (forall m a, listed s' m a <-> listed s m a \/ (m = main /\ a = alias)) as LE.
      { intros m a. unfold s', listed. cbn [ents]. split.
        - intros (x & [<-|Ix] & M & L); [right|left; eauto]. rewrite F3 in L. cbn in L. destruct L as [L|[]]. split; congruence.
        - intros [(x & Ix & M & L)|[-> ->]]; [exists x; cbn; auto|]. exists e. rewrite F3. cbn. auto. }
      split; [|split; [exact LE|now apply OK]].
      constructor; unfold s'; cbn [ents revs mfresh].
      * cbn. constructor; [|exact W1]. intro C. apply in_map_iff in C. destruct C as (x & C1 & C2). pose proof (W2 _ C2). lia.
      * intros x [<-|I]; [lia|]. pose proof (W2 _ I). lia.
      * cbn. constructor; [|exact W3]. intro C. apply in_map_iff in C. destruct C as (x & C1 & C2). apply (NM _ C2). congruence.
      * cbn. constructor; [|exact W4]. intro C. apply in_map_iff in C. destruct C as (r & C1 & C2). now apply (FR r).
      * intros r [<-|I]; [cbn; lia|]. pose proof (W5 _ I). lia.
      * cbn. constructor; [|exact W6]. intro C. apply in_map_iff in C. destruct C as (r & C1 & C2). now apply (NR r).
      * intros x a [<-|I] J; [|right; now apply W7]. rewrite F3 in J. destruct J as [<-|[]]. left. cbn. congruence.
      * intros r [<-|I].
        -- exists e, (mkA i alias 0). rewrite F3. cbn. repeat split; auto.
        -- destruct (W8 _ I) as (x & a & Ix & Ex & Ia & A). exists x, a. cbn. auto.
      * intros x [<-|I]; [|now apply W9]. rewrite F3. cbn. constructor; [easy|constructor].
Qed.

(** insert_tuple never meets freed memory *)
Lemma insert_safe : forall now s main i alias vt, wf s -> insert_tuple now s main i alias vt <> None.
Proof.
  intros now s main i alias vt W. unfold insert_tuple. destruct (lookup_listed s alias W) as (o & -> & _).
  destruct (match o with Some m => m =? main | None => false end); [discriminate|]. destruct (by_main main s); discriminate.
Qed.

Definition bump (s : mstate) : mstate := mkM (ents s) (revs s) (mfresh s + 1).
Lemma wf_bump : forall s, wf s -> wf (bump s).
Proof. intros s [W1 W2 W3 W4 W5 W6 W7 W8 W9]. constructor; auto; intros x I; cbn; [specialize (W2 x I)|specialize (W5 x I)]; lia. Qed.

(** the state in which insert_mid_alias inserts *)
Definition cleared (nb : Z -> bool) (alias : Z) (s : mstate) : mstate * list reff :=
  match (if nb alias then by_main alias (bump s) else None) with Some e => delete_entry e (bump s) | None => (bump s, []) end.
Lemma insert_alias_eq : forall vd nb now s main alias vt, insert_alias vd nb now s main alias vt =
  if negb (vd alias) then Some (s, []) else
  match insert_tuple now (fst (cleared nb alias s)) main (mfresh s) alias vt with
  | None => None | Some (s3, l3) => Some (s3, snd (cleared nb alias s) ++ l3) end.
Proof. intros. unfold insert_alias, cleared. destruct (negb (vd alias)); [reflexivity|]. fold (bump s). destruct (if nb alias then by_main alias (bump s) else None) as [e|]; [destruct (delete_entry e (bump s))|]; reflexivity. Qed.
Lemma wf_cleared : forall nb alias s, wf s -> let s' := fst (cleared nb alias s) in
  wf s' /\ (forall r, In r (revs s') -> r_id r <> mfresh s) /\ mfresh s < mfresh s' /\
  (forall m a, listed s' m a -> listed s m a) /\ (forall m a, listed s m a -> listed s' m a \/ (m = alias /\ nb alias = true)) /\
  ok1 s s' (snd (cleared nb alias s)) /\ ok2 s s' (snd (cleared nb alias s)).
Proof.
  intros nb alias s W. pose proof (wf_bump s W) as WB. unfold cleared.
  destruct (if nb alias then by_main alias (bump s) else None) as [e|] eqn:B; cbn [fst snd].
  - destruct (nb alias) eqn:NB; [|discriminate]. apply by_main_some in B. destruct B as [I M]. pose proof (wf_delete _ _ WB I) as K.
    destruct (delete_entry e (bump s)) as [s1 l1] eqn:DE. destruct K as (K1 & K2 & K3 & K4). cbn [fst snd].
    split; [exact K1|]. unfold delete_entry in DE. injection DE as D1 D2. split; [|split; [|split; [|split; [|split]]]]; auto.
    + intros r Ir. subst s1. cbn in Ir. apply filter_In in Ir. destruct Ir as [Ir _]. pose proof (w_rlt _ W _ Ir). lia.
    + subst s1. cbn. lia.
    + intros m a L. apply K2 in L. tauto.
    + intros m a L. destruct (Z.eq_dec m alias) as [->|N]; [right; auto|left]. apply K2. split; [exact L|congruence].
  - split; [exact WB|]. split; [|split; [|split; [|split; [|split]]]]; auto.
    + intros r Ir. pose proof (w_rlt _ W _ Ir). lia.
    + cbn. lia.
    + apply (ok_nil s (bump s)). tauto.
    + apply (ok_nil s (bump s)). tauto.
Qed.
Lemma wf_alias : forall vd nb now s main alias vt, wf s -> (forall m, listed s m alias -> m = main) ->
  exists s' l, insert_alias vd nb now s main alias vt = Some (s', l) /\ wf s' /\ ok1 s s' l /\ ok2 s s' l /\
    (forall m a, listed s' m a -> listed s m a \/ (m = main /\ a = alias)) /\
    (forall m a, listed s m a -> listed s' m a \/ (m = alias /\ nb alias = true)) /\
    (vd alias = true -> listed s' main alias).
Proof.
  intros vd nb now s main alias vt W ON. rewrite insert_alias_eq. destruct (vd alias) eqn:V; cbn [negb].
  - pose proof (wf_cleared nb alias s W) as (C1 & C2 & C3 & C4 & C5 & C6 & C7). set (s1 := fst (cleared nb alias s)) in *. set (l1 := snd (cleared nb alias s)) in *.
    destruct (insert_tuple now s1 main (mfresh s) alias vt) as [[s3 l3]|] eqn:IT; [|now apply insert_safe in IT].
    pose proof (fun m L => ON m (C4 m alias L)) as ON1.
    destruct (wf_insert _ _ _ _ _ _ _ _ C1 C2 C3 ON1 IT) as (D1 & D2 & D3 & D4).
    exists s3, (l1 ++ l3). split; [reflexivity|]. split; [exact D1|]. split; [eapply ok1_app; eauto|]. split; [eapply ok2_app; eauto|].
    split; [|split].
    + intros m a L. apply D2 in L. destruct L as [L|L]; auto.
    + intros m a L. destruct (C5 _ _ L) as [Q|Q]; [left|right; exact Q]. apply D2. auto.
    + intros _. apply D2. auto.
  - exists s, []. split; [reflexivity|]. split; [exact W|]. destruct (ok_nil s s ltac:(tauto)). repeat split; auto. discriminate.
Qed.

(** ** pruning *)
Lemma prune1_same : forall now vt d a a', prune1 now vt d a = Some a' -> a_id a' = a_id a /\ a_addr a' = a_addr a.
Proof. intros now vt d a a' H. unfold prune1 in H. destruct (existsb _ d); [inversion H; auto|]. destruct (_ && _); inversion H; subst; auto. Qed.
Lemma prune_loop_spec : forall now vt d l k g, prune_loop now vt d l = (k, g) ->
  (forall a', In a' k <-> exists a, In a l /\ prune1 now vt d a = Some a') /\
  (forall a, In a g <-> In a l /\ prune1 now vt d a = None) /\
  (NoDup (map a_id l) -> NoDup (map a_id k)).
Proof.
  intros now vt d l. induction l as [|x r IH]; intros k g H; cbn [prune_loop] in H.
  - inversion H; subst. repeat split; intros; try easy; try tauto. now destruct H0 as (? & [] & _).
  - destruct (prune_loop now vt d r) as [k0 g0]. destruct (IH _ _ eq_refl) as (IH1 & IH2 & IH3). clear IH.
    assert (forall a, In a k0 -> In (a_id a) (map a_id r)) as IH4.
    { intros a I. apply IH1 in I. destruct I as (y & I & E). apply prune1_same in E. rewrite (proj1 E). now apply in_map. }
    destruct (prune1 now vt d x) as [x'|] eqn:P; inversion H; subst k g; clear H.
    + split; [|split].
      * intro a'. cbn [In]. rewrite IH1. split.
        -- intros [<-|(y & I & E)]; eauto.
        -- intros (y & [<-|I] & E); [left; congruence|right; eauto].
      * intro a. cbn [In]. rewrite IH2. split; [tauto|]. intros [[<-|I] E]; [congruence|tauto].
      * cbn [map]. intro N. inversion N as [|? ? N1 N2]; subst. constructor; [|auto]. intro C. apply N1. apply in_map_iff in C. destruct C as (y & C1 & C2).
        rewrite <- (proj1 (prune1_same _ _ _ _ _ P)), <- C1. now apply IH4.
    + split; [|split].
      * intro a'. rewrite IH1. split; [intros (y & I & E); exists y; cbn; auto|]. intros (y & [<-|I] & E); [congruence|eauto].
      * intro a. cbn [In]. rewrite IH2. split; [intros [<-|[I E]]; auto|]. intros [[<-|I] E]; auto.
      * cbn [map]. intro N. inversion N; auto.
Qed.

Lemma wf_prune : forall now main vt d s, wf s -> let '(s', l) := prune now main vt d s in
  wf s' /\ (forall m a, listed s' m a -> listed s m a) /\ (forall m a, listed s m a -> m <> main \/ In a d -> listed s' m a) /\ ok1 s s' l /\ ok2 s s' l.
Proof.
  intros now main vt d s W. unfold prune. destruct (by_main main s) as [e|] eqn:BM; [|split; [exact W|]; destruct (ok_nil s s ltac:(tauto)); auto].
  apply by_main_some in BM. destruct BM as [Ie Me]. destruct (prune_loop now vt d (e_ali e)) as [k g] eqn:PL.
  pose proof (prune_loop_spec _ _ _ _ _ _ PL) as (K & G & ND). pose proof W as [W1 W2 W3 W4 W5 W6 W7 W8 W9].
  set (s' := mkM _ _ _).
  assert (forall x, In x (ents s) -> e_id x = e_id e -> x = e) as UE by (intros x Ix E; now apply (inj_nodup _ _ e_id (ents s))).
  assert (forall a x, In a k -> In x g -> a_id a <> a_id x) as KG.
  { intros a x Ia Ix E. apply K in Ia. destruct Ia as (y & Iy & P). apply G in Ix. destruct Ix as [Ix P'].
    assert (y = x) as -> by (apply (inj_nodup _ _ a_id (e_ali e)); auto; rewrite <- E; symmetry; now apply prune1_same in P). congruence. }
  assert (forall a x, In a k -> In x g -> a_addr a <> a_addr x) as KG'.
  { intros a x Ia Ix E. apply (KG a x Ia Ix). apply K in Ia. destruct Ia as (y & Iy & P). apply G in Ix. destruct Ix as [Ix P'].
    apply prune1_same in P. destruct P as [P1 P2]. rewrite P1. rewrite P2 in E.
    pose proof (W7 _ _ Ie Iy) as R1. pose proof (W7 _ _ Ie Ix) as R2.
    assert (mkR (a_id y) (a_addr y) (e_id e) = mkR (a_id x) (a_addr x) (e_id e)) as Q by (apply (inj_nodup _ _ r_addr (revs s)); auto). congruence. }
  assert (forall x, In x (ents s') -> (x = set_ali k e) \/ (In x (ents s) /\ x <> e)) as IE.
  { intros x Ix. unfold s' in Ix. cbn [ents] in Ix. apply in_upd_ent in Ix. destruct Ix as (y & Iy & [[E ->]|[E ->]]).
    - left. now rewrite (UE _ Iy E).
    - right. split; [exact Iy|congruence]. }
  assert (In (set_ali k e) (ents s')) as IE0.
  { pose proof (upd_ent_in (e_id e) (set_ali k) _ _ Ie) as Q. now rewrite Z.eqb_refl in Q. }
  assert (forall x, In x (ents s) -> x <> e -> In x (ents s')) as IE1.
  { intros x Ix N. pose proof (upd_ent_in (e_id e) (set_ali k) _ _ Ix) as Q. destruct (e_id x =? e_id e) eqn:E; [|exact Q].
    exfalso. apply N. apply UE; [exact Ix|lia]. }
  assert (forall r, In r (revs s') <-> In r (revs s) /\ ~ exists a, In a g /\ a_id a = r_id r) as IR.
  { intro r. unfold s'. cbn [revs]. rewrite filter_In, negb_true_iff, <- not_true_iff_false, existsb_exists. split; intros [H1 H2]; (split; [exact H1|]); intros (a & Ia & Ea); apply H2; exists a; (split; [exact Ia|lia]). }
  assert (wf s') as W'.
  { constructor.
    - unfold s', upd_ent. cbn [ents]. rewrite map_map. rewrite (map_ext _ e_id); [exact W1|]. intro x. now destruct (e_id x =? e_id e).
    - intros x Ix. apply IE in Ix. destruct Ix as [->|[Ix _]]; [apply (W2 _ Ie)|now apply W2].
    - unfold s', upd_ent. cbn [ents]. rewrite map_map. rewrite (map_ext _ e_main); [exact W3|]. intro x. now destruct (e_id x =? e_id e).
    - unfold s'. cbn. now apply nodup_filter_map'.
    - intros r Ir. apply IR in Ir. now apply W5.
    - unfold s'. cbn. now apply nodup_filter_map'.
    - intros x a Ix Ia. apply IR. apply IE in Ix. destruct Ix as [->|[Ix N]].
      + cbn in *. split; [|intros (y & Iy & Ey); symmetry in Ey; now apply (KG a y)].
        pose proof Ia as Ik. apply K in Ia. destruct Ia as (y & Iy & P). apply prune1_same in P. destruct P as [-> ->]. now apply W7.
      + split; [now apply W7|]. intros (y & Iy & Ey). apply G in Iy. destruct Iy as [Iy _]. apply N. apply UE; [exact Ix|].
        pose proof (W7 _ _ Ie Iy) as R1. pose proof (W7 _ _ Ix Ia) as R2. cbn in Ey.
        assert (mkR (a_id y) (a_addr y) (e_id e) = mkR (a_id a) (a_addr a) (e_id x)) as Q by (apply (inj_nodup _ _ r_id (revs s)); auto). congruence.
    - intros r Ir. apply IR in Ir. destruct Ir as [Ir NG]. destruct (W8 _ Ir) as (x & a & Ix & Ex & Ia & A1 & A2).
      destruct (Z.eq_dec (e_id x) (e_id e)) as [E|E].
      + pose proof (UE _ Ix E); subst x. destruct (prune1 now vt d a) as [a'|] eqn:P.
        * exists (set_ali k e), a'. split; [exact IE0|]. split; [exact Ex|]. pose proof (prune1_same _ _ _ _ _ P) as [P1 P2].
          split; [cbn; apply K; eauto|]. split; congruence.
        * exfalso. apply NG. exists a. split; [apply G; auto|exact A1].
      + exists x, a. split; [apply IE1; [exact Ix|congruence]|auto].
    - intros x Ix. apply IE in Ix. destruct Ix as [->|[Ix _]]; [cbn; apply ND, W9, Ie|now apply W9]. }
  assert (forall m a, listed s' m a <-> listed s m a /\ (m = main -> In a (map a_addr k))) as LE.
  { intros m a. split.
    - intros (x & Ix & M & L). apply IE in Ix. destruct Ix as [->|[Ix N]].
      + cbn in M, L. subst m. split; [|auto]. exists e. split; [exact Ie|]. split; [reflexivity|]. apply in_map_iff in L. destruct L as (y & <- & L).
        apply K in L. destruct L as (z & Iz & P). apply prune1_same in P. rewrite (proj2 P). now apply in_map.
      + split; [exists x; auto|]. intro Q. exfalso. apply N. apply (inj_nodup _ _ e_main (ents s)); auto. congruence.
    - intros [(x & Ix & M & L) Q]. destruct (Z.eq_dec m main) as [E|E].
      + exists (set_ali k e). split; [exact IE0|]. cbn. split; [congruence|auto].
      + exists x. split; [apply IE1; [exact Ix|congruence]|auto]. }
  split; [exact W'|]. split; [intros m a L; apply LE in L; tauto|]. split.
  { intros m a L Q. apply LE. split; [exact L|]. intros ->. destruct Q as [Q|Q]; [tauto|].
    destruct L as (x & Ix & M & L). assert (x = e) as -> by (apply (inj_nodup _ _ e_main (ents s)); auto; congruence).
    apply in_map_iff in L. destruct L as (y & <- & L). apply in_map_iff.
    exists (mkA (a_id y) (a_addr y) (getTimestamp now vt)). split; [reflexivity|]. apply K. exists y. split; [exact L|].
    unfold prune1. now rewrite (proj2 (existsb_in (a_addr y) d) Q). }
  split; intros a m b B L; rewrite fold_del in *.
  - apply LE in L. destruct L as [L Q]. destruct (main =? m) eqn:E; cbn [andb]; [|auto].
    destruct (existsb (Z.eqb a) (map a_addr g)) eqn:X; [|auto]. exfalso. apply existsb_in in X. apply in_map_iff in X. destruct X as (x & X1 & X2).
    specialize (Q ltac:(lia)). apply in_map_iff in Q. destruct Q as (y & Q1 & Q2). apply (KG' y x Q2 X2). congruence.
  - apply LE. destruct (main =? m) eqn:E; cbn [andb] in L; [|split; [auto|lia]].
    destruct (existsb (Z.eqb a) (map a_addr g)) eqn:X; [discriminate|]. split; [auto|]. intros _.
    destruct (B L) as (x & Ix & M & Lx). assert (x = e) as -> by (apply (inj_nodup _ _ e_main (ents s)); auto; lia).
    apply in_map_iff in Lx. destruct Lx as (y & <- & Lx). destruct (prune1 now vt d y) as [y'|] eqn:P.
    + apply in_map_iff. exists y'. split; [now apply prune1_same in P|]. apply K. eauto.
    + exfalso. rewrite <- not_true_iff_false in X. apply X. apply existsb_in. apply in_map_iff. exists y. split; [reflexivity|]. apply G. auto.
Qed.

(** ** the events *)
Lemma wf_loop : forall own vd nb now main vt l s, wf s -> exists s' l', input_loop own vd nb now main vt l s = Some (s', l') /\
  wf s' /\ ok1 s s' l' /\ (forall m a, listed s' m a -> listed s m a \/ (m = main /\ In a l)) /\
  ((forall a m, In a l -> listed s m a -> m = main) -> ok2 s s' l').
Proof.
  intros own vd nb now main vt l. induction l as [|x r IH]; intros s W; cbn [input_loop].
  - exists s, []. destruct (ok_nil s s ltac:(tauto)). auto 6.
  - destruct (own x).
    { destruct (IH s W) as (s' & l' & A & B & C & D & E). exists s', l'. split; [exact A|]. split; [exact B|]. split; [exact C|]. split.
      - intros m a L. destruct (D m a L) as [Q|[Q1 Q2]]; cbn; auto.
      - intros Q. apply E. intros a m I. apply Q. now right. }
    destruct (lookup_listed s x W) as (o & LM & LK). rewrite LM. destruct o as [m0|].
    + destruct (IH s W) as (s' & l' & A & B & C & D & E). rewrite A. exists s', (RAdd x main :: l'). split; [reflexivity|]. split; [exact B|]. split; [|split].
      * intros a m b Bb L. cbn [fold_left]. apply C; [|exact L]. intro L0. cbn [route1]. destruct (_ && _); auto.
      * intros m a L. destruct (D m a L) as [Q|[Q1 Q2]]; cbn; auto.
      * intros Q a m b Bb L. cbn [fold_left] in L. refine (E _ a m _ _ L); [intros a0 m1 I0; apply Q; now right|].
        cbn [route1]. intro F. destruct ((x =? a) && (main =? m)) eqn:G; [|auto]. assert (x = a) by lia. assert (main = m) by lia. subst a m.
        assert (listed s m0 x) as L0 by now apply LK. rewrite <- (Q x m0 ltac:(now left) L0). exact L0.
    + destruct (wf_alias vd nb now s main x vt W) as (s1 & l1 & A1 & W1 & O1 & P1 & L1 & L2 & _).
      { intros m L. apply LK in L. discriminate. }
      rewrite A1. destruct (IH s1 W1) as (s' & l' & A & B & C & D & E). rewrite A. exists s', (l1 ++ l'). split; [reflexivity|]. split; [exact B|]. split; [|split].
      * eapply ok1_app; eauto.
      * intros m a L. destruct (D m a L) as [Q|[Q1 Q2]]; [|cbn; auto]. destruct (L1 _ _ Q) as [Q'|[Q1 Q2]]; cbn; auto.
      * intro Q. eapply ok2_app; [exact P1|]. apply E. intros a m I L. destruct (L1 _ _ L) as [Q'|[Q1 Q2]]; [|exact Q1]. apply (Q a m); [now right|exact Q'].
Qed.
Lemma wf_delete_list : forall l s, wf s -> NoDup (map e_id l) -> (forall e, In e l -> In e (ents s)) ->
  wf (fst (delete_list l s)) /\ ok1 s (fst (delete_list l s)) (snd (delete_list l s)) /\ ok2 s (fst (delete_list l s)) (snd (delete_list l s)) /\
  (forall m a, listed (fst (delete_list l s)) m a -> listed s m a) /\ (forall e, In e (ents (fst (delete_list l s))) <-> In e (ents s) /\ ~ In (e_id e) (map e_id l)).
Proof.
  induction l as [|e r IH]; intros s W N I; cbn [delete_list].
  - destruct (ok_nil s s ltac:(tauto)). cbn. split; [exact W|]. split; [assumption|]. split; [assumption|]. split; tauto.
  - pose proof (wf_delete s e W (I e (or_introl eq_refl))) as K. destruct (delete_entry e s) as [s1 l1] eqn:DE. destruct K as (K1 & K2 & K3 & K4).
    inversion N as [|? ? N1 N2]; subst.
    assert (forall x, In x (ents s1) <-> In x (ents s) /\ e_id x <> e_id e) as IE.
    { intro x. unfold delete_entry in DE. injection DE as <- _. cbn [ents]. rewrite filter_In. split; intros [H1 H2]; (split; [exact H1|]); lia. }
    destruct (IH s1 K1 N2) as (A & B & C & D & E).
    { intros x Ix. apply IE. split; [apply I; now right|]. intro Q. apply N1. rewrite <- Q. now apply in_map. }
    destruct (delete_list r s1) as [s2 l2]. cbn [fst snd] in *. split; [exact A|]. split; [eapply ok1_app; eauto|]. split; [eapply ok2_app; eauto|].
    split.
    + intros m a L. apply D in L. apply K2 in L. tauto.
    + intro x. rewrite E, IE. cbn [map In]. firstorder congruence.
Qed.

Lemma wf_step : forall now s e, wf s -> mpossible now s e = true -> exists s' l, mstep now s e = Some (s', l) /\ wf s' /\ ok1 s s' l /\
  (forall owner, honest owner e -> (forall m a, listed s m a -> m = owner a /\ a <> owner a) ->
    ok2 s s' l /\ forall m a, listed s' m a -> m = owner a /\ a <> owner a).
Proof.
  intros now s e W PO. destruct e as [own vd nb sym main vt al|vd nb src from vt|i|x|]; cbn [mstep].
  - unfold input_mid. destruct (vd main); cbn [negb]; [|exists s, []; destruct (ok_nil s s ltac:(tauto)); auto 6].
    destruct sym; cbn [negb]; [|exists s, []; destruct (ok_nil s s ltac:(tauto)); auto 6].
    destruct (wf_update now main vt s W) as [W0 L0]. set (s0 := update_table now main vt s) in *.
    destruct (ok_nil s s0 L0) as [O0 P0].
    destruct (wf_loop own vd nb now main vt al s0 W0) as (s1 & l1 & -> & W1 & O1 & L1 & P1).
    pose proof (wf_prune now main vt al s1 W1) as K. destruct (prune now main vt al s1) as [s2 l2]. destruct K as (W2 & L2 & _ & O2 & P2).
    exists s2, (l1 ++ l2). split; [reflexivity|]. split; [exact W2|]. split.
    + apply (ok1_app s s0 s2 [] (l1 ++ l2) O0). eapply ok1_app; eauto.
    + cbn [honest]. intros owner [H1 H2] H3.
      assert (forall m a, listed s2 m a -> m = owner a /\ a <> owner a) as Q.
      { intros m a L. apply L2 in L. destruct (L1 _ _ L) as [L'|[-> I]]; [apply H3, L0, L'|]. destruct (H2 _ I) as [<- N]. auto. }
      split; [|exact Q]. apply (ok2_app s s0 s2 [] (l1 ++ l2) P0). eapply ok2_app; [|exact P2]. apply P1.
      intros a m I L. apply L0 in L. destruct (H3 _ _ L) as [-> _]. now apply H2.
  - unfold hello_alias. destruct ((src =? from) || negb (vd from)) eqn:G; [exists s, []; destruct (ok_nil s s ltac:(tauto)); auto 6|].
    destruct (lookup_listed s from W) as (o & -> & LK).
    destruct (match o with None => true | Some m => src =? m end) eqn:Q; [|exists s, []; destruct (ok_nil s s ltac:(tauto)); auto 6].
    destruct (wf_alias vd nb now s src from vt W) as (s1 & l1 & A1 & W1 & O1 & P1 & L1 & L2 & _).
    { intros m L. apply LK in L. subst o. lia. }
    exists s1, l1. rewrite A1. split; [reflexivity|]. split; [exact W1|]. split; [exact O1|].
    cbn [honest]. intros owner [H1 H2] H3. split; [exact P1|]. intros m a L. destruct (L1 _ _ L) as [L'|[-> ->]]; [now apply H3|]. rewrite H2. split; [reflexivity|lia].
  - cbn [mpossible] in PO. unfold expire_mid. destruct (find _ (ents s)) as [e|] eqn:F; [|discriminate]. apply find_some in F.
    pose proof (wf_delete s e W (proj1 F)) as K. destruct (delete_entry e s) as [s1 l1]. destruct K as (K1 & K2 & K3 & K4).
    exists s1, l1. split; [reflexivity|]. split; [exact K1|]. split; [exact K3|]. intros owner _ HL. split; [exact K4|]. intros m a L. apply K2 in L. now apply HL.
  - unfold cleanup. destruct (by_main x s) as [e|] eqn:F; [|exists s, []; destruct (ok_nil s s ltac:(tauto)); auto 6]. apply by_main_some in F.
    pose proof (wf_delete s e W (proj1 F)) as K. destruct (delete_entry e s) as [s1 l1]. destruct K as (K1 & K2 & K3 & K4).
    exists s1, l1. split; [reflexivity|]. split; [exact K1|]. split; [exact K3|]. intros owner _ HL. split; [exact K4|]. intros m a L. apply K2 in L. now apply HL.
  - unfold delete_all. pose proof (wf_delete_list (ents s) s W (w_eid _ W) ltac:(auto)) as (A & B & C & D & _).
    destruct (delete_list (ents s) s) as [s1 l1]. cbn [fst snd] in *. exists s1, l1. split; [reflexivity|]. split; [exact A|]. split; [exact B|]. intros owner _ HL. split; [exact C|]. intros m a L. apply D in L. now apply HL.
Qed.

Lemma wf_init : wf minit.
Proof. constructor; cbn; try constructor; easy. Qed.
Lemma mrun_wf : forall ok log s, mrun ok log s -> wf s /\ ok1 minit s log.
Proof.
  intros ok log s R. induction R as [|log s now e s' l R [IW IO] T OK PO ST].
  - split; [exact wf_init|]. apply ok_nil. tauto.
  - destruct (wf_step now s e IW PO) as (s1 & l1 & E & W & O & _). rewrite ST in E. apply Some_inj in E. inversion E; subst. split; [exact W|]. eapply ok1_app; eauto.
Qed.
Lemma mrun_safe : forall ok log s now e, mrun ok log s -> mpossible now s e = true -> mstep now s e <> None.
Proof. intros ok log s now e R PO. apply mrun_wf in R. destruct R as [W _]. destruct (wf_step now s e W PO) as (s1 & l1 & E & _). congruence. Qed.
Lemma init_listed : forall m a, ~ listed minit m a.
Proof. intros m a (e & [] & _). Qed.
Lemma mrun_routed : forall ok log s m a, mrun ok log s -> listed s m a -> routed a m log = true.
Proof. intros ok log s m a R L. apply mrun_wf in R. destruct R as [_ O]. apply O; [|exact L]. intro Q. now apply init_listed in Q. Qed.
Lemma mrun_honest : forall owner log s, mrun (honest owner) log s -> ok2 minit s log /\ forall m a, listed s m a -> m = owner a /\ a <> owner a.
Proof.
  intros owner log s R. induction R as [|log s now e s' l R [IO IL] T OK PO ST].
  - split; [apply ok_nil; tauto|]. intros m a L. now apply init_listed in L.
  - pose proof (mrun_wf _ _ _ R) as [IW _]. destruct (wf_step now s e IW PO) as (s1 & l1 & E & W & O & P). rewrite ST in E. apply Some_inj in E. inversion E; subst.
    destruct (P owner OK IL) as [P1 P2]. split; [eapply ok2_app; eauto|exact P2].
Qed.
Lemma mrun_routed_iff : forall owner log s m a, mrun (honest owner) log s -> routed a m log = true -> listed s m a.
Proof. intros owner log s m a R L. apply mrun_honest in R. destruct R as [O _]. eapply O; [|exact L]. discriminate. Qed.

(** ** main addresses and timers of the entries *)
Definition stm (now vt : Z) (d : option Z) : option Z := e_timer (set_mid_timer now vt (mkE 0 0 [] d)).
Lemma stm_eq : forall now vt e, e_timer (set_mid_timer now vt e) = stm now vt (e_timer e).
Proof. intros now vt e. unfold stm, set_mid_timer. cbv zeta. cbn [e_timer]. destruct (_ || _); reflexivity. Qed.

Definition each (Q : Z -> option Z -> Prop) (s : mstate) : Prop := forall e, In e (ents s) -> Q (e_main e) (e_timer e).
Definition settable (Q : Z -> option Z -> Prop) (now vt main : Z) : Prop := (forall d, Q main d -> Q main (stm now vt d)) /\ Q main (stm now vt None).
Lemma each_delete : forall Q s e, each Q s -> each Q (fst (delete_entry e s)).
Proof. intros Q s e H x I. cbn in I. apply filter_In in I. now apply H. Qed.
Lemma each_update : forall Q now vt main s, wf s -> settable Q now vt main -> each Q s -> each Q (update_table now main vt s).
Proof.
  intros Q now vt main s W [S1 S2] H. unfold update_table. destruct (by_main main s) as [e|] eqn:B; [|exact H]. apply by_main_some in B. intros x I. cbn in I.
  apply in_upd_ent in I. destruct I as (y & I & [[E ->]|[E ->]]); [|now apply H].
  destruct (set_mid_timer_same now vt y) as (F1 & F2 & F3). rewrite F2, stm_eq.
  assert (y = e) as -> by (apply (inj_nodup _ _ e_id (ents s)); [apply (w_eid _ W)|tauto..]). pose proof (H _ I) as K. rewrite (proj2 B) in *. now apply S1.
Qed.
Lemma each_insert : forall Q now s main i alias vt s' l, wf s -> settable Q now vt main -> each Q s -> insert_tuple now s main i alias vt = Some (s', l) -> each Q s'.
Proof.
  intros Q now s main i alias vt s' l W [S1 S2] H IT. unfold insert_tuple in IT. destruct (lookup_main alias s) as [o|]; [|discriminate].
  destruct (match o with Some m => m =? main | None => false end); [inversion IT; now subst|].
  destruct (by_main main s) as [e|] eqn:B; inversion IT; subst; clear IT; intros x I; cbn [ents] in I.
  - apply by_main_some in B. apply in_upd_ent in I. destruct I as (y & I & [[E ->]|[E ->]]); [|now apply H].
    destruct (set_mid_timer_same now vt (set_ali (mkA i alias 0 :: e_ali y) y)) as (F1 & F2 & F3). rewrite F2, stm_eq. cbn [e_main set_ali e_timer].
    assert (y = e) as -> by (apply (inj_nodup _ _ e_id (ents s)); [apply (w_eid _ W)|tauto..]). pose proof (H _ I) as K. rewrite (proj2 B) in *. now apply S1.
  - destruct I as [<-|I]; [|now apply H]. destruct (set_mid_timer_same now vt (mkE (mfresh s) main [mkA i alias 0] None)) as (F1 & F2 & F3). rewrite F2, stm_eq. exact S2.
Qed.
Lemma each_cleared : forall Q nb alias s, each Q s -> each Q (fst (cleared nb alias s)).
Proof. intros Q nb alias s H. unfold cleared. destruct (if nb alias then _ else _); [|exact H]. now apply each_delete. Qed.
Lemma each_alias : forall Q vd nb now s main alias vt s' l, wf s -> settable Q now vt main -> each Q s -> insert_alias vd nb now s main alias vt = Some (s', l) -> each Q s'.
Proof.
  intros Q vd nb now s main alias vt s' l W S H IA. rewrite insert_alias_eq in IA. destruct (vd alias); cbn [negb] in IA; [|inversion IA; now subst].
  destruct (insert_tuple _ _ _ _ _ _) as [[s3 l3]|] eqn:IT; [|discriminate]. inversion IA; subst. eapply each_insert; [|exact S| |exact IT].
  - now apply wf_cleared.
  - now apply each_cleared.
Qed.
Lemma each_prune : forall Q now main vt d s, each Q s -> each Q (fst (prune now main vt d s)).
Proof.
  intros Q now main vt d s H. unfold prune. destruct (by_main main s) as [e|]; [|exact H]. destruct (prune_loop _ _ _ _) as [k g]. intros x I. cbn in I.
  apply in_upd_ent in I. destruct I as (y & I & [[E ->]|[E ->]]); apply (H y I).
Qed.
Lemma each_loop : forall Q own vd nb now main vt l s s' l', wf s -> settable Q now vt main -> each Q s -> input_loop own vd nb now main vt l s = Some (s', l') -> each Q s'.
Proof.
  intros Q own vd nb now main vt l. induction l as [|x r IH]; intros s s' l' W S H IL; cbn [input_loop] in IL; [inversion IL; now subst|].
  destruct (own x); [eauto|]. destruct (lookup_listed s x W) as (o & LM & LK). rewrite LM in IL. destruct o as [m0|].
  - destruct (input_loop own vd nb now main vt r s) as [[s1 l1]|] eqn:E; inversion IL; subst. eauto.
  - destruct (wf_alias vd nb now s main x vt W) as (s1 & l1 & A1 & W1 & _). { intros m L. apply LK in L. discriminate. }
    pose proof (each_alias _ _ _ _ _ _ _ _ _ _ W S H A1) as H1. rewrite A1 in IL.
    destruct (input_loop own vd nb now main vt r s1) as [[s2 l2]|] eqn:E; inversion IL; subst. eauto.
Qed.
Lemma each_delete_list : forall Q l s, each Q s -> each Q (fst (delete_list l s)).
Proof.
  intros Q l. induction l as [|e r IH]; intros s H; [exact H|]. cbn [delete_list]. pose proof (each_delete Q s e H) as H1. destruct (delete_entry e s) as [s1 l1].
  specialize (IH s1 H1). destruct (delete_list r s1). exact IH.
Qed.
(** the main address and validity an event may set a timer for *)
Definition sets (e : mev) : option (Z * Z) :=
  match e with
  | MMsg own vd nb sym main vt al => if vd main && sym then Some (main, vt) else None
  | MHello vd nb src from vt => if negb (from =? src) && vd from then Some (src, vt) else None
  | _ => None
  end.
Lemma each_step : forall Q now s e s' l, wf s -> match sets e with Some (m, vt) => settable Q now vt m | None => True end -> each Q s ->
  mstep now s e = Some (s', l) -> each Q s'.
Proof.
  intros Q now s e s' l W S H ST. destruct e as [own vd nb sym main vt al|vd nb src from vt|i|x|]; cbn [mstep sets] in *.
  - unfold input_mid in ST. destruct (vd main); cbn [negb] in ST; [|inversion ST; now subst]. destruct sym; cbn [negb andb] in *; [|inversion ST; now subst].
    pose proof (each_update _ _ _ _ _ W S H) as H0. pose proof (proj1 (wf_update now main vt s W)) as W0.
    destruct (input_loop _ _ _ _ _ _ _ _) as [[s1 l1]|] eqn:IL; [|discriminate]. pose proof (each_loop _ _ _ _ _ _ _ _ _ _ _ W0 S H0 IL) as H1.
    pose proof (each_prune Q now main vt al s1 H1) as H2. destruct (prune now main vt al s1). inversion ST; subst. exact H2.
  - unfold hello_alias in ST. destruct ((src =? from) || negb (vd from)) eqn:G; [inversion ST; now subst|].
    assert (negb (from =? src) && vd from = true) as G1 by (rewrite Z.eqb_sym; destruct (src =? from), (vd from); cbn in *; congruence). rewrite G1 in S. destruct (lookup_main from s) as [o|]; [|discriminate].
    destruct (match o with None => true | Some m => src =? m end); [|inversion ST; now subst]. eapply each_alias; eauto.
  - unfold expire_mid in ST. destruct (find _ _) as [e|]; [|discriminate]. inversion ST as [E]. clear ST. replace s' with (fst (delete_entry e s)) by (rewrite E; reflexivity). now apply each_delete.
  - unfold cleanup in ST. destruct (by_main x s) as [e|]; [|inversion ST; now subst]. inversion ST as [E]. clear ST. replace s' with (fst (delete_entry e s)) by (rewrite E; reflexivity). now apply each_delete.
  - unfold delete_all in ST. apply Some_inj in ST. replace s' with (fst (delete_list (ents s) s)) by (rewrite ST; reflexivity). now apply each_delete_list.
Qed.
Lemma honest_mains : forall owner log s, mrun (honest owner) log s -> forall e, In e (ents s) -> owner (e_main e) = e_main e.
Proof.
  intros owner log s R. assert (each (fun m _ => owner m = m) s) as H; [|exact H].
  induction R as [|log s now e s' l R IH T OK PO ST]; [easy|]. pose proof (mrun_wf _ _ _ R) as [IW _].
  eapply each_step; [exact IW| |exact IH|exact ST]. destruct e; cbn [sets honest] in *; trivial; unfold settable; match goal with |- context[if ?b then _ else _] => destruct b; tauto end.
Qed.

(** ** time *)
Lemma due_bounds : forall t D, -2147483648 < D - t < 2147483648 ->
  (t <= D -> D - t - 1 <= getTimeDue (u32 t) (u32 D) <= D - t) /\ (D <= t -> D - t <= getTimeDue (u32 t) (u32 D) <= D - t + 1).
Proof.
  intros t D H. unfold getTimeDue, u32, to_i32. destruct (D mod 4294967296 >? t mod 4294967296) eqn:E; cbv zeta.
  all: repeat match goal with |- context[if ?b then _ else _] => destruct b eqn:?E end; lia.
Qed.
Lemma stm_spec : forall t vt D, 1 <= vt < 536870912 -> t - 536870912 <= D <= t + 536870912 ->
  exists D', stm (u32 t) vt (Some (u32 D)) = Some (u32 D') /\ D <= D' /\ t + vt <= D' /\ (D' = D \/ D' = t + vt).
Proof.
  intros t vt D H1 H2. pose proof (due_bounds t D ltac:(lia)) as [B1 B2]. unfold stm, set_mid_timer. cbv zeta. cbn [e_timer].
  set (w := getTimeDue (u32 t) (u32 D)) in *. clearbody w.
  destruct ((w <? 0) || (u32 w <? vt)) eqn:G.
  - exists (t + vt). unfold set_etimer. cbn [e_timer]. replace (vt =? 0) with false by lia. unfold getTimestamp. rewrite u32_u32_add. split; [reflexivity|].
    destruct (Z_le_dec D (t + vt)); [lia|exfalso]. assert (0 <= w < 4294967296) as R by lia. assert (u32 w = w) as X by (unfold u32; lia). lia.
  - exists D. cbn [e_timer]. split; [reflexivity|]. assert (0 <= w) by lia. assert (u32 w = w) as X; [|lia]. unfold u32.
    destruct (Z_le_dec t D); [specialize (B1 l)|assert (D <= t) as l by lia; specialize (B2 l)]; lia.
Qed.
Lemma stm_none : forall t vt, 1 <= vt < 536870912 -> stm (u32 t) vt None = Some (u32 (t + vt)).
Proof. intros t vt H. unfold stm, set_mid_timer. cbn. replace (vt =? 0) with false by lia. unfold getTimestamp. now rewrite u32_u32_add. Qed.

(** every timer runs and was set by something heard from the main address *)
Definition heardQ (slack : Z) (h : list (Z * mstate * mev)) (t m : Z) (d : option Z) : Prop :=
  exists D x tk vk, d = Some (u32 D) /\ In x h /\ heard_from m x = Some (tk, vk) /\ D = tk + vk /\ t - slack <= D <= t + 536870912.
Lemma prompt_tm : forall slack t0 t D, 0 <= slack <= 536870912 -> t0 <= t < t0 + 536870912 -> t0 - slack <= D <= t0 + 536870912 ->
  (isTimedOut (u32 t) (u32 D) = true -> u32 (u32 t - u32 D) <= slack) -> t - slack <= D.
Proof.
  intros slack t0 t D H1 H2 H3 P. destruct (Z_le_dec D t) as [Q|Q]; [|lia].
  rewrite due_iff in P by lia. rewrite lag in P by lia. specialize (P ltac:(lia)). lia.
Qed.
Lemma heard_later : forall slack h t0 t s, 0 <= slack <= 536870912 -> t0 <= t < t0 + 536870912 -> mprompt slack t s ->
  each (heardQ slack h t0) s -> each (heardQ slack h t) s.
Proof.
  intros slack h t0 t s H1 H2 P H e I. destruct (H e I) as (D & x & tk & vk & E1 & E2 & E3 & E4 & E5). exists D, x, tk, vk.
  unfold mprompt in P. rewrite Forall_forall in P. specialize (P e I). cbv beta in P. rewrite E1 in P.
  pose proof (prompt_tm slack t0 t D H1 H2 E5 P). repeat split; auto; lia.
Qed.
Lemma heard_set : forall slack h t e, 0 <= slack <= 536870912 -> mevent_ok e -> forall s, match sets e with Some (m, vt) => settable (heardQ slack (h ++ [(t, s, e)]) t) (u32 t) vt m | None => True end.
Proof.
  intros slack h t e HS OK s. destruct (sets e) as [[m vt]|] eqn:SE; [|exact Logic.I].
  assert (1 <= vt < 536870912 /\ heard_from m (t, s, e) = Some (t, vt)) as [V HF].
  { destruct e as [own vd nb sym main v al|vd nb src from v|i|x|]; cbn [sets heard_from mevent_ok] in *; try discriminate.
    - destruct (vd main && sym) eqn:G; inversion SE; subst. split; [exact OK|]. rewrite Z.eqb_refl. apply andb_prop in G. destruct G as [-> ->]. reflexivity.
    - destruct (negb (from =? src) && vd from) eqn:G; inversion SE; subst. split; [exact OK|]. rewrite Z.eqb_refl. cbn [andb]. now rewrite G. }
  split.
  - intros d (D & x & tk & vk & -> & I & E3 & E4 & E5). destruct (stm_spec t vt D V ltac:(lia)) as (D' & S1 & S2 & S3 & [->| ->]).
    + exists D, x, tk, vk. auto.
    + exists (t + vt), (t, s, e), t, vt. split; [exact S1|]. split; [apply in_app_iff; right; now left|]. split; [exact HF|]. lia.
  - exists (t + vt), (t, s, e), t, vt. split; [now apply stm_none|]. split; [apply in_app_iff; right; now left|]. split; [exact HF|]. lia.
Qed.
Lemma trun_heard : forall slack h t s, 0 <= slack <= 536870912 -> trun slack h t s -> wf s /\ each (heardQ slack h t) s.
Proof.
  intros slack h t s HS R. induction R as [t T|h t0 s t e s' l R [IW IH] T OK PR PO ST]; [split; [exact wf_init|easy]|].
  destruct (wf_step (u32 t) s e IW PO) as (s1 & l1 & E & W & _). rewrite ST in E. apply Some_inj in E. inversion E; subst s1 l1. split; [exact W|].
  eapply each_step; [exact IW|now apply heard_set| |exact ST].
  pose proof (heard_later _ _ _ _ _ HS T PR IH) as H. intros x I. destruct (H x I) as (D & y & tk & vk & E1 & E2 & E3).
  exists D, y, tk, vk. split; [exact E1|]. split; [apply in_app_iff; now left|exact E3].
Qed.
Lemma alias_upper : forall slack h t s m a, 0 <= slack <= 536870912 -> tstate slack h t s -> lookup_main a s = Some (Some m) ->
  exists x tk vk, In x h /\ heard_from m x = Some (tk, vk) /\ t <= tk + vk + slack.
Proof.
  intros slack h t s m a HS (t0 & R & T & PR) L. destruct (trun_heard _ _ _ _ HS R) as [W H]. apply (heard_later _ _ _ _ _ HS T PR) in H.
  pose proof (proj1 (lookup_main_eq s a (Some m) W L m) eq_refl) as LI.
  destruct LI as (e & I & M & _). destruct (H e I) as (D & x & tk & vk & E1 & E2 & E3 & E4 & E5). rewrite M in E3. exists x, tk, vk. repeat split; auto. lia.
Qed.

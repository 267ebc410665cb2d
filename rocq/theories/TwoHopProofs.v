(** Proofs about the two-hop neighbor table. *)
From Verif Require Import Base SchedTime SchedTimeProofs TwoHop TwoHopSpec LinkSetProofs MidProofs.

(** ** lists *)
Lemma in_upd : forall i f l t', In t' (upd_two i f l) <-> exists t, In t l /\ t' = if t_id t =? i then f t else t.
Proof. intros i f l t'. unfold upd_two. rewrite in_map_iff. split; intros (t & A & B); exists t; auto. Qed.
Lemma upd_map : forall (A : Type) (g : two -> A) i f l, (forall t, g (f t) = g t) -> map g (upd_two i f l) = map g l.
Proof. intros A g i f l H. unfold upd_two. rewrite map_map. apply map_ext. intro t. destruct (t_id t =? i); auto. Qed.
Lemma get_two_some : forall i s t, get_two i s = Some t -> In t (twos s) /\ t_id t = i.
Proof. intros i s t H. apply find_some in H. destruct H as [H1 H2]. split; [exact H1|lia]. Qed.
Lemma get_nb_some : forall i s b, get_nb i s = Some b -> In b (nbs s) /\ b_id b = i.
Proof. intros i s t H. apply find_some in H. destruct H as [H1 H2]. split; [exact H1|lia]. Qed.
Lemma get_two_ex : forall i s, In i (map t_id (twos s)) -> exists t, get_two i s = Some t.
Proof.
  intros i s H. destruct (get_two i s) as [t|] eqn:E; [eauto|]. apply in_map_iff in H. destruct H as (t & A & B).
  pose proof (find_none _ _ E t B) as Q. cbn in Q. lia.
Qed.
Lemma get_nb_ex : forall i s, In i (map b_id (nbs s)) -> exists b, get_nb i s = Some b.
Proof.
  intros i s H. destruct (get_nb i s) as [t|] eqn:E; [eauto|]. apply in_map_iff in H. destruct H as (t & A & B).
  pose proof (find_none _ _ E t B) as Q. cbn in Q. lia.
Qed.
Lemma nodup_map_filter : forall (A B : Type) (g : A -> B) f l, NoDup (map g l) -> NoDup (map g (filter f l)).
Proof.
  intros A B g f l. induction l as [|x r IH]; intro H; [constructor|]. cbn [map] in H. inversion H as [|? ? H1 H2]; subst. cbn [filter].
  destruct (f x); [|auto]. cbn [map]. constructor; [|auto]. intro Q. apply H1. apply in_map_iff in Q. destruct Q as (y & A1 & A2).
  apply filter_In in A2. apply in_map_iff. exists y. tauto.
Qed.
Lemma in_list_of : forall n s l, In l (list_of n s) <-> In l (n2ls s) /\ l_nbr l = n.
Proof. intros n s l. unfold list_of. rewrite filter_In. split; intros [A B]; split; auto; lia. Qed.
Lemma filter_keep : forall (A : Type) (f : A -> bool) l, (forall x, In x l -> f x = true) -> filter f l = l.
Proof. intros A f l. induction l as [|x r IH]; intro H; [reflexivity|]. cbn [filter]. rewrite (H x) by now left. f_equal. apply IH. intros; apply H; now right. Qed.
Lemma filter_len_one : forall (A : Type) (g : A -> Z) n l, NoDup (map g l) -> In n (map g l) ->
  Z.of_nat (length (filter (fun e => negb (g e =? n)) l)) = Z.of_nat (length l) - 1.
Proof.
  intros A g n l. induction l as [|x r IH]; intros ND I; [easy|]. cbn [map] in *. inversion ND as [|? ? N1 N2]; subst. cbn [filter length].
  destruct (g x =? n) eqn:E; cbn [negb].
  - assert (g x = n) by lia. subst n. rewrite filter_keep; [lia|]. intros y Iy. apply negb_true_iff, Z.eqb_neq. intro Q. apply N1. apply in_map_iff. eauto.
  - cbn [length]. destruct I as [I|I]; [lia|]. rewrite Nat2Z.inj_succ, (IH N2 I). lia.
Qed.

(** ** the invariant *)
Record wf (s : tstate) : Prop := {
  w_nid : NoDup (map b_id (nbs s));
  w_lid : NoDup (map l_id (n2ls s));
  w_tid : NoDup (map t_id (twos s));
  w_nf : forall b, In b (nbs s) -> b_id b < fresh s;
  w_lf : forall l, In l (n2ls s) -> l_id l < fresh s;
  w_tf : forall t, In t (twos s) -> t_id t < fresh s;
  w_addr : NoDup (map t_addr (twos s));
  w_ln : forall l, In l (n2ls s) -> In (l_nbr l) (map b_id (nbs s));
  w_lt : forall l, In l (n2ls s) -> In (l_two l) (map t_id (twos s));
  w_pair : NoDup (map (fun l => (l_nbr l, l_two l)) (n2ls s));
  w_agree : forall t n, In t (twos s) -> (In n (map e_nbr (t_list t)) <-> In (n, t_id t) (map (fun l => (l_nbr l, l_two l)) (n2ls s)));
  w_once : forall t, In t (twos s) -> NoDup (map e_nbr (t_list t));
  w_cnt : forall t, In t (twos s) -> t_cnt t = Z.of_nat (length (t_list t)) }.
Definition pos (s : tstate) : Prop := forall t, In t (twos s) -> 1 <= t_cnt t.
Definition pairs (s : tstate) : list (Z * Z) := map (fun t => (t_id t, t_addr t)) (twos s).
Definition shrinks (s s' : tstate) : Prop := incl (n2ls s') (n2ls s) /\ incl (pairs s') (pairs s).

Lemma in_pair : forall (n t : Z) ls, In (n, t) (map (fun l => (l_nbr l, l_two l)) ls) <-> exists l, In l ls /\ l_nbr l = n /\ l_two l = t.
Proof.
  intros n t ls. rewrite in_map_iff. split; intros (l & A & B); exists l.
  - inversion A; subst. auto.
  - destruct B as [B1 B2]. split; [congruence|auto].
Qed.
Lemma two_uniq : forall s t t', wf s -> In t (twos s) -> In t' (twos s) -> t_id t = t_id t' -> t = t'.
Proof. intros s t t' W A B E. exact (inj_nodup _ _ t_id (twos s) t t' (w_tid _ W) A B E). Qed.
Lemma list_le : forall s t, wf s -> In t (twos s) -> (length (t_list t) <= length (nbs s))%nat.
Proof.
  intros s t W I. rewrite <- (map_length e_nbr), <- (map_length b_id). apply NoDup_incl_length; [now apply (w_once _ W)|].
  intros n H. apply (w_agree _ W t n I) in H. apply in_pair in H. destruct H as (l & A & B & C). subst n. now apply (w_ln _ W).
Qed.
Lemma i16_small : forall x, -32768 <= x <= 32767 -> i16 x = x.
Proof. intros x H. unfold i16. lia. Qed.

(** ** dropping a record: the timer, the deletion of a neighbor *)
Lemma drop_spec : forall l s, wf s -> pos s -> Z.of_nat (length (nbs s)) <= 32767 -> In l (n2ls s) ->
  exists s', drop_n2l l s = Some s' /\ wf s' /\ pos s' /\ nbs s' = nbs s /\ shrinks s s' /\ fresh s' = fresh s /\
    n2ls s' = filter (fun x => negb (l_id x =? l_id l)) (n2ls s).
Proof.
  intros l s W P B I. unfold drop_n2l. destruct (get_two_ex (l_two l) s (w_lt _ W l I)) as [t G]. rewrite G. apply get_two_some in G. destruct G as [It Et].
  set (f := fun t0 => del_nbr_ptr (l_nbr l) (set_cnt (i16 (t_cnt t0 - 1)) t0)).
  set (s1 := set_twos (upd_two (l_two l) f (twos s)) s). unfold del_n2l.
  assert (In (f t) (twos s1)) as If. { apply in_upd. exists t. split; [exact It|]. now replace (t_id t =? l_two l) with true by lia. }
  assert (get_two (l_two l) s1 = Some (f t)) as G1.
  { destruct (get_two_ex (l_two l) s1) as [x Gx]. { apply in_map_iff. exists (f t). auto. } rewrite Gx. f_equal.
    apply get_two_some in Gx. apply (inj_nodup _ _ t_id (twos s1)); [|tauto|tauto|cbn; lia].
    cbn [s1 twos set_twos]. rewrite upd_map by reflexivity. apply (w_tid _ W). }
  rewrite G1. destruct (get_nb_ex (l_nbr l) s1 (w_ln _ W l I)) as [b Gb]. rewrite Gb.
  assert (In (l_nbr l) (map e_nbr (t_list t))) as IN. { apply (w_agree _ W t _ It). apply in_pair. exists l. auto. }
  assert (t_cnt t = Z.of_nat (length (t_list t)) /\ 1 <= t_cnt t <= 32767) as [CT RT].
  { pose proof (w_cnt _ W t It). pose proof (P t It). pose proof (list_le s t W It). lia. }
  assert (t_cnt (f t) = t_cnt t - 1) as CF by (cbn; rewrite i16_small; lia).
  assert (Z.of_nat (length (t_list (f t))) = t_cnt t - 1) as LF. { cbn [f del_nbr_ptr set_tlist t_list set_cnt]. rewrite filter_len_one; [lia| |exact IN]. now apply (w_once _ W). }
  set (K := fun x => negb (l_id x =? l_id l)).
  assert (forall x, In x (filter K (n2ls s)) <-> In x (n2ls s) /\ x <> l) as KF.
  { intro x. rewrite filter_In. unfold K. split; intros [A C]; split; auto.
    - intros ->. rewrite Z.eqb_refl in C. discriminate.
    - apply negb_true_iff, Z.eqb_neq. intro Q. apply C. exact (inj_nodup _ _ l_id (n2ls s) x l (w_lid _ W) A I Q). }
  (* the records left, as pairs *)
  assert (forall n i, In (n, i) (map (fun x => (l_nbr x, l_two x)) (filter K (n2ls s))) <->
    In (n, i) (map (fun x => (l_nbr x, l_two x)) (n2ls s)) /\ ~ (n = l_nbr l /\ i = l_two l)) as KP.
  { intros n i. rewrite !in_pair. split.
    - intros (x & A & C & D). apply KF in A. destruct A as [A E]. split; [exists x; auto|]. intros [Q1 Q2]. apply E.
      apply (inj_nodup _ _ (fun x => (l_nbr x, l_two x)) (n2ls s)); [apply (w_pair _ W)|auto|auto|congruence].
    - intros [(x & A & C & D) E]. exists x. split; [|auto]. apply KF. split; [exact A|]. intros ->. apply E. auto. }
  set (s2 := if t_cnt (f t) <? 1 then set_twos (filter (fun x => negb (t_id x =? t_id (f t))) (twos s1)) s1 else s1).
  assert (forall x', In x' (twos s2) <-> exists x, In x (twos s) /\ (x <> t \/ 1 < t_cnt t) /\ x' = if t_id x =? l_two l then f x else x) as T2.
  { intro x'. assert (forall x, In x (twos s) -> (x <> t <-> t_id x <> l_two l)) as NE.
    { intros x Ix. split; intro Q; [intro Q2; apply Q; apply (two_uniq s); auto; lia|intros ->; lia]. }
    unfold s2. destruct (t_cnt (f t) <? 1) eqn:E.
    - cbn [twos set_twos]. rewrite filter_In. cbn [s1 twos set_twos]. rewrite in_upd. split.
      + intros [(x & A & ->) C]. exists x. split; [exact A|]. split; [|reflexivity]. left. apply (NE x A). intro Q. replace (t_id x =? l_two l) with true in C by lia.
        change (t_id (f x)) with (t_id x) in C. change (t_id (f t)) with (t_id t) in C. replace (t_id x =? t_id t) with true in C by lia. discriminate.
      + intros (x & A & [C| C] & ->); [|lia]. split; [eauto|]. apply (NE x A) in C. replace (t_id x =? l_two l) with false by lia.
        change (t_id (f t)) with (t_id t). replace (t_id x =? t_id t) with false by lia. reflexivity.
    - cbn [s1 twos set_twos]. rewrite in_upd. split; intros (x & A & C).
      + exists x. split; [exact A|]. split; [right; lia|exact C].
      + exists x. split; [exact A|tauto]. }
  assert (nbs s2 = nbs s /\ n2ls s2 = n2ls s /\ fresh s2 = fresh s) as (E1 & E2 & E3) by (unfold s2; destruct (_ <? _); auto).
  assert (forall (A : Type) (g : two -> A), (forall x, g (f x) = g x) -> NoDup (map g (twos s)) -> NoDup (map g (twos s2))) as NDT.
  { intros A g Hg ND. unfold s2. destruct (_ <? _); cbn [twos set_twos]; [apply nodup_map_filter|]; cbn [s1 twos set_twos]; rewrite upd_map; auto. }
  exists (set_n2ls (filter K (n2ls s2)) s2). split; [reflexivity|]. rewrite E2. split; [|split; [|split; [exact E1|split; [split|]]]].
  - constructor; cbn [nbs n2ls twos fresh set_n2ls]; rewrite ?E1, ?E3.
    + apply (w_nid _ W).
    + apply nodup_map_filter. apply (w_lid _ W).
    + apply NDT; [reflexivity|apply (w_tid _ W)].
    + apply (w_nf _ W).
    + intros x A. apply KF in A. now apply (w_lf _ W).
    + intros x A. apply T2 in A. destruct A as (y & A & _ & ->). destruct (_ =? _); cbn; now apply (w_tf _ W).
    + apply NDT; [reflexivity|apply (w_addr _ W)].
    + intros x A. apply KF in A. now apply (w_ln _ W).
    + intros x A. apply KF in A. destruct A as [A N]. pose proof (w_lt _ W x A) as Q. apply in_map_iff in Q. destruct Q as (y & Q1 & Q2). apply in_map_iff.
      exists (if t_id y =? l_two l then f y else y). split; [destruct (_ =? _); exact Q1|]. apply T2. exists y. split; [exact Q2|]. split; [|reflexivity].
      destruct (Z_lt_dec 1 (t_cnt t)) as [Q|Q]; [now right|left]. intros ->.
      (* the only record of t is l *)
      assert (length (t_list t) = 1%nat) as L1 by lia. destruct (t_list t) as [|e0 [|? ?]] eqn:TL; try discriminate.
      assert (In (l_nbr x) (map e_nbr (t_list t))) as Q3. { apply (w_agree _ W t _ Q2). apply in_pair. exists x. auto. }
      rewrite TL in Q3. cbn in Q3, IN. apply N. apply (inj_nodup _ _ (fun x => (l_nbr x, l_two x)) (n2ls s)); [apply (w_pair _ W)|auto|auto|]. f_equal; [|lia].
      destruct Q3 as [Q3|[]]. destruct IN as [IN|[]]. congruence.
    + apply nodup_map_filter. apply (w_pair _ W).
    + intros x' n A. apply T2 in A. destruct A as (x & A & _ & ->). rewrite KP. destruct (t_id x =? l_two l) eqn:Q.
      * assert (x = t) as -> by (apply (two_uniq s); auto; lia). change (t_id (f t)) with (t_id t). rewrite <- (w_agree _ W t n It).
        cbn [f del_nbr_ptr set_tlist t_list set_cnt]. rewrite !in_map_iff. split.
        -- intros (e & C & D). apply filter_In in D. destruct D as [D1 D2]. split; [eauto|]. lia.
        -- intros [(e & C & D) N]. exists e. split; [exact C|]. apply filter_In. split; [exact D|]. lia.
      * rewrite <- (w_agree _ W x n A). split; [intro H; split; [exact H|lia]|tauto].
    + intros x' A. apply T2 in A. destruct A as (x & A & _ & ->). destruct (_ =? _); [cbn; apply nodup_map_filter|]; now apply (w_once _ W).
    + intros x' A. apply T2 in A. destruct A as (x & A & _ & ->). destruct (t_id x =? l_two l) eqn:Q; [|now apply (w_cnt _ W)].
      assert (x = t) as -> by (apply (two_uniq s); auto; lia). lia.
  - intros x' A. cbn [twos set_n2ls] in A. apply T2 in A. destruct A as (x & A & C & ->). destruct (t_id x =? l_two l) eqn:Q; [|now apply P].
    assert (x = t) as -> by (apply (two_uniq s); auto; lia). destruct C as [C|C]; [easy|lia].
  - intros x A. cbn [n2ls set_n2ls] in A. now apply KF in A.
  - intros [i a] A. unfold pairs in *. apply in_map_iff in A. destruct A as (x' & A & C). cbn [twos set_n2ls] in C. apply T2 in C. destruct C as (x & C & _ & ->).
    apply in_map_iff. exists x. split; [|exact C]. rewrite <- A. destruct (_ =? _); reflexivity.
  - split; [exact E3|reflexivity].
Qed.

Lemma shrinks_refl : forall s, shrinks s s.
Proof. intro s. split; intros x H; exact H. Qed.
Lemma shrinks_trans : forall a b c, shrinks a b -> shrinks b c -> shrinks a c.
Proof. intros a b c [H1 H2] [H3 H4]. split; intros x H; auto. Qed.

Lemma drop_all_spec : forall ls s, wf s -> pos s -> Z.of_nat (length (nbs s)) <= 32767 -> incl ls (n2ls s) -> NoDup (map l_id ls) ->
  exists s', drop_all ls s = Some s' /\ wf s' /\ pos s' /\ nbs s' = nbs s /\ shrinks s s' /\ fresh s' = fresh s /\
    forall x, In x (n2ls s') <-> In x (n2ls s) /\ ~ In x ls.
Proof.
  induction ls as [|l r IH]; intros s W P B I ND; cbn [drop_all].
  - exists s. split; [reflexivity|]. split; [exact W|]. split; [exact P|]. split; [reflexivity|]. split; [apply shrinks_refl|]. split; [reflexivity|]. intro x. cbn. tauto.
  - assert (In l (n2ls s)) as Il by (apply I; now left).
    destruct (drop_spec l s W P B Il) as (s1 & D & W1 & P1 & N1 & S1 & F1 & L1). rewrite D. cbn [map] in ND. inversion ND as [|? ? ND1 ND2]; subst.
    destruct (IH s1) as (s2 & D2 & W2 & P2 & N2 & S2 & F2 & L2); auto.
    { now rewrite N1. }
    { intros x Ix. rewrite L1. apply filter_In. split; [apply I; now right|]. apply negb_true_iff, Z.eqb_neq. intro Q. apply ND1. apply in_map_iff. eauto. }
    exists s2. split; [exact D2|]. split; [exact W2|]. split; [exact P2|]. split; [congruence|]. split; [eapply shrinks_trans; eauto|]. split; [congruence|].
    intro x. rewrite L2, L1, filter_In. cbn [In]. split.
    + intros [[A C] E]. split; [exact A|]. intros [->|Q]; [|tauto]. rewrite Z.eqb_refl in C. discriminate.
    + intros [A C]. split; [|tauto]. split; [exact A|]. apply negb_true_iff, Z.eqb_neq. intro Q. apply C. left.
      symmetry. exact (inj_nodup _ _ l_id (n2ls s) x l (w_lid _ W) A Il Q).
Qed.

Lemma wf_drop_nb : forall s i, wf s -> (forall l, In l (n2ls s) -> l_nbr l <> i) -> wf (set_nbs (filter (fun x => negb (b_id x =? i)) (nbs s)) s).
Proof.
  intros s i W H. constructor; cbn [nbs n2ls twos fresh set_nbs]; try apply W.
  - apply nodup_map_filter. apply W.
  - intros b A. apply filter_In in A. now apply W.
  - intros l A. pose proof (w_ln _ W l A) as Q. apply in_map_iff in Q. destruct Q as (b & Q1 & Q2). apply in_map_iff. exists b. split; [exact Q1|].
    apply filter_In. split; [exact Q2|]. specialize (H l A). lia.
Qed.

Lemma del_nb_spec : forall a s, wf s -> pos s -> Z.of_nat (length (nbs s)) <= 32767 ->
  exists s', del_nb a s = Some s' /\ wf s' /\ pos s' /\ shrinks s s' /\ fresh s' = fresh s /\
    nbs s' = match lookup_nb a s with Some b => filter (fun x => negb (b_id x =? b_id b)) (nbs s) | None => nbs s end.
Proof.
  intros a s W P B. unfold del_nb. destruct (lookup_nb a s) as [b|] eqn:L.
  - destruct (drop_all_spec (list_of (b_id b) s) s W P B) as (s1 & D & W1 & P1 & N1 & S1 & F1 & L1).
    { intros x A. now apply in_list_of in A. }
    { unfold list_of. apply nodup_map_filter. apply W. }
    rewrite D. eexists. split; [reflexivity|]. split; [|split; [exact P1|split; [exact S1|split; [exact F1|cbn; now rewrite N1]]]].
    apply wf_drop_nb; [exact W1|]. intros l A Q. apply L1 in A. destruct A as [A C]. apply C. apply in_list_of. auto.
  - exists s. split; [reflexivity|]. split; [exact W|]. split; [exact P|]. split; [apply shrinks_refl|]. auto.
Qed.

(** ** deleting a two-hop neighbor *)
Lemma del_two_loop_spec : forall es t s0 s, wf s0 -> pos s0 -> In t (twos s0) -> nbs s = nbs s0 -> twos s = twos s0 -> fresh s = fresh s0 ->
  incl (map e_nbr es) (map e_nbr (t_list t)) -> NoDup (map e_nbr es) -> incl (n2ls s) (n2ls s0) -> NoDup (map l_id (n2ls s)) ->
  exists s', del_two_loop (t_id t) es s = Some s' /\ nbs s' = nbs s0 /\ twos s' = twos s0 /\ fresh s' = fresh s0 /\ 
    (forall x, In x (n2ls s') <-> In x (n2ls s) /\ ~ (l_two x = t_id t /\ In (l_nbr x) (map e_nbr es))) /\ NoDup (map l_id (n2ls s')) /\
    (exists f, n2ls s' = filter f (n2ls s)).
Proof.
  induction es as [|e r IH]; intros t s0 s W P It E1 E2 E3 Hi ND HI HL; cbn [del_two_loop].
  - exists s. split; [reflexivity|]. repeat split; auto; try tauto. exists (fun _ => true). now rewrite filter_keep.
  - cbn [map] in *. inversion ND as [|? ? ND1 ND2]; subst. unfold del_n2_ptr.
    assert (In (e_nbr e) (map b_id (nbs s))) as In1.
    { rewrite E1. assert (In (e_nbr e) (map e_nbr (t_list t))) as Q by (apply Hi; now left). apply (w_agree _ W t _ It) in Q. apply in_pair in Q.
      destruct Q as (l & A & C & D). rewrite <- C. now apply (w_ln _ W). }
    destruct (get_nb_ex _ _ In1) as [b G]. rewrite G.
    assert (forall s1, twos s1 = twos s0 -> exists t1, get_two (t_id t) s1 = Some t1) as GT.
    { intros s1 Q. apply get_two_ex. rewrite Q. apply in_map_iff. eauto. }
    destruct (find (fun l => l_two l =? t_id t) (list_of (e_nbr e) s)) as [l|] eqn:F.
    + apply find_some in F. destruct F as [F1 F2]. apply in_list_of in F1. destruct F1 as [F1 F3].
      unfold del_n2l. destruct (GT s E2) as [t1 G1]. replace (l_two l) with (t_id t) by lia. rewrite G1, F3, G.
      assert (t1 = t) as ->. { apply get_two_some in G1. rewrite E2 in G1. apply (two_uniq s0); tauto. }
      pose proof (P t It). replace (t_cnt t <? 1) with false by lia.
      set (s1 := set_n2ls (filter (fun x => negb (l_id x =? l_id l)) (n2ls s)) s).
      destruct (GT s1 E2) as [t2 G2]. rewrite G2.
      assert (forall x, In x (n2ls s1) <-> In x (n2ls s) /\ x <> l) as N1.
      { intro x. cbn [s1 n2ls set_n2ls]. rewrite filter_In. split; intros [A C]; split; auto.
        - intros ->. rewrite Z.eqb_refl in C. discriminate.
        - apply negb_true_iff, Z.eqb_neq. intro Q. apply C. exact (inj_nodup _ _ l_id (n2ls s) x l HL A F1 Q). }
      destruct (IH t s0 s1) as (s' & D1 & D2 & D3 & D4 & D5 & D6 & f & D7); auto.
      { intros x A. apply Hi. now right. }
      { intros x A. apply HI. now apply N1 in A. }
      { cbn [s1 n2ls set_n2ls]. now apply nodup_map_filter. }
      exists s'. split; [exact D1|]. repeat split; auto.
      * apply D5 in H0. destruct H0 as [A C]. now apply N1 in A.
      * apply D5 in H0. destruct H0 as [A C]. apply N1 in A. destruct A as [A A2]. intros [Q1 [Q2|Q2]]; [|tauto]. apply A2.
        apply (inj_nodup _ _ (fun x => (l_nbr x, l_two x)) (n2ls s0)); [apply W|auto|auto|]. f_equal; [congruence|lia].
      * intros [A C]. apply D5. split; [|intros [Q1 Q2]; apply C; split; [exact Q1|now right]]. apply N1. split; [exact A|]. intros ->. apply C. split; [lia|]. left. congruence.
      * exists (fun x => negb (l_id x =? l_id l) && f x). rewrite D7. cbn [s1 n2ls set_n2ls]. clear. induction (n2ls s) as [|y q IHq]; [reflexivity|].
        cbn [filter]. destruct (negb (l_id y =? l_id l)); cbn [andb filter]; [destruct (f y)|]; now rewrite IHq.
    + destruct (GT s E2) as [t2 G2]. rewrite G2.
      destruct (IH t s0 s) as (s' & D1 & D2 & D3 & D4 & D5 & D6 & D7); auto.
      { intros x A. apply Hi. now right. }
      exists s'. split; [exact D1|]. repeat split; auto.
      * now apply D5 in H.
      * apply D5 in H. destruct H as [A C]. intros [Q1 [Q2|Q2]]; [|tauto].
        pose proof (find_none _ _ F x) as Q. cbn beta in Q. rewrite Q1, Z.eqb_refl in Q. discriminate Q. apply in_list_of. auto.
      * intros [A C]. apply D5. split; [exact A|]. intros [Q1 Q2]; apply C; split; [exact Q1|now right].
Qed.
Lemma del_two_spec : forall t s, wf s -> pos s -> In t (twos s) ->
  exists s', del_two t s = Some s' /\ wf s' /\ pos s' /\ nbs s' = nbs s /\ shrinks s s' /\ fresh s' = fresh s.
Proof.
  intros t s W P It. unfold del_two.
  destruct (del_two_loop_spec (t_list t) t s s W P It) as (s1 & D1 & D2 & D3 & D4 & D5 & D6 & f & D7); auto.
  { intros x A; exact A. } { now apply (w_once _ W). } { intros x A; exact A. } { apply W. }
  rewrite D1. eexists. split; [reflexivity|]. rewrite D3.
  assert (forall x, In x (n2ls s1) <-> In x (n2ls s) /\ l_two x <> t_id t) as N.
  { intro x. rewrite D5. split; intros [A C]; split; auto.
    - intro Q. apply C. split; [exact Q|]. apply (w_agree _ W t _ It). apply in_pair. exists x. auto.
    - tauto. }
  assert (forall x, In x (filter (fun y => negb (t_id y =? t_id t)) (twos s)) <-> In x (twos s) /\ t_id x <> t_id t) as T.
  { intro x. rewrite filter_In. split; intros [A C]; split; auto; lia. }
  split; [|split; [|split; [exact D2|split; [split|exact D4]]]].
  - constructor; cbn [nbs n2ls twos fresh set_twos]; rewrite ?D2, ?D4; try apply W.
    + exact D6.
    + apply nodup_map_filter, W.
    + intros l A. apply N in A. now apply W.
    + intros x A. apply T in A. now apply W.
    + apply nodup_map_filter, W.
    + intros l A. apply N in A. now apply W.
    + intros l A. apply N in A. destruct A as [A C]. pose proof (w_lt _ W l A) as Q. apply in_map_iff in Q. destruct Q as (y & Q1 & Q2). apply in_map_iff.
      exists y. split; [exact Q1|]. apply T. split; [exact Q2|lia].
    + rewrite D7. apply nodup_map_filter, W.
    + intros x n A. apply T in A. destruct A as [A C]. rewrite (w_agree _ W x n A), !in_pair. split; intros (l & L1 & L2 & L3); exists l; (split; [|auto]); apply N in L1 || apply N; [|tauto].
      split; [exact L1|]. congruence.
    + intros x A. apply T in A. now apply (w_once _ W).
    + intros x A. apply T in A. now apply (w_cnt _ W).
  - intros x A. cbn [twos set_twos] in A. apply T in A. now apply P.
  - intros x A. cbn [n2ls set_twos] in A. now apply N in A.
  - intros x A. unfold pairs in *. cbn [twos set_twos] in A. apply in_map_iff in A. destruct A as (y & A & C). apply T in C. apply in_map_iff. exists y. tauto.
Qed.

(** ** neighbors *)
Lemma wf_ins : forall a s, wf s -> wf (ins_nb a s).
Proof.
  intros a s W. unfold ins_nb. destruct (lookup_nb a s); [exact W|]. constructor; cbn [nbs n2ls twos fresh]; try apply W.
  - cbn [map b_id]. constructor; [|apply W]. intro Q. apply in_map_iff in Q. destruct Q as (b & Q1 & Q2). pose proof (w_nf _ W b Q2). lia.
  - intros b [<-|A]; [cbn; lia|]. pose proof (w_nf _ W b A). lia.
  - intros l A. pose proof (w_lf _ W l A). lia.
  - intros l A. pose proof (w_tf _ W l A). lia.
  - intros l A. right. now apply (w_ln _ W).
Qed.
Lemma wf_rename : forall n a s, wf s -> wf (rename n a s).
Proof.
  intros n a s W. unfold rename. destruct (get_nb n s) as [b|] eqn:G; [|exact W]. apply get_nb_some in G. constructor; cbn [nbs n2ls twos fresh set_nbs]; try apply W.
  - cbn [map b_id]. constructor; [|apply nodup_map_filter, W]. intro Q. apply in_map_iff in Q. destruct Q as (x & Q1 & Q2). apply filter_In in Q2. lia.
  - intros x [<-|A]; [cbn; destruct G as [G1 <-]; now apply W|]. apply filter_In in A. now apply W.
  - intros l A. pose proof (w_ln _ W l A) as Q. apply in_map_iff in Q. destruct Q as (x & Q1 & Q2). cbn [map b_id]. destruct (Z.eq_dec n (l_nbr l)) as [E|E]; [now left|right].
    apply in_map_iff. exists x. split; [exact Q1|]. apply filter_In. split; [exact Q2|lia].
Qed.
Lemma status_spec : forall hsh al n sym s, wf s -> pos s -> In n (map b_id (nbs s)) ->
  exists s', set_status hsh al n sym s = Some s' /\ wf s' /\ pos s' /\ shrinks s s' /\ fresh s' = fresh s.
Proof.
  intros hsh al n sym s W P I. unfold set_status. destruct (get_nb_ex n s I) as [b G]. rewrite G.
  assert (exists s1, (if sym && negb (b_sym b) then match lookup_two hsh al (b_addr b) s with Some t => del_two t s | None => Some s end else Some s) = Some s1 /\
     wf s1 /\ pos s1 /\ nbs s1 = nbs s /\ shrinks s s1 /\ fresh s1 = fresh s) as (s1 & -> & W1 & P1 & N1 & S1 & F1).
  { pose proof (shrinks_refl s). destruct (_ && _); [|exists s; auto 9]. destruct (lookup_two _ _ _ _) as [t|] eqn:L; [|exists s; auto 9].
    apply find_some in L. apply del_two_spec; tauto. }
  eexists. split; [reflexivity|]. split; [|split; [exact P1|split; [exact S1|exact F1]]].
  assert (map b_id (map (fun x => if b_id x =? n then mkNb n (b_addr x) sym else x) (nbs s1)) = map b_id (nbs s1)) as Q.
  { rewrite map_map. apply map_ext. intro x. destruct (b_id x =? n) eqn:E; [cbn; lia|reflexivity]. }
  constructor; cbn [nbs n2ls twos fresh set_nbs]; rewrite ?Q; try apply W1.
  intros x A. apply in_map_iff in A. destruct A as (y & A & C). pose proof (w_nf _ W1 y C). subst x. destruct (b_id y =? n) eqn:E; [cbn; lia|lia].
Qed.

(** ** HELLO *)
Lemma find_my_spec : forall s a ls, wf s -> incl ls (n2ls s) ->
  exists o, find_my s a ls = Some o /\
    match o with
    | Some l => In l ls /\ In (l_two l, a) (pairs s)
    | None => forall l, In l ls -> ~ In (l_two l, a) (pairs s)
    end.
Proof.
  intros s a ls W. induction ls as [|l r IH]; intro H; cbn [find_my].
  - exists None. split; [reflexivity|]. easy.
  - destruct (get_two_ex (l_two l) s) as [t G]. { apply (w_lt _ W). apply H. now left. } rewrite G. apply get_two_some in G. destruct G as [G1 G2].
    destruct (t_addr t =? a) eqn:E.
    + exists (Some l). split; [reflexivity|]. split; [now left|]. apply in_map_iff. exists t. split; [f_equal; lia|exact G1].
    + destruct IH as (o & IH1 & IH2). { intros x A. apply H. now right. }
      exists o. split; [exact IH1|]. destruct o as [l'|]; [destruct IH2; split; [now right|auto]|].
      intros l' [<-|A]; [|now apply IH2]. intro Q. apply in_map_iff in Q. destruct Q as (t' & Q1 & Q2). inversion Q1 as [[R1 R2]].
      assert (t' = t) as -> by (apply (two_uniq s); auto; lia). lia.
Qed.
Lemma lookup_my_spec : forall n a s, wf s -> exists o, lookup_my n a s = Some o /\
    match o with
    | Some l => In l (n2ls s) /\ l_nbr l = n /\ In (l_two l, a) (pairs s)
    | None => forall l, In l (n2ls s) -> l_nbr l = n -> ~ In (l_two l, a) (pairs s)
    end.
Proof.
  intros n a s W. destruct (find_my_spec s a (list_of n s) W) as (o & A & B). { intros x Q. now apply in_list_of in Q. }
  exists o. split; [exact A|]. destruct o as [l|].
  - destruct B as [B C]. apply in_list_of in B. tauto.
  - intros l Il En. apply B. apply in_list_of. auto.
Qed.

Lemma link2_spec : forall n t s, wf s -> In n (map b_id (nbs s)) -> Z.of_nat (length (nbs s)) <= 32767 -> In t (twos s) ->
  (forall x, In x (twos s) -> x <> t -> 1 <= t_cnt x) -> (forall l, In l (n2ls s) -> l_nbr l = n -> l_two l <> t_id t) ->
  wf (link2 n (t_id t) s) /\ pos (link2 n (t_id t) s) /\ pairs (link2 n (t_id t) s) = pairs s.
Proof.
  intros n t s W In1 B It P NP. unfold link2.
  set (f := fun x => set_cnt (i16 (t_cnt x + 1)) (set_tlist (mkE n LINK_COST_BROKEN LINK_COST_BROKEN LINK_COST_BROKEN :: t_list x) x)).
  assert (forall x', In x' (upd_two (t_id t) f (twos s)) <-> (x' = f t) \/ (In x' (twos s) /\ t_id x' <> t_id t)) as T.
  { intro x'. rewrite in_upd. split.
    - intros (x & A & ->). destruct (t_id x =? t_id t) eqn:E; [left; f_equal; apply (two_uniq s); auto; lia|right; split; [exact A|lia]].
    - intros [->|[A C]]; [exists t; split; [exact It|now rewrite Z.eqb_refl]|]. exists x'. split; [exact A|]. now replace (t_id x' =? t_id t) with false by lia. }
  assert (~ In n (map e_nbr (t_list t))) as NI. { intro Q. apply (w_agree _ W t _ It) in Q. apply in_pair in Q. destruct Q as (l & A & C & D). exact (NP l A C D). }
  assert (t_cnt (f t) = t_cnt t + 1 /\ t_cnt t = Z.of_nat (length (t_list t))) as [CF CT].
  { pose proof (w_cnt _ W t It). split; [|exact H]. cbn. rewrite i16_small; [reflexivity|].
    assert (length (n :: map e_nbr (t_list t)) <= length (map b_id (nbs s)))%nat as Q.
    { apply NoDup_incl_length; [constructor; [exact NI|now apply (w_once _ W)]|]. intros m [<-|A]; [exact In1|]. apply (w_agree _ W t _ It) in A.
      apply in_pair in A. destruct A as (l & A & C & D). subst m. now apply (w_ln _ W). }
    cbn [length] in Q. rewrite !map_length in Q. lia. }
  split; [|split].
  - constructor; cbn [nbs n2ls twos fresh map l_id l_nbr l_two]; try apply W.
    + constructor; [|apply W]. intro Q. apply in_map_iff in Q. destruct Q as (l & Q1 & Q2). pose proof (w_lf _ W l Q2). lia.
    + rewrite upd_map by reflexivity. apply W.
    + intros b A. pose proof (w_nf _ W b A). lia.
    + intros l [<-|A]; [cbn; lia|]. pose proof (w_lf _ W l A). lia.
    + intros x A. apply T in A. destruct A as [->|[A _]]; [pose proof (w_tf _ W t It); cbn; lia|]. pose proof (w_tf _ W x A). lia.
    + rewrite upd_map by reflexivity. apply W.
    + intros l [<-|A]; [exact In1|now apply (w_ln _ W)].
    + intros l A. rewrite upd_map by reflexivity. destruct A as [<-|A]; [cbn; apply in_map_iff; eauto|now apply (w_lt _ W)].
    + constructor; [|apply W]. intro Q. apply in_pair in Q. destruct Q as (l & A & C & D). exact (NP l A C D).
    + intros x m A. cbn [In map]. apply T in A. destruct A as [->|[A C]].
      * change (t_id (f t)) with (t_id t). cbn [f set_cnt set_tlist t_list map e_nbr In]. rewrite (w_agree _ W t m It). split; intros [Q|Q]; auto; [left; congruence|left; congruence].
      * rewrite (w_agree _ W x m A). split; [now right|]. intros [Q|Q]; [|exact Q]. exfalso. apply C. congruence.
    + intros x A. apply T in A. destruct A as [->|[A C]]; [|now apply (w_once _ W)]. cbn. constructor; [exact NI|now apply (w_once _ W)].
    + intros x A. apply T in A. destruct A as [->|[A C]]; [|now apply (w_cnt _ W)]. rewrite CF. cbn. lia.
  - intros x A. cbn [twos] in A. apply T in A. destruct A as [->|[A C]]; [lia|]. apply P; [exact A|]. intros ->. now apply C.
  - unfold pairs. cbn [twos]. now apply upd_map.
Qed.

Lemma wf_newtwo : forall a s, wf s -> ~ In a (map t_addr (twos s)) -> wf (mkS (nbs s) (n2ls s) (mkT (fresh s) a 0 [] :: twos s) (fresh s + 1)).
Proof.
  intros a s W NI. constructor; cbn [nbs n2ls twos fresh map t_id t_addr]; try apply W.
  - constructor; [|apply W]. intro Q. apply in_map_iff in Q. destruct Q as (b & Q1 & Q2). pose proof (w_tf _ W b Q2). lia.
  - intros b A. pose proof (w_nf _ W b A). lia.
  - intros b A. pose proof (w_lf _ W b A). lia.
  - intros b [<-|A]; [cbn; lia|]. pose proof (w_tf _ W b A). lia.
  - constructor; [exact NI|apply W].
  - intros l A. right. now apply (w_lt _ W).
  - intros t n [<-|A]; [|now apply (w_agree _ W)]. cbn. split; [easy|]. intro Q. apply in_pair in Q. destruct Q as (l & Q1 & Q2 & Q3).
    pose proof (w_lt _ W l Q1) as Q. apply in_map_iff in Q. destruct Q as (t & R1 & R2). pose proof (w_tf _ W t R2). lia.
  - intros t [<-|A]; [constructor|now apply (w_once _ W)].
  - intros t [<-|A]; [reflexivity|now apply (w_cnt _ W)].
Qed.

(** changing the costs only *)
Lemma wf_costs : forall i (g : nle -> nle) s, (forall e, e_nbr (g e) = e_nbr e) -> wf s -> pos s ->
  let s' := set_twos (upd_two i (fun t => set_tlist (map g (t_list t)) t) (twos s)) s in wf s' /\ pos s' /\ pairs s' = pairs s.
Proof.
  intros i g s Hg W P s'. assert (forall l, map e_nbr (map g l) = map e_nbr l) as EM by (intro l; rewrite map_map; now apply map_ext).
  split; [|split; [|unfold pairs; cbn [s' twos set_twos]; now apply upd_map]].
  - constructor; cbn [s' nbs n2ls twos fresh set_twos]; rewrite ?upd_map by reflexivity; try apply W.
    + intros x A. apply in_upd in A. destruct A as (y & A & ->). destruct (_ =? _); cbn; now apply (w_tf _ W).
    + intros x n A. apply in_upd in A. destruct A as (y & A & ->). destruct (_ =? _); cbn [t_list set_tlist t_id]; rewrite ?EM; now apply (w_agree _ W).
    + intros x A. apply in_upd in A. destruct A as (y & A & ->). destruct (_ =? _); cbn [t_list set_tlist t_id]; rewrite ?EM; now apply (w_once _ W).
    + intros x A. apply in_upd in A. destruct A as (y & A & ->). destruct (_ =? _); cbn [t_list set_tlist t_cnt]; rewrite ?map_length; now apply (w_cnt _ W).
  - intros x A. cbn [s' twos set_twos] in A. apply in_upd in A. destruct A as (y & A & ->). destruct (_ =? _); cbn; now apply P.
Qed.
(** changing timers only *)
Lemma wf_timer : forall (g : n2l -> n2l) s, (forall l, l_id (g l) = l_id l /\ l_nbr (g l) = l_nbr l /\ l_two (g l) = l_two l) -> wf s -> wf (set_n2ls (map g (n2ls s)) s).
Proof.
  intros g s Hg W. assert (forall l, (l_nbr (g l), l_two (g l)) = (l_nbr l, l_two l)) as E by (intro l; destruct (Hg l) as (_ & -> & ->); reflexivity).
  assert (map (fun l => (l_nbr l, l_two l)) (map g (n2ls s)) = map (fun l => (l_nbr l, l_two l)) (n2ls s)) as EP by (rewrite map_map; now apply map_ext).
  assert (map l_id (map g (n2ls s)) = map l_id (n2ls s)) as EI by (rewrite map_map; apply map_ext; intro l; apply Hg).
  constructor; cbn [nbs n2ls twos fresh set_n2ls]; rewrite ?EP, ?EI; try apply W.
  - intros l A. apply in_map_iff in A. destruct A as (y & <- & A). destruct (Hg y) as (-> & _). now apply (w_lf _ W).
  - intros l A. apply in_map_iff in A. destruct A as (y & <- & A). destruct (Hg y) as (_ & -> & _). now apply (w_ln _ W).
  - intros l A. apply in_map_iff in A. destruct A as (y & <- & A). destruct (Hg y) as (_ & _ & ->). now apply (w_lt _ W).
Qed.

(** What a HELLO of [n] has done so far, when the addresses in [S] have been named. *)
Record hello_rel (lq : bool) (n : Z) (T : option Z) (S : Z -> Prop) (s0 s : tstate) : Prop := {
  r_nbs : nbs s = nbs s0;
  r_fresh : fresh s0 <= fresh s;
  r_pairs : incl (pairs s0) (pairs s);
  r_keep : forall l, In l (n2ls s0) -> exists l', In l' (n2ls s) /\ l_id l' = l_id l /\ l_nbr l' = l_nbr l /\ l_two l' = l_two l;
  r_recs : forall l' x, In l' (n2ls s) -> In (l_two l', x) (pairs s) ->
    (In l' (n2ls s0) /\ In (l_two l', x) (pairs s0) /\ ~ (l_nbr l' = n /\ S x)) \/
    (l_nbr l' = n /\ S x /\
      ((exists l, In l (n2ls s0) /\ l_id l = l_id l' /\ l_nbr l = n /\ In (l_two l, x) (pairs s0) /\ l_timer l' = T) \/
       (fresh s0 <= l_id l' /\ (l_timer l' = None \/ l_timer l' = T))));
  r_there : forall x, S x -> exists l, In l (n2ls s) /\ l_nbr l = n /\ In (l_two l, x) (pairs s);
  r_cost : lq = true -> forall t e, In t (twos s) -> In e (t_list t) -> e_nbr e = n -> S (t_addr t) -> e_path e = LINK_COST_BROKEN;
  r_other : forall t e, In t (twos s) -> In e (t_list t) -> ~ (e_nbr e = n /\ S (t_addr t)) ->
    exists t0, In t0 (twos s0) /\ t_addr t0 = t_addr t /\ In e (t_list t0) }.

Lemma rel_refl : forall lq n T s, hello_rel lq n T (fun _ => False) s s.
Proof.
  intros lq n T s. constructor.
  - reflexivity.
  - lia.
  - intros x H; exact H.
  - intros l A. exists l. auto.
  - intros l x A B. left. tauto.
  - easy.
  - easy.
  - intros t e A B _. eauto.
Qed.
Lemma rel_ext : forall lq n T S S' s0 s, (forall x, S x <-> S' x) -> hello_rel lq n T S s0 s -> hello_rel lq n T S' s0 s.
Proof.
  intros lq n T S S' s0 s E R. constructor; try apply R.
  - intros l x A B. rewrite <- E. now apply R.
  - intros x A. apply R. now apply E.
  - intros L t e A B C D. eapply (r_cost _ _ _ _ _ _ R); eauto. now apply E.
  - intros t e A B. rewrite <- E. now apply R.
Qed.
Lemma pairs_uniq : forall s i a b, wf s -> In (i, a) (pairs s) -> In (i, b) (pairs s) -> a = b.
Proof.
  intros s i a b W A B. apply in_map_iff in A, B. destruct A as (t & A1 & A2). destruct B as (u & B1 & B2). inversion A1; inversion B1; subst.
  f_equal. apply (two_uniq s); auto; lia.
Qed.
Lemma pairs_addr : forall s i j a, wf s -> In (i, a) (pairs s) -> In (j, a) (pairs s) -> i = j.
Proof.
  intros s i j a W A B. apply in_map_iff in A, B. destruct A as (t & A1 & A2). destruct B as (u & B1 & B2). inversion A1; inversion B1; subst.
  f_equal. apply (inj_nodup _ _ t_addr (twos s)); auto; apply W.
Qed.
Lemma in_pairs : forall s t, In t (twos s) -> In (t_id t, t_addr t) (pairs s).
Proof. intros s t H. apply in_map_iff. eauto. Qed.

Lemma add_step : forall rmax hsh now v n a s0 S s, wf s0 -> wf s -> pos s -> In n (map b_id (nbs s)) -> Z.of_nat (length (nbs s)) <= 32767 ->
  (forall m, ~ In a (v_ali v m)) -> hello_rel (v_lq v) n (timer_at rmax now (v_time v) (v_rand v)) S s0 s ->
  exists s', add_listed rmax hsh now v n a s = Some s' /\ wf s' /\ pos s' /\
    hello_rel (v_lq v) n (timer_at rmax now (v_time v) (v_rand v)) (fun x => x = a \/ S x) s0 s'.
Proof.
  intros rmax hsh now v n a s0 S s W0 W P In1 B NA R. unfold add_listed. set (T := timer_at rmax now (v_time v) (v_rand v)) in *.
  destruct (lookup_my_spec n a s W) as (o & LM & LS). rewrite LM. destruct o as [l|].
  - destruct LS as (Il & Nl & Pl).
    set (g := fun x => if l_id x =? l_id l then set_ltimer T x else x).
    set (s1 := set_n2ls (map g (n2ls s)) s).
    assert (forall x, l_id (g x) = l_id x /\ l_nbr (g x) = l_nbr x /\ l_two (g x) = l_two x) as Hg by (intro x; unfold g; destruct (_ =? _); auto).
    assert (wf s1) as W1 by (apply wf_timer; auto).
    set (c := fun e => if e_nbr e =? n then mkE n (e_second e) LINK_COST_BROKEN (e_saved e) else e).
    set (s2 := if v_lq v then set_twos (upd_two (l_two l) (fun t => set_tlist (map c (t_list t)) t) (twos s1)) s1 else s1).
    assert (wf s2 /\ pos s2 /\ pairs s2 = pairs s /\ n2ls s2 = map g (n2ls s) /\ nbs s2 = nbs s /\ fresh s2 = fresh s) as (W2 & P2 & E2 & L2 & N2 & F2).
    { unfold s2. destruct (v_lq v); [|split; [exact W1|]; split; [exact P|]; auto]. destruct (wf_costs (l_two l) c s1) as (A & C & D); auto.
      { intro e. unfold c. destruct (e_nbr e =? n) eqn:Q; [cbn; lia|reflexivity]. } split; [exact A|]. split; [exact C|]. split; [exact D|]. auto. }
    assert (forall t', In t' (twos s2) -> exists t, In t (twos s) /\ t_addr t' = t_addr t /\ t_id t' = t_id t /\ t_list t' = if v_lq v && (t_id t =? l_two l) then map c (t_list t) else t_list t) as T2.
    { intros t' A. unfold s2 in A. destruct (v_lq v); cbn [andb]; [|eauto]. cbn [twos set_twos] in A. apply in_upd in A. destruct A as (t & A & ->).
      exists t. split; [exact A|]. destruct (t_id t =? l_two l); auto. }
    exists s2. split; [reflexivity|]. split; [exact W2|]. split; [exact P2|]. constructor.
    + rewrite N2. apply R.
    + rewrite F2. apply R.
    + rewrite E2. apply R.
    + intros k A. destruct (r_keep _ _ _ _ _ _ R k A) as (k' & K1 & K2 & K3 & K4). exists (g k'). destruct (Hg k') as (-> & -> & ->). rewrite L2. split; [now apply in_map|auto].
    + intros l' x A C. rewrite E2 in C. rewrite L2 in A. apply in_map_iff in A. destruct A as (l0 & <- & A). destruct (Hg l0) as (G1 & G2 & G3). rewrite G3 in C. rewrite G1, G2.
      destruct (Z.eq_dec (l_id l0) (l_id l)) as [Q|Q].
      * assert (l0 = l) as -> by exact (inj_nodup _ _ l_id (n2ls s) l0 l (w_lid _ W) A Il Q). assert (x = a) as -> by (apply (pairs_uniq s (l_two l)); auto).
        right. split; [exact Nl|]. split; [now left|]. assert (l_timer (g l) = T) as TT by (unfold g; rewrite Z.eqb_refl; reflexivity). rewrite TT.
        destruct (r_recs _ _ _ _ _ _ R l a A C) as [(H1 & H2 & H3)|(H1 & H2 & [(k & H3 & H4 & H5 & H6 & H7)|[H3 H4]])].
        -- left. exists l. auto.
        -- left. exists k. auto.
        -- right. split; [exact H3|now right].
      * assert (g l0 = l0) as -> by (unfold g; now replace (l_id l0 =? l_id l) with false by lia).
        destruct (r_recs _ _ _ _ _ _ R l0 x A C) as [(H1 & H2 & H3)|(H1 & H2 & H3)].
        -- left. split; [exact H1|]. split; [exact H2|]. intros [H4 [->|H5]]; [|now apply H3]. apply Q. f_equal.
           apply (inj_nodup _ _ (fun x => (l_nbr x, l_two x)) (n2ls s)); [apply W|auto|auto|]. f_equal; [congruence|]. now apply (pairs_addr s _ _ a).
        -- right. split; [exact H1|]. split; [now right|]. exact H3.
    + intros x Sx. assert (exists k, In k (n2ls s) /\ l_nbr k = n /\ In (l_two k, x) (pairs s)) as (k & K1 & K2 & K3).
      { destruct Sx as [->|Sx]; [exists l; auto|now apply (r_there _ _ _ _ _ _ R)]. }
      exists (g k). destruct (Hg k) as (G1 & G2 & G3). rewrite G2, G3, E2, L2. split; [now apply in_map|]. auto.
    + intros LQ t' e A C D Sx. destruct (T2 t' A) as (t & T3 & T4 & T5 & T6). rewrite LQ in T6. cbn [andb] in T6. rewrite T4 in Sx.
      destruct (t_id t =? l_two l) eqn:Q.
      * rewrite T6 in C. apply in_map_iff in C. destruct C as (e0 & <- & C). unfold c in *. destruct (e_nbr e0 =? n) eqn:Q2; [reflexivity|lia].
      * rewrite T6 in C. destruct Sx as [Sx|Sx]; [|now apply (r_cost _ _ _ _ _ _ R LQ t e)].
        exfalso. apply in_pairs in T3. rewrite Sx in T3. pose proof (pairs_addr s _ _ a W T3 Pl). lia.
    + intros t' e A C D. destruct (T2 t' A) as (t & T3 & T4 & T5 & T6). rewrite T4 in *. destruct (v_lq v && (t_id t =? l_two l)) eqn:Q; rewrite T6 in C.
      * apply in_map_iff in C. destruct C as (e0 & Ce & C). apply andb_prop in Q. destruct Q as [_ Q].
        assert (t_addr t = a) as Ea. { apply (pairs_uniq s (l_two l)); auto. replace (l_two l) with (t_id t) by lia. now apply in_pairs. }
        assert (e0 = e) as ->. { rewrite <- Ce. unfold c in *. destruct (e_nbr e0 =? n) eqn:Q2; [|reflexivity]. exfalso. apply D. rewrite <- Ce. cbn. auto. }
        apply (r_other _ _ _ _ _ _ R t e T3 C). tauto.
      * apply (r_other _ _ _ _ _ _ R t e T3 C). tauto.
  - (* no record yet *)
    assert (forall t s1, wf s1 -> In t (twos s1) -> t_addr t = a -> nbs s1 = nbs s -> n2ls s1 = n2ls s -> fresh s <= fresh s1 -> incl (pairs s) (pairs s1) ->
       (forall x, In x (twos s1) -> x <> t -> 1 <= t_cnt x) -> (forall i x, In (i, x) (pairs s1) -> In (i, x) (pairs s) \/ x = a) ->
       (forall x e, In x (twos s1) -> In e (t_list x) -> In x (twos s)) ->
       wf (link2 n (t_id t) s1) /\ pos (link2 n (t_id t) s1) /\ hello_rel (v_lq v) n T (fun x => x = a \/ S x) s0 (link2 n (t_id t) s1)) as LNK.
    { intros t s1 W1 It At N1 L1 F1 PI1 P1 PO1 TO1.
      assert (forall l x, In l (n2ls s) -> In (l_two l, x) (pairs s1) -> In (l_two l, x) (pairs s)) as OLD.
      { intros l x A C. pose proof (w_lt _ W l A) as Q. apply in_map_iff in Q. destruct Q as (y & Q1 & Q2). apply in_pairs in Q2. rewrite Q1 in Q2.
        assert (x = t_addr y) as ->; [|exact Q2]. apply (pairs_uniq s1 (l_two l)); auto. }
      assert (forall l, In l (n2ls s1) -> l_nbr l = n -> l_two l <> t_id t) as NP.
      { intros l A C Q. rewrite L1 in A. apply (LS l A C). apply OLD; [exact A|]. rewrite Q, <- At. now apply in_pairs. }
      destruct (link2_spec n t s1) as (W2 & P2 & E2); auto. { now rewrite N1. } { now rewrite N1. }
      split; [exact W2|]. split; [exact P2|]. constructor.
      - cbn [link2 nbs]. rewrite N1. apply R.
      - cbn [link2 fresh]. pose proof (r_fresh _ _ _ _ _ _ R). lia.
      - rewrite E2. intros x A. apply PI1. now apply (r_pairs _ _ _ _ _ _ R).
      - intros k A. destruct (r_keep _ _ _ _ _ _ R k A) as (k' & K). exists k'. split; [right; rewrite L1; tauto|tauto].
      - intros l' x A C. rewrite E2 in C. cbn [link2 n2ls] in A. destruct A as [<-|A].
        + cbn [l_nbr l_two l_id l_timer] in *. assert (x = a) as ->. { apply (pairs_uniq s1 (t_id t)); auto. rewrite <- At. now apply in_pairs. }
          right. split; [reflexivity|]. split; [now left|]. right. pose proof (r_fresh _ _ _ _ _ _ R). split; [lia|now left].
        + rewrite L1 in A. pose proof (OLD l' x A C) as C'. destruct (r_recs _ _ _ _ _ _ R l' x A C') as [(H1 & H2 & H3)|(H1 & H2 & H3)].
          * left. split; [exact H1|]. split; [exact H2|]. intros [H4 [->|H5]]; [|now apply H3]. now apply (LS l').
          * right. split; [exact H1|]. split; [now right|]. exact H3.
      - intros x [->|Sx]; rewrite E2.
        + exists (mkL (fresh s1) n (t_id t) None). split; [now left|]. split; [reflexivity|]. cbn. rewrite <- At. now apply in_pairs.
        + destruct (r_there _ _ _ _ _ _ R x Sx) as (k & K1 & K2 & K3). exists k. split; [right; now rewrite L1|]. auto.
      - intros LQ t' e A C D Sx. cbn [link2 twos] in A. apply in_upd in A. destruct A as (t1 & A & ->).
        destruct (t_id t1 =? t_id t) eqn:Q.
        + assert (t1 = t) as -> by (apply (two_uniq s1); auto; lia). cbn [t_list set_cnt set_tlist t_addr] in *. destruct C as [<-|C]; [reflexivity|].
          (* n was not on the list of t *)
          exfalso. assert (In (e_nbr e) (map e_nbr (t_list t))) as Q2 by (apply in_map; exact C). apply (w_agree _ W1 t _ It) in Q2. apply in_pair in Q2.
          destruct Q2 as (l & Q3 & Q4 & Q5). apply (NP l); auto; lia.
        + pose proof (TO1 t1 e A C) as A'. destruct Sx as [Sx|Sx]; [|now apply (r_cost _ _ _ _ _ _ R LQ t1 e)].
          exfalso. apply in_pairs in A, It. rewrite Sx in A. rewrite At in It. pose proof (pairs_addr s1 _ _ a W1 A It). lia.
      - intros t' e A C D. cbn [link2 twos] in A. apply in_upd in A. destruct A as (t1 & A & ->).
        destruct (t_id t1 =? t_id t) eqn:Q.
        + assert (t1 = t) as -> by (apply (two_uniq s1); auto; lia). cbn [t_list set_cnt set_tlist t_addr] in *. destruct C as [<-|C]; [exfalso; apply D; cbn; auto|].
          pose proof (TO1 t e A C) as A'. apply (r_other _ _ _ _ _ _ R t e A' C). tauto.
        + pose proof (TO1 t1 e A C) as A'. apply (r_other _ _ _ _ _ _ R t1 e A' C). tauto. }
    destruct (lookup_two hsh (v_ali v) a s) as [t|] eqn:LT.
    + apply find_some in LT. destruct LT as [It E]. apply andb_prop in E. destruct E as [_ E]. apply orb_prop in E.
      assert (t_addr t = a) as At. { destruct E as [E|E]; [lia|]. apply existsb_in in E. exfalso. now apply (NA (t_addr t)). }
      eexists. split; [reflexivity|]. apply LNK; auto; try reflexivity; try lia.
      { intros x A; exact A. }
    + assert (~ In a (map t_addr (twos s))) as NI.
      { intro Q. apply in_map_iff in Q. destruct Q as (t & Q1 & Q2). pose proof (find_none _ _ LT t Q2) as Q. cbn beta in Q. rewrite Q1, !Z.eqb_refl in Q. discriminate. }
      eexists. split; [reflexivity|]. set (t := mkT (fresh s) a 0 []). change (fresh s) with (t_id t) at 1 3. apply LNK; try reflexivity.
      * now apply wf_newtwo.
      * now left.
      * cbn [fresh]. lia.
      * intros x A. now right.
      * intros x [<-|A] Q; [easy|now apply P].
      * intros i x [A|A]; [right; inversion A; reflexivity|now left].
      * intros x e [<-|A] Q; [easy|exact A].
Qed.

Definition replaced (v : henv) (x : hnb) : hnb := if v_own v (h_addr x) then x else mkH (main_of v (h_addr x)) (h_sym x) (h_cost x).
Lemma no_alias : forall v x m, no_chain v -> ~ In (main_of v x) (v_ali v m).
Proof.
  intros v x m [C1 C2] H. apply C1 in H. unfold main_of in H. destruct (v_main v x) as [m0|] eqn:E; [|congruence]. rewrite (C2 _ _ E) in H. discriminate.
Qed.
Lemma pass1_step : forall rmax hsh now v n msg s0 S s, no_chain v -> wf s0 -> wf s -> pos s -> In n (map b_id (nbs s)) -> Z.of_nat (length (nbs s)) <= 32767 ->
  hello_rel (v_lq v) n (timer_at rmax now (v_time v) (v_rand v)) S s0 s ->
  exists s', pass1 rmax hsh now v n msg s = Some (s', map (replaced v) msg) /\ wf s' /\ pos s' /\
    hello_rel (v_lq v) n (timer_at rmax now (v_time v) (v_rand v)) (fun x => existsb (names v x) msg = true \/ S x) s0 s'.
Proof.
  intros rmax hsh now v n msg s0. induction msg as [|k r IH]; intros S s NC W0 W P In1 B R; cbn [pass1].
  - exists s. split; [reflexivity|]. split; [exact W|]. split; [exact P|]. eapply rel_ext; [|exact R]. intro x. cbn. split; [now right|]. intros [Q|Q]; [discriminate|exact Q].
  - cbn [map]. unfold replaced at 1. destruct (v_own v (h_addr k)) eqn:OW.
    + destruct (IH S s NC W0 W P In1 B R) as (s' & A & W' & P' & R'). rewrite A. exists s'. split; [reflexivity|]. split; [exact W'|]. split; [exact P'|].
      eapply rel_ext; [|exact R']. intro x. cbn [existsb]. unfold names at 2. rewrite OW. cbn [negb]. rewrite andb_false_r. reflexivity.
    + assert (exists s1, (if h_sym k then add_listed rmax hsh now v n (main_of v (h_addr k)) s else Some s) = Some s1 /\ wf s1 /\ pos s1 /\
        hello_rel (v_lq v) n (timer_at rmax now (v_time v) (v_rand v)) (fun x => names v x k = true \/ S x) s0 s1) as (s1 & A1 & W1 & P1 & R1).
      { destruct (h_sym k) eqn:SY.
        - destruct (add_step rmax hsh now v n (main_of v (h_addr k)) s0 S s W0 W P In1 B) as (s1 & A1 & W1 & P1 & R1); [intro m; now apply no_alias|exact R|].
          exists s1. split; [exact A1|]. split; [exact W1|]. split; [exact P1|]. eapply rel_ext; [|exact R1]. intro x. unfold names. rewrite SY, OW. cbn. split; intros [Q|Q]; auto; left; lia.
        - exists s. split; [reflexivity|]. split; [exact W|]. split; [exact P|]. eapply rel_ext; [|exact R]. intro x. unfold names. rewrite SY. cbn. split; [now right|]. intros [Q|Q]; [discriminate|exact Q]. }
      rewrite A1. pose proof (r_nbs _ _ _ _ _ _ R1) as N1. pose proof (r_nbs _ _ _ _ _ _ R) as N0.
      destruct (IH (fun x => names v x k = true \/ S x) s1 NC W0 W1 P1) as (s' & A & W' & P' & R').
      * now rewrite N1, <- N0.
      * now rewrite N1, <- N0.
      * exact R1.
      * rewrite A. exists s'. split; [reflexivity|]. split; [exact W'|]. split; [exact P'|]. eapply rel_ext; [|exact R']. intro x. cbn [existsb]. rewrite orb_true_iff. tauto.
Qed.

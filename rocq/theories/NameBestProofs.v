From Coq Require Import String Permutation Sorted.
From Verif Require Import Base Bytes Compare CompareProofs NameSvc NameSvcSpec.

Definition sized (k : nat) (r : rte) : Prop := length (r_orig r) = k.
Lemma cmp_better a b : cmp_rt a b = true <-> better a b.
Proof.
  unfold cmp_rt, better. destruct (Z.ltb_spec (r_cost a) (r_cost b)); [split; [left; lia|reflexivity]|]. destruct (Z.gtb_spec (r_cost a) (r_cost b)); [split; [discriminate|lia]|].
  destruct (Z.ltb_spec (r_hops a) (r_hops b)); [split; [right; lia|reflexivity]|]. destruct (Z.gtb_spec (r_hops a) (r_hops b)); [split; [discriminate|lia]|].
  rewrite Z.ltb_lt. lia.
Qed.
Lemma cmp_not a b : cmp_rt a b = false <-> ~ better a b.
Proof. rewrite <- cmp_better. destruct (cmp_rt a b); split; congruence. Qed.
Definition le (a b : rte) : Prop := ~ better b a.
Lemma le_iff a b : le a b <-> r_cost a < r_cost b \/ r_cost a = r_cost b /\ (r_hops a < r_hops b \/ r_hops a = r_hops b /\ memcmp (r_orig a) (r_orig b) <= 0).
Proof. unfold le, better. pose proof (memcmp_sym (r_orig b) (r_orig a)). lia. Qed.
Lemma better_le a b : better a b -> le a b.
Proof. rewrite le_iff. unfold better. lia. Qed.
Lemma le_trans k a b c : sized k a -> sized k b -> sized k c -> le a b -> le b c -> le a c.
Proof.
  rewrite !le_iff. unfold sized. intros Ka Kb Kc H G. pose proof (memcmp_trans (r_orig a) (r_orig b) (r_orig c)) as T.
  rewrite Ka, Kb, Kc in T. specialize (T eq_refl eq_refl). lia.
Qed.
Lemma le_refl a : le a a.
Proof. rewrite le_iff, memcmp_refl. lia. Qed.
(** the array, and its last three elements from the back *)
Inductive arr : list (option rte) -> list rte -> Prop :=
| arr0 : arr [None; None; None; None] []
| arr1 z : arr [None; None; None; Some z] [z]
| arr2 y z : arr [None; None; Some y; Some z] [z; y]
| arr3 w x y z : arr [w; Some x; Some y; Some z] [z; y; x].
Fixpoint ins (r : rte) (l : list rte) : list rte := match l with [] => [r] | z :: l' => if cmp_rt r z then r :: l else z :: ins r l' end.
Lemma ins_perm r l : Permutation (r :: l) (ins r l).
Proof. induction l as [|z l IH]; cbn [ins]; [reflexivity|]. destruct (cmp_rt r z); [reflexivity|]. rewrite perm_swap. now rewrite IH. Qed.
Lemma ins_sorted k r l : sized k r -> Forall (sized k) l -> StronglySorted le l -> StronglySorted le (ins r l).
Proof.
  intros Kr F S. induction S as [|z l S IH A]; cbn [ins]; [repeat constructor|]. inversion F; subst. destruct (cmp_rt r z) eqn:C.
  - apply cmp_better, better_le in C. constructor; [constructor; auto|]. constructor; [exact C|]. rewrite Forall_forall in *. intros x Ix. eapply (le_trans k); [| | |exact C|]; auto.
  - apply cmp_not in C. constructor; [auto|]. rewrite Forall_forall in *. intros x Ix. apply (Permutation_in _ (Permutation_sym (ins_perm r l))) in Ix. destruct Ix as [<-|Ix]; [exact C|auto].
Qed.
Lemma percolate_ok k r a l : sized k r -> arr a l -> Forall (sized k) l -> StronglySorted le l -> exists a', percolate 3 (Some r :: tl a) = Some a' /\ arr a' (firstn 3 (ins r l)).
Proof.
  intros Kr A F S.
  assert (Tr : forall x y, In x l -> In y l -> le x y -> cmp_rt r x = true -> cmp_rt r y = true).
  { intros x y Ix Iy L C. rewrite Forall_forall in F. apply cmp_better. apply cmp_better in C.
    revert C L. rewrite le_iff. unfold better. pose proof (F _ Ix) as Kx. pose proof (F _ Iy) as Ky. unfold sized in *.
    pose proof (memcmp_trans (r_orig r) (r_orig x) (r_orig y)) as T. rewrite Kr, Kx, Ky in T. specialize (T eq_refl eq_refl).
    pose proof (memcmp_trans (r_orig x) (r_orig y) (r_orig r)) as T2. rewrite Kr, Kx, Ky in T2. specialize (T2 eq_refl eq_refl).
    pose proof (memcmp_sym (r_orig r) (r_orig x)). pose proof (memcmp_sym (r_orig r) (r_orig y)). pose proof (memcmp_sym (r_orig y) (r_orig r)). pose proof (memcmp_sym (r_orig x) (r_orig r)). lia. }
  assert (NC : forall x y, In x l -> In y l -> le x y -> cmp_rt y x = false) by (intros; now apply cmp_not).
  inversion A; subst; cbn [tl percolate option_map ins].
  - eexists. split; [reflexivity|]. cbn. constructor.
  - destruct (cmp_rt r z); eexists; (split; [reflexivity|]); cbn; constructor.
  - inversion S as [|? ? S2 L1]; subst. inversion L1; subst. assert (In z [z; y]) by (cbn; auto). assert (In y [z; y]) by (cbn; auto).
    pose proof (Tr z y ltac:(assumption) ltac:(assumption) ltac:(assumption)) as T1. pose proof (NC z y ltac:(assumption) ltac:(assumption) ltac:(assumption)) as N1.
    destruct (cmp_rt r z) eqn:C1, (cmp_rt r y) eqn:C2; try (specialize (T1 eq_refl); discriminate); rewrite ?N1; cbn [option_map]; rewrite ?C1, ?C2, ?N1; cbn [option_map]; eexists; (split; [reflexivity|]); cbn; constructor.
  - inversion S as [|? ? S2 L1]; subst. inversion L1 as [|? ? Lzy L1']; subst. inversion L1' as [|? ? Lzx _]; subst. inversion S2 as [|? ? _ L2]; subst. inversion L2 as [|? ? Lyx _]; subst.
    assert (Iz : In z [z; y; x]) by (cbn; auto). assert (Iy : In y [z; y; x]) by (cbn; auto). assert (Ix : In x [z; y; x]) by (cbn; auto).
    pose proof (Tr z y Iz Iy Lzy) as T1. pose proof (Tr y x Iy Ix Lyx) as T2. pose proof (NC z y Iz Iy Lzy) as N1. pose proof (NC y x Iy Ix Lyx) as N2.
    destruct (cmp_rt r z) eqn:C1, (cmp_rt r y) eqn:C2, (cmp_rt r x) eqn:C3; try (specialize (T1 eq_refl); discriminate); try (specialize (T2 eq_refl); discriminate);
      rewrite ?N1, ?N2; cbn [option_map]; rewrite ?C1, ?C2, ?C3, ?N1, ?N2; cbn [option_map]; eexists; (split; [reflexivity|]); cbn; constructor.
Qed.
Definition best3 (all l : list rte) : Prop :=
  exists rest, Permutation all (l ++ rest) /\ (length l <= 3)%nat /\ ((length l < 3)%nat -> rest = []) /\ StronglySorted le l /\ Forall (fun b => Forall (fun a => le a b) l) rest.
Lemma best3_ins k r all l : sized k r -> Forall (sized k) all -> best3 all l -> best3 (r :: all) (firstn 3 (ins r l)).
Proof.
  intros Kr Ka (rest & P & L3 & R & Srt & F).
  assert (Kl : Forall (sized k) l /\ Forall (sized k) rest) by (apply Forall_app; eapply Permutation_Forall; eauto). destruct Kl as [Kl Kre].
  pose proof (ins_sorted k r l Kr Kl Srt) as SI. pose proof (ins_perm r l) as PI. assert (LI : length (ins r l) = S (length l)) by (rewrite <- (Permutation_length PI); reflexivity).
  assert (KI : Forall (sized k) (ins r l)) by (eapply Permutation_Forall; [exact PI|]; now constructor).
  exists (skipn 3 (ins r l) ++ rest). rewrite <- (firstn_skipn 3 (ins r l)) in SI, PI, KI. set (A := firstn 3 (ins r l)) in *. set (B := skipn 3 (ins r l)) in *.
  assert (SA : StronglySorted le A /\ Forall (fun b => Forall (fun a => le a b) A) B).
  { clearbody A B. clear - SI. induction A as [|a A IH]; [split; [constructor|apply Forall_forall; intros; constructor]|]. cbn [app] in SI. inversion SI as [|? ? S1 F1]; subst. destruct (IH S1) as [X Y]. apply Forall_app in F1. destruct F1 as [F1 F2]. split; [constructor; auto|].
    rewrite Forall_forall in *. intros b Ib. constructor; auto. }
  assert (LA : length A = Nat.min 3 (S (length l))) by (unfold A; now rewrite firstn_length, LI).
  assert (LB : length B = (S (length l) - 3)%nat) by (unfold B; now rewrite skipn_length, LI).
  split; [|split; [lia|split; [|split; [apply SA|]]]].
  - rewrite app_assoc, <- PI. cbn [app]. now constructor.
  - intros H. destruct B; [|cbn [length] in LB; lia]. cbn [app]. apply R. lia.
  - apply Forall_app. split; [apply SA|]. destruct rest as [|b0 rest0]; [constructor|]. assert (E3 : length l = 3%nat) by (destruct (Nat.ltb_spec (length l) 3) as [Hlt|]; [discriminate (R Hlt)|lia]).
    (* an element of A is one of l, or it is the new one, which is better than the one in B *)
    destruct B as [|b1 B']; [cbn [length] in LB; lia|]. destruct SA as [_ SB]. inversion SB as [|? ? HB _]; subst.
    assert (Ib1 : In b1 (r :: l)) by (apply (Permutation_in _ (Permutation_sym PI)); apply in_app_iff; right; cbn; auto).
    rewrite Forall_forall in *. intros b Ib. rewrite Forall_forall. intros a Ia.
    assert (Iar : In a (r :: l)) by (apply (Permutation_in _ (Permutation_sym PI)); apply in_app_iff; auto).
    destruct Iar as [<-|Ial]; [|specialize (F _ Ib); rewrite Forall_forall in F; auto].
    destruct Ib1 as [E1|Ib1].
    + (* r twice in the list *) subst b1. assert (N : In r l \/ ~ In r l) by (assert (D : forall x y : rte, {x = y} + {x <> y}) by (repeat decide equality); destruct (in_dec D r l); auto).
      destruct N as [N|N]; [specialize (F _ Ib); rewrite Forall_forall in F; auto|]. exfalso.
      clear - PI Ia N. apply in_split in Ia. destruct Ia as (A1 & A2 & ->). rewrite <- app_assoc in PI. cbn [app] in PI. apply Permutation_cons_app_inv in PI. apply N. apply (Permutation_in _ (Permutation_sym PI)).
      rewrite app_assoc. apply in_app_iff. right. cbn. auto.
    + apply (le_trans k r b1 b Kr); [now apply Kl|now apply Kre|now apply HB|]. specialize (F _ Ib). rewrite Forall_forall in F. auto.
Qed.
Lemma collect_ok route k : (forall ip r, route ip = Some r -> sized k r) -> forall ips a l all, arr a l -> Forall (sized k) all -> best3 all l ->
  exists a' l', collect route ips a = Some a' /\ arr a' l' /\ best3 (rev (routes route ips) ++ all) l'.
Proof.
  intros K. induction ips as [|ip ips IH]; intros a l all A Ka B; cbn [collect routes]; [cbn; eauto|]. destruct (route ip) as [r|] eqn:R; [|now apply (IH a l)].
  assert (Kr : sized k r) by eauto. assert (Kl : Forall (sized k) l /\ StronglySorted le l).
  { destruct B as (rest & P & _ & _ & S & _). split; [|exact S]. apply (Permutation_Forall P) in Ka. apply Forall_app in Ka. apply Ka. }
  destruct (percolate_ok k r a l Kr A (proj1 Kl) (proj2 Kl)) as (a1 & -> & A1).
  destruct (IH a1 (firstn 3 (ins r l)) (r :: all) A1) as (a' & l' & C & A' & B'); [now constructor|now apply (best3_ins k)|].
  exists a', l'. split; [exact C|]. split; [exact A'|]. cbn [rev]. rewrite <- app_assoc. exact B'.
Qed.
Lemma sorted_nth l : StronglySorted le l -> forall i j a b, (i < j)%nat -> nth_error l i = Some a -> nth_error l j = Some b -> ~ better b a.
Proof.
  induction 1 as [|z l S IH F]; intros i j a b L Hi Hj; [destruct i; discriminate|]. destruct j as [|j]; [lia|]. cbn [nth_error] in Hj. destruct i as [|i].
  - cbn in Hi. inversion Hi; subst. rewrite Forall_forall in F. apply F. now apply nth_error_In in Hj.
  - cbn in Hi. apply (IH i j); auto. lia.
Qed.
Lemma best3_three all l : best3 all l -> three_best all l.
Proof.
  intros (rest & P & L & R & S & F). exists rest. split; [exact P|]. split; [exact L|]. split; [exact R|]. split; [now apply sorted_nth|].
  intros a b Ia Ib. rewrite Forall_forall in F. specialize (F _ Ib). rewrite Forall_forall in F. now apply F.
Qed.
Lemma three_perm all all' l : Permutation all all' -> three_best all l -> three_best all' l.
Proof. intros Q (rest & P & X). exists rest. split; [now rewrite <- Q|exact X]. Qed.
Lemma arr_out a l : arr a l -> exists extra, flat_map (fun x => match x with Some r => [r_dst r] | None => [] end) (rev a) = map r_dst l ++ extra /\ (length extra <= 1)%nat /\ ((length l < 3)%nat -> extra = []).
Proof.
  intros A. inversion A; subst; cbn; try (exists []; split; [reflexivity|]; split; [cbn; lia|reflexivity]). destruct w as [w|]; [exists [r_dst w]|exists []]; (split; [reflexivity|]; split; [cbn; lia|intros; lia]).
Qed.
Lemma resolv_ok route k st : (forall ip r, route ip = Some r -> sized k r) ->
  exists out l extra, resolv route st = Some out /\ out = map r_dst l ++ extra /\ (length extra <= 1)%nat /\ ((length l < 3)%nat -> extra = []) /\ three_best (routes route (map n_ip (stored st FORWARDER))) l.
Proof.
  intros K. destruct (collect_ok route k K (map n_ip (stored st FORWARDER)) [None; None; None; None] [] [] arr0) as (a & l & C & A & B).
  - constructor.
  - exists []. split; [reflexivity|]. split; [cbn; lia|]. split; [reflexivity|]. split; constructor.
  - assert (E : flat_map (fun d => map n_ip (d_names d)) (tab st FORWARDER) = map n_ip (stored st FORWARDER)).
    { unfold stored. induction (tab st FORWARDER) as [|d t IH]; [reflexivity|]. cbn [flat_map]. now rewrite map_app, IH. }
    destruct (arr_out _ _ A) as (extra & O & L1 & L2). exists (map r_dst l ++ extra), l, extra. split.
    + unfold resolv. rewrite E, C. now rewrite O.
    + split; [reflexivity|]. split; [exact L1|]. split; [exact L2|]. apply best3_three in B. rewrite app_nil_r in B. eapply three_perm; [|exact B]. symmetry. apply Permutation_rev.
Qed.

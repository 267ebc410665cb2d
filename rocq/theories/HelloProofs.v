From Verif Require Import Base Bytes Parser ParserSpec Hello HelloSpec.
From Coq Require Import Sorting.Permutation.

(** * Culling *)
Fixpoint ch (nx : nat -> option nat) (p : option nat) (l : list nat) : Prop :=
  match l with [] => p = None | x :: r => p = Some x /\ ch nx (nx x) r end.

Lemma ch_ext nx nx' l : forall p, ch nx p l -> (forall x, In x l -> nx' x = nx x) -> ch nx' p l.
Proof.
  induction l as [|x l IH]; intros p H E; cbn [ch] in *; [exact H|]. destruct H as (H1 & H2). split; [exact H1|].
  rewrite E by now left. apply IH; [exact H2|]. intros y Hy. apply E. now right.
Qed.
Lemma ch_app_r nx l1 : forall p l2, ch nx p (l1 ++ l2) -> l2 <> [] -> ch nx (hd_error l2) l2.
Proof.
  induction l1 as [|x l1 IH]; intros p l2 H N; cbn [app ch] in *.
  - destruct l2; [congruence|]. cbn [ch hd_error] in *. tauto.
  - destruct H as (_ & H). eapply IH; eauto.
Qed.
Lemma ch_hd nx p l : ch nx p l -> p = hd_error l.
Proof. destruct l; cbn [ch hd_error]; tauto. Qed.
Lemma ch_next nx l1 x l2 : forall p, ch nx p (l1 ++ x :: l2) -> nx x = hd_error l2.
Proof.
  induction l1 as [|y l1 IH]; intros p H; cbn [app ch] in H; destruct H as (_ & H).
  - now apply ch_hd in H.
  - eapply IH; eauto.
Qed.
Lemma ch_splice nx l1 : forall p q U U', NoDup (l1 ++ q :: U) -> ch nx p (l1 ++ q :: U) ->
  forall nx', ch nx' (Some q) (q :: U') -> (forall x, ~ In x (q :: U) -> nx' x = nx x) -> ch nx' p (l1 ++ q :: U').
Proof.
  induction l1 as [|y l1 IH]; intros p q U U' ND H nx' H' E; cbn [app] in *.
  - cbn [ch] in *. destruct H as (-> & _). exact H'.
  - cbn [ch] in H |- *. destruct H as (-> & H). split; [reflexivity|]. apply NoDup_cons_iff in ND. destruct ND as (N1 & N2).
    rewrite E. + eapply IH; eauto. + intros Q. apply N1. apply in_or_app. now right.
Qed.
Lemma ch_drop nx l1 q c R : forall p, NoDup (l1 ++ q :: c :: R) -> ch nx p (l1 ++ q :: c :: R) ->
  ch (nat_upd nx q (nx c)) p (l1 ++ q :: R).
Proof.
  induction l1 as [|y l1 IH]; intros p ND H; cbn [app ch] in *.
  - destruct H as (-> & H1 & H2). split; [reflexivity|]. replace (nat_upd nx q (nx c) q) with (nx c) by (unfold nat_upd; now rewrite Nat.eqb_refl).
    eapply ch_ext; [exact H2|]. intros x Hx. unfold nat_upd. destruct (Nat.eqb_spec x q); [|reflexivity]. subst x. exfalso.
    apply NoDup_cons_iff in ND. destruct ND as (N1 & _). apply N1. now right.
  - destruct H as (-> & H). split; [reflexivity|]. apply NoDup_cons_iff in ND. destruct ND as (N1 & N2).
    destruct (Nat.eqb_spec y q) as [->|NE].
    + exfalso. apply N1. apply in_or_app. right. now left.
    + replace (nat_upd nx q (nx c) y) with (nx y) by (unfold nat_upd; destruct (Nat.eqb_spec y q); [congruence|reflexivity]). apply IH; auto.
Qed.
Lemma freed_in h k : freed h k = true <-> In k (hfreed h).
Proof.
  unfold freed. rewrite existsb_exists. split.
  - intros (x & Hx & E). apply Nat.eqb_eq in E. now subst.
  - intros H. exists k. split; [exact H|apply Nat.eqb_refl].
Qed.
Lemma not_freed h k : ~ In k (hfreed h) -> freed h k = false.
Proof. intros H. destruct (freed h k) eqn:E; [apply freed_in in E; tauto|reflexivity]. Qed.
Lemma addr_eqb_spec a b : addr_eqb a b = true <-> a = b.
Proof. unfold addr_eqb. destruct (list_eq_dec Z.eq_dec a b); split; congruence. Qed.
Lemma addr_eqb_sym a b : addr_eqb a b = addr_eqb b a.
Proof. unfold addr_eqb. destruct (list_eq_dec Z.eq_dec a b), (list_eq_dec Z.eq_dec b a); congruence. Qed.

Section Cull.
Variable addr : nat -> list Z.
Definition kp (a : list Z) (x : nat) : bool := negb (addr_eqb (addr x) a).

Lemma cull_in_ok a : forall R fuel l1 q h, (length R <= fuel)%nat ->
  ch (hnx h) (hd_error (l1 ++ q :: R)) (l1 ++ q :: R) -> NoDup (l1 ++ q :: R) ->
  (forall x, In x (l1 ++ q :: R) -> ~ In x (hfreed h)) -> hfirst h = hd_error (tl (l1 ++ q :: R)) ->
  exists h', cull_in addr fuel a (Some q) (hd_error R) h = HOk h' /\ hprev h' = hprev h
   /\ hfirst h' = hd_error (tl (l1 ++ q :: filter (kp a) R))
   /\ ch (hnx h') (hd_error (l1 ++ q :: R)) (l1 ++ q :: filter (kp a) R)
   /\ (forall x, ~ In x (l1 ++ q :: R) -> hnx h' x = hnx h x)
   /\ (forall x, In x (hfreed h') <-> In x (hfreed h) \/ (In x R /\ kp a x = false)).
Proof.
  induction R as [|c R IH]; intros fuel l1 q h Lf C ND NF HF.
  - exists h. split; [destruct fuel; reflexivity|]. cbn [filter]. repeat (split; [assumption || reflexivity|]). split; [auto|]. cbn [In]. tauto.
  - destruct fuel as [|fuel]; [cbn [length] in Lf; lia|]. cbn [length] in Lf. cbn [hd_error cull_in].
    rewrite not_freed by (apply NF, in_or_app; right; right; now left).
    assert (Nc : hnx h c = hd_error R).
    { replace (l1 ++ q :: c :: R) with ((l1 ++ [q]) ++ c :: R) in C by (rewrite <- app_assoc; reflexivity). eapply ch_next, C. }
    cbv zeta. destruct (addr_eqb (addr c) a) eqn:Ea; cbn [negb].
    + rewrite not_freed by (apply NF, in_or_app; right; now left).
      set (first' := if opt_is (hfirst h) c then hnx h c else hfirst h).
      assert (NDr : NoDup (l1 ++ q :: R)).
      { replace (l1 ++ q :: c :: R) with ((l1 ++ [q]) ++ c :: R) in ND by (rewrite <- app_assoc; reflexivity).
        apply NoDup_remove_1 in ND. now rewrite <- app_assoc in ND. }
      assert (F' : first' = hd_error (tl (l1 ++ q :: R))).
      { unfold first'. rewrite HF. destruct l1 as [|y l1].
        - cbn [app tl hd_error opt_is]. rewrite Nat.eqb_refl. exact Nc.
        - cbn [app tl]. destruct l1 as [|z l1]; cbn [app hd_error opt_is].
          + destruct (Nat.eqb_spec q c) as [->|]; [|reflexivity]. exfalso. cbn [app] in ND. apply NoDup_cons_iff in ND. destruct ND as (_ & ND).
            apply NoDup_cons_iff in ND. destruct ND as (N & _). apply N. now left.
          + destruct (Nat.eqb_spec z c) as [->|]; [|reflexivity]. exfalso. cbn [app] in ND. apply NoDup_cons_iff in ND. destruct ND as (_ & ND).
            apply NoDup_cons_iff in ND. destruct ND as (N & _). apply N. apply in_or_app. right. right. now left. }
      destruct (IH fuel l1 q (mkHH (nat_upd (hnx h) q (hnx h c)) (hprev h) first' (c :: hfreed h))) as (h' & A1 & A2 & A3 & A4 & A5 & A6).
      * lia.
      * cbn [hnx]. pose proof (ch_drop _ _ _ _ _ _ ND C) as Q. destruct l1; exact Q.
      * exact NDr.
      * cbn [hfreed]. intros x Hx [E|Q].
        -- subst x. replace (l1 ++ q :: c :: R) with ((l1 ++ [q]) ++ c :: R) in ND by (rewrite <- app_assoc; reflexivity).
           apply NoDup_remove_2 in ND. rewrite <- app_assoc in ND. cbn [app] in ND. tauto.
        -- revert Q. apply NF. apply in_app_or in Hx. apply in_or_app. destruct Hx as [Hx|[Hx|Hx]]; cbn [In]; auto.
      * exact F'.
      * exists h'. rewrite Nc in *. split; [exact A1|]. split; [exact A2|]. cbn [filter]. assert (K : kp a c = negb (addr_eqb (addr c) a)) by reflexivity. rewrite Ea in K. cbn [negb] in K. rewrite !K.
        split; [exact A3|]. split; [destruct l1; exact A4|]. split.
        -- intros x Hx. rewrite A5. ++ cbn [hnx]. unfold nat_upd. destruct (Nat.eqb_spec x q); [|reflexivity]. subst. exfalso. apply Hx, in_or_app. right. now left.
           ++ intros Q. apply Hx. apply in_app_or in Q. apply in_or_app. destruct Q as [Q|[Q|Q]]; cbn [In]; auto.
        -- intros x. rewrite A6. cbn [hfreed In]. unfold kp. split.
           ++ intros [[<-|Q]|(Q1 & Q2)]; auto.
           ++ intros [Q|([<-|Q1] & Q2)]; auto.
    + destruct (IH fuel (l1 ++ [q]) c h) as (h' & A1 & A2 & A3 & A4 & A5 & A6).
      * lia.
      * rewrite <- app_assoc. exact C.
      * rewrite <- app_assoc. exact ND.
      * rewrite <- app_assoc. exact NF.
      * rewrite <- app_assoc. exact HF.
      * rewrite <- app_assoc in *. cbn [app] in *. exists h'. rewrite Nc. split; [exact A1|]. split; [exact A2|]. cbn [filter]. assert (K : kp a c = negb (addr_eqb (addr c) a)) by reflexivity. rewrite Ea in K. cbn [negb] in K. rewrite !K.
        rewrite <- app_assoc in *. split; [exact A3|]. split; [exact A4|]. split; [exact A5|].
        intros x. rewrite A6. cbn [In]. split; [tauto|]. intros [Q|([<-|Q] & Q2)]; auto. unfold kp in Q2. rewrite Ea in Q2. discriminate.
Qed.

Definition keeps (D : list nat) (x : nat) : bool := forallb (fun d => negb (addr_eqb (addr x) (addr d))) D.

Lemma cull_out_ok : forall D D1 B p U fuel h hd0, B ++ [p] = D1 ++ D ->
  (length D + length U <= fuel)%nat ->
  ch (hnx h) hd0 (B ++ p :: U) -> NoDup (B ++ p :: U) -> (forall x, In x (B ++ p :: U) -> ~ In x (hfreed h)) ->
  hfirst h = hd_error U -> hprev h = Some p ->
  exists h', cull_out addr fuel (hd_error (D ++ U)) h = HOk h'
   /\ ch (hnx h') hd0 (B ++ p :: filter (keeps D) U)
   /\ (forall x, In x (B ++ p :: filter (keeps D) U) -> ~ In x (hfreed h')).
Proof.
  induction D as [|k D IH]; intros D1 B p U fuel h hd0 EB Lf C ND NF HF HP.
  - exists h. assert (Ef : filter (keeps []) U = U) by (clear; induction U as [|x U IHU]; [reflexivity|cbn [filter keeps forallb]; now rewrite IHU]).
    rewrite Ef. split; [|auto]. cbn [app]. destruct U as [|u U]; [destruct fuel; reflexivity|]. cbn [hd_error].
    destruct fuel as [|fuel]; [cbn [length] in Lf; lia|]. cbn [cull_out]. rewrite HF. cbn [hd_error opt_is]. now rewrite Nat.eqb_refl.
  - destruct fuel as [|fuel]; [cbn [length] in Lf; lia|]. cbn [length] in Lf. cbn [app hd_error cull_out].
    assert (Kin : In k (B ++ [p])) by (rewrite EB; apply in_or_app; right; now left).
    assert (KU : ~ In k U).
    { intros Q. replace (B ++ p :: U) with ((B ++ [p]) ++ U) in ND by (rewrite <- app_assoc; reflexivity).
      clear -ND Kin Q. revert ND Kin. generalize (B ++ [p]). induction l as [|y l IHl]; intros ND Kin; [destruct Kin|].
      cbn [app] in ND. apply NoDup_cons_iff in ND. destruct ND as (N1 & N2). destruct Kin as [->|Kin]; [apply N1, in_or_app; now right|auto]. }
    assert (KW : In k (B ++ p :: U)) by (replace (B ++ p :: U) with ((B ++ [p]) ++ U) by (rewrite <- app_assoc; reflexivity); apply in_or_app; now left).
    assert (Of : opt_is (hfirst h) k = false).
    { rewrite HF. destruct U as [|u U]; [reflexivity|]. cbn [hd_error opt_is]. destruct (Nat.eqb_spec u k); [subst; exfalso; apply KU; now left|reflexivity]. }
    rewrite Of. rewrite not_freed by (apply NF, KW). rewrite HP, HF.
    assert (Cp : ch (hnx h) (Some p) (p :: U)) by (apply (ch_app_r _ B hd0 (p :: U)) in C; [exact C|discriminate]).
    assert (NDp : NoDup (p :: U)).
    { clear -ND. induction B as [|y B IHB]; [exact ND|]. cbn [app] in ND. apply NoDup_cons_iff in ND. tauto. }
    destruct (cull_in_ok (addr k) U fuel [] p h) as (h' & A1 & A2 & A3 & A4 & A5 & A6); auto.
    { lia. }
    { intros x Hx. apply NF, in_or_app. now right. }
    cbn [app tl hd_error] in A1, A3, A4, A5. rewrite A1. cbn [hbind].
    assert (SubU : forall x, In x (filter (kp (addr k)) U) -> In x U) by (intros x Hx; apply filter_In in Hx; tauto).
    assert (C' : ch (hnx h') hd0 (B ++ p :: filter (kp (addr k)) U)) by (eapply ch_splice; eauto).
    assert (ND' : NoDup (B ++ p :: filter (kp (addr k)) U)).
    { replace (B ++ p :: U) with ((B ++ [p]) ++ U) in ND by (rewrite <- app_assoc; reflexivity).
      replace (B ++ p :: filter (kp (addr k)) U) with ((B ++ [p]) ++ filter (kp (addr k)) U) by (rewrite <- app_assoc; reflexivity).
      clear -ND SubU. revert ND. generalize (B ++ [p]). induction l as [|y l IHl]; cbn [app]; intros ND; [now apply NoDup_filter|].
      apply NoDup_cons_iff in ND. destruct ND as (N1 & N2). constructor; [|auto]. intros Q. apply N1. apply in_app_or in Q. apply in_or_app. destruct Q; auto. }
    assert (NF' : forall x, In x (B ++ p :: filter (kp (addr k)) U) -> ~ In x (hfreed h')).
    { intros x Hx. rewrite A6. intros [Q|(Q1 & Q2)].
      - revert Q. apply NF. apply in_app_or in Hx. apply in_or_app. destruct Hx as [Hx|[Hx|Hx]]; cbn [In]; auto.
      - replace (B ++ p :: filter (kp (addr k)) U) with ((B ++ [p]) ++ filter (kp (addr k)) U) in Hx by (rewrite <- app_assoc; reflexivity).
        apply in_app_or in Hx. destruct Hx as [Hx|Hx].
        + replace (B ++ p :: U) with ((B ++ [p]) ++ U) in ND by (rewrite <- app_assoc; reflexivity).
          clear -ND Hx Q1. revert ND Hx. generalize (B ++ [p]). induction l as [|y l IHl]; intros ND Hx; [destruct Hx|].
          cbn [app] in ND. apply NoDup_cons_iff in ND. destruct ND as (N1 & N2). destruct Hx as [->|Hx]; [apply N1, in_or_app; now right|auto].
        + apply filter_In in Hx. destruct Hx. congruence. }
    assert (Kn : hnx h' k = hd_error (D ++ filter (kp (addr k)) U)).
    { replace (B ++ p :: filter (kp (addr k)) U) with (D1 ++ k :: (D ++ filter (kp (addr k)) U)) in C'.
      - eapply ch_next, C'.
      - replace (B ++ p :: filter (kp (addr k)) U) with ((B ++ [p]) ++ filter (kp (addr k)) U) by (rewrite <- app_assoc; reflexivity).
        rewrite EB, <- app_assoc. reflexivity. }
    rewrite not_freed.
    2: { apply NF'. replace (B ++ p :: filter (kp (addr k)) U) with ((B ++ [p]) ++ filter (kp (addr k)) U) by (rewrite <- app_assoc; reflexivity).
         apply in_or_app. now left. }
    rewrite Kn.
    destruct (IH (D1 ++ [k]) B p (filter (kp (addr k)) U) fuel h' hd0) as (h2 & Q1 & Q2 & Q3); auto.
    { rewrite <- app_assoc. exact EB. }
    { assert (length (filter (kp (addr k)) U) <= length U)%nat by (clear; induction U as [|x U IHU]; cbn [filter length]; [lia|destruct (kp (addr k) x); cbn [length]; lia]). lia. }
    { congruence. }
    assert (Ef : filter (keeps D) (filter (kp (addr k)) U) = filter (keeps (k :: D)) U).
    { clear. induction U as [|x U IHU]; [reflexivity|]. cbn [filter keeps forallb]. unfold kp at 1.
      destruct (negb (addr_eqb (addr x) (addr k))); cbn [filter andb]; [|exact IHU]. unfold keeps at 1.
      destruct (forallb _ D); [f_equal|]; exact IHU. }
    rewrite Ef in Q2, Q3. exists h2. auto.
Qed.

End Cull.

Lemma follow_ok : forall l fuel h p, (length l <= fuel)%nat -> ch (hnx h) p l -> (forall x, In x l -> ~ In x (hfreed h)) -> follow fuel h p = HOk l.
Proof.
  induction l as [|x l IH]; intros fuel h p L C NF; cbn [ch] in C.
  - subst p. destruct fuel; reflexivity.
  - destruct C as (-> & C). destruct fuel as [|fuel]; [cbn [length] in L; lia|]. cbn [length] in L. cbn [follow].
    rewrite not_freed by (apply NF; now left). rewrite (IH fuel h (hnx h x)); [reflexivity|lia|exact C|]. intros y Hy. apply NF. now right.
Qed.

(** * The list under construction *)
Definition unspec (n : hneigh) : bool := hn_link n =? 0.

Record acc_ok (A U : list hneigh) (s : hacc) : Prop := {
  a_nodes : ha_nodes s = A ++ U;
  a_A : forallb (fun n => negb (unspec n)) A = true;
  a_U : forallb unspec U = true;
  a_first : ha_first s = match U with [] => None | _ => Some (length U - 1)%nat end;
  a_prev : ha_prev s = match A with [] => None | _ => Some (length U) end }.

Definition ids (n : nat) : list nat := rev (seq 0 n).
Lemma ids_S n : ids (S n) = n :: ids n.
Proof. unfold ids. rewrite seq_S, rev_app_distr. reflexivity. Qed.
Lemma ids_app a b : ids (a + b) = map (fun k => (k + b)%nat) (ids a) ++ ids b.
Proof.
  induction a as [|a IH]; [reflexivity|]. cbn [Nat.add]. rewrite !ids_S. cbn [map app]. f_equal. exact IH.
Qed.
Lemma ids_in n x : In x (ids n) <-> (x < n)%nat.
Proof. unfold ids. rewrite <- in_rev, in_seq. lia. Qed.
Lemma ids_nodup n : NoDup (ids n).
Proof. unfold ids. apply NoDup_rev, seq_NoDup. Qed.
Lemma ids_len n : length (ids n) = n.
Proof. unfold ids. rewrite rev_length. apply seq_length. Qed.
Lemma ids_ch n : ch (fun k => match k with O => None | S j => Some j end) (match n with O => None | S m => Some m end) (ids n).
Proof. induction n as [|n IH]; [reflexivity|]. rewrite ids_S. cbn [ch]. split; [reflexivity|exact IH]. Qed.

Lemma nodes_ids s : map (node s) (ids (length (ha_nodes s))) = ha_nodes s.
Proof.
  unfold node. generalize (ha_nodes s) as l. intros l. transitivity (rev (rev l)); [|apply rev_involutive]. unfold ids. rewrite map_rev. f_equal.
  generalize (rev l) (rev_length l). clear. intros m H. rewrite <- H. clear H l. induction m as [|x m IH]; [reflexivity|].
  cbn [length seq map nth]. f_equal. rewrite <- seq_shift, map_map. exact IH.
Qed.

Lemma map_filter_comm {X Y} (f : X -> Y) (p : Y -> bool) l : map f (filter (fun x => p (f x)) l) = filter p (map f l).
Proof. induction l as [|x l IH]; [reflexivity|]. cbn [filter map]. destruct (p (f x)); cbn [map]; now rewrite IH. Qed.

Lemma superseded_app all n A U : forallb (fun n => negb (unspec n)) A = true -> forallb unspec U = true -> (forall x, In x all <-> In x (A ++ U)) ->
  superseded all n = unspec n && existsb (fun m => addr_eqb (hn_addr n) (hn_addr m)) A.
Proof.
  intros HA HU E. unfold superseded. fold (unspec n). f_equal.
  rewrite forallb_forall in HA, HU. apply eq_iff_eq_true. rewrite !existsb_exists. split.
  - intros (m & I & Q). apply E in I. apply andb_true_iff in Q. destruct Q as (Q1 & Q2). apply in_app_or in I. destruct I as [I|I]; [exists m; auto|].
    apply HU in I. unfold unspec in I. rewrite I in Q1. discriminate.
  - intros (m & I & Q). exists m. split; [apply E, in_or_app; now left|]. apply HA in I. unfold unspec in I. now rewrite I.
Qed.

Lemma filter_len_le {X} (p : X -> bool) l : (length (filter p l) <= length l)%nat.
Proof. induction l as [|x l IH]; cbn [filter length]; [lia|]. destruct (p x); cbn [length]; lia. Qed.
Lemma filter_id {X} (p : X -> bool) l : (forall x, In x l -> p x = true) -> filter p l = l.
Proof. induction l as [|x l IH]; intros H; [reflexivity|]. cbn [filter]. rewrite H by now left. f_equal. apply IH. intros y Hy. apply H. now right. Qed.
Lemma filter_ext_in' {X} (p q : X -> bool) l : (forall x, In x l -> p x = q x) -> filter p l = filter q l.
Proof. induction l as [|x l IH]; intros H; [reflexivity|]. cbn [filter]. rewrite H by now left. rewrite IH; [reflexivity|]. intros y Hy. apply H. now right. Qed.

Lemma cull_list_ok A U s fuel : acc_ok A U s -> (length A + length U <= fuel)%nat ->
  cull_list fuel s = HOk (filter (fun n => negb (superseded (ha_nodes s) n)) (ha_nodes s)).
Proof.
  intros [Hn HA HU HF HP] Lf.
  assert (Sup : forall n, superseded (ha_nodes s) n = unspec n && existsb (fun m => addr_eqb (hn_addr n) (hn_addr m)) A).
  { intros n. apply (superseded_app (ha_nodes s) n A U); auto. intros x. now rewrite Hn. }
  assert (Ln : length (ha_nodes s) = (length A + length U)%nat) by (rewrite Hn, app_length; reflexivity).
  unfold cull_list. cbv zeta.
  assert (NF0 : forall l x, In x l -> ~ In x (hfreed (heap_of s))) by (intros l x _ []).
  assert (Ch0 : ch (hnx (heap_of s)) (head_of s) (ids (length (ha_nodes s)))) by (unfold head_of, heap_of; cbn [hnx]; apply ids_ch).
  assert (Same : (A = [] \/ U = []) -> filter (fun n => negb (superseded (ha_nodes s) n)) (ha_nodes s) = ha_nodes s).
  { intros Q. apply filter_id. intros x Hx. rewrite Sup. destruct Q as [-> | ->].
    - cbn [existsb]. now rewrite andb_false_r.
    - rewrite forallb_forall in HA. rewrite Hn, app_nil_r in Hx. apply HA in Hx. destruct (unspec x); [discriminate|reflexivity]. }
  assert (Plain : (A = [] \/ U = []) ->
     hbind (HOk (heap_of s)) (fun h' => hbind (follow fuel h' (head_of s)) (fun l => HOk (map (node s) l))) = HOk (filter (fun n => negb (superseded (ha_nodes s) n)) (ha_nodes s))).
  { intros Q. rewrite (Same Q). cbn [hbind]. rewrite (follow_ok (ids (length (ha_nodes s)))); [|rewrite ids_len; lia|exact Ch0|apply NF0].
    cbn [hbind]. now rewrite nodes_ids. }
  rewrite HF, HP. destruct A as [|a A]; [apply Plain; auto|]. destruct U as [|u U]; [apply Plain; auto|]. clear Plain Same.
  set (nA := length (a :: A)) in *. set (nU := length (u :: U)) in *.
  (* ids = B ++ p :: Uids *)
  set (B := map (fun k => (k + S nU)%nat) (ids (nA - 1))).
  assert (Eids : ids (length (ha_nodes s)) = B ++ nU :: ids nU).
  { rewrite Ln. replace (nA + nU)%nat with ((nA - 1) + S nU)%nat by (unfold nA; cbn [length]; lia). rewrite ids_app, ids_S. reflexivity. }
  rewrite Eids in Ch0.
  assert (Hd : head_of s = hd_error ((B ++ [nU]) ++ ids nU)).
  { apply ch_hd in Ch0. rewrite Ch0. rewrite <- app_assoc. reflexivity. }
  assert (LB : length (B ++ [nU]) = nA).
  { rewrite app_length. unfold B. rewrite map_length, ids_len. cbn [length]. unfold nA. cbn [length]. lia. }
  rewrite Hd at 1.
  destruct (cull_out_ok (fun k => hn_addr (node s k)) (B ++ [nU]) [] B nU (ids nU) fuel (heap_of s) (head_of s)) as (h' & Q1 & Q2 & Q3); auto.
  { rewrite LB, ids_len. lia. }
  { rewrite <- Eids. apply ids_nodup. }
  { cbn [heap_of hfirst]. rewrite HF. unfold nU. cbn [length]. rewrite ids_S. cbn [hd_error]. f_equal. lia. }
  rewrite Q1. cbn [hbind]. rewrite (follow_ok _ fuel h' (head_of s)) with (2 := Q2); [|rewrite app_length; cbn [length]|exact Q3].
  2: { assert (L1 : length B = (nA - 1)%nat) by (unfold B; rewrite map_length, ids_len; reflexivity).
       assert (L2 : (length (filter (keeps (fun k => hn_addr (node s k)) (B ++ [nU])) (ids nU)) <= nU)%nat).
       { eapply Nat.le_trans; [apply filter_len_le|]. now rewrite ids_len. }
       assert (nA = S (length A)) by reflexivity. lia. }
  cbn [hbind]. f_equal.
  (* the nodes *)
  assert (Mall : map (node s) (B ++ [nU]) = a :: A /\ map (node s) (ids nU) = u :: U).
  { pose proof (nodes_ids s) as N. rewrite Eids in N. replace (B ++ nU :: ids nU) with ((B ++ [nU]) ++ ids nU) in N by (rewrite <- app_assoc; reflexivity).
    rewrite map_app, Hn in N. 
    assert (L : length (map (node s) (B ++ [nU])) = length (a :: A)) by (rewrite map_length; exact LB).
    revert N L. generalize (map (node s) (B ++ [nU])) (map (node s) (ids nU)) (a :: A) (u :: U). clear. 
    induction l as [|x l IH]; intros l0 l1 l2 N L; destruct l1 as [|y l1]; try discriminate; cbn [app] in N.
    - auto.
    - injection N as -> N. cbn [length] in L. destruct (IH l0 l1 l2 N) as (-> & ->); [lia|auto]. }
  destruct Mall as (M1 & M2).
  replace (B ++ nU :: filter (keeps (fun k => hn_addr (node s k)) (B ++ [nU])) (ids nU))
    with ((B ++ [nU]) ++ filter (keeps (fun k => hn_addr (node s k)) (B ++ [nU])) (ids nU)) by (rewrite <- app_assoc; reflexivity).
  rewrite map_app, M1.
  assert (PE : exists P, P = (fun n => negb (superseded (ha_nodes s) n))) by (eexists; reflexivity). destruct PE as (P & PE).
  rewrite <- PE. assert (PX : forall n, P n = negb (unspec n && existsb (fun m => addr_eqb (hn_addr n) (hn_addr m)) (a :: A))) by (intros n; rewrite PE, Sup; reflexivity).
  rewrite Hn, filter_app. f_equal.
  - symmetry. apply filter_id. intros x Hx. rewrite forallb_forall in HA. rewrite PX. apply HA in Hx. destruct (unspec x); [discriminate|reflexivity].
  - rewrite <- M2. rewrite <- (map_filter_comm (node s) P (ids nU)). f_equal.
    apply filter_ext_in'. intros k Hk. rewrite PX.
    assert (Uk : unspec (node s k) = true).
    { rewrite forallb_forall in HU. apply HU. rewrite <- M2. now apply in_map. }
    rewrite Uk, andb_true_l, <- M1. unfold keeps. clear. generalize (B ++ [nU]) as l. induction l as [|d l IH]; [reflexivity|].
    cbn [map existsb forallb]. rewrite IH. destruct (addr_eqb _ _); reflexivity.
Qed.

Lemma push_unspec U s n : acc_ok [] U s -> unspec n = true -> acc_ok [] (n :: U) (ha_push s n).
Proof.
  intros [Hn HA HU HF HP] H. unfold ha_push. cbv zeta. unfold unspec in H. change UNSPEC_LINK with 0. rewrite H. cbn [app] in *. constructor; cbn [ha_nodes ha_first ha_prev app].
  - now rewrite Hn.
  - reflexivity.
  - cbn [forallb]. now rewrite HU, andb_true_r.
  - rewrite Hn. cbn [length]. f_equal. lia.
  - exact HP.
Qed.
Lemma push_spec A U s n : acc_ok A U s -> unspec n = false -> acc_ok (n :: A) U (ha_push s n).
Proof.
  intros [Hn HA HU HF HP] H. unfold ha_push. cbv zeta. unfold unspec in H. change UNSPEC_LINK with 0. rewrite H. constructor; cbn [ha_nodes ha_first ha_prev app].
  - now rewrite Hn.
  - cbn [forallb]. unfold unspec at 1. now rewrite H, HA.
  - exact HU.
  - exact HF.
  - rewrite HP. destruct A; [|reflexivity]. rewrite Hn. reflexivity.
Qed.
Lemma acc_start : acc_ok [] [] (mkHA [] None None).
Proof. constructor; reflexivity. Qed.

(** which entries come in depends on the pass *)
Definition okst (want : Z) (s : hacc) : Prop := exists A U, acc_ok A U s /\ (want = 0 -> A = []).
Lemma okst_push want s n : okst want s -> hn_link n = want -> okst want (ha_push s n).
Proof.
  intros (A & U & H & Q) E. destruct (Z.eqb_spec want 0) as [Z0|NZ].
  - rewrite (Q Z0) in H. exists [], (n :: U). split; [|auto]. apply push_unspec; [exact H|]. unfold unspec. lia.
  - exists (n :: A), U. split; [|lia]. apply push_spec; [exact H|]. unfold unspec. lia.
Qed.

(** * Arbitrary bytes *)
Section Any.
Variable ips : Z.
Hypothesis Hips : 0 < ips.

Lemma neighs_any : forall fuel buf lq code curr limit2 s, limit2 - curr <= Z.of_nat fuel -> okst (extract_link code) s ->
  match neighs ips fuel buf lq code curr limit2 s with
  | HOk (s', c') => okst (extract_link code) s' /\ curr <= c' /\ limit2 <= c'
       /\ Z.of_nat (length (ha_nodes s')) <= Z.of_nat (length (ha_nodes s)) + Z.max 0 (limit2 - curr)
  | HOob => True | _ => False end.
Proof.
  induction fuel as [|fuel IH]; intros buf lq code curr limit2 s L O; cbn [neighs]; destruct (Z.ltb_spec curr limit2) as [Lt|Ge].
  - lia.
  - split; [exact O|]. lia.
  - assert (P : forall a q, Z.of_nat (length (ha_nodes (ha_push s (mkHN (extract_link code) (extract_status code) a q)))) = Z.of_nat (length (ha_nodes s)) + 1).
    { intros a q. unfold ha_push. cbv zeta. destruct (_ =? _); cbn [ha_nodes length]; lia. }
    destruct (rdn buf curr ips) as [a|]; [|exact I]. destruct lq.
    + destruct (rdn buf (curr + ips) 2) as [q|]; [|exact I].
      specialize (IH buf true code (curr + ips + 4) limit2 (ha_push s (mkHN (extract_link code) (extract_status code) a q)) ltac:(lia) ltac:(now apply okst_push)).
      destruct (neighs _ _ _ _ _ _ _ _) as [[s' c']| | | |]; auto. rewrite P in IH. destruct IH as (A1 & A2 & A3 & A4). split; [exact A1|]. lia.
    + specialize (IH buf false code (curr + ips) limit2 (ha_push s (mkHN (extract_link code) (extract_status code) a [])) ltac:(lia) ltac:(now apply okst_push)).
      destruct (neighs _ _ _ _ _ _ _ _) as [[s' c']| | | |]; auto. rewrite P in IH. destruct IH as (A1 & A2 & A3 & A4). split; [exact A1|]. lia.
  - split; [exact O|]. lia.
Qed.

Lemma rd16_range buf i n : bytes buf -> rd16 buf i = Some n -> 0 <= n < 65536.
Proof.
  intros B H. unfold rd16 in H. destruct (rdn buf i 2) as [l|] eqn:E; [|discriminate]. cbn [option_map] in H. apply Some_inj in H. subst n.
  apply rdn_inv in E. destruct E as (E1 & E2 & E3 & ->).
  assert (L : length (slice buf i 2) = 2%nat) by (pose proof (slice_length buf i 2 E1 E2 E3) as Q; unfold blen in Q; lia).
  pose proof (be_range (slice buf i 2)) as R. rewrite L in R. change (256 ^ Z.of_nat 2) with 65536 in R. apply R.
  apply Forall_forall. intros x Hx. unfold bytes in B. rewrite Forall_forall in B. apply B. unfold slice in Hx.
  rewrite <- (firstn_skipn (Z.to_nat i) buf). apply in_or_app. right. rewrite <- (firstn_skipn (Z.to_nat 2) (skipn (Z.to_nat i) buf)). apply in_or_app. now left.
Qed.

Lemma blocks_any : forall fuel buf lq want curr limit s, bytes buf -> limit - curr + 65536 <= Z.of_nat fuel -> okst want s ->
  match blocks ips fuel buf lq want curr limit s with
  | HOk s' => okst want s' | HOob | HRet1 _ => True | _ => False end.
Proof.
  induction fuel as [|fuel IH]; intros buf lq want curr limit s B L O; cbn [blocks]; destruct (Z.ltb_spec curr limit) as [Lt|Ge].
  - lia.
  - exact O.
  - destruct (rd8 buf curr) as [code|]; [|exact I]. destruct (rd16 buf (curr + 2)) as [size2|] eqn:E2; [|exact I].
    apply rd16_range in E2; [|exact B]. destruct (Z.eqb_spec size2 0); [exact I|].
    destruct (Z.eqb_spec (extract_link code) want) as [Ew|Ne]; cbn [negb].
    + pose proof (neighs_any fuel buf lq code (curr + 4) (curr + size2) s ltac:(lia)) as N. rewrite Ew in N. specialize (N O).
      destruct (neighs ips fuel buf lq code (curr + 4) (curr + size2) s) as [[s' c']| | | |]; try tauto; cbn [hbind fst snd].
      destruct N as (O' & C1 & C2 & _). apply IH; [exact B|lia|exact O'].
    + apply IH; [exact B|lia|exact O].
  - exact O.
Qed.

(** the number of nodes never matters for the outcome: fuel for culling *)
Lemma neighs_len : forall fuel buf lq code curr limit2 s s' c', neighs ips fuel buf lq code curr limit2 s = HOk (s', c') ->
  curr <= c' /\ Z.of_nat (length (ha_nodes s')) <= Z.of_nat (length (ha_nodes s)) + (c' - curr) /\ (limit2 <= curr -> c' = curr) /\ (curr < limit2 -> c' < limit2 + ips + 4).
Proof.
  induction fuel as [|fuel IH]; intros buf lq code curr limit2 s s' c' H; cbn [neighs] in H; destruct (Z.ltb_spec curr limit2) as [Lt|Ge].
  - discriminate.
  - injection H as <- <-. lia.
  - assert (P : forall a q, Z.of_nat (length (ha_nodes (ha_push s (mkHN (extract_link code) (extract_status code) a q)))) = Z.of_nat (length (ha_nodes s)) + 1).
    { intros a q. unfold ha_push. cbv zeta. destruct (_ =? _); cbn [ha_nodes length]; lia. }
    destruct (rdn buf curr ips) as [a|]; [|discriminate]. destruct lq.
    + destruct (rdn buf (curr + ips) 2) as [q|]; [|discriminate]. apply IH in H. rewrite P in H. lia.
    + apply IH in H. rewrite P in H. lia.
  - injection H as <- <-. lia.
Qed.
Lemma blocks_len : forall fuel buf lq want curr limit s s', bytes buf -> blocks ips fuel buf lq want curr limit s = HOk s' ->
  Z.of_nat (length (ha_nodes s')) <= Z.of_nat (length (ha_nodes s)) + Z.max 0 (limit - curr + 65536 + ips + 4).
Proof.
  induction fuel as [|fuel IH]; intros buf lq want curr limit s s' B H; cbn [blocks] in H; destruct (Z.ltb_spec curr limit) as [Lt|Ge].
  - discriminate.
  - injection H as <-. lia.
  - destruct (rd8 buf curr) as [code|]; [|discriminate]. destruct (rd16 buf (curr + 2)) as [size2|] eqn:E2; [|discriminate].
    apply rd16_range in E2; [|exact B]. destruct (Z.eqb_spec size2 0); [discriminate|].
    destruct (negb (extract_link code =? want)).
    + apply IH in H; [|exact B]. lia.
    + destruct (neighs ips fuel buf lq code (curr + 4) (curr + size2) s) as [[s1 c1]| | | |] eqn:E; try discriminate. cbn [hbind fst snd] in H.
      apply neighs_len in E. apply IH in H; [|exact B]. lia.
  - injection H as <-. lia.
Qed.

Lemma passes_any fuel buf lq curr limit : bytes buf -> 0 <= curr -> limit < 65536 -> 131072 <= Z.of_nat fuel -> forall order s,
  ((exists U, acc_ok [] U s) \/ (exists A U, acc_ok A U s) /\ ~ In 0 order) ->
  match order with [] => True | _ :: r => ~ In 0 r end ->
  match passes ips fuel buf lq order curr limit s with
  | HOk s' => (exists A U, acc_ok A U s') /\ Z.of_nat (length (ha_nodes s')) <= Z.of_nat (length (ha_nodes s)) + Z.of_nat (length order) * (131072 + ips + 4)
  | HOob | HRet1 _ => True | _ => False end.
Proof.
  intros B Hc Hl Hf. induction order as [|want order IH]; intros s O N0; cbn [passes].
  - split; [destruct O as [(U & O)|((A & U & O) & _)]; eauto|cbn [length]; lia].
  - assert (Ow : okst want s).
    { destruct O as [(U & O)|((A & U & O) & NI)]; [exists [], U; auto|exists A, U; split; [exact O|]]. intros ->. exfalso. apply NI. now left. }
    pose proof (blocks_any fuel buf lq want curr limit s B ltac:(lia) Ow) as Q.
    destruct (blocks ips fuel buf lq want curr limit s) as [s1| | | |] eqn:E; try tauto. cbn [hbind].
    apply blocks_len in E; [|exact B].
    assert (O1 : (exists U, acc_ok [] U s1) \/ (exists A U, acc_ok A U s1) /\ ~ In 0 order).
    { right. split; [destruct Q as (A & U & Q & _); eauto|exact N0]. }
    assert (N1 : match order with [] => True | _ :: r => ~ In 0 r end) by (destruct order; [exact I|intros Q2; apply N0; now right]).
    specialize (IH s1 O1 N1).
    destruct (passes ips fuel buf lq order curr limit s1) as [s2| | | |]; try tauto.
    destruct IH as (I1 & I2). split; [exact I1|]. cbn [length]. lia.
Qed.

(** every byte string is decoded or refused; the only thing that can go wrong is
    reading too far *)
Lemma hello_any fuel buf : bytes buf -> 4 * (131072 + ips + 4) <= Z.of_nat fuel ->
  match deserialize_hello ips fuel buf with
  | HOk _ | HRet1 _ | HOob => True | HFuel | HUB => False end.
Proof.
  intros B Hf. unfold deserialize_hello. destruct (rd8 buf 0) as [type|]; [|exact I].
  destruct (negb (type =? HELLO_MESSAGE) && negb (type =? LQ_HELLO_MESSAGE)); [exact I|].
  destruct (rd8 buf 1); [|exact I]. destruct (rd16 buf 2) as [size|] eqn:Es; [|exact I]. destruct (rdn buf 4 ips); [|exact I].
  destruct (rd8 buf (4 + ips)); [|exact I]. destruct (rd8 buf (5 + ips)); [|exact I]. destruct (rd16 buf (6 + ips)); [|exact I].
  destruct (rd8 buf (10 + ips)); [|exact I]. destruct (rd8 buf (11 + ips)); [|exact I].
  apply rd16_range in Es; [|exact B].
  pose proof (passes_any fuel buf (type =? LQ_HELLO_MESSAGE) (12 + ips) size B ltac:(lia) ltac:(lia) ltac:(lia) LINK_ORDER (mkHA [] None None)) as P.
  specialize (P ltac:(left; exists []; apply acc_start)).
  assert (N0 : match LINK_ORDER with [] => True | _ :: r => ~ In 0 r end) by (cbn; unfold LOST_LINK, ASYM_LINK, SYM_LINK; lia).
  specialize (P N0).
  destruct (passes ips fuel buf (type =? LQ_HELLO_MESSAGE) LINK_ORDER (12 + ips) size (mkHA [] None None)) as [s| | | |]; try tauto; cbn [hbind].
  destruct P as ((A & U & P) & L). cbn [ha_nodes length] in L. change (Z.of_nat (length LINK_ORDER)) with 4 in L.
  rewrite (cull_list_ok A U s fuel P); [exact I|]. rewrite (a_nodes _ _ _ P), app_length in L. lia.
Qed.
End Any.

(** * Well-formed messages *)
Lemma extract_link_mod c : 0 <= c -> extract_link c = c mod 4.
Proof. intros H. unfold extract_link. change 3 with (Z.ones 2). rewrite Z.land_ones by lia. reflexivity. Qed.
Lemma extract_status_mod c : 0 <= c -> extract_status c = c / 4 mod 4.
Proof.
  intros H. unfold extract_status. change 12 with (Z.shiftl (Z.ones 2) 2). rewrite Z.shiftr_land, Z.shiftr_shiftl_l by lia.
  change (Z.shiftl (Z.ones 2) (2 - 2)) with (Z.ones 2). rewrite Z.land_ones by lia. rewrite Z.shiftr_div_pow2 by lia. reflexivity.
Qed.

Definition push_all (s : hacc) (l : list hneigh) : hacc := fold_left ha_push l s.
Lemma push_all_app s a b : push_all s (a ++ b) = push_all (push_all s a) b.
Proof. unfold push_all. apply fold_left_app. Qed.
Lemma push_all_nodes l : forall s, ha_nodes (push_all s l) = rev l ++ ha_nodes s.
Proof.
  induction l as [|x l IH]; intros s; [reflexivity|]. cbn [push_all fold_left rev]. change (fold_left ha_push l (ha_push s x)) with (push_all (ha_push s x) l).
  rewrite IH, <- app_assoc. unfold ha_push. cbv zeta. destruct (_ =? _); reflexivity.
Qed.
Lemma push_all_ok want l : forall s, okst want s -> (forall n, In n l -> hn_link n = want) -> okst want (push_all s l).
Proof.
  induction l as [|x l IH]; intros s O H; [exact O|]. cbn [push_all fold_left]. apply IH; [apply okst_push; [exact O|apply H; now left]|].
  intros n Hn. apply H. now right.
Qed.
Lemma be1 x : be [x] = x. Proof. reflexivity. Qed.
Lemma be_enc16 n : be (enc16 n) = n.
Proof. unfold be, enc16. cbn [fold_left]. pose proof (Z.div_mod n 256). lia. Qed.

Lemma rd8_at pre x post i : i = blen pre -> rd8 (pre ++ x :: post) i = Some x.
Proof. intros ->. unfold rd8. change (x :: post) with ([x] ++ post). rewrite (rdn_at pre [x] post (blen pre) 1); reflexivity. Qed.
Lemma rd16_at pre x post i : i = blen pre -> rd16 (pre ++ enc16 x ++ post) i = Some x.
Proof. intros ->. unfold rd16. rewrite (rdn_at pre (enc16 x) post (blen pre) 2); [cbn [option_map]; now rewrite be_enc16|reflexivity|reflexivity]. Qed.

Section Wf.
Variable ips : Z.
Hypothesis Hips : 0 < ips.

Definition entry_len (lq : bool) : Z := ips + (if lq then 4 else 0).
Lemma enc_entry_len lq e : wf_entry ips e -> blen (enc_entry lq e) = entry_len lq.
Proof.
  intros (A & B & C). unfold enc_entry, entry_len. rewrite blen_app, A. destruct lq; [|reflexivity]. rewrite blen_app. unfold blen. rewrite B, C. lia.
Qed.

Lemma neighs_enc lq code : 0 <= code -> forall es pre post fuel s, Forall (wf_entry ips) es ->
  let m := pre ++ flat_map (enc_entry lq) es ++ post in
  let lim := blen pre + blen (flat_map (enc_entry lq) es) in
  blen (flat_map (enc_entry lq) es) <= Z.of_nat fuel ->
  neighs ips fuel m lq code (blen pre) lim s = HOk (push_all s (map (fun e => mkHN (code mod 4) (code / 4 mod 4) (e_addr e) (if lq then e_lq e else [])) es), lim).
Proof.
  intros Hc. induction es as [|e es IH]; intros pre post fuel s W m lim Lf.
  - assert (E : lim = blen pre) by (unfold lim; cbn [flat_map]; change (blen []) with 0; lia). rewrite E. destruct fuel; cbn [neighs]; rewrite Z.ltb_irrefl; reflexivity.
  - pose proof (Forall_inv W) as We. pose proof (Forall_inv_tail W) as Ws. clear W. cbn [flat_map] in *.
    pose proof (enc_entry_len lq e We) as Le. rewrite blen_app in Lf. pose proof (blen_nonneg (flat_map (enc_entry lq) es)) as Nn.
    assert (El : lim = blen (pre ++ enc_entry lq e) + blen (flat_map (enc_entry lq) es)) by (unfold lim; rewrite !blen_app; lia).
    assert (Lt : blen pre < lim) by (rewrite El, blen_app, Le; unfold entry_len; destruct lq; lia).
    destruct fuel as [|fuel]; [unfold entry_len in Le; destruct lq; lia|].
    cbn [neighs]. replace (blen pre <? lim) with true by lia.
    assert (Em : m = (pre ++ enc_entry lq e) ++ flat_map (enc_entry lq) es ++ post) by (unfold m; rewrite <- !app_assoc; reflexivity).
    assert (R1 : rdn m (blen pre) ips = Some (e_addr e)).
    { unfold m, enc_entry. rewrite <- !app_assoc. apply rdn_at; [reflexivity|]. destruct We as (A & _). now rewrite A. }
    rewrite R1. cbn [map]. rewrite (extract_link_mod code Hc), (extract_status_mod code Hc).
    assert (Lf' : blen (flat_map (enc_entry lq) es) <= Z.of_nat fuel) by (unfold entry_len in Le; destruct lq; lia).
    destruct lq.
    + assert (R2 : rdn m (blen pre + ips) 2 = Some (e_lq e)).
      { unfold m, enc_entry. rewrite <- !app_assoc. rewrite app_assoc. destruct We as (A & B & C). apply rdn_at; [rewrite blen_app; lia|]. unfold blen. now rewrite B. }
      rewrite R2. replace (blen pre + ips + 4) with (blen (pre ++ enc_entry true e)) by (rewrite blen_app, Le; unfold entry_len; lia).
      rewrite El, Em. rewrite IH; [reflexivity|exact Ws|exact Lf'].
    + replace (blen pre + ips) with (blen (pre ++ enc_entry false e)) by (rewrite blen_app, Le; unfold entry_len; lia).
      rewrite El, Em. rewrite IH; [reflexivity|exact Ws|exact Lf'].
Qed.

Lemma blocks_enc lq want : forall bs pre post fuel s, Forall (wf_block ips) bs ->
  let m := pre ++ flat_map (enc_block lq) bs ++ post in
  let lim := blen pre + blen (flat_map (enc_block lq) bs) in
  blen (flat_map (enc_block lq) bs) <= Z.of_nat fuel ->
  blocks ips fuel m lq want (blen pre) lim s = HOk (push_all s (filter (fun n => hn_link n =? want) (flat_map (advertised lq) bs))).
Proof.
  induction bs as [|b bs IH]; intros pre post fuel s W m lim Lf.
  - assert (E : lim = blen pre) by (unfold lim; cbn [flat_map]; change (blen []) with 0; lia). rewrite E. destruct fuel; cbn [blocks]; rewrite Z.ltb_irrefl; reflexivity.
  - pose proof (Forall_inv W) as We. pose proof (Forall_inv_tail W) as Ws. clear W. cbn [flat_map] in *.
    set (body := flat_map (enc_entry lq) (b_entries b)) in *.
    assert (Lb : blen (enc_block lq b) = 4 + blen body) by (unfold enc_block; cbv zeta; fold body; rewrite !blen_app; change (blen [b_code b; b_res b]) with 2; change (blen (enc16 (4 + blen body))) with 2; lia).
    pose proof (blen_nonneg body) as Nb. pose proof (blen_nonneg (flat_map (enc_block lq) bs)) as Ns. rewrite blen_app in Lf.
    assert (El : lim = blen (pre ++ enc_block lq b) + blen (flat_map (enc_block lq) bs)) by (unfold lim; rewrite !blen_app; lia).
    assert (Em : m = (pre ++ enc_block lq b) ++ flat_map (enc_block lq) bs ++ post) by (unfold m; rewrite <- !app_assoc; reflexivity).
    assert (Em2 : m = (pre ++ [b_code b; b_res b]) ++ enc16 (4 + blen body) ++ body ++ flat_map (enc_block lq) bs ++ post).
    { unfold m, enc_block. cbv zeta. fold body. rewrite <- !app_assoc. reflexivity. }
    destruct fuel as [|fuel]; [lia|]. cbn [blocks]. replace (blen pre <? lim) with true by (rewrite El, blen_app; lia).
    assert (R1 : rd8 m (blen pre) = Some (b_code b)).
    { rewrite Em2, <- app_assoc. cbn [app]. now apply rd8_at. }
    assert (R2 : rd16 m (blen pre + 2) = Some (4 + blen body)).
    { rewrite Em2. apply rd16_at. rewrite blen_app. reflexivity. }
    rewrite R1, R2. replace (4 + blen body =? 0) with false by lia.
    destruct We as (Hc & We). rewrite (extract_link_mod (b_code b)) by lia.
    assert (Adv : filter (fun n => hn_link n =? want) (advertised lq b) = if b_code b mod 4 =? want then advertised lq b else []).
    { unfold advertised. destruct (b_code b mod 4 =? want) eqn:Q; generalize (b_entries b) as es; induction es as [|e es IHe]; cbn [map filter hn_link]; try reflexivity; rewrite Q; [f_equal|]; exact IHe. }
    rewrite filter_app, Adv. destruct (b_code b mod 4 =? want) eqn:Q; cbn [negb].
    + replace (blen pre + 4) with (blen (pre ++ [b_code b; b_res b] ++ enc16 (4 + blen body))) by (rewrite !blen_app; reflexivity).
      replace (blen pre + (4 + blen body)) with (blen (pre ++ [b_code b; b_res b] ++ enc16 (4 + blen body)) + blen body)
        by (rewrite !blen_app; change (blen [b_code b; b_res b]) with 2; change (blen (enc16 (4 + blen body))) with 2; lia).
      assert (Em3 : m = (pre ++ [b_code b; b_res b] ++ enc16 (4 + blen body)) ++ flat_map (enc_entry lq) (b_entries b) ++ flat_map (enc_block lq) bs ++ post)
        by (rewrite Em2, <- !app_assoc; reflexivity).
      rewrite Em3 at 1. unfold body at 3. rewrite (neighs_enc lq (b_code b)); [|lia|exact We|fold body; lia]. fold body. cbn [hbind fst snd].
      replace (blen (pre ++ [b_code b; b_res b] ++ enc16 (4 + blen body)) + blen body) with (blen (pre ++ enc_block lq b)).
      2: { rewrite !blen_app, Lb. change (blen [b_code b; b_res b]) with 2; change (blen (enc16 (4 + blen body))) with 2; lia. }
      rewrite El, Em, IH; [|exact Ws|lia]. now rewrite push_all_app.
    + replace (blen pre + (4 + blen body)) with (blen (pre ++ enc_block lq b)) by (rewrite blen_app, Lb; lia).
      rewrite El, Em, IH; [|exact Ws|lia]. reflexivity.
Qed.

Lemma passes_enc lq bs pre post fuel : Forall (wf_block ips) bs ->
  blen (flat_map (enc_block lq) bs) <= Z.of_nat fuel -> forall order s,
  passes ips fuel (pre ++ flat_map (enc_block lq) bs ++ post) lq order (blen pre) (blen pre + blen (flat_map (enc_block lq) bs)) s =
  HOk (push_all s (flat_map (fun t => filter (fun n => hn_link n =? t) (flat_map (advertised lq) bs)) order)).
Proof.
  intros W L. induction order as [|want order IH]; intros s; [reflexivity|]. cbn [passes flat_map].
  rewrite blocks_enc by assumption. cbn [hbind]. rewrite IH. now rewrite push_all_app.
Qed.

Lemma by_type_in lq bs n : In n (by_type (flat_map (advertised lq) bs)) <-> In n (flat_map (advertised lq) bs).
Proof.
  unfold by_type. rewrite in_flat_map. split.
  - intros (t & _ & H). apply filter_In in H. tauto.
  - intros H. exists (hn_link n). split; [|apply filter_In; split; [exact H|apply Z.eqb_refl]].
    apply in_flat_map in H. destruct H as (b & _ & H). unfold advertised in H. apply in_map_iff in H. destruct H as (e & <- & _). cbn [hn_link In].
    assert (0 <= b_code b mod 4 < 4) by (apply Z.mod_pos_bound; lia). lia.
Qed.
Lemma superseded_ext a b n : (forall x, In x a <-> In x b) -> superseded a n = superseded b n.
Proof.
  intros E. unfold superseded. f_equal. apply eq_iff_eq_true. rewrite !existsb_exists. split; intros (m & I & Q); exists m; (split; [apply E; exact I|exact Q]).
Qed.
Lemma filter_rev' {X} (p : X -> bool) l : filter p (rev l) = rev (filter p l).
Proof.
  induction l as [|x l IH]; [reflexivity|]. cbn [rev filter]. rewrite filter_app, IH. cbn [filter]. destruct (p x); [reflexivity|apply app_nil_r].
Qed.

Lemma hello_exact x fuel post : wf_hello ips x -> 4 * (131072 + ips + 4) <= Z.of_nat fuel ->
  deserialize_hello ips fuel (enc_hello x ++ post) = HOk (x_hdr x, rev (hello_neighbors x)).
Proof.
  intros (Hs & Hr & Hq & Wb & Hlen) Lf. destruct x as [lq hdr res bs]. cbn [x_lq x_hdr x_res x_blocks] in *.
  destruct hdr as [vt src ttl hops seq ht will]. cbn [h_vtime h_src h_ttl h_hops h_seq h_htime h_will] in *.
  destruct res as [|r1 [|r2 [|]]]; try discriminate. clear Hr.
  set (body := flat_map (enc_block lq) bs) in *. set (size := 12 + blen src + blen body) in *.
  assert (Em : enc_hello (mkHello lq (mkHdr vt src ttl hops seq ht will) [r1; r2] bs) =
    [if lq then 201 else 1; vt] ++ enc16 size ++ src ++ [ttl; hops] ++ enc16 seq ++ [r1; r2; ht; will] ++ body) by reflexivity.
  rewrite Em in Hlen. rewrite Em. clear Em.
  set (pre := [if lq then 201 else 1; vt] ++ enc16 size ++ src ++ [ttl; hops] ++ enc16 seq ++ [r1; r2; ht; will]).
  set (m := ([if lq then 201 else 1; vt] ++ enc16 size ++ src ++ [ttl; hops] ++ enc16 seq ++ [r1; r2; ht; will] ++ body) ++ post).
  assert (Em : m = pre ++ body ++ post) by (unfold m, pre; rewrite <- !app_assoc; reflexivity).
  assert (Lp : blen pre = 12 + ips).
  { unfold pre. rewrite !blen_app, Hs. change (blen [if lq then 201 else 1; vt]) with 2. change (blen (enc16 size)) with 2. change (blen [ttl; hops]) with 2. change (blen (enc16 seq)) with 2. change (blen [r1; r2; ht; will]) with 4. lia. }
  unfold deserialize_hello.
  assert (R0 : rd8 m 0 = Some (if lq then 201 else 1)) by (unfold m; rewrite <- !app_assoc; apply (rd8_at []); reflexivity).
  assert (R1 : rd8 m 1 = Some vt) by (unfold m; rewrite <- !app_assoc; apply (rd8_at [if lq then 201 else 1]); reflexivity).
  assert (R2 : rd16 m 2 = Some size) by (unfold m; rewrite <- !app_assoc; apply rd16_at; reflexivity).
  assert (R3 : rdn m 4 ips = Some src).
  { unfold m. rewrite <- !app_assoc. rewrite (app_assoc [if lq then 201 else 1; vt]). apply rdn_at; [reflexivity|now rewrite Hs]. }
  assert (R4 : rd8 m (4 + ips) = Some ttl).
  { unfold m. rewrite <- !app_assoc. rewrite (app_assoc [if lq then 201 else 1; vt]), (app_assoc _ src). apply rd8_at. rewrite !blen_app, Hs. reflexivity. }
  assert (R5 : rd8 m (5 + ips) = Some hops).
  { unfold m. rewrite <- !app_assoc. rewrite (app_assoc [if lq then 201 else 1; vt]), (app_assoc _ src). change ([ttl; hops] ++ ?a) with ([ttl] ++ hops :: a).
    rewrite (app_assoc _ [ttl]). apply rd8_at. rewrite !blen_app, Hs. change (blen [if lq then 201 else 1; vt]) with 2. change (blen (enc16 size)) with 2. change (blen [ttl]) with 1. lia. }
  assert (R6 : rd16 m (6 + ips) = Some seq).
  { unfold m. rewrite <- !app_assoc. rewrite (app_assoc [if lq then 201 else 1; vt]), (app_assoc _ src), (app_assoc _ [ttl; hops]). apply rd16_at.
    rewrite !blen_app, Hs. change (blen [if lq then 201 else 1; vt]) with 2. change (blen (enc16 size)) with 2. change (blen [ttl; hops]) with 2. lia. }
  assert (R7 : rd8 m (10 + ips) = Some ht).
  { unfold m. rewrite <- !app_assoc. rewrite (app_assoc [if lq then 201 else 1; vt]), (app_assoc _ src), (app_assoc _ [ttl; hops]), (app_assoc _ (enc16 seq)).
    change ([r1; r2; ht; will] ++ ?a) with ([r1; r2] ++ ht :: will :: a). rewrite (app_assoc _ [r1; r2]). apply rd8_at.
    rewrite !blen_app, Hs. change (blen [if lq then 201 else 1; vt]) with 2. change (blen (enc16 size)) with 2. change (blen [ttl; hops]) with 2. change (blen (enc16 seq)) with 2. change (blen [r1; r2]) with 2. lia. }
  assert (R8 : rd8 m (11 + ips) = Some will).
  { unfold m. rewrite <- !app_assoc. rewrite (app_assoc [if lq then 201 else 1; vt]), (app_assoc _ src), (app_assoc _ [ttl; hops]), (app_assoc _ (enc16 seq)).
    change ([r1; r2; ht; will] ++ ?a) with ([r1; r2; ht] ++ will :: a). rewrite (app_assoc _ [r1; r2; ht]). apply rd8_at.
    rewrite !blen_app, Hs. change (blen [if lq then 201 else 1; vt]) with 2. change (blen (enc16 size)) with 2. change (blen [ttl; hops]) with 2. change (blen (enc16 seq)) with 2. change (blen [r1; r2; ht]) with 3. lia. }
  rewrite R0, R1, R2, R3, R4, R5, R6, R7, R8.
  assert (T1 : negb ((if lq then 201 else 1) =? HELLO_MESSAGE) && negb ((if lq then 201 else 1) =? LQ_HELLO_MESSAGE) = false) by (destruct lq; reflexivity).
  assert (T2 : ((if lq then 201 else 1) =? LQ_HELLO_MESSAGE) = lq) by (destruct lq; reflexivity).
  rewrite T1, T2. clear R0 R1 R2 R3 R4 R5 R6 R7 R8 T1 T2.
  assert (Lb : blen body <= Z.of_nat fuel).
  { rewrite !blen_app in Hlen. change (blen [if lq then 201 else 1; vt]) with 2 in Hlen. pose proof (blen_nonneg (enc16 size)). pose proof (blen_nonneg src). pose proof (blen_nonneg [ttl; hops]). pose proof (blen_nonneg (enc16 seq)). pose proof (blen_nonneg [r1; r2; ht; will]). lia. }
  rewrite Em. replace size with (blen pre + blen body) by (unfold size; rewrite Lp, Hs; lia). rewrite <- Lp. unfold body.
  rewrite (passes_enc lq bs pre post fuel Wb Lb). cbn [hbind].
  set (all := flat_map (advertised lq) bs).
  assert (O : exists A U, acc_ok A U (push_all (mkHA [] None None) (by_type all))).
  { change (by_type all) with (filter (fun n => hn_link n =? 0) all ++ filter (fun n => hn_link n =? 3) all ++ filter (fun n => hn_link n =? 1) all ++ filter (fun n => hn_link n =? 2) all ++ []).
    rewrite !push_all_app. 
    assert (F : forall t n, In n (filter (fun n => hn_link n =? t) all) -> hn_link n = t) by (intros t n Q; apply filter_In in Q; lia).
    assert (W0 : forall t s, okst t s -> forall t', t' <> 0 -> okst t' s) by (intros t s (A & U & Q & _) t' N; exists A, U; split; [exact Q|lia]).
    assert (S0 : okst 0 (mkHA [] None None)) by (exists [], []; split; [apply acc_start|auto]).
    apply (push_all_ok 0 _ _) with (2 := F 0) in S0. apply W0 with (t' := 3) in S0; [|lia].
    apply (push_all_ok 3 _ _) with (2 := F 3) in S0. apply W0 with (t' := 1) in S0; [|lia].
    apply (push_all_ok 1 _ _) with (2 := F 1) in S0. apply W0 with (t' := 2) in S0; [|lia].
    apply (push_all_ok 2 _ _) with (2 := F 2) in S0. destruct S0 as (A & U & Q & _). exists A, U. exact Q. }
  change (flat_map (fun t => filter (fun n => hn_link n =? t) all) LINK_ORDER) with (by_type all).
  destruct O as (A & U & O).
  assert (Hn : ha_nodes (push_all (mkHA [] None None) (by_type all)) = rev (by_type all)) by (rewrite push_all_nodes; apply app_nil_r).
  assert (Lall : Z.of_nat (length all) <= blen body).
  { unfold all, body, blen. apply inj_le. clear -Wb Hips. induction bs as [|b bs IH]; [cbn; lia|]. cbn [flat_map]. rewrite !app_length.
    pose proof (Forall_inv Wb) as (_ & We). specialize (IH (Forall_inv_tail Wb)).
    assert (length (advertised lq b) <= length (enc_block lq b))%nat; [|lia].
    unfold advertised, enc_block. cbv zeta. rewrite map_length, !app_length. 
    assert (length (b_entries b) <= length (flat_map (enc_entry lq) (b_entries b)))%nat; [|lia].
    revert We. generalize (b_entries b) as es. induction es as [|e es IHe]; intros We; [cbn; lia|]. cbn [flat_map length]. rewrite app_length.
    specialize (IHe (Forall_inv_tail We)). destruct (Forall_inv We) as (La & _).
    assert (length (e_addr e) <= length (enc_entry lq e))%nat by (unfold enc_entry; rewrite app_length; lia). unfold blen in La. lia. }
  assert (Lby : Z.of_nat (length (by_type all)) <= 4 * Z.of_nat (length all)).
  { change (by_type all) with (filter (fun n => hn_link n =? 0) all ++ filter (fun n => hn_link n =? 3) all ++ filter (fun n => hn_link n =? 1) all ++ filter (fun n => hn_link n =? 2) all ++ []).
    rewrite !app_length. pose proof (filter_len_le (fun n => hn_link n =? 0) all). pose proof (filter_len_le (fun n => hn_link n =? 1) all). pose proof (filter_len_le (fun n => hn_link n =? 2) all). pose proof (filter_len_le (fun n => hn_link n =? 3) all). cbn [length]. lia. }
  rewrite (cull_list_ok A U _ fuel O).
  2: { rewrite <- app_length, <- (a_nodes _ _ _ O), Hn, rev_length.
       rewrite !blen_app in Hlen. change (blen [if lq then 201 else 1; vt]) with 2 in Hlen. pose proof (blen_nonneg (enc16 size)). pose proof (blen_nonneg src). pose proof (blen_nonneg [ttl; hops]). pose proof (blen_nonneg (enc16 seq)). pose proof (blen_nonneg [r1; r2; ht; will]). lia. }
  cbn [hbind]. do 2 f_equal. rewrite Hn, filter_rev'. f_equal. unfold hello_neighbors. cbv zeta. cbn [x_lq x_blocks]. fold all.
  apply filter_ext_in'. intros n _. f_equal. apply superseded_ext. intros y. rewrite <- in_rev. apply by_type_in.
Qed.
End Wf.

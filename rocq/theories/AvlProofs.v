From Verif Require Import Base Avl AvlSpec.
From Coq Require Import Sorting.Sorted Sorting.Permutation.

Section P.
Context {K : Type}.
Variable comp : K -> K -> Z.
Hypothesis CO : comp_ok comp.

Notation tree := (tree K).
Notation entry := (entry K).

Fixpoint inorder (t : tree) : list entry :=
  match t with E => [] | N l e _ r => inorder l ++ e :: inorder r end.

Fixpoint bal (t : tree) : Prop :=
  match t with
  | E => True
  | N l _ b r => bal l /\ bal r /\ b = height r - height l /\ -1 <= b <= 1
  end.

Fixpoint cbal (c : list (frame K)) (h : Z) : Prop :=
  match c with
  | [] => True
  | FL _ b r :: c' => bal r /\ b = height r - h /\ -1 <= b <= 1 /\ cbal c' (1 + Z.max h (height r))
  | FR l _ b :: c' => bal l /\ b = h - height l /\ -1 <= b <= 1 /\ cbal c' (1 + Z.max (height l) h)
  end.

Fixpoint cbefore (c : list (frame K)) : list entry :=
  match c with
  | [] => []
  | FL _ _ _ :: c' => cbefore c'
  | FR l e _ :: c' => cbefore c' ++ inorder l ++ [e]
  end.
Fixpoint cafter (c : list (frame K)) : list entry :=
  match c with
  | [] => []
  | FL e _ r :: c' => e :: inorder r ++ cafter c'
  | FR _ _ _ :: c' => cafter c'
  end.

Lemma height_nonneg (t : tree) : 0 <= height t.
Proof. induction t; cbn [height]; lia. Qed.

Lemma inorder_plug c : forall t, inorder (plug t c) = cbefore c ++ inorder t ++ cafter c.
Proof.
  induction c as [|[e b r|l e b] c IH]; intros t; cbn [plug cbefore cafter].
  - now rewrite app_nil_r.
  - rewrite IH. cbn [inorder]. rewrite <- !app_assoc. reflexivity.
  - rewrite IH. cbn [inorder]. rewrite <- !app_assoc. reflexivity.
Qed.

Lemma bal_plug c : forall t, bal t -> cbal c (height t) -> bal (plug t c).
Proof.
  induction c as [|[e b r|l e b] c IH]; intros t B C; cbn [plug cbal] in *; auto.
  - destruct C as (Br & Eb & Rb & C). apply IH; [cbn [bal]; auto|exact C].
  - destruct C as (Br & Eb & Rb & C). apply IH; [cbn [bal]; auto|exact C].
Qed.

Lemma bal_unplug c : forall t, bal (plug t c) -> bal t /\ cbal c (height t).
Proof.
  induction c as [|[e b r|l e b] c IH]; intros t B; cbn [plug cbal] in *; auto.
  - apply IH in B. destruct B as (B & C). cbn [bal height] in B, C. tauto.
  - apply IH in B. destruct B as (B & C). cbn [bal height] in B, C. tauto.
Qed.

Ltac zc := repeat match goal with
  | |- context [?a =? ?b] => destruct (Z.eqb_spec a b); try (exfalso; lia)
  | |- context [?a <? ?b] => destruct (Z.ltb_spec a b); try (exfalso; lia)
  | |- context [?a >? ?b] => rewrite (Z.gtb_ltb a b); destruct (Z.ltb_spec b a); try (exfalso; lia)
  end.
Ltac io := cbn [inorder cbefore cafter]; rewrite <- ?app_assoc; cbn [app]; rewrite <- ?app_assoc; reflexivity.

(* the result of a rotation in place of a subtree *)
Definition good (t' : option tree) (c : list (frame K)) (io : list entry) : Prop :=
  exists r, t' = Some r /\ bal r /\ inorder r = cbefore c ++ io ++ cafter c.

Lemma good_plug t c io : bal t -> cbal c (height t) -> inorder t = io -> good (Some (plug t c)) c io.
Proof.
  intros B C I. exists (plug t c). split; [reflexivity|]. split; [now apply bal_plug|].
  rewrite inorder_plug, I. reflexivity.
Qed.

Lemma good_frameL t c e b r io : good t (FL e b r :: c) io -> good t c (io ++ e :: inorder r).
Proof.
  intros (x & A & B & C). exists x. split; [exact A|]. split; [exact B|]. rewrite C.
  cbn [cbefore cafter]. rewrite <- !app_assoc. reflexivity.
Qed.
Lemma good_unframeL t c e b r io : good t c (io ++ e :: inorder r) -> good t (FL e b r :: c) io.
Proof.
  intros (x & A & B & C). exists x. split; [exact A|]. split; [exact B|]. rewrite C.
  cbn [cbefore cafter]. rewrite <- !app_assoc. reflexivity.
Qed.
Lemma good_unframeR t c e b l io : good t c (inorder l ++ e :: io) -> good t (FR l e b :: c) io.
Proof.
  intros (x & A & B & C). exists x. split; [exact A|]. split; [exact B|]. rewrite C.
  cbn [cbefore cafter]. rewrite <- !app_assoc. reflexivity.
Qed.

Ltac bl := repeat split; cbn [height] in *; try assumption; try lia.
Ltac cb := match goal with
  | C : cbal ?c ?h |- cbal ?c ?h' => replace h' with h; [exact C | cbn [height] in *; lia]
  end.
Ltac fin := first [ solve [bl] | solve [cb] | solve [cbn [inorder]; rewrite <- ?app_assoc; cbn [app]; rewrite <- ?app_assoc; reflexivity] ].

Lemma post_insert_ok c : forall t h,
  bal t -> height t = h + 1 -> balance t <> Some 0 -> t <> E -> cbal c h ->
  good (post_insert t c) c (inorder t).
Proof.
  induction c as [|[e b r|l e b] c IH]; intros t h B H NB NE C; cbn [post_insert].
  - exists t. split; [reflexivity|]. split; [exact B|]. cbn [cbefore cafter]. now rewrite app_nil_r.
  - cbn [cbal] in C. destruct C as (Br & Eb & Rb & C). apply good_unframeL.
    pose proof (height_nonneg r).
    destruct (Z.eqb_spec (b - 1) 0); [|destruct (Z.eqb_spec (b - 1) (-1))].
    + apply good_plug; [bl|cbn [height]; cb|reflexivity].
    + apply (IH (N t e (b - 1) r) (1 + Z.max h (height r))); try fin; cbn [balance]; try discriminate.
      intros X. apply Some_inj in X. lia.
    + destruct t as [|ll le lb lr]; [congruence|]. cbn [balance] in *.
      assert (lb <> 0) by congruence.
      cbn [bal height] in B, H. destruct B as (Bll & Blr & Elb & Rlb).
      pose proof (height_nonneg ll). pose proof (height_nonneg lr).
      destruct (Z.eqb_spec lb (-1)).
      * cbn [rotate_right]. cbv zeta. apply good_plug; [| |fin].
        -- cbn [bal height]. bl.
        -- fin.
      * destruct lr as [|lrl lre lrb lrr]; [cbn [height] in *; lia|].
        cbn [bal height] in Blr, Elb, H. destruct Blr as (Bl1 & Bl2 & Elr & Rlr).
        pose proof (height_nonneg lrl). pose proof (height_nonneg lrr).
        cbn [rotate_left rotate_right]. cbv zeta. apply good_plug; [| |fin].
        -- cbn [bal height]. bl.
        -- fin.
  - cbn [cbal] in C. destruct C as (Br & Eb & Rb & C). apply good_unframeR.
    pose proof (height_nonneg l).
    destruct (Z.eqb_spec (b + 1) 0); [|destruct (Z.eqb_spec (b + 1) 1)].
    + apply good_plug; [bl|cbn [height]; cb|reflexivity].
    + apply (IH (N l e (b + 1) t) (1 + Z.max (height l) h)); try fin; cbn [balance]; try discriminate.
      intros X. apply Some_inj in X. lia.
    + destruct t as [|rl re rb rr]; [congruence|]. cbn [balance] in *.
      assert (rb <> 0) by congruence.
      cbn [bal height] in B, H. destruct B as (Bll & Blr & Elb & Rlb).
      pose proof (height_nonneg rl). pose proof (height_nonneg rr).
      destruct (Z.eqb_spec rb 1).
      * cbn [rotate_left]. cbv zeta. apply good_plug; [| |fin].
        -- cbn [bal height]. bl.
        -- fin.
      * destruct rl as [|lrl lre lrb lrr]; [cbn [height] in *; lia|].
        cbn [bal height] in Bll, Elb, H. destruct Bll as (Bl1 & Bl2 & Elr & Rlr).
        pose proof (height_nonneg lrl). pose proof (height_nonneg lrr).
        cbn [rotate_left rotate_right]. cbv zeta. apply good_plug; [| |fin].
        -- cbn [bal height]. bl.
        -- fin.
Qed.

Lemma post_delete_ok c : forall t,
  bal t -> cbal c (height t + 1) -> good (post_delete t c) c (inorder t).
Proof.
  induction c as [|[e b r|l e b] c IH]; intros t B C; cbn [post_delete].
  - exists t. split; [reflexivity|]. split; [exact B|]. cbn [cbefore cafter]. now rewrite app_nil_r.
  - cbn [cbal] in C. destruct C as (Br & Eb & Rb & C). apply good_unframeL.
    pose proof (height_nonneg r). pose proof (height_nonneg t). unfold after_left. cbv zeta.
    destruct (Z.eqb_spec (b + 1) 0); [|destruct (Z.eqb_spec (b + 1) 1)].
    + apply (IH (N t e (b + 1) r)); [cbn [bal]; bl|cbn [height]; cb].
    + apply good_plug; [bl|cbn [height]; cb|reflexivity].
    + destruct r as [|rl re rb rr]; [cbn [height] in *; lia|]. cbn [balance].
      cbn [bal height] in Br, Eb, C. destruct Br as (Brl & Brr & Erb & Rrb).
      pose proof (height_nonneg rl). pose proof (height_nonneg rr).
      destruct (Z.eqb_spec rb 0); [|destruct (Z.eqb_spec rb 1)].
      * cbn [rotate_left]. cbv zeta. apply good_plug; [| |fin].
        -- cbn [bal height]. bl.
        -- fin.
      * cbn [rotate_left]. cbv zeta.
        match goal with |- good (post_delete ?x c) _ ?i => replace i with (inorder x) by fin; apply IH end.
        -- cbn [bal height]. bl.
        -- fin.
      * destruct rl as [|al ae ab ar]; [cbn [height] in *; lia|].
        cbn [bal height] in Brl, Erb, Eb, C. destruct Brl as (B1 & B2 & E1 & R1).
        pose proof (height_nonneg al). pose proof (height_nonneg ar).
        cbn [rotate_left rotate_right]. cbv zeta.
        match goal with |- good (post_delete ?x c) _ ?i => replace i with (inorder x) by fin; apply IH end.
        -- cbn [bal height]. bl.
        -- fin.
  - cbn [cbal] in C. destruct C as (Br & Eb & Rb & C). apply good_unframeR.
    pose proof (height_nonneg l). pose proof (height_nonneg t). unfold after_right. cbv zeta.
    destruct (Z.eqb_spec (b - 1) 0); [|destruct (Z.eqb_spec (b - 1) (-1))].
    + apply (IH (N l e (b - 1) t)); [cbn [bal]; bl|cbn [height]; cb].
    + apply good_plug; [bl|cbn [height]; cb|reflexivity].
    + destruct l as [|rl re rb rr]; [cbn [height] in *; lia|]. cbn [balance].
      cbn [bal height] in Br, Eb, C. destruct Br as (Brl & Brr & Erb & Rrb).
      pose proof (height_nonneg rl). pose proof (height_nonneg rr).
      destruct (Z.eqb_spec rb 0); [|destruct (Z.eqb_spec rb (-1))].
      * cbn [rotate_right]. cbv zeta. apply good_plug; [| |fin].
        -- cbn [bal height]. bl.
        -- fin.
      * cbn [rotate_right]. cbv zeta.
        match goal with |- good (post_delete ?x c) _ ?i => replace i with (inorder x) by fin; apply IH end.
        -- cbn [bal height]. bl.
        -- fin.
      * destruct rr as [|al ae ab ar]; [cbn [height] in *; lia|].
        cbn [bal height] in Brr, Erb, Eb, C. destruct Brr as (B1 & B2 & E1 & R1).
        pose proof (height_nonneg al). pose proof (height_nonneg ar).
        cbn [rotate_left rotate_right]. cbv zeta.
        match goal with |- good (post_delete ?x c) _ ?i => replace i with (inorder x) by fin; apply IH end.
        -- cbn [bal height]. bl.
        -- fin.
Qed.


(** ** Comparison *)
Lemma c_lt_gt a b : comp a b < 0 -> comp b a > 0. Proof. apply CO. Qed.
Lemma c_gt_lt a b : comp a b > 0 -> comp b a < 0. Proof. apply CO. Qed.
Lemma c_eq_sym a b : comp a b = 0 -> comp b a = 0.
Proof.
  intros H. destruct (Z.lt_total (comp b a) 0) as [L|[L|L]]; [|exact L|].
  - apply c_lt_gt in L. lia.
  - assert (X : comp b a > 0) by lia. apply c_gt_lt in X. lia.
Qed.
Lemma c_le a b : comp a b >= 0 -> comp b a <= 0.
Proof.
  intros H. destruct (Z.eq_dec (comp a b) 0) as [Z0|Z0].
  - apply c_eq_sym in Z0. lia.
  - assert (X : comp a b > 0) by lia. apply c_gt_lt in X. lia.
Qed.
Lemma c_ge a b : comp a b <= 0 -> comp b a >= 0.
Proof.
  intros H. destruct (Z.eq_dec (comp a b) 0) as [Z0|Z0].
  - apply c_eq_sym in Z0. lia.
  - assert (X : comp a b < 0) by lia. apply c_lt_gt in X. lia.
Qed.
Lemma c_le_lt a b c : comp a b <= 0 -> comp b c < 0 -> comp a c < 0.
Proof.
  intros H1 H2. destruct (Z.lt_ge_cases (comp a c) 0) as [L|L]; [exact L|exfalso].
  assert (X : comp a c >= 0) by lia. apply c_le in X.
  pose proof (comp_trans _ CO _ _ _ X H1) as Y. apply c_ge in Y. lia.
Qed.
Lemma c_lt_le a b c : comp a b < 0 -> comp b c <= 0 -> comp a c < 0.
Proof.
  intros H1 H2. destruct (Z.lt_ge_cases (comp a c) 0) as [L|L]; [exact L|exfalso].
  assert (X : comp a c >= 0) by lia. apply c_le in X.
  pose proof (comp_trans _ CO _ _ _ H2 X) as Y. apply c_ge in Y. lia.
Qed.

(** ** Search *)
Definition below (k : K) (l : list entry) := Forall (fun y => comp (ekey y) k < 0) l.
Definition above (k : K) (l : list entry) := Forall (fun y => comp k (ekey y) < 0) l.
Definition lt_e (x y : entry) := comp (ekey x) (ekey y) < 0.

Lemma ss_mid l (e : entry) r : StronglySorted lt_e (l ++ e :: r) ->
  StronglySorted lt_e l /\ StronglySorted lt_e r /\ Forall (fun y => lt_e y e) l /\ Forall (lt_e e) r.
Proof.
  induction l as [|y l IH]; cbn [app]; intros H.
  - inversion H as [|a b S F]; subst. repeat split; auto. constructor.
  - inversion H as [|a b S F]; subst. destruct (IH S) as (A & B & C & D).
    rewrite Forall_app in F. destruct F as (F1 & F2). inversion F2; subst.
    repeat split; auto; constructor; auto.
Qed.

Lemma find_rec_ok t : forall k c,
  t <> E -> StronglySorted lt_e (inorder t) ->
  exists l e b r c', find_rec comp t k c = Some (N l e b r, c')
    /\ plug (N l e b r) c' = plug t c
    /\ (exists x y, cbefore c' = cbefore c ++ x /\ cafter c' = y ++ cafter c /\ below k x /\ above k y)
    /\ (comp k (ekey e) < 0 -> l = E) /\ (comp k (ekey e) > 0 -> r = E).
Proof.
  induction t as [|l IHl e b r IHr]; intros k c NE S; [congruence|].
  cbn [inorder] in S. apply ss_mid in S. destruct S as (Sl & Sr & Fl & Fr).
  cbn [find_rec]. cbv zeta. rewrite Z.gtb_ltb.
  destruct (Z.ltb_spec (comp k (ekey e)) 0) as [L|G].
  - destruct l as [|ll le lb lr] eqn:El.
    + exists E, e, b, r, c. split; [reflexivity|]. split; [reflexivity|]. split; [|split; auto; lia].
      exists [], []. cbn [app]. rewrite app_nil_r. repeat split; constructor.
    + rewrite <- El in *. destruct (IHl k (FL e b r :: c)) as (l1 & e1 & b1 & r1 & c1 & F & P & (x & y & X & Y & Bx & Ay) & Q1 & Q2);
        [subst; discriminate|exact Sl|].
      exists l1, e1, b1, r1, c1. split; [exact F|]. split; [exact P|]. split; [|auto].
      exists x, (y ++ e :: inorder r). cbn [cbefore cafter] in X, Y. rewrite X, Y. rewrite <- app_assoc.
      repeat split; auto. apply Forall_app. split; [exact Ay|]. constructor; [exact L|].
      eapply Forall_impl; [|exact Fr]. intros z Hz. apply (c_lt_le _ (ekey e)); [exact L|]. unfold lt_e in Hz. lia.
  - destruct (Z.ltb_spec 0 (comp k (ekey e))) as [L|G2].
    + destruct r as [|rl re rb rr] eqn:Er.
      * exists l, e, b, E, c. split; [reflexivity|]. split; [reflexivity|]. split; [|split; auto; lia].
        exists [], []. cbn [app]. rewrite app_nil_r. repeat split; constructor.
      * rewrite <- Er in *. destruct (IHr k (FR l e b :: c)) as (l1 & e1 & b1 & r1 & c1 & F & P & (x & y & X & Y & Bx & Ay) & Q1 & Q2);
          [subst; discriminate|exact Sr|].
        exists l1, e1, b1, r1, c1. split; [exact F|]. split; [exact P|]. split; [|auto].
        exists ((inorder l ++ [e]) ++ x), y. cbn [cbefore cafter] in X, Y. rewrite X, Y. rewrite <- !app_assoc.
        assert (Lk : comp (ekey e) k < 0) by (apply c_gt_lt; lia).
        repeat split; auto. apply Forall_app. split; [|constructor; auto].
        eapply Forall_impl; [|exact Fl]. intros z Hz. apply (c_lt_le _ (ekey e)); [exact Hz|lia].
    + exists l, e, b, r, c. split; [reflexivity|]. split; [reflexivity|]. split; [|split; intros; lia].
      exists [], []. cbn [app]. rewrite app_nil_r. repeat split; constructor.
Qed.

(** ** Groups of equal keys on the thread *)
Definition fol (f : entry) : entry * bool := (f, false).
Fixpoint thflat (gs : list (entry * list entry)) : thread K :=
  match gs with [] => [] | (e, fs) :: gs' => (e, true) :: map fol fs ++ thflat gs' end.

Record inv (t : atree K) (gs : list (entry * list entry)) : Prop := {
  i_thr : thr t = thflat gs;
  i_io : inorder (root t) = map fst gs;
  i_bal : bal (root t);
  i_sort : StronglySorted lt_e (map fst gs);
  i_fol : Forall (fun g => Forall (fun f => comp (ekey f) (ekey (fst g)) = 0) (snd g)) gs;
  i_nd : NoDup (map eid (entries t)) }.

Lemma thflat_app a b : thflat (a ++ b) = thflat a ++ thflat b.
Proof. induction a as [|[e fs] a IH]; cbn [thflat app]; [reflexivity|]. now rewrite IH, <- app_assoc. Qed.

Definition tids (th : thread K) := map (fun y => eid (fst y)) th.
Lemma tids_app a b : tids (a ++ b) = tids a ++ tids b. Proof. apply map_app. Qed.
Lemma tids_entries (th : thread K) : map eid (map fst th) = tids th.
Proof. apply map_map. Qed.

Lemma ib_app a : forall y b x, ~ In (eid (fst y)) (tids a) ->
  insert_before (a ++ y :: b) (eid (fst y)) x = Some (a ++ x :: y :: b).
Proof.
  induction a as [|z a IH]; intros y b x NI; cbn [app insert_before].
  - now rewrite Z.eqb_refl.
  - cbn [tids map In] in NI. destruct (Z.eqb_spec (eid (fst z)) (eid (fst y))); [tauto|].
    rewrite IH; [reflexivity|tauto].
Qed.
Lemma ia_app a : forall y b x, ~ In (eid (fst y)) (tids a) ->
  insert_after (a ++ y :: b) (eid (fst y)) x = Some (a ++ y :: x :: b).
Proof.
  induction a as [|z a IH]; intros y b x NI; cbn [app insert_after].
  - now rewrite Z.eqb_refl.
  - cbn [tids map In] in NI. destruct (Z.eqb_spec (eid (fst z)) (eid (fst y))); [tauto|].
    rewrite IH; [reflexivity|tauto].
Qed.
Lemma rm_app a : forall y b, ~ In (eid (fst y)) (tids a) ->
  remove (a ++ y :: b) (eid (fst y)) = Some (a ++ b).
Proof.
  induction a as [|z a IH]; intros y b NI; cbn [app remove].
  - now rewrite Z.eqb_refl.
  - cbn [tids map In] in NI. destruct (Z.eqb_spec (eid (fst z)) (eid (fst y))); [tauto|].
    rewrite IH; [reflexivity|tauto].
Qed.
Lemma nx_app a : forall y b, ~ In (eid (fst y)) (tids a) ->
  nexts (a ++ y :: b) (eid (fst y)) = Some b.
Proof.
  induction a as [|z a IH]; intros y b NI; cbn [app nexts].
  - now rewrite Z.eqb_refl.
  - cbn [tids map In] in NI. destruct (Z.eqb_spec (eid (fst z)) (eid (fst y))); [tauto|].
    rewrite IH; [reflexivity|tauto].
Qed.
Lemma fl_app a : forall y b, ~ In (eid (fst y)) (tids a) ->
  flag_of (a ++ y :: b) (eid (fst y)) = Some (snd y).
Proof.
  induction a as [|z a IH]; intros [y f] b NI; cbn [app flag_of fst snd] in *.
  - now rewrite Z.eqb_refl.
  - destruct z as [z g]. cbn [tids map In fst] in NI. destruct (Z.eqb_spec (eid z) (eid y)); [tauto|].
    apply (IH (y, f)). cbn [fst]. tauto.
Qed.
Lemma sl_app a : forall y f b, ~ In (eid y) (tids a) ->
  set_leader (a ++ (y, f) :: b) (eid y) = a ++ (y, true) :: b.
Proof.
  induction a as [|z a IH]; intros y f b NI; cbn [app set_leader].
  - now rewrite Z.eqb_refl.
  - destruct z as [z g]. cbn [tids map In fst] in NI. destruct (Z.eqb_spec (eid z) (eid y)); [tauto|].
    rewrite IH; [reflexivity|tauto].
Qed.

Definition leads (l : thread K) : Prop := match l with (_, false) :: _ => False | _ => True end.
Lemma leads_flat gs : leads (thflat gs).
Proof. destruct gs as [|[e fs] gs]; exact I. Qed.
Lemma skip_fol fs : forall p l, leads l -> skip_followers p (map fol fs ++ l) = last (map eid fs) p.
Proof.
  induction fs as [|f fs IH]; intros p l L.
  - cbn [map app]. destruct l as [|[y [|]] l]; cbn in *; tauto.
  - cbn [map app fol skip_followers]. rewrite IH by exact L.
    destruct fs as [|g fs]; [reflexivity|]. cbn [map]. destruct (map eid fs) as [|z zs] eqn:Em.
    + reflexivity.
    + change (last (eid g :: z :: zs) (eid f)) with (last (z :: zs) (eid f)).
      change (last (eid f :: eid g :: z :: zs) p) with (last (z :: zs) p).
      clear. revert z. induction zs as [|w zs IH]; intros z; [reflexivity|].
      change (last (z :: w :: zs) (eid f)) with (last (w :: zs) (eid f)).
      change (last (z :: w :: zs) p) with (last (w :: zs) p). apply IH.
Qed.

(* inserting after the last follower of a group *)
Lemma ia_group a e fs b x : NoDup (tids (a ++ (e, true) :: map fol fs ++ b)) ->
  insert_after (a ++ (e, true) :: map fol fs ++ b) (last (map eid fs) (eid e)) x
  = Some (a ++ (e, true) :: map fol fs ++ x :: b).
Proof.
  intros ND. destruct (exists_last (l := e :: fs)) as (i & z & Ez); [discriminate|].
  assert (L : last (map eid fs) (eid e) = eid z).
  { assert (Q : last (map eid (e :: fs)) (eid e) = eid z).
    { rewrite Ez, map_app. cbn [map]. apply last_last. }
    rewrite <- Q. destruct fs; reflexivity. }
  rewrite L. clear L.
  destruct i as [|i0 i]; cbn [app] in Ez; injection Ez as E1 E2; subst.
  - cbn [map app]. apply (ia_app a (z, true)). cbn [fst]. intros X.
    rewrite tids_app in ND. cbn [tids map fst] in ND. apply NoDup_remove_2 in ND. apply ND.
    apply in_or_app. now left.
  - rewrite map_app in *. cbn [map] in *. rewrite <- !app_assoc in *. cbn [app] in *.
    assert (Q : forall w, a ++ (i0, true) :: map fol i ++ fol z :: w = (a ++ (i0, true) :: map fol i) ++ fol z :: w)
      by (intros w; rewrite <- app_assoc; reflexivity).
    rewrite !Q in *. apply (ia_app _ (fol z)). intros X.
    rewrite tids_app in ND. cbn [tids map] in ND. apply NoDup_remove_2 in ND. apply ND.
    apply in_or_app. now left.
Qed.

(** ** Sorted list facts *)
Lemma sinsert_app x a b :
  Forall (fun y => comp (ekey x) (ekey y) >= 0) a ->
  match b with [] => True | y :: _ => comp (ekey x) (ekey y) < 0 end ->
  sinsert comp x (a ++ b) = a ++ x :: b.
Proof.
  induction a as [|y a IH]; intros F B; cbn [app sinsert].
  - destruct b as [|y b]; [reflexivity|]. cbn [sinsert]. destruct (Z.ltb_spec (comp (ekey x) (ekey y)) 0); [reflexivity|lia].
  - inversion F; subst. destruct (Z.ltb_spec (comp (ekey x) (ekey y)) 0); [lia|]. now rewrite IH.
Qed.

Lemma sfind_none k l : Forall (fun y => comp k (ekey y) <> 0) l -> sfind comp k l = None.
Proof.
  unfold sfind. induction l as [|y l IH]; intros F; [reflexivity|]. inversion F; subst. cbn [List.find].
  destruct (Z.eqb_spec (comp k (ekey y)) 0); [tauto|]. auto.
Qed.
Lemma sfind_app k a b : Forall (fun y => comp k (ekey y) <> 0) a -> sfind comp k (a ++ b) = sfind comp k b.
Proof.
  unfold sfind. induction a as [|y a IH]; intros F; [reflexivity|]. inversion F; subst. cbn [app List.find].
  destruct (Z.eqb_spec (comp k (ekey y)) 0); [tauto|]. auto.
Qed.

Lemma sdelete_app (a : list entry) e b : NoDup (map eid (a ++ e :: b)) -> sdelete (eid e) (a ++ e :: b) = a ++ b.
Proof.
  assert (Q : forall l : list entry, ~ In (eid e) (map eid l) -> sdelete (eid e) l = l).
  { induction l as [|y l IH]; intros NI; [reflexivity|]. cbn [sdelete filter map In] in *.
    destruct (Z.eqb_spec (eid y) (eid e)); [tauto|]. cbn [negb]. f_equal. apply IH. tauto. }
  intros ND. rewrite map_app in ND. cbn [map] in ND. apply NoDup_remove_2 in ND.
  unfold sdelete. rewrite filter_app. cbn [filter]. rewrite Z.eqb_refl. cbn [negb].
  fold (sdelete (eid e) a) (sdelete (eid e) b). rewrite !Q; [reflexivity| |]; intros X; apply ND; apply in_or_app; auto.
Qed.

(* keys of a list of groups *)
Definition ents (gs : list (entry * list entry)) : list entry := map fst (thflat gs).
Lemma ents_app a b : ents (a ++ b) = ents a ++ ents b.
Proof. unfold ents. now rewrite thflat_app, map_app. Qed.
Lemma ents_cons e fs gs : ents ((e, fs) :: gs) = e :: fs ++ ents gs.
Proof.
  unfold ents. cbn [thflat map fst]. rewrite map_app, map_map. cbn [fol fst]. rewrite map_id. reflexivity.
Qed.

Definition gok (g : entry * list entry) := Forall (fun f => comp (ekey f) (ekey (fst g)) = 0) (snd g).

Lemma ents_below k gs : Forall gok gs -> below k (map fst gs) -> below k (ents gs).
Proof.
  unfold below. induction gs as [|[e fs] gs IH]; intros G B; [constructor|].
  rewrite ents_cons. inversion G as [|? ? G1 G2]; subst. cbn [map fst] in B. inversion B as [|? ? B1 B2]; subst.
  constructor; [exact B1|]. apply Forall_app. split; [|auto].
  eapply Forall_impl; [|exact G1]. cbn [fst]. intros f Hf. apply (c_le_lt _ (ekey e)); [lia|exact B1].
Qed.
Lemma ents_above k gs : Forall gok gs -> above k (map fst gs) -> above k (ents gs).
Proof.
  unfold above. induction gs as [|[e fs] gs IH]; intros G B; [constructor|].
  rewrite ents_cons. inversion G as [|? ? G1 G2]; subst. cbn [map fst] in B. inversion B as [|? ? B1 B2]; subst.
  constructor; [exact B1|]. apply Forall_app. split; [|auto].
  eapply Forall_impl; [|exact G1]. cbn [fst]. intros f Hf. apply c_eq_sym in Hf. apply (c_lt_le _ (ekey e)); [exact B1|lia].
Qed.

Lemma below_ge k l : below k l -> Forall (fun y => comp k (ekey y) >= 0) l.
Proof. apply Forall_impl. intros y H. apply c_lt_gt in H. lia. Qed.
Lemma below_ne k l : below k l -> Forall (fun y => comp k (ekey y) <> 0) l.
Proof. apply Forall_impl. intros y H. apply c_lt_gt in H. lia. Qed.
Lemma above_ne k l : above k l -> Forall (fun y => comp k (ekey y) <> 0) l.
Proof. apply Forall_impl. intros y H. lia. Qed.
Lemma above_hd k l : above k l -> match l with [] => True | y :: _ => comp k (ekey y) < 0 end.
Proof. intros A. inversion A; subst; auto. Qed.

(* splitting the groups at a leader *)
Lemma split_groups (gs : list (entry * list entry)) : forall a e b, map fst gs = a ++ e :: b ->
  exists ga fs gb, gs = ga ++ (e, fs) :: gb /\ map fst ga = a /\ map fst gb = b.
Proof.
  induction gs as [|[x fs] gs IH]; intros a e b H; [destruct a; discriminate|].
  destruct a as [|y a]; cbn [map fst app] in H; injection H as H1 H2.
  - exists [], fs, gs. subst. auto.
  - destruct (IH a e b H2) as (ga & fs' & gb & G & A & B). exists ((x, fs) :: ga), fs', gb.
    subst. auto.
Qed.

Lemma ss_insert (a : list entry) x b : StronglySorted lt_e (a ++ b) ->
  below (ekey x) a -> above (ekey x) b -> StronglySorted lt_e (a ++ x :: b).
Proof.
  induction a as [|y a IH]; cbn [app]; intros S A B.
  - constructor; auto.
  - inversion S as [|? ? S1 F]; subst. inversion A as [|? ? A1 A2]; subst. constructor; [auto|].
    rewrite Forall_app in *. destruct F as (F1 & F2). split; [exact F1|]. constructor; [exact A1|exact F2].
Qed.

Lemma map_fst_app (a b : list (entry * list entry)) : map (@fst entry (list entry)) (a ++ b) = map fst a ++ map fst b.
Proof. apply map_app. Qed.

Lemma nodup_insert {A} (a : list A) x b : NoDup (a ++ b) -> ~ In x (a ++ b) -> NoDup (a ++ x :: b).
Proof. intros ND NI. apply (Permutation_NoDup (Permutation_middle a b x)). now constructor. Qed.

Lemma avl_insert_ok t gs x dup :
  inv t gs -> ~ In (eid x) (map eid (entries t)) ->
  exists t' gs', avl_insert comp t x dup = Some (t', snd (smeans comp (entries t) (AIns x dup)))
    /\ inv t' gs' /\ entries t' = fst (smeans comp (entries t) (AIns x dup)).
Proof.
  intros [Ith Iio Ib Is If Ind] NI. unfold avl_insert. cbv zeta.
  destruct (root t) as [|tl te tb tr] eqn:Et.
  - cbn [inorder] in Iio. destruct gs; [|discriminate].
    assert (Ee : entries t = []) by (unfold entries; rewrite Ith; reflexivity).
    rewrite Ee. cbn [smeans sfind List.find fst snd sinsert].
    exists (mkTree (N E x 0 E) [(x, true)]), [(x, [])].
    split; [reflexivity|]. split; [|reflexivity].
    constructor; cbn [thr root thflat map fst inorder app bal height entries]; auto; try lia.
    + repeat constructor.
    + repeat constructor.
    + constructor; [intros []|constructor].
  - rewrite <- Et in *. assert (NE : root t <> E) by (rewrite Et; discriminate).
    assert (So : StronglySorted lt_e (inorder (root t))) by now rewrite Iio.
    destruct (find_rec_ok (root t) (ekey x) [] NE So) as (l & e & b & r & c & F & P & (xa & ya & X & Y & Bx & Ay) & Q1 & Q2).
    rewrite F. cbn [cbefore cafter app] in X, Y. rewrite app_nil_r in Y. subst xa ya. cbn [plug] in P.
    assert (Ic : map fst gs = (cbefore c ++ inorder l) ++ e :: (inorder r ++ cafter c)).
    { rewrite <- Iio, <- P, inorder_plug. cbn [inorder]. rewrite <- !app_assoc. reflexivity. }
    destruct (split_groups _ _ _ _ Ic) as (ga & fs & gb & G & Ga & Gb). subst gs.
    rewrite Forall_app in If. destruct If as (If1 & If2). inversion If2 as [|? ? Ie If3]; subst. clear If2.
    cbn [fst snd] in Ie.
    assert (Bl : bal (N l e b r) /\ cbal c (height (N l e b r))) by (apply bal_unplug; rewrite P; exact Ib).
    destruct Bl as (Bl & Cb). cbn [bal] in Bl. destruct Bl as (Bl1 & Bl2 & Eb & Rb).
    assert (Th : thr t = thflat ga ++ (e, true) :: map fol fs ++ thflat gb).
    { rewrite Ith, thflat_app. reflexivity. }
    assert (En : entries t = ents ga ++ e :: fs ++ ents gb).
    { unfold entries. rewrite Ith. fold (ents (ga ++ (e, fs) :: gb)). rewrite ents_app, ents_cons. reflexivity. }
    assert (NDt : NoDup (tids (thr t))) by (rewrite <- tids_entries; exact Ind).
    assert (NIt : ~ In (eid x) (tids (thr t))) by (rewrite <- tids_entries; exact NI).
    assert (NIe : ~ In (eid e) (tids (thflat ga))).
    { intros Z0. rewrite Th, tids_app in NDt. cbn [tids map fst] in NDt. apply NoDup_remove_2 in NDt. apply NDt.
      apply in_or_app. now left. }
    assert (LF : last_follower (thr t) (eid e) = Some (last (map eid fs) (eid e))).
    { unfold last_follower. rewrite Th. rewrite (nx_app _ (e, true)) by exact NIe.
      rewrite skip_fol by apply leads_flat. reflexivity. }
    rewrite LF. clear LF.
    pose proof (height_nonneg l) as Hl. pose proof (height_nonneg r) as Hr.
    destruct (Z.eqb_spec (comp (ekey x) (ekey e)) 0) as [D0|D0].
    + (* equal key *)
      assert (Bga : below (ekey x) (map fst ga)).
      { rewrite Ga. apply Forall_app. split; [exact Bx|]. rewrite Ic in Is. apply ss_mid in Is. destruct Is as (_ & _ & H1 & _).
        rewrite Forall_app in H1. destruct H1 as (_ & H1). eapply Forall_impl; [|exact H1]. intros z Hz.
        apply (c_lt_le _ (ekey e)); [exact Hz|]. apply c_eq_sym in D0. lia. }
      assert (Agb : above (ekey x) (map fst gb)).
      { rewrite Gb. apply Forall_app. split; [|exact Ay]. rewrite Ic in Is. apply ss_mid in Is. destruct Is as (_ & _ & _ & H1).
        rewrite Forall_app in H1. destruct H1 as (H1 & _). eapply Forall_impl; [|exact H1]. intros z Hz.
        apply (c_le_lt _ (ekey e)); [lia|exact Hz]. }
      assert (Sf : sfind comp (ekey x) (entries t) = Some e).
      { rewrite En, sfind_app by (apply below_ne, ents_below; assumption).
        unfold sfind. cbn [List.find]. rewrite D0. reflexivity. }
      cbn [smeans]. rewrite Sf. destruct dup.
      * rewrite Th, ia_group by (rewrite <- Th; exact NDt).
        assert (E' : map fst (thflat ga ++ (e, true) :: map fol fs ++ (x, false) :: thflat gb)
                     = (ents ga ++ e :: fs) ++ x :: ents gb).
        { rewrite map_app. cbn [map fst]. rewrite map_app, map_map. cbn [fol fst]. rewrite map_id. cbn [map fst].
          rewrite <- app_assoc. reflexivity. }
        eexists. exists (ga ++ (e, fs ++ [x]) :: gb). cbn [fst snd]. split; [reflexivity|].
        assert (Fin : entries {| root := root t; thr := thflat ga ++ (e, true) :: map fol fs ++ (x, false) :: thflat gb |}
                      = sinsert comp x (entries t)).
        { unfold entries at 1. cbn [thr]. rewrite E', En.
          replace (ents ga ++ e :: fs ++ ents gb) with ((ents ga ++ e :: fs) ++ ents gb) by (rewrite <- app_assoc; reflexivity).
          rewrite sinsert_app; [reflexivity| |apply above_hd, ents_above; assumption].
          apply Forall_app. split; [apply below_ge, ents_below; assumption|].
          constructor; [lia|]. eapply Forall_impl; [|exact Ie]. intros f Hf. apply c_eq_sym in Hf.
          apply c_ge. apply (comp_trans _ CO _ (ekey e)); [apply c_eq_sym in Hf; lia|apply c_eq_sym in D0; lia]. }
        split; [|exact Fin].
        constructor; cbn [thr root].
        -- rewrite thflat_app. cbn [thflat]. rewrite map_app, <- app_assoc. reflexivity.
        -- rewrite Iio. rewrite !map_fst_app. reflexivity.
        -- exact Ib.
        -- rewrite map_fst_app in *. exact Is.
        -- apply Forall_app. split; [exact If1|]. constructor; [|exact If3]. cbn [fst snd].
           apply Forall_app. split; [exact Ie|]. constructor; [exact D0|constructor].
        -- unfold entries. cbn [thr]. rewrite E', map_app. cbn [map]. apply nodup_insert.
           ++ rewrite <- map_app. rewrite En in Ind. rewrite <- app_assoc. exact Ind.
           ++ rewrite <- map_app. rewrite En in NI. rewrite <- app_assoc. exact NI.
      * exists t, (ga ++ (e, fs) :: gb). cbn [fst snd]. split; [reflexivity|]. split; [|reflexivity].
        constructor; auto. apply Forall_app. split; [exact If1|]. constructor; assumption.
    + (* new key *)
      assert (Lt : comp (ekey x) (ekey e) < 0 -> 
        forall t', bal t' -> inorder t' = cbefore c ++ (x :: e :: inorder r) ++ cafter c -> l = E ->
        inv (mkTree t' (thflat ga ++ (x, true) :: (e, true) :: map fol fs ++ thflat gb)) (ga ++ (x, []) :: (e, fs) :: gb)
        /\ entries (mkTree t' (thflat ga ++ (x, true) :: (e, true) :: map fol fs ++ thflat gb)) = sinsert comp x (entries t)
        /\ sfind comp (ekey x) (entries t) = None).
      { intros Lx t' B' I' El. subst l. cbn [inorder] in Ga, Ic. rewrite app_nil_r in Ga, Ic.
        assert (Bga : below (ekey x) (map fst ga)) by (rewrite Ga; exact Bx).
        assert (Agb : above (ekey x) (map fst ((e, fs) :: gb))).
        { cbn [map fst]. constructor; [exact Lx|]. rewrite Gb. apply Forall_app. split; [|exact Ay].
          rewrite Ic in Is. apply ss_mid in Is. destruct Is as (_ & _ & _ & H1).
          rewrite Forall_app in H1. destruct H1 as (H1 & _). eapply Forall_impl; [|exact H1]. intros z Hz.
          apply (c_lt_le _ (ekey e)); [exact Lx|]. unfold lt_e in Hz. lia. }
        assert (E' : map fst (thflat ga ++ (x, true) :: (e, true) :: map fol fs ++ thflat gb) = ents ga ++ x :: e :: fs ++ ents gb).
        { rewrite map_app. cbn [map fst]. rewrite map_app, map_map. cbn [fol fst]. rewrite map_id. reflexivity. }
        assert (G3 : Forall gok ((e, fs) :: gb)) by (constructor; assumption).
        pose proof (ents_below _ _ If1 Bga) as Ba. pose proof (ents_above _ _ G3 Agb) as Aa. rewrite ents_cons in Aa.
        split; [|split].
        - constructor; cbn [thr root].
          + rewrite thflat_app. reflexivity.
          + rewrite I', map_fst_app. cbn [map fst]. rewrite Ga, Gb. cbn [app]. reflexivity.
          + exact B'.
          + rewrite map_fst_app in *. cbn [map fst] in *. apply ss_insert; assumption.
          + apply Forall_app. split; [exact If1|]. constructor; [constructor|exact G3].
          + unfold entries. cbn [thr]. rewrite E', map_app. cbn [map]. rewrite En in Ind, NI. rewrite map_app in Ind, NI.
            apply nodup_insert; assumption.
        - unfold entries at 1. cbn [thr]. rewrite E', En. symmetry. apply sinsert_app.
          + apply below_ge, Ba.
          + exact (above_hd _ _ Aa).
        - rewrite En. apply sfind_none, Forall_app. split; [apply below_ne, Ba|apply above_ne, Aa]. }
      assert (Gt : comp (ekey x) (ekey e) > 0 -> 
        forall t', bal t' -> inorder t' = cbefore c ++ (inorder l ++ [e; x]) ++ cafter c -> r = E ->
        inv (mkTree t' (thflat ga ++ (e, true) :: map fol fs ++ (x, true) :: thflat gb)) (ga ++ (e, fs) :: (x, []) :: gb)
        /\ entries (mkTree t' (thflat ga ++ (e, true) :: map fol fs ++ (x, true) :: thflat gb)) = sinsert comp x (entries t)
        /\ sfind comp (ekey x) (entries t) = None).
      { intros Lx t' B' I' El. subst r. cbn [inorder app] in Gb, Ic.
        assert (Lx' : comp (ekey e) (ekey x) < 0) by (apply c_gt_lt; exact Lx).
        assert (Bga : below (ekey x) (map fst (ga ++ [(e, fs)]))).
        { rewrite map_fst_app. cbn [map fst]. apply Forall_app. split; [|constructor; [exact Lx'|constructor]].
          rewrite Ga. apply Forall_app. split; [exact Bx|].
          rewrite Ic in Is. apply ss_mid in Is. destruct Is as (_ & _ & H1 & _).
          rewrite Forall_app in H1. destruct H1 as (_ & H1). eapply Forall_impl; [|exact H1]. intros z Hz.
          apply (c_lt_le _ (ekey e)); [exact Hz|lia]. }
        assert (Agb : above (ekey x) (map fst gb)) by (rewrite Gb; exact Ay).
        assert (E' : map fst (thflat ga ++ (e, true) :: map fol fs ++ (x, true) :: thflat gb) = (ents ga ++ e :: fs) ++ x :: ents gb).
        { rewrite map_app. cbn [map fst]. rewrite map_app, map_map. cbn [fol fst]. rewrite map_id. cbn [map fst]. rewrite <- app_assoc. reflexivity. }
        assert (En' : entries t = (ents ga ++ e :: fs) ++ ents gb) by (rewrite En, <- app_assoc; reflexivity).
        assert (G3 : Forall gok (ga ++ [(e, fs)])) by (apply Forall_app; split; [exact If1|]; constructor; [exact Ie|constructor]).
        pose proof (ents_below _ _ G3 Bga) as Ba. pose proof (ents_above _ _ If3 Agb) as Aa.
        rewrite ents_app, ents_cons in Ba. cbn [ents thflat map] in Ba. rewrite app_nil_r in Ba.
        split; [|split].
        - constructor; cbn [thr root].
          + rewrite thflat_app. cbn [thflat map app]. reflexivity.
          + rewrite I', map_fst_app. cbn [map fst]. rewrite Ga, Gb. rewrite <- !app_assoc. reflexivity.
          + exact B'.
          + rewrite map_fst_app in *. cbn [map fst] in *.
            replace (map fst ga ++ e :: x :: map fst gb) with ((map fst ga ++ [e]) ++ x :: map fst gb) by (rewrite <- app_assoc; reflexivity).
            apply ss_insert; [rewrite <- app_assoc; exact Is|exact Bga|assumption].
          + apply Forall_app. split; [exact If1|]. constructor; [exact Ie|]. constructor; [constructor|exact If3].
          + unfold entries. cbn [thr]. rewrite E', map_app. cbn [map]. rewrite En' in Ind, NI. rewrite map_app in Ind, NI.
            apply nodup_insert; assumption.
        - unfold entries at 1. cbn [thr]. rewrite E', En'. symmetry. apply sinsert_app.
          + apply below_ge, Ba.
          + exact (above_hd _ _ Aa).
        - rewrite En'. apply sfind_none, Forall_app. split; [apply below_ne, Ba|apply above_ne, Aa]. }
      assert (IB : insert_before (thr t) (eid e) (x, true) = Some (thflat ga ++ (x, true) :: (e, true) :: map fol fs ++ thflat gb)).
      { rewrite Th. apply (ib_app _ (e, true)). exact NIe. }
      assert (IA : insert_after (thr t) (last (map eid fs) (eid e)) (x, true) = Some (thflat ga ++ (e, true) :: map fol fs ++ (x, true) :: thflat gb)).
      { rewrite Th. apply ia_group. rewrite <- Th. exact NDt. }
      assert (Done : forall t' gs', inv t' gs' /\ entries t' = sinsert comp x (entries t) /\ sfind comp (ekey x) (entries t) = None ->
        exists t'' gs'', Some (t', 0) = Some (t'', snd (smeans comp (entries t) (AIns x dup)))
          /\ inv t'' gs'' /\ entries t'' = fst (smeans comp (entries t) (AIns x dup))).
      { intros t' gs' (A & B & C). exists t', gs'. cbn [smeans]. rewrite C. cbn [fst snd]. auto. }
      destruct (Z.eqb_spec b 1) as [B1|B1].
      { rewrite IB. assert (Lx : comp (ekey x) (ekey e) < 0).
        { destruct (Z.lt_ge_cases (comp (ekey x) (ekey e)) 0); [assumption|]. rewrite Q2 in Eb by lia. cbn [height] in Eb. lia. }
        eapply Done. rewrite (Q1 Lx) in *. cbn [height] in *. apply Lt; auto.
        - apply bal_plug; [cbn [bal height]; repeat split; try assumption; lia|]. cbn [height] in *.
          replace (1 + Z.max (1 + Z.max 0 0) (height r)) with (1 + Z.max 0 (height r)) by lia. exact Cb.
        - rewrite inorder_plug. reflexivity. }
      destruct (Z.eqb_spec b (-1)) as [B2|B2].
      { rewrite IA. assert (Lx : comp (ekey x) (ekey e) > 0).
        { destruct (Z.lt_ge_cases (comp (ekey x) (ekey e)) 0); [|lia]. rewrite Q1 in Eb by lia. cbn [height] in Eb. lia. }
        eapply Done. rewrite (Q2 Lx) in *. cbn [height] in *. apply Gt; auto.
        - apply bal_plug; [cbn [bal height]; repeat split; try assumption; lia|]. cbn [height] in *.
          replace (1 + Z.max (height l) (1 + Z.max 0 0)) with (1 + Z.max (height l) 0) by lia. exact Cb.
        - rewrite inorder_plug. cbn [inorder app]. reflexivity. }
      destruct (Z.ltb_spec (comp (ekey x) (ekey e)) 0) as [Lx|Lx].
      { rewrite IB. rewrite (Q1 Lx) in *. cbn [height] in *.
        assert (Er : height r = 0) by lia.
        destruct (post_insert_ok c (N (N E x 0 E) e (-1) r) 1) as (t' & Pt & Bt & It).
        - cbn [bal height]. repeat split; try assumption; lia.
        - cbn [height]. lia.
        - cbn [balance]. discriminate.
        - discriminate.
        - replace 1 with (1 + Z.max 0 (height r)) by lia. exact Cb.
        - rewrite Pt. eapply Done. apply Lt; auto. }
      { rewrite IA. assert (Gx : comp (ekey x) (ekey e) > 0) by lia. rewrite (Q2 Gx) in *. cbn [height] in *.
        assert (Er : height l = 0) by lia.
        destruct (post_insert_ok c (N l e 1 (N E x 0 E)) 1) as (t' & Pt & Bt & It).
        - cbn [bal height]. repeat split; try assumption; lia.
        - cbn [height]. lia.
        - cbn [balance]. discriminate.
        - discriminate.
        - replace 1 with (1 + Z.max (height l) 0) by lia. exact Cb.
        - rewrite Pt. eapply Done. apply Gt; auto. }
Qed.


(** ** Lookup *)
Lemma find_ok t gs k : inv t gs -> find comp (root t) k = sfind comp k (entries t).
Proof.
  intros [Ith Iio Ib Is If Ind]. unfold find. destruct (root t) as [|tl te tb tr] eqn:Et.
  - cbn [inorder] in Iio. destruct gs; [|discriminate]. unfold entries. rewrite Ith. reflexivity.
  - rewrite <- Et in *. assert (NE : root t <> E) by (rewrite Et; discriminate).
    assert (So : StronglySorted lt_e (inorder (root t))) by now rewrite Iio.
    destruct (find_rec_ok (root t) k [] NE So) as (l & e & b & r & c & F & P & (xa & ya & X & Y & Bx & Ay) & Q1 & Q2).
    rewrite F. cbn [cbefore cafter app] in X, Y. rewrite app_nil_r in Y. subst xa ya. cbn [plug] in P.
    assert (Ic : map fst gs = (cbefore c ++ inorder l) ++ e :: (inorder r ++ cafter c)).
    { rewrite <- Iio, <- P, inorder_plug. cbn [inorder]. rewrite <- !app_assoc. reflexivity. }
    destruct (split_groups _ _ _ _ Ic) as (ga & fs & gb & G & Ga & Gb). subst gs.
    rewrite Forall_app in If. destruct If as (If1 & If2). inversion If2 as [|? ? Ie If3]; subst. cbn [fst snd] in Ie.
    assert (En : entries t = ents ga ++ ents ((e, fs) :: gb)).
    { unfold entries. rewrite Ith. fold (ents (ga ++ (e, fs) :: gb)). apply ents_app. }
    rewrite Ic in Is. apply ss_mid in Is. destruct Is as (_ & _ & H1 & H2).
    rewrite Forall_app in H1, H2. destruct H1 as (_ & H1). destruct H2 as (H2 & _).
    rewrite En.
    destruct (Z.eqb_spec (comp (ekey e) k) 0) as [D0|D0].
    + apply c_eq_sym in D0. rewrite sfind_app.
      * rewrite ents_cons. unfold sfind. cbn [List.find]. rewrite D0. reflexivity.
      * apply below_ne, ents_below; [exact If1|]. rewrite Ga. apply Forall_app. split; [exact Bx|].
        eapply Forall_impl; [|exact H1]. intros z Hz. apply (c_lt_le _ (ekey e)); [exact Hz|]. apply c_eq_sym in D0. lia.
    + assert (D1 : comp k (ekey e) <> 0) by (intros Z0; apply c_eq_sym in Z0; tauto).
      symmetry. apply sfind_none.
      destruct (Z.lt_ge_cases (comp k (ekey e)) 0) as [Lx|Lx].
      * rewrite (Q1 Lx) in Ga. cbn [inorder] in Ga. rewrite app_nil_r in Ga. apply Forall_app. split.
        -- apply below_ne, ents_below; [exact If1|]. rewrite Ga. exact Bx.
        -- apply above_ne, ents_above; [exact If2|]. cbn [map fst]. constructor; [exact Lx|]. rewrite Gb. apply Forall_app. split; [|exact Ay].
           eapply Forall_impl; [|exact H2]. intros z Hz. apply (c_lt_le _ (ekey e)); [exact Lx|]. unfold lt_e in Hz. lia.
      * assert (Gx : comp k (ekey e) > 0) by lia. rewrite (Q2 Gx) in Gb. cbn [inorder app] in Gb.
        assert (Lx' : comp (ekey e) k < 0) by (apply c_gt_lt; exact Gx).
        replace ((e, fs) :: gb) with ([(e, fs)] ++ gb) by reflexivity. rewrite ents_app, app_assoc, <- ents_app.
        apply Forall_app. split.
        -- apply below_ne, ents_below; [apply Forall_app; split; [exact If1|constructor; [exact Ie|constructor]]|].
           rewrite map_fst_app. cbn [map fst]. apply Forall_app. split; [|constructor; [exact Lx'|constructor]].
           rewrite Ga. apply Forall_app. split; [exact Bx|].
           eapply Forall_impl; [|exact H1]. intros z Hz. apply (c_lt_le _ (ekey e)); [exact Hz|lia].
        -- apply above_ne, ents_above; [exact If3|]. rewrite Gb. exact Ay.
Qed.

(** ** Deletion *)
Lemma locate_ok t : forall id c, In id (map eid (inorder t)) ->
  exists l e b r c', locate t id c = Some (N l e b r, c') /\ eid e = id /\ plug (N l e b r) c' = plug t c.
Proof.
  induction t as [|l IHl e b r IHr]; intros id c H; [destruct H|].
  cbn [locate]. destruct (Z.eqb_spec (eid e) id) as [D|D].
  - exists l, e, b, r, c. auto.
  - cbn [inorder] in H. rewrite map_app in H. apply in_app_or in H.
    destruct (locate l id (FL e b r :: c)) as [p|] eqn:L.
    + assert (Hl : In id (map eid (inorder l))).
      { clear -L. revert L. generalize (FL e b r :: c). revert p. clear. induction l as [|l IHl e b r IHr]; intros p c L; [discriminate|].
        cbn [locate] in L. cbn [inorder]. rewrite map_app. cbn [map]. apply in_or_app.
        destruct (Z.eqb_spec (eid e) id) as [D|D]; [right; left; exact D|].
        destruct (locate l id (FL e b r :: c)) eqn:L2; [left; eauto|right; right; eauto]. }
      destruct (IHl id (FL e b r :: c) Hl) as (l1 & e1 & b1 & r1 & c1 & A & B & C).
      rewrite L in A. apply Some_inj in A. subst p. exists l1, e1, b1, r1, c1. auto.
    + destruct H as [H|[H|H]].
      * destruct (IHl id (FL e b r :: c) H) as (l1 & e1 & b1 & r1 & c1 & A & B & C). rewrite L in A. discriminate.
      * tauto.
      * destruct (IHr id (FR l e b :: c) H) as (l1 & e1 & b1 & r1 & c1 & A & B & C).
        exists l1, e1, b1, r1, c1. auto.
Qed.

Lemma local_min_ok t : forall c, t <> E ->
  exists e b r c' y, local_min t c = Some (N E e b r, c') /\ plug (N E e b r) c' = plug t c
    /\ cbefore c' = cbefore c /\ cafter c' = y ++ cafter c /\ inorder t = e :: inorder r ++ y.
Proof.
  induction t as [|l IHl e b r IHr]; intros c NE; [congruence|].
  cbn [local_min]. destruct l as [|ll le lb lr] eqn:El.
  - exists e, b, r, c, []. cbn [inorder app]. rewrite app_nil_r. auto.
  - rewrite <- El in *. destruct (IHl (FL e b r :: c)) as (e1 & b1 & r1 & c1 & y & A & B & C & D & F); [subst; discriminate|].
    exists e1, b1, r1, c1, (y ++ e :: inorder r). split; [exact A|]. split; [exact B|]. split; [exact C|].
    cbn [cafter] in D. cbn [inorder]. rewrite D, F. rewrite <- !app_assoc. split; [reflexivity|]. cbn [app].
    rewrite <- app_assoc. reflexivity.
Qed.

Lemma delete_simple_ok l e b r c : (l = E \/ r = E) -> bal (N l e b r) -> cbal c (height (N l e b r)) ->
  good (delete_simple l r c) c (inorder l ++ inorder r).
Proof.
  intros D (Bl & Br & Eb & Rb) C. cbn [height] in C. unfold delete_simple.
  destruct l as [|ll le lb lr].
  - destruct r as [|rl re rb rr].
    + apply (post_delete_ok c E); [exact I|]. exact C.
    + cbn [inorder app]. apply (post_delete_ok c (N rl re rb rr)); [exact Br|].
      pose proof (height_nonneg (N rl re rb rr)).
      replace (height (N rl re rb rr) + 1) with (1 + Z.max (height (@E K)) (height (N rl re rb rr))); [exact C|].
      change (height (@E K)) with 0. lia.
  - destruct r as [|rl re rb rr]; [|destruct D; discriminate].
    cbn [inorder]. rewrite app_nil_r. apply (post_delete_ok c (N ll le lb lr)); [exact Bl|].
    pose proof (height_nonneg (N ll le lb lr)).
    replace (height (N ll le lb lr) + 1) with (1 + Z.max (height (N ll le lb lr)) (height (@E K))); [exact C|].
    change (height (@E K)) with 0. lia.
Qed.

Definition repl (id : Z) (n : entry) (x : entry) : entry := if eid x =? id then n else x.
Lemma repl_id id n l : ~ In id (map eid l) -> map (repl id n) l = l.
Proof.
  induction l as [|y l IH]; intros NI; [reflexivity|]. cbn [map In] in *. unfold repl at 1.
  destruct (Z.eqb_spec (eid y) id); [tauto|]. f_equal. apply IH. tauto.
Qed.
Lemma replace_height (t : tree) id n : height (replace t id n) = height t.
Proof.
  induction t as [|l IHl e b r IHr]; [reflexivity|]. cbn [replace].
  destruct (eid e =? id); [reflexivity|]. cbn [height]. now rewrite IHl, IHr.
Qed.
Lemma replace_bal (t : tree) id n : bal t -> bal (replace t id n).
Proof.
  induction t as [|l IHl e b r IHr]; intros B; [exact I|]. cbn [replace].
  destruct (eid e =? id); [exact B|]. cbn [bal] in *. rewrite !replace_height. tauto.
Qed.
Lemma replace_inorder (t : tree) id n : NoDup (map eid (inorder t)) -> inorder (replace t id n) = map (repl id n) (inorder t).
Proof.
  induction t as [|l IHl e b r IHr]; intros ND; [reflexivity|]. cbn [replace inorder] in *.
  rewrite map_app in ND. cbn [map] in ND. rewrite map_app. cbn [map]. unfold repl at 2.
  destruct (Z.eqb_spec (eid e) id) as [D|D].
  - subst id. cbn [inorder]. apply NoDup_remove_2 in ND. rewrite !repl_id; [reflexivity| |];
      intros X; apply ND; apply in_or_app; auto.
  - cbn [inorder]. apply NoDup_remove_1 in ND.
    assert (N1 : NoDup (map eid (inorder l)) /\ NoDup (map eid (inorder r))).
    { clear -ND. revert ND. generalize (map eid (inorder l)) (map eid (inorder r)). induction l0 as [|y a IH]; intros b ND; cbn [app] in *.
      - split; [constructor|exact ND].
      - apply NoDup_cons_iff in ND. destruct ND as (N1 & N2). destruct (IH _ N2). split; [|assumption].
        constructor; [|assumption]. intros X. apply N1. apply in_or_app. now left. }
    rewrite IHl, IHr by tauto. reflexivity.
Qed.

Lemma delete_worker_ok t a e b : bal t -> inorder t = a ++ e :: b -> NoDup (map eid (inorder t)) ->
  exists t', delete_worker t (eid e) = Some t' /\ bal t' /\ inorder t' = a ++ b.
Proof.
  intros B I ND. unfold delete_worker.
  destruct (locate_ok t (eid e) []) as (l & e1 & bb & r & c & L & Ei & P).
  { rewrite I, map_app. cbn [map]. apply in_or_app. right. now left. }
  rewrite L. cbn [plug] in P.
  assert (BB : bal (N l e1 bb r) /\ cbal c (height (N l e1 bb r))) by (apply bal_unplug; rewrite P; exact B).
  destruct BB as (B1 & C1).
  assert (Ii : inorder t = (cbefore c ++ inorder l) ++ e1 :: (inorder r ++ cafter c)).
  { rewrite <- P, inorder_plug. cbn [inorder]. rewrite <- !app_assoc. reflexivity. }
  assert (Sp : a = cbefore c ++ inorder l /\ e = e1 /\ b = inorder r ++ cafter c).
  { rewrite I in Ii, ND. clear -Ii Ei ND. revert Ii ND. generalize (cbefore c ++ inorder l) (inorder r ++ cafter c).
    induction a as [|y a IH]; intros [|z q] s H ND; cbn [app] in *; injection H as H1 H2.
    - auto.
    - exfalso. subst. rewrite map_cons in ND. apply NoDup_cons_iff in ND. destruct ND as (N1 & _). apply N1.
      rewrite map_app. cbn [map]. apply in_or_app. right. left. exact Ei.
    - exfalso. subst. rewrite map_cons in ND. apply NoDup_cons_iff in ND. destruct ND as (N1 & _). apply N1.
      rewrite map_app. cbn [map]. apply in_or_app. right. left. now rewrite Ei.
    - subst z. cbn [map] in ND. apply NoDup_cons_iff in ND. destruct (IH _ _ H2) as (A & B' & C); [tauto|]. subst. auto. }
  destruct Sp as (Sa & Se & Sb). subst a e1 b.
  assert (Simple : l = E \/ r = E -> exists t', delete_simple l r c = Some t' /\ bal t' /\ inorder t' = (cbefore c ++ inorder l) ++ inorder r ++ cafter c).
  { intros D. destruct (delete_simple_ok l e bb r c D B1 C1) as (t' & A & B' & C). exists t'.
    split; [exact A|]. split; [exact B'|]. rewrite C, <- !app_assoc. reflexivity. }
  destruct l as [|ll le lb lr] eqn:El.
  { apply Simple. now left. }
  destruct r as [|rl re rb rr] eqn:Er.
  { apply Simple. now right. }
  rewrite <- El, <- Er in *. clear Simple.
  destruct (local_min_ok r (FR l e bb :: c)) as (me & mb & mr & mc & y & A & Pm & Cb & Ca & Ir); [subst; discriminate|].
  rewrite A. cbn [plug] in Pm. rewrite P in Pm.
  assert (BM : bal (N E me mb mr) /\ cbal mc (height (N E me mb mr))) by (apply bal_unplug; rewrite Pm; exact B).
  destruct BM as (Bm & Cm).
  destruct (delete_simple_ok E me mb mr mc (or_introl eq_refl) Bm Cm) as (t' & A' & B' & C').
  rewrite A'. exists (replace t' (eid e) me). split; [reflexivity|]. split; [apply replace_bal, B'|].
  cbn [inorder app] in C'. cbn [cbefore cafter] in Cb, Ca. rewrite Cb, Ca in C'.
  (* t' = before ++ inorder l ++ [e] ++ inorder mr ++ y ++ after *)
  rewrite Ii, Ir in ND.
  assert (C2 : inorder t' = (cbefore c ++ inorder l) ++ e :: inorder mr ++ y ++ cafter c) by (rewrite C', <- !app_assoc; reflexivity).
  assert (ND2 : NoDup (map eid ((cbefore c ++ inorder l) ++ e :: me :: inorder mr ++ y ++ cafter c))).
  { replace (inorder mr ++ y ++ cafter c) with ((inorder mr ++ y) ++ cafter c) by now rewrite app_assoc. exact ND. }
  rewrite map_app in ND2. cbn [map] in ND2.
  assert (NDt' : NoDup (map eid (inorder t'))).
  { rewrite C2, map_app. cbn [map].
    replace (map eid (cbefore c ++ inorder l) ++ eid e :: map eid (inorder mr ++ y ++ cafter c))
      with ((map eid (cbefore c ++ inorder l) ++ [eid e]) ++ map eid (inorder mr ++ y ++ cafter c)) by (rewrite <- app_assoc; reflexivity).
    apply (NoDup_remove_1 _ _ (eid me)). rewrite <- app_assoc. exact ND2. }
  rewrite replace_inorder by exact NDt'. rewrite C2, map_app. cbn [map]. unfold repl at 2. rewrite Z.eqb_refl.
  rewrite C2, map_app in NDt'. cbn [map] in NDt'. apply NoDup_remove_2 in NDt'.
  rewrite !repl_id; [|intros X; apply NDt', in_or_app; auto ..].
  rewrite Ir. cbn [app]. rewrite <- !app_assoc. reflexivity.
Qed.

(* splitting a list of groups at any of its entries *)
Lemma split_entry (gs : list (entry * list entry)) : forall id, In id (map eid (ents gs)) ->
  exists ga e fs gb, gs = ga ++ (e, fs) :: gb /\
    (eid e = id \/ exists f1 f f2, fs = f1 ++ f :: f2 /\ eid f = id).
Proof.
  induction gs as [|[e fs] gs IH]; intros id H; [destruct H|].
  rewrite ents_cons in H. cbn [map In] in H. destruct H as [H|H].
  - exists [], e, fs, gs. auto.
  - rewrite map_app in H. apply in_app_or in H. destruct H as [H|H].
    + apply in_map_iff in H. destruct H as (f & Ef & Hf). apply in_split in Hf. destruct Hf as (f1 & f2 & Hf).
      exists [], e, fs, gs. split; [reflexivity|]. right. exists f1, f, f2. auto.
    + destruct (IH id H) as (ga & e1 & f1 & gb & G & D). exists ((e, fs) :: ga), e1, f1, gb. subst. auto.
Qed.

Lemma nodup_mid {A} (a : list A) x b : NoDup (a ++ x :: b) -> ~ In x a /\ ~ In x b /\ NoDup (a ++ b).
Proof.
  intros ND. pose proof (NoDup_remove_1 _ _ _ ND). apply NoDup_remove_2 in ND.
  repeat split; auto; intros X; apply ND, in_or_app; auto.
Qed.

Lemma tids_flat (gs : list (entry * list entry)) : tids (thflat gs) = map eid (ents gs).
Proof. unfold ents. now rewrite tids_entries. Qed.

Lemma ss_remove (a : list entry) x b : StronglySorted lt_e (a ++ x :: b) -> StronglySorted lt_e (a ++ b).
Proof.
  induction a as [|y a IH]; cbn [app]; intros S.
  - now inversion S.
  - inversion S as [|? ? S1 F]; subst. constructor; [auto|]. rewrite Forall_app in *. destruct F as (F1 & F2).
    inversion F2; subst. auto.
Qed.

Lemma nodup_sub_leaders (gs : list (entry * list entry)) : NoDup (map eid (ents gs)) -> NoDup (map eid (map fst gs)).
Proof.
  induction gs as [|[e fs] gs IH]; intros ND; [constructor|]. rewrite ents_cons in ND. cbn [map fst] in *.
  apply NoDup_cons_iff in ND. destruct ND as (N1 & N2). rewrite map_app in N1, N2.
  assert (N3 : NoDup (map eid (ents gs))).
  { clear -N2. induction fs as [|f fs IH]; [exact N2|]. cbn [map app] in N2. apply NoDup_cons_iff in N2. tauto. }
  constructor; [|auto]. intros X. apply N1, in_or_app. right. clear -X.
  induction gs as [|[y ys] gs IH]; [destruct X|]. rewrite ents_cons. cbn [map fst In] in *. destruct X as [X|X]; [now left|].
  right. rewrite map_app. apply in_or_app. right. auto.
Qed.

Lemma avl_delete_ok t gs id : inv t gs -> In id (map eid (entries t)) ->
  exists t' gs', avl_delete t id = Some t' /\ inv t' gs' /\ entries t' = sdelete id (entries t).
Proof.
  intros [Ith Iio Ib Is If Ind] HI.
  assert (En : entries t = ents gs) by (unfold entries; rewrite Ith; reflexivity).
  rewrite En in HI. destruct (split_entry gs id HI) as (ga & e & fs & gb & G & D). subst gs.
  rewrite ents_app, ents_cons in En.
  pose proof Ind as Ind0. rewrite En in Ind.
  rewrite Forall_app in If. destruct If as (If1 & If2). inversion If2 as [|? ? Ie If3]; subst. cbn [fst snd] in Ie.
  assert (Th : thr t = thflat ga ++ (e, true) :: map fol fs ++ thflat gb) by (rewrite Ith, thflat_app; reflexivity).
  unfold avl_delete. destruct D as [D|(f1 & f & f2 & Hf & D)]; subst id.
  - (* a leader *)
    assert (NIe : ~ In (eid e) (tids (thflat ga))).
    { rewrite tids_flat. rewrite map_app in Ind. cbn [map] in Ind. apply nodup_mid in Ind. tauto. }
    rewrite Th. rewrite (fl_app _ (e, true)) by exact NIe. rewrite (nx_app _ (e, true)) by exact NIe. cbn [snd].
    destruct fs as [|f fs].
    + cbn [map app] in *.
      assert (Dw : exists t', delete_worker (root t) (eid e) = Some t' /\ bal t' /\ inorder t' = map fst ga ++ map fst gb).
      { apply delete_worker_ok; [exact Ib|rewrite Iio, map_fst_app; reflexivity|].
        rewrite Iio. apply nodup_sub_leaders. rewrite ents_app, ents_cons. exact Ind. }
      destruct Dw as (t' & Dw & Bt & It). rewrite Dw.
      rewrite (rm_app _ (e, true)) by exact NIe.
      assert (E' : map fst (thflat ga ++ thflat gb) = ents ga ++ ents gb) by (rewrite map_app; reflexivity).
      assert (Goal1 : inv (mkTree t' (thflat ga ++ thflat gb)) (ga ++ gb) /\ entries (mkTree t' (thflat ga ++ thflat gb)) = sdelete (eid e) (entries t)).
      { split.
        - constructor; cbn [thr root].
          + now rewrite thflat_app.
          + rewrite It, map_fst_app. reflexivity.
          + exact Bt.
          + rewrite map_fst_app in *. cbn [map fst] in Is. apply ss_remove in Is. exact Is.
          + apply Forall_app. auto.
          + unfold entries. cbn [thr]. rewrite E', map_app. rewrite map_app in Ind. cbn [map] in Ind. apply nodup_mid in Ind. tauto.
        - unfold entries at 1. cbn [thr]. rewrite E', En. symmetry. apply sdelete_app. exact Ind. }
      destruct Goal1 as (G1 & G2).
      assert (LL : leads (thflat gb)) by apply leads_flat.
      destruct (thflat gb) as [|[n [|]] nx] eqn:Tb; cbn [leads] in LL; try tauto;
        (eexists; exists (ga ++ gb); split; [reflexivity|]; split; [exact G1|exact G2]).
    + cbn [map app fol] in *.
      rewrite map_app in Ind. cbn [map] in Ind.
      destruct (nodup_mid _ _ _ Ind) as (M1 & M2 & M3).
      replace (map eid (ents ga) ++ eid e :: eid f :: map eid (fs ++ ents gb)) with ((map eid (ents ga) ++ [eid e]) ++ eid f :: map eid (fs ++ ents gb)) in Ind by (rewrite <- app_assoc; reflexivity).
      destruct (nodup_mid _ _ _ Ind) as (M4 & M5 & M6).
      assert (SL : set_leader (thflat ga ++ (e, true) :: (f, false) :: map fol fs ++ thflat gb) (eid f)
              = thflat ga ++ (e, true) :: (f, true) :: map fol fs ++ thflat gb).
      { replace (thflat ga ++ (e, true) :: (f, false) :: map fol fs ++ thflat gb) with ((thflat ga ++ [(e, true)]) ++ (f, false) :: map fol fs ++ thflat gb) by (rewrite <- app_assoc; reflexivity).
        rewrite sl_app; [rewrite <- app_assoc; reflexivity|]. rewrite tids_app, tids_flat. exact M4. }
      change (fol f) with (f, false). rewrite SL. rewrite (rm_app _ (e, true)) by exact NIe.
      eexists. exists (ga ++ (f, fs) :: gb). split; [reflexivity|].
      assert (E' : map fst (thflat ga ++ (f, true) :: map fol fs ++ thflat gb) = ents ga ++ f :: fs ++ ents gb).
      { rewrite map_app. cbn [map fst]. rewrite map_app, map_map. cbn [fol fst]. rewrite map_id. reflexivity. }
      assert (Ef : comp (ekey f) (ekey e) = 0) by (inversion Ie; assumption).
      split.
      * constructor; cbn [thr root].
        -- rewrite thflat_app. reflexivity.
        -- rewrite replace_inorder.
           ++ rewrite Iio, !map_fst_app. cbn [map fst]. rewrite map_app. cbn [map]. unfold repl at 2. rewrite Z.eqb_refl.
              assert (ND : NoDup (map eid (map fst (ga ++ (e, f :: fs) :: gb)))).
              { apply nodup_sub_leaders. rewrite ents_app, ents_cons. rewrite En in Ind0. exact Ind0. }
              rewrite map_fst_app, map_app in ND. cbn [map fst] in ND. apply nodup_mid in ND.
              rewrite !repl_id by tauto. reflexivity.
           ++ rewrite Iio. apply nodup_sub_leaders. rewrite ents_app, ents_cons. rewrite En in Ind0. exact Ind0.
        -- apply replace_bal, Ib.
        -- rewrite map_fst_app in *. cbn [map fst] in *.
           pose proof (ss_mid _ _ _ Is) as (_ & _ & F1 & F2).
           apply ss_insert; [apply ss_remove in Is; exact Is| |].
           ++ eapply Forall_impl; [|exact F1]. intros z Hz. apply (c_lt_le _ (ekey e)); [exact Hz|]. apply c_eq_sym in Ef. lia.
           ++ eapply Forall_impl; [|exact F2]. intros z Hz. apply (c_le_lt _ (ekey e)); [lia|exact Hz].
        -- apply Forall_app. split; [exact If1|]. constructor; [|exact If3]. cbn [fst snd].
           inversion Ie as [|? ? _ Ie2]; subst. eapply Forall_impl; [|exact Ie2]. intros z Hz. cbv beta in Hz.
           pose proof (c_eq_sym _ _ Hz) as Hz'. pose proof (c_eq_sym _ _ Ef) as Ef'.
           assert (X1 : comp (ekey z) (ekey f) <= 0) by (apply (comp_trans _ CO _ (ekey e)); lia).
           assert (X2 : comp (ekey f) (ekey z) <= 0) by (apply (comp_trans _ CO _ (ekey e)); lia).
           apply c_ge in X2. lia.
        -- unfold entries. cbn [thr]. rewrite E', map_app. exact M3.
      * unfold entries at 1. cbn [thr]. rewrite E', En. symmetry. apply sdelete_app. rewrite En in Ind0. exact Ind0.
  - (* a follower *)
    subst fs. rewrite map_app in Th. cbn [map fol] in Th. rewrite <- app_assoc in Th. cbn [app] in Th.
    set (pre := thflat ga ++ (e, true) :: map fol f1).
    assert (Th' : thr t = pre ++ (f, false) :: map fol f2 ++ thflat gb).
    { rewrite Th. unfold pre. rewrite <- app_assoc. reflexivity. }
    assert (Ep : map fst pre = ents ga ++ e :: f1).
    { unfold pre. rewrite map_app. cbn [map fst]. rewrite map_map. cbn [fol fst]. rewrite map_id. reflexivity. }
    assert (En' : entries t = (ents ga ++ e :: f1) ++ f :: f2 ++ ents gb).
    { rewrite En. rewrite <- !app_assoc. cbn [app]. rewrite <- ?app_assoc. reflexivity. }
    pose proof Ind0 as Ind1. rewrite En', map_app in Ind1. cbn [map] in Ind1. destruct (nodup_mid _ _ _ Ind1) as (M1 & M2 & M3).
    assert (NIf : ~ In (eid f) (tids pre)) by (rewrite <- tids_entries, Ep; exact M1).
    rewrite Th'. rewrite (fl_app _ (f, false)) by exact NIf. cbn [snd]. rewrite (rm_app _ (f, false)) by exact NIf.
    eexists. exists (ga ++ (e, f1 ++ f2) :: gb). split; [reflexivity|].
    assert (E' : map fst (pre ++ map fol f2 ++ thflat gb) = (ents ga ++ e :: f1) ++ f2 ++ ents gb).
    { rewrite !map_app, Ep, map_map. cbn [fol fst]. rewrite map_id. reflexivity. }
    split.
    + constructor; cbn [thr root].
      * unfold pre. rewrite thflat_app. cbn [thflat]. rewrite map_app, <- !app_assoc. cbn [app]. reflexivity.
      * rewrite Iio, !map_fst_app. reflexivity.
      * exact Ib.
      * rewrite map_fst_app in *. exact Is.
      * apply Forall_app. split; [exact If1|]. constructor; [|exact If3]. cbn [fst snd].
        apply Forall_app in Ie. destruct Ie as (I1 & I2). inversion I2; subst. apply Forall_app. auto.
      * unfold entries. cbn [thr]. rewrite E', map_app. exact M3.
    + unfold entries at 1. cbn [thr]. rewrite E', En'. symmetry. apply sdelete_app. rewrite <- En'. exact Ind0.
Qed.

(** ** Every history *)
Lemma inv_init : inv avl_init [].
Proof. constructor; cbn; try constructor; auto. Qed.

Lemma avl_run_ok ops : forall t gs, inv t gs -> all_legal comp (entries t) ops ->
  exists t' gs', avl_run comp t ops = Some (t', snd (smeans_all comp (entries t) ops)) /\ inv t' gs'
    /\ entries t' = fst (smeans_all comp (entries t) ops).
Proof.
  induction ops as [|o ops IH]; intros t gs Iv L; cbn [avl_run smeans_all all_legal] in *.
  - exists t, gs. auto.
  - destruct L as (Lo & L).
    assert (S : exists t1 gs1, avl_step comp t o = Some (t1, snd (smeans comp (entries t) o)) /\ inv t1 gs1
                 /\ entries t1 = fst (smeans comp (entries t) o)).
    { destruct o as [x dup|id]; cbn [avl_step op_legal] in *.
      - destruct (avl_insert_ok t gs x dup Iv Lo) as (t1 & gs1 & A & B & C). eauto.
      - destruct (avl_delete_ok t gs id Iv Lo) as (t1 & gs1 & A & B & C). rewrite A. exists t1, gs1. auto. }
    destruct S as (t1 & gs1 & A & B & C). rewrite A.
    destruct (smeans comp (entries t) o) as [l1 r1] eqn:Sm. cbn [fst snd] in *. subst l1.
    destruct (IH t1 gs1 B L) as (t2 & gs2 & A2 & B2 & C2). rewrite A2.
    destruct (smeans_all comp (entries t1) ops) as [l2 rs] eqn:Sa. cbn [fst snd] in *. exists t2, gs2. auto.
Qed.

(** ** Height *)
Fixpoint fibh (n : nat) : Z := match n with O => 1 | S m => 2 * fibh m end.
Lemma bal_size n : forall t, bal t -> Z.of_nat n <= height t / 2 -> 2 ^ Z.of_nat n <= Z.of_nat (length (inorder t)) + 1.
Proof.
  induction n as [|n IH]; intros t B H.
  - cbn [Z.of_nat] in *. change (2 ^ 0) with 1. lia.
  - destruct t as [|l e b r]; [cbn [height] in H; lia|].
    cbn [bal height] in *. destruct B as (Bl & Br & Eb & Rb).
    pose proof (height_nonneg l). pose proof (height_nonneg r).
    assert (Hl : Z.of_nat n <= height l / 2) by lia.
    assert (Hr : Z.of_nat n <= height r / 2) by lia.
    specialize (IH l Bl Hl) as I1. specialize (IH r Br Hr) as I2.
    cbn [inorder]. rewrite app_length. cbn [length].
    replace (Z.of_nat (S n)) with (Z.succ (Z.of_nat n)) by lia. rewrite Z.pow_succ_r by lia. lia.
Qed.

Lemma leaders_le (gs : list (entry * list entry)) : (length (map fst gs) <= length (ents gs))%nat.
Proof.
  induction gs as [|[e fs] gs IH]; [cbn; lia|]. rewrite ents_cons. cbn [map length]. rewrite app_length. lia.
Qed.

Lemma height_bound t gs : inv t gs -> 2 ^ (height (root t) / 2) <= Z.of_nat (length (entries t)) + 1.
Proof.
  intros [Ith Iio Ib Is If Ind]. pose proof (height_nonneg (root t)).
  pose proof (bal_size (Z.to_nat (height (root t) / 2)) (root t) Ib) as Q.
  rewrite Z2Nat.id in Q by (apply Z.div_pos; lia). specialize (Q (Z.le_refl _)).
  rewrite Iio in Q. unfold entries. rewrite Ith. fold (ents gs). pose proof (leaders_le gs). lia.
Qed.

Lemma run_from_init ops : all_legal comp [] ops ->
  exists t, avl_run comp avl_init ops = Some (t, snd (smeans_all comp [] ops))
    /\ entries t = fst (smeans_all comp [] ops)
    /\ (forall k, find comp (root t) k = sfind comp k (entries t))
    /\ 2 ^ (height (root t) / 2) <= Z.of_nat (length (entries t)) + 1.
Proof.
  intros L. destruct (avl_run_ok ops avl_init [] inv_init L) as (t & gs & A & B & C).
  exists t. split; [exact A|]. split; [exact C|]. split; [intros k; eapply find_ok, B|eapply height_bound, B].
Qed.

Fixpoint bal_ok (t : tree) : bool :=
  match t with E => true | N l _ b r => bal_ok l && bal_ok r && (b =? height r - height l) && (-1 <=? b) && (b <=? 1) end.

(* iteration order *)
Lemma sinsert_sorted x l : Sorted (fun a b => comp (ekey a) (ekey b) <= 0) l -> Sorted (fun a b => comp (ekey a) (ekey b) <= 0) (sinsert comp x l).
Proof.
  induction l as [|y l IH]; intros S; cbn [sinsert]; [repeat constructor|].
  destruct (Z.ltb_spec (comp (ekey x) (ekey y)) 0) as [L|L].
  - constructor; [exact S|]. constructor. lia.
  - inversion S as [|? ? S1 H1]; subst. constructor; [auto|].
    assert (Q : comp (ekey y) (ekey x) <= 0) by (apply c_le; lia).
    destruct l as [|z l]; cbn [sinsert]; [constructor; exact Q|].
    destruct (comp (ekey x) (ekey z) <? 0); constructor; [exact Q|now inversion H1].
Qed.
Lemma sdelete_sorted id l : StronglySorted (fun a b : entry => comp (ekey a) (ekey b) <= 0) l -> StronglySorted (fun a b : entry => comp (ekey a) (ekey b) <= 0) (sdelete id l).
Proof.
  induction l as [|y l IH]; intros S; cbn [sdelete filter]; [constructor|].
  inversion S as [|? ? S1 H1]; subst. destruct (eid y =? id); cbn [negb]; [apply IH, S1|].
  constructor; [apply IH, S1|]. rewrite Forall_forall in *. intros z Hz. apply filter_In in Hz. apply H1. tauto.
Qed.
Lemma sorted_all ops : forall l, StronglySorted (fun a b : entry => comp (ekey a) (ekey b) <= 0) l ->
  StronglySorted (fun a b : entry => comp (ekey a) (ekey b) <= 0) (fst (smeans_all comp l ops)).
Proof.
  assert (TR : Relations_1.Transitive (fun a b : entry => comp (ekey a) (ekey b) <= 0)).
  { intros a b c. apply (comp_trans _ CO). }
  induction ops as [|o ops IH]; intros l S; cbn [smeans_all]; [exact S|].
  assert (S1 : StronglySorted (fun a b : entry => comp (ekey a) (ekey b) <= 0) (fst (smeans comp l o))).
  { destruct o as [x dup|id]; cbn [smeans].
    - assert (Q : StronglySorted (fun a b : entry => comp (ekey a) (ekey b) <= 0) (sinsert comp x l)).
      { apply Sorted_StronglySorted; [exact TR|]. apply sinsert_sorted. now apply StronglySorted_Sorted. }
      destruct (sfind comp (ekey x) l); [destruct dup|]; cbn [fst]; auto.
    - now apply sdelete_sorted. }
  destruct (smeans comp l o) as [l1 r1]. cbn [fst] in S1. specialize (IH l1 S1).
  destruct (smeans_all comp l1 ops) as [l2 rs]. exact IH.
Qed.
End P.

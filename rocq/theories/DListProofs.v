(** Proofs about the circular lists. *)
From Verif Require Import Base DList DListSpec.
From Coq Require Import Permutation.

Lemma path_app : forall h l1 x z l2 y, path h x (l1 ++ z :: l2) y <-> path h x l1 z /\ path h z l2 y.
Proof.
  intros h l1. induction l1 as [|a l1 IH]; intros x z l2 y; cbn [app path].
  - tauto.
  - rewrite IH. tauto.
Qed.

(** Only [next] of the nodes before, [prev] of the nodes after matter. *)
Lemma path_frame : forall h h' l x y,
  (forall q, In q (x :: l) -> nx h' q = nx h q) -> (forall q, In q (l ++ [y]) -> pv h' q = pv h q) ->
  path h x l y -> path h' x l y.
Proof.
  intros h h' l. induction l as [|z l IH]; intros x y HN HP; cbn [path].
  - intros [A B]. rewrite HN by (left; reflexivity). rewrite HP by (left; reflexivity). auto.
  - intros (A & B & C). rewrite HN by (left; reflexivity). rewrite HP by (left; reflexivity).
    split; [assumption|]. split; [assumption|]. apply IH; [| |assumption].
    + intros q Hq. apply HN. right. assumption.
    + intros q Hq. apply HP. right. assumption.
Qed.

Lemma nodes_perm : forall w w', Permutation w w' -> Permutation (nodes w) (nodes w').
Proof.
  induction 1; unfold nodes in *; cbn [map concat].
  - constructor.
  - apply Permutation_app_head. assumption.
  - rewrite !app_assoc. apply Permutation_app_tail. apply Permutation_app_comm.
  - etransitivity; eassumption.
Qed.

Lemma rep_perm : forall h w w', Permutation w w' -> rep h w -> rep h w'.
Proof.
  intros h w w' P (F & N & Z0). pose proof (nodes_perm _ _ P) as PN. split; [|split].
  - rewrite Forall_forall in *. intros p Hp. apply F. apply Permutation_in with w'; [symmetry; assumption|assumption].
  - apply Permutation_NoDup with (nodes w); assumption.
  - intros H. apply Z0. apply Permutation_in with (nodes w'); [symmetry; assumption|assumption].
Qed.

(** Changes confined to a set of nodes leave the other lists alone. *)
Lemma lists_frame : forall h h' w,
  (forall q, In q (nodes w) -> nx h' q = nx h q /\ pv h' q = pv h q) ->
  Forall (fun p => path h (fst p) (snd p) (fst p)) w -> Forall (fun p => path h' (fst p) (snd p) (fst p)) w.
Proof.
  intros h h' w H F. rewrite Forall_forall in *. intros [hd l] Hp. cbn [fst snd].
  assert (forall q, In q (hd :: l) -> In q (nodes w)) as IN.
  { intros q Hq. unfold nodes. rewrite in_concat. exists (hd :: l). split; [|assumption].
    apply in_map_iff. exists (hd, l). auto. }
  apply path_frame with h.
  - intros q Hq. apply H. auto.
  - intros q Hq. apply H. apply IN. apply in_app_or in Hq. destruct Hq as [Hq|[<-|[]]]; [right; assumption|left; reflexivity].
  - apply (F (hd, l) Hp).
Qed.

Lemma rep_cons : forall h hd l w, rep h ((hd, l) :: w) <->
  path h hd l hd /\ Forall (fun p => path h (fst p) (snd p) (fst p)) w /\
  NoDup (hd :: l ++ nodes w) /\ ~ In 0 (hd :: l ++ nodes w).
Proof.
  intros h hd l w. unfold rep, nodes. cbn [map concat fst snd app]. rewrite Forall_cons_iff. cbn [fst snd]. tauto.
Qed.

Ltac eqb := repeat match goal with
  | |- context [?a =? ?a] => rewrite Z.eqb_refl
  | |- context [?a =? ?b] => destruct (Z.eqb_spec a b); [try congruence|try congruence]
  end.

(** list_add_after, general form: the successor is [b]. *)
Lemma add_after_eff : forall h pos b new, pos <> 0 -> new <> 0 -> b <> 0 -> nx h pos = b -> new <> pos ->
  new <> b ->
  exists h', list_add_after pos new h = Some h' /\
    (forall q, nx h' q = if q =? pos then new else if q =? new then b else nx h q) /\
    (forall q, pv h' q = if q =? b then new else if q =? new then pos else pv h q).
Proof.
  intros h pos b new P N B E D D2. unfold list_add_after, get_next, set_next, set_prev, bind.
  destruct (Z.eqb_spec pos 0); [contradiction|]. destruct (Z.eqb_spec new 0); [contradiction|]. cbn [nx pv].
  destruct (Z.eqb_spec pos new); [congruence|]. rewrite E.
  destruct (Z.eqb_spec b 0); [contradiction|]. eexists. split; [reflexivity|]. cbn [nx pv]. split; reflexivity.
Qed.

Lemma add_before_eff : forall h pos b new, pos <> 0 -> new <> 0 -> b <> 0 -> pv h pos = b -> new <> pos ->
  new <> b ->
  exists h', list_add_before pos new h = Some h' /\
    (forall q, pv h' q = if q =? pos then new else if q =? new then b else pv h q) /\
    (forall q, nx h' q = if q =? b then new else if q =? new then pos else nx h q).
Proof.
  intros h pos b new P N B E D D2. unfold list_add_before, get_prev, set_next, set_prev, bind.
  destruct (Z.eqb_spec pos 0); [contradiction|]. destruct (Z.eqb_spec new 0); [contradiction|]. cbn [nx pv].
  destruct (Z.eqb_spec pos new); [congruence|]. rewrite E.
  destruct (Z.eqb_spec b 0); [contradiction|]. eexists. split; [reflexivity|]. cbn [nx pv]. split; reflexivity.
Qed.


(** the first and the last piece of a path around one link *)
Lemma path_link : forall h x l1 a b l2 y, 
  path h x (l1 ++ l2) y -> a = last l1 x -> b = match l2 with [] => y | z :: _ => z end -> nx h a = b /\ pv h b = a.
Proof.
  intros h x l1. revert x. induction l1 as [|c l1 IH]; intros x a b l2 y P A B.
  - cbn [last app] in *. subst a. destruct l2; cbn [path] in P; subst b; tauto.
  - cbn [app path] in P. destruct P as (_ & _ & P). apply (IH c a b l2 y P); [|assumption].
    subst a. destruct l1 as [|d l1]; [reflexivity|]. clear. revert d. induction l1; intros; [reflexivity|].
    cbn [last] in *. apply IHl1.
Qed.

Lemma insert_path : forall h h' l1 x l2 y a b n,
  (forall q, nx h' q = if q =? a then n else if q =? n then b else nx h q) ->
  (forall q, pv h' q = if q =? b then n else if q =? n then a else pv h q) ->
  NoDup (x :: l1 ++ l2) -> NoDup (l1 ++ l2 ++ [y]) -> ~ In n (x :: l1 ++ l2) -> n <> y ->
  a = last l1 x -> b = match l2 with [] => y | z :: _ => z end ->
  path h x (l1 ++ l2) y -> path h' x (l1 ++ n :: l2) y.
Proof.
  intros h h' l1. induction l1 as [|c l1 IH]; intros x l2 y a b n HN HP ND ND2 NI NY A B P.
  - cbn [last app] in *. subst a. cbn [path]. rewrite HN, Z.eqb_refl. split; [reflexivity|].
    rewrite HP, Z.eqb_refl.
    assert (n <> b) as NB.
    { subst b. destruct l2; [assumption|]. intros ->. apply NI. right. left. reflexivity. }
    destruct (Z.eqb_spec n b); [contradiction|]. split; [reflexivity|].
    assert (n <> x) as NX by (intros ->; apply NI; left; reflexivity).
    destruct l2 as [|z l2]; cbn [path] in *; subst b.
    + rewrite HN, HP, !Z.eqb_refl. destruct (Z.eqb_spec n x); [contradiction|]. tauto.
    + destruct P as (P1 & P2 & P3). rewrite HN, HP, !Z.eqb_refl. destruct (Z.eqb_spec n x); [contradiction|].
      split; [reflexivity|]. split; [reflexivity|]. apply path_frame with h; [| |assumption].
      * intros q Hq. rewrite HN. destruct (Z.eqb_spec q x) as [->|].
        { exfalso. inversion ND; subst. auto. }
        destruct (Z.eqb_spec q n) as [->|]; [exfalso; apply NI; right; assumption|reflexivity].
      * intros q Hq. rewrite HP. destruct (Z.eqb_spec q z) as [->|].
        { exfalso. inversion ND2; subst. auto. }
        destruct (Z.eqb_spec q n) as [->|]; [|reflexivity]. exfalso. apply in_app_or in Hq.
        destruct Hq as [Hq|[Hq|[]]]; [|congruence]. apply NI. right. right. assumption.
  - cbn [app path] in *. destruct P as (P1 & P2 & P3).
    assert (a = last l1 c) as A'.
    { subst a. destruct l1 as [|d l1]; [reflexivity|]. clear. revert d. induction l1; intros; [reflexivity|].
      cbn [last] in *. apply IHl1. }
    assert (In a (c :: l1)) as Ia.
    { rewrite A'. clear. destruct l1 as [|d l1]; [left; reflexivity|]. right. revert d.
      induction l1 as [|e l1 IH]; intros d; [left; reflexivity|]. right. apply (IH e). }
    assert (In b (l2 ++ [y])) as Ib by (subst b; destruct l2; left; reflexivity).
    rewrite HN, HP. 
    destruct (Z.eqb_spec x a) as [->|].
    { exfalso. inversion ND; subst. apply H1. apply in_or_app with (l := c :: l1). left. assumption. }
    destruct (Z.eqb_spec x n) as [->|]; [exfalso; apply NI; left; reflexivity|].
    destruct (Z.eqb_spec c b) as [->|].
    { exfalso. inversion ND2; subst. apply H1. apply in_or_app. right. assumption. }
    destruct (Z.eqb_spec c n) as [->|]; [exfalso; apply NI; right; left; reflexivity|].
    split; [assumption|]. split; [assumption|].
    apply (IH c l2 y a b n); try assumption.
    + inversion ND; assumption.
    + inversion ND2; assumption.
    + intros H. apply NI. right. assumption.
Qed.

(** Removing [d] between [a] and [b]. *)
Lemma remove_path : forall h h' l1 x l2 y a b d,
  (forall q, q <> d -> nx h' q = if q =? a then b else nx h q) ->
  (forall q, q <> d -> pv h' q = if q =? b then a else pv h q) ->
  NoDup (x :: l1 ++ d :: l2) -> NoDup (l1 ++ d :: l2 ++ [y]) ->
  a = last l1 x -> b = match l2 with [] => y | z :: _ => z end ->
  path h x (l1 ++ d :: l2) y -> path h' x (l1 ++ l2) y.
Proof.
  intros h h' l1. induction l1 as [|c l1 IH]; intros x l2 y a b d HN HP ND ND2 A B P.
  - cbn [last app] in *. subst a. cbn [path] in P. destruct P as (P1 & P2 & P3).
    assert (x <> d) as NX by (intros ->; inversion ND; subst; apply H1; left; reflexivity).
    destruct l2 as [|z l2]; cbn [path app] in *; subst b.
    + assert (y <> d) as NY by (intros ->; inversion ND2; subst; apply H1; left; reflexivity).
      rewrite HN, HP, !Z.eqb_refl by assumption. auto.
    + assert (z <> d) as NZ by (intros ->; inversion ND2; subst; apply H1; left; reflexivity).
      destruct P3 as (P3 & P4 & P5). rewrite HN, HP, !Z.eqb_refl by assumption.
      split; [reflexivity|]. split; [reflexivity|]. apply path_frame with h; [| |assumption].
      * intros q Hq. rewrite HN.
        { destruct (Z.eqb_spec q x) as [->|]; [|reflexivity]. exfalso. inversion ND; subst. apply H1. right. assumption. }
        intros ->. inversion ND2; subst. apply H1. destruct Hq as [->|Hq]; [left; reflexivity|right].
        apply in_or_app. left. assumption.
      * intros q Hq. rewrite HP.
        { destruct (Z.eqb_spec q z) as [->|]; [|reflexivity]. exfalso. inversion ND2; subst. inversion H2; subst. auto. }
        intros ->. inversion ND2; subst. apply H1. right. assumption.
  - cbn [app path] in *. destruct P as (P1 & P2 & P3).
    assert (a = last l1 c) as A'.
    { subst a. destruct l1 as [|e l1]; [reflexivity|]. clear. revert e. induction l1; intros; [reflexivity|].
      cbn [last] in *. apply IHl1. }
    assert (In a (c :: l1)) as Ia.
    { rewrite A'. clear. destruct l1 as [|e l1]; [left; reflexivity|]. right. revert e.
      induction l1 as [|f l1 IH]; intros e; [left; reflexivity|]. right. apply (IH f). }
    assert (In b (l2 ++ [y])) as Ib by (subst b; destruct l2; left; reflexivity).
    assert (x <> d) as XD.
    { intros ->. inversion ND; subst. apply H1. right. apply in_or_app. right. left. reflexivity. }
    assert (c <> d) as CD.
    { intros ->. inversion ND2; subst. apply H1. apply in_or_app. right. left. reflexivity. }
    rewrite HN, HP by assumption.
    destruct (Z.eqb_spec x a) as [->|].
    { exfalso. apply NoDup_cons_iff in ND. destruct ND as [H1 _]. apply H1.
      destruct Ia as [Ia|Ia]; [left; assumption|right]. apply in_or_app. left. assumption. }
    destruct (Z.eqb_spec c b) as [->|].
    { exfalso. inversion ND2; subst. apply H1. apply in_or_app. right. right. assumption. }
    split; [assumption|]. split; [assumption|].
    apply (IH c l2 y a b d); try assumption.
    + inversion ND; assumption.
    + inversion ND2; assumption.
Qed.

Lemma NoDup_app_remove_r : forall (l l' : list Z), NoDup (l ++ l') -> NoDup l.
Proof.
  induction l as [|a l IH]; intros l' H; [constructor|]. inversion H; subst. constructor; [|eauto].
  intros X. apply H2. apply in_or_app. auto.
Qed.
Lemma NoDup_app_remove_l : forall (l l' : list Z), NoDup (l ++ l') -> NoDup l'.
Proof. induction l as [|a l IH]; intros l' H; [assumption|]. inversion H; subst. eauto. Qed.

Lemma nodup_move : forall (x : Z) l, NoDup (x :: l) -> NoDup (l ++ [x]).
Proof.
  intros x l H. apply Permutation_NoDup with (x :: l); [|assumption]. apply Permutation_cons_append.
Qed.

Lemma last_in : forall (l : list Z) x, In (last l x) (x :: l).
Proof.
  intros l x. destruct l as [|d l]; [left; reflexivity|]. right. revert d.
  induction l as [|e l IH]; intros d; [left; reflexivity|]. right. apply (IH e).
Qed.

Lemma last_snoc : forall (l : list Z) x y, last (l ++ [y]) x = y.
Proof. intros. apply last_last. Qed.

(** Insertion into one list of a world, for both directions. *)
Lemma insert_rep : forall h h' hd l1 l2 w a b n,
  (forall q, nx h' q = if q =? a then n else if q =? n then b else nx h q) ->
  (forall q, pv h' q = if q =? b then n else if q =? n then a else pv h q) ->
  a = last l1 hd -> b = match l2 with [] => hd | z :: _ => z end -> n <> 0 ->
  ~ In n (nodes ((hd, l1 ++ l2) :: w)) ->
  rep h ((hd, l1 ++ l2) :: w) -> rep h' ((hd, l1 ++ n :: l2) :: w).
Proof.
  intros h h' hd l1 l2 w a b n HN HP A B N0 NI R. apply rep_cons in R. destruct R as (P & F & ND & Z0).
  unfold nodes in NI. cbn [map concat fst snd] in NI. fold (nodes w) in NI. cbn [app] in NI.
  assert (NoDup (hd :: l1 ++ l2)) as ND1.
  { apply NoDup_app_remove_r with (nodes w). exact ND. }
  assert (forall q, In q (nodes w) -> ~ In q (hd :: l1 ++ l2)) as DJ.
  { intros q Hq Hq2. change (hd :: (l1 ++ l2) ++ nodes w) with ((hd :: l1 ++ l2) ++ nodes w) in ND.
    revert ND Hq Hq2. generalize (hd :: l1 ++ l2) (nodes w). clear. induction l as [|z l IH]; intros l' ND H1 H2; [contradiction|].
    inversion ND; subst. destruct H2 as [->|H2]; [apply H3; apply in_or_app; auto|eauto]. }
  assert (In a (hd :: l1 ++ l2)) as Ia.
  { subst a. destruct (last_in l1 hd) as [E|E]; [left; assumption|right; apply in_or_app; auto]. }
  assert (In b (hd :: l1 ++ l2)) as Ib.
  { subst b. destruct l2; [left; reflexivity|right; apply in_or_app; right; left; reflexivity]. }
  apply rep_cons. split; [|split; [|split]].
  - apply (insert_path h h' l1 hd l2 hd a b n HN HP); try assumption.
    + rewrite app_assoc. apply nodup_move. assumption.
    + intros H. apply NI. change (hd :: (l1 ++ l2) ++ nodes w) with ((hd :: l1 ++ l2) ++ nodes w).
      apply in_or_app. left. assumption.
    + intros ->. apply NI. left. reflexivity.
  - apply lists_frame with h; [|assumption]. intros q Hq. rewrite HN, HP.
    destruct (Z.eqb_spec q a) as [->|]; [exfalso; apply (DJ a Hq Ia)|].
    destruct (Z.eqb_spec q b) as [->|]; [exfalso; apply (DJ b Hq Ib)|].
    destruct (Z.eqb_spec q n) as [->|]; [|auto].
    exfalso. apply NI. right. apply in_or_app. right. assumption.
  - apply Permutation_NoDup with (n :: hd :: (l1 ++ l2) ++ nodes w).
    + rewrite perm_swap. apply perm_skip. rewrite <- !app_assoc. apply Permutation_middle.
    + constructor; [exact NI|assumption].
  - intros H. assert (In 0 (n :: hd :: (l1 ++ l2) ++ nodes w)) as H'.
    { apply Permutation_in with (hd :: (l1 ++ n :: l2) ++ nodes w); [|assumption].
      rewrite perm_swap. apply perm_skip. rewrite <- !app_assoc. cbn [app]. symmetry. apply Permutation_middle. }
    destruct H' as [H'|H']; [congruence|auto].
Qed.

Lemma neighbours : forall h hd l1 l2 w, rep h ((hd, l1 ++ l2) :: w) ->
  let a := last l1 hd in let b := match l2 with [] => hd | z :: _ => z end in
  nx h a = b /\ pv h b = a /\ a <> 0 /\ b <> 0 /\
  In a (nodes ((hd, l1 ++ l2) :: w)) /\ In b (nodes ((hd, l1 ++ l2) :: w)).
Proof.
  intros h hd l1 l2 w R a b. pose proof R as (_ & _ & Z0). apply rep_cons in R. destruct R as (P & _).
  destruct (path_link h hd l1 a b l2 hd P eq_refl eq_refl) as [E1 E2].
  assert (In a (nodes ((hd, l1 ++ l2) :: w))) as Ia.
  { unfold nodes. cbn [map concat fst snd app]. subst a.
    destruct (last_in l1 hd) as [E|E]; [left; assumption|right]. apply in_or_app. left. apply in_or_app. auto. }
  assert (In b (nodes ((hd, l1 ++ l2) :: w))) as Ib.
  { unfold nodes. cbn [map concat fst snd app]. subst b. destruct l2; [left; reflexivity|right].
    apply in_or_app. left. apply in_or_app. right. left. reflexivity. }
  repeat split; try assumption; intros E; rewrite E in *; auto.
Qed.

Lemma insert_after_at : forall h hd l1 l2 w n, rep h ((hd, l1 ++ l2) :: w) -> n <> 0 ->
  ~ In n (nodes ((hd, l1 ++ l2) :: w)) ->
  exists h', list_add_after (last l1 hd) n h = Some h' /\ rep h' ((hd, l1 ++ n :: l2) :: w).
Proof.
  intros h hd l1 l2 w n R N0 NI. destruct (neighbours h hd l1 l2 w R) as (E1 & E2 & A0 & B0 & Ia & Ib).
  destruct (add_after_eff h _ _ n A0 N0 B0 E1) as (h' & E & HN & HP); [congruence|congruence|].
  exists h'. split; [assumption|]. eapply insert_rep; eauto.
Qed.

Lemma insert_before_at : forall h hd l1 l2 w n, rep h ((hd, l1 ++ l2) :: w) -> n <> 0 ->
  ~ In n (nodes ((hd, l1 ++ l2) :: w)) ->
  exists h', list_add_before (match l2 with [] => hd | z :: _ => z end) n h = Some h' /\ rep h' ((hd, l1 ++ n :: l2) :: w).
Proof.
  intros h hd l1 l2 w n R N0 NI. destruct (neighbours h hd l1 l2 w R) as (E1 & E2 & A0 & B0 & Ia & Ib).
  destruct (add_before_eff h _ _ n B0 N0 A0 E2) as (h' & E & HP & HN); [congruence|congruence|].
  exists h'. split; [assumption|]. eapply insert_rep; eauto.
Qed.

Lemma remove_eff : forall h d a b, d <> 0 -> a <> 0 -> b <> 0 -> nx h d = b -> pv h d = a -> d <> a -> d <> b ->
  exists h', list_remove d h = Some h' /\
    (forall q, nx h' q = if q =? d then 0 else if q =? a then b else nx h q) /\
    (forall q, pv h' q = if q =? d then 0 else if q =? b then a else pv h q).
Proof.
  intros h d a b D0 A0 B0 E1 E2 DA DB.
  unfold list_remove, list_node_init, get_next, get_prev, set_next, set_prev, bind.
  destruct (Z.eqb_spec d 0); [contradiction|]. cbn [nx pv]. rewrite E1, E2.
  destruct (Z.eqb_spec b 0); [contradiction|]. cbn [nx pv].
  destruct (Z.eqb_spec d b); [congruence|]. rewrite E2.
  destruct (Z.eqb_spec a 0); [contradiction|]. cbn [nx pv].
  eexists. split; [reflexivity|]. cbn [nx pv]. rewrite E1. split; reflexivity.
Qed.

Lemma remove_at : forall h hd l1 d l2 w, rep h ((hd, l1 ++ d :: l2) :: w) ->
  exists h', list_remove d h = Some h' /\ rep h' ((hd, l1 ++ l2) :: w) /\ nx h' d = 0 /\ pv h' d = 0.
Proof.
  intros h hd l1 d l2 w R.
  destruct (neighbours h hd l1 (d :: l2) w R) as (_ & E2 & A0 & D0 & Ia & Id).
  assert (rep h ((hd, (l1 ++ [d]) ++ l2) :: w)) as R2 by (rewrite <- app_assoc; exact R).
  destruct (neighbours h hd (l1 ++ [d]) l2 w R2) as (E3 & _ & _ & B0 & _ & Ib).
  rewrite last_snoc in E3. set (a := last l1 hd) in *. set (b := match l2 with [] => hd | z :: _ => z end) in *.
  apply rep_cons in R. destruct R as (P & F & ND & Z0).
  assert (NoDup (hd :: l1 ++ d :: l2)) as ND1 by (apply NoDup_app_remove_r with (nodes w); exact ND).
  assert (NoDup (l1 ++ d :: l2 ++ [hd])) as ND2.
  { replace (l1 ++ d :: l2 ++ [hd]) with ((l1 ++ d :: l2) ++ [hd]) by (rewrite <- app_assoc; reflexivity).
    apply nodup_move. assumption. }
  assert (d <> a) as DA.
  { intros E. assert (~ In d (hd :: l1)) as X.
    { intros H. change (hd :: l1 ++ d :: l2) with ((hd :: l1) ++ d :: l2) in ND1. apply NoDup_remove_2 in ND1.
      apply ND1. apply in_or_app. left. assumption. }
    apply X. rewrite E. apply last_in. }
  assert (d <> b) as DB.
  { intros E. apply NoDup_remove_2 in ND2. apply ND2. apply in_or_app. right. rewrite E. unfold b.
    destruct l2; left; reflexivity. }
  destruct (remove_eff h d a b D0 A0 B0 E3 E2 DA DB) as (h' & E & HN & HP).
  exists h'. split; [assumption|]. rewrite HN, HP, Z.eqb_refl. split; [|auto].
  assert (forall q, In q (nodes w) -> ~ In q (hd :: l1 ++ d :: l2)) as DJ.
  { intros q Hq Hq2. change (hd :: (l1 ++ d :: l2) ++ nodes w) with ((hd :: l1 ++ d :: l2) ++ nodes w) in ND.
    revert ND Hq Hq2. generalize (hd :: l1 ++ d :: l2) (nodes w). clear. induction l as [|z l IH]; intros l' ND H1 H2; [contradiction|].
    inversion ND; subst. destruct H2 as [->|H2]; [apply H3; apply in_or_app; auto|eauto]. }
  apply rep_cons. split; [|split; [|split]].
  - apply (remove_path h h' l1 hd l2 hd a b d); try assumption; try reflexivity.
    + intros q Hq. rewrite HN. destruct (Z.eqb_spec q d); [contradiction|reflexivity].
    + intros q Hq. rewrite HP. destruct (Z.eqb_spec q d); [contradiction|reflexivity].
  - apply lists_frame with h; [|assumption]. intros q Hq. rewrite HN, HP.
    specialize (DJ q Hq).
    destruct (Z.eqb_spec q d) as [->|]; [exfalso; apply DJ; right; apply in_or_app; right; left; reflexivity|].
    destruct (Z.eqb_spec q a) as [->|].
    { exfalso. apply DJ. destruct (last_in l1 hd) as [X|X]; [left; exact X|right; apply in_or_app; left; exact X]. }
    destruct (Z.eqb_spec q b) as [->|]; [|auto].
    exfalso. apply DJ. unfold b. destruct l2; [left; reflexivity|right]. apply in_or_app. right. right. left. reflexivity.
  - rewrite <- app_assoc in *. apply (NoDup_remove_1 (hd :: l1) (l2 ++ nodes w) d). exact ND.
  - intros H. apply Z0. destruct H as [H|H]; [left; assumption|right].
    rewrite <- app_assoc in *. apply in_app_or in H. apply in_or_app. destruct H; [left|right; right]; assumption.
Qed.

Lemma path_retarget : forall h h' l x y y',
  path h x l y -> NoDup (x :: l) ->
  (forall q, In q (x :: l) -> q <> last l x -> nx h' q = nx h q) ->
  (forall q, In q l -> pv h' q = pv h q) ->
  nx h' (last l x) = y' -> pv h' y' = last l x -> path h' x l y'.
Proof.
  intros h h' l. induction l as [|z l IH]; intros x y y' P ND HN HP E1 E2; cbn [path] in *.
  - cbn [last] in *. auto.
  - destruct P as (P1 & P2 & P3).
    assert (last (z :: l) x = last l z) as EL.
    { clear. destruct l as [|e l]; [reflexivity|]. revert e. induction l; intros; [reflexivity|]. cbn [last] in *. apply IHl. }
    rewrite EL in *.
    apply NoDup_cons_iff in ND. destruct ND as [N1 N2].
    rewrite HN; [|left; reflexivity|].
    2:{ intros E. apply N1. rewrite E. apply last_in. }
    rewrite HP by (left; reflexivity). split; [assumption|]. split; [assumption|].
    apply (IH z y y'); try assumption.
    + intros q Hq. apply HN. right. assumption.
    + intros q Hq. apply HP. right. assumption.
Qed.

Lemma is_empty_spec : forall h hd l w, rep h ((hd, l) :: w) ->
  list_is_empty hd h = Some (match l with [] => true | _ => false end).
Proof.
  intros h hd l w R. apply rep_cons in R. destruct R as (P & _ & ND & Z0).
  unfold list_is_empty, get_next, get_prev, bind.
  destruct (Z.eqb_spec hd 0) as [->|]; [exfalso; apply Z0; left; reflexivity|].
  destruct l as [|z l]; cbn [path] in P.
  - destruct P as [-> ->]. rewrite Z.eqb_refl. reflexivity.
  - destruct P as (-> & _). cbn [app] in ND. apply NoDup_cons_iff in ND. destruct ND as [N _].
    destruct (Z.eqb_spec z hd) as [->|]; [exfalso; apply N; left; reflexivity|].
    rewrite Bool.andb_false_r. reflexivity.
Qed.

Lemma merge_eff : forall h h1 h2 n1 p2 n2,
  h1 <> 0 -> h2 <> 0 -> n1 <> 0 -> p2 <> 0 -> n2 <> 0 ->
  nx h h1 = n1 -> pv h h2 = p2 -> nx h h2 = n2 -> h1 <> h2 -> n1 <> h2 -> p2 <> h2 -> n2 <> h2 -> p2 <> h1 -> n2 <> n1 ->
  exists h', list_merge h1 h2 h = Some h' /\
    (forall q, nx h' q = if q =? h2 then h2 else if q =? h1 then n2 else if q =? p2 then n1 else nx h q) /\
    (forall q, pv h' q = if q =? h2 then h2 else if q =? n2 then h1 else if q =? n1 then p2 else pv h q).
Proof.
  intros h h1 h2 n1 p2 n2 Z1 Z2 Zn1 Zp2 Zn2 E1 E2 E3 D1 D2 D3 D4 D5 D6.
  unfold list_merge, list_is_empty, get_next, get_prev, set_next, set_prev, bind.
  destruct (Z.eqb_spec h1 0); [contradiction|]. destruct (Z.eqb_spec h2 0); [contradiction|].
  rewrite E1, E2, E3. destruct (Z.eqb_spec p2 h2); [contradiction|]. cbn [andb].
  destruct (Z.eqb_spec n1 0); [contradiction|]. cbn [nx pv].
  destruct (Z.eqb_spec h2 n1); [congruence|]. rewrite E2, E1.
  destruct (Z.eqb_spec p2 0); [contradiction|]. cbn [nx pv].
  destruct (Z.eqb_spec h2 p2); [congruence|]. rewrite E3. cbn [nx pv].
  destruct (Z.eqb_spec h2 h1); [congruence|]. try (destruct (Z.eqb_spec h2 p2); [congruence|]). rewrite ?E3.
  destruct (Z.eqb_spec n2 0); [contradiction|]. cbn [nx pv].
  eexists. split; [reflexivity|]. cbn [nx pv]. split; reflexivity.
Qed.

Lemma nodup_disj : forall (l l' : list Z) q, NoDup (l ++ l') -> In q l -> In q l' -> False.
Proof.
  induction l as [|z l IH]; intros l' q ND H1 H2; [contradiction|]. inversion ND; subst.
  destruct H1 as [->|H1]; [apply H3; apply in_or_app; auto|eauto].
Qed.

Lemma merge_at : forall h h1 l1 h2 l2 w, rep h ((h1, l1) :: (h2, l2) :: w) ->
  exists h', list_merge h1 h2 h = Some h' /\ rep h' ((h1, l2 ++ l1) :: (h2, []) :: w).
Proof.
  intros h h1 l1 h2 l2 w R.
  assert (rep h ((h2, l2) :: (h1, l1) :: w)) as R' by (apply rep_perm with ((h1, l1) :: (h2, l2) :: w); [apply perm_swap|assumption]).
  pose proof (is_empty_spec h h2 l2 _ R') as EM.
  destruct l2 as [|n2 l2].
  { exists h. split; [unfold list_merge; rewrite EM; reflexivity|assumption]. }
  destruct (neighbours h h1 [] l1 ((h2, n2 :: l2) :: w) R) as (E1 & E1' & Z1 & Zn1 & _ & _).
  destruct (neighbours h h2 [] (n2 :: l2) ((h1, l1) :: w) R') as (E3 & E3' & Z2 & Zn2 & _ & _).
  assert (rep h ((h2, (n2 :: l2) ++ []) :: (h1, l1) :: w)) as R'' by (rewrite app_nil_r; exact R').
  destruct (neighbours h h2 (n2 :: l2) [] ((h1, l1) :: w) R'') as (E2' & E2 & Zp2 & _ & _ & _).
  cbn [last] in E1, E1', E3, E3', Z1, Z2.
  set (n1 := match l1 with [] => h1 | z :: _ => z end) in *. set (p2 := last (n2 :: l2) h2) in *.
  pose proof R as (F & ND & Z0). apply Forall_cons_iff in F. destruct F as [P1 F]. apply Forall_cons_iff in F. destruct F as [P2 F2].
  cbn [fst snd] in P1, P2. unfold nodes in ND. cbn [map concat fst snd] in ND. fold (nodes w) in ND.
  set (A := h1 :: l1) in *. set (B := h2 :: n2 :: l2) in *.
  assert (NoDup A /\ NoDup B /\ NoDup (nodes w)) as (NA & NB & NW).
  { apply NoDup_app_remove_r in ND as X. apply NoDup_app_remove_l in ND as Y.
    split; [exact X|]. split; [apply NoDup_app_remove_r in Y; exact Y|apply NoDup_app_remove_l in Y; exact Y]. }
  assert (forall q, In q A -> In q B -> False) as DAB.
  { intros q H1 H2. apply (nodup_disj A (B ++ nodes w) q ND H1). apply in_or_app. auto. }
  assert (forall q, In q A -> In q (nodes w) -> False) as DAW.
  { intros q H1 H2. apply (nodup_disj A (B ++ nodes w) q ND H1). apply in_or_app. auto. }
  assert (forall q, In q B -> In q (nodes w) -> False) as DBW.
  { intros q H1 H2. apply NoDup_app_remove_l in ND. apply (nodup_disj B (nodes w) q ND H1 H2). }
  assert (In h1 A) as I1 by (left; reflexivity). assert (In h2 B) as I2 by (left; reflexivity).
  assert (In n1 A) as In1 by (unfold n1, A; destruct l1; [left|right; left]; reflexivity).
  assert (In n2 B) as In2 by (right; left; reflexivity).
  assert (In p2 (n2 :: l2)) as Ip2'.
  { unfold p2. destruct (last_in (n2 :: l2) h2) as [X|X]; [|exact X]. exfalso.
    clear -X NB. unfold B in NB. apply NoDup_cons_iff in NB. destruct NB as [NB _]. apply NB. rewrite X at 1.
    clear. revert n2. induction l2 as [|e l IH]; intros n2; [left; reflexivity|]. right. apply (IH e). }
  assert (In p2 B) as Ip2 by (right; exact Ip2').
  assert (~ In h2 (n2 :: l2)) as NH2 by (unfold B in NB; apply NoDup_cons_iff in NB; tauto).
  destruct (merge_eff h h1 h2 n1 p2 n2 Z1 Z2 Zn1 Zp2 Zn2 E1 E2 E3) as (h' & EH & HN & HP).
  { intros E. apply (DAB h1 I1). rewrite E. exact I2. }
  { intros E. apply (DAB n1 In1). rewrite E. exact I2. }
  { intros E. apply NH2. rewrite <- E. exact Ip2'. }
  { intros E. apply NH2. rewrite <- E. left. reflexivity. }
  { intros E. apply (DAB h1 I1). rewrite <- E. exact Ip2. }
  { intros E. apply (DAB n1 In1). rewrite <- E. exact In2. }
  exists h'. split; [exact EH|].
  assert (nx h' h1 = n2) as X1.
  { rewrite HN. destruct (Z.eqb_spec h1 h2) as [E|]; [exfalso; apply (DAB h1 I1); rewrite E; exact I2|].
    rewrite Z.eqb_refl. reflexivity. }
  assert (pv h' n2 = h1) as X2.
  { rewrite HP. destruct (Z.eqb_spec n2 h2) as [E|]; [exfalso; apply NH2; rewrite <- E; left; reflexivity|].
    rewrite Z.eqb_refl. reflexivity. }
  assert (path h' n2 l2 n1) as X3.
  { cbn [path] in P2. destruct P2 as (_ & _ & P2).
    assert (last l2 n2 = p2) as EL.
    { unfold p2. clear. destruct l2 as [|e l]; [reflexivity|]. revert e. induction l; intros; [reflexivity|]. cbn [last] in *. apply IHl. }
    unfold B in NB. apply NoDup_cons_iff in NB. destruct NB as [_ NB].
    apply (path_retarget h h' l2 n2 h2 n1 P2 NB); rewrite ?EL.
    - intros q Hq Hl. rewrite HN. destruct (Z.eqb_spec q h2) as [->|]; [exfalso; exact (NH2 Hq)|].
      destruct (Z.eqb_spec q h1) as [->|]; [exfalso; apply (DAB h1 I1); right; exact Hq|].
      destruct (Z.eqb_spec q p2); [contradiction|reflexivity].
    - intros q Hq. rewrite HP. destruct (Z.eqb_spec q h2) as [->|]; [exfalso; apply NH2; right; exact Hq|].
      destruct (Z.eqb_spec q n2) as [->|]; [exfalso; apply NoDup_cons_iff in NB; tauto|].
      destruct (Z.eqb_spec q n1) as [->|]; [exfalso; apply (DAB n1 In1); right; right; exact Hq|reflexivity].
    - rewrite HN. destruct (Z.eqb_spec p2 h2) as [E|]; [exfalso; apply NH2; rewrite <- E; exact Ip2'|].
      destruct (Z.eqb_spec p2 h1) as [E|]; [exfalso; apply (DAB h1 I1); rewrite <- E; exact Ip2|].
      rewrite Z.eqb_refl. reflexivity.
    - rewrite HP. destruct (Z.eqb_spec n1 h2) as [E|]; [exfalso; apply (DAB n1 In1); rewrite E; exact I2|].
      destruct (Z.eqb_spec n1 n2) as [E|]; [exfalso; apply (DAB n1 In1); rewrite E; exact In2|].
      rewrite Z.eqb_refl. reflexivity. }
  assert (Permutation (A ++ B ++ nodes w) (h1 :: ((n2 :: l2) ++ l1) ++ h2 :: nodes w)) as PM.
  { unfold A, B. cbn [app]. apply perm_skip. rewrite <- app_assoc. cbn [app].
    transitivity (l1 ++ n2 :: l2 ++ h2 :: nodes w).
    { apply Permutation_app_head. transitivity (n2 :: h2 :: l2 ++ nodes w); [apply perm_swap|].
      apply perm_skip. apply Permutation_middle. }
    transitivity ((n2 :: l2) ++ l1 ++ h2 :: nodes w); [|reflexivity].
    change (n2 :: l2 ++ h2 :: nodes w) with ((n2 :: l2) ++ h2 :: nodes w). rewrite !app_assoc.
    apply Permutation_app_tail. apply Permutation_app_comm. }
  split; [|split].
  - constructor; [|constructor].
    + cbn [fst snd app path]. split; [exact X1|]. split; [exact X2|].
      revert X3 In1 HN HP. unfold n1, A in *. clear n1 A. destruct l1 as [|n1 r]; intros X3 In1 HN HP.
      * rewrite app_nil_r. exact X3.
      * apply path_app. split; [exact X3|]. cbn [path] in P1. destruct P1 as (_ & _ & P1).
        apply path_frame with h; [| |exact P1].
        { intros q Hq. rewrite HN.
          destruct (Z.eqb_spec q h2) as [->|]; [exfalso; apply (DAB h2); [right; exact Hq|exact I2]|].
          destruct (Z.eqb_spec q h1) as [->|]; [exfalso; apply NoDup_cons_iff in NA; tauto|].
          destruct (Z.eqb_spec q p2) as [->|]; [exfalso; apply (DAB p2); [right; exact Hq|exact Ip2]|reflexivity]. }
        { intros q Hq.
          assert (In q (h1 :: n1 :: r)) as Hq' by (apply in_app_or in Hq; destruct Hq as [Hq|[<-|[]]]; [right; right; exact Hq|left; reflexivity]).
          rewrite HP.
          destruct (Z.eqb_spec q h2) as [->|]; [exfalso; apply (DAB h2 Hq' I2)|].
          destruct (Z.eqb_spec q n2) as [->|]; [exfalso; apply (DAB n2 Hq' In2)|].
          destruct (Z.eqb_spec q n1) as [->|]; [|reflexivity].
          exfalso. apply nodup_move in NA. cbn [app] in NA. apply NoDup_cons_iff in NA. tauto. }
    + cbn [fst snd path]. rewrite HN, HP, Z.eqb_refl. auto.
    + apply lists_frame with h; [|exact F2]. intros q Hq. rewrite HN, HP.
      destruct (Z.eqb_spec q h2) as [->|]; [exfalso; apply (DBW h2 I2 Hq)|].
      destruct (Z.eqb_spec q h1) as [->|]; [exfalso; apply (DAW h1 I1 Hq)|].
      destruct (Z.eqb_spec q p2) as [->|]; [exfalso; apply (DBW p2 Ip2 Hq)|].
      destruct (Z.eqb_spec q n2) as [->|]; [exfalso; apply (DBW n2 In2 Hq)|].
      destruct (Z.eqb_spec q n1) as [->|]; [exfalso; apply (DAW n1 In1 Hq)|auto].
  - apply Permutation_NoDup with (A ++ B ++ nodes w); [|exact ND]. exact PM.
  - intros H. apply Z0. apply Permutation_in with (nodes ((h1, (n2 :: l2) ++ l1) :: (h2, []) :: w)); [symmetry; exact PM|exact H].
Qed.

Lemma init_at : forall h hd w, rep h w -> hd <> 0 -> ~ In hd (nodes w) ->
  exists h', list_head_init hd h = Some h' /\ rep h' ((hd, []) :: w).
Proof.
  intros h hd w (F & ND & Z0) H0 NI. unfold list_head_init, set_prev, set_next, bind.
  destruct (Z.eqb_spec hd 0); [contradiction|]. eexists. split; [reflexivity|]. apply rep_cons. split; [|split; [|split]].
  - cbn [path nx pv]. rewrite Z.eqb_refl. auto.
  - apply lists_frame with h; [|exact F]. intros q Hq. cbn [nx pv].
    destruct (Z.eqb_spec q hd) as [->|]; [contradiction|auto].
  - cbn [app]. constructor; assumption.
  - cbn [app]. intros [X|X]; [congruence|auto].
Qed.

Lemma step_sound : forall h w o w', rep h w -> lmeans w o w' -> exists h', lstep h o = Some h' /\ rep h' w'.
Proof.
  intros h w o w' R M. destruct M as [w hd H0 NI|w w0 hd l n P H0 NI|w w0 hd l1 x l2 n P H0 NI|w w0 hd l n P H0 NI
    |w w0 hd l1 x l2 n P H0 NI|w w0 hd l1 x l2 P|w w0 h1 l1 h2 l2 P]; cbn [lstep].
  - apply init_at; assumption.
  - apply (rep_perm h _ _ P) in R.
    apply (insert_after_at h hd [] l w0 n R H0). intros X. apply NI. apply Permutation_in with (nodes ((hd, l) :: w0)); [|exact X].
    symmetry. apply nodes_perm. exact P.
  - apply (rep_perm h _ _ P) in R.
    assert (rep h ((hd, (l1 ++ [x]) ++ l2) :: w0)) as R2 by (rewrite <- app_assoc; exact R).
    destruct (insert_after_at h hd (l1 ++ [x]) l2 w0 n R2 H0) as (h' & E & R3).
    { intros X. apply NI. rewrite <- app_assoc in X. cbn [app] in X. apply Permutation_in with (nodes ((hd, l1 ++ x :: l2) :: w0)); [|exact X].
      symmetry. apply nodes_perm. exact P. }
    rewrite last_snoc in E. rewrite <- app_assoc in R3. exists h'. auto.
  - apply (rep_perm h _ _ P) in R.
    assert (rep h ((hd, l ++ []) :: w0)) as R2 by (rewrite app_nil_r; exact R).
    apply (insert_before_at h hd l [] w0 n R2 H0). rewrite app_nil_r. intros X. apply NI.
    apply Permutation_in with (nodes ((hd, l) :: w0)); [|exact X]. symmetry. apply nodes_perm. exact P.
  - apply (rep_perm h _ _ P) in R.
    apply (insert_before_at h hd l1 (x :: l2) w0 n R H0). intros X. apply NI.
    apply Permutation_in with (nodes ((hd, l1 ++ x :: l2) :: w0)); [|exact X]. symmetry. apply nodes_perm. exact P.
  - apply (rep_perm h _ _ P) in R. destruct (remove_at h hd l1 x l2 w0 R) as (h' & E & R2 & _). exists h'. auto.
  - apply (rep_perm h _ _ P) in R. apply merge_at. exact R.
Qed.

Lemma run_sound : forall l h w w', rep h w -> lmeans_all w l w' -> exists h', lrun h l = Some h' /\ rep h' w'.
Proof.
  intros l h w w' R M. revert h R. induction M as [w|w o w1 l w2 M1 M2 IH]; intros h R; cbn [lrun].
  - exists h. auto.
  - destruct (step_sound h w o w1 R M1) as (h1 & E & R1). destruct (IH h1 R1) as (h2 & E2 & R2).
    exists h2. unfold bind. rewrite E. auto.
Qed.


Lemma walk_path : forall h l hd x, path h x l hd -> ~ In hd l -> walk (S (length l)) h hd x = l.
Proof.
  intros h l. induction l as [|z l IH]; intros hd x P N; cbn [path] in P.
  - destruct P as [E _]. cbn [length walk]. rewrite E, Z.eqb_refl. reflexivity.
  - destruct P as (E & _ & P). cbn [length]. change (walk (S (S (length l))) h hd x) with
      (if nx h x =? hd then [] else nx h x :: walk (S (length l)) h hd (nx h x)). rewrite E.
    destruct (Z.eqb_spec z hd) as [->|]; [exfalso; apply N; left; reflexivity|].
    rewrite IH; [reflexivity|assumption|]. intros X. apply N. right. assumption.
Qed.

Lemma walk_back_path : forall h l hd x, path h hd l x -> ~ In hd l -> walk_back (S (length l)) h hd x = rev l.
Proof.
  intros h l. induction l as [|z l IH] using rev_ind; intros hd x P N.
  - cbn [path] in P. destruct P as [_ E]. cbn [length walk_back rev]. rewrite E, Z.eqb_refl. reflexivity.
  - apply path_app in P. destruct P as [P Q]. cbn [path] in Q. destruct Q as [_ E].
    rewrite app_length, Nat.add_comm. cbn [length Nat.add].
    change (walk_back (S (S (length l))) h hd x) with
      (if pv h x =? hd then [] else pv h x :: walk_back (S (length l)) h hd (pv h x)). rewrite E.
    destruct (Z.eqb_spec z hd) as [->|]; [exfalso; apply N; apply in_or_app; right; left; reflexivity|].
    rewrite IH; [|assumption|]. 2:{ intros X. apply N. apply in_or_app. auto. }
    rewrite rev_app_distr. reflexivity.
Qed.

Lemma rep_walks : forall h w hd l, rep h w -> In (hd, l) w ->
  walk (S (length l)) h hd hd = l /\ walk_back (S (length l)) h hd hd = rev l /\
  list_is_empty hd h = Some (match l with [] => true | _ => false end) /\
  (forall x, In x l -> list_node_on_list x h = Some true).
Proof.
  intros h w hd l R I. destruct (in_split _ _ I) as (w1 & w2 & ->).
  assert (rep h ((hd, l) :: w1 ++ w2)) as R2.
  { apply rep_perm with (w1 ++ (hd, l) :: w2); [|assumption]. symmetry. apply Permutation_middle. }
  pose proof (is_empty_spec h hd l _ R2) as EM. pose proof R2 as R3.
  apply rep_cons in R2. destruct R2 as (P & _ & ND & Z0). cbn [app] in ND. apply NoDup_cons_iff in ND. destruct ND as [N ND].
  assert (~ In hd l) as N' by (intros X; apply N; apply in_or_app; auto).
  split; [apply walk_path; assumption|]. split; [apply walk_back_path; assumption|]. split; [exact EM|].
  intros x Hx. destruct (in_split _ _ Hx) as (l1 & l2 & ->).
  destruct (neighbours h hd l1 (x :: l2) _ R3) as (_ & E & A0 & X0 & _ & _). cbv zeta in E, A0, X0.
  unfold list_node_on_list, get_prev, get_next, bind. destruct (Z.eqb_spec x 0); [contradiction|].
  rewrite E. destruct (Z.eqb_spec (last l1 hd) 0); [contradiction|]. reflexivity.
Qed.

Lemma removed_off_list : forall h hd l1 d l2 w, rep h ((hd, l1 ++ d :: l2) :: w) ->
  exists h', list_remove d h = Some h' /\ list_node_on_list d h' = Some false.
Proof.
  intros h hd l1 d l2 w R. destruct (remove_at h hd l1 d l2 w R) as (h' & E & _ & E1 & E2).
  exists h'. split; [assumption|].
  destruct (neighbours h hd l1 (d :: l2) w R) as (_ & _ & _ & D0 & _). cbv zeta in D0.
  unfold list_node_on_list, get_prev, get_next, bind. destruct (Z.eqb_spec d 0); [contradiction|].
  rewrite E1, E2. reflexivity.
Qed.

Definition heap0 : heap := mkHeap (fun _ => 0) (fun _ => 0).
Lemma rep0 : rep heap0 [].
Proof. split; [constructor|]. split; [constructor|]. intros []. Qed.

Lemma merge_front : exists h h' h1 l1 h2 l2, rep h [(h1, l1); (h2, l2)] /\
  list_merge h1 h2 h = Some h' /\ walk (S (length (l1 ++ l2))) h' h1 h1 <> l1 ++ l2.
Proof.
  destruct (run_sound [LInit 1; LAfter 1 3; LInit 2; LAfter 2 4] heap0 [] [(2, [4]); (1, [3])] rep0) as (h & E & R).
  { assert (forall w o, w = [(2, [4]); (1, [3])] -> o = LAfter 2 4 -> lmeans [(2, []); (1, [3])] o w) as L4.
    { intros w o -> ->. apply (lm_after_head _ [(1, [3])] 2 [] 4); [reflexivity|lia|simpl; lia]. }
    eapply lma_cons; [apply lm_init; [lia|intros []]|].
    eapply lma_cons; [apply (lm_after_head _ [] 1 [] 3); [reflexivity|lia|simpl; lia]|].
    eapply lma_cons; [apply lm_init; [lia|simpl; lia]|].
    eapply lma_cons; [apply L4; reflexivity|]. apply lma_nil. }
  assert (rep h [(1, [3]); (2, [4])]) as R2 by (apply rep_perm with [(2, [4]); (1, [3])]; [apply perm_swap|assumption]).
  destruct (merge_at h 1 [3] 2 [4] [] R2) as (h' & E' & R3).
  exists h, h', 1, [3], 2, [4]. split; [assumption|]. split; [assumption|].
  destruct (rep_walks h' _ 1 ([4] ++ [3]) R3) as (W & _); [left; reflexivity|].
  change (length ([3] ++ [4])) with (length ([4] ++ [3])). rewrite W. discriminate.
Qed.

(** Proofs about the routes for the niit devices. *)
From Verif Require Import Base IpCalc Niit NiitSpec.

(** mapped addresses *)
Lemma niit_iff : forall p q, v6 p -> (stands_for p q <-> is_niit p = true /\ q = to_v4 p).
Proof.
  intros [a n] [b m] (L & N). unfold stands_for, is_niit, to_v4. cbn [fst snd] in *. unfold u8. split.
  - intros (E & M & B). subst a. rewrite app_length in L. cbn [length] in L. split.
    + cbn [app firstn skipn]. destruct (list_eq_dec Z.eq_dec _ _) as [_|H]; [|now destruct H].
      destruct (list_eq_dec Z.eq_dec _ _) as [_|H]; [|now destruct H]. lia.
    + change (skipn 12 _) with b. rewrite firstn_all2 by lia. f_equal. lia.
  - intros (H & E). apply andb_prop in H. destruct H as (H & G). apply andb_prop in H. destruct H as (H1 & H2).
    destruct (list_eq_dec Z.eq_dec (firstn 8 a) _) as [E1|]; [|discriminate]. destruct (list_eq_dec Z.eq_dec (firstn 4 (skipn 8 a)) _) as [E2|]; [|discriminate].
    injection E as Eb Em. split; [|lia].
    do 16 (destruct a as [|? a]; [discriminate L|]). destruct a; [|discriminate L].
    cbn [firstn skipn repeat] in *. inversion E1; inversion E2; subst. reflexivity.
Qed.
Lemma niit_mapped : forall p, v6 p -> (is_niit p = true <-> mapped p).
Proof.
  intros p V. split.
  - intros H. exists (to_v4 p). apply niit_iff; auto.
  - intros (q & H). apply (niit_iff p q V) in H. tauto.
Qed.
Lemma v4_inj : forall p p' q, stands_for p q -> stands_for p' q -> p = p'.
Proof. intros [a n] [b m] [c k] (A & B & _) (A' & B' & _). cbn [fst snd] in *. congruence. Qed.
Lemma memeq_iff : forall n a b, (n <= length a)%nat -> (n <= length b)%nat -> (memeq n a b = true <-> firstn n a = firstn n b).
Proof.
  induction n as [|n IH]; intros a b A B; [cbn; tauto|]. destruct a as [|x a], b as [|y b]; cbn [length] in *; try lia.
  cbn [memeq firstn]. rewrite andb_true_iff, IH by lia. split.
  - intros (E & F). f_equal; [lia|exact F].
  - intros E. inversion E. split; [lia|reflexivity].
Qed.
Lemma hna_mapped : forall p, v6 p -> (ip_prefix_is_mappedv4 p = true <-> mapped p).
Proof.
  intros p V. rewrite <- niit_mapped by exact V. unfold ip_prefix_is_mappedv4, is_niit. destruct V as (L & _).
  change (Z.to_nat (96 / 8)) with 12%nat. rewrite !andb_true_iff, memeq_iff by (cbn [fst ipv6_mappedv4_route length]; lia).
  destruct p as [a n]. cbn [fst snd ipv6_mappedv4_route] in *.
  do 16 (destruct a as [|? a]; [discriminate L|]). destruct a; [|discriminate L]. cbn [firstn skipn repeat].
  match goal with |- context [if list_eq_dec ?d ?x ?y then true else false] => destruct (list_eq_dec d x y) as [E1|E1] end.
  - match goal with |- context [if list_eq_dec ?d ?x ?y then true else false] => destruct (list_eq_dec d x y) as [E2|E2] end.
    + inversion E1; inversion E2; subst. split; [intros (G & _); auto|intros (_ & G); split; [exact G|reflexivity]].
    + split; [|intuition discriminate]. intros (_ & F). exfalso. apply E2. inversion F; subst. reflexivity.
  - split; [|intuition discriminate]. intros (_ & F). exfalso. apply E1. inversion F; subst. reflexivity.
Qed.

(** a series of requests *)
Lemma change_in : forall ok p set l q, In q (change ok p set l) <->
  (set = true /\ (In q l \/ (ok = true /\ q = p))) \/ (set = false /\ In q l /\ q <> p).
Proof.
  intros ok p set l q. unfold change. destruct set.
  - destruct ok.
    + cbn [In]. destruct (peq p q) as [->|N].
      * split; [intros _; left; auto|intros _; now left].
      * split; [intros [H|H]; [congruence|apply in_remove in H; left; tauto]|].
        intros [(_ & [H|(_ & H)])|(H & _)]; [right; now apply in_in_remove; [congruence|]|congruence|discriminate].
    + split; [intros H; left; auto|]. intros [(_ & [H|(H & _)])|(H & _)]; [exact H|discriminate|discriminate].
  - split.
    + intros H. apply in_remove in H. right. tauto.
    + intros [(H & _)|(_ & H & N)]; [discriminate|]. now apply in_in_remove.
Qed.
Lemma with_k_id : forall s, with_k s (k_46 s) (k_64 s) = s.
Proof. now intros []. Qed.
Lemma hna_loop : forall l set s, exists k,
  fold_left (fun s p => if ip_prefix_is_mappedv4 p then os64 p set s else s) l s = with_k s (k_46 s) k /\
  forall q, In q k <->
    (set = true /\ (In q (k_64 s) \/ (ready (d_6 s) (n_i6 s) = true /\ In q l /\ ip_prefix_is_mappedv4 q = true))) \/
    (set = false /\ In q (k_64 s) /\ ~ (In q l /\ ip_prefix_is_mappedv4 q = true)).
Proof.
  induction l as [|p l IH]; intros set s; cbn [fold_left].
  - exists (k_64 s). split; [now rewrite with_k_id|]. intros q. cbn [In]. destruct set; intuition discriminate.
  - destruct (ip_prefix_is_mappedv4 p) eqn:M.
    + destruct (IH set (os64 p set s)) as (k & E & K). exists k. split; [rewrite E; reflexivity|].
      intros q. rewrite K. unfold os64 at 1 2 3 4. cbn [with_k k_64 d_6 n_i6]. rewrite !change_in. cbn [In].
      destruct set.
      * split.
        -- intros [(_ & [[(_ & [H|(H & ->)])|(H & _)]|(H & H2)])|(H & _)]; try discriminate; left; split; auto; right; tauto.
        -- intros [(_ & [H|(H & [->|H1] & H2)])|(H & _)]; try discriminate; left; split; auto; left; left; auto.
           all: try (split; auto).
           all: tauto.
      * split.
        -- intros [(H & _)|(_ & [(H & _)|(_ & H & N)] & N2)]; try discriminate. right. split; [reflexivity|]. split; [exact H|].
           intros ([->|I] & B); [now apply N|]. apply N2. now split.
        -- intros [(H & _)|(_ & H & N)]; [discriminate|]. right. split; [reflexivity|]. split.
           ++ right. split; [reflexivity|]. split; [exact H|]. intros ->. apply N. split; [now left|exact M].
           ++ intros (I & B). apply N. split; [now right|exact B].
    + destruct (IH set s) as (k & E & K). exists k. split; [exact E|]. intros q. rewrite K. cbn [In]. destruct set.
      * split; intros [(_ & [H|(H & H1 & H2)])|(H & _)]; try discriminate; left; (split; [reflexivity|]); auto.
        right. destruct H1 as [->|H1]; [congruence|auto].
      * split; intros [(H & _)|(_ & H & N)]; try discriminate; right; (split; [reflexivity|]); (split; [exact H|]).
        -- intros ([->|I] & B); [congruence|]. apply N. now split.
        -- intros (I & B). apply N. split; [now right|exact B].
Qed.
Lemma tree_loop : forall l set s, exists k,
  fold_left (fun s (e : prefix * bool) => if is_niit (fst e) then os46 (to_v4 (fst e)) set s else s) l s = with_k s k (k_64 s) /\
  forall q, In q k <->
    (set = true /\ (In q (k_46 s) \/ (ready (d_4 s) (n_i4 s) = true /\ exists e : prefix * bool, In e l /\ is_niit (fst e) = true /\ q = to_v4 (fst e)))) \/
    (set = false /\ In q (k_46 s) /\ ~ (exists e, In e l /\ is_niit (fst e) = true /\ q = to_v4 (fst e))).
Proof.
  induction l as [|p l IH]; intros set s; cbn [fold_left].
  - exists (k_46 s). split; [now rewrite with_k_id|]. intros q. cbn [In]. destruct set.
    + split; [intros H; left; auto|]. intros [(_ & [H|(_ & e & [] & _)])|(H & _)]; [exact H|discriminate].
    + split; [intros H; right; split; [reflexivity|]; split; [exact H|intros (e & [] & _)]|]. intros [(H & _)|(_ & H & _)]; [discriminate|exact H].
  - destruct (is_niit (fst p)) eqn:M.
    + destruct (IH set (os46 (to_v4 (fst p)) set s)) as (k & E & K). exists k. split; [rewrite E; reflexivity|].
      intros q. rewrite K. unfold os46 at 1 2 3 4. cbn [with_k k_46 d_4 n_i4]. rewrite !change_in. cbn [In].
      destruct set.
      * split.
        -- intros [(_ & [[(_ & [H|(H & ->)])|(H & _)]|(H & e & I & H2)])|(H & _)]; try discriminate; left; (split; [reflexivity|]); auto.
           ++ right. split; [exact H|]. exists p. auto.
           ++ right. split; [exact H|]. exists e. auto.
        -- intros [(_ & [H|(H & e & [->|I] & B & ->)])|(H & _)]; try discriminate; left; (split; [reflexivity|]).
           ++ left. left. auto.
           ++ left. left. auto.
           ++ right. split; [exact H|]. exists e. auto.
      * split.
        -- intros [(H & _)|(_ & [(H & _)|(_ & H & N)] & N2)]; try discriminate. right. split; [reflexivity|]. split; [exact H|].
           intros (e & [->|I] & B & Q); [now apply N|]. apply N2. exists e. auto.
        -- intros [(H & _)|(_ & H & N)]; [discriminate|]. right. split; [reflexivity|]. split.
           ++ right. split; [reflexivity|]. split; [exact H|]. intros ->. apply N. exists p. auto.
           ++ intros (e & I & B). apply N. exists e. auto.
    + destruct (IH set s) as (k & E & K). exists k. split; [exact E|]. intros q. rewrite K. cbn [In]. destruct set.
      * split; intros [(_ & [H|(H & e & I & B & Q)])|(H & _)]; try discriminate; left; (split; [reflexivity|]); auto; right; (split; [exact H|]).
        -- exists e. auto.
        -- destruct I as [->|I]; [congruence|]. exists e. auto.
      * split; intros [(H & _)|(_ & H & N)]; try discriminate; right; (split; [reflexivity|]); (split; [exact H|]).
        -- intros (e & [->|I] & B & Q); [congruence|]. apply N. exists e. auto.
        -- intros (e & I & B). apply N. exists e. auto.
Qed.

(** * The invariant *)
Record inv (i4 i6 : Z) (s : nst) : Prop := {
  v_use : n_use s = true; v_i4 : n_i4 s = i4; v_i6 : n_i6 s = i6;
  v_a4 : n_a4 s = ready (d_4 s) i4; v_a6 : n_a6 s = ready (d_6 s) i6;
  v_d4 : forall i b, d_4 s = Some (i, b) -> i = i4; v_d6 : forall i b, d_6 s = Some (i, b) -> i = i6;
  v_tree : Forall (fun e => v6 (fst e)) (n_tree s); v_hna : Forall v6 (n_hna s);
  v_in : forall p q, n_a4 s && n_a6 s = true -> In (p, true) (n_tree s) -> stands_for p q -> In q (k_46 s);
  v_46 : forall q, In q (k_46 s) -> n_a4 s && n_a6 s = true /\ exists p b, In (p, b) (n_tree s) /\ stands_for p q;
  v_64 : forall p, In p (k_64 s) <-> n_a4 s && n_a6 s = true /\ In p (n_hna s) /\ mapped p }.

Lemma nil_of : forall (l : list prefix), (forall q, ~ In q l) -> l = [].
Proof. intros [|x l] H; [reflexivity|]. destruct (H x). now left. Qed.

Lemma inv_right : forall i4 i6 s, inv i4 i6 s -> right s.
Proof.
  intros i4 i6 s V.
  assert (U : both_up s <-> n_a4 s && n_a6 s = true).
  { rewrite (v_a4 _ _ _ V), (v_a6 _ _ _ V). unfold both_up, up_dev, ready. split.
    - intros ((i & E) & (j & F)). rewrite E, F. pose proof (v_d4 _ _ _ V _ _ E). pose proof (v_d6 _ _ _ V _ _ F). lia.
    - destruct (d_4 s) as [[i b]|]; [|discriminate]. destruct (d_6 s) as [[j c]|]; [|intros H; apply andb_prop in H; destruct H; discriminate].
      intros H. apply andb_prop in H. destruct H as (H1 & H2). apply andb_prop in H1. apply andb_prop in H2. destruct H1 as (_ & ->). destruct H2 as (_ & ->).
      split; eexists; reflexivity. }
  split.
  - intros B. apply U in B. split; [intros p q; apply (v_in _ _ _ V p q B)|]. split; [intros q H; apply (v_46 _ _ _ V q H)|].
    intros p. rewrite (v_64 _ _ _ V). tauto.
  - intros N. split; apply nil_of; intros q H; apply N, U.
    + apply (v_46 _ _ _ V q H).
    + apply (v_64 _ _ _ V q) in H. tauto.
Qed.

Lemma mapped_hna : forall i4 i6 s p, Forall v6 (n_hna s) -> inv i4 i6 s \/ True ->
  (In p (n_hna s) /\ ip_prefix_is_mappedv4 p = true <-> In p (n_hna s) /\ mapped p).
Proof.
  intros i4 i6 s p F _. rewrite Forall_forall in F. split; intros (I & M); (split; [exact I|]); apply hna_mapped; auto.
Qed.
Lemma mapped_tree : forall t q, Forall (fun e => v6 (fst e)) t ->
  ((exists e : prefix * bool, In e t /\ is_niit (fst e) = true /\ q = to_v4 (fst e)) <-> exists p b, In (p, b) t /\ stands_for p q).
Proof.
  intros t q F. rewrite Forall_forall in F. split.
  - intros ([p b] & I & M & E). exists p, b. split; [exact I|]. apply niit_iff; [exact (F _ I)|]. auto.
  - intros (p & b & I & S). exists (p, b). split; [exact I|]. cbn [fst]. apply (niit_iff p q (F _ I)) in S. exact S.
Qed.

(** a message to the handler, after the device has changed *)
Record between (i4 i6 : Z) (a4 a6 : bool) (s : nst) : Prop := {
  b_use : n_use s = true; b_i4 : n_i4 s = i4; b_i6 : n_i6 s = i6;
  b_a4 : a4 = ready (d_4 s) i4; b_a6 : a6 = ready (d_6 s) i6;
  b_d4 : forall i b, d_4 s = Some (i, b) -> i = i4; b_d6 : forall i b, d_6 s = Some (i, b) -> i = i6;
  b_tree : Forall (fun e => v6 (fst e)) (n_tree s); b_hna : Forall v6 (n_hna s);
  b_in : forall p q, n_a4 s && n_a6 s && a4 = true -> In (p, true) (n_tree s) -> stands_for p q -> In q (k_46 s);
  b_46 : forall q, In q (k_46 s) -> n_a4 s && n_a6 s && a4 = true /\ exists p b, In (p, b) (n_tree s) /\ stands_for p q;
  b_64 : forall p, In p (k_64 s) <-> n_a4 s && n_a6 s && a6 = true /\ In p (n_hna s) /\ mapped p }.

Lemma settled : forall i4 i6 i up s, inv i4 i6 s -> (i = i4 -> up = n_a4 s) -> (i = i6 -> up = n_a6 s) -> ifchange i up s = s.
Proof.
  intros i4 i6 i up s V H4 H6. unfold ifchange. rewrite (v_i4 _ _ _ V), (v_i6 _ _ _ V).
  replace (if i =? i4 then up else n_a4 s) with (n_a4 s) by (destruct (Z.eqb_spec i i4); [symmetry; auto|reflexivity]).
  replace (if i =? i6 then up else n_a6 s) with (n_a6 s) by (destruct (Z.eqb_spec i i6); [symmetry; auto|reflexivity]).
  rewrite Bool.eqb_reflx. destruct s; reflexivity.
Qed.
Lemma handler_ok : forall i4 i6 a4 a6 i up s, i4 <> i6 -> between i4 i6 a4 a6 s ->
  (i = i4 /\ up = a4 /\ n_a6 s = a6) \/ (i = i6 /\ up = a6 /\ n_a4 s = a4) ->
  inv i4 i6 (ifchange i up s).
Proof.
  intros i4 i6 a4 a6 i up s NE B C. unfold ifchange. rewrite (b_i4 _ _ _ _ _ B), (b_i6 _ _ _ _ _ B).
  assert (F4 : (if i =? i4 then up else n_a4 s) = a4).
  { destruct C as [(-> & -> & _)|(-> & _ & E)]; [now rewrite Z.eqb_refl|]. destruct (Z.eqb_spec i6 i4); [congruence|exact E]. }
  assert (F6 : (if i =? i6 then up else n_a6 s) = a6).
  { destruct C as [(-> & _ & E)|(-> & -> & _)]; [|now rewrite Z.eqb_refl]. destruct (Z.eqb_spec i4 i6); [congruence|exact E]. }
  assert (One : n_a4 s = a4 \/ n_a6 s = a6) by (destruct C as [(_ & _ & E)|(_ & _ & E)]; auto).
  rewrite F4, F6. clear C F4 F6. destruct B as [Bu B4 B6 Ba4 Ba6 Bd4 Bd6 Bt Bh Bi B46 B64].
  set (f := with_flags s a4 a6).
  destruct (Bool.eqb (n_a4 s && n_a6 s) (a4 && a6)) eqn:Q.
  - apply Bool.eqb_prop in Q.
    assert (A4 : n_a4 s && n_a6 s && a4 = a4 && a6) by (rewrite Q; destruct a4, a6; reflexivity).
    assert (A6 : n_a4 s && n_a6 s && a6 = a4 && a6) by (rewrite Q; destruct a4, a6; reflexivity).
    constructor; unfold f; cbn; try assumption.
    + intros p q H. rewrite <- A4 in H. now apply Bi.
    + intros q H. rewrite <- A4. now apply B46.
    + intros p. rewrite <- A6. apply B64.
  - apply Bool.eqb_false_iff in Q. destruct (n_a4 s && n_a6 s) eqn:Old; cbn [negb].
    + (* the routes go *)
      assert (New : a4 && a6 = false) by (destruct (a4 && a6); congruence).
      assert (K46 : a4 = false -> forall q, ~ In q (k_46 s)) by (intros E q H; apply B46 in H; rewrite E, andb_false_r in H; destruct H; discriminate).
      assert (K64 : a6 = false -> forall q, ~ In q (k_64 s)) by (intros E q H; apply B64 in H; rewrite E, andb_false_r in H; destruct H; discriminate).
      unfold cleanup. change (n_a6 f) with a6. destruct a6.
      * (* niit4to6 is down *)
        assert (E4 : a4 = false) by (rewrite andb_true_r in New; exact New). cbn [negb]. unfold hna_routes. change (n_hna f) with (n_hna s).
        destruct (hna_loop (n_hna s) false f) as (k & E & K). rewrite E.
        assert (Kn : k = []).
        { apply nil_of. intros q H. apply K in H. destruct H as [(H & _)|(_ & H & N)]; [discriminate|]. apply N.
          change (k_64 f) with (k_64 s) in H. apply B64 in H. destruct H as (_ & I & M). split; [exact I|]. apply hna_mapped; [|exact M].
          rewrite Forall_forall in Bh. now apply Bh. }
        subst k. unfold refresh. cbn [negb andb with_k n_a4]. change (n_a4 f) with a4. rewrite E4. cbn [negb].
        constructor; unfold f; cbn; try assumption; rewrite ?E4; cbn [andb]; try congruence.
        -- intros q H. now apply (K46 E4) in H.
        -- intros p. split; [intros []|intros (H & _); discriminate].
      * cbn [negb]. unfold refresh. cbn [negb andb]. change (n_a4 f) with a4. destruct a4; cbn [negb].
        -- change (n_tree f) with (n_tree s). destruct (tree_loop (n_tree s) false f) as (k & E & K). rewrite E.
           assert (Kn : k = []).
           { apply nil_of. intros q H. apply K in H. destruct H as [(H & _)|(_ & H & N)]; [discriminate|]. apply N.
             change (k_46 f) with (k_46 s) in H. apply B46 in H. destruct H as (_ & H). now apply mapped_tree. }
           subst k. constructor; unfold f; cbn; try assumption; try congruence.
           intros q [].
        -- constructor; unfold f; cbn; try assumption; try congruence.
    + (* the routes come *)
      assert (New : a4 && a6 = true) by (destruct (a4 && a6); congruence). apply andb_prop in New. destruct New as (E4 & E6). subst a4 a6.
      assert (K46 : forall q, ~ In q (k_46 s)) by (intros q H; apply B46 in H; destruct H as (H & _); discriminate).
      assert (K64 : forall q, ~ In q (k_64 s)) by (intros q H; apply B64 in H; destruct H as (H & _); discriminate).
      unfold setup. change (n_a4 f) with (ready (d_4 s) i4). change (n_a6 f) with (ready (d_6 s) i6).
      rewrite E4, E6. cbn [negb orb]. unfold hna_routes. change (n_hna f) with (n_hna s).
      destruct (hna_loop (n_hna s) true f) as (k & E & K). rewrite E. unfold refresh. cbn [negb andb with_k n_a4 n_a6 n_tree].
      change (n_a4 f) with (ready (d_4 s) i4). change (n_a6 f) with (ready (d_6 s) i6). rewrite E4, E6. cbn [negb orb].
      change (n_tree f) with (n_tree s).
      destruct (tree_loop (n_tree s) true (with_k f (k_46 f) k)) as (k' & E' & K'). rewrite E'.
      constructor; unfold f; cbn; try assumption; try reflexivity; rewrite ?E4, ?E6; try reflexivity.
      * intros p q _ I S. apply K'. left. split; [reflexivity|]. right. cbn. rewrite B4. split; [exact E4|]. apply mapped_tree; [exact Bt|]. exists p, true. auto.
      * intros q H. split; [reflexivity|]. apply K' in H. destruct H as [(_ & [H|(_ & H)])|(H & _)]; [now apply K46 in H| |discriminate]. now apply mapped_tree in H.
      * intros p. rewrite K. cbn. rewrite B6, E6. pose proof (mapped_hna i4 i6 s p Bh (or_intror I)) as M. split.
        -- intros [(_ & [H|(_ & H)])|(H & _)]; [now apply K64 in H| |discriminate]. split; [reflexivity|]. now apply M.
        -- intros (_ & H). left. split; [reflexivity|]. right. split; [reflexivity|]. now apply M.
Qed.

(** * Events *)
Lemma dev_keep : forall i up s, d_4 (ifchange i up s) = d_4 s /\ d_6 (ifchange i up s) = d_6 s /\ n_use (ifchange i up s) = n_use s.
Proof.
  assert (H : forall b s, d_4 (hna_routes b s) = d_4 s /\ d_6 (hna_routes b s) = d_6 s /\ n_use (hna_routes b s) = n_use s).
  { intros b s. unfold hna_routes. destruct (hna_loop (n_hna s) b s) as (k & E & _). rewrite E. now cbn. }
  assert (R : forall b s, d_4 (refresh b s) = d_4 s /\ d_6 (refresh b s) = d_6 s /\ n_use (refresh b s) = n_use s).
  { intros b s. unfold refresh. destruct (b && _); [auto|]. destruct (negb b && _); [auto|].
    destruct (tree_loop (n_tree s) b s) as (k & E & _). rewrite E. now cbn. }
  intros i up s. unfold ifchange. destruct (Bool.eqb _ _); [now cbn|].
  set (f := with_flags _ _ _). assert (F : d_4 f = d_4 s /\ d_6 f = d_6 s /\ n_use f = n_use s) by now cbn. destruct F as (<- & <- & <-).
  destruct (negb (n_a4 s && n_a6 s)).
  - destruct (R true (setup f)) as (-> & -> & ->). unfold setup. destruct (_ || _); [auto|apply H].
  - destruct (R false (cleanup f)) as (-> & -> & ->). unfold cleanup. destruct (negb _); [auto|apply H].
Qed.
Lemma told : forall i4 i6 i up s, i4 <> i6 -> between i4 i6 (ready (d_4 s) i4) (ready (d_6 s) i6) s ->
  (i = i4 /\ up = ready (d_4 s) i4 /\ n_a6 s = ready (d_6 s) i6) \/ (i = i6 /\ up = ready (d_6 s) i6 /\ n_a4 s = ready (d_4 s) i4) ->
  inv i4 i6 (tell [(i, up)] s).
Proof.
  intros i4 i6 i up s NE B C. unfold tell, trigger. cbn [fold_left fst snd]. rewrite (b_use _ _ _ _ _ B).
  pose proof (handler_ok i4 i6 _ _ i up s NE B C) as V. destruct (dev_keep i up s) as (K4 & K6 & _).
  rewrite (settled i4 i6); [exact V|exact V| |].
  - intros ->. rewrite (v_a4 _ _ _ V), K4. destruct C as [(_ & H & _)|(H & _)]; [exact H|congruence].
  - intros ->. rewrite (v_a6 _ _ _ V), K6. destruct C as [(H & _)|(_ & H & _)]; [congruence|exact H].
Qed.
Lemma survive_in : forall old new l q i, (forall j b, old = Some (j, b) -> j = i) -> (forall j b, new = Some (j, b) -> j = i) ->
  (In q (survive old new l) <-> In q l /\ ready old i && ready new i = true).
Proof.
  intros old new l q i O N. unfold survive, ready.
  destruct old as [[j b]|]; [|cbn; intuition discriminate]. rewrite (O _ _ eq_refl), Z.eqb_refl.
  destruct new as [[k c]|]; [|rewrite andb_false_r; destruct b; cbn; intuition discriminate].
  rewrite (N _ _ eq_refl), Z.eqb_refl. destruct b, c; cbn; intuition discriminate.
Qed.
Lemma has_iff : forall p t, has p t = true -> exists b, In (p, b) t.
Proof.
  intros p t H. unfold has in H. apply existsb_exists in H. destruct H as ([x b] & I & H). cbn [fst] in H. destruct (peq x p) as [->|]; [|discriminate].
  now exists b.
Qed.
Lemma mark_in : forall p b t p' b', In (p', b') (mark p b t) <->
  (p' = p /\ b' = b /\ exists c, In (p, c) t) \/ (p' <> p /\ In (p', b') t).
Proof.
  intros p b t p' b'. unfold mark. rewrite in_map_iff. split.
  - intros ([x c] & E & I). cbn [fst] in E. destruct (peq x p) as [->|N]; inversion E; subst; [left|right]; eauto.
  - intros [(-> & -> & c & I)|(N & I)]; [exists (p, c)|exists (p', b')]; cbn [fst]; (split; [|exact I]).
    + destruct (peq p p); congruence.
    + destruct (peq p' p); congruence.
Qed.
Lemma drop_in : forall p t p' b', In (p', b') (drop p t) <-> p' <> p /\ In (p', b') t.
Proof.
  intros p t p' b'. unfold drop. rewrite filter_In. cbn [fst]. destruct (peq p' p); intuition (try discriminate; try congruence).
Qed.
Lemma forall_mark : forall p b t, Forall (fun e : prefix * bool => v6 (fst e)) t -> Forall (fun e : prefix * bool => v6 (fst e)) (mark p b t).
Proof.
  intros p b t F. unfold mark. rewrite Forall_forall in *. intros e I. apply in_map_iff in I. destruct I as (x & E & I). apply F in I.
  destruct (peq (fst x) p); subst e; exact I.
Qed.
Lemma forall_drop : forall p t, Forall (fun e : prefix * bool => v6 (fst e)) t -> Forall (fun e : prefix * bool => v6 (fst e)) (drop p t).
Proof. intros p t F. unfold drop. rewrite Forall_forall in *. intros e I. apply filter_In in I. now apply F. Qed.

Lemma step_ok : forall i4 i6 s e, i4 <> i6 -> inv i4 i6 s -> tame i4 i6 e -> inv i4 i6 (step s e).
Proof.
  intros i4 i6 s e NE V T. pose proof V as V0. destruct V as [Vu V4 V6 Va4 Va6 Vd4 Vd6 Vt Vh Vi V46 V64].
  assert (V6t : forall p b, In (p, b) (n_tree s) -> v6 p) by (intros p b I; rewrite Forall_forall in Vt; exact (Vt _ I)).
  destruct e as [p|p ok|p ok|p ok|p|p ad|d|d]; cbn [step].
  - destruct (has p (n_tree s)); [exact V0|]. constructor; cbn -[change]; try assumption.
    + now constructor.
    + intros p' q A [H|H]; [inversion H|]. now apply (Vi p').
    + intros q H. apply V46 in H. destruct H as (A & p' & b & I & S). split; [exact A|]. exists p', b. auto.
  - destruct (has p (n_tree s) && ok) eqn:G; [|exact V0]. apply andb_prop in G. destruct G as (G & _). apply has_iff in G. destruct G as (b & G).
    unfold handle_route. cbn [with_tree n_use n_a4 n_a6]. rewrite Vu. cbn [andb].
    destruct (n_a4 s && n_a6 s && is_niit p) eqn:C.
    + apply andb_prop in C. destruct C as (A & M).
      constructor; cbn -[change]; try assumption; try (now apply forall_mark).
      * intros p' q _ I S. apply change_in. left. split; [reflexivity|]. apply mark_in in I. destruct I as [(-> & _ & c & I)|(N & I)].
        -- right. split; [|now apply (niit_iff _ _ (V6t _ _ I)) in S]. rewrite V4, <- Va4. apply andb_prop in A. tauto.
        -- left. now apply (Vi p').
      * intros q H. apply change_in in H. destruct H as [(_ & [H|(_ & ->)])|(H & _)]; [| |discriminate].
        -- apply V46 in H. destruct H as (_ & p' & b' & I & S). split; [exact A|]. destruct (peq p' p) as [->|N].
           ++ exists p, true. split; [|exact S]. apply mark_in. left. eauto.
           ++ exists p', b'. split; [|exact S]. apply mark_in. right. auto.
        -- split; [exact A|]. exists p, true. split; [apply mark_in; left; eauto|]. apply niit_iff; [now apply (V6t _ b)|auto].
    + constructor; cbn -[change]; try assumption; try (now apply forall_mark).
      * intros p' q A I S. apply mark_in in I. destruct I as [(-> & _ & c & I)|(N & I)]; [|now apply (Vi p')].
        rewrite A in C. apply (niit_iff _ _ (V6t _ _ I)) in S. destruct S as (S & _). rewrite S in C. discriminate.
      * intros q H. apply V46 in H. destruct H as (A & p' & b' & I & S). split; [exact A|]. destruct (peq p' p) as [->|N].
        -- exists p, true. split; [|exact S]. apply mark_in. left. eauto.
        -- exists p', b'. split; [|exact S]. apply mark_in. right. auto.
  - destruct (has p (n_tree s) && ok) eqn:G; [|exact V0]. apply andb_prop in G. destruct G as (G & _). apply has_iff in G. destruct G as (b & G).
    unfold handle_route. cbn [with_tree n_use n_a4 n_a6]. rewrite Vu. cbn [andb].
    assert (K : forall q, In q (k_46 s) -> n_a4 s && n_a6 s = true /\ exists p' b', In (p', b') (mark p false (n_tree s)) /\ stands_for p' q).
    { intros q H. apply V46 in H. destruct H as (A & p' & b' & I & S). split; [exact A|]. destruct (peq p' p) as [->|N].
      - exists p, false. split; [|exact S]. apply mark_in. left. eauto.
      - exists p', b'. split; [|exact S]. apply mark_in. right. auto. }
    destruct (n_a4 s && n_a6 s && is_niit p) eqn:C.
    + apply andb_prop in C. destruct C as (A & M).
      constructor; cbn -[change]; try assumption; try (now apply forall_mark).
      * intros p' q _ I S. apply change_in. right. split; [reflexivity|]. apply mark_in in I. destruct I as [(_ & H & _)|(N & I)]; [discriminate|].
        split; [now apply (Vi p')|]. intros ->. apply N. eapply v4_inj; [exact S|]. apply niit_iff; [now apply (V6t _ b)|auto].
      * intros q H. apply change_in in H. destruct H as [(H & _)|(_ & H & _)]; [discriminate|]. now apply K.
    + constructor; cbn -[change]; try assumption; try (now apply forall_mark).
      intros p' q A I S. apply mark_in in I. destruct I as [(_ & H & _)|(N & I)]; [discriminate|]. now apply (Vi p').
  - destruct (has p (n_tree s) && ok) eqn:G; [|exact V0]. apply andb_prop in G. destruct G as (G & _). apply has_iff in G. destruct G as (b & G).
    unfold handle_route. rewrite Vu. cbn [andb].
    destruct (n_a4 s && n_a6 s && is_niit p) eqn:C.
    + apply andb_prop in C. destruct C as (A & M).
      constructor; cbn -[change]; try assumption; try (now apply forall_drop).
      * intros p' q _ I S. apply change_in. right. split; [reflexivity|]. apply drop_in in I. destruct I as (N & I).
        split; [now apply (Vi p')|]. intros ->. apply N. eapply v4_inj; [exact S|]. apply niit_iff; [now apply (V6t _ b)|auto].
      * intros q H. apply change_in in H. destruct H as [(H & _)|(_ & H & Nq)]; [discriminate|]. apply V46 in H. destruct H as (_ & p' & b' & I & S).
        split; [exact A|]. exists p', b'. split; [|exact S]. apply drop_in. split; [|exact I]. intros ->. apply Nq.
        now apply (niit_iff _ _ (V6t _ _ I)) in S.
    + constructor; cbn -[change]; try assumption; try (now apply forall_drop).
      * intros p' q A I S. apply drop_in in I. destruct I as (N & I). now apply (Vi p').
      * intros q H. apply V46 in H. destruct H as (A & p' & b' & I & S). split; [exact A|]. exists p', b'. split; [|exact S]. apply drop_in.
        split; [|exact I]. intros ->. rewrite A in C. apply (niit_iff _ _ (V6t _ _ I)) in S. destruct S as (S & _). rewrite S in C. discriminate.
  - destruct T.
  - destruct T.
  - assert (Dn : forall j b, d = Some (j, b) -> j = i4) by (intros j b ->; exact T).
    pose proof (survive_in (d_4 s) d (k_46 s)) as SV.
    assert (B : between i4 i6 (ready d i4) (ready (d_6 s) i6) (with_dev (with_k s (survive (d_4 s) d (k_46 s)) (k_64 s)) d (d_6 s))).
    { constructor; cbn -[change]; try assumption; try reflexivity.
      - intros p q A I S. apply (SV q i4 Vd4 Dn). rewrite <- Va4. apply andb_prop in A. destruct A as (A & R). split; [now apply (Vi p)|].
        apply andb_prop in A. destruct A as (-> & _). exact R.
      - intros q H. apply (SV q i4 Vd4 Dn) in H. destruct H as (H & R). apply V46 in H. destruct H as (A & H). split; [|exact H].
        rewrite A. apply andb_prop in R. tauto.
      - intros p. rewrite V64, <- Va6. destruct (n_a4 s), (n_a6 s); tauto. }
    unfold messages. destruct (d_4 s) as [[j b]|] eqn:E4.
    + assert (j = i4) by (eapply Vd4; reflexivity). destruct d as [[k c]|].
      * assert (k = i4) by (eapply Dn; reflexivity). subst k. subst j. rewrite Z.eqb_refl. apply told; [exact NE|exact B|]. left. cbn. rewrite Z.eqb_refl. auto.
      * subst j. apply told; [exact NE|exact B|]. left. cbn. auto.
    + destruct d as [[k c]|].
      * assert (k = i4) by (eapply Dn; reflexivity). subst k. apply told; [exact NE|exact B|]. left. cbn. rewrite Z.eqb_refl. auto.
      * cbn [ready] in Va4. constructor; cbn -[change]; try assumption; rewrite Va4; cbn [andb]; try discriminate.
        intros q [].
  - assert (Dn : forall j b, d = Some (j, b) -> j = i6) by (intros j b ->; exact T).
    pose proof (survive_in (d_6 s) d (k_64 s)) as SV.
    assert (B : between i4 i6 (ready (d_4 s) i4) (ready d i6) (with_dev (with_k s (k_46 s) (survive (d_6 s) d (k_64 s))) (d_4 s) d)).
    { constructor; cbn -[change]; try assumption; try reflexivity.
      - intros p q A I S. apply (Vi p); [|exact I|exact S]. apply andb_prop in A. tauto.
      - intros q H. apply V46 in H. destruct H as (A & H). split; [|exact H]. rewrite A, <- Va4. apply andb_prop in A. tauto.
      - intros p. rewrite (SV p i6 Vd6 Dn), V64, <- Va6. destruct (n_a4 s), (n_a6 s), (ready d i6); cbn; intuition discriminate. }
    unfold messages. destruct (d_6 s) as [[j b]|] eqn:E6.
    + assert (j = i6) by (eapply Vd6; reflexivity). destruct d as [[k c]|].
      * assert (k = i6) by (eapply Dn; reflexivity). subst k. subst j. rewrite Z.eqb_refl. apply told; [exact NE|exact B|]. right. cbn. rewrite Z.eqb_refl. auto.
      * subst j. apply told; [exact NE|exact B|]. right. cbn. auto.
    + destruct d as [[k c]|].
      * assert (k = i6) by (eapply Dn; reflexivity). subst k. apply told; [exact NE|exact B|]. right. cbn. rewrite Z.eqb_refl. auto.
      * cbn [ready] in Va6. constructor; cbn -[change]; try assumption.
        intros p. split; [intros []|]. intros (A & _). rewrite Va6, andb_false_r in A. discriminate.
Qed.
Lemma start_ok : forall i4 u4 i6 u6 hna, i4 <> i6 -> Forall v6 hna -> inv i4 i6 (start (Some (i4, u4)) (Some (i6, u6)) hna).
Proof.
  intros i4 u4 i6 u6 hna NE F. unfold start. set (s := {| n_use := true |}). unfold setup. change (n_a4 s) with u4. change (n_a6 s) with u6.
  assert (D4 : forall i b, d_4 s = Some (i, b) -> i = i4) by (cbn; congruence). assert (D6 : forall i b, d_6 s = Some (i, b) -> i = i6) by (cbn; congruence).
  destruct (u4 && u6) eqn:U.
  - apply andb_prop in U. destruct U as (-> & ->). cbn [negb orb]. unfold hna_routes. destruct (hna_loop (n_hna s) true s) as (k & E & K). rewrite E.
    constructor; cbn -[change]; try assumption; try reflexivity; rewrite ?Z.eqb_refl; try reflexivity.
    + constructor.
    + intros p q _ [].
    + intros q [].
    + intros p. rewrite K. cbn. rewrite Z.eqb_refl. cbn. pose proof (mapped_hna i4 i6 s p F (or_intror I)) as M. cbn in M. split.
      * intros [(_ & [[]|(_ & H)])|(H & _)]; [|discriminate]. split; [reflexivity|]. now apply M.
      * intros (_ & H). left. split; [reflexivity|]. right. split; [reflexivity|]. now apply M.
  - replace (negb u4 || negb u6) with true by (destruct u4, u6; auto; discriminate).
    constructor; cbn -[change]; try assumption; try reflexivity; rewrite ?Z.eqb_refl; try reflexivity.
    + constructor.
    + intros p q _ [].
    + intros q [].
    + intros p. split; [intros []|]. intros (A & _). congruence.
Qed.
Lemma run_ok : forall i4 i6 l s, i4 <> i6 -> inv i4 i6 s -> Forall (tame i4 i6) l -> inv i4 i6 (run s l).
Proof.
  intros i4 i6 l. induction l as [|e l IH]; intros s NE V F; [exact V|]. inversion F; subst. cbn [run fold_left]. apply IH; auto. now apply step_ok.
Qed.

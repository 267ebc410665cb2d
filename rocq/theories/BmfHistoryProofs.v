(** Proofs about the history of packets of the BMF plugin. *)
From Verif Require Import Base SchedTime LinkSetProofs BmfHistory BmfHistorySpec.

(** * The table *)
Lemma hash_range : forall c, 0 <= hash c < 4096.
Proof. intros c. unfold hash. change 4095 with (Z.ones 12). rewrite Z.land_ones by lia. apply Z.mod_pos_bound. reflexivity. Qed.
Lemma upd_length : forall h i x, length (upd i x h) = length h.
Proof. induction h as [|y h IH]; intros [|i] x; cbn; auto. Qed.
Lemma upd_nth : forall h i j x, (i < length h)%nat -> nth j (upd i x h) [] = if Nat.eq_dec i j then x else nth j h [].
Proof.
  induction h as [|y h IH]; intros i j x L; cbn [length] in L; [lia|]. destruct i as [|i], j as [|j]; cbn [upd nth].
  - destruct (Nat.eq_dec 0 0); congruence.
  - destruct (Nat.eq_dec 0 (S j)); congruence.
  - destruct (Nat.eq_dec (S i) 0); congruence.
  - rewrite IH by lia. destruct (Nat.eq_dec i j), (Nat.eq_dec (S i) (S j)); congruence.
Qed.
Definition bucket (c : Z) (h : history) : list entry := nth (Z.to_nat (hash c)) h [].
Lemma refresh_none : forall now c l, refresh now c l = None -> forall d, ~ In (c, d) l.
Proof.
  intros now c l. induction l as [|[x t] l IH]; intros H d; [intros []|]. cbn [refresh] in H. destruct (Z.eqb_spec x c) as [->|N]; [discriminate|].
  destruct (refresh now c l); [discriminate|]. intros [E|I]; [congruence|]. exact (IH eq_refl d I).
Qed.
Lemma refresh_some : forall now c l l', NoDup (map fst l) -> refresh now c l = Some l' ->
  map fst l' = map fst l /\ (exists d, In (c, d) l) /\ forall x d, In (x, d) l' <-> (x = c /\ d = getTimestamp now 3000) \/ (x <> c /\ In (x, d) l).
Proof.
  intros now c l. induction l as [|[y t] l IH]; intros l' N H; [discriminate|]. cbn [refresh] in H. cbn [map fst] in N. inversion N as [|? ? N1 N2]; subst.
  destruct (Z.eqb_spec y c) as [->|Y].
  - inversion H; subst. cbn [map fst In]. split; [reflexivity|]. split; [eauto|]. intros x d. split.
    + intros [E|I]; [inversion E; subst; auto|]. right. split; [|auto]. intros ->. apply N1. apply in_map_iff. now exists (c, d).
    + intros [(-> & ->)|(X & [E|I])]; [auto|congruence|auto].
  - destruct (refresh now c l) as [l2|]; [|discriminate]. inversion H; subst. destruct (IH l2 N2 eq_refl) as (M & (d0 & D) & K). cbn [map fst In]. split; [congruence|]. split; [eauto|].
    intros x d. rewrite K. split.
    + intros [E|[E|(X & I)]]; [inversion E; subst; auto|auto|auto].
    + intros [E|(X & [E|I])]; auto.
Qed.
Definition good (h : history) : Prop := length h = 4096%nat /\ forall i, (i < 4096)%nat -> NoDup (map fst (nth i h [])).
Lemma mark_ok : forall now c h, good h ->
  good (snd (check_and_mark now c h)) /\
  (fst (check_and_mark now c h) = true <-> exists d, In (c, d) (bucket c h)) /\
  forall x d, In (x, d) (bucket x (snd (check_and_mark now c h))) <-> (x = c /\ d = getTimestamp now 3000) \/ (x <> c /\ In (x, d) (bucket x h)).
Proof.
  intros now c h (L & N). unfold check_and_mark. pose proof (hash_range c) as R. fold (bucket c h).
  assert (Nc : NoDup (map fst (bucket c h))) by (apply N; lia).
  assert (Up : forall l, NoDup (map fst l) -> good (upd (Z.to_nat (hash c)) l h)).
  { intros l Nl. split; [now rewrite upd_length|]. intros i I. rewrite upd_nth by lia. destruct (Nat.eq_dec _ _); auto. }
  destruct (refresh now c (bucket c h)) as [l|] eqn:E; cbn [fst snd].
  - destruct (refresh_some _ _ _ _ Nc E) as (M & D & K). split; [apply Up; now rewrite M|]. split; [tauto|]. intros x d.
    unfold bucket at 1. rewrite upd_nth by lia. destruct (Nat.eq_dec (Z.to_nat (hash c)) (Z.to_nat (hash x))) as [H|H].
    + rewrite K. unfold bucket. rewrite H. tauto.
    + fold (bucket x h). split; [intros I; right; split; [congruence|exact I]|]. intros [(-> & _)|(_ & I)]; [congruence|exact I].
  - pose proof (refresh_none _ _ _ E) as A. split; [|split].
    + apply Up. cbn [map fst]. constructor; [|exact Nc]. intros I. apply in_map_iff in I. destruct I as ([y t] & Y & I). cbn in Y. subst y. exact (A _ I).
    + split; [discriminate|]. intros (d & I). now destruct (A d).
    + intros x d. unfold bucket at 1. rewrite upd_nth by lia. destruct (Nat.eq_dec (Z.to_nat (hash c)) (Z.to_nat (hash x))) as [H|H].
      * cbn [In]. unfold bucket. rewrite <- H. fold (bucket c h). split.
        -- intros [Q|I]; [inversion Q; subst; auto|]. right. split; [|exact I]. intros ->. exact (A _ I).
        -- intros [(-> & ->)|(_ & I)]; auto.
      * fold (bucket x h). split; [intros I; right; split; [congruence|exact I]|]. intros [(-> & _)|(_ & I)]; [congruence|exact I].
Qed.
Lemma nodup_filter : forall (f : entry -> bool) l, NoDup (map fst l) -> NoDup (map fst (filter f l)).
Proof.
  intros f l. induction l as [|[y t] l IH]; intros N; [constructor|]. cbn [map fst] in N. inversion N as [|? ? N1 N2]; subst. cbn [filter]. destruct (f (y, t)); [|auto].
  cbn [map fst]. constructor; [|auto]. intros I. apply N1. apply in_map_iff in I. destruct I as (e & E & I). apply filter_In in I. apply in_map_iff. exists e. tauto.
Qed.
Lemma prune_nth : forall now h i, nth i (prune now h) [] = filter (fun e => negb (isTimedOut now (snd e))) (nth i h []).
Proof. intros now h i. unfold prune. change [] with (filter (fun e : entry => negb (isTimedOut now (snd e))) []) at 1. apply map_nth. Qed.
Lemma prune_ok : forall now h, good h -> good (prune now h) /\
  forall x d, In (x, d) (bucket x (prune now h)) <-> In (x, d) (bucket x h) /\ isTimedOut now d = false.
Proof.
  intros now h (L & N). split; [split|].
  - unfold prune. now rewrite map_length.
  - intros i I. rewrite prune_nth. apply nodup_filter. auto.
  - intros x d. unfold bucket. rewrite prune_nth, filter_In. cbn [snd]. destruct (isTimedOut now d); intuition discriminate.
Qed.

(** * What was seen *)
Lemma snoc_inv : forall (l : list event) e before x after, l ++ [e] = before ++ x :: after ->
  (after = [] /\ x = e /\ before = l) \/ exists a, after = a ++ [e] /\ l = before ++ x :: a.
Proof.
  intros l e before x after H. destruct after as [|y after] using rev_ind.
  - left. apply app_inj_tail in H. destruct H. auto.
  - right. clear IHafter. change (before ++ x :: after ++ [y]) with (before ++ (x :: after) ++ [y]) in H. rewrite app_assoc in H. apply app_inj_tail in H. destruct H as (-> & ->).
    exists after. auto.
Qed.
Lemma ls_same : forall l t c T after, last_seen (l ++ [Seen t c]) T c after <-> T = t /\ after = [].
Proof.
  intros l t c T after. split.
  - intros ((before & E) & N). apply snoc_inv in E. destruct E as [(-> & E & _)|(a & -> & _)]; [inversion E; auto|].
    destruct (N t). apply in_or_app. right. now left.
  - intros (-> & ->). split; [now exists l|]. intros u [].
Qed.
Lemma ls_other : forall l e T c after, (forall t, e <> Seen t c) ->
  (last_seen (l ++ [e]) T c after <-> exists a, after = a ++ [e] /\ last_seen l T c a).
Proof.
  intros l e T c after D. split.
  - intros ((before & E) & N). apply snoc_inv in E. destruct E as [(-> & E & _)|(a & -> & ->)]; [now destruct (D T)|].
    exists a. split; [reflexivity|]. split; [now exists before|]. intros u I. apply (N u). apply in_or_app. now left.
  - intros (a & -> & (before & ->) & N). split; [exists before; now rewrite <- app_assoc|]. intros u I. apply in_app_or in I. destruct I as [I|[I|[]]]; [now apply (N u)|now apply (D u)].
Qed.
(** the entry for [c] is still there *)
Definition alive (l : list event) (T c : Z) : Prop :=
  exists after, last_seen l T c after /\ forall P, In (Prune P) after -> P < T + 3000.
Record inv (done : list event) (h : history) (cur last : Z) : Prop := {
  i_good : good h; i_time : last <= cur;
  i_in : forall c d, In (c, d) (bucket c h) <-> exists T, alive done T c /\ d = u32 (T + 3000);
  i_range : forall c T, alive done T c -> last - 3000 < T <= cur }.
Lemma stamp : forall t, getTimestamp (u32 t) 3000 = u32 (t + 3000).
Proof. intros t. unfold getTimestamp. apply u32_u32_add. Qed.
Lemma seen_ok : forall done h cur last t c, inv done h cur last -> cur <= t -> inv (done ++ [Seen t c]) (step h (Seen t c)) t last.
Proof.
  intros done h cur last t c I C. cbn [step]. destruct (mark_ok (u32 t) c h (i_good _ _ _ _ I)) as (G & _ & K).
  assert (A : forall T x, alive (done ++ [Seen t c]) T x <-> (x = c /\ T = t) \/ (x <> c /\ alive done T x)).
  { intros T x. unfold alive. destruct (Z.eq_dec x c) as [->|N].
    - split.
      + intros (after & S & _). apply ls_same in S. destruct S. auto.
      + intros [(_ & ->)|(N & _)]; [|congruence]. exists []. split; [apply ls_same; auto|intros P []].
    - assert (D : forall u, Seen t c <> Seen u x) by congruence. split.
      + intros (after & S & P). apply (ls_other _ _ _ _ _ D) in S. destruct S as (a & -> & S). right. split; [exact N|]. exists a. split; [exact S|].
        intros Q J. apply P. apply in_or_app. now left.
      + intros [(-> & _)|(_ & a & S & P)]; [congruence|]. exists (a ++ [Seen t c]). split; [apply (ls_other _ _ _ _ _ D); eauto|].
        intros Q J. apply in_app_or in J. destruct J as [J|[J|[]]]; [now apply P|discriminate]. }
  pose proof (i_time _ _ _ _ I) as It. constructor; [exact G|lia| |].
  - intros x d. rewrite K, stamp. split.
    + intros [(-> & ->)|(N & J)]; [exists t; split; [apply A; auto|reflexivity]|]. apply (i_in _ _ _ _ I) in J. destruct J as (T & J & ->). exists T. split; [apply A; auto|reflexivity].
    + intros (T & J & ->). apply A in J. destruct J as [(-> & ->)|(N & J)]; [auto|]. right. split; [exact N|]. apply (i_in _ _ _ _ I). eauto.
  - intros x T J. apply A in J. destruct J as [(-> & ->)|(_ & J)]; [lia|]. apply (i_range _ _ _ _ I) in J. lia.
Qed.
Lemma pruned_ok : forall done h cur last t, inv done h cur last -> cur <= t -> t - last < 2147480648 -> inv (done ++ [Prune t]) (step h (Prune t)) t t.
Proof.
  intros done h cur last t I C B. cbn [step]. destruct (prune_ok (u32 t) h (i_good _ _ _ _ I)) as (G & K).
  assert (D : forall x u, Prune t <> Seen u x) by (intros; discriminate).
  assert (A : forall T x, alive (done ++ [Prune t]) T x <-> alive done T x /\ t < T + 3000).
  { intros T x. unfold alive. split.
    - intros (after & S & P). apply (ls_other _ _ _ _ _ (D x)) in S. destruct S as (a & -> & S). split; [|apply P; apply in_or_app; right; now left].
      exists a. split; [exact S|]. intros Q J. apply P. apply in_or_app. now left.
    - intros ((a & S & P) & L). exists (a ++ [Prune t]). split; [apply (ls_other _ _ _ _ _ (D x)); eauto|].
      intros Q J. apply in_app_or in J. destruct J as [J|[J|[]]]; [now apply P|inversion J; subst; exact L]. }
  assert (Tm : forall T x, alive done T x -> (isTimedOut (u32 t) (u32 (T + 3000)) = false <-> t < T + 3000)).
  { intros T x J. apply (i_range _ _ _ _ I) in J. rewrite due_iff by lia. lia. }
  constructor; [exact G|lia| |].
  - intros x d. rewrite K, (i_in _ _ _ _ I). split.
    + intros ((T & J & ->) & O). exists T. split; [|reflexivity]. apply A. split; [exact J|]. now apply (Tm T x J).
    + intros (T & J & ->). apply A in J. destruct J as (J & O). split; [eauto|]. now apply (Tm T x J).
  - intros x T J. apply A in J. destruct J as (J & O). apply (i_range _ _ _ _ I) in J. lia.
Qed.
Lemma empty_ok : forall s, inv [] empty s s.
Proof.
  intros s. assert (N : forall T c, ~ alive [] T c) by (intros T c (after & ((before & E) & _) & _); destruct before; discriminate).
  assert (B : forall c, bucket c empty = []) by (intros c; unfold bucket, empty; apply nth_repeat).
  constructor; [|lia| |].
  - split; [apply repeat_length|]. intros i I. unfold empty. rewrite nth_repeat. constructor.
  - intros c d. rewrite B. split; [intros []|]. intros (T & A & _). now destruct (N T c).
  - intros c T A. now destruct (N T c).
Qed.
Lemma run_inv : forall l done h cur last, inv done h cur last -> paced cur last l -> exists cur' last', inv (done ++ l) (fold_left step l h) cur' last'.
Proof.
  induction l as [|e l IH]; intros done h cur last I P; [rewrite app_nil_r; eauto|]. cbn [fold_left].
  replace (done ++ e :: l) with ((done ++ [e]) ++ l) by now rewrite <- app_assoc. destruct e as [t c|t]; cbn [paced] in P.
  - destruct P as (C & _ & P). eapply IH; [|exact P]. eapply seen_ok; eauto.
  - destruct P as (C & B & P). eapply IH; [|exact P]. eapply pruned_ok; eauto.
Qed.
Lemma answer_ok : forall s l t c, paced s s l -> (answer l t c = true <-> exists T, alive l T c).
Proof.
  intros s l t c P. destruct (run_inv l [] empty s s (empty_ok s) P) as (cur & last & I). cbn [app] in I. change (fold_left step l empty) with (run l) in I.
  unfold answer. destruct (mark_ok (u32 t) c (run l) (i_good _ _ _ _ I)) as (_ & M & _). rewrite M. split.
  - intros (d & J). apply (i_in _ _ _ _ I) in J. destruct J as (T & J & _). eauto.
  - intros (T & J). exists (u32 (T + 3000)). apply (i_in _ _ _ _ I). eauto.
Qed.
(** times *)
Definition when (e : event) : Z := match e with Seen t _ => t | Prune t => t end.
Lemma paced_app : forall l cur last l', paced cur last (l ++ l') -> exists cur' last', cur <= cur' /\ paced cur' last' l' /\ Forall (fun e => when e <= cur') l.
Proof.
  induction l as [|e l IH]; intros cur last l' P; [exists cur, last; split; [lia|auto]|]. destruct e as [t c|t]; cbn [app paced] in P.
  - destruct P as (C & _ & P). destruct (IH _ _ _ P) as (cur' & last' & C' & P' & F). exists cur', last'. split; [lia|]. split; [exact P'|]. constructor; [exact C'|exact F].
  - destruct P as (C & _ & P). destruct (IH _ _ _ P) as (cur' & last' & C' & P' & F). exists cur', last'. split; [lia|]. split; [exact P'|]. constructor; [exact C'|exact F].
Qed.
Lemma recent : forall s l t c T after, paced s s (l ++ [Seen t c]) -> last_seen l T c after -> t < T + 3000 -> exists U, alive l U c.
Proof.
  intros s l t c T after P S L. exists T, after. split; [exact S|]. intros Q J. destruct S as ((before & E) & _).
  destruct (paced_app _ _ _ _ P) as (cur & last & _ & (C & _) & F). rewrite Forall_forall in F.
  assert (K : when (Prune Q) <= cur) by (apply F; rewrite E; apply in_or_app; right; now right). cbn in K. lia.
Qed.
Lemma paced_pre : forall l cur last l', paced cur last (l ++ l') -> paced cur last l.
Proof.
  induction l as [|e l IH]; intros cur last l' P; [exact I|]. destruct e as [t c|t]; cbn [app paced] in *; destruct P as (A & B & P); split; auto; split; auto; eapply IH; exact P.
Qed.

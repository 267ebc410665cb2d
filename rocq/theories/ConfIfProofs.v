(** Proofs about the options of the interfaces. *)
From Verif Require Import Base ConfIf ConfIfSpec.

Lemma last_write_app : forall a b p,
  last_write (a ++ b) p = match last_write b p with Some v => Some v | None => last_write a p end.
Proof.
  induction a as [|x r IH]; intros b p; cbn [app last_write].
  - destruct (last_write b p); reflexivity.
  - rewrite IH. destruct (last_write b p); reflexivity.
Qed.

Lemma mults_of_app : forall a b, mults_of (a ++ b) = mults_of b ++ mults_of a.
Proof.
  induction a as [|x r IH]; intros b; cbn [app mults_of].
  - now rewrite app_nil_r.
  - destruct x; rewrite IH; [reflexivity|now rewrite app_assoc].
Qed.

Lemma own_body_app : forall n a b, own_body n (a ++ b) = own_body n a ++ own_body n b.
Proof.
  induction a as [|x r IH]; intros b; cbn [app own_body]; [reflexivity|].
  destruct x; rewrite IH; [now rewrite app_assoc|reflexivity].
Qed.

Lemma def_body_app : forall a b,
  def_body (a ++ b) = match def_body b with Some x => Some x | None => def_body a end.
Proof.
  induction a as [|x r IH]; intros b; cbn [app def_body].
  - destruct (def_body b); reflexivity.
  - destruct x; rewrite IH; [reflexivity|]. destruct (def_body b); reflexivity.
Qed.

(** * Writing *)
Lemma write_ok : forall off b v, (off + length v <= length b)%nat ->
  exists b', write b off v = Some b' /\ length b' = length b /\
    forall p, nth p b' 0 = match gives (SSet off v) p with Some x => x | None => nth p b 0 end.
Proof.
  induction off as [|o IH]; intros b v H.
  - assert (W : write b 0 v = if Nat.leb (length v) (length b)
                              then Some (v ++ skipn (length v) b) else None) by (destruct b; reflexivity).
    rewrite W. destruct (Nat.leb_spec (length v) (length b)) as [L|L]; [|lia].
    exists (v ++ skipn (length v) b). split; [reflexivity|]. split.
    + rewrite app_length, skipn_length. lia.
    + intro p. cbn [gives Nat.leb]. rewrite Nat.sub_0_r.
      destruct (nth_error v p) as [x|] eqn:E.
      * rewrite app_nth1 by (apply nth_error_Some; congruence).
        now apply nth_error_nth.
      * apply nth_error_None in E. rewrite app_nth2 by lia.
        rewrite <- (firstn_skipn (length v) b) at 2.
        rewrite app_nth2; rewrite firstn_length_le by lia; [reflexivity|lia].
  - destruct b as [|x r]; cbn [length] in H; [lia|].
    destruct (IH r v ltac:(lia)) as (b' & E & L & N).
    exists (x :: b'). cbn [write]. rewrite E. cbn [option_map].
    split; [reflexivity|]. split; [cbn [length]; lia|].
    intros [|p]; cbn [nth].
    + cbn [gives Nat.leb]. reflexivity.
    + rewrite N. cbn [gives]. cbn [Nat.leb Nat.sub]. reflexivity.
Qed.

(** an entry is what the body says, on top of [c0] and [ci0] *)
Definition good (c0 ci0 : bytes) (i : pif) (B : list stm) : Prop :=
  length (p_cnf i) = 128%nat /\ length (p_cnfi i) = 128%nat /\
  (forall p, nth p (p_cnf i) 0 = match last_write B p with Some v => v | None => nth p c0 0 end) /\
  (forall p, nth p (p_cnfi i) 0 = match last_write B p with Some v => v | None => nth p ci0 0 end) /\
  p_mults i = mults_of B.

(** what a statement does to one entry *)
Definition effect (x : stm) : pif -> option pif :=
  match x with SSet off v => set_one off v | SMult m => mult_one m end.

Lemma effect_ok : forall x i c0 ci0 B, fits x -> good c0 ci0 i B ->
  exists i', effect x i = Some i' /\ p_name i' = p_name i /\
    forall c0 ci0 B, good c0 ci0 i B -> good c0 ci0 i' (B ++ [x]).
Proof.
  intros x i c0 ci0 B F G. destruct x as [off v|m]; cbn [effect].
  - destruct G as (L1 & L2 & _). unfold fits in F.
    destruct (write_ok off (p_cnf i) v ltac:(lia)) as (a & Ea & La & Na).
    destruct (write_ok off (p_cnfi i) v ltac:(lia)) as (b & Eb & Lb & Nb).
    unfold set_one. rewrite Ea, Eb. eexists. split; [reflexivity|]. split; [reflexivity|].
    intros c1 ci1 B1 (_ & _ & N1 & N2 & M). unfold good. cbn [p_cnf p_cnfi p_mults].
    repeat split; try lia.
    + intro p. rewrite Na, last_write_app. cbn [last_write].
      destruct (gives (SSet off v) p); [reflexivity|apply N1].
    + intro p. rewrite Nb, last_write_app. cbn [last_write].
      destruct (gives (SSet off v) p); [reflexivity|apply N2].
    + rewrite mults_of_app. cbn [mults_of app]. exact M.
  - unfold mult_one. eexists. split; [reflexivity|]. split; [reflexivity|].
    intros c1 ci1 B1 (L1 & L2 & N1 & N2 & M). unfold good. cbn [p_cnf p_cnfi p_mults].
    repeat split; try assumption.
    + intro p. rewrite last_write_app. cbn [last_write gives]. apply N1.
    + intro p. rewrite last_write_app. cbn [last_write gives]. apply N2.
    + rewrite mults_of_app. cbn [mults_of app]. now rewrite M.
Qed.

(** * The statements of a body *)
Definition len128 (i : pif) : Prop := exists c0 ci0 B, good c0 ci0 i B.

Definition follows (body : list stm) (i i' : pif) : Prop :=
  p_name i' = p_name i /\ len128 i' /\
  forall c0 ci0 B, good c0 ci0 i B -> good c0 ci0 i' (B ++ body).

Lemma first_k_ok : forall x k l, fits x -> (k <= length l)%nat ->
  Forall len128 (firstn k l) ->
  exists l', first_k k (effect x) l = Some l' /\
    Forall2 (follows [x]) (firstn k l) (firstn k l') /\ skipn k l' = skipn k l /\
    length l' = length l.
Proof.
  induction k as [|k IH]; intros l F H A.
  - exists l. cbn. repeat split; constructor.
  - destruct l as [|i r]; cbn [length] in H; [lia|].
    cbn [firstn] in A. inversion A as [|? ? G A']; subst.
    destruct (IH r F ltac:(lia) A') as (r' & E & X & S & L).
    pose proof G as G0. destruct G0 as (c0 & ci0 & B & G0).
    destruct (effect_ok x i c0 ci0 B F G0) as (i' & Ei & En & Eg).
    exists (i' :: r'). cbn [first_k]. rewrite Ei, E. split; [reflexivity|].
    cbn [firstn skipn length]. repeat split; try assumption; [|lia].
    constructor; [|exact X]. split; [exact En|]. split; [|exact Eg].
    exists c0, ci0, (B ++ [x]). now apply Eg.
Qed.

Lemma follows_trans : forall a b i j k,
  follows a i j -> follows b j k -> follows (a ++ b) i k.
Proof.
  intros a b i j k (N1 & _ & G1) (N2 & L2 & G2). split; [congruence|]. split; [exact L2|].
  intros c0 ci0 B G. rewrite app_assoc. apply G2, G1, G.
Qed.

Lemma Forall2_trans_gen : forall {A} (P Q R : A -> A -> Prop) l m n,
  (forall x y z, P x y -> Q y z -> R x z) ->
  Forall2 P l m -> Forall2 Q m n -> Forall2 R l n.
Proof.
  intros A P Q R l m n H F. revert n. induction F; intros n G; inversion G; subst; constructor; eauto.
Qed.

Lemma body_ok : forall body s, Forall fits body -> (t_cnt s <= length (t_ifs s))%nat ->
  Forall len128 (firstn (t_cnt s) (t_ifs s)) ->
  exists s', seqM stmt body s = Some s' /\ t_cnt s' = t_cnt s /\ t_defs s' = t_defs s /\
    Forall2 (follows body) (firstn (t_cnt s) (t_ifs s)) (firstn (t_cnt s) (t_ifs s')) /\
    skipn (t_cnt s) (t_ifs s') = skipn (t_cnt s) (t_ifs s) /\
    length (t_ifs s') = length (t_ifs s).
Proof.
  induction body as [|x r IH]; intros s F H A.
  - exists s. cbn [seqM]. repeat split.
    induction A as [|i l G A IHA]; constructor; [|exact IHA].
    split; [reflexivity|]. split; [exact G|]. intros. now rewrite app_nil_r.
  - inversion F as [|? ? Fx Fr]; subst.
    destruct (first_k_ok x (t_cnt s) (t_ifs s) Fx H A) as (l & E & X & S & L).
    set (s1 := {| t_ifs := l; t_cnt := t_cnt s; t_defs := t_defs s |}).
    assert (E1 : stmt x s = Some s1).
    { unfold stmt. change (match x with SSet off v => set_one off v | SMult m => mult_one m end)
        with (effect x). rewrite E. reflexivity. }
    destruct (IH s1 Fr) as (s' & E2 & C & D & X2 & S2 & L2).
    { cbn [t_cnt t_ifs s1]. lia. }
    { cbn [t_cnt t_ifs s1]. clear - X. induction X as [|a b la lb (_ & G & _) X IHX]; constructor; assumption. }
    exists s'. cbn [seqM]. rewrite E1. cbn [t_cnt t_ifs t_defs s1] in *.
    split; [exact E2|]. split; [exact C|]. split; [exact D|]. split; [|split; [congruence|lia]].
    eapply Forall2_trans_gen; [|exact X|exact X2]. intros a b c Fa Fb.
    change (x :: r) with ([x] ++ r). eapply follows_trans; eassumption.
Qed.

(** * Names *)
Lemma neqb_spec : forall a b, neqb a b = true <-> a = b.
Proof. intros. unfold neqb. destruct (list_eq_dec Z.eq_dec a b); intuition congruence. Qed.

Lemma take_out_ok : forall n l, Forall (fun i => p_name i <> None) l ->
  (exists i l1 l2, take_out n l = Some (Some i, l1 ++ l2) /\ l = l1 ++ i :: l2 /\ p_name i = Some n
     /\ ~ In (Some n) (map p_name l1))
  \/ (take_out n l = Some (None, l) /\ ~ In (Some n) (map p_name l)).
Proof.
  induction l as [|i r IH]; intros A.
  - right. split; [reflexivity|intros []].
  - inversion A as [|? ? N A']; subst. cbn [take_out].
    destruct (p_name i) as [m|] eqn:E; [|congruence].
    destruct (neqb m n) eqn:Q.
    + apply neqb_spec in Q. subst m. left. exists i, [], r.
      repeat split; auto.
    + assert (m <> n) by (intro; subst; rewrite (proj2 (neqb_spec n n) eq_refl) in Q; discriminate).
      destruct (IH A') as [(j & l1 & l2 & T & L & J & K)|(T & K)]; rewrite T.
      * left. exists j, (i :: l1), l2. subst r. repeat split; auto.
        cbn [map]. rewrite E. intros [X|X]; [congruence|auto].
      * right. split; [reflexivity|]. cbn [map]. rewrite E. intros [X|X]; [congruence|auto].
Qed.

(** the state after the blocks [bs] and the names [done] (latest first) of the next one *)
Record nick (bs : list block) (done : list (list Z)) (s : pst) : Prop := {
  k_some : Forall (fun i => p_name i <> None) (t_ifs s);
  k_nodup : NoDup (map p_name (t_ifs s));
  k_good : forall i n, In i (t_ifs s) -> p_name i = Some n ->
           good new_cnf new_cnfi i (own_body n bs);
  k_first : map p_name (firstn (length done) (t_ifs s)) = map Some done;
  k_cnt : t_cnt s = length done;
  k_in : forall n, In (Some n) (map p_name (t_ifs s)) <-> named n bs \/ In n done }.

Lemma own_body_none : forall n l, ~ named n l -> own_body n l = [].
Proof.
  induction l as [|b r IH]; intros H; [reflexivity|]. cbn [own_body].
  assert (~ named n r).
  { intros (a & c & I & J). apply H. exists a, c. split; [now right|assumption]. }
  destruct b as [names body|body]; [|auto].
  destruct (in_dec _ n names) as [I|I]; [|cbn; auto].
  exfalso. apply H. exists names, body. split; [now left|assumption].
Qed.

Lemma nth_new_cnf : forall p, nth p new_cnf 0 = 0.
Proof.
  intro p. unfold new_cnf. destruct (Nat.lt_ge_cases p opt_size).
  - now apply nth_repeat.
  - apply nth_overflow. rewrite repeat_length. lia.
Qed.

Lemma good_new : forall n, good new_cnf new_cnfi
  {| p_name := Some n; p_cnf := new_cnf; p_cnfi := new_cnfi; p_mults := [] |} [].
Proof. intro n. unfold good. cbn [p_cnf p_cnfi p_mults last_write mults_of]. repeat split; reflexivity. Qed.

Lemma NoDup_middle : forall {A} (a b : list A) x, NoDup (a ++ x :: b) -> NoDup (x :: a ++ b).
Proof.
  intros A a b x H. pose proof (NoDup_remove a b x H) as (H1 & H2). now constructor.
Qed.

Lemma ifnick_ok : forall bs done s n, nick bs done s -> ~ In n done ->
  exists s', ifnick n s = Some s' /\ nick bs (n :: done) s' /\ t_defs s' = t_defs s.
Proof.
  intros bs done s n K Hn. unfold ifnick.
  destruct (take_out_ok n (t_ifs s) (k_some _ _ _ K)) as [(i & l1 & l2 & T & L & J & F)|(T & F)];
    rewrite T.
  - eexists. split; [reflexivity|]. split; [|reflexivity].
    assert (Len : (length done <= length l1)%nat).
    { destruct (Nat.le_gt_cases (length done) (length l1)) as [Q|Q]; [exact Q|exfalso].
      apply Hn. pose proof (k_first _ _ _ K) as E. rewrite L in E.
      assert (I : In (Some n) (map p_name (firstn (length done) (l1 ++ i :: l2)))).
      { rewrite firstn_app. rewrite map_app. apply in_or_app. right.
        destruct (length done - length l1)%nat as [|k] eqn:Z; [lia|].
        cbn [firstn map]. left. exact J. }
      rewrite E in I. apply in_map_iff in I. destruct I as (y & Y & I). congruence. }
    constructor; cbn [t_ifs t_cnt].
    + pose proof (k_some _ _ _ K) as S. rewrite L in S. rewrite Forall_app in S.
      destruct S as (S1 & S2). inversion S2; subst. constructor; [assumption|].
      apply Forall_app. now split.
    + pose proof (k_nodup _ _ _ K) as S. rewrite L, map_app in S. cbn [map] in S.
      apply NoDup_middle in S. cbn [map]. rewrite map_app. exact S.
    + intros j m I. apply (k_good _ _ _ K). rewrite L. destruct I as [I|I].
      * subst. apply in_or_app. right. now left.
      * apply in_app_or in I. apply in_or_app. destruct I; [now left|right; now right].
    + cbn [length firstn map]. f_equal; [exact J|].
      rewrite <- (k_first _ _ _ K), L. rewrite !firstn_app.
      replace (length done - length l1)%nat with O by lia. reflexivity.
    + cbn [length]. now rewrite (k_cnt _ _ _ K).
    + intros m. rewrite <- or_comm. transitivity (In (Some m) (map p_name (t_ifs s))).
      * rewrite L. cbn [map]. rewrite !map_app. cbn [map]. rewrite !in_app_iff. cbn [In].
        rewrite in_app_iff. tauto.
      * rewrite (k_in _ _ _ K). cbn [In]. split; [tauto|].
        intros [[Q|Q]|Q]; try tauto. subst m.
        apply (k_in _ _ _ K). rewrite L, map_app. apply in_or_app. right. left. exact J.
  - eexists. split; [reflexivity|]. split; [|reflexivity].
    constructor; cbn [t_ifs t_cnt].
    + constructor; [discriminate|apply K].
    + cbn [map p_name]. constructor; [exact F|apply K].
    + intros j m [I|I] Em; [|now apply (k_good _ _ _ K)].
      subst j. cbn [p_name] in Em. inversion Em; subst m.
      rewrite own_body_none; [apply good_new|].
      intro Q. apply F. apply (k_in _ _ _ K). now left.
    + cbn [length firstn map p_name]. f_equal. apply (k_first _ _ _ K).
    + cbn [length]. now rewrite (k_cnt _ _ _ K).
    + intros m. cbn [map p_name In]. rewrite (k_in _ _ _ K).
      split; [intros [Q|[Q|Q]]; [inversion Q|..]; tauto|].
      intros [Q|[Q|Q]]; [tauto|subst; tauto|tauto].
Qed.

Lemma nicks_ok : forall names bs done s, nick bs done s -> NoDup (rev names ++ done) ->
  exists s', seqM ifnick names s = Some s' /\ nick bs (rev names ++ done) s' /\
    t_defs s' = t_defs s.
Proof.
  induction names as [|n r IH]; intros bs done s K N.
  - exists s. cbn. auto.
  - cbn [rev] in N. rewrite <- app_assoc in N. cbn [app] in N.
    destruct (ifnick_ok bs done s n K) as (s1 & E1 & K1 & D1).
    { apply NoDup_remove_2 in N. intro I. apply N. apply in_or_app. now right. }
    destruct (IH bs (n :: done) s1 K1 N) as (s2 & E2 & K2 & D2).
    exists s2. cbn [seqM rev]. rewrite E1. rewrite <- app_assoc. cbn [app].
    split; [exact E2|]. split; [exact K2|]. congruence.
Qed.

(** * The state after some blocks *)
Definition defs_good (bs : list block) (o : option (bytes * list mult)) : Prop :=
  match def_body bs with
  | None => o = None
  | Some body => exists d, o = Some d /\ length (fst d) = 128%nat /\
      (forall p, nth p (fst d) 0 =
         match last_write body p with Some v => v | None => nth p builtin_bytes 0 end) /\
      snd d = mults_of body
  end.

Record after (bs : list block) (s : pst) : Prop := {
  a_some : Forall (fun i => p_name i <> None) (t_ifs s);
  a_nodup : NoDup (map p_name (t_ifs s));
  a_good : forall i n, In i (t_ifs s) -> p_name i = Some n ->
           good new_cnf new_cnfi i (own_body n bs);
  a_in : forall n, In (Some n) (map p_name (t_ifs s)) <-> named n bs;
  a_defs : defs_good bs (t_defs s) }.

Lemma Forall2_names : forall body l l', Forall2 (follows body) l l' -> map p_name l' = map p_name l.
Proof. intros body l l' H. induction H as [|a b la lb (N & _) H IH]; cbn; congruence. Qed.

Lemma named_app : forall n a b, named n (a ++ b) <-> named n a \/ named n b.
Proof.
  intros. unfold named. split.
  - intros (x & y & I & J). apply in_app_or in I. destruct I; [left|right]; eauto.
  - intros [(x & y & I & J)|(x & y & I & J)]; exists x, y; rewrite in_app_iff; auto.
Qed.

Lemma Forall2_in_r' : forall {A B} (P : A -> B -> Prop) l l' y, Forall2 P l l' -> In y l' ->
  exists x, In x l /\ P x y.
Proof.
  intros A B P l l' y H. induction H; intros I; [destruct I|].
  destruct I as [I|I]; [subst; eexists; split; [now left|assumption]|].
  destruct (IHForall2 I) as (z & Z1 & Z2). exists z. split; [now right|assumption].
Qed.

Lemma Forall2_nth_name : forall {A B} (P : A -> B -> Prop) l l', Forall2 P l l' -> length l = length l'.
Proof. intros A B P l l' H. induction H; cbn; congruence. Qed.

Lemma firstn_all_len : forall {A} k (l : list A), length (firstn k l) = k -> (k <= length l)%nat.
Proof. intros A k l H. rewrite firstn_length in H. lia. Qed.

Lemma good_len : forall c0 ci0 i B, good c0 ci0 i B -> len128 i.
Proof. intros. do 3 eexists. eassumption. Qed.

Lemma run_block_ok : forall bs b s, after bs s -> wf_block b ->
  exists s', run_block b s = Some s' /\ after (bs ++ [b]) s'.
Proof.
  intros bs b s A W. destruct b as [names body|body]; cbn [run_block wf_block] in *.
  - destruct W as (ND & F).
    assert (K0 : nick bs [] (ifstart s)).
    { constructor; cbn [ifstart t_ifs t_cnt]; try apply A.
      - reflexivity.
      - reflexivity.
      - intro n. rewrite (a_in _ _ A). cbn. tauto. }
    destruct (nicks_ok names bs [] (ifstart s) K0) as (s1 & E1 & K1 & D1).
    { rewrite app_nil_r. now apply NoDup_rev. }
    rewrite app_nil_r in K1. rewrite E1.
    set (done := rev names) in *.
    assert (Lk : (t_cnt s1 <= length (t_ifs s1))%nat).
    { rewrite (k_cnt _ _ _ K1). pose proof (k_first _ _ _ K1) as Q.
      apply (f_equal (@length _)) in Q. rewrite !map_length in Q.
      now apply firstn_all_len. }
    destruct (body_ok body s1 F Lk) as (s2 & E2 & C2 & D2 & X & S & L2).
    { apply Forall_forall. intros i I.
      assert (Ii : In i (t_ifs s1)).
      { rewrite <- (firstn_skipn (t_cnt s1) (t_ifs s1)). apply in_or_app. now left. }
      pose proof (k_some _ _ _ K1) as Q. rewrite Forall_forall in Q. specialize (Q i Ii).
      destruct (p_name i) as [n|] eqn:En; [|congruence].
      eapply good_len. eapply (k_good _ _ _ K1); eassumption. }
    exists s2. split; [exact E2|].
    set (k := t_cnt s1) in *.
    assert (Split2 : t_ifs s2 = firstn k (t_ifs s2) ++ skipn k (t_ifs s1)).
    { rewrite <- S. symmetry. apply firstn_skipn. }
    assert (Names : map p_name (t_ifs s2) = map p_name (t_ifs s1)).
    { rewrite Split2, map_app, (Forall2_names _ _ _ X), <- map_app, firstn_skipn. reflexivity. }
    assert (Kn : k = length done) by apply (k_cnt _ _ _ K1).
    assert (Fst : map p_name (firstn k (t_ifs s1)) = map Some done).
    { rewrite Kn. apply (k_first _ _ _ K1). }
    assert (Ob : forall n, own_body n (bs ++ [BIf names body]) =
              own_body n bs ++ (if in_dec (list_eq_dec Z.eq_dec) n names then body else [])).
    { intro n. rewrite own_body_app. cbn [own_body]. now rewrite app_nil_r. }
    constructor.
    + apply Forall_forall. intros i I.
      assert (J : In (p_name i) (map p_name (t_ifs s1))) by (rewrite <- Names; now apply in_map).
      apply in_map_iff in J. destruct J as (j & Ej & Ij). rewrite <- Ej.
      pose proof (k_some _ _ _ K1) as Q. rewrite Forall_forall in Q. now apply Q.
    + rewrite Names. apply K1.
    + intros i n I En. rewrite Ob. rewrite Split2 in I. apply in_app_or in I. destruct I as [I|I].
      * destruct (Forall2_in_r' _ _ _ _ X I) as (j & Ij & (Nj & _ & Gj)).
        assert (Dn : In n names).
        { assert (Q : In (Some n) (map Some done)).
          { rewrite <- Fst. apply in_map_iff. exists j. split; [congruence|assumption]. }
          apply in_map_iff in Q. destruct Q as (m & Em & Im). inversion Em; subst m.
          unfold done in Im. now apply in_rev in Im. }
        destruct (in_dec _ n names) as [_|Q]; [|contradiction].
        apply Gj. apply (k_good _ _ _ K1); [|congruence].
        rewrite <- (firstn_skipn k (t_ifs s1)). apply in_or_app. now left.
      * assert (Dn : ~ In n names).
        { intro Q. assert (Q' : In (Some n) (map p_name (firstn k (t_ifs s1)))).
          { rewrite Fst. apply in_map. unfold done. now apply in_rev in Q. }
          pose proof (k_nodup _ _ _ K1) as ND1.
          rewrite <- (firstn_skipn k (t_ifs s1)), map_app in ND1.
          assert (Q2 : In (Some n) (map p_name (skipn k (t_ifs s1)))).
          { apply in_map_iff. exists i. split; assumption. }
          clear - ND1 Q' Q2. induction (map p_name (firstn k (t_ifs s1))) as [|x r IH]; [destruct Q'|].
          cbn [app] in ND1. inversion ND1 as [|? ? N1 N2]; subst.
          destruct Q' as [Q'|Q']; [subst; apply N1, in_or_app; now right|auto]. }
        destruct (in_dec _ n names) as [Q|_]; [contradiction|]. rewrite app_nil_r.
        apply (k_good _ _ _ K1); [|assumption].
        rewrite <- (firstn_skipn k (t_ifs s1)). apply in_or_app. now right.
    + intro n. rewrite Names, (k_in _ _ _ K1), named_app.
      split; (intros [Q|Q]; [now left|right]).
      * exists names, body. split; [now left|]. unfold done in Q. now apply in_rev.
      * destruct Q as (a & c & [I|[]] & J). inversion I; subst. unfold done. now apply in_rev in J.
    + unfold defs_good. rewrite def_body_app. cbn [def_body].
      rewrite D2, D1. apply (a_defs _ _ A).
  - set (d := {| p_name := None; p_cnf := builtin_bytes; p_cnfi := builtin_bytes; p_mults := [] |}).
    assert (Gd : good builtin_bytes builtin_bytes d []).
    { unfold good, d. cbn [p_cnf p_cnfi p_mults last_write mults_of]. repeat split; reflexivity. }
    destruct (body_ok body (def_open s) W) as (s2 & E2 & C2 & D2 & X & S & L2).
    { cbn. lia. }
    { cbn [def_open t_cnt t_ifs firstn]. constructor; [eapply good_len; exact Gd|constructor]. }
    cbn [def_open t_cnt t_ifs firstn skipn] in X, S, L2.
    rewrite E2. unfold def_close. destruct (t_ifs s2) as [|i r]; [discriminate|].
    cbn [skipn] in S. subst r. cbn [firstn] in X. inversion X as [|? ? ? ? (_ & _ & G) _]; subst.
    specialize (G _ _ _ Gd). cbn [app] in G. destruct G as (G1 & _ & G2 & _ & G3).
    eexists. split; [reflexivity|].
    constructor; cbn [t_ifs t_defs]; try apply A.
    + intros j n I En. rewrite own_body_app. cbn [own_body]. rewrite app_nil_r.
      now apply (a_good _ _ A).
    + intro n. rewrite (a_in _ _ A), named_app. split; [now left|].
      intros [Q|(a & c & [Q|[]] & _)]; [exact Q|discriminate].
    + unfold defs_good. rewrite def_body_app. cbn [def_body].
      eexists. split; [reflexivity|]. cbn [fst snd]. auto.
Qed.

Lemma seqM_app : forall {A} (f : A -> pst -> option pst) a b s,
  seqM f (a ++ b) s = match seqM f a s with Some s' => seqM f b s' | None => None end.
Proof.
  induction a as [|x r IH]; intros b s; cbn [app seqM]; [reflexivity|].
  destruct (f x s); [apply IH|reflexivity].
Qed.

Lemma run_ok : forall bs, Forall wf_block bs -> exists s, run bs = Some s /\ after bs s.
Proof.
  induction bs as [|b bs IH] using rev_ind; intros W.
  - exists pst0. split; [reflexivity|]. constructor; cbn.
    + constructor.
    + constructor.
    + intros i n [].
    + intro n. split; [intros []|intros (a & c & [] & _)].
    + reflexivity.
  - apply Forall_app in W. destruct W as (W1 & W2). inversion W2 as [|? ? Wb _]; subst.
    destruct (IH W1) as (s & E & A).
    destruct (run_block_ok bs b s A Wb) as (s' & E' & A').
    exists s'. split; [|exact A']. unfold run in *. rewrite seqM_app, E. cbn [seqM]. now rewrite E'.
Qed.

(** * Mixing in the defaults *)
Lemma nth_mix : forall a b d p, length a = length b -> length a = length d -> (p < length a)%nat ->
  nth p (mix a b d) 0 = if nth p a 0 =? nth p b 0 then nth p a 0 else nth p d 0.
Proof.
  induction a as [|x a IH]; intros b d p L1 L2 H; cbn [length] in H; [lia|].
  destruct b as [|y b]; [discriminate|]. destruct d as [|z d]; [discriminate|].
  cbn [mix]. destruct p as [|p]; cbn [nth]; [reflexivity|].
  apply IH; cbn [length] in *; lia.
Qed.

Lemma nth_new_cnfi : forall p, opt_byte p -> nth p new_cnfi 0 = 255.
Proof.
  intros p H. assert (T : forallb (fun p => (nth p new_cnfi 0 =? 255) || ((112 <=? Z.of_nat p) && (Z.of_nat p <? 124)))
     (seq 0 128) = true) by (vm_compute; reflexivity).
  rewrite forallb_forall in T. unfold opt_byte in H. specialize (T p).
  rewrite in_seq in T. specialize (T ltac:(lia)). apply orb_prop in T. destruct T as [T|T]; lia.
Qed.

Lemma effective_byte : forall bs s i n p, after bs s -> In i (t_ifs s) -> p_name i = Some n ->
  opt_byte p -> nth p (fst (effective s i)) 0 = wanted bs n p.
Proof.
  intros bs s i n p A I En H. unfold effective. cbn [fst].
  destruct (a_good _ _ A i n I En) as (L1 & L2 & N1 & N2 & _).
  pose proof (a_defs _ _ A) as D. unfold defs_good in D.
  assert (Ld : length (fst (defs_of (t_defs s))) = 128%nat /\
    nth p (fst (defs_of (t_defs s))) 0 =
    match last_write (match def_body bs with Some b => b | None => [] end) p with
    | Some v => v | None => nth p builtin_bytes 0 end).
  { destruct (def_body bs) as [body|].
    - destruct D as (d & E & Ld & Nd & _). rewrite E. cbn [defs_of]. split; [exact Ld|apply Nd].
    - rewrite D. cbn [defs_of fst last_write]. split; reflexivity. }
  destruct Ld as (Ld & Nd).
  rewrite nth_mix by (unfold opt_byte in H; lia). rewrite N1, N2, Nd.
  unfold wanted. destruct (last_write (own_body n bs) p) as [v|].
  - now rewrite Z.eqb_refl.
  - rewrite nth_new_cnf, (nth_new_cnfi p H). reflexivity.
Qed.

Lemma effective_mults : forall bs s i n, after bs s -> In i (t_ifs s) -> p_name i = Some n ->
  snd (effective s i) =
  merge_mults (mults_of (own_body n bs))
              (mults_of (match def_body bs with Some b => b | None => [] end)).
Proof.
  intros bs s i n A I En. unfold effective. cbn [snd].
  destruct (a_good _ _ A i n I En) as (_ & _ & _ & _ & M). rewrite M. f_equal.
  pose proof (a_defs _ _ A) as D. unfold defs_good in D.
  destruct (def_body bs) as [body|].
  - destruct D as (d & E & _ & _ & Md). rewrite E. exact Md.
  - rewrite D. reflexivity.
Qed.

(** * The multiplier of a link *)
Lemma pick_app : forall a l m v, pick a (l ++ m) v = pick a m (pick a l v).
Proof. induction l as [|[x w] r IH]; intros m v; cbn [app pick]; [reflexivity|apply IH]. Qed.

Lemma lookup_none : forall a l, lookup a l = None <-> ~ In a (map fst l).
Proof.
  induction l as [|[x w] r IH]; cbn [lookup map fst In]; [tauto|].
  destruct (Z.eqb_spec x a); [split; [discriminate|intros H; exfalso; auto]|].
  rewrite IH. tauto.
Qed.

Lemma lookup_in : forall a l v, lookup a l = Some v -> In (a, v) l.
Proof.
  induction l as [|[x w] r IH]; cbn [lookup]; [discriminate|]. intros v H.
  destruct (Z.eqb_spec x a); [inversion H; subst; now left|right; auto].
Qed.

Lemma pick_no_match : forall a l v, a <> 0 -> v <> 0 -> ~ In a (map fst l) -> pick a l v = v.
Proof.
  induction l as [|[x w] r IH]; intros v Ha Hv H; cbn [pick]; [reflexivity|].
  cbn [map fst In] in H. destruct (Z.eqb_spec x a) as [->|_]; [tauto|].
  destruct (Z.eqb_spec v 0); [contradiction|]. rewrite andb_false_r. cbn [orb].
  apply IH; tauto.
Qed.

Lemma pick_neither : forall a l v, ~ In a (map fst l) -> ~ In 0 (map fst l) -> pick a l v = v.
Proof.
  induction l as [|[x w] r IH]; intros v H H0; cbn [pick]; [reflexivity|].
  cbn [map fst In] in H, H0. destruct (Z.eqb_spec x a) as [->|_]; [tauto|].
  destruct (Z.eqb_spec x 0) as [->|_]; [tauto|]. cbn [orb andb]. apply IH; tauto.
Qed.

(** a match: it decides *)
Lemma pick_match : forall a l v w, a <> 0 -> plain l -> lookup a l = Some w -> pick a l v = w.
Proof.
  induction l as [|[x y] r IH]; intros v w Ha (N & Z0) H; cbn [lookup] in H; [discriminate|].
  cbn [map fst] in N. inversion N as [|? ? N1 N2]; subst. inversion Z0 as [|? ? Zx Zr]; subst.
  cbn [pick]. destruct (Z.eqb_spec x a) as [->|Q].
  - inversion H; subst. rewrite orb_true_r. apply pick_no_match; assumption.
  - apply IH; [assumption|now split|assumption].
Qed.

(** no match, a wildcard, nothing found so far *)
Lemma pick_wild : forall a l w, a <> 0 -> plain l -> lookup a l = None -> lookup 0 l = Some w ->
  pick a l 0 = w.
Proof.
  induction l as [|[x y] r IH]; intros w Ha (N & Z0) H0 H; cbn [lookup] in H, H0; [discriminate|].
  cbn [map fst] in N. inversion N as [|? ? N1 N2]; subst. inversion Z0 as [|? ? Zx Zr]; subst.
  cbn [pick]. destruct (Z.eqb_spec x a) as [->|Q]; [discriminate|].
  destruct (Z.eqb_spec x 0) as [->|Q0].
  - inversion H; subst. cbn [andb orb Z.eqb]. apply pick_no_match; [assumption|exact Zx|].
    now apply lookup_none.
  - cbn [andb orb]. apply IH; try assumption. now split.
Qed.

Lemma lookup_filter_rev : forall (f : mult -> bool) a l,
  NoDup (map fst l) -> (forall m, fst m = a -> f m = true) ->
  lookup a (rev (filter f l)) = lookup a l.
Proof.
  intros f a l N Hf. destruct (lookup a l) as [v|] eqn:E.
  - apply lookup_in in E.
    assert (I : In (a, v) (rev (filter f l))).
    { apply in_rev. rewrite rev_involutive. apply filter_In. split; [assumption|now apply Hf]. }
    destruct (lookup a (rev (filter f l))) as [w|] eqn:E2.
    + apply lookup_in in E2. apply in_rev in E2. apply filter_In in E2. destruct E2 as (E2 & _).
      f_equal. clear - N E E2. induction l as [|[x y] r IH]; [destruct E|].
      cbn [map fst] in N. inversion N as [|? ? N1 N2]; subst.
      destruct E as [E|E], E2 as [E2|E2].
      * congruence.
      * inversion E; subst. exfalso. apply N1. change a with (fst (a, w)). now apply in_map.
      * inversion E2; subst. exfalso. apply N1. change a with (fst (a, v)). now apply in_map.
      * auto.
    + apply lookup_none in E2. exfalso. apply E2. change a with (fst (a, v)). now apply in_map.
  - apply lookup_none. apply lookup_none in E. intro I. apply E.
    apply in_map_iff in I. destruct I as (m & Em & I). apply in_rev in I. apply filter_In in I.
    rewrite <- Em. apply in_map. tauto.
Qed.

Lemma lookup_filter_out : forall (f : mult -> bool) a l,
  (forall m, fst m = a -> f m = false) -> lookup a (rev (filter f l)) = None.
Proof.
  intros f a l Hf. apply lookup_none. intro I. apply in_map_iff in I. destruct I as (m & Em & I).
  apply in_rev in I. apply filter_In in I. destruct I as (_ & I). rewrite (Hf m Em) in I. discriminate.
Qed.

Lemma plain_rev_filter : forall f l, plain l -> plain (rev (filter f l)).
Proof.
  intros f l (N & Z0). split.
  - rewrite map_rev. apply NoDup_rev. induction l as [|m r IH]; cbn [filter map]; [constructor|].
    cbn [map] in N. inversion N as [|? ? N1 N2]; subst. inversion Z0; subst.
    destruct (f m); [|auto]. cbn [map]. constructor; [|auto].
    intro I. apply N1. apply in_map_iff in I. destruct I as (x & Ex & I). rewrite <- Ex.
    apply in_map. now apply filter_In in I.
  - apply Forall_forall. intros m I. apply in_rev in I. apply filter_In in I.
    rewrite Forall_forall in Z0. now apply Z0.
Qed.

Lemma in_own : forall own (d : mult), existsb (fun o : mult => fst o =? fst d) own = true <-> In (fst d) (map fst own).
Proof.
  intros. rewrite existsb_exists, in_map_iff. split.
  - intros (x & I & E). exists x. split; [lia|assumption].
  - intros (x & E & I). exists x. split; [assumption|lia].
Qed.

Lemma nonzero_lookup : forall a l v, plain l -> lookup a l = Some v -> v <> 0.
Proof.
  intros a l v (_ & Z0) H. apply lookup_in in H. rewrite Forall_forall in Z0. now apply (Z0 (a, v)).
Qed.

Lemma loss_mult_ok : forall own defs a, a <> 0 -> plain own -> plain defs ->
  loss_mult (merge_mults own defs) a = wanted_mult own defs a.
Proof.
  intros own defs a Ha Po Pd. unfold loss_mult, merge_mults, wanted_mult. rewrite pick_app.
  match goal with |- context [rev (filter ?g defs)] => set (f := g) end.
  set (t := rev (filter f defs)).
  assert (Pt : plain t) by now apply plain_rev_filter.
  assert (Keep : forall x, lookup x own = None -> lookup x t = lookup x defs).
  { intros x Hx. apply lookup_filter_rev; [apply Pd|]. intros m Em. unfold f.
    apply negb_true_iff. apply not_true_iff_false. intro Q. apply in_own in Q.
    apply lookup_none in Hx. congruence. }
  assert (Drop : forall x v, lookup x own = Some v -> lookup x t = None).
  { intros x v Hx. apply lookup_filter_out. intros m Em. unfold f. apply negb_false_iff.
    apply in_own. rewrite Em. apply lookup_in in Hx. change x with (fst (x, v)). now apply in_map. }
  destruct (lookup a own) as [v|] eqn:Eo.
  - rewrite (pick_match a own 0 v Ha Po Eo).
    pose proof (nonzero_lookup _ _ _ Po Eo) as Hv.
    rewrite pick_no_match by (try assumption; apply lookup_none; eapply Drop; exact Eo).
    destruct (Z.eqb_spec v 0); [contradiction|reflexivity].
  - destruct (lookup a defs) as [v|] eqn:Ed.
    + rewrite (pick_match a t _ v Ha Pt) by (rewrite Keep; assumption).
      pose proof (nonzero_lookup _ _ _ Pd Ed) as Hv.
      destruct (Z.eqb_spec v 0); [contradiction|reflexivity].
    + assert (Et : lookup a t = None) by (rewrite Keep; assumption).
      destruct (lookup 0 own) as [v|] eqn:Ew.
      * rewrite (pick_wild a own v Ha Po Eo Ew).
        pose proof (nonzero_lookup _ _ _ Po Ew) as Hv.
        rewrite pick_no_match by (try assumption; now apply lookup_none).
        destruct (Z.eqb_spec v 0); [contradiction|reflexivity].
      * rewrite (pick_neither a own) by now apply lookup_none.
        destruct (lookup 0 defs) as [v|] eqn:Ewd.
        -- rewrite (pick_wild a t v Ha Pt Et) by (rewrite Keep; assumption).
           pose proof (nonzero_lookup _ _ _ Pd Ewd) as Hv.
           destruct (Z.eqb_spec v 0); [contradiction|reflexivity].
        -- rewrite (pick_neither a t); [reflexivity|now apply lookup_none|].
           apply lookup_none. now rewrite Keep.
Qed.

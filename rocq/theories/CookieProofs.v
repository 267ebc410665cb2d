From Verif Require Import Base Cookie CookieSpec.
From Coq Require Import Permutation.

Lemma set_nth_len {A} : forall (l : list A) i x, length (set_nth l i x) = length l.
Proof. induction l as [|y l IH]; intros [|i] x; cbn; auto. Qed.
Lemma nth_set_nth {A} : forall (l : list A) i j x, (i < length l)%nat ->
  nth_error (set_nth l i x) j = if Nat.eqb i j then Some x else nth_error l j.
Proof. induction l as [|y l IH]; intros [|i] [|j] x H; cbn in *; try lia; auto. apply IH. lia. Qed.
Lemma get_set s h i c j : (i < length (cks s))%nat -> get (mkCs (set_nth (cks s) i c) h) j = if Nat.eqb i j then c else get s j.
Proof. intros H. unfold get. cbn. rewrite nth_set_nth by exact H. destruct (Nat.eqb i j); [destruct c; reflexivity|reflexivity]. Qed.
Lemma get_lt s i c : get s i = Some c -> (i < length (cks s))%nat.
Proof. unfold get. intros H. apply nth_error_Some. destruct (nth_error (cks s) i); discriminate. Qed.

Lemma mem_get_set h p d q : mem_get h p <> None -> mem_get (mem_set h p d) q = if p =? q then Some d else mem_get h q.
Proof.
  induction h as [|[a e] h IH]; cbn; [congruence|]. intros H. destruct (Z.eqb_spec a p) as [->|E]; cbn.
  - destruct (p =? q); reflexivity.
  - rewrite IH by exact H. destruct (Z.eqb_spec a q) as [->|]; [|reflexivity]. destruct (Z.eqb_spec p q); [congruence|reflexivity].
Qed.
Lemma mem_set_keys h p d : map fst (mem_set h p d) = map fst h.
Proof. induction h as [|[a e] h IH]; cbn; [reflexivity|]. destruct (a =? p); cbn; congruence. Qed.
Lemma mem_get_in h p : mem_get h p <> None <-> In p (map fst h).
Proof.
  induction h as [|[a e] h IH]; cbn; [split; [congruence|tauto]|]. destruct (Z.eqb_spec a p) as [->|E]; [split; [auto|discriminate]|].
  rewrite IH. split; [auto|intros [->|H]; [congruence|exact H]].
Qed.
Lemma mem_get_del h p q : NoDup (map fst h) -> mem_get (mem_del h p) q = if p =? q then None else mem_get h q.
Proof.
  induction h as [|[a e] h IH]; cbn; intros N; [destruct (p =? q); reflexivity|]. inversion N as [|? ? N1 N2]; subst.
  destruct (Z.eqb_spec a p) as [->|E]; cbn.
  - destruct (Z.eqb_spec p q) as [->|]; [|reflexivity]. destruct (mem_get h q) eqn:X; [|reflexivity]. exfalso. apply N1. apply mem_get_in. congruence.
  - rewrite IH by exact N2. destruct (Z.eqb_spec a q) as [->|]; [|reflexivity]. destruct (Z.eqb_spec p q); [congruence|reflexivity].
Qed.
Lemma mem_del_keys h p : NoDup (map fst h) -> NoDup (map fst (mem_del h p)).
Proof.
  induction h as [|[a e] h IH]; cbn; intros N; [constructor|]. inversion N as [|? ? N1 N2]; subst. destruct (a =? p); [exact N2|].
  cbn. constructor; [|auto]. intros H. apply N1. apply mem_get_in in H. rewrite mem_get_del in H by exact N2. apply mem_get_in.
  destruct (p =? a); [congruence|exact H].
Qed.
Lemma fold_del l : forall h, NoDup (map fst h) -> NoDup (map fst (fold_left mem_del l h)) /\
  forall q, mem_get (fold_left mem_del l h) q = if existsb (Z.eqb q) l then None else mem_get h q.
Proof.
  induction l as [|p l IH]; intros h N; cbn [fold_left existsb]; [auto|]. destruct (IH _ (mem_del_keys h p N)) as [A B]. split; [exact A|].
  intros q. rewrite B, mem_get_del by exact N. rewrite (Z.eqb_sym q p). destruct (p =? q); cbn; [|reflexivity]. destruct (existsb _ l); reflexivity.
Qed.

Lemma poke_spec d o b : (o + length b <= length d)%nat -> poke d o b = Some (firstn o d ++ b ++ skipn (o + length b) d).
Proof. intros H. unfold poke. rewrite (proj2 (Nat.leb_le _ _) H). reflexivity. Qed.
Lemma poke_len d o b d' : poke d o b = Some d' -> length d' = length d.
Proof.
  unfold poke. destruct (Nat.leb_spec (o + length b) (length d)) as [H|]; [|discriminate]. intros E. apply Some_inj in E. subst d'.
  rewrite !app_length, firstn_length, skipn_length. lia.
Qed.
Lemma poke_at d o b d' : poke d o b = Some d' -> firstn (length b) (skipn o d') = b.
Proof.
  unfold poke. destruct (Nat.leb_spec (o + length b) (length d)) as [H|]; [|discriminate]. intros E. apply Some_inj in E. subst d'.
  assert (L : length (firstn o d) = o) by (rewrite firstn_length; lia). rewrite skipn_app, L, Nat.sub_diag, skipn_all2 by lia. cbn [skipn app].
  rewrite firstn_app, Nat.sub_diag, firstn_all. cbn [firstn]. apply app_nil_r.
Qed.
Lemma poke_below d o b d' n : poke d o b = Some d' -> (n <= o)%nat -> firstn n d' = firstn n d.
Proof.
  unfold poke. destruct (Nat.leb_spec (o + length b) (length d)) as [H|]; [|discriminate]. intros E L. apply Some_inj in E. subst d'.
  rewrite firstn_app, firstn_firstn, Nat.min_l by lia. assert (X : length (firstn o d) = o) by (rewrite firstn_length; lia).
  rewrite X. replace (n - o)%nat with 0%nat by lia. cbn [firstn]. apply app_nil_r.
Qed.
Lemma poke_above d o b d' n : poke d o b = Some d' -> (o + length b <= n)%nat -> skipn n d' = skipn n d.
Proof.
  unfold poke. destruct (Nat.leb_spec (o + length b) (length d)) as [H|]; [|discriminate]. intros E L. apply Some_inj in E. subst d'.
  assert (X : length (firstn o d) = o) by (rewrite firstn_length; lia).
  rewrite !skipn_app, X, (skipn_all2 (firstn o d)) by lia. rewrite (skipn_all2 b) by lia. cbn [app].
  assert (Y : forall (l : list Z) a c, skipn a (skipn c l) = skipn (a + c) l).
  { clear. intros l a c. revert l. induction c; intros l; [rewrite Nat.add_0_r; reflexivity|]. destruct l; [rewrite !skipn_nil; reflexivity|].
    rewrite Nat.add_succ_r. cbn. apply IHc. }
  rewrite Y. f_equal. lia.
Qed.
Lemma brand_len i : length (brand i) = 8%nat. Proof. reflexivity. Qed.

Record inv (s : cs) (g : ghost) : Prop := {
  I_len : length (cks s) = COOKIE_MAX;
  I_keys : NoDup (map fst (heap s));
  I_held : NoDup (held g);
  I_blk : forall i p, In (i, p) (used g) -> exists c d, get s i = Some c /\ c_mem c = true /\ mem_get (heap s) p = Some d /\
            length d = (c_size c + 8)%nat /\ firstn 8 (skipn (c_size c) d) = brand i;
  I_lost : forall p, In p (lost g) -> mem_get (heap s) p <> None;
  I_size : forall i c, get s i = Some c -> (c_mem c = true -> (8 <= c_size c)%nat) /\ (c_mem c = false -> c_free c = []);
  I_fnd : forall i c, get s i = Some c -> NoDup (c_free c) /\ c_fusage c = u32 (Z.of_nat (length (c_free c)));
  I_use : forall i c, get s i = Some c -> c_mem c = true -> c_usage c = u32 (count g i);
  I_free : forall i c p, get s i = Some c -> In p (c_free c) -> ~ In p (held g) /\
             exists d, mem_get (heap s) p = Some d /\ length d = (c_size c + 8)%nat /\ ((16 <= c_size c)%nat -> firstn 8 (skipn (c_size c) d) = repeat 0 8);
  I_dis : forall i j c e p, get s i = Some c -> get s j = Some e -> In p (c_free c) -> In p (c_free e) -> i = j;
  I_all : forall p, mem_get (heap s) p <> None -> In p (held g) \/ exists i c, get s i = Some c /\ In p (c_free c) }.

Lemma get_init i : get cinit i = None.
Proof.
  unfold get, cinit. cbn [cks]. destruct (nth_error (repeat (@None ck) COOKIE_MAX) i) as [[c|]|] eqn:E; auto.
  apply nth_error_In in E. apply repeat_spec in E. discriminate.
Qed.
Lemma inv_init : inv cinit (mkG [] []).
Proof.
  constructor; try (intros; rewrite get_init in *; discriminate); cbn; try tauto; try constructor; try congruence.
Qed.

Lemma free_index_spec : forall l k i, free_index l k = Some i -> (k <= i)%nat /\ nth_error l (i - k) = Some None.
Proof.
  induction l as [|[c|] l IH]; intros k i; cbn; [discriminate| |].
  - intros H. apply IH in H. destruct H as [A B]. split; [lia|]. replace (i - k)%nat with (S (i - S k)) by lia. exact B.
  - intros [= <-]. rewrite Nat.sub_diag. auto.
Qed.
Lemma free_index_none : forall l k, free_index l k = None -> forall x, In x l -> x <> None.
Proof. induction l as [|[c|] l IH]; intros k H x; cbn in *; try discriminate; [tauto|]. intros [<-|I]; [discriminate|]. eauto. Qed.

Lemma held_in g i p : In (i, p) (used g) -> In p (held g).
Proof. intros H. apply in_app_iff. left. apply in_map_iff. exists (i, p). auto. Qed.
Lemma used_inj g i j p : NoDup (held g) -> In (i, p) (used g) -> In (j, p) (used g) -> i = j.
Proof.
  unfold held. intros N A B. assert (N1 : NoDup (map snd (used g))).
  { revert N. generalize (lost g). generalize (map snd (used g)). clear. induction l as [|x l IH]; intros m N; [constructor|].
    inversion N as [|? ? N1 N2]; subst. constructor; [intros H; apply N1; apply in_app_iff; auto|eauto]. }
  revert N1 A B. generalize (used g). clear. induction l as [|[k q] l IH]; cbn; [tauto|]. intros N A B. inversion N as [|? ? N1 N2]; subst.
  destruct A as [A|A], B as [B|B].
  - congruence.
  - injection A as -> ->. exfalso. apply N1. apply in_map_iff. exists (j, p). auto.
  - injection B as -> ->. exfalso. apply N1. apply in_map_iff. exists (i, p). auto.
  - auto.
Qed.

(** creating a cookie *)
Lemma inv_new s g m n : inv s g -> (m = true -> (8 <= n)%nat) ->
  match alloc_cookie s m n with Ok s' r => inv s' g | Exit => forall i, (1 <= i < COOKIE_MAX)%nat -> get s i <> None | _ => False end.
Proof.
  intros V H. unfold alloc_cookie. destruct (free_index (tl (cks s)) 1) as [i|] eqn:F.
  - apply free_index_spec in F. destruct F as [F1 F2]. assert (T : nth_error (cks s) i = Some None).
    { destruct (cks s) as [|x l] eqn:E; cbn in F2; [destruct (i - 1)%nat; discriminate|]. destruct i; [lia|]. cbn in *. rewrite Nat.sub_0_r in F2. exact F2. }
    assert (L : (i < length (cks s))%nat) by (apply nth_error_Some; congruence).
    assert (G0 : get s i = None) by (unfold get; rewrite T; reflexivity).
    destruct V as [V1 V2 V3 V4 V5 V6 V7 V8 V9 V10 V11]. unfold put.
    constructor; cbn [heap]; auto.
    + cbn. rewrite set_nth_len. exact V1.
    + intros j p I0. destruct (V4 j p I0) as [c [d [A B]]]. exists c, d. rewrite get_set by exact L. destruct (Nat.eqb_spec i j); [congruence|]. auto.
    + intros j c. rewrite get_set by exact L. destruct (Nat.eqb_spec i j); [intros E; apply Some_inj in E; subst c; cbn; auto|apply V6].
    + intros j c. rewrite get_set by exact L. destruct (Nat.eqb_spec i j); [intros E; apply Some_inj in E; subst c; cbn; split; [constructor|reflexivity]|apply V7].
    + intros j c. rewrite get_set by exact L. destruct (Nat.eqb_spec i j) as [->|]; [|apply V8]. intros E; apply Some_inj in E; subst c; cbn. intros _.
      unfold count. destruct (filter _ (used g)) as [|[a b] l] eqn:X; [reflexivity|]. exfalso.
      assert (Y : In (a, b) (filter (fun x => Nat.eqb (fst x) j) (used g))) by (rewrite X; left; reflexivity).
      apply filter_In in Y. destruct Y as [Y1 Y2]. cbn in Y2. apply Nat.eqb_eq in Y2. subst a. destruct (V4 j b Y1) as [c [d [A _]]]. congruence.
    + intros j c p. rewrite get_set by exact L. destruct (Nat.eqb_spec i j); [intros E; apply Some_inj in E; subst c; cbn; tauto|apply V9].
    + intros j k c e p. rewrite !get_set by exact L. destruct (Nat.eqb_spec i j); [intros E; apply Some_inj in E; subst c; cbn; tauto|].
      destruct (Nat.eqb_spec i k); [intros _ E; apply Some_inj in E; subst e; cbn; tauto|apply V10].
    + intros p I0. destruct (V11 p I0) as [A|[j [c [A B]]]]; [auto|right]. exists j, c. rewrite get_set by exact L. destruct (Nat.eqb_spec i j); [congruence|]. auto.
  - intros i I0 G. destruct (cks s) as [|x l] eqn:E; [pose proof (I_len _ _ V) as Q; rewrite E in Q; discriminate|]. cbn in F.
    pose proof (I_len _ _ V) as Q. rewrite E in Q. cbn in Q. unfold get in G. rewrite E in G. destruct i; [lia|]. cbn in G.
    destruct (nth_error l i) as [[c|]|] eqn:X; [discriminate| |apply nth_error_None in X; unfold COOKIE_MAX in *; lia].
    apply nth_error_In in X. exact (free_index_none _ _ F _ X eq_refl).
Qed.

Lemma used_split i (u : list (nat * Z)) l : Permutation (map snd u ++ l)
  (map snd (filter (fun x => negb (Nat.eqb (fst x) i)) u) ++ map snd (filter (fun x => Nat.eqb (fst x) i) u) ++ l).
Proof.
  induction u as [|[a b] u IH]; cbn [map app filter fst]; [apply Permutation_refl|]. destruct (Nat.eqb a i); cbn [negb map app].
  - eapply Permutation_trans; [apply perm_skip; exact IH|]. apply Permutation_middle.
  - apply perm_skip. exact IH.
Qed.
Lemma inv_del s g i : inv s g -> get s i <> None ->
  match free_cookie s i with Ok s' r => inv s' (gupd g (EDel i) r) | _ => False end.
Proof.
  intros V H. unfold free_cookie. destruct (get s i) as [c|] eqn:G; [|congruence]. pose proof (get_lt _ _ _ G) as L.
  destruct V as [V1 V2 V3 V4 V5 V6 V7 V8 V9 V10 V11].
  set (h' := if c_mem c then fold_left mem_del (c_free c) (heap s) else heap s).
  assert (HH : NoDup (map fst h') /\ forall q, mem_get h' q = if existsb (Z.eqb q) (c_free c) then None else mem_get (heap s) q).
  { subst h'. destruct (c_mem c) eqn:M; [apply fold_del; exact V2|]. destruct (V6 i c G) as [_ X]. rewrite (X M). auto. }
  destruct HH as [H1 H2]. clearbody h'.
  assert (E1 : forall q, existsb (Z.eqb q) (c_free c) = true -> In q (c_free c)).
  { intros q Q. apply existsb_exists in Q. destruct Q as [z [A B]]. apply Z.eqb_eq in B. subst. exact A. }
  assert (K : forall q, In q (held g) -> mem_get h' q = mem_get (heap s) q).
  { intros q Q. rewrite H2. destruct (existsb _ _) eqn:X; [|reflexivity]. apply E1 in X. destruct (V9 i c q G X). contradiction. }
  pose proof (used_split i (used g) (lost g)) as P. fold (held g) in P.
  assert (HE : forall q, In q (held (gupd g (EDel i) 0)) <-> In q (held g)).
  { intros q. cbn [gupd held used lost]. split; intros Q; [eapply Permutation_in; [apply Permutation_sym; exact P|exact Q]|eapply Permutation_in; [exact P|exact Q]]. }
  constructor.
  - cbn. rewrite set_nth_len. exact V1.
  - exact H1.
  - unfold held. cbn [gupd used lost]. eapply Permutation_NoDup; [exact P|exact V3].
  - intros j p. cbn [gupd used]. rewrite filter_In. cbn. intros [A B]. destruct (V4 j p A) as [e [d [Q1 [Q2 [Q3 Q4]]]]]. exists e, d.
    rewrite get_set by exact L. destruct (Nat.eqb_spec i j) as [->|]; [rewrite Nat.eqb_refl in B; discriminate|]. split; [exact Q1|]. split; [exact Q2|].
    split; [|exact Q4]. rewrite K; [exact Q3|eapply held_in; exact A].
  - cbn [gupd lost]. intros p Q. cbn [heap]. apply in_app_iff in Q. rewrite K.
    + destruct Q as [Q|Q]; [|auto]. apply in_map_iff in Q. destruct Q as [[a b] [Q1 Q2]]. cbn in Q1. subst b. apply filter_In in Q2. destruct Q2 as [Q2 _].
      destruct (V4 a p Q2) as [e [d [_ [_ [X _]]]]]. congruence.
    + apply in_app_iff. destruct Q as [Q|Q]; [left|right; exact Q]. apply in_map_iff in Q. destruct Q as [[a b] [Q1 Q2]]. cbn in Q1. subst b.
      apply filter_In in Q2. apply in_map_iff. exists (a, p). tauto.
  - intros j e. rewrite get_set by exact L. destruct (Nat.eqb i j); [discriminate|apply V6].
  - intros j e. rewrite get_set by exact L. destruct (Nat.eqb i j); [discriminate|apply V7].
  - intros j e. rewrite get_set by exact L. destruct (Nat.eqb_spec i j) as [|N]; [discriminate|]. intros A B. rewrite (V8 j e A B). f_equal. unfold count. cbn [gupd used].
    f_equal. clear - N. induction (used g) as [|[a b] u IH]; cbn [filter fst]; [reflexivity|]. destruct (Nat.eqb_spec a i) as [->|]; cbn [negb].
    + destruct (Nat.eqb_spec i j); [contradiction|exact IH].
    + cbn [filter fst]. destruct (Nat.eqb a j); cbn [length]; congruence.
  - intros j e p. rewrite get_set by exact L. destruct (Nat.eqb_spec i j) as [|N]; [discriminate|]. intros A B. destruct (V9 j e p A B) as [C [d [D1 D2]]].
    split; [rewrite HE; exact C|]. exists d. split; [|exact D2]. cbn [heap]. rewrite H2. destruct (existsb _ _) eqn:X; [|exact D1]. apply E1 in X.
    exfalso. apply N. exact (V10 i j c e p G A X B).
  - intros j k e f p. rewrite !get_set by exact L. destruct (Nat.eqb i j); [discriminate|]. destruct (Nat.eqb i k); [discriminate|]. apply V10.
  - intros p. cbn [heap]. rewrite H2. destruct (existsb (Z.eqb p) (c_free c)) eqn:X; [congruence|]. intros Q. destruct (V11 p Q) as [A|[j [e [A B]]]].
    + left. apply HE. exact A.
    + right. exists j, e. rewrite get_set by exact L. destruct (Nat.eqb_spec i j) as [->|]; [|auto]. exfalso. assert (e = c) by congruence. subst e.
      assert (Y : existsb (Z.eqb p) (c_free c) = true) by (apply existsb_exists; exists p; split; [exact B|apply Z.eqb_refl]). congruence.
Qed.

Lemma set_nth_twice {A} : forall (l : list A) i x y, set_nth (set_nth l i x) i y = set_nth l i y.
Proof. induction l as [|z l IH]; intros [|i] x y; cbn; congruence. Qed.
Lemma u32_add a b : u32 (u32 a + b) = u32 (a + b).
Proof. unfold u32. rewrite Zplus_mod_idemp_l. reflexivity. Qed.
Lemma u32_sub a b : u32 (u32 a - b) = u32 (a - b).
Proof. unfold u32. rewrite Zminus_mod_idemp_l. reflexivity. Qed.

Lemma inv_hand s g i c q d fr fu h : inv s g -> get s i = Some c -> c_mem c = true -> NoDup (map fst h) -> mem_get h q = Some d ->
  (forall x, x <> q -> mem_get h x = mem_get (heap s) x) -> length d = (c_size c + 8)%nat -> firstn 8 (skipn (c_size c) d) = brand i ->
  (mem_get (heap s) q = None /\ fr = c_free c) \/ c_free c = q :: fr -> fu = u32 (Z.of_nat (length fr)) ->
  inv (mkCs (set_nth (cks s) i (Some (mkCk true (c_size c) (u32 (c_usage c + 1)) fr fu))) h) (mkG ((i, q) :: used g) (lost g)) /\ ~ In q (held g).
Proof.
  intros V G M HN HQ HX HL HB HF HU. pose proof (get_lt _ _ _ G) as L. destruct V as [V1 V2 V3 V4 V5 V6 V7 V8 V9 V10 V11].
  assert (NH : ~ In q (held g)).
  { destruct HF as [[A _]|A]; [|apply (V9 i c q G); rewrite A; left; reflexivity]. intros Q. apply in_app_iff in Q. destruct Q as [Q|Q]; [|exact (V5 q Q A)].
    apply in_map_iff in Q. destruct Q as [[a b] [Q1 Q2]]. cbn in Q1. subst b. destruct (V4 a q Q2) as [e [f [_ [_ [X _]]]]]. congruence. }
  assert (NF : forall j e, get s j = Some e -> In q (c_free e) -> j = i /\ c_free c = q :: fr).
  { intros j e A B. destruct HF as [[C _]|C]; [destruct (V9 j e q A B) as [_ [f [X _]]]; congruence|]. split; [|exact C].
    apply (V10 j i e c q A G B). rewrite C. left. reflexivity. }
  assert (FR : incl fr (c_free c)) by (destruct HF as [[_ HE]|HE]; rewrite HE; [apply incl_refl|apply incl_tl; apply incl_refl]).
  assert (FQ : ~ In q fr).
  { destruct HF as [[A ->]|A]; [intros B; destruct (NF i c G B) as [_ Y]; destruct (V9 i c q G B) as [_ [f [X _]]]; congruence|].
    destruct (V7 i c G) as [X _]. rewrite A in X. inversion X; auto. }
  split; [|exact NH].
  constructor; cbn [heap].
  - cbn. rewrite set_nth_len. exact V1.
  - exact HN.
  - unfold held. cbn. constructor; [exact NH|exact V3].
  - intros j p. cbn [used]. rewrite get_set by exact L. intros [XX|A]; [injection XX as <- <-|].
    + rewrite Nat.eqb_refl. eexists _, d. split; [reflexivity|]. cbn. auto.
    + destruct (V4 j p A) as [e [f [B1 [B2 [B3 [B4 B5]]]]]]. assert (p <> q) by (intros ->; apply NH; eapply held_in; exact A).
      destruct (Nat.eqb_spec i j) as [->|].
      * assert (e = c) by congruence. subst e. eexists _, f. split; [reflexivity|]. cbn. rewrite HX by assumption. auto.
      * exists e, f. rewrite HX by assumption. auto.
  - cbn [lost]. intros p A. rewrite HX; [auto|]. intros ->. apply NH. apply in_app_iff. auto.
  - intros j e. rewrite get_set by exact L. destruct (Nat.eqb i j); [intros E; apply Some_inj in E; subst e; cbn|apply V6].
    split; [intros _; apply (V6 i c G); exact M|discriminate].
  - intros j e. rewrite get_set by exact L. destruct (Nat.eqb i j); [intros E; apply Some_inj in E; subst e; cbn|apply V7].
    split; [|exact HU]. destruct (V7 i c G) as [X _]. destruct HF as [[_ ->]|A]; [exact X|]. rewrite A in X. inversion X; auto.
  - intros j e. rewrite get_set by exact L. unfold count. cbn [used filter fst]. destruct (Nat.eqb_spec i j) as [->|].
    + intros E; apply Some_inj in E; subst e; cbn [c_usage c_mem]. intros _. rewrite (V8 j c G M), u32_add. unfold count. cbn [length]. f_equal. lia.
    + apply V8.
  - intros j e p. rewrite get_set by exact L.
    assert (KK : forall k f, get s k = Some f -> In p (c_free f) -> p <> q -> ~ In p (held (mkG ((i, q) :: used g) (lost g))) /\
               exists d0, mem_get h p = Some d0 /\ length d0 = (c_size f + 8)%nat /\ ((16 <= c_size f)%nat -> firstn 8 (skipn (c_size f) d0) = repeat 0 8)).
    { intros k f A B N. destruct (V9 k f p A B) as [C [d0 D]]. split; [|exists d0; rewrite HX by exact N; exact D].
      unfold held. cbn. intros [X|X]; [congruence|]. apply C. exact X. }
    destruct (Nat.eqb i j) eqn:EQ.
    + intros E; apply Some_inj in E; subst e; cbn [c_free c_size]. intros A. apply (KK i c G (FR p A)). intros ->. contradiction.
    + intros A B. apply (KK j e A B). intros ->. destruct (NF j e A B) as [-> _]. rewrite Nat.eqb_refl in EQ. discriminate.
  - intros j k e f p. rewrite !get_set by exact L. destruct (Nat.eqb_spec i j) as [<-|], (Nat.eqb_spec i k) as [<-|]; auto.
    + intros E; apply Some_inj in E; subst e; cbn [c_free]. intros A B C. exact (V10 i k c f p G A (FR p B) C).
    + intros A E; apply Some_inj in E; subst f; cbn [c_free]. intros B C. exact (V10 j i e c p A G B (FR p C)).
    + apply V10.
  - intros p A. destruct (Z.eq_dec p q) as [->|N]; [left; left; reflexivity|]. rewrite HX in A by exact N. destruct (V11 p A) as [B|[j [e [B C]]]]; [left; right; exact B|].
    right. exists j. rewrite get_set by exact L. destruct (Nat.eqb_spec i j) as [<-|]; [|exists e; auto]. eexists. split; [reflexivity|]. cbn.
    assert (e = c) by congruence. subst e. destruct HF as [[_ ->]|D]; [exact C|]. rewrite D in C. destruct C as [->|C]; [congruence|exact C].
Qed.

Lemma count_remove g i p : NoDup (held g) -> In (i, p) (used g) -> forall j,
  Z.of_nat (length (filter (fun x => Nat.eqb (fst x) j) (filter (fun x => negb (snd x =? p)) (used g)))) = count g j - (if Nat.eqb i j then 1 else 0).
Proof.
  unfold held, count. intros N A j. assert (N1 : NoDup (map snd (used g))).
  { revert N. generalize (lost g). generalize (map snd (used g)). clear. induction l as [|x l IH]; intros m N; [constructor|].
    inversion N as [|? ? N1 N2]; subst. constructor; [intros H; apply N1; apply in_app_iff; auto|eauto]. }
  clear N. revert N1 A. induction (used g) as [|[a b] u IH]; [contradiction|]. cbn [map snd In]. intros N1 A. inversion N1 as [|? ? N2 N3]; subst.
  destruct A as [XX|A]; [injection XX as -> ->|].
  - cbn [filter snd fst]. rewrite Z.eqb_refl. cbn [negb]. assert (Q : filter (fun x => negb (snd x =? p)) u = u).
    { clear - N2. induction u as [|[a b] u IH]; [reflexivity|]. cbn [filter snd]. cbn in N2. destruct (Z.eqb_spec b p); [exfalso; apply N2; left; exact e|].
      cbn. f_equal. apply IH. intros H. apply N2. right. exact H. }
    rewrite Q. destruct (Nat.eqb i j); cbn [length]; lia.
  - specialize (IH N3 A). cbn [filter snd fst]. assert (b <> p) by (intros ->; apply N2; apply in_map_iff; exists (i, p); auto).
    destruct (Z.eqb_spec b p); [contradiction|]. cbn [negb filter fst]. destruct (Nat.eqb a j); cbn [length]; lia.
Qed.
Lemma held_remove g i p q r j : NoDup (held g) -> In (i, p) (used g) -> (In q (held (gupd g (EFree i p j) r)) <-> In q (held g) /\ q <> p).
Proof.
  intros N A. unfold held. cbn [gupd used lost]. rewrite !in_app_iff, !in_map_iff. split.
  - intros [[[a b] [B C]]|B].
    + cbn in B. subst b. apply filter_In in C. destruct C as [C D]. cbn in D. split; [left; exists (a, q); auto|]. destruct (Z.eqb_spec q p); [discriminate|assumption].
    + split; [auto|]. intros ->. assert (X : In p (map snd (used g))) by (apply in_map_iff; exists (i, p); auto).
      unfold held in N. revert N B X. clear. generalize (lost g). generalize (map snd (used g)). induction l as [|x l IH]; cbn; [tauto|].
      intros m N B [->|X]; inversion N as [|? ? N1 N2]; subst; [apply N1; apply in_app_iff; auto|eauto].
  - intros [[[[a b] [B C]]|B] D]; [|auto]. cbn in B. subst b. left. exists (a, q). split; [reflexivity|]. apply filter_In. cbn. split; [exact C|].
    destruct (Z.eqb_spec q p); [contradiction|reflexivity].
Qed.
Lemma inv_back s g i c p fr fu h j r : inv s g -> get s i = Some c -> In (i, p) (used g) -> NoDup (map fst h) ->
  (forall x, x <> p -> mem_get h x = mem_get (heap s) x) ->
  (mem_get h p = None /\ fr = c_free c) \/ (fr = c_free c ++ [p] /\ exists d, mem_get h p = Some d /\ length d = (c_size c + 8)%nat /\
                                             ((16 <= c_size c)%nat -> firstn 8 (skipn (c_size c) d) = repeat 0 8)) ->
  fu = u32 (Z.of_nat (length fr)) ->
  inv (mkCs (set_nth (cks s) i (Some (mkCk (c_mem c) (c_size c) (u32 (c_usage c - 1)) fr fu))) h) (gupd g (EFree i p j) r).
Proof.
  intros V G U HN HX HF HU. pose proof (get_lt _ _ _ G) as L. destruct V as [V1 V2 V3 V4 V5 V6 V7 V8 V9 V10 V11].
  pose proof (fun q => held_remove g i p q r j V3 U) as HR.
  destruct (V4 i p U) as [c0 [d0 [X1 [M _]]]]. assert (c0 = c) by congruence. subst c0. clear X1.
  assert (NP : forall k e, get s k = Some e -> ~ In p (c_free e)).
  { intros k e A B. destruct (V9 k e p A B) as [C _]. apply C. eapply held_in. exact U. }
  assert (FR : forall q, In q fr -> In q (c_free c) \/ (q = p /\ exists d, mem_get h p = Some d /\ length d = (c_size c + 8)%nat /\
                                             ((16 <= c_size c)%nat -> firstn 8 (skipn (c_size c) d) = repeat 0 8))).
  { intros q Q. destruct HF as [[_ ->]|[-> D]]; [auto|]. apply in_app_iff in Q. destruct Q as [Q|[<-|[]]]; auto. }
  constructor; cbn [heap].
  - cbn. rewrite set_nth_len. exact V1.
  - exact HN.
  - unfold held in *. cbn [gupd used lost] in *. revert V3. clear. generalize (lost g). induction (used g) as [|[a b] u IH]; intros l N; [exact N|].
    cbn [map snd app] in N. inversion N as [|? ? N1 N2]; subst. cbn [filter snd]. destruct (b =? p); cbn [negb]; [apply IH; exact N2|].
    cbn. constructor; [|apply IH; exact N2]. intros H. apply N1. apply in_app_iff in H. apply in_app_iff. destruct H as [H|H]; [left|auto].
    apply in_map_iff in H. destruct H as [y [Y1 Y2]]. apply filter_In in Y2. apply in_map_iff. exists y. tauto.
  - intros k q. cbn [gupd used]. rewrite filter_In. cbn. intros [A B]. assert (q <> p) by (destruct (Z.eqb_spec q p); [discriminate|assumption]).
    destruct (V4 k q A) as [e [f [B1 [B2 [B3 [B4 B5]]]]]]. rewrite get_set by exact L. rewrite HX by assumption. destruct (Nat.eqb_spec i k) as [<-|].
    + assert (e = c) by congruence. subst e. eexists _, f. split; [reflexivity|]. cbn. auto.
    + exists e, f. auto.
  - intros q A. cbn in A. rewrite HX; [auto|]. intros ->. assert (X : In p (held (gupd g (EFree i p j) r))) by (unfold held; cbn; apply in_app_iff; auto).
    apply HR in X. tauto.
  - intros k e. rewrite get_set by exact L. destruct (Nat.eqb i k); [intros E; apply Some_inj in E; subst e; cbn|apply V6]. rewrite M.
    split; [intros _; apply (V6 i c G); exact M|discriminate].
  - intros k e. rewrite get_set by exact L. destruct (Nat.eqb i k); [intros E; apply Some_inj in E; subst e; cbn|apply V7].
    split; [|exact HU]. destruct (V7 i c G) as [X _]. destruct HF as [[_ ->]|[-> _]]; [exact X|].
    apply NoDup_rev in X. rewrite <- (rev_involutive (c_free c ++ [p])). apply NoDup_rev. rewrite rev_app_distr. cbn. constructor; [|exact X].
    rewrite <- in_rev. apply (NP i c G).
  - intros k e. rewrite get_set by exact L. unfold count. cbn [gupd used]. rewrite (count_remove g i p V3 U). destruct (Nat.eqb_spec i k) as [<-|].
    + intros E; apply Some_inj in E; subst e; cbn [c_usage c_mem]. intros _. rewrite (V8 i c G M), u32_sub. reflexivity.
    + rewrite Z.sub_0_r. apply V8.
  - intros k e q. rewrite get_set by exact L. rewrite HR.
    assert (KK : forall z f, get s z = Some f -> In q (c_free f) -> ~ (In q (held g) /\ q <> p) /\
               exists d0, mem_get h q = Some d0 /\ length d0 = (c_size f + 8)%nat /\ ((16 <= c_size f)%nat -> firstn 8 (skipn (c_size f) d0) = repeat 0 8)).
    { intros z f A B. destruct (V9 z f q A B) as [C [dd D]]. split; [tauto|]. exists dd. rewrite HX; [exact D|]. intros ->. exact (NP z f A B). }
    destruct (Nat.eqb i k) eqn:EQ; [|apply KK]. intros E; apply Some_inj in E; subst e; cbn [c_free c_size]. intros A.
    destruct (FR q A) as [B|[-> D]]; [apply (KK i c G B)|]. split; [tauto|exact D].
  - intros k z e f q. rewrite !get_set by exact L. destruct (Nat.eqb_spec i k) as [<-|], (Nat.eqb_spec i z) as [<-|]; auto.
    + intros E; apply Some_inj in E; subst e; cbn [c_free]. intros A B C. destruct (FR q B) as [B1|[-> _]]; [exact (V10 i z c f q G A B1 C)|]. exfalso. exact (NP z f A C).
    + intros A E; apply Some_inj in E; subst f; cbn [c_free]. intros B C. destruct (FR q C) as [C1|[-> _]]; [exact (V10 k i e c q A G B C1)|]. exfalso. exact (NP k e A B).
    + apply V10.
  - intros q A. rewrite HR. destruct (Z.eq_dec q p) as [->|N].
    + destruct HF as [[B _]|[-> _]]; [congruence|]. right. exists i. rewrite get_set by exact L. rewrite Nat.eqb_refl. eexists. split; [reflexivity|]. cbn.
      apply in_app_iff. right. left. reflexivity.
    + rewrite HX in A by exact N. destruct (V11 q A) as [B|[k [e [B C]]]]; [auto|]. right. exists k. rewrite get_set by exact L.
      destruct (Nat.eqb_spec i k) as [<-|]; [|exists e; auto]. eexists. split; [reflexivity|]. cbn. assert (e = c) by congruence. subst e.
      destruct HF as [[_ ->]|[-> _]]; [exact C|apply in_app_iff; auto].
Qed.

Lemma put_usage s i c : get s i = Some c -> forall f fu h u, let s0 := mkCs (set_nth (cks s) i (Some (mkCk (c_mem c) (c_size c) u f fu))) h in
  usage_incr s0 i = mkCs (set_nth (cks s) i (Some (mkCk (c_mem c) (c_size c) (u32 (u + 1)) f fu))) h /\
  usage_decr s0 i = mkCs (set_nth (cks s) i (Some (mkCk (c_mem c) (c_size c) (u32 (u - 1)) f fu))) h.
Proof.
  intros G f fu h u s0. pose proof (get_lt _ _ _ G) as L. unfold usage_incr, usage_decr.
  assert (E : get s0 i = Some (mkCk (c_mem c) (c_size c) u f fu)) by (unfold s0; rewrite get_set by exact L; rewrite Nat.eqb_refl; reflexivity).
  rewrite E. unfold put, s0. cbn [cks heap c_mem c_size c_usage c_free c_fusage]. rewrite !set_nth_twice. auto.
Qed.
Lemma same_usage s i c h : get s i = Some c ->
  usage_incr (mkCs (cks s) h) i = mkCs (set_nth (cks s) i (Some (mkCk (c_mem c) (c_size c) (u32 (c_usage c + 1)) (c_free c) (c_fusage c)))) h /\
  usage_decr (mkCs (cks s) h) i = mkCs (set_nth (cks s) i (Some (mkCk (c_mem c) (c_size c) (u32 (c_usage c - 1)) (c_free c) (c_fusage c)))) h.
Proof.
  intros G. unfold usage_incr, usage_decr. assert (E : get (mkCs (cks s) h) i = Some c) by exact G. rewrite E. auto.
Qed.
Lemma firstn_repeat_app {A} n (x : A) l : firstn n (repeat x n ++ l) = repeat x n.
Proof. rewrite firstn_app, repeat_length, Nat.sub_diag, firstn_all2 by (rewrite repeat_length; lia). cbn. apply app_nil_r. Qed.

Lemma inv_malloc s g i p c : inv s g -> get s i = Some c -> c_mem c = true -> mem_get (heap s) p = None ->
  exists s' q d, cookie_malloc s i p = Ok s' q /\ inv s' (gupd g (EMalloc i p) q) /\ ~ In q (held g) /\
    mem_get (heap s') q = Some d /\ length d = (c_size c + 8)%nat /\ firstn (c_size c) d = repeat 0 (c_size c) /\
    (forall x, x <> q -> mem_get (heap s') x = mem_get (heap s) x).
Proof.
  intros V G M P. unfold cookie_malloc. rewrite G. destruct (I_fnd _ _ V i c G) as [F1 F2].
  destruct (c_fusage c =? 0) eqn:Z0.
  - cbn [heap cks mem_get]. rewrite Z.eqb_refl.
    assert (LL : length (repeat 0 (c_size c + BRAND)) = (c_size c + 8)%nat) by (rewrite repeat_length; reflexivity).
    destruct (poke (repeat 0 (c_size c + BRAND)) (c_size c) (brand i)) as [d|] eqn:K; [|rewrite poke_spec in K by (rewrite LL, brand_len; lia); discriminate].
    pose proof (poke_len _ _ _ _ K) as K1. pose proof (poke_at _ _ _ _ K) as K2. rewrite brand_len in K2. pose proof (poke_below _ _ _ _ (c_size c) K (le_n _)) as K3.
    destruct (same_usage s i c (mem_set ((p, repeat 0 (c_size c + BRAND)) :: heap s) p d) G) as [E _]. rewrite E. clear E.
    set (h := mem_set ((p, repeat 0 (c_size c + BRAND)) :: heap s) p d).
    assert (H0 : mem_get ((p, repeat 0 (c_size c + BRAND)) :: heap s) p <> None) by (cbn; rewrite Z.eqb_refl; discriminate).
    assert (HG : forall x, mem_get h x = if p =? x then Some d else mem_get (heap s) x).
    { intros x. unfold h. rewrite mem_get_set by exact H0. cbn. destruct (p =? x); reflexivity. }
    assert (HK : NoDup (map fst h)).
    { unfold h. rewrite mem_set_keys. cbn. constructor; [|apply (I_keys _ _ V)]. intros X. apply mem_get_in in X. contradiction. }
    clearbody h.
    destruct (inv_hand s g i c p d (c_free c) (c_fusage c) h V G M HK) as [W1 W2]; auto.
    + rewrite HG, Z.eqb_refl. reflexivity.
    + intros x X. rewrite HG. destruct (Z.eqb_spec p x); [congruence|reflexivity].
    + lia.
    + exists (mkCs (set_nth (cks s) i (Some (mkCk (c_mem c) (c_size c) (u32 (c_usage c + 1)) (c_free c) (c_fusage c)))) h), p, d.
      rewrite M. split; [reflexivity|]. split; [exact W1|]. split; [exact W2|]. cbn [heap]. rewrite HG, Z.eqb_refl. split; [reflexivity|]. split; [lia|].
      split; [|intros x X; rewrite HG; destruct (Z.eqb_spec p x); [congruence|reflexivity]]. rewrite K3, repeat_app. apply firstn_repeat_app.
  - destruct (c_free c) as [|q fr] eqn:FC; [rewrite F2 in Z0; discriminate|]. destruct (I_free _ _ V i c q G ltac:(rewrite FC; left; reflexivity)) as [N [d0 [D1 [D2 _]]]].
    rewrite D1. destruct (poke d0 0 (repeat 0 (c_size c))) as [d1|] eqn:K0; [|rewrite poke_spec in K0 by (rewrite repeat_length; lia); discriminate].
    pose proof (poke_len _ _ _ _ K0) as L0. pose proof (poke_at _ _ _ _ K0) as A0. cbn [skipn] in A0. rewrite repeat_length in A0.
    cbn [heap cks]. rewrite mem_get_set by congruence. rewrite Z.eqb_refl.
    destruct (poke d1 (c_size c) (brand i)) as [d|] eqn:K; [|rewrite poke_spec in K by (rewrite brand_len; lia); discriminate].
    pose proof (poke_len _ _ _ _ K) as K1. pose proof (poke_at _ _ _ _ K) as K2. rewrite brand_len in K2. pose proof (poke_below _ _ _ _ (c_size c) K (le_n _)) as K3.
    destruct (put_usage s i c G fr (u32 (c_fusage c - 1)) (mem_set (mem_set (heap s) q d1) q d) (c_usage c)) as [E _]. rewrite E. clear E.
    set (h := mem_set (mem_set (heap s) q d1) q d).
    assert (HG : forall x, mem_get h x = if q =? x then Some d else mem_get (heap s) x).
    { intros x. unfold h. rewrite !mem_get_set; [destruct (q =? x); reflexivity|congruence|]. rewrite mem_get_set by congruence. rewrite Z.eqb_refl. discriminate. }
    assert (HK : NoDup (map fst h)) by (unfold h; rewrite !mem_set_keys; apply (I_keys _ _ V)).
    clearbody h.
    destruct (inv_hand s g i c q d fr (u32 (c_fusage c - 1)) h V G M HK) as [W1 W2]; auto.
    + rewrite HG, Z.eqb_refl. reflexivity.
    + intros x X. rewrite HG. destruct (Z.eqb_spec q x); [congruence|reflexivity].
    + lia.
    + rewrite F2, u32_sub. f_equal. cbn [length]. lia.
    + exists (mkCs (set_nth (cks s) i (Some (mkCk (c_mem c) (c_size c) (u32 (c_usage c + 1)) fr (u32 (c_fusage c - 1))))) h), q, d.
      rewrite M. split; [reflexivity|]. split; [exact W1|]. split; [exact W2|]. cbn [heap]. rewrite HG, Z.eqb_refl. split; [reflexivity|]. split; [lia|].
      split; [|intros x X; rewrite HG; destruct (Z.eqb_spec q x); [congruence|reflexivity]]. rewrite K3. exact A0.
Qed.

Lemma inv_free s g i p junk : inv s g -> In (i, p) (used g) -> length junk = NODE ->
  exists s', cookie_free s i p junk = Ok s' 0 /\ inv s' (gupd g (EFree i p junk) 0) /\ (forall x, x <> p -> mem_get (heap s') x = mem_get (heap s) x).
Proof.
  intros V U J. destruct (I_blk _ _ V i p U) as [c [d [G [M [D1 [D2 D3]]]]]]. unfold cookie_free. rewrite G, D1.
  assert (PK : peek d (c_size c) BRAND = Some (brand i)).
  { unfold peek. rewrite (proj2 (Nat.leb_le _ _)); [unfold BRAND; rewrite D3; reflexivity|unfold BRAND; lia]. }
  rewrite PK. assert (B : beq (brand i) (brand i) = true) by (unfold beq; destruct (list_eq_dec _ _ _); [reflexivity|congruence]). rewrite B. cbn [negb].
  destruct (poke d (c_size c) (repeat 0 BRAND)) as [d1|] eqn:K1; [|rewrite poke_spec in K1 by (rewrite repeat_length; unfold BRAND; lia); discriminate].
  pose proof (poke_len _ _ _ _ K1) as L1. pose proof (poke_at _ _ _ _ K1) as A1. rewrite repeat_length in A1. unfold BRAND in A1.
  destruct (I_fnd _ _ V i c G) as [F1 F2]. destruct (I_size _ _ V i c G) as [S1 _]. specialize (S1 M).
  destruct ((c_fusage c <? THRESHOLD) || (c_fusage c <? c_usage c / THRESHOLD)).
  - destruct (poke d1 0 junk) as [d2|] eqn:K2; [|rewrite poke_spec in K2 by (rewrite J; unfold NODE; lia); discriminate].
    pose proof (poke_len _ _ _ _ K2) as L2. pose proof (poke_above _ _ _ _ (c_size c) K2) as A2. rewrite J in A2. unfold NODE in A2.
    destruct (put_usage s i c G (c_free c ++ [p]) (u32 (c_fusage c + 1)) (mem_set (heap s) p d2) (c_usage c)) as [_ E]. rewrite E. clear E.
    assert (HG : forall x, mem_get (mem_set (heap s) p d2) x = if p =? x then Some d2 else mem_get (heap s) x) by (intros x; apply mem_get_set; congruence).
    eexists. split; [reflexivity|]. split; [|intros x X; cbn [heap]; rewrite HG; destruct (Z.eqb_spec p x); [congruence|reflexivity]].
    apply inv_back; auto.
    + rewrite mem_set_keys. apply (I_keys _ _ V).
    + intros x X. rewrite HG. destruct (Z.eqb_spec p x); [congruence|reflexivity].
    + right. split; [reflexivity|]. exists d2. rewrite HG, Z.eqb_refl. split; [reflexivity|]. split; [lia|]. intros Q. rewrite A2 by lia. exact A1.
    + rewrite F2, u32_add, app_length. cbn [length]. f_equal. lia.
  - destruct (same_usage s i c (mem_del (heap s) p) G) as [_ E]. rewrite E. clear E.
    assert (HG : forall x, mem_get (mem_del (heap s) p) x = if p =? x then None else mem_get (heap s) x) by (intros x; apply mem_get_del; apply (I_keys _ _ V)).
    eexists. split; [reflexivity|]. split; [|intros x X; cbn [heap]; rewrite HG; destruct (Z.eqb_spec p x); [congruence|reflexivity]].
    apply inv_back; auto.
    + apply mem_del_keys. apply (I_keys _ _ V).
    + intros x X. rewrite HG. destruct (Z.eqb_spec p x); [congruence|reflexivity].
    + left. rewrite HG, Z.eqb_refl. auto.
Qed.

Lemma firstn_skipn_poke d o v d' n m : poke d o [v] = Some d' -> (o < n)%nat -> firstn m (skipn n d') = firstn m (skipn n d).
Proof. intros K L. rewrite (poke_above _ _ _ _ n K) by (cbn; lia). reflexivity. Qed.
Lemma inv_write s g i p o v c : inv s g -> In (i, p) (used g) -> get s i = Some c -> (o < c_size c)%nat ->
  exists s', user_write s p o v = Ok s' 0 /\ inv s' g /\ (forall x, x <> p -> mem_get (heap s') x = mem_get (heap s) x).
Proof.
  intros V U G O. destruct (I_blk _ _ V i p U) as [c0 [d [G0 [M [D1 [D2 D3]]]]]]. assert (c0 = c) by congruence. subst c0. unfold user_write. rewrite D1.
  destruct (poke d o [v]) as [d'|] eqn:K; [|rewrite poke_spec in K by (cbn; lia); discriminate].
  assert (HG : forall x, mem_get (mem_set (heap s) p d') x = if p =? x then Some d' else mem_get (heap s) x) by (intros x; apply mem_get_set; congruence).
  eexists. split; [reflexivity|]. split; [|intros x X; cbn [heap]; rewrite HG; destruct (Z.eqb_spec p x); [congruence|reflexivity]].
  pose proof (held_in _ _ _ U) as UH.
  destruct V as [V1 V2 V3 V4 V5 V6 V7 V8 V9 V10 V11]. constructor; auto.
  - cbn. rewrite mem_set_keys. exact V2.
  - intros j q A. cbn [heap]. destruct (V4 j q A) as [e [f [B1 [B2 [B3 [B4 B5]]]]]]. rewrite HG. destruct (Z.eqb_spec p q) as [<-|].
    + assert (j = i) by (eapply used_inj; eauto). subst j. assert (e = c) by congruence. subst e. assert (f = d) by congruence. subst f.
      exists c, d'. split; [exact B1|]. split; [exact B2|]. split; [reflexivity|]. split; [rewrite (poke_len _ _ _ _ K); exact B4|].
      rewrite (firstn_skipn_poke _ _ _ _ _ _ K O). exact B5.
    + exists e, f. auto.
  - intros q A. cbn [heap]. rewrite HG. destruct (p =? q); [discriminate|auto].
  - intros j e q A B. destruct (V9 j e q A B) as [C [f D]]. split; [exact C|]. exists f. cbn [heap]. rewrite HG. destruct (Z.eqb_spec p q) as [<-|]; [contradiction|exact D].
  - intros q. cbn [heap]. rewrite HG. destruct (Z.eqb_spec p q) as [<-|]; [auto|apply V11].
Qed.

Lemma inv_count s g i c u : inv s g -> get s i = Some c -> c_mem c = false ->
  inv (put s i (Some (mkCk (c_mem c) (c_size c) u (c_free c) (c_fusage c)))) g.
Proof.
  intros V G M. pose proof (get_lt _ _ _ G) as L. destruct V as [V1 V2 V3 V4 V5 V6 V7 V8 V9 V10 V11].
  assert (GG : forall j e, get (put s i (Some (mkCk (c_mem c) (c_size c) u (c_free c) (c_fusage c)))) j = Some e ->
     exists e0, get s j = Some e0 /\ c_mem e = c_mem e0 /\ c_size e = c_size e0 /\ c_free e = c_free e0 /\ c_fusage e = c_fusage e0 /\ (c_mem e = true -> e = e0)).
  { intros j e. unfold put. rewrite get_set by exact L. destruct (Nat.eqb_spec i j) as [<-|].
    - intros E. apply Some_inj in E. subst e. exists c. cbn. rewrite M. repeat (split; [auto|]). discriminate.
    - intros E. exists e. auto 10. }
  constructor; auto.
  - cbn. rewrite set_nth_len. exact V1.
  - intros j p A. destruct (V4 j p A) as [e [f B]]. exists e, f. unfold put. rewrite get_set by exact L. destruct (Nat.eqb_spec i j) as [<-|]; [|exact B].
    destruct B as [B1 [B2 _]]. congruence.
  - intros j e A. destruct (GG j e A) as [e0 [B1 [B2 [B3 [B4 _]]]]]. rewrite B2, B3, B4. apply (V6 j e0 B1).
  - intros j e A. destruct (GG j e A) as [e0 [B1 [B2 [B3 [B4 [B5 _]]]]]]. rewrite B4, B5. apply (V7 j e0 B1).
  - intros j e A A2. destruct (GG j e A) as [e0 [B1 [_ [_ [_ [_ B6]]]]]]. pose proof (B6 A2) as EE. subst e0. apply V8; assumption.
  - intros j e p A A2. destruct (GG j e A) as [e0 [B1 [B2 [B3 [B4 _]]]]]. rewrite B4 in A2. rewrite B3. apply (V9 j e0 p B1 A2).
  - intros j k e f p A B. destruct (GG j e A) as [e0 [C1 [_ [_ [C2 _]]]]]. destruct (GG k f B) as [f0 [D1 [_ [_ [D2 _]]]]]. rewrite C2, D2. apply (V10 j k e0 f0 p C1 D1).
  - intros p A. destruct (V11 p A) as [B|[j [e [B C]]]]; [auto|right]. exists j. unfold put. rewrite get_set by exact L. destruct (Nat.eqb_spec i j) as [<-|]; [|exists e; auto].
    eexists. split; [reflexivity|]. cbn. congruence.
Qed.

Lemma hist_inv s g : hist s g -> inv s g.
Proof.
  induction 1 as [|s g e s' r H IH A E]; [apply inv_init|]. destruct e; cbn [allowed cstep] in *.
  - pose proof (inv_new s g m size IH A) as K. rewrite E in K. exact K.
  - pose proof (inv_del s g i IH A) as K. rewrite E in K. exact K.
  - destruct A as [[c [A1 A2]] A3]. destruct (inv_malloc s g i p c IH A1 A2 A3) as [s1 [q [d [B1 [B2 _]]]]]. rewrite B1 in E. injection E as <- <-. exact B2.
  - destruct A as [A1 A2]. destruct (inv_free s g i p junk IH A1 A2) as [s1 [B1 [B2 _]]]. rewrite B1 in E. injection E as <- <-. exact B2.
  - destruct A as [i [c [A1 [A2 A3]]]]. destruct (inv_write s g i p o v c IH A1 A2 A3) as [s1 [B1 [B2 _]]]. rewrite B1 in E. injection E as <- <-. exact B2.
  - injection E as <- <-. cbn [gupd]. unfold usage_incr. destruct (get s i) as [c|] eqn:G; [|exact IH]. apply inv_count; auto.
  - injection E as <- <-. cbn [gupd]. unfold usage_decr. destruct (get s i) as [c|] eqn:G; [|exact IH]. apply inv_count; auto.
Qed.

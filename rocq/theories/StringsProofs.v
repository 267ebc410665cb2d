(** Proofs about bounded string copies. *)
From Verif Require Import Base Strings StringsSpec.

Lemma cstr_app : forall s t, is_str s -> cstr (s ++ 0 :: t) = Some s.
Proof.
  induction s as [|c s IH]; intros t H; [reflexivity|].
  inversion H; subst. simpl. destruct (Z.eqb_spec c 0); [contradiction|].
  rewrite IH by assumption. reflexivity.
Qed.

Lemma cstr_split : forall m c, cstr m = Some c ->
  is_str c /\ exists t, m = c ++ 0 :: t.
Proof.
  induction m as [|b m IH]; intros c H; [discriminate|]. simpl in H.
  destruct (Z.eqb_spec b 0) as [->|N].
  - injection H as <-. split; [constructor|]. exists m. reflexivity.
  - destruct (cstr m) as [s|]; [|discriminate]. injection H as <-.
    destruct (IH s eq_refl) as (H1 & t & ->). split; [constructor; assumption|]. exists t. reflexivity.
Qed.

Lemma strlen_app : forall s t, is_str s -> strlen (s ++ 0 :: t) = Some (Z.of_nat (length s)).
Proof.
  induction s as [|c s IH]; intros t H; [reflexivity|].
  inversion H; subst. cbn [app strlen]. destruct (Z.eqb_spec c 0); [contradiction|].
  rewrite IH by assumption. f_equal. cbn [length]. lia.
Qed.

Lemma is_str_firstn : forall n s, is_str s -> is_str (firstn n s).
Proof.
  intros n s H. unfold is_str in *. rewrite Forall_forall in *. intros x Hx.
  apply H. rewrite <- (firstn_skipn n s). apply in_or_app. left. assumption.
Qed.

Lemma is_str_app : forall s t, is_str s -> is_str t -> is_str (s ++ t).
Proof. intros. unfold is_str in *. apply Forall_app. auto. Qed.

(** The common part: copy [src] after the string [c]. *)
Lemma internal_spec : forall c t src size,
  is_str c -> is_str src -> 0 < size ->
  size <= Z.of_nat (length t) ->
  exists d, internal_strscpy (c ++ t) (Z.of_nat (length c)) src size = Some d /\
    length d = length (c ++ t) /\
    d = c ++ firstn (Z.to_nat (size - 1)) src ++ 0 :: skipn (S (length (firstn (Z.to_nat (size - 1)) src))) t.
Proof.
  intros c t src size Hc Hs H0 Hsz. unfold internal_strscpy.
  set (n := Z.min (size - 1) (Z.of_nat (length src))).
  assert (firstn (Z.to_nat n) src = firstn (Z.to_nat (size - 1)) src) as E.
  { unfold n. destruct (Z.min_spec (size - 1) (Z.of_nat (length src))) as [[? ->]|[? ->]]; [reflexivity|].
    rewrite Nat2Z.id, firstn_all. symmetry. apply firstn_all2. lia. }
  assert (length (firstn (Z.to_nat (size - 1)) src) = Z.to_nat n) as L.
  { rewrite <- E, firstn_length. unfold n. lia. }
  unfold put. rewrite app_length.
  destruct ((0 <=? Z.of_nat (length c) + n) && (Z.of_nat (length c) + n <? Z.of_nat (length c + length t))) eqn:B;
    [|exfalso; unfold n in B; lia].
  replace (Z.to_nat (Z.of_nat (length c) + n)) with (length c + Z.to_nat n)%nat by (unfold n; lia).
  rewrite firstn_app_2.
  assert (skipn (S (length c + Z.to_nat n)) (c ++ t) = skipn (S (Z.to_nat n)) t) as ->.
  { rewrite skipn_app. replace (S (length c + Z.to_nat n) - length c)%nat with (S (Z.to_nat n)) by lia.
    rewrite skipn_all2 by lia. reflexivity. }
  rewrite <- app_assoc. unfold put_all. rewrite E.
  assert (length (firstn (Z.to_nat n) t) = Z.to_nat n) as LF by (rewrite firstn_length; unfold n; lia).
  rewrite !app_length. cbn [length]. rewrite LF, L, skipn_length.
  match goal with |- context [if ?b then _ else _] => destruct b eqn:B2; [|exfalso; unfold n in *; lia] end.
  eexists. split; [reflexivity|].
  rewrite Nat2Z.id.
  assert (firstn (length c) (c ++ firstn (Z.to_nat n) t ++ 0 :: skipn (S (Z.to_nat n)) t) = c) as ->.
  { rewrite firstn_app, Nat.sub_diag, firstn_all, firstn_O, app_nil_r. reflexivity. }
  assert (skipn (length c + Z.to_nat n) (c ++ firstn (Z.to_nat n) t ++ 0 :: skipn (S (Z.to_nat n)) t)
          = 0 :: skipn (S (Z.to_nat n)) t) as ->.
  { rewrite skipn_app. replace (length c + Z.to_nat n - length c)%nat with (Z.to_nat n) by lia.
    rewrite skipn_all2 by lia. cbn [app]. rewrite skipn_app, LF, Nat.sub_diag, skipn_O.
    rewrite skipn_all2 by lia. reflexivity. }
  split; [|reflexivity].
  rewrite !app_length. cbn [length]. rewrite skipn_length, L. unfold n in *. lia.
Qed.

Lemma skipn_plus : forall (a b : nat) (l : list Z), skipn a (skipn b l) = skipn (b + a) l.
Proof.
  intros a b. revert a. induction b as [|b IH]; intros a l; [reflexivity|].
  destruct l; [rewrite !skipn_nil; reflexivity|]. simpl. apply IH.
Qed.

Lemma skipn_far : forall (c x t : list Z) (n : nat),
  (length c + length x + 1 <= n)%nat ->
  skipn n (c ++ x ++ 0 :: skipn (S (length x)) t) = skipn n (c ++ t).
Proof.
  intros c x t n H. rewrite !skipn_app. rewrite (skipn_all2 c) by lia. cbn [app].
  rewrite (skipn_all2 x) by lia. cbn [app].
  destruct (n - length c - length x)%nat eqn:E; [lia|].
  change (skipn (S n0) (0 :: skipn (S (length x)) t)) with (skipn n0 (skipn (S (length x)) t)).
  rewrite skipn_plus. f_equal. lia.
Qed.

Lemma strscpy_spec : forall dest src size, is_str src -> 0 < size <= Z.of_nat (length dest) ->
  exists d, strscpy dest src size = Some d /\ length d = length dest /\
    cstr d = Some (firstn (Z.to_nat (size - 1)) src) /\
    skipn (Z.to_nat size) d = skipn (Z.to_nat size) dest /\
    skipn (S (length src)) d = skipn (S (length src)) dest.
Proof.
  intros dest src size Hs Hsz. unfold strscpy.
  assert (size =? 0 = false) as -> by lia.
  destruct (internal_spec [] dest src size) as (d & E & L & D); try assumption; try lia; [constructor|].
  exists d. cbn [app length] in *. change (Z.of_nat 0) with 0 in E. rewrite E. split; [reflexivity|].
  split; [assumption|]. rewrite D.
  assert (length (firstn (Z.to_nat (size - 1)) src) = Nat.min (Z.to_nat (size - 1)) (length src)) as LF
    by apply firstn_length.
  split; [apply cstr_app; apply is_str_firstn; assumption|].
  split; apply (skipn_far [] _ dest); cbn [length]; lia.
Qed.

Lemma strscat_spec : forall dest src size c, is_str src -> size <= Z.of_nat (length dest) ->
  size < 2 ^ 64 -> cstr dest = Some c -> Z.of_nat (length c) < size ->
  exists d, strscat dest src size = Some d /\ length d = length dest /\
    cstr d = Some (firstn (Z.to_nat (size - 1)) (c ++ src)) /\
    skipn (Z.to_nat size) d = skipn (Z.to_nat size) dest.
Proof.
  intros dest src size c Hs Hsz H64 Hc Hlt. unfold strscat.
  assert (size =? 0 = false) as -> by lia.
  destruct (cstr_split dest c Hc) as (Ic & t & ->). rewrite strlen_app by assumption.
  cbv zeta. change (2 ^ 64) with 18446744073709551616 in *. rewrite (Z.mod_small _ 18446744073709551616) by lia.
  assert (size - Z.of_nat (length c) <=? 0 = false) as -> by lia.
  rewrite app_length in Hsz.
  destruct (internal_spec c (0 :: t) src (size - Z.of_nat (length c))) as (d & E & L & D); try assumption; try lia.
  exists d. rewrite E. split; [reflexivity|]. split; [assumption|].
  assert (length (firstn (Z.to_nat (size - Z.of_nat (length c) - 1)) src)
          = Nat.min (Z.to_nat (size - Z.of_nat (length c) - 1)) (length src)) as LF by apply firstn_length.
  rewrite D. split.
  - rewrite app_assoc. rewrite cstr_app.
    + f_equal. rewrite firstn_app. rewrite (firstn_all2 c) by lia. f_equal. f_equal. lia.
    + apply is_str_app; [assumption|apply is_str_firstn; assumption].
  - apply skipn_far. lia.
Qed.

(** If the destination already holds a longer string than [dest_size] the
    bound is not respected. *)
Lemma strscat_overrun : exists dest src size d,
  is_str src /\ 0 < size <= Z.of_nat (length dest) /\ cstr dest <> None /\
  strscat dest src size = Some d /\ skipn (Z.to_nat size) d <> skipn (Z.to_nat size) dest.
Proof.
  exists [97; 98; 99; 0; 0; 0], [120], 2, [97; 98; 99; 120; 0; 0].
  split; [repeat constructor; lia|]. split; [simpl; lia|]. split; [discriminate|].
  split; [vm_compute; reflexivity|]. vm_compute. discriminate.
Qed.

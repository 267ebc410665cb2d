(** Proofs about the text buffer. *)
From Verif Require Import Base Strings StringsSpec StringsProofs Autobuf AutobufSpec.

Lemma land_lnot_4095 : forall x, Z.land x (Z.lnot (AUTOBUFCHUNK - 1)) = x / 4096 * 4096.
Proof.
  intros x. change (AUTOBUFCHUNK - 1) with (Z.ones 12).
  rewrite <- Z.ldiff_land. rewrite Z.ldiff_ones_r by lia.
  rewrite Z.shiftl_mul_pow2, Z.shiftr_div_pow2 by lia. reflexivity.
Qed.

Lemma round_up_spec : forall v, 0 < v <= 16773120 -> v <= round_up v < AUTOBUFSIZEMAX.
Proof.
  intros v H. unfold round_up. rewrite !land_lnot_4095.
  unfold AUTOBUFSIZEMAX, AUTOBUFCHUNK. change (2 ^ 24) with 16777216.
  destruct (Z.leb_spec v (16777216 - (4096 - 1))); lia.
Qed.

Lemma zeros_length : forall n, 0 <= n -> Z.of_nat (length (zeros n)) = n.
Proof. intros. unfold zeros. rewrite repeat_length. lia. Qed.

Lemma enlarge_spec : forall b n ok, usable b -> 0 <= n -> n + 1 <= 16773120 -> n + 1 > 0 ->
  exists b1 r, enlarge b n ok = (b1, r) /\ alen b1 = alen b /\ asize b1 < AUTOBUFSIZEMAX /\
    (r = true -> exists k, mem b1 = mem b ++ zeros k /\ 0 <= k /\ n + 1 <= asize b1) /\
    (r = false -> b1 = b /\ ok = false).
Proof.
  intros b n ok (U1 & U2 & U3) H0 H1 H2. unfold enlarge.
  unfold u32. rewrite Z.mod_small by (change (2^32) with 4294967296; lia).
  destruct (Z.leb_spec AUTOBUFSIZEMAX (asize b)); [lia|].
  destruct (Z.ltb_spec (asize b) (n + 1)).
  - destruct ok.
    + pose proof (round_up_spec (n + 1)) as R.
      eexists. exists true. split; [reflexivity|]. cbn [alen]. split; [reflexivity|].
      assert (firstn (Z.to_nat (round_up (n + 1))) (mem b) = mem b) as E.
      { apply firstn_all2. unfold asize in *. lia. }
      unfold asize at 1. cbn [mem]. rewrite E.
      rewrite app_length, Nat2Z.inj_add. rewrite zeros_length by lia.
      fold (asize b). split; [lia|]. split; [|discriminate].
      intros _. exists (round_up (n + 1) - asize b). split; [reflexivity|]. split; [lia|].
      unfold asize at 1. cbn [mem]. rewrite app_length, Nat2Z.inj_add. rewrite zeros_length by lia.
      fold (asize b). lia.
    + exists b, false. split; [reflexivity|]. split; [reflexivity|]. split; [lia|]. split; [discriminate|]. auto.
  - exists b, true. split; [reflexivity|]. split; [reflexivity|]. split; [lia|]. split; [|discriminate].
    intros _. exists 0. rewrite app_nil_r. split; [reflexivity|]. lia.
Qed.

Lemma put_all_app : forall c t l, (length l <= length t)%nat ->
  put_all (c ++ t) (Z.of_nat (length c)) l = Some (c ++ l ++ skipn (length l) t).
Proof.
  intros c t l H. unfold put_all. rewrite app_length.
  match goal with |- context [if ?b then _ else _] => destruct b eqn:B; [|exfalso; lia] end.
  rewrite Nat2Z.id. f_equal.
  rewrite firstn_app, Nat.sub_diag, firstn_all, firstn_O, app_nil_r. f_equal. f_equal.
  rewrite skipn_app. rewrite skipn_all2 by lia. cbn [app]. f_equal. lia.
Qed.

(** The shape of a usable buffer. *)
Definition shape (b : abuf) (c t : list Z) : Prop :=
  mem b = c ++ t /\ alen b = Z.of_nat (length c) /\ (t <> [] \/ c = []) /\ asize b < AUTOBUFSIZEMAX.

Lemma usable_shape : forall b, usable b -> exists t, shape b (content b) t.
Proof.
  intros b (U1 & U2 & U3). exists (skipn (Z.to_nat (alen b)) (mem b)). unfold shape, content.
  rewrite firstn_skipn. split; [reflexivity|].
  assert (length (firstn (Z.to_nat (alen b)) (mem b)) = Z.to_nat (alen b)) as L.
  { rewrite firstn_length. unfold asize in *. lia. }
  split; [lia|]. split; [|assumption]. unfold asize in *.
  destruct U2 as [U2|[U2 _]].
  - left. intros E. apply (f_equal (@length Z)) in E. rewrite skipn_length in E. cbn [length] in E. lia.
  - right. rewrite U2. reflexivity.
Qed.

Lemma shape_content : forall b c t, shape b c t -> content b = c /\ skipn (Z.to_nat (alen b)) (mem b) = t.
Proof.
  intros b c t (E & L & _). unfold content. rewrite E, L, Nat2Z.id. split.
  - rewrite firstn_app, Nat.sub_diag, firstn_all, firstn_O, app_nil_r. reflexivity.
  - rewrite skipn_app, Nat.sub_diag, skipn_all, skipn_O. reflexivity.
Qed.

Lemma shape_usable : forall b c t, shape b c t -> (c = [] -> t = [] \/ t <> []) -> usable b.
Proof.
  intros b c t (E & L & D & S) _. unfold usable. split; [lia|]. split; [|assumption].
  unfold asize. rewrite E, app_length. destruct t as [|x t].
  - destruct D as [D| ->]; [contradiction|]. right. cbn [length] in *. lia.
  - left. cbn [length]. lia.
Qed.

(** The part of a step result every operation establishes. *)
Definition good (b' : abuf) (c t : list Z) : Prop := shape b' c t /\ (c <> [] -> t <> []).

Lemma forall_zeros : forall k, Forall (fun c : Z => c = 0) (zeros k).
Proof. intros k. unfold zeros. induction (Z.to_nat k); constructor; auto. Qed.

Lemma forall_skipn : forall (P : Z -> Prop) n l, Forall P l -> Forall P (skipn n l).
Proof.
  intros P n. induction n; intros l H; [assumption|]. destruct H; [constructor|]. apply IHn. assumption.
Qed.

(** Writing [l ++ x] where [x] is one more byte or nothing. *)
Lemma append_shape : forall b c t n b1 k l x,
  shape b c t -> mem b1 = mem b ++ zeros k -> 0 <= k -> n <= asize b1 -> asize b1 < AUTOBUFSIZEMAX ->
  alen b1 = alen b -> n = alen b + Z.of_nat (length l) + 1 -> (length x <= 1)%nat ->
  exists m t', put_all (mem b1) (alen b1) (l ++ x) = Some m /\
    shape {| mem := m; alen := alen b1 + Z.of_nat (length l) |} (c ++ l) t' /\
    t' = x ++ skipn (length (l ++ x)) (t ++ zeros k).
Proof.
  intros b c t n b1 k l x (E & L & D & S) E1 Hk Hn Hm La Hnn Hx.
  rewrite E1, E, <- app_assoc, La, L.
  assert (Z.of_nat (length c) + Z.of_nat (length t) + k = asize b1) as SZ.
  { unfold asize. rewrite E1, E, !app_length, !Nat2Z.inj_add, zeros_length by lia. reflexivity. }
  assert (length (t ++ zeros k) = length t + Z.to_nat k)%nat as LT
      by (rewrite app_length; unfold zeros; rewrite repeat_length; reflexivity).
  rewrite put_all_app.
  2:{ rewrite app_length, LT. lia. }
  eexists. eexists. split; [reflexivity|]. split; [|reflexivity]. unfold shape, asize. cbn [mem alen].
  rewrite <- !app_assoc. split; [reflexivity|]. split; [rewrite app_length; lia|].
  split.
  - left. intros F. apply (f_equal (@length Z)) in F. rewrite app_length, skipn_length, LT, app_length in F.
    cbn [length] in F. lia.
  - rewrite !app_length, skipn_length, !app_length. rewrite app_length in LT. lia.
Qed.

Lemma clean_shape : forall b c t, shape b c t -> (clean b <-> Forall (fun c => c = 0) t).
Proof. intros b c t H. unfold clean. destruct (shape_content b c t H) as [_ ->]. tauto. Qed.

Lemma clean_terminated : forall b c t, shape b c t -> t <> [] -> clean b -> terminated b.
Proof.
  intros b c t H N C. apply (clean_shape b c t H) in C. destruct t as [|z t]; [contradiction|].
  inversion C; subst. unfold terminated. destruct H as (E & L & _). rewrite E, L, Nat2Z.id.
  rewrite nth_error_app2, Nat.sub_diag by lia. reflexivity.
Qed.

Lemma strncpy_text : forall c t, Forall (fun x => x <> 0) c ->
  strncpy_bytes (c ++ 0 :: t) (S (length c)) = Some (c ++ [0]).
Proof.
  induction c as [|a c IH]; intros t H; [reflexivity|]. inversion H; subst.
  cbn [app length]. change (strncpy_bytes (a :: c ++ 0 :: t) (S (S (length c)))) with
    (if a =? 0 then Some (repeat 0 (S (S (length c)))) else
       match strncpy_bytes (c ++ 0 :: t) (S (length c)) with Some l => Some (a :: l) | None => None end).
  destruct (Z.eqb_spec a 0); [contradiction|]. rewrite IH by assumption. reflexivity.
Qed.

(** What one legal call does. *)
Definition step_ok (b : abuf) (o : aop) (ok : bool) : Prop :=
  exists b' r, astep b o ok = Some (b', r) /\ usable b' /\
    content b' = aeffect (content b) o r /\
    (ok = true -> r = true) /\
    (0 < asize b -> 0 < asize b') /\
    (clean b -> r = true -> match o with APull _ _ => False | _ => True end -> clean b').

Lemma finish : forall b o ok b' r c' t',
  astep b o ok = Some (b', r) -> shape b' c' t' ->
  c' = aeffect (content b) o r -> (ok = true -> r = true) ->
  (0 < asize b -> 0 < asize b') ->
  (clean b -> r = true -> match o with APull _ _ => False | _ => True end -> Forall (fun c => c = 0) t') ->
  step_ok b o ok.
Proof.
  intros b o ok b' r c' t' E S C R A K. exists b', r. split; [assumption|].
  split; [eapply shape_usable; [eassumption|]; intros _; destruct t'; [left|right]; [reflexivity|discriminate]|].
  destruct (shape_content _ _ _ S) as [C2 _]. split; [congruence|]. split; [assumption|]. split; [assumption|].
  intros H1 H2 H3. apply (clean_shape _ _ _ S). auto.
Qed.

Lemma shape_size : forall b c t, shape b c t -> asize b = Z.of_nat (length c) + Z.of_nat (length t).
Proof. intros b c t (E & _). unfold asize. rewrite E, app_length. lia. Qed.

Lemma puts_ok : forall b s ok, usable b -> alen b + Z.of_nat (length s) <= ABUF_LIMIT ->
  step_ok b (APuts s) ok.
Proof.
  intros b s ok U Lm. destruct (usable_shape b U) as [t S]. pose proof S as (E & L & D & SM).
  assert (astep b (APuts s) ok = abuf_puts b s ok) as A by reflexivity. unfold abuf_puts in A.
  destruct (Z.eqb_spec (Z.of_nat (length s)) 0) as [Z0|NZ].
  - assert (s = []) as -> by (destruct s; [reflexivity|cbn [length] in Z0; lia]).
    eapply finish; [exact A|exact S|cbn; rewrite app_nil_r; reflexivity|auto|auto|].
    intros H _ _. apply (clean_shape _ _ _ S). assumption.
  - destruct (enlarge_spec b (alen b + Z.of_nat (length s) + 1) ok U) as (b1 & r & E1 & La & Sz & HT & HF);
      try (unfold ABUF_LIMIT in Lm; destruct U; lia).
    rewrite E1 in A. destruct r.
    + destruct (HT eq_refl) as (k & Em & Hk & Hn).
      destruct (append_shape b (content b) t (alen b + Z.of_nat (length s) + 1) b1 k s [0] S Em Hk)
        as (m & t' & P & S' & T'); try lia; [cbn [length]; lia|].
      rewrite P in A. eapply finish; [exact A|exact S'|reflexivity|auto| |].
      * intros _. rewrite (shape_size _ _ _ S'). rewrite app_length. lia.
      * intros H _ _. subst t'. apply Forall_app. split; [repeat constructor|].
        apply forall_skipn. apply Forall_app. split; [|apply forall_zeros]. apply (clean_shape _ _ _ S). assumption.
    + destruct (HF eq_refl) as [-> ->]. eapply finish; [exact A|exact S|reflexivity|auto|auto|discriminate].
Qed.

Lemma concat_ok : forall b s ok, usable b -> alen b + alen s <= ABUF_LIMIT ->
  arg_ok (alen b) (AConcat s) -> step_ok b (AConcat s) ok.
Proof.
  intros b s ok U Lm (Us & Tx & Tm). destruct (usable_shape b U) as [t S]. pose proof S as (E & L & D & SM).
  destruct (usable_shape s Us) as [ts Ss]. pose proof Ss as (Es & Ls & Ds & SMs).
  assert (astep b (AConcat s) ok = abuf_concat b s ok) as A by reflexivity. unfold abuf_concat in A.
  destruct (Z.eqb_spec (alen s) 0) as [Z0|NZ].
  - assert (content s = []) as Ec by (destruct (content s); [reflexivity|cbn [length] in Ls; lia]).
    eapply finish; [exact A|exact S|cbn; rewrite Ec, app_nil_r; reflexivity|auto|auto|].
    intros H _ _. apply (clean_shape _ _ _ S). assumption.
  - destruct Tm as [|Tm]; [contradiction|].
    destruct (enlarge_spec b (alen b + alen s + 1) ok U) as (b1 & r & E1 & La & Sz & HT & HF);
      try (unfold ABUF_LIMIT in Lm; destruct U; destruct Us; lia).
    rewrite E1 in A. destruct r.
    + destruct (HT eq_refl) as (k & Em & Hk & Hn).
      assert (exists ts', ts = 0 :: ts') as [ts' Ets].
      { unfold terminated in Tm. rewrite Es, Ls, Nat2Z.id, nth_error_app2, Nat.sub_diag in Tm by lia.
        destruct ts; [discriminate|]. cbn in Tm. injection Tm as ->. eauto. }
      replace (Z.to_nat (alen s + 1)) with (Datatypes.S (length (content s))) in A by lia.
      rewrite Es, Ets, strncpy_text in A by assumption.
      destruct (append_shape b (content b) t (alen b + Z.of_nat (length (content s)) + 1) b1 k (content s) [0] S Em Hk)
        as (m & t' & P & S' & T'); try lia; [cbn [length]; lia|].
      rewrite P in A. rewrite <- Ls in S'. eapply finish; [exact A|exact S'|reflexivity|auto| |].
      * intros _. rewrite (shape_size _ _ _ S'). rewrite app_length. lia.
      * intros H _ _. subst t'. apply Forall_app. split; [repeat constructor|].
        apply forall_skipn. apply Forall_app. split; [|apply forall_zeros]. apply (clean_shape _ _ _ S). assumption.
    + destruct (HF eq_refl) as [-> ->]. eapply finish; [exact A|exact S|reflexivity|auto|auto|discriminate].
Qed.

Lemma memcpy_ok : forall b s ok, usable b -> alen b + Z.of_nat (length s) <= ABUF_LIMIT ->
  step_ok b (AMemcpy s) ok.
Proof.
  intros b s ok U Lm. destruct (usable_shape b U) as [t S]. pose proof S as (E & L & D & SM).
  assert (astep b (AMemcpy s) ok = abuf_memcpy b s ok) as A by reflexivity. unfold abuf_memcpy in A.
  destruct (enlarge_spec b (alen b + Z.of_nat (length s)) ok U) as (b1 & r & E1 & La & Sz & HT & HF);
      try (unfold ABUF_LIMIT in Lm; destruct U; lia).
  rewrite E1 in A. destruct r.
  - destruct (HT eq_refl) as (k & Em & Hk & Hn).
    destruct (append_shape b (content b) t (alen b + Z.of_nat (length s) + 1) b1 k s [] S Em Hk)
      as (m & t' & P & S' & T'); try lia; [cbn [length]; lia|].
    rewrite app_nil_r in P. rewrite P in A. eapply finish; [exact A|exact S'|reflexivity|auto| |].
    + intros H. rewrite (shape_size _ _ _ S'), app_length. rewrite (shape_size _ _ _ S) in H.
      pose proof S' as (_ & _ & D' & _). destruct D' as [D'|D']; [destruct t'; [contradiction|cbn [length]; lia]|].
      apply (f_equal (@length Z)) in D'. rewrite app_length in D'. cbn [length] in D'.
      apply (f_equal (@length Z)) in T'. cbn [app] in T'. rewrite app_nil_r, skipn_length, app_length in T'. lia.
    + intros H _ _. subst t'. apply Forall_app. split; [constructor|].
      apply forall_skipn. apply Forall_app. split; [|apply forall_zeros]. apply (clean_shape _ _ _ S). assumption.
  - destruct (HF eq_refl) as [-> ->]. eapply finish; [exact A|exact S|reflexivity|auto|auto|discriminate].
Qed.

Lemma prefix_ok : forall b s ok, usable b -> alen b + Z.of_nat (length s) <= ABUF_LIMIT ->
  step_ok b (APrefix s) ok.
Proof.
  intros b s ok U Lm. destruct (usable_shape b U) as [t S]. pose proof S as (E & L & D & SM).
  assert (astep b (APrefix s) ok = abuf_prefix b s ok) as A by reflexivity. unfold abuf_prefix in A.
  destruct (enlarge_spec b (alen b + Z.of_nat (length s)) ok U) as (b1 & r & E1 & La & Sz & HT & HF);
      try (unfold ABUF_LIMIT in Lm; destruct U; lia).
  rewrite E1 in A. destruct r.
  - destruct (HT eq_refl) as (k & Em & Hk & Hn).
    set (c := content b) in *. set (u := t ++ zeros k).
    assert (mem b1 = c ++ u) as E2 by (unfold u; rewrite Em, E, app_assoc; reflexivity).
    assert (length u = length t + Z.to_nat k)%nat as LU
      by (unfold u; rewrite app_length; unfold zeros; rewrite repeat_length; reflexivity).
    assert (asize b1 = Z.of_nat (length c) + Z.of_nat (length u)) as SZ
      by (unfold asize; rewrite E2, app_length; lia).
    (* saved old content *)
    assert (get_all (mem b1) 0 (alen b1) = Some c) as G.
    { unfold get_all. rewrite E2, app_length, La, L.
      match goal with |- context [if ?x then _ else _] => destruct x eqn:B; [|exfalso; lia] end.
      rewrite Nat2Z.id. cbn [Z.to_nat skipn]. rewrite firstn_app, Nat.sub_diag, firstn_all, firstn_O, app_nil_r.
      reflexivity. }
    rewrite G in A.
    (* the block as prefix of length |s| and rest *)
    set (pre := firstn (length s) (c ++ u)). set (post := skipn (length s) (c ++ u)).
    assert (c ++ u = pre ++ post) as EP by (unfold pre, post; rewrite firstn_skipn; reflexivity).
    assert (length pre = length s) as LP by (unfold pre; rewrite firstn_length, app_length; lia).
    assert (length post = length c + length u - length s)%nat as LPo
      by (unfold post; rewrite skipn_length, app_length; lia).
    rewrite E2, EP in A. rewrite <- LP in A. rewrite put_all_app in A by lia.
    assert (put_all (pre ++ c ++ skipn (length c) post) 0 s = Some (s ++ c ++ skipn (length c) post)) as P2.
    { change 0 with (Z.of_nat (@length Z [])).
      change (pre ++ c ++ skipn (length c) post) with ([] ++ (pre ++ c ++ skipn (length c) post)).
      rewrite put_all_app by (rewrite !app_length; lia). cbn [app]. f_equal. f_equal.
      rewrite skipn_app, <- LP, Nat.sub_diag, skipn_all, skipn_O. reflexivity. }
    rewrite P2 in A. rewrite LP in A.
    assert (skipn (length c) post = skipn (length s) u) as ET.
    { unfold post. rewrite skipn_plus, Nat.add_comm, <- skipn_plus. f_equal.
      rewrite skipn_app, Nat.sub_diag, skipn_all, skipn_O. reflexivity. }
    rewrite ET in A.
    assert (shape {| mem := s ++ c ++ skipn (length s) u; alen := alen b1 + Z.of_nat (length s) |}
                  (s ++ c) (skipn (length s) u)) as S'.
    { unfold shape. cbn [mem alen]. split; [apply app_assoc|]. split; [rewrite app_length; lia|].
      split.
      - left. intros F. apply (f_equal (@length Z)) in F. rewrite skipn_length in F. cbn [length] in F. lia.
      - unfold asize. cbn [mem]. rewrite !app_length, skipn_length. unfold asize in *. lia. }
    eapply finish; [exact A|exact S'|reflexivity|auto| |].
    + intros _. rewrite (shape_size _ _ _ S'). rewrite app_length, skipn_length. lia.
    + intros H _ _. apply forall_skipn. unfold u. apply Forall_app. split; [|apply forall_zeros].
      apply (clean_shape _ _ _ S). assumption.
  - destruct (HF eq_refl) as [-> ->]. eapply finish; [exact A|exact S|reflexivity|auto|auto|discriminate].
Qed.

Lemma firstn_split : forall (l : list Z) c t, l = c ++ t -> forall n, (length c <= n)%nat -> firstn n l = c ++ firstn (n - length c) t.
Proof. intros l c t -> n H. rewrite firstn_app. rewrite firstn_all2 by lia. reflexivity. Qed.

Lemma pull_ok : forall b n g ok, usable b -> 0 <= n <= alen b -> alen b <= ABUF_LIMIT -> step_ok b (APull n g) ok.
Proof.
  intros b n g ok U Hn Lm. destruct (usable_shape b U) as [t S]. pose proof S as (E & L & D & SM).
  assert (astep b (APull n g) ok = abuf_pull b n ok g) as A by reflexivity. unfold abuf_pull in A.
  set (c := content b) in *. set (c' := skipn (Z.to_nat n) c).
  assert (length c' = length c - Z.to_nat n)%nat as LC by apply skipn_length.
  assert (exists m t1, (if n =? alen b then Some (mem b)
            else match get_all (mem b) n (alen b - n) with
                 | None => None
                 | Some rest => put_all (mem b) 0 rest
                 end) = Some m /\ m = c' ++ t1 /\ length m = length (mem b)) as (m & t1 & EQ & Em & Lm').
  { destruct (Z.eqb_spec n (alen b)) as [->|N].
    - exists (mem b), (mem b). split; [reflexivity|]. split; [|reflexivity].
      assert (c' = []) as -> by (destruct c'; [reflexivity|cbn [length] in LC; lia]). reflexivity.
    - unfold get_all. pose proof (shape_size _ _ _ S) as SZ. unfold asize in SZ.
      match goal with |- context [if ?x then _ else _] => destruct x eqn:B; [|exfalso; lia] end.
      assert (firstn (Z.to_nat (alen b - n)) (skipn (Z.to_nat n) (mem b)) = c') as ->.
      { rewrite E, skipn_app. fold c'. replace (Z.to_nat n - length c)%nat with 0%nat by lia. rewrite skipn_O.
        rewrite firstn_app. replace (Z.to_nat (alen b - n) - length c')%nat with 0%nat by lia.
        rewrite firstn_O, app_nil_r. apply firstn_all2. lia. }
      exists (c' ++ skipn (length c') (mem b)), (skipn (length c') (mem b)).
      change 0 with (Z.of_nat (@length Z [])).
      change (put_all (mem b)) with (put_all ([] ++ mem b)).
      rewrite put_all_app by lia. split; [reflexivity|]. split; [reflexivity|].
      rewrite app_length, skipn_length. lia. }
  cbv zeta in A. rewrite EQ in A.
  pose proof (round_up_spec (alen b - n + 1)) as R. unfold ABUF_LIMIT in Lm.
  pose proof (shape_size _ _ _ S) as SZ. unfold asize in SZ.
  assert (length m = length c' + length t1)%nat as LM by (rewrite Em, app_length; reflexivity).
  destruct ok.
  - set (ns := round_up (alen b - n + 1)) in *.
    set (t2 := firstn (Z.to_nat ns - length c') t1 ++ repeat g (Z.to_nat (ns - Z.of_nat (length m)))).
    assert (firstn (Z.to_nat ns) m ++ repeat g (Z.to_nat (ns - Z.of_nat (length m))) = c' ++ t2) as EM.
    { rewrite (firstn_split m c' t1 Em) by lia. unfold t2. rewrite app_assoc. reflexivity. }
    assert (Z.of_nat (length (c' ++ t2)) = ns) as LS.
    { unfold t2. rewrite !app_length, firstn_length, repeat_length. lia. }
    rewrite EM in A.
    assert (shape {| mem := c' ++ t2; alen := alen b - n |} c' t2) as S'.
    { unfold shape, asize. cbn [mem alen]. split; [reflexivity|]. split; [lia|]. split; [|lia].
      left. intros F. rewrite F, app_nil_r in LS. lia. }
    eapply finish; [exact A|exact S'|reflexivity|auto| |tauto].
    intros _. unfold asize. cbn [mem]. lia.
  - assert (shape {| mem := m; alen := alen b - n |} c' t1) as S'.
    { unfold shape, asize. cbn [mem alen]. split; [assumption|]. split; [lia|]. split; [|unfold asize in SM; lia].
      destruct t1; [|left; discriminate]. cbn [length] in LM.
      destruct D as [D|D]; [destruct t; [contradiction|]|]; [exfalso; cbn [length] in SZ; lia|].
      right. rewrite D in LC. cbn [length] in LC. destruct c'; [reflexivity|cbn [length] in LC; lia]. }
    eapply finish; [exact A|exact S'|reflexivity|discriminate| |tauto].
    unfold asize. cbn [mem]. lia.
Qed.

Lemma vsnprintf_app : forall c t s, (length s < length t)%nat ->
  vsnprintf (c ++ t) (Z.of_nat (length c)) (Z.of_nat (length t)) s = Some (c ++ (s ++ [0]) ++ skipn (length (s ++ [0])) t).
Proof.
  intros c t s H. unfold vsnprintf. destruct (Z.leb_spec (Z.of_nat (length t)) 0); [lia|].
  rewrite firstn_all2 by lia. apply put_all_app. rewrite app_length. cbn [length]. lia.
Qed.

Lemma vsnprintf_trunc : forall c t s, (length t <= length s)%nat ->
  exists t', vsnprintf (c ++ t) (Z.of_nat (length c)) (Z.of_nat (length t)) s = Some (c ++ t') /\ length t' = length t.
Proof.
  intros c t s H. unfold vsnprintf. destruct (Z.leb_spec (Z.of_nat (length t)) 0).
  - exists t. auto.
  - assert (length (firstn (Z.to_nat (Z.of_nat (length t) - 1)) s ++ [0]) = length t) as E.
    { rewrite app_length, firstn_length. cbn [length]. lia. }
    rewrite put_all_app by lia. eexists. split; [reflexivity|]. rewrite app_length, skipn_length. lia.
Qed.

Lemma put_app : forall c x t, put (c ++ x :: t) (Z.of_nat (length c)) 0 = Some (c ++ 0 :: t).
Proof.
  intros c x t. unfold put. rewrite app_length. cbn [length].
  match goal with |- context [if ?b then _ else _] => destruct b eqn:B; [|exfalso; lia] end.
  rewrite Nat2Z.id. rewrite firstn_app, Nat.sub_diag, firstn_all, firstn_O, app_nil_r.
  f_equal. f_equal. f_equal. rewrite skipn_app. rewrite skipn_all2 by lia.
  replace (S (length c) - length c)%nat with 1%nat by lia. reflexivity.
Qed.

Lemma appendf_ok : forall b s ok, usable b -> alen b + Z.of_nat (length s) <= ABUF_LIMIT ->
  (0 < asize b \/ ok = true) -> step_ok b (AAppendf s) ok.
Proof.
  intros b s ok U Lm OK. destruct (usable_shape b U) as [t S]. pose proof S as (E & L & D & SM).
  assert (astep b (AAppendf s) ok = abuf_appendf b s ok) as A by reflexivity. unfold abuf_appendf in A.
  pose proof (shape_size _ _ _ S) as SZ. set (c := content b) in *.
  assert (asize b - alen b = Z.of_nat (length t)) as R by lia.
  rewrite R, E, L in A.
  destruct (Nat.lt_ge_cases (length s) (length t)) as [Hlt|Hge].
  - rewrite vsnprintf_app in A by assumption. cbv zeta in A. unfold asize at 1 in A. cbn [mem] in A.
    assert (length (c ++ (s ++ [0%Z]) ++ skipn (length (s ++ [0%Z])) t) = length c + length t)%nat as LL.
    { rewrite !app_length, skipn_length, ?app_length. cbn [length]. lia. }
    destruct (Z.leb_spec (Z.of_nat (length (c ++ (s ++ [0]) ++ skipn (length (s ++ [0])) t))) (Z.of_nat (length c) + Z.of_nat (length s)));
      [exfalso; lia|].
    assert (shape {| mem := c ++ (s ++ [0]) ++ skipn (length (s ++ [0])) t; alen := Z.of_nat (length c) + Z.of_nat (length s) |}
              (c ++ s) (0 :: skipn (length (s ++ [0])) t)) as S'.
    { unfold shape, asize. cbn [mem alen]. split; [rewrite <- !app_assoc; reflexivity|].
      split; [rewrite app_length; lia|]. split; [left; discriminate|]. rewrite LL. lia. }
    eapply finish; [exact A|exact S'|reflexivity|auto| |].
    + intros _. rewrite (shape_size _ _ _ S'). cbn [length]. lia.
    + intros H1 _ _. constructor; [reflexivity|]. apply forall_skipn. apply (clean_shape _ _ _ S). assumption.
  - destruct (vsnprintf_trunc c t s Hge) as (t1 & V & LV). rewrite V in A. cbv zeta in A. unfold asize at 1 in A. cbn [mem] in A.
    destruct (Z.leb_spec (Z.of_nat (length (c ++ t1))) (Z.of_nat (length c) + Z.of_nat (length s)));
      [|exfalso; rewrite app_length in *; lia].
    set (b1 := {| mem := c ++ t1; alen := Z.of_nat (length c) |}) in *.
    assert (shape b1 c t1) as S1.
    { unfold shape, b1, asize. cbn [mem alen]. split; [reflexivity|]. split; [reflexivity|]. split.
      - destruct D as [D|D]; [left|right; assumption]. destruct t, t1; try discriminate; contradiction.
      - rewrite app_length. lia. }
    assert (usable b1) as U1 by (eapply shape_usable; [exact S1|]; intros _; destruct t1; [left|right]; [reflexivity|discriminate]).
    destruct (enlarge_spec b1 (Z.of_nat (length c) + Z.of_nat (length s)) ok U1) as (b2 & r & E1 & La & Sz & HT & HF);
      try (unfold ABUF_LIMIT in Lm; lia).
    rewrite E1 in A. cbn [alen b1] in La. destruct r.
    + destruct (HT eq_refl) as (k & Em & Hk & Hn2). cbn [mem b1] in Em.
      rewrite <- app_assoc in Em.
      assert (length (t1 ++ zeros k) = length t1 + Z.to_nat k)%nat as LT
        by (rewrite app_length; unfold zeros; rewrite repeat_length; reflexivity).
      assert (asize b2 = Z.of_nat (length c) + Z.of_nat (length (t1 ++ zeros k))) as SZ2
        by (unfold asize; rewrite Em, app_length; lia).
      assert (asize b2 - alen b2 = Z.of_nat (length (t1 ++ zeros k))) as R2
        by (rewrite SZ2, La; unfold b1; cbn [alen]; lia).
      rewrite R2, Em in A. assert (alen b2 = Z.of_nat (length c)) as La2 by (rewrite La; reflexivity).
      rewrite La2 in A. rewrite vsnprintf_app in A by lia.
      assert (shape {| mem := c ++ (s ++ [0]) ++ skipn (length (s ++ [0])) (t1 ++ zeros k);
                       alen := Z.of_nat (length c) + Z.of_nat (length s) |}
              (c ++ s) (0 :: skipn (length (s ++ [0])) (t1 ++ zeros k))) as S'.
      { unfold shape, asize. cbn [mem alen]. split; [rewrite <- !app_assoc; reflexivity|].
        split; [rewrite app_length; lia|]. split; [left; discriminate|].
        rewrite !app_length, skipn_length, ?app_length. rewrite app_length in LT, SZ2. cbn [length]. lia. }
      eapply finish; [exact A|exact S'|reflexivity|auto| |].
      * intros _. rewrite (shape_size _ _ _ S'). cbn [length]. lia.
      * intros _ _ _. constructor; [reflexivity|].
        assert (skipn (length (s ++ [0])) (t1 ++ zeros k) = skipn (length (s ++ [0]) - length t1) (zeros k)) as ->.
        { rewrite skipn_app. rewrite skipn_all2; [reflexivity|]. rewrite app_length. cbn [length]. lia. }
        apply forall_skipn. apply forall_zeros.
    + destruct (HF eq_refl) as [-> ->]. destruct OK as [OK|OK]; [|discriminate].
      cbn [mem alen b1] in A. pose proof S1 as (_ & _ & D1 & _).
      assert (exists x t1', t1 = x :: t1') as (x & t1' & ->).
      { destruct t1; [|eauto]. exfalso. cbn [length] in LV. destruct t; [|discriminate].
        destruct D as [D|D]; [contradiction|]. rewrite D in SZ. cbn [length] in SZ. lia. }
      rewrite put_app in A.
      assert (shape {| mem := c ++ 0 :: t1'; alen := Z.of_nat (length c) |} c (0 :: t1')) as S'.
      { unfold shape, asize. cbn [mem alen]. split; [reflexivity|]. split; [reflexivity|]. split; [left; discriminate|].
        rewrite app_length. cbn [length] in *. lia. }
      eapply finish; [exact A|exact S'|reflexivity|discriminate| |discriminate].
      intros _. rewrite (shape_size _ _ _ S'). cbn [length]. lia.
Qed.

Lemma step_all : forall b o ok, usable b -> arg_ok (alen b) o ->
  alen b + added o <= ABUF_LIMIT -> (0 < asize b \/ ok = true) -> step_ok b o ok.
Proof.
  intros b o ok U A L OK. destruct o; cbn [added] in L.
  - apply appendf_ok; assumption.
  - apply puts_ok; assumption.
  - apply concat_ok; assumption.
  - apply memcpy_ok; assumption.
  - apply prefix_ok; assumption.
  - apply pull_ok; [assumption|assumption|lia].
Qed.

Lemma init_usable : forall n ok, n <= ABUF_LIMIT -> usable (abuf_init n ok) /\ content (abuf_init n ok) = [] /\ clean (abuf_init n ok).
Proof.
  intros n ok H. unfold abuf_init. destruct (Z.leb_spec n 0).
  - split; [|split; [reflexivity|constructor]]. unfold usable, asize. cbn. unfold AUTOBUFSIZEMAX. lia.
  - destruct ok.
    + pose proof (round_up_spec n) as R. unfold ABUF_LIMIT in H.
      split; [|split; [reflexivity|]].
      * unfold usable, asize. cbn [mem alen]. rewrite zeros_length by lia. lia.
      * unfold clean. cbn [mem alen]. apply forall_skipn. apply forall_zeros.
    + split; [|split; [reflexivity|constructor]]. unfold usable, asize. cbn. unfold AUTOBUFSIZEMAX. lia.
Qed.


Lemma hist_inv : forall b c f, ahist b c f -> usable b /\ content b = c /\ (f = true -> clean b).
Proof.
  induction 1 as [n ok H|b c f o ok b' r H IH HA HL HO HS].
  - destruct (init_usable n ok H) as (U & C & K). auto.
  - destruct IH as (U & C & K).
    assert (alen b = Z.of_nat (length c)) as La
      by (destruct (usable_shape b U) as (t & E & L & _); rewrite C in L; assumption).
    rewrite <- La in HA, HL.
    destruct (step_all b o ok U HA HL HO) as (b2 & r2 & S2 & U2 & C2 & R2 & A2 & K2).
    rewrite S2 in HS. inversion HS; subst. split; [assumption|]. split; [assumption|].
    intros F. destruct o; try discriminate; apply andb_prop in F; destruct F as [F1 F2]; auto.
Qed.

Lemma hist_progress : forall b c f o ok, ahist b c f -> arg_ok (Z.of_nat (length c)) o ->
  Z.of_nat (length c) + added o <= ABUF_LIMIT -> (0 < asize b \/ ok = true) ->
  exists b' r, astep b o ok = Some (b', r) /\ (ok = true -> r = true) /\ (0 < asize b -> 0 < asize b').
Proof.
  intros b c f o ok H HA HL HO. destruct (hist_inv b c f H) as (U & C & K).
  assert (alen b = Z.of_nat (length c)) as La
    by (destruct (usable_shape b U) as (t & E & L & _); rewrite C in L; assumption).
  rewrite <- La in HA, HL.
  destruct (step_all b o ok U HA HL HO) as (b2 & r2 & S2 & U2 & C2 & R2 & A2 & K2).
  exists b2, r2. auto.
Qed.

Lemma hist_terminated : forall b c, ahist b c true -> (0 < asize b \/ c <> []) -> terminated b.
Proof.
  intros b c H N. destruct (hist_inv b c true H) as (U & C & K).
  destruct (usable_shape b U) as [t S]. apply (clean_terminated b (content b) t S); [|auto].
  intros ->. pose proof S as (E & L & D & SM). destruct D as [D|D]; [congruence|].
  rewrite (shape_size _ _ _ S), D in N. cbn [length] in N. destruct N as [N|N]; [lia|congruence].
Qed.

(** Refutations. *)
Lemma pull_unterminated : exists b c, ahist b c false /\ 0 < asize b /\ ~ terminated b.
Proof.
  exists {| mem := [51; 52; 51; 52] ++ zeros 4092; alen := 2 |}, [51; 52].
  assert (ahist (abuf_init 1 true) [] true) as H0 by (apply ahist_init; unfold ABUF_LIMIT; lia).
  assert (exists b1, astep (abuf_init 1 true) (APuts [49; 50; 51; 52]) true = Some (b1, true) /\
          abuf_pull b1 2 true 0 = Some ({| mem := [51; 52; 51; 52] ++ zeros 4092; alen := 2 |}, true) /\ 0 < asize b1) as (b1 & S1 & S2 & A1).
  { eexists. split; [vm_compute; reflexivity|]. split; vm_compute; reflexivity. }
  split; [|split; [vm_compute; reflexivity|vm_compute; discriminate]].
  assert (ahist b1 [49; 50; 51; 52] true) as H1.
  { apply (ahist_step (abuf_init 1 true) [] true (APuts [49; 50; 51; 52]) true b1 true H0 I); [|auto|assumption].
    unfold ABUF_LIMIT. cbn. lia. }
  apply (ahist_step b1 [49; 50; 51; 52] true (APull 2 0) true _ true H1); [cbn; lia| |auto|exact S2].
  unfold ABUF_LIMIT. cbn. lia.
Qed.

Lemma big_overrun : exists p, Z.of_nat (length p) = 2 ^ 24 + 1 /\
  astep (abuf_init 0 true) (AMemcpy p) true = None.
Proof.
  exists (repeat 65 (Z.to_nat (2 ^ 24 + 1))).
  set (n := 2 ^ 24 + 1). assert (n = 16777217) as Hn by reflexivity. clearbody n.
  assert (Z.of_nat (length (repeat 65 (Z.to_nat n))) = n) as L by (rewrite repeat_length; lia).
  split; [assumption|]. revert L. generalize (repeat 65 (Z.to_nat n)). intros p L.
  unfold astep, abuf_memcpy, abuf_init. change (0 <=? 0) with true. cbv iota. cbn [alen].
  rewrite L. unfold enlarge. rewrite Hn. change (u32 (0 + 16777217 + 1)) with 16777218.
  unfold asize. cbn [mem length]. change (AUTOBUFSIZEMAX <=? Z.of_nat 0) with false.
  change (Z.of_nat 0 <? 16777218) with true. cbv iota zeta. cbn [mem alen].
  change (round_up 16777218) with 16777216. rewrite firstn_nil. cbn [app].
  unfold put_all. rewrite L, Hn. rewrite zeros_length by lia. cbn. reflexivity.
Qed.

Lemma null_append : astep (abuf_init 0 true) (AAppendf [65]) false = None.
Proof. vm_compute. reflexivity. Qed.

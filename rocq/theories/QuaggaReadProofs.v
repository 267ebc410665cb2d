(** Fragments of messages are put together. *)
From Verif Require Import Base Bytes Quagga QuaggaSpec QuaggaInProofs.

Section S.
Variable v : Z. Variable v6 : bool.
Notation enc := (enc_msgs v v6).
Notation em := (enc_msg v v6).

(** [b] starts with the first [size] bytes of [t] *)
Definition filled (b : list Z) (size : Z) (t : list Z) : Prop :=
  0 <= size <= blen b /\ size <= blen t /\ firstn (Z.to_nat size) b = firstn (Z.to_nat size) t.

Lemma filled_rd16 b size t off : filled b size t -> 0 <= off -> off + 2 <= size -> rd16 b off = rd16 t off.
Proof.
  intros (A & B & E) O1 O2. unfold rd16. f_equal.
  rewrite <- (firstn_skipn (Z.to_nat size) b), <- (firstn_skipn (Z.to_nat size) t), E.
  assert (L : blen (firstn (Z.to_nat size) t) = size) by (unfold blen in *; rewrite firstn_length; lia).
  rewrite !rdn_app by lia. reflexivity.
Qed.

Lemma zscan_ok b size : forall ms2 ms1 fuel ms off,
  ms = ms1 ++ ms2 -> blen (enc ms) < 65536 -> filled b size (enc ms) -> off = blen (enc ms1) -> (length ms2 < fuel)%nat ->
  exists ms1' ms2', ms = ms1' ++ ms2' /\ zscan fuel b size off = Some (blen (enc ms1')) /\ size < blen (enc ms1') + 2 /\
    (exists x, ms1' = ms1 ++ x).
Proof.
  induction ms2 as [|m ms2 IH]; intros ms1 fuel ms off E L F O LF; destruct fuel as [|fuel]; try (cbn [length] in LF; lia).
  - rewrite app_nil_r in E. subst. exists ms1, []. rewrite app_nil_r. destruct F as (A & B & C).
    cbn [zscan]. match goal with |- context [if ?x then _ else _] => replace x with false by lia end.
    repeat split; [lia|]. exists []. now rewrite app_nil_r.
  - cbn [zscan]. destruct (size >=? off + 2) eqn:G.
    + assert (R : rd16 b off = Some (blen (em m))).
      { rewrite (filled_rd16 b size (enc ms) off F) by (subst off; pose proof (blen_nonneg (enc ms1)); lia).
        subst ms off. rewrite enc_msgs_app, enc_msgs_cons in *. rewrite !blen_app in L.
        pose proof (blen_nonneg (enc ms1)). pose proof (blen_nonneg (enc ms2)). pose proof (enc_msg_ge2 v v6 m).
        assert (H' : here (enc ms1 ++ em m ++ enc ms2) (blen (enc ms1)) (em m ++ enc ms2)) by (exists (enc ms1); split; reflexivity).
        assert (EL : blen (em m) = 2 + Z.of_nat (length (enc_body v v6 m))) by (unfold enc_msg; rewrite blen_app; reflexivity).
        unfold enc_msg in H' at 2. cbv zeta in H'. rewrite <- EL in H'. rewrite <- app_assoc in H'.
        apply (here_rd16 _ _ _ _ H'). lia. }
      rewrite R.
      assert (W : u16 (off + blen (em m)) = blen (enc (ms1 ++ [m]))).
      { subst ms off. rewrite enc_msgs_app, enc_msgs_cons in *. rewrite !blen_app in *. change (blen (enc [])) with 0.
        pose proof (blen_nonneg (enc ms1)). pose proof (blen_nonneg (enc ms2)). pose proof (enc_msg_ge2 v v6 m).
        unfold u16. rewrite Z.mod_small; lia. }
      rewrite W. destruct (IH (ms1 ++ [m]) fuel ms (blen (enc (ms1 ++ [m])))) as (a & d & X1 & X2 & X3 & x & X4).
      * subst ms. now rewrite <- app_assoc.
      * exact L.
      * exact F.
      * reflexivity.
      * cbn [length] in LF. lia.
      * exists a, d. repeat split; try assumption. exists (m :: x). rewrite X4, <- app_assoc. reflexivity.
    + exists ms1, (m :: ms2). subst off. repeat split; [exact E|lia|]. exists []. now rewrite app_nil_r.
Qed.

Lemma skipn_skipn' {A} (n m : nat) (l : list A) : skipn n (skipn m l) = skipn (n + m) l.
Proof.
  revert l. induction m as [|m IH]; intros l; [now rewrite Nat.add_0_r|].
  rewrite Nat.add_succ_r. destruct l as [|x l]; [now rewrite !skipn_nil|]. cbn [skipn]. apply IH.
Qed.

Lemma zread_loop_ok fuel ms : blen (enc ms) < 65536 -> (length ms < fuel)%nat -> ms <> [] ->
  forall ev b size ms1 ms2, ms = ms1 ++ ms2 ->
  filled b size (enc ms) -> size <> blen (enc ms1) \/ size = 0 ->
  Forall (fun e => exists k, e = RData k /\ 1 <= k) ev -> blen (enc ms) - size <= Z.of_nat (length ev) -> (0 < size \/ 0 < blen (enc ms)) ->
  size < blen (enc ms) ->
  exists ms1' ms2' b' ev', ms = ms1' ++ ms2' /\ ms1' <> [] /\
    zread_loop fuel ev (skipn (Z.to_nat size) (enc ms)) b size (blen (enc ms1)) = RBuf b' (blen (enc ms1')) (enc ms2') ev' /\
    exists tail, b' = enc ms1' ++ tail.
Proof.
  intros L LF NE. induction ev as [|e ev IH]; intros b size ms1 ms2 E F NB FE LE PP LT.
  { cbn [length] in LE. lia. }
  inversion FE as [|? ? (k0 & -> & K1) FE']; subst e. cbn [zread_loop].
  set (bb := if size =? blen b then b ++ repeat 0 (Z.to_nat AUTOBUFCHUNK) else b).
  assert (FB : filled bb size (enc ms) /\ size < blen bb).
  { destruct F as (A & B & C). unfold bb. destruct (size =? blen b) eqn:G.
    - assert (X : blen (b ++ repeat 0 (Z.to_nat AUTOBUFCHUNK)) = blen b + 4096) by (rewrite blen_app; unfold blen at 2; rewrite repeat_length; reflexivity).
      split; [split; [lia|split; [lia|]]|lia].
      rewrite <- C. apply Z.eqb_eq in G. rewrite G. unfold blen. rewrite Nat2Z.id. rewrite firstn_app, Nat.sub_diag. cbn [firstn]. apply app_nil_r.
    - split; [split; [lia|split; [lia|exact C]]|lia]. }
  destruct FB as [FB SB]. clearbody bb. clear F b.
  set (st := skipn (Z.to_nat size) (enc ms)).
  assert (SL : blen st = blen (enc ms) - size) by (unfold st, blen in *; rewrite skipn_length; destruct FB; lia).
  set (k := Z.min k0 (Z.min (blen bb - size) (blen st))).
  assert (KK : 1 <= k /\ k <= blen bb - size /\ k <= blen st) by (unfold k; lia).
  replace (k <=? 0) with false by lia. clearbody k.
  set (b' := firstn (Z.to_nat size) bb ++ firstn (Z.to_nat k) st ++ skipn (Z.to_nat (size + k)) bb).
  destruct FB as (A & B & C).
  assert (FT : firstn (Z.to_nat (size + k)) (enc ms) = firstn (Z.to_nat size) (enc ms) ++ firstn (Z.to_nat k) st).
  { rewrite <- (firstn_skipn (Z.to_nat size) (enc ms)) at 1. rewrite firstn_app. fold st.
    rewrite firstn_firstn. replace (Nat.min (Z.to_nat (size + k)) (Z.to_nat size)) with (Z.to_nat size) by lia.
    f_equal. f_equal. rewrite firstn_length. unfold blen in *. lia. }
  assert (LB : firstn (Z.to_nat size) bb ++ firstn (Z.to_nat k) st = firstn (Z.to_nat (size + k)) (enc ms)) by (rewrite FT, C; reflexivity).
  assert (LL : blen (firstn (Z.to_nat (size + k)) (enc ms)) = size + k) by (unfold blen in *; rewrite firstn_length; lia).
  assert (EB : b' = firstn (Z.to_nat (size + k)) (enc ms) ++ skipn (Z.to_nat (size + k)) bb) by (unfold b'; rewrite app_assoc, LB; reflexivity).
  assert (F' : filled b' (size + k) (enc ms)).
  { rewrite EB. split; [rewrite blen_app, LL; pose proof (blen_nonneg (skipn (Z.to_nat (size + k)) bb)); lia|]. split; [lia|].
    rewrite firstn_app. replace (Z.to_nat (size + k) - length (firstn (Z.to_nat (size + k)) (enc ms)))%nat with 0%nat by (unfold blen in LL; lia).
    cbn [firstn]. rewrite app_nil_r, firstn_firstn, Nat.min_id. reflexivity. }
  destruct (zscan_ok b' (size + k) ms2 ms1 fuel ms (blen (enc ms1)) E L F' eq_refl) as (a & d & X1 & X2 & X3 & X4).
  { rewrite E, app_length in LF. lia. }
  rewrite X2. destruct (size + k =? blen (enc a)) eqn:G.
  - apply Z.eqb_eq in G. exists a, d, b', ev. split; [exact X1|]. split.
    { intros ->. change (blen (enc [])) with 0 in G. lia. }
    split.
    + rewrite G. f_equal. unfold st. rewrite skipn_skipn'. rewrite X1, enc_msgs_app. 
      replace (Z.to_nat k + Z.to_nat size)%nat with (length (enc a)) by (unfold blen in G; lia).
      rewrite skipn_app, skipn_all, Nat.sub_diag. reflexivity.
    + exists (skipn (Z.to_nat (size + k)) bb). rewrite EB. f_equal. rewrite G, X1, enc_msgs_app. unfold blen. rewrite Nat2Z.id.
      rewrite firstn_app, firstn_all, Nat.sub_diag. cbn [firstn]. apply app_nil_r.
  - assert (NT : size + k <> blen (enc ms)).
    { intros T. apply Z.eqb_neq in G. apply G. rewrite X1, enc_msgs_app, blen_app in T.
      pose proof (blen_nonneg (enc d)). destruct d as [|m d]; [change (blen (enc [])) with 0 in T; lia|].
      rewrite enc_msgs_cons, blen_app in T. pose proof (enc_msg_ge2 v v6 m). pose proof (blen_nonneg (enc d)). lia. }
    replace (skipn (Z.to_nat k) st) with (skipn (Z.to_nat (size + k)) (enc ms)).
    2:{ unfold st. rewrite skipn_skipn'. f_equal. lia. }
    destruct F' as (F1 & F2 & F3).
    apply (IH b' (size + k) a d X1).
    + split; [exact F1|split; [exact F2|exact F3]].
    + left. apply Z.eqb_neq in G. exact G.
    + exact FE'.
    + cbn [length] in LE. lia.
    + left. lia.
    + lia.
Qed.
End S.

From Coq Require Import String.
From Verif Require Import Base Nmea NmeaSpec.

Lemma plain_invalid c : plain c <-> invalid c = false.
Proof. unfold plain, invalid. cbn [In]. split; [intros (H & N)|intros H]; [|split; [|intros [?|[?|[?|[?|[?|[?|[]]]]]]]]; lia].
  assert (c <> 36 /\ c <> 42 /\ c <> 33 /\ c <> 92 /\ c <> 94 /\ c <> 126) by (repeat split; intros ->; apply N; auto 10). lia. Qed.
Lemma digit_hex c v : digit c v <-> hexval c = Some v.
Proof. unfold digit, hexval. destruct ((48 <=? c) && (c <=? 57)) eqn:A; [|destruct ((97 <=? c) && (c <=? 102)) eqn:B; [|destruct ((65 <=? c) && (c <=? 70)) eqn:C]].
  - split; [intros H; f_equal; lia|intros H; apply Some_inj in H; lia].
  - split; [intros H; f_equal; lia|intros H; apply Some_inj in H; lia].
  - split; [intros H; f_equal; lia|intros H; apply Some_inj in H; lia].
  - split; [intros H; exfalso; lia|discriminate].
Qed.
Lemma parity_snoc b c : parity (b ++ [c]) = Z.lxor (parity b) c.
Proof. unfold parity. induction b as [|x b IH]; cbn; [apply Z.lxor_0_r|]. rewrite IH. symmetry. apply Z.lxor_assoc. Qed.
Lemma parse_app p s t : parse p (s ++ t) = match parse p s with Some (q, l) => match parse q t with Some (r, m) => Some (r, l ++ m) | None => None end | None => None end.
Proof. revert p. induction s as [|c s IH]; intros p; cbn [parse app]; [destruct (parse p t) as [[? ?]|]; reflexivity|].
  destruct (step p c) as [[q o]|]; [|reflexivity]. rewrite IH. destruct (parse q s) as [[r l]|]; [|reflexivity]. destruct (parse r t) as [[u m]|]; [|reflexivity]. destruct o; reflexivity. Qed.

(** what is read after the text of a sentence *)
Inductive form : pstate -> Z -> Z -> Z -> Z -> list Z -> Prop :=
| f_sent f r : form Sent 0 f r 0 []
| f_ck0 f r : form Ck 0 f r 0 [42]
| f_ck1 h vh r : digit h vh -> form Ck 1 h r 0 [42; h]
| f_bare f r : form Eol 0 f r 1 [13]
| f_sum0 h vh l vl f : digit h vh -> digit l vl -> form Eol 2 f (16 * vh + vl) 0 [42; h; l]
| f_sum1 h vh l vl f : digit h vh -> digit l vl -> form Eol 2 f (16 * vh + vl) 1 [42; h; l; 13].
Definition pending (s : list Z) (p : parser) : Prop :=
  exists x body tl, s = x ++ 36 :: body ++ tl /\ p_buf p = 36 :: body ++ tl /\ Forall plain body /\ p_calc p = parity body /\
    form (p_st p) (p_count p) (p_first p) (p_read p) (p_eol p) tl.
Definition Inv (n : Z) (s : list Z) (p : parser) : Prop := p_size p = n /\ (p_st p <> Skip -> pending s p).

Lemma put_ok p c : Z.of_nat (List.length (p_buf p)) < p_size p ->
  put p c = Some (mkP (p_st p) (p_count p) (p_first p) (p_read p) (p_calc p) (p_eol p) (p_buf p ++ [c]) (p_size p)).
Proof. intros H. unfold put. replace (Z.of_nat (List.length (p_buf p)) <? p_size p) with true by lia. reflexivity. Qed.

Ltac pend x body tl := right; exists x, body, tl; cbn [p_buf p_calc p_st p_count p_first p_read p_eol].
(** one character of a stream *)
Lemma step_inv n s p c : 1 <= n -> Inv n s p ->
  exists q o, step p c = Some (q, o) /\ Inv n (s ++ [c]) q /\ (forall b, o = Some b -> ends n (s ++ [c]) b).
Proof.
  intros N (Sz & P). unfold step. destruct (c =? 36) eqn:E36.
  { assert (c = 36) by lia. subst c. rewrite put_ok by (cbn; lia). eexists _, _. split; [reflexivity|]. split; [|discriminate].
    split; [exact Sz|]. intros _. exists s, [], []. cbn. repeat split; auto; constructor. }
  assert (K : p_st p = Skip \/ p_st p <> Skip) by (destruct (p_st p); (left; reflexivity) || (right; discriminate)). destruct K as [K|K].
  { rewrite K. eexists _, _. split; [reflexivity|]. split; [split; [exact Sz|congruence]|discriminate]. }
  destruct (P K) as (x & body & tl & Es & Eb & Pl & Ec & F). clear P.
  assert (R : forall st : pstate, exists q o, Some (reset (mkP (p_st p) (p_count p) (p_first p) (p_read p) (p_calc p) (p_eol p) (p_buf p ++ [c]) (p_size p)) Skip, @None (list Z)) = Some (q, o) /\ Inv n (s ++ [c]) q /\ (forall b, o = Some b -> ends n (s ++ [c]) b)).
  { intros _. eexists _, _. split; [reflexivity|]. split; [split; [exact Sz|intros C; exfalso; apply C; reflexivity]|discriminate]. }
  specialize (R Skip).
  destruct (Z.of_nat (List.length (p_buf p)) >=? p_size p - 1) eqn:EL.
  { assert (Q : exists q o, Some (reset p Skip, @None (list Z)) = Some (q, o) /\ Inv n (s ++ [c]) q /\ (forall b, o = Some b -> ends n (s ++ [c]) b))
      by (eexists _, _; split; [reflexivity|]; split; [split; [exact Sz|intros C; exfalso; apply C; reflexivity]|discriminate]).
    destruct (p_st p); [congruence|exact Q|exact Q|exact Q]. }
  rewrite put_ok by lia. cbn [p_st p_count p_first p_read p_calc p_eol p_buf p_size].
  assert (G : forall st k f r e body' tl' cc, 36 :: body' ++ tl' = (36 :: body ++ tl) ++ [c] -> Forall plain body' -> cc = parity body' -> form st k f r e tl' ->
    Inv n (s ++ [c]) (mkP st k f r cc e (p_buf p ++ [c]) (p_size p))).
  { intros st k f r e body' tl' cc Eq Pl' -> F'. split; [exact Sz|]. intros _. exists x, body', tl'. cbn [p_buf p_calc p_st p_count p_first p_read p_eol].
    repeat split; auto; [rewrite Es, <- app_assoc; f_equal; symmetry; exact Eq|rewrite Eb; symmetry; exact Eq]. }
  assert (A : forall u, 36 :: body ++ (tl ++ u) = (36 :: body ++ tl) ++ u) by (intros u; cbn; rewrite <- app_assoc; reflexivity).
  destruct p as [st k f r cc e buf sz]. cbn [p_buf p_calc p_st p_count p_first p_read p_eol p_size] in *. subst buf.
  assert (Ends : forall u, sentence (36 :: body ++ u) -> tl = u ++ [13] -> ends n (s ++ [10]) (36 :: body ++ u) /\ firstn (List.length ((36 :: body ++ tl) ++ [10]) - 2) ((36 :: body ++ tl) ++ [10]) = 36 :: body ++ u).
  { intros u Se Et. split.
    - exists x. split; [rewrite Es, Et, <- !app_assoc; f_equal; cbn; f_equal; rewrite <- !app_assoc; reflexivity|]. split; [exact Se|].
      rewrite Et in EL. cbn [List.length] in EL |- *. rewrite !app_length in EL. rewrite app_length. cbn [List.length] in EL. lia.
    - replace ((36 :: body ++ tl) ++ [10]) with ((36 :: body ++ u) ++ [13; 10]) by (rewrite Et; cbn; rewrite <- !app_assoc; reflexivity).
      rewrite app_length. cbn [List.length]. replace (S (List.length (body ++ u)) + 2 - 2)%nat with (List.length (36 :: body ++ u)) by (cbn [List.length]; lia).
      rewrite firstn_app, Nat.sub_diag, firstn_all. apply app_nil_r. }
  inversion F; subst.
  - destruct (c =? 42) eqn:E1; [|destruct (c =? 13) eqn:E2; [|destruct (invalid c) eqn:E3; [exact R|]]].
    + assert (c = 42) by lia. subst c. eexists _, _. split; [reflexivity|]. split; [|discriminate]. apply (G _ _ _ _ _ body [42]); [exact (A [42])|exact Pl|reflexivity|]. constructor.
    + assert (c = 13) by lia. subst c. eexists _, _. split; [reflexivity|]. split; [|discriminate]. apply (G _ _ _ _ _ body [13]); [exact (A [13])|exact Pl|reflexivity|]. constructor.
    + eexists _, _. split; [reflexivity|]. split; [|discriminate]. apply (G _ _ _ _ _ (body ++ [c]) []).
      * rewrite !app_nil_r. reflexivity.
      * apply Forall_app. split; [exact Pl|]. constructor; [apply plain_invalid; exact E3|constructor].
      * symmetry. apply parity_snoc.
      * constructor.
  - destruct (hexval c) as [v|] eqn:E1; [|exact R]. cbn [Z.eqb]. eexists _, _. split; [reflexivity|]. split; [|discriminate].
    apply (G _ _ _ _ _ body [42; c]); [exact (A [c])|exact Pl|reflexivity|]. apply (f_ck1 c v). apply digit_hex. exact E1.
  - destruct (hexval c) as [v|] eqn:E1; [|exact R]. cbn [Z.eqb]. eexists _, _. split; [reflexivity|]. split; [|discriminate].
    apply (G _ _ _ _ _ body [42; f; c]); [exact (A [c])|exact Pl|reflexivity|].
    match goal with D : digit f vh |- _ => rewrite (proj1 (digit_hex _ _) D) end.
    apply f_sum0; [assumption|]. apply digit_hex. exact E1.
  - cbn [Z.eqb]. destruct (c =? 10) eqn:E1; [|exact R]. assert (c = 10) by lia. subst c. cbn [negb].
    destruct (Ends [] ltac:(rewrite app_nil_r; constructor; exact Pl) eq_refl) as (En & ->).
    eexists _, _. split; [reflexivity|]. split; [split; [reflexivity|intros C; exfalso; apply C; reflexivity]|]. intros b H. apply Some_inj in H. subst b. exact En.
  - cbn [Z.eqb]. destruct (c =? 13) eqn:E1; [|exact R]. assert (c = 13) by lia. subst c. eexists _, _. split; [reflexivity|]. split; [|discriminate].
    apply (G _ _ _ _ _ body [42; h; l; 13]); [exact (A [13])|exact Pl|reflexivity|]. apply f_sum1; assumption.
  - cbn [Z.eqb]. destruct (c =? 10) eqn:E1; [|exact R]. assert (c = 10) by lia. subst c. cbn [negb orb].
    destruct (16 * vh + vl =? parity body) eqn:E2.
    + destruct (Ends [42; h; l] ltac:(apply (s_sum body h l vh vl); auto; lia) eq_refl) as (En & ->).
      eexists _, _. split; [reflexivity|]. split; [split; [reflexivity|intros C; exfalso; apply C; reflexivity]|]. intros b H'. apply Some_inj in H'. subst b. exact En.
    + eexists _, _. split; [reflexivity|]. split; [split; [reflexivity|intros C; exfalso; apply C; reflexivity]|]. discriminate.
Qed.

(** the way forward *)
Lemma step_body p c : p_st p = Sent -> plain c -> Z.of_nat (List.length (p_buf p)) < p_size p - 1 ->
  step p c = Some (mkP Sent (p_count p) (p_first p) (p_read p) (Z.lxor (p_calc p) c) (p_eol p) (p_buf p ++ [c]) (p_size p), None).
Proof.
  intros St Pc L. pose proof (proj1 (plain_invalid c) Pc) as I. destruct Pc as (B & N). cbn [In] in N.
  unfold step. replace (c =? 36) with false by (assert (c <> 36) by (intros ->; apply N; auto); lia). rewrite St.
  replace (Z.of_nat (List.length (p_buf p)) >=? p_size p - 1) with false by lia. rewrite put_ok by lia. cbn [p_st p_count p_first p_read p_calc p_eol p_buf p_size]. rewrite St.
  replace (c =? 42) with false by (assert (c <> 42) by (intros ->; apply N; auto); lia). replace (c =? 13) with false by lia. rewrite I. reflexivity.
Qed.
Lemma run_body body : forall p, p_st p = Sent -> Forall plain body -> Z.of_nat (List.length (p_buf p) + List.length body) <= p_size p - 1 ->
  parse p body = Some (mkP Sent (p_count p) (p_first p) (p_read p) (Z.lxor (p_calc p) (parity body)) (p_eol p) (p_buf p ++ body) (p_size p), []).
Proof.
  induction body as [|c body IH]; intros p St F L; cbn [parse].
  - cbn [parity fold_right]. rewrite Z.lxor_0_r, app_nil_r. destruct p; cbn in *. subst. reflexivity.
  - inversion F as [|? ? Pc Pb]; subst. cbn [List.length] in L. rewrite step_body by (auto; lia). rewrite IH; cbn [p_st p_count p_first p_read p_calc p_eol p_buf p_size]; auto; [|rewrite app_length; cbn [List.length]; lia].
    unfold parity. cbn [fold_right]. rewrite <- app_assoc. rewrite <- Z.lxor_assoc. reflexivity.
Qed.
Lemma digit_not36 c v : digit c v -> (c =? 36) = false.
Proof. unfold digit. lia. Qed.

Lemma run_ends n p b : 1 <= n -> p_size p = n -> sentence b -> Z.of_nat (List.length b) + 2 < n ->
  exists q r, parse p (b ++ [13]) = Some (q, []) /\ step q 10 = Some (r, Some b).
Proof.
  intros N Sz Se L.
  assert (P0 : step p 36 = Some (mkP Sent 0 0 0 0 0 [36] n, None)) by (unfold step; cbn [Z.eqb Pos.eqb]; rewrite put_ok by (cbn; lia); cbn; rewrite Sz; reflexivity).
  assert (FL : forall u v : list Z, List.length v = 2%nat -> firstn (List.length (u ++ v) - 2) (u ++ v) = u) by (intros u v Hv; rewrite app_length, Hv, Nat.add_sub, firstn_app, Nat.sub_diag, firstn_all; apply app_nil_r).
  destruct Se as [body F|body h l vh vl F Dh Dl Pa].
  - cbn [app parse List.length] in *. rewrite P0. rewrite parse_app, run_body by (cbn [p_st p_buf p_size List.length]; auto; lia). cbn [p_st p_count p_first p_read p_calc p_eol p_buf p_size].
    cbn [parse]. unfold step at 1. cbn [Z.eqb Pos.eqb p_st p_buf p_size]. replace (Z.of_nat (List.length ([36] ++ body)) >=? n - 1) with false by (cbn [app List.length]; lia).
    rewrite put_ok by (cbn [p_st p_buf p_size app List.length]; lia). cbn [p_st p_count p_first p_read p_calc p_eol p_buf p_size].
    eexists _, _. split; [reflexivity|]. unfold step. cbn [Z.eqb Pos.eqb p_st p_count p_first p_read p_calc p_eol p_buf p_size].
    replace (Z.of_nat (List.length (([36] ++ body) ++ [13])) >=? n - 1) with false by (rewrite !app_length; cbn [List.length]; lia).
    rewrite put_ok by (cbn [p_st p_buf p_size]; rewrite !app_length; cbn [List.length]; lia). cbn [p_st p_count p_first p_read p_calc p_eol p_buf p_size Z.eqb Pos.eqb negb orb].
    rewrite <- app_assoc. cbn [app]. change (36 :: body ++ [13; 10]) with ((36 :: body) ++ [13; 10]). rewrite FL by reflexivity. reflexivity.
  - cbn [app parse List.length] in *. rewrite app_length in L. cbn [List.length] in L. rewrite P0. rewrite <- app_assoc. rewrite parse_app, run_body by (cbn [p_st p_buf p_size List.length]; auto; lia). cbn [p_st p_count p_first p_read p_calc p_eol p_buf p_size app].
    pose proof (digit_not36 _ _ Dh) as N1. pose proof (digit_not36 _ _ Dl) as N2. pose proof (proj1 (digit_hex _ _) Dh) as H1. pose proof (proj1 (digit_hex _ _) Dl) as H2.
    assert (Go : forall u, (List.length u <= 5)%nat -> (Z.of_nat (List.length (36 :: body ++ u)) >=? n - 1) = (List.length u =? 5)%nat && (Z.of_nat (List.length (36 :: body ++ u)) >=? n - 1)) by (intros u Hu; destruct (List.length u =? 5)%nat eqn:Eu; [reflexivity|]; apply Nat.eqb_neq in Eu; cbn [List.length]; rewrite app_length; cbn [andb]; lia).
    Local Ltac one N := cbn [parse]; unfold step at 1; rewrite ?N; cbn [Z.eqb Pos.eqb p_st p_count p_first p_read p_calc p_eol p_buf p_size];
      match goal with |- context [Z.of_nat (List.length ?b) >=? ?m] => replace (Z.of_nat (List.length b) >=? m) with false by (rewrite ?app_length; cbn [List.length]; rewrite ?app_length; cbn [List.length]; lia) end;
      rewrite put_ok by (cbn [p_st p_buf p_size]; rewrite ?app_length; cbn [List.length]; rewrite ?app_length; cbn [List.length]; lia);
      cbn [p_st p_count p_first p_read p_calc p_eol p_buf p_size Z.eqb Pos.eqb negb orb].
    one N1. one N1. rewrite H1. cbn [Z.eqb]. one N2. rewrite H2. cbn [Z.eqb Pos.eqb]. one N1. cbn [parse].
    eexists _, _. split; [reflexivity|]. one N1. rewrite H1. rewrite Z.lxor_0_l. replace (16 * vh + vl =? parity body) with true by lia.
    rewrite <- !app_assoc. cbn [app].
    match goal with |- context [firstn (List.length ?m - 2) ?m] => replace m with ((36 :: body ++ [42; h; l]) ++ [13; 10]) by (cbn; rewrite <- ?app_assoc; reflexivity) end.
    rewrite FL by reflexivity. reflexivity.
Qed.

Lemma put_size p c q : put p c = Some q -> p_size q = p_size p.
Proof. unfold put. destruct (_ <? _); [|discriminate]. intros H. apply Some_inj in H. subst q. reflexivity. Qed.
Lemma step_size p c q o : step p c = Some (q, o) -> p_size q = p_size p.
Proof.
  unfold step. intros E.
  repeat match type of E with context [match ?y with _ => _ end] => destruct y eqn:?; try discriminate end;
    apply Some_inj in E; inversion E; subst; cbn [p_size reset] in *;
    repeat match goal with H : put _ _ = Some _ |- _ => apply put_size in H; cbn [p_size reset] in H end; congruence.
Qed.
Lemma parse_all n : 1 <= n -> forall s p0, Inv n [] p0 -> exists p l, parse p0 s = Some (p, l) /\ Inv n s p /\ sentences n s l.
Proof.
  intros N s. induction s as [|c s IH] using rev_ind; intros p0 I0.
  - exists p0, []. repeat split; try apply I0. constructor.
  - destruct (IH p0 I0) as (p & l & E & I & Ss). destruct (step_inv n s p c N I) as (q & o & Es & Iq & Eo).
    rewrite parse_app, E. cbn [parse]. rewrite Es. eexists _, _. split; [reflexivity|]. split; [exact Iq|].
    destruct o as [b|]; [apply ss_one; auto|]. rewrite app_nil_r. apply ss_none; [exact Ss|].
    intros b (x & Ex & Se & L).
    assert (Ex' : s = x ++ b ++ [13] /\ c = 10).
    { replace (x ++ b ++ [13; 10]) with ((x ++ b ++ [13]) ++ [10]) in Ex by (rewrite <- !app_assoc; reflexivity). apply app_inj_tail in Ex. exact Ex. }
    destruct Ex' as (Es' & ->). subst s. rewrite parse_app in E. destruct (parse p0 x) as [[px lx]|] eqn:Epx; [|discriminate].
    assert (Szx : p_size px = n).
    { destruct I0 as (S0 & _). clear - Epx S0. revert p0 lx Epx S0. induction x as [|a x IHx]; intros p0 lx Epx S0; cbn [parse] in Epx; [congruence|].
      destruct (step p0 a) as [[p1 o1]|] eqn:Ea; [|discriminate]. destruct (parse p1 x) as [[p2 l2]|] eqn:E2; [|discriminate].
      assert (p2 = px) by congruence. subst p2. apply (IHx p1 l2 E2).
      apply step_size in Ea. congruence. }
    destruct (run_ends n px b N Szx Se L) as (q' & r' & Ea & Eb). rewrite Ea in E. assert (q' = p) by congruence. subst q'. rewrite Eb in Es. discriminate.
Qed.
Lemma init_inv sz : Inv (if sz =? 0 then 4096 else sz) [] (init sz).
Proof. split; [reflexivity|]. intros C. exfalso. apply C. reflexivity. Qed.

(** a sentence has its $ at its head only *)
Lemma sentence_head b : sentence b -> exists t, b = 36 :: t /\ ~ In 36 t.
Proof.
  assert (A : forall body, Forall plain body -> ~ In 36 body) by (intros body F C; rewrite Forall_forall in F; destruct (F 36 C) as (_ & N); apply N; left; reflexivity).
  intros [body F|body h l vh vl F Dh Dl Pa]; eexists; (split; [reflexivity|]); [apply A; exact F|].
  intros C. apply in_app_or in C. destruct C as [C|C]; [exact (A _ F C)|]. unfold digit in Dh, Dl. cbn [In] in C. lia.
Qed.
Lemma ends_unique n s b b' : ends n s b -> ends n s b' -> b = b'.
Proof.
  intros (x & E & Se & _) (y & E' & Se' & _). rewrite E in E'. rewrite !app_assoc in E'. apply app_inv_tail in E'.
  destruct (sentence_head _ Se) as (t & -> & Nt). destruct (sentence_head _ Se') as (t' & -> & Nt'). clear - E' Nt Nt'. f_equal.
  revert y E'. induction x as [|a x IH]; intros y E'; destruct y as [|a' y]; cbn in E'; inversion E'; subst; auto.
  - exfalso. apply Nt. apply in_or_app. right. left. reflexivity.
  - exfalso. apply Nt'. apply in_or_app. right. left. reflexivity.
  - eauto.
Qed.
Lemma sentences_unique n s l : sentences n s l -> forall l', sentences n s l' -> l = l'.
Proof.
  induction 1 as [|s l c b S1 IH E|s l c S1 IH N]; intros l' H; inversion H as [Hs|s' m c' b' S2 E2 Hs|s' m c' S2 N2 Hs]; try (destruct s; discriminate); try (symmetry in Hs; destruct s; discriminate); auto.
  - destruct s'; discriminate.
  - destruct s'; discriminate.
  - apply app_inj_tail in Hs. destruct Hs as (-> & ->). rewrite (ends_unique _ _ _ _ E E2). f_equal. apply IH. exact S2.
  - apply app_inj_tail in Hs. destruct Hs as (-> & ->). exfalso. eapply N2. exact E.
  - apply app_inj_tail in Hs. destruct Hs as (-> & ->). exfalso. eapply N. exact E2.
  - apply app_inj_tail in Hs. destruct Hs as (-> & ->). apply IH. exact S2.
Qed.

(** ** The printer *)
Lemma crc_parity s : forall a, crc a s = Z.lxor a (parity s).
Proof. unfold parity. induction s as [|c s IH]; intros a; cbn; [symmetry; apply Z.lxor_0_r|]. rewrite IH. apply Z.lxor_assoc. Qed.
Lemma lxor_small a b : 0 <= a < 256 -> 0 <= b < 256 -> 0 <= Z.lxor a b < 256.
Proof.
  intros A B. assert (P : 0 <= Z.lxor a b) by (apply Z.lxor_nonneg; lia). split; [exact P|].
  destruct (Z.eq_dec (Z.lxor a b) 0) as [->|N]; [lia|]. change 256 with (2 ^ 8). apply Z.log2_lt_pow2; [lia|].
  pose proof (Z.log2_lxor a b ltac:(lia) ltac:(lia)) as L.
  assert (G : forall x, 0 <= x < 256 -> Z.log2 x < 8) by (intros x X; destruct (Z.eq_dec x 0) as [->|]; [cbn; lia|apply Z.log2_lt_pow2; lia]).
  pose proof (G a A). pose proof (G b B). lia.
Qed.
Lemma parity_small s : Forall plain s -> 0 <= parity s < 256.
Proof. induction 1 as [|c s (Hc & _) _ IH]; cbn; [lia|]. apply lxor_small; [lia|exact IH]. Qed.
Lemma hexdigit_ok d : 0 <= d < 16 -> digit (hexdigit d) d.
Proof. unfold digit, hexdigit. intros H. destruct (d <? 10) eqn:E; lia. Qed.
Lemma printf_ok mem body : Forall plain body -> (List.length body + 7 <= List.length mem)%nat ->
  nmea_printf mem (36 :: body) =
    Some ((36 :: body) ++ [42; hexdigit (parity body / 16); hexdigit (parity body mod 16); 13; 10; 0] ++ skipn (List.length body + 7) mem, Z.of_nat (List.length body) + 6).
Proof.
  intros F L. unfold nmea_printf, append_ck.
  assert (M1 : snprint mem 0 (List.length mem) (36 :: body) = (36 :: body) ++ 0 :: skipn (List.length body + 2) mem).
  { unfold snprint. replace (List.length mem =? 0)%nat with false by (symmetry; apply Nat.eqb_neq; lia).
    rewrite (firstn_all2 (36 :: body)) by (cbn [List.length]; lia). cbn [firstn app Nat.add]. rewrite <- app_assoc. cbn [app]. do 3 f_equal. f_equal.
    cbn [List.length]. rewrite app_length. cbn [List.length]. lia. }
  rewrite M1. set (rest := skipn (List.length body + 2) mem).
  assert (Lr : List.length rest = (List.length mem - (List.length body + 2))%nat) by apply skipn_length.
  assert (Fm : firstn (List.length (36 :: body)) ((36 :: body) ++ 0 :: rest) = 36 :: body) by (rewrite firstn_app, Nat.sub_diag, firstn_all; apply app_nil_r).
  assert (Cr : calc_crc ((36 :: body) ++ 0 :: rest) (List.length (36 :: body)) = Some (parity body)).
  { unfold calc_crc. rewrite Fm. cbn [List.length Nat.eqb]. replace (List.length ((36 :: body) ++ 0 :: rest)%Z <? S (List.length body))%nat with false by (symmetry; apply Nat.ltb_ge; rewrite app_length; cbn [List.length]; lia).
    cbn [Z.eqb Pos.eqb]. rewrite crc_parity, Z.lxor_0_l. f_equal. change 255 with (Z.ones 8). rewrite Z.land_ones by lia. apply Z.mod_small. apply parity_small. exact F. }
  rewrite Cr. f_equal. f_equal; [|cbn [List.length]; lia].
  unfold snprint at 1. rewrite app_length. cbn [List.length].
  replace (S (List.length body) + S (List.length rest) - S (List.length body))%nat with (S (List.length rest)) by lia. cbn [Nat.eqb].
  rewrite (firstn_all2 (n := (S (List.length rest) - 1)%nat)) by (cbn [List.length]; lia). change (S (List.length body)) with (List.length (36 :: body)%Z). rewrite Fm.
  assert (Sk : forall (a b : nat) (l : list Z), skipn a (skipn b l) = skipn (b + a) l) by (intros a b; induction b as [|b IHb]; intros l; [reflexivity|destruct l; [destruct a; reflexivity|cbn [skipn Nat.add]; apply IHb]]).
  rewrite (skipn_app _ (36 :: body)), skipn_all2 by (cbn [List.length]; rewrite ?app_length; cbn [List.length]; lia).
  match goal with |- context [skipn ?k (0 :: rest)] => replace k with 6%nat by (rewrite ?app_length; cbn [List.length]; rewrite ?app_length; cbn [List.length]; lia) end.
  cbn [skipn]. unfold rest.
  change (match skipn (List.length body + 2) mem with [] => [] | _ :: l => skipn 4 l end) with (skipn 5 (skipn (List.length body + 2) mem)) || idtac.
  replace (skipn (List.length body + 7) mem) with (skipn 5 (skipn (List.length body + 2) mem)) by (rewrite Sk; f_equal; lia).
  rewrite <- !app_assoc. cbn [app]. reflexivity.
Qed.
Lemma run_line n p b : 1 <= n -> p_size p = n -> sentence b -> Z.of_nat (List.length b) + 2 < n ->
  exists q, parse p (b ++ [13; 10]) = Some (q, [b]) /\ p_size q = n.
Proof.
  intros N Sz Se L. destruct (run_ends n p b N Sz Se L) as (q & r & E & Es).
  replace (b ++ [13; 10]) with ((b ++ [13]) ++ [10]) by (rewrite <- app_assoc; reflexivity). rewrite parse_app, E. cbn [parse]. rewrite Es. exists r. split; [reflexivity|].
  rewrite (step_size _ _ _ _ Es). clear - E Sz. revert p q E Sz. generalize (b ++ [13]) at 1. intros s. generalize (@nil (list Z)). 
  induction s as [|c s IH]; intros l p q E Sz; cbn [parse] in E; [congruence|]. destruct (step p c) as [[p1 o]|] eqn:Ep; [|discriminate]. destruct (parse p1 s) as [[p2 l2]|] eqn:E2; [|discriminate].
  assert (p2 = q) by congruence. subst p2. apply (IH l2 p1 q E2). rewrite (step_size _ _ _ _ Ep). exact Sz.
Qed.

From Coq Require Import String.
From Verif Require Import Base Regex Strings StringsProofs PluginUtil PluginUtilSpec.
Local Open Scope Z_scope.

Lemma digit_of_spec c d : digit_of c = Some d <-> digit c d.
Proof.
  unfold digit_of. split.
  - destruct ((48 <=? c) && (c <=? 57)) eqn:A; [intros E; apply Some_inj in E; subst d; replace c with (48 + (c - 48)) at 1 by lia; constructor; lia|].
    destruct ((65 <=? c) && (c <=? 90)) eqn:B; [intros E; apply Some_inj in E; subst d; replace c with (65 + (c - 55 - 10)) at 1 by lia; constructor; lia|].
    destruct ((97 <=? c) && (c <=? 122)) eqn:C; [intros E; apply Some_inj in E; subst d; replace c with (97 + (c - 87 - 10)) at 1 by lia; constructor; lia|discriminate].
  - intros H. destruct H as [d H|d H|d H].
    + replace ((48 <=? 48 + d) && (48 + d <=? 57)) with true by lia. f_equal. lia.
    + replace ((48 <=? 65 + (d - 10)) && (65 + (d - 10) <=? 57)) with false by lia.
      replace ((65 <=? 65 + (d - 10)) && (65 + (d - 10) <=? 90)) with true by lia. f_equal. lia.
    + replace ((48 <=? 97 + (d - 10)) && (97 + (d - 10) <=? 57)) with false by lia.
      replace ((65 <=? 97 + (d - 10)) && (97 + (d - 10) <=? 90)) with false by lia.
      replace ((97 <=? 97 + (d - 10)) && (97 + (d - 10) <=? 122)) with true by lia. f_equal. lia.
Qed.
Lemma in_base_spec b c d : in_base b c = Some d <-> digit c d /\ d < b.
Proof.
  unfold in_base. destruct (digit_of c) as [x|] eqn:E.
  - apply digit_of_spec in E. split.
    + destruct (x <? b) eqn:L; [|discriminate]. intros H. apply Some_inj in H. subst. split; [exact E|lia].
    + intros [H L]. apply digit_of_spec in H. apply digit_of_spec in E. rewrite E in H. apply Some_inj in H. subst. replace (d <? b) with true by lia. reflexivity.
  - split; [discriminate|]. intros [H _]. apply digit_of_spec in H. congruence.
Qed.
(** digits folded from the left *)
Inductive more (base : Z) : Z -> list Z -> Z -> Prop :=
| m_nil a : more base a [] a
| m_cons a c d l v : in_base base c = Some d -> more base (a * base + d) l v -> more base a (c :: l) v.
Lemma more_snoc base a l v c d : more base a l v -> in_base base c = Some d -> more base a (l ++ [c]) (v * base + d).
Proof. intros H D. induction H as [a|a x e l v X M IH]; cbn [app]; econstructor; eauto. constructor. Qed.
Lemma number_more base l v : number base l v <-> exists c r d, l = c :: r /\ in_base base c = Some d /\ more base d r v.
Proof.
  split.
  - intros H. induction H as [c d D L|l v c d H IH D L].
    + exists c, [], d. repeat split; [now apply in_base_spec|constructor].
    + destruct IH as (c0 & r & d0 & -> & B & M). exists c0, (r ++ [c]), d0. repeat split; [exact B|]. apply more_snoc; [exact M|now apply in_base_spec].
  - intros (c & r & d & -> & B & M).
    assert (G : forall p a, number base p a -> forall r v, more base a r v -> number base (p ++ r) v).
    { clear. intros p a N r v M. revert p N. induction M as [a|a c d l v C M IH]; intros p N; [now rewrite app_nil_r|].
      replace (p ++ c :: l) with ((p ++ [c]) ++ l) by now rewrite <- app_assoc. apply IH. apply in_base_spec in C. constructor; tauto. }
    apply (G [c] d); [|exact M]. apply in_base_spec in B. constructor; tauto.
Qed.
Lemma more_take base l : forall a v, more base a l v <-> take_digits base a l = (v, []).
Proof.
  induction l as [|c l IH]; intros a v; cbn [take_digits].
  - split; [intros H; now inversion H|intros H; inversion H; constructor].
  - split.
    + intros H. inversion H as [|? ? d ? ? D M]; subst. rewrite D. now apply IH.
    + destruct (in_base base c) as [d|] eqn:D; [|intros H; discriminate]. intros H. apply IH in H. econstructor; eauto.
Qed.
Lemma number_take base l v : number base l v <-> l <> [] /\ take_digits base 0 l = (v, []).
Proof.
  rewrite number_more. split.
  - intros (c & r & d & -> & B & M). split; [discriminate|]. cbn [take_digits]. rewrite B. rewrite Z.mul_0_l, Z.add_0_l. now apply more_take.
  - intros [N T]. destruct l as [|c r]; [congruence|]. cbn [take_digits] in T. destruct (in_base base c) as [d|] eqn:D; [|discriminate].
    exists c, r, d. repeat split; [exact D|]. apply more_take. rewrite Z.mul_0_l, Z.add_0_l in T. exact T.
Qed.
(** what comes after the sign *)
Definition scan_body (s2 : list Z) : option (Z * list Z) :=
  match s2 with
  | [] => None
  | c :: r =>
      if c =? 48 then
        match r with
        | x :: d :: r' =>
            if (x =? 120) || (x =? 88) then
              match in_base 16 d with Some _ => Some (take_digits 16 0 (d :: r')) | None => Some (0, r) end
            else Some (take_digits 8 0 s2)
        | _ => Some (take_digits 8 0 s2)
        end
      else match in_base 10 c with Some _ => Some (take_digits 10 0 s2) | None => None end
  end.
Lemma number_nonempty b l v : number b l v -> l <> [].
Proof. rewrite number_take. tauto. Qed.
Lemma not_oct x l v : x = 120 \/ x = 88 -> ~ number 8 (48 :: x :: l) v.
Proof.
  intros X N. apply number_take in N as [_ N]. cbn [take_digits] in N. change (in_base 8 48) with (Some 0) in N. cbn [take_digits] in N.
  destruct X as [-> | ->]; discriminate.
Qed.
Lemma body_spec s v : scan_body s = Some (v, []) <-> constant s v.
Proof.
  split.
  - destruct s as [|c r]; [discriminate|]. cbn [scan_body]. destruct (c =? 48) eqn:C0.
    + apply Z.eqb_eq in C0. subst c. destruct r as [|x [|d r']].
      * intros E. apply Some_inj in E. apply c_oct. apply number_take. split; [discriminate|exact E].
      * intros E. apply Some_inj in E. apply c_oct. apply number_take. split; [discriminate|exact E].
      * destruct ((x =? 120) || (x =? 88)) eqn:X.
        -- destruct (in_base 16 d) as [y|] eqn:D; [|intros E; discriminate]. intros E. apply Some_inj in E. apply c_hex; [lia|].
           apply number_take. split; [discriminate|exact E].
        -- intros E. apply Some_inj in E. apply c_oct. apply number_take. split; [discriminate|exact E].
    + destruct (in_base 10 c) as [y|] eqn:D; [|discriminate]. intros E. apply Some_inj in E. apply c_dec; [lia|]. apply number_take. split; [discriminate|exact E].
  - intros H. destruct H as [c l v C N|l v N|x l v X N].
    + cbn [scan_body]. replace (c =? 48) with false by lia. pose proof N as N2. apply number_more in N2 as (c0 & r & d & E & B & _).
      inversion E; subst c0 r. rewrite B. apply number_take in N as [_ N]. now rewrite N.
    + cbn [scan_body Z.eqb]. change (48 =? 48) with true. cbn iota. pose proof N as N2. apply number_take in N2 as [_ N2].
      destruct l as [|x [|d r']]; try (now rewrite N2).
      destruct ((x =? 120) || (x =? 88)) eqn:X; [exfalso; apply (not_oct x (d :: r') v); [lia|exact N]|]. now rewrite N2.
    + cbn [scan_body]. change (48 =? 48) with true. cbn iota. pose proof N as N2. apply number_more in N2 as (c0 & r & d & -> & B & _).
      replace ((x =? 120) || (x =? 88)) with true by lia. rewrite B. apply number_take in N as [_ N]. now rewrite N.
Qed.
Definition signed (neg : bool) (r : option (Z * list Z)) : option (bool * Z * list Z) :=
  match r with Some (v, e) => Some (neg, v, e) | None => None end.
Lemma scan_num_body s : scan_num s =
  match skip_space s with
  | c :: r => if c =? 45 then signed true (scan_body r) else if c =? 43 then signed false (scan_body r) else signed false (scan_body (c :: r))
  | [] => None
  end.
Proof.
  assert (G : forall neg s2, match s2 with
    | [] => None
    | c :: r =>
      if c =? 48 then
        match r with
        | x :: d :: r' =>
            if (x =? 120) || (x =? 88) then
              match in_base 16 d with Some _ => let '(v, e) := take_digits 16 0 (d :: r') in Some (neg, v, e) | None => Some (neg, 0, r) end
            else let '(v, e) := take_digits 8 0 s2 in Some (neg, v, e)
        | _ => let '(v, e) := take_digits 8 0 s2 in Some (neg, v, e)
        end
      else match in_base 10 c with Some _ => let '(v, e) := take_digits 10 0 s2 in Some (neg, v, e) | None => None end
    end = signed neg (scan_body s2)).
  { intros neg [|c r]; [reflexivity|]. unfold scan_body. destruct (c =? 48).
    - destruct r as [|x [|d r']]; try (destruct (take_digits 8 0 _); reflexivity).
      destruct ((x =? 120) || (x =? 88)); [|destruct (take_digits 8 0 _); reflexivity].
      destruct (in_base 16 d); [|reflexivity]. destruct (take_digits 16 0 _); reflexivity.
    - destruct (in_base 10 c); [|reflexivity]. destruct (take_digits 10 0 _); reflexivity. }
  unfold scan_num. cbv zeta. destruct (skip_space s) as [|c r]; [reflexivity|].
  destruct (c =? 45); [exact (G true r)|]. destruct (c =? 43); [exact (G false r)|exact (G false (c :: r))].
Qed.
Lemma space_white c : space c = true <-> white c.
Proof. unfold space, white. lia. Qed.
Lemma skip_space_split s : exists ws, Forall white ws /\ s = ws ++ skip_space s /\ (forall c r, skip_space s = c :: r -> ~ white c).
Proof.
  induction s as [|c s IH]; cbn [skip_space].
  - exists []. repeat split; [constructor|intros; discriminate].
  - destruct (space c) eqn:E.
    + destruct IH as (ws & F & S1 & N). exists (c :: ws). repeat split; [constructor; [now apply space_white|exact F]|cbn [app]; now f_equal|exact N].
    + exists []. repeat split; [constructor|]. intros x r H. inversion H; subst. intros W. apply space_white in W. congruence.
Qed.
Lemma skip_space_app ws c r : Forall white ws -> ~ white c -> skip_space (ws ++ c :: r) = c :: r.
Proof.
  intros F N. induction F as [|w ws W F IH]; cbn [app skip_space].
  - destruct (space c) eqn:E; [|reflexivity]. exfalso. apply N. now apply space_white.
  - apply space_white in W. now rewrite W.
Qed.
Lemma constant_head l v : constant l v -> exists c r, l = c :: r /\ 48 <= c <= 122.
Proof.
  intros H. destruct H as [c l v C N|l v N|x l v X N].
  - exists c, l. split; [reflexivity|]. apply number_more in N as (c0 & r & d & E & B & _). inversion E; subst. apply in_base_spec in B as [B _]. inversion B; lia.
  - exists 48, l. split; [reflexivity|lia].
  - exists 48, (x :: l). split; [reflexivity|lia].
Qed.
Lemma more_nonneg base a l v : 0 <= a -> 0 <= base -> more base a l v -> 0 <= v.
Proof.
  intros A B M. induction M as [a|a c d l v D M IH]; [exact A|]. apply IH. apply in_base_spec in D as [D _].
  assert (0 <= d) by (inversion D; lia). apply Z.add_nonneg_nonneg; [now apply Z.mul_nonneg_nonneg|assumption].
Qed.
Lemma number_nonneg b l v : 0 <= b -> number b l v -> 0 <= v.
Proof.
  intros B N. apply number_more in N as (c & r & d & -> & D & M). apply in_base_spec in D as [D _].
  assert (0 <= d) by (inversion D; lia). now apply (more_nonneg b d r v).
Qed.
Lemma constant_nonneg l v : constant l v -> 0 <= v.
Proof. intros H. destruct H as [c l v C N|l v N|x l v X N]; eapply number_nonneg; try exact N; lia. Qed.
Lemma scan_spec s neg n : scan_num s = Some (neg, n, []) -> denotes s (if neg then - n else n) /\ 0 <= n.
Proof.
  rewrite scan_num_body. unfold signed. destruct (skip_space_split s) as (ws & F & S1 & N). destruct (skip_space s) as [|c r]; [discriminate|].
  rewrite S1. destruct (c =? 45) eqn:M.
  - apply Z.eqb_eq in M. subst c. destruct (scan_body r) as [[v e]|] eqn:B; [|discriminate]. intros E.
    assert (neg = true /\ v = n /\ e = []) as (-> & -> & ->) by (inversion E; auto). apply body_spec in B. split; [now constructor|now apply constant_nonneg in B].
  - destruct (c =? 43) eqn:P.
    + apply Z.eqb_eq in P. subst c. destruct (scan_body r) as [[v e]|] eqn:B; [|discriminate]. intros E.
      assert (neg = false /\ v = n /\ e = []) as (-> & -> & ->) by (inversion E; auto). apply body_spec in B. split; [now constructor|now apply constant_nonneg in B].
    + destruct (scan_body (c :: r)) as [[v e]|] eqn:B; [|discriminate]. intros E.
      assert (neg = false /\ v = n /\ e = []) as (-> & -> & ->) by (inversion E; auto). apply body_spec in B. split; [now constructor|now apply constant_nonneg in B].
Qed.
Lemma scan_denotes s v : denotes s v -> exists neg n, scan_num s = Some (neg, n, []) /\ v = (if neg then - n else n) /\ 0 <= n.
Proof.
  intros H. destruct H as [ws l v F C|ws l v F C|ws l v F C]; rewrite scan_num_body; unfold signed; pose proof (constant_nonneg l v C) as Nn;
    pose proof C as C2; apply body_spec in C2.
  - destruct (constant_head l v C) as (c & r & -> & R). rewrite skip_space_app; [|exact F|unfold white; lia].
    replace (c =? 45) with false by lia. replace (c =? 43) with false by lia. rewrite C2. exists false, v. tauto.
  - rewrite skip_space_app; [|exact F|unfold white; lia]. change (43 =? 45) with false. change (43 =? 43) with true. cbn iota. rewrite C2. exists false, v. tauto.
  - rewrite skip_space_app; [|exact F|unfold white; lia]. change (45 =? 45) with true. cbn iota. rewrite C2. exists true, v. tauto.
Qed.

(** * Words *)
Lemma low_same a b : (low a =? low b) = true <-> same_letter a b.
Proof.
  unfold low, same_letter. destruct ((65 <=? a) && (a <=? 90)) eqn:A, ((65 <=? b) && (b <=? 90)) eqn:B; lia.
Qed.
Lemma caseeq_spec a : forall b, caseeq a b = true <-> same_word a b.
Proof.
  unfold same_word. induction a as [|x a IH]; intros [|y b]; cbn [caseeq].
  - split; [constructor|reflexivity].
  - split; [discriminate|intros H; inversion H].
  - split; [discriminate|intros H; inversion H].
  - rewrite andb_true_iff, low_same, IH. split; [intros [P Q]; now constructor|intros H; inversion H; subst; tauto].
Qed.

(** * The loader *)
Lemma find_spec names key : forall k i, find_param k names key = Some i <-> exists j, i = (k + j)%nat /\ entry_for names key j.
Proof.
  induction names as [|n names IH]; intros k i; cbn [find_param].
  - split; [discriminate|]. intros (j & _ & (m & H & _) & _). destruct j; discriminate.
  - destruct (match n with [] => true | _ => false end || caseeq n key) eqn:E.
    + assert (Q : n = [] \/ same_word n key).
      { apply orb_true_iff in E as [E|E]; [left; destruct n; [reflexivity|discriminate]|right; now apply caseeq_spec]. }
      split.
      * intros H. apply Some_inj in H. subst i. exists 0%nat. split; [lia|]. split; [exists n; split; [reflexivity|exact Q]|intros j m J; lia].
      * intros (j & -> & _ & B). destruct j as [|j]; [f_equal; lia|]. exfalso. destruct (B 0%nat n ltac:(lia) eq_refl) as [B1 B2]. tauto.
    + assert (Q : n <> [] /\ ~ same_word n key).
      { apply orb_false_iff in E as [E1 E2]. split; [intros ->; discriminate|]. intros W. apply caseeq_spec in W. congruence. }
      rewrite IH. split.
      * intros (j & -> & (m & M & O) & B). exists (S j). split; [lia|]. split; [exists m; split; assumption|].
        intros [|j'] m' J Nm; [cbn in Nm; inversion Nm; subst; exact Q|]. apply (B j' m'); [lia|exact Nm].
      * intros (j & -> & (m & M & O) & B). destruct j as [|j]; [cbn in M; inversion M; subst; tauto|].
        exists j. split; [lia|]. split; [exists m; split; assumption|]. intros j' m' J Nm. apply (B (S j') m'); [lia|exact Nm].
Qed.
Lemma find0_spec names key i : find_param 0 names key = Some i <-> entry_for names key i.
Proof. rewrite find_spec. split; [intros (j & -> & H); exact H|intros H; now exists i]. Qed.
Lemma find0_none names key : find_param 0 names key = None <-> forall i, ~ entry_for names key i.
Proof.
  split.
  - intros H i E. apply find0_spec in E. congruence.
  - intros H. destruct (find_param 0 names key) as [i|] eqn:E; [|reflexivity]. apply find0_spec in E. exfalso. exact (H i E).
Qed.
Lemma send_spec name l names params cs : send_params name l names params = (cs, true) <-> sends name l names params cs.
Proof.
  revert cs. induction params as [|[k v] r IH]; intros cs; cbn [send_params].
  - split; [intros H; inversion H; constructor|intros H; now inversion H].
  - destruct (send_params name l names r) as [cr okr] eqn:R. split.
    + intros H. destruct names as [|n names]; [discriminate|]. destruct (find_param 0 (n :: names) k) as [i|] eqn:F.
      * inversion H as [[H1 H2]]. apply andb_true_iff in H2 as [H2 ->]. apply s_known; [now apply find0_spec|lia|]. now apply IH.
      * inversion H; subst. apply s_unknown; [now apply find0_none|discriminate|]. now apply IH.
    + intros H. inversion H as [|? ? i ? cs' E Z0 S1|? ? ? cs' N NE S1]; subst.
      * apply IH in S1. inversion S1; subst. pose proof E as E2. apply find0_spec in E2. destruct names as [|n names].
        -- exfalso. destruct E as [(m & M & _) _]. destruct i; discriminate.
        -- rewrite E2, Z0. reflexivity.
      * apply IH in S1. inversion S1; subst. destruct names as [|n names]; [congruence|]. apply find0_none in N. rewrite N. reflexivity.
Qed.
Lemma usable_spec l names : l_open l = true /\ add_dl l = Some names <-> usable l names.
Proof.
  unfold usable, add_dl. split.
  - intros [O H]. destruct (l_version l) as [v|]; [|discriminate]. destruct (v =? -1) eqn:A; [discriminate|]. destruct (v <? 5) eqn:B; [discriminate|].
    destruct (l_init l); [|discriminate]. repeat split; [exact O|exists v; split; [reflexivity|lia]|exact H].
  - intros (O & (v & V & G) & I & P). rewrite V, I. replace (v =? -1) with false by lia. replace (v <? 5) with false by lia. split; assumption.
Qed.
Lemma load_spec fs conf : forall cs, load_plugins fs conf = (cs, true) <-> loads fs conf cs.
Proof.
  induction conf as [|[name params] r IH]; intros cs; cbn [load_plugins].
  - split; [intros H; inversion H; constructor|intros H; now inversion H].
  - unfold load_dl. destruct (load_plugins fs r) as [c2 ok2] eqn:R. split.
    + destruct (l_open (fs name)) eqn:O; cbn [negb]; [|intros H; discriminate].
      destruct (add_dl (fs name)) as [names|] eqn:A; [|intros H; discriminate]. unfold init_plugin.
      destruct (send_params name (fs name) names params) as [c1 ok1] eqn:Se. intros H. inversion H as [[H1 H2]].
      apply andb_true_iff in H2 as [-> ->]. rewrite <- app_assoc. cbn [app]. apply o_cons with (names := names).
      * now apply usable_spec.
      * now apply send_spec.
      * now apply IH.
    + intros H. inversion H as [|? ? names cs1 ? cr U Se Lo]; subst. apply usable_spec in U as [O A]. apply send_spec in Se. apply IH in Lo.
      rewrite O, A. cbn [negb]. unfold init_plugin. rewrite Se. inversion Lo; subst. rewrite <- app_assoc. reflexivity.
Qed.

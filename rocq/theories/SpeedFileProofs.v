From Coq Require Import String.
From Verif Require Import Base Regex SpeedFile SpeedFileSpec.

Lemma sp_white c : sp c = true <-> white c.
Proof. unfold sp, white. lia. Qed.
Lemma fgets_line : forall t n r, Forall (fun c => c <> 10) t -> (List.length t < n)%nat -> fgets n (t ++ 10 :: r) = (t ++ [10], r).
Proof.
  induction t as [|x t IH]; intros n r F L; cbn [List.length app] in *.
  - destruct n; [lia|reflexivity].
  - destruct n as [|n]; [lia|]. inversion F; subst. cbn [fgets]. destruct (x =? 10) eqn:E; [lia|].
    rewrite IH by (auto; lia). reflexivity.
Qed.
Lemma cut0_all : forall s, Forall (fun c => c <> 0) s -> cut0 s = s.
Proof. induction s as [|x s IH]; intros F; [reflexivity|]. inversion F; subst. cbn. destruct (x =? 0) eqn:E; [lia|]. rewrite IH; auto. Qed.

Lemma skip_blanks : forall b s, Forall white b -> skip_sp (b ++ s) = skip_sp s.
Proof. induction b as [|x b IH]; intros s F; [reflexivity|]. inversion F; subst. cbn. replace (sp x) with true by (symmetry; apply sp_white; assumption). apply IH; assumption. Qed.
Lemma skip_stop x s : ~ white x -> skip_sp (x :: s) = x :: s.
Proof. intros N. cbn. destruct (sp x) eqn:E; [apply sp_white in E; tauto|reflexivity]. Qed.
Lemma span_word : forall n s, Forall (fun c => ~ white c) n -> span (n ++ s) = (n ++ fst (span s), snd (span s)).
Proof.
  induction n as [|x n IH]; intros s F; cbn [app span].
  - destruct (span s); reflexivity.
  - inversion F; subst. destruct (sp x) eqn:E; [apply sp_white in E; tauto|]. rewrite IH by assumption. reflexivity.
Qed.
Lemma last_eq_none : forall n, Forall (fun c => c <> 61) n -> last_eq n = None.
Proof. induction n as [|x n IH]; intros F; [reflexivity|]. inversion F; subst. cbn. rewrite IH by assumption. destruct (x =? 61) eqn:E; [lia|reflexivity]. Qed.
Lemma last_eq_mid : forall n d, Forall (fun c => c <> 61) d -> last_eq (n ++ 61 :: d) = Some (n, d).
Proof. induction n as [|x n IH]; intros d F; cbn [app last_eq]; [rewrite last_eq_none by assumption; reflexivity|]. rewrite IH by assumption. reflexivity. Qed.

Lemma skip_digits d s : d <> [] -> Forall digit d -> skip_sp (d ++ s) = d ++ s.
Proof. intros N F. destruct d as [|x d]; [congruence|]. inversion F; subst. apply skip_stop. unfold digit, white in *. lia. Qed.

Lemma name_value_ok n a b d : n <> [] -> Forall (fun c => ~ white c /\ c <> 0 /\ c <> 61) n -> Forall blank a -> Forall blank b ->
  d <> [] -> Forall digit d -> name_value (n ++ a ++ [61] ++ b ++ d ++ [10]) = Some (n, d ++ [10]).
Proof.
  intros Nn Fn Fa Fb Nd Fd.
  assert (Wn : Forall (fun c => ~ white c) n) by (eapply Forall_impl; [|exact Fn]; cbn; tauto).
  assert (Wa : Forall white a) by (eapply Forall_impl; [|exact Fa]; unfold blank, white; lia).
  assert (Wb : Forall white b) by (eapply Forall_impl; [|exact Fb]; unfold blank, white; lia).
  assert (Wd : Forall (fun c => ~ white c) d) by (eapply Forall_impl; [|exact Fd]; unfold digit, white; lia).
  unfold name_value.
  replace (skip_sp (n ++ a ++ [61] ++ b ++ d ++ [10])) with (n ++ a ++ [61] ++ b ++ d ++ [10]).
  2:{ destruct n as [|x n]; [congruence|]. inversion Wn; subst. symmetry. apply skip_stop. assumption. }
  rewrite span_word by exact Wn.
  destruct a as [|y a].
  - (* no blank before = *)
    cbn [app].
    destruct b as [|z b].
    + cbn [app]. change (61 :: d ++ [10]) with ((61 :: d) ++ [10]).
      rewrite span_word by (constructor; [unfold white; lia|exact Wd]). cbn [span sp fst snd].
      change (span [10]) with (@nil Z, [10]). cbn [fst snd]. rewrite app_nil_r.
      destruct (n ++ 61 :: d) as [|q qs] eqn:Q; [destruct n; discriminate|]. rewrite <- Q.
      change (skip_sp [10]) with (@nil Z). cbn iota.
      rewrite last_eq_mid by (eapply Forall_impl; [|exact Fd]; unfold digit; lia).
      destruct n as [|x n]; [congruence|]. rewrite skip_digits by assumption. reflexivity.
    + change (61 :: (z :: b) ++ d ++ [10]) with ([61] ++ (z :: b) ++ d ++ [10]).
      rewrite span_word by (constructor; [unfold white; lia|constructor]).
      assert (Z1 : sp z = true) by (apply sp_white; inversion Wb; assumption).
      assert (Sz : span ((z :: b) ++ d ++ [10]) = ([], (z :: b) ++ d ++ [10])) by (cbn [app span]; rewrite Z1; reflexivity).
      rewrite Sz. cbn [fst snd]. rewrite app_nil_r.
      rewrite skip_blanks by exact Wb. rewrite skip_digits by assumption.
      destruct (n ++ [61]) as [|q qs] eqn:Q; [destruct n; discriminate|]. rewrite <- Q.
      rewrite last_eq_mid by constructor.
      destruct d as [|e d]; [congruence|]. cbn [app].
      assert (He : digit e) by (inversion Fd; assumption).
      destruct n as [|x n]; [congruence|]. cbn [app].
      change (z :: b ++ e :: d ++ [10]) with ((z :: b) ++ (e :: d) ++ [10]).
      rewrite skip_blanks by exact Wb. rewrite skip_digits by (auto; discriminate). cbn [app].
      assert (Ne : e <> 61) by (unfold digit in He; lia).
      destruct e as [|p|p]; try reflexivity. do 6 (destruct p as [p|p|]; try reflexivity). congruence.
  - assert (Y1 : sp y = true) by (apply sp_white; inversion Wa; assumption).
    assert (Sy : span ((y :: a) ++ [61] ++ b ++ d ++ [10]) = ([], (y :: a) ++ [61] ++ b ++ d ++ [10])) by (cbn [app span]; rewrite Y1; reflexivity).
    rewrite Sy. cbn [fst snd]. rewrite app_nil_r. rewrite skip_blanks by exact Wa.
    destruct n as [|x n]; [congruence|].
    cbn [app]. rewrite skip_stop by (unfold white; lia). rewrite skip_blanks by exact Wb. rewrite skip_digits by assumption. reflexivity.
Qed.

Lemma strip_one d : d <> [] -> Forall digit d -> strip_eols (d ++ [10]) = d.
Proof.
  intros N F. unfold strip_eols. rewrite rev_app_distr. cbn.
  destruct (exists_last N) as (x & y & ->). rewrite rev_app_distr. cbn.
  apply Forall_app in F. destruct F as [_ F]. inversion F; subst. unfold digit in *.
  destruct ((y =? 10) || (y =? 13)) eqn:E; [lia|]. cbn. rewrite rev_involutive. reflexivity.
Qed.
Lemma take_all : forall d a, Forall digit d -> take_num a d = (fold_left (fun a d => 10 * a + (d - 48)) d a, []).
Proof.
  induction d as [|x d IH]; intros a F; [reflexivity|]. inversion F; subst. cbn. unfold digit in *.
  destruct ((48 <=? x) && (x <=? 57)) eqn:E; [apply IH; assumption|lia].
Qed.
Lemma read_ok d : d <> [] -> Forall digit d -> number d < 2 ^ 32 -> read_ul d = Some (number d).
Proof.
  intros N F L. unfold read_ul. replace (skip_sp d) with d by (rewrite <- (app_nil_r d) at 2; rewrite skip_digits by assumption; symmetry; apply app_nil_r).
  destruct d as [|x d]; [congruence|]. inversion F; subst. unfold digit in *.
  replace (x =? 45) with false by lia. replace (x =? 43) with false by lia. cbn iota.
  replace ((48 <=? x) && (x <=? 57)) with true by lia.
  rewrite take_all by (constructor; [unfold digit; lia|assumption]). fold (number (x :: d)).
  change (2 ^ 32) with 4294967296 in L. change (2 ^ 64) with 18446744073709551616.
  destruct (number (x :: d) >=? 18446744073709551616) eqn:G; [lia|reflexivity].
Qed.

Lemma case_called : forall key n, Forall (fun c => 97 <= c <= 122) key -> (case_eq key n = true <-> called key n).
Proof.
  induction key as [|x k IH]; intros [|y n] F; cbn [case_eq].
  - split; [constructor|reflexivity].
  - split; [discriminate|intros H; inversion H].
  - split; [discriminate|intros H; inversion H].
  - inversion F; subst. rewrite andb_true_iff, IH by assumption. split.
    + intros [E C]. constructor; [|exact C]. unfold letter_alike, lower in *.
      destruct ((65 <=? x) && (x <=? 90)) eqn:G; [lia|]. destruct ((65 <=? y) && (y <=? 90)) eqn:K; lia.
    + intros H. inversion H as [|? ? ? ? A C]; subst. split; [|exact C]. unfold letter_alike, lower in *.
      destruct ((65 <=? x) && (x <=? 90)) eqn:G; [lia|]. destruct ((65 <=? y) && (y <=? 90)) eqn:K; lia.
Qed.

Definition up_key : list Z := str "upstream".
Definition down_key : list Z := str "downstream".
Lemma keys_low : Forall (fun c => 97 <= c <= 122) up_key /\ Forall (fun c => 97 <= c <= 122) down_key.
Proof. split; vm_compute; repeat (constructor; [split; discriminate|]); constructor. Qed.
Lemma called_len key n : called key n -> List.length key = List.length n.
Proof. intros H. induction H; cbn; congruence. Qed.

(** one line *)
Definition step (f : found) (l : line) : found :=
  match l with
  | Comment _ => f
  | Assign n _ _ d =>
      if case_eq up_key n then (Some (number d), snd f) else if case_eq down_key n then (fst f, Some (number d)) else f
  end.
Lemma one_line_ok l f : well_formed l -> one_line (text l) f = step f l.
Proof.
  intros [_ W]. destruct l as [t|n a b d]; cbn [text] in *.
  - destruct W as (F & H). unfold one_line.
    rewrite cut0_all by (apply Forall_app; split; [eapply Forall_impl; [|exact F]; cbn; tauto|repeat constructor; discriminate]).
    assert (C : comment (t ++ [10]) = true).
    { unfold comment. apply orb_true_iff. destruct H as [H|[r ->]]; [left|right; reflexivity].
      apply forallb_forall. intros x I. apply sp_white. apply in_app_or in I. destruct I as [I|[<-|[]]]; [|unfold white; lia].
      rewrite Forall_forall in H. exact (H x I). }
    rewrite C. reflexivity.
  - destruct W as (Nn & Hn & Fn & Fa & Fb & Nd & Fd & L). unfold one_line.
    rewrite cut0_all.
    2:{ repeat (apply Forall_app; split); try (eapply Forall_impl; [|eassumption]; unfold blank, digit, white; intros; lia); repeat constructor; discriminate. }
    assert (C : comment (n ++ a ++ [61] ++ b ++ d ++ [10]) = false).
    { destruct n as [|x n]; [congruence|]. cbn [hd] in Hn. inversion Fn as [|? ? (A1 & A2 & A3) ?]; subst. unfold comment. cbn [app forallb].
      destruct (sp x) eqn:E; [apply sp_white in E; tauto|]. cbn. lia. }
    rewrite C, name_value_ok by assumption. cbn [step]. rewrite strip_one, read_ok by assumption. reflexivity.
Qed.
Lemma text_nl l : well_formed l -> exists t, text l = t ++ [10] /\ Forall (fun c => c <> 10) t.
Proof.
  intros [_ W]. destruct l as [t|n a b d]; cbn [text].
  - exists t. split; [reflexivity|]. eapply Forall_impl; [|apply W]. cbn. tauto.
  - exists (n ++ a ++ [61] ++ b ++ d). split; [rewrite <- !app_assoc; reflexivity|]. destruct W as (Nn & Hn & Fn & Fa & Fb & Nd & Fd & L).
    repeat (apply Forall_app; split); try (eapply Forall_impl; [|eassumption]; unfold blank, digit, white; intros; lia); repeat constructor; discriminate.
Qed.
Lemma all_lines_ok : forall ls fuel f, Forall well_formed ls -> (List.length ls <= fuel)%nat ->
  all_lines fuel (concat (map text ls)) f = fold_left step ls f.
Proof.
  induction ls as [|l ls IH]; intros fuel f F L; cbn [map concat fold_left List.length] in *.
  - destruct fuel; reflexivity.
  - inversion F as [|? ? W F']; subst. destruct fuel as [|fuel]; [lia|].
    destruct (text_nl l W) as (t & Et & Ft). pose proof W as [Wl _]. rewrite Et, app_length in Wl. cbn [List.length] in Wl.
    rewrite Et. rewrite <- app_assoc. cbn [app]. cbn [all_lines].
    rewrite fgets_line by (auto; lia).
    destruct (t ++ 10 :: concat (map text ls)) as [|q qs] eqn:Q; [destruct t; discriminate|].
    rewrite <- Et, one_line_ok by exact W. apply IH; [exact F'|lia].
Qed.
Lemma concat_len : forall ls, Forall well_formed ls -> (List.length ls <= List.length (concat (map text ls)))%nat.
Proof.
  induction ls as [|l ls IH]; intros F; cbn [map concat List.length]; [lia|]. inversion F as [|? ? W F']; subst.
  destruct (text_nl l W) as (t & Et & _). specialize (IH F'). rewrite Et, !app_length. cbn [List.length]. lia.
Qed.

Lemma last_snoc_inv key l x o : last_set key (l ++ [x]) o ->
  (exists n a b d, x = Assign n a b d /\ called key n /\ o = Some (number d)) \/
  (last_set key l o /\ forall n a b d, x = Assign n a b d -> ~ called key n).
Proof.
  intros H. inversion H as [E|l' n a b d C E|l' x' o' H' N E].
  - destruct l; discriminate.
  - apply app_inj_tail in E. destruct E as [-> <-]. left. eauto 8.
  - apply app_inj_tail in E. destruct E as [-> ->]. right. auto.
Qed.
Lemma disjoint n : called up_key n -> called down_key n -> False.
Proof. intros A B. apply called_len in A, B. vm_compute in A, B. congruence. Qed.
Lemma fold_last : forall ls u d, last_set up_key ls u -> last_set down_key ls d -> fold_left step ls (None, None) = (u, d).
Proof.
  induction ls as [|x ls IH] using rev_ind; intros u d U D.
  - cbn. f_equal; [inversion U as [|l ? ? ? ? ? E|l ? ? ? ? E]|inversion D as [|l ? ? ? ? ? E|l ? ? ? ? E]]; try reflexivity; destruct l; discriminate.
  - rewrite fold_left_app. cbn [fold_left]. destruct keys_low as [Ku Kd].
    apply last_snoc_inv in U, D.
    destruct U as [(n & a & b & e & -> & C & ->)|[U NU]].
    + destruct D as [(n' & a' & b' & e' & E & C' & _)|[D ND]].
      * injection E as <- <- <- <-. exfalso. exact (disjoint n C C').
      * cbn [step]. replace (case_eq up_key n) with true by (symmetry; apply case_called; assumption).
        assert (G : exists u', last_set up_key ls u').
        { clear. induction ls as [|y ls [o H]] using rev_ind; [exists None; constructor|].
          destruct y as [t|n a b d]; [exists o; constructor; [exact H|discriminate]|].
          destruct (case_eq up_key n) eqn:E.
          - exists (Some (number d)). constructor. apply case_called; [apply keys_low|exact E].
          - exists o. constructor; [exact H|]. intros n' a' b' d' Q. injection Q as <- <- <- <-. intros C. apply case_called in C; [congruence|apply keys_low]. }
        destruct G as [u' U']. rewrite (IH u' d U' D). reflexivity.
    + destruct D as [(n & a & b & e & -> & C & ->)|[D ND]].
      * cbn [step]. destruct (case_eq up_key n) eqn:E; [apply case_called in E; [|assumption]; exfalso; exact (disjoint n E C)|].
        replace (case_eq down_key n) with true by (symmetry; apply case_called; assumption).
        assert (G : exists d', last_set down_key ls d').
        { clear. induction ls as [|y ls [o H]] using rev_ind; [exists None; constructor|].
          destruct y as [t|n a b d]; [exists o; constructor; [exact H|discriminate]|].
          destruct (case_eq down_key n) eqn:E.
          - exists (Some (number d)). constructor. apply case_called; [apply keys_low|exact E].
          - exists o. constructor; [exact H|]. intros n' a' b' d' Q. injection Q as <- <- <- <-. intros C. apply case_called in C; [congruence|apply keys_low]. }
        destruct G as [d' D']. rewrite (IH u d' U D'). reflexivity.
      * rewrite (IH u d U D). destruct x as [t|n a b e]; cbn [step]; [reflexivity|].
        specialize (NU n a b e eq_refl). specialize (ND n a b e eq_refl).
        destruct (case_eq up_key n) eqn:E; [apply case_called in E; [tauto|assumption]|].
        destruct (case_eq down_key n) eqn:E2; [apply case_called in E2; [tauto|assumption]|]. reflexivity.
Qed.
Lemma last_number key ls o : Forall well_formed ls -> last_set key ls o -> match o with Some v => 0 <= v < 2 ^ 32 | None => True end.
Proof.
  intros F H. induction H as [|l n a b d C|l x o H IH N].
  - exact I.
  - apply Forall_app in F. destruct F as [_ F]. inversion F as [|? ? W ?]; subst. destruct W as (_ & _ & _ & _ & _ & _ & _ & Fd & L). split; [|exact L].
    unfold number. cut (forall d a, 0 <= a -> Forall digit d -> 0 <= fold_left (fun a d => 10 * a + (d - 48)) d a); [intros Q; apply Q; [reflexivity|exact Fd]|].
    clear. induction d as [|x d IH]; intros a A F; [exact A|]. inversion F as [|? ? Hx Fx]; subst. cbn [fold_left]. apply IH; [unfold digit in Hx; lia|exact Fx].
  - apply IH. apply Forall_app in F. apply F.
Qed.

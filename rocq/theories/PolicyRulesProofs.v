(** Proofs about the rules. *)
From Verif Require Import Base PolicyRules PolicyRulesSpec.

Definition ours (c : rconf) (ifs : list (list Z)) : list rule := table_rule (t_main c) (q_main c) ++ table_rule (t_tunnel c) (q_tunnel c) ++ table_rule (t_default c) (q_default c) ++ if_rules c ifs.
Lemma table_in : forall t q r, In r (table_rule t q) <-> exists p, q = Some p /\ r = mkRule t p None.
Proof. intros t [p|] r; cbn; split; [intros [<-|[]]; eauto|intros (x & E & ->); inversion E; auto|contradiction|intros (x & E & _); discriminate]. Qed.
Lemma if_in : forall c ifs r, In r (if_rules c ifs) <-> exists p n, q_olsr c = Some p /\ In n ifs /\ r = mkRule (t_default c) p (Some n).
Proof.
  intros c ifs r. unfold if_rules. destruct (q_olsr c) as [p|]; [|split; [contradiction|intros (p & n & E & _); discriminate]]. rewrite in_map_iff. split.
  - intros (n & <- & I). eauto.
  - intros (x & n & E & I & ->). inversion E; subst. eauto.
Qed.
Lemma ours_in : forall c ifs r, In r (ours c ifs) <-> needed c ifs r.
Proof.
  intros c ifs r. unfold ours. rewrite !in_app_iff, !table_in, if_in. split.
  - intros [(p & E & ->)|[(p & E & ->)|[(p & E & ->)|(p & n & E & I & ->)]]]; [now apply needed_main|now apply needed_tunnel|now apply needed_default|now apply needed_if].
  - intros N. inversion N; subst; [left|right; left|right; right; left|right; right; right]; eauto 8.
Qed.
Lemma fits_ok : forall q r, fits q r = true <-> r_tab q = r_tab r /\ r_pri q = r_pri r /\ (r_iif q = None \/ r_iif q = r_iif r).
Proof.
  intros [t p i] [t' p' i']. unfold fits. cbn [r_tab r_pri r_iif]. rewrite !andb_true_iff, !Z.eqb_eq. destruct i as [n|]; [|intuition]. destruct i' as [m|]; [destruct (list_eq_dec Z.eq_dec n m) as [->|N]|]; intuition congruence.
Qed.
(** among ours each request fits only the rule itself *)
Lemma sharp : forall c ifs q r, distinct c -> In q (ours c ifs) -> In r (ours c ifs) -> (fits q r = true <-> r = q).
Proof.
  intros c ifs q r (D1 & D2 & D3) Iq Ir. rewrite fits_ok. apply ours_in in Iq, Ir. split; [|intros ->; auto].
  intros (Et & Ep & Ei). destruct q as [tq pq iq], r as [tr pr ir]. cbn [r_tab r_pri r_iif] in *. subst tr pr. destruct Ei as [-> | ->]; [|reflexivity].
  inversion Iq; subst; inversion Ir; subst; try reflexivity; exfalso;
    repeat match goal with H : forall q, ?x = Some q -> _, E : ?x = Some _ |- _ => specialize (H _ E) end; intuition congruence.
Qed.
Lemma apart : forall c ifs q r, In q (ours c ifs) -> foreign c r -> fits q r = false.
Proof.
  intros c ifs q r I (F1 & F2 & F3). destruct (fits q r) eqn:E; [|reflexivity]. exfalso. apply fits_ok in E. destruct E as (Et & Ep & _). apply ours_in in I. inversion I; subst; cbn [r_tab r_pri] in *; subst; intuition.
Qed.
Lemma del_app : forall q ks R, (forall r, In r ks -> fits q r = false) -> del_rule q (ks ++ R) = ks ++ del_rule q R.
Proof. induction ks as [|r ks IH]; intros R H; [reflexivity|]. cbn [app del_rule]. rewrite (H r) by now left. f_equal. apply IH. intros; apply H; now right. Qed.
Lemma del_in : forall q R, NoDup R -> (forall r, In r R -> (fits q r = true <-> r = q)) -> NoDup (del_rule q R) /\ forall r, In r (del_rule q R) <-> In r R /\ r <> q.
Proof.
  induction R as [|x R IH]; intros N S; [split; [constructor|cbn; tauto]|]. inversion N; subst. cbn [del_rule]. destruct (fits q x) eqn:E.
  - apply S in E; [|now left]. subst x. split; [assumption|]. intros r. cbn [In]. split; [intros I; split; [now right|intros ->; contradiction]|]. intros ([->|I] & Nr); [congruence|exact I].
  - destruct (IH H2 ltac:(intros; apply S; now right)) as (N' & I'). split.
    + constructor; [|exact N']. intros I. apply I' in I. tauto.
    + intros r. cbn [In]. rewrite I'. split; [intros [->|(I & Nr)]; [split; [now left|]|split; [now right|exact Nr]]|intros ([->|I] & Nr); [now left|right; now split]].
      intros ->. assert (fits q q = true) by (apply S; [now left|reflexivity]). congruence.
Qed.
Lemma add_form : forall c ifs L ks R, incl L (ours c ifs) -> Forall (foreign c) ks -> NoDup R -> incl R (ours c ifs) ->
  exists R', fold_left (fun ks r => add_rule r ks) L (ks ++ R) = ks ++ R' /\ NoDup R' /\ forall r, In r R' <-> In r L \/ In r R.
Proof.
  induction L as [|x L IH]; intros ks R Li F N Ri; [exists R; split; [reflexivity|]; split; [exact N|]; cbn; tauto|].
  cbn [fold_left]. assert (Ix : In x (ours c ifs)) by (apply Li; now left). assert (Nk : ~ In x ks).
  { intros I. rewrite Forall_forall in F. pose proof (apart c ifs x x Ix (F x I)) as A. assert (fits x x = true) by (apply fits_ok; auto). congruence. }
  unfold add_rule at 2. destruct (in_dec rule_dec x (ks ++ R)) as [I|I].
  - destruct (IH ks R ltac:(intros y J; apply Li; now right) F N Ri) as (R' & E & N' & S). exists R'. split; [exact E|]. split; [exact N'|]. intros r. rewrite S. cbn [In]. apply in_app_iff in I. split; [tauto|]. intros [[->|J]|J]; tauto.
  - rewrite in_app_iff in I. rewrite <- app_assoc. destruct (IH ks (R ++ [x])) as (R' & E & N' & S).
    + intros y J; apply Li; now right.
    + exact F.
    + apply (NoDup_Add (a := x) (l := R)); [|split; [exact N|tauto]]. rewrite <- (app_nil_r R) at 1. apply Add_app.
    + intros y J. apply in_app_iff in J. destruct J as [J|[<-|[]]]; auto.
    + exists R'. split; [exact E|]. split; [exact N'|]. intros r. rewrite S, in_app_iff. cbn [In]. tauto.
Qed.
Lemma del_form : forall c ifs L ks R, distinct c -> incl L (ours c ifs) -> Forall (foreign c) ks -> NoDup R -> incl R (ours c ifs) ->
  exists R', fold_left (fun ks r => del_rule r ks) L (ks ++ R) = ks ++ R' /\ NoDup R' /\ forall r, In r R' <-> In r R /\ ~ In r L.
Proof.
  induction L as [|x L IH]; intros ks R D Li F N Ri; [exists R; split; [reflexivity|]; split; [exact N|]; cbn; tauto|].
  cbn [fold_left]. assert (Ix : In x (ours c ifs)) by (apply Li; now left). rewrite del_app by (intros r I; rewrite Forall_forall in F; exact (apart c ifs x r Ix (F r I))).
  destruct (del_in x R N ltac:(intros r I; apply (sharp c ifs); auto)) as (N' & S). destruct (IH ks (del_rule x R) D) as (R' & E & N2 & S2).
  - intros y J; apply Li; now right.
  - exact F.
  - exact N'.
  - intros y J. apply S in J. now apply Ri.
  - exists R'. split; [exact E|]. split; [exact N2|]. intros r. rewrite S2, S. cbn [In]. intuition congruence.
Qed.
Lemma rules_ok : forall c ifs ks, distinct c -> Forall (foreign c) ks -> exists R, start_rules c ifs ks = ks ++ R /\ NoDup R /\ (forall r, In r R <-> needed c ifs r) /\ stop_rules c ifs (ks ++ R) = ks.
Proof.
  intros c ifs ks D F. unfold start_rules. fold (ours c ifs). destruct (add_form c ifs (ours c ifs) ks [] (incl_refl _) F (NoDup_nil _)) as (R & E & N & S); [intros x []|]. rewrite app_nil_r in E. exists R. split; [exact E|]. split; [exact N|].
  split; [intros r; rewrite S, ours_in; cbn; tauto|]. unfold stop_rules. set (L := if_rules c ifs ++ _).
  assert (SL : forall r, In r L <-> In r (ours c ifs)) by (intros r; subst L; unfold ours; rewrite !in_app_iff; tauto).
  destruct (del_form c ifs L ks R D ltac:(intros x; apply SL) F N ltac:(intros x I; apply S in I; destruct I as [I|[]]; exact I)) as (R' & E' & _ & S'). rewrite E'.
  destruct R' as [|x R']; [apply app_nil_r|]. exfalso. assert (In x R /\ ~ In x L) as (A & B) by (apply S'; now left). apply B, SL. apply S in A. now destruct A as [A|[]].
Qed.

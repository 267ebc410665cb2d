From Coq Require Import String.
From Verif Require Import Base Regex Apm ApmSpec.

Lemma sp_white c : sp c = true <-> white c.
Proof. unfold sp, white. lia. Qed.
Lemma skip_rep k s : skip_sp (repeat 32 k ++ s) = skip_sp s.
Proof. induction k as [|k IH]; [reflexivity|exact IH]. Qed.
Lemma skip_word w s : is_word w -> skip_sp (w ++ s) = w ++ s.
Proof. intros (N & _ & F). destruct w as [|x w]; [congruence|]. inversion F; subst. cbn. destruct (sp x) eqn:E; [apply sp_white in E; tauto|reflexivity]. Qed.
Lemma word_word : forall w n x s, white x -> Forall (fun c => ~ white c /\ c <> 0) w -> (List.length w < n)%nat -> word n (w ++ x :: s) = (w, x :: s).
Proof.
  induction w as [|y w IH]; intros n x s X F L; cbn [List.length] in L.
  - destruct n; [lia|]. cbn. replace (sp x) with true by (symmetry; apply sp_white; exact X). reflexivity.
  - destruct n as [|n]; [lia|]. inversion F as [|? ? Hy Fw]; subst. cbn. destruct (sp y) eqn:E; [apply sp_white in E; tauto|].
    rewrite IH by (auto; lia). reflexivity.
Qed.
(** what follows a word starts with white space *)
Definition tail_of (l : line) (s : list Z) : list Z := flat_map (fun p => repeat 32 (fst p) ++ snd p) l ++ 10 :: s.
Lemma tail_white l s : Forall (fun p => (0 < fst p)%nat) l -> exists x t, tail_of l s = x :: t /\ white x.
Proof.
  intros F. unfold tail_of. destruct l as [|[k w] l].
  - exists 10, s. split; [reflexivity|unfold white; lia].
  - inversion F; subst. cbn [fst] in *. destruct k as [|k]; [lia|]. cbn. eexists _, _. split; [reflexivity|]. unfold white. lia.
Qed.
Lemma scanw_line : forall n l s, Forall (fun p => is_word (snd p)) l -> Forall (fun p => (0 < fst p)%nat) (tl l) -> skip_sp s = [] \/ (n <= List.length l)%nat ->
  scanw n (tail_of l s) = Some (firstn n (map snd l)).
Proof.
  induction n as [|n IH]; intros l s F B S; [reflexivity|].
  destruct l as [|[k w] l].
  - cbn [map firstn]. cbn [tail_of flat_map app]. cbn [scanw]. destruct S as [S|S]; [|cbn in S; lia].
    change (skip_sp (10 :: s)) with (skip_sp s). rewrite S. reflexivity.
  - inversion F as [|? ? W F']; subst. cbn [snd tl] in *.
    assert (B' : Forall (fun p : nat * list Z => (0 < fst p)%nat) (tl l)) by (destruct l; [exact B|inversion B; assumption]).
    destruct (tail_white l s B) as (x & t & Et & Wx).
    assert (E : tail_of ((k, w) :: l) s = repeat 32 k ++ w ++ x :: t).
    { rewrite <- Et. unfold tail_of. cbn [flat_map fst snd]. rewrite <- !app_assoc. reflexivity. }
    rewrite E. cbn [scanw]. rewrite skip_rep, skip_word by exact W. destruct W as (N & L & Fw).
    rewrite word_word by (auto; lia). destruct w as [|y w]; [congruence|].
    destruct (List.length (y :: w) =? 32)%nat eqn:Q; [apply Nat.eqb_eq in Q; lia|].
    rewrite <- Et, IH; [reflexivity|exact F'|exact B'|]. destruct S as [S|S]; [left; exact S|right; cbn in S; lia].
Qed.
Lemma shown_tail l : shown l = tail_of l [].
Proof. reflexivity. Qed.

Lemma fgets_line : forall t n r, Forall (fun c => c <> 10) t -> (List.length t < n)%nat -> fgets n (t ++ 10 :: r) = (t ++ [10], r).
Proof.
  induction t as [|x t IH]; intros n r F L; cbn [List.length app] in *.
  - destruct n; [lia|reflexivity].
  - destruct n as [|n]; [lia|]. inversion F; subst. cbn [fgets]. destruct (x =? 10) eqn:E; [lia|].
    rewrite IH by (auto; lia). reflexivity.
Qed.
Lemma cut0_all : forall s, Forall (fun c => c <> 0) s -> cut0 s = s.
Proof. induction s as [|x s IH]; intros F; [reflexivity|]. inversion F; subst. cbn. destruct (x =? 0) eqn:E; [lia|]. rewrite IH; auto. Qed.
Lemma flat_chars l : Forall (fun p => is_word (snd p)) l -> Forall (fun c => c <> 10 /\ c <> 0) (flat_map (fun p : nat * list Z => repeat 32 (fst p) ++ snd p) l).
Proof.
  intros F. induction F as [|[k w] l (N & L & W) F IH]; cbn [flat_map fst snd]; [constructor|].
  apply Forall_app. split; [|exact IH]. apply Forall_app. split.
  - apply Forall_forall. intros c I. apply repeat_spec in I. lia.
  - cbn [snd] in W. eapply Forall_impl; [|exact W]. unfold white. cbn. intros c (A & B). lia.
Qed.

Lemma case_iff : forall a b, case_eq a b = true <-> called b a.
Proof.
  induction a as [|x a IH]; intros [|y b]; cbn [case_eq].
  - split; [constructor|reflexivity].
  - split; [discriminate|intros H; inversion H].
  - split; [discriminate|intros H; inversion H].
  - rewrite andb_true_iff, IH. split.
    + intros [E C]. constructor; [|exact C]. unfold letter_alike, lower in *.
      destruct ((65 <=? x) && (x <=? 90)) eqn:G, ((65 <=? y) && (y <=? 90)) eqn:K; lia.
    + intros H. inversion H as [|? ? ? ? A C]; subst. split; [|exact C]. unfold letter_alike, lower in *.
      destruct ((65 <=? x) && (x <=? 90)) eqn:G, ((65 <=? y) && (y <=? 90)) eqn:K; lia.
Qed.
Lemma digits_all : forall d a, Forall (fun d => 48 <= d <= 57) d -> digits a d = fold_left (fun a d => 10 * a + (d - 48)) d a.
Proof. induction d as [|x d IH]; intros a F; [reflexivity|]. inversion F; subst. cbn. replace ((48 <=? x) && (x <=? 57)) with true by lia. apply IH; assumption. Qed.
Lemma number_pos : forall d a, 0 <= a -> Forall (fun d => 48 <= d <= 57) d -> 0 <= fold_left (fun a d => 10 * a + (d - 48)) d a.
Proof. induction d as [|x d IH]; intros a A F; [exact A|]. inversion F; subst. cbn [fold_left]. apply IH; [lia|assumption]. Qed.
Lemma atoi_ok w : is_number w -> atoi w = number w /\ 0 <= number w < 2 ^ 31.
Proof.
  intros (N & F & L). assert (P : 0 <= number w) by (apply number_pos; [lia|exact F]). split; [|lia].
  unfold atoi. destruct w as [|x w]; [congruence|]. inversion F as [|? ? Hx Fw]; subst.
  cbn [skip_sp]. replace (sp x) with false by (unfold sp; lia). replace (x =? 45) with false by lia. replace (x =? 43) with false by lia.
  rewrite digits_all by exact F. fold (number (x :: w)). set (n := number (x :: w)) in *. clearbody n.
  change (2 ^ 63) with 9223372036854775808. change (2 ^ 31) with 2147483648 in *. change (2 ^ 32) with 4294967296.
  replace (n >? 9223372036854775808 - 1) with false by lia.
  match goal with |- context [if n <? ?b then _ else _] => replace (n <? b) with false by lia end.
  rewrite Z.mod_small by lia. lia.
Qed.

Lemma nth_error_wd i l : (i < 4)%nat -> (i < List.length l)%nat -> nth_error (firstn 4 (map snd l)) i = Some (wd i l).
Proof.
  intros I L. unfold wd. rewrite nth_error_nth' with (d := []) by (rewrite firstn_length, map_length; lia). f_equal.
  rewrite <- (firstn_skipn 4 (map snd l)) at 2. rewrite app_nth1; [reflexivity|]. rewrite firstn_length, map_length. lia.
Qed.
Lemma scan_shown l : good_line l -> scanw 4 (cut0 (shown l)) = Some (firstn 4 (map snd l)).
Proof.
  intros (_ & W & B). rewrite cut0_all.
  - rewrite shown_tail. apply scanw_line; auto.
  - unfold shown. apply Forall_app. split; [eapply Forall_impl; [|apply flat_chars; exact W]; cbn; tauto|repeat constructor; discriminate].
Qed.
Definition upd (key : list Z) (at_ v : nat) (cur : Z) (l : line) : Z := if case_eq (wd at_ l) key then number (wd v l) else cur.
Lemma info_line_ok l cur : info_ok l -> info_line (shown l) cur = Some (upd (str "full") 1 3 cur l).
Proof.
  intros (G & L & H). unfold info_line, upd. rewrite scan_shown by exact G. rewrite nth_error_wd by lia.
  destruct (case_eq (wd 1 l) (str "full")) eqn:E; [|reflexivity]. apply case_iff in E. destruct (H E) as [L4 N].
  rewrite nth_error_wd by lia. destruct (atoi_ok _ N) as [-> _]. reflexivity.
Qed.
Lemma called_rem w : called (str "Remaining") w <-> called (str "remaining") w.
Proof.
  split; intros H; (inversion H as [|? y ? w' A C E1 E2]; subst; constructor; [|exact C]); unfold letter_alike in *; cbn in *; lia.
Qed.
Lemma state_line_ok l cur : state_ok l -> state_line (shown l) cur = Some (upd (str "Remaining") 0 2 cur l).
Proof.
  intros (G & L & H). unfold state_line, upd. rewrite scan_shown by exact G. rewrite nth_error_wd by lia.
  destruct (case_eq (wd 0 l) (str "Remaining")) eqn:E; [|reflexivity]. apply case_iff, called_rem in E. destruct (H E) as [L4 N].
  rewrite nth_error_wd by lia. destruct (atoi_ok _ N) as [-> _]. reflexivity.
Qed.
Lemma lines_ok f g (P : line -> Prop) : (forall l, P l -> good_line l) -> (forall l cur, P l -> f (shown l) cur = Some (g cur l)) ->
  forall ls fuel cur, Forall P ls -> (List.length ls <= fuel)%nat -> lines f fuel (flat_map shown ls) cur = Some (fold_left g ls cur).
Proof.
  intros HG HF. induction ls as [|l ls IH]; intros fuel cur F L; cbn [flat_map fold_left List.length] in *.
  - destruct fuel; reflexivity.
  - inversion F as [|? ? Pl F']; subst. destruct fuel as [|fuel]; [lia|]. destruct (HG l Pl) as (Ls & W & B).
    assert (E : shown l ++ flat_map shown ls = flat_map (fun p => repeat 32 (fst p) ++ snd p) l ++ 10 :: flat_map shown ls)
      by (unfold shown at 1; rewrite <- app_assoc; reflexivity).
    cbn [lines]. rewrite E. rewrite fgets_line.
    2:{ eapply Forall_impl; [|apply flat_chars; exact W]. cbn. tauto. }
    2:{ unfold shown in Ls. rewrite app_length in Ls. cbn [List.length] in Ls. lia. }
    destruct (flat_map (fun p => repeat 32 (fst p) ++ snd p) l ++ 10 :: flat_map shown ls) as [|q qs] eqn:Q; [destruct (flat_map (fun p => repeat 32 (fst p) ++ snd p) l); discriminate|].
    fold (shown l). rewrite HF by exact Pl. apply IH; [exact F'|lia].
Qed.
Lemma shown_len : forall ls, (List.length ls <= List.length (flat_map shown ls))%nat.
Proof. induction ls as [|l ls IH]; cbn [flat_map List.length]; [lia|]. rewrite app_length. unfold shown at 1. rewrite app_length. cbn [List.length]. lia. Qed.
Lemma fold_value key at_ v : forall ls n cur, value key at_ v ls n -> fold_left (upd key at_ v) ls cur = n.
Proof.
  intros ls n cur H. induction H as [l x C|l x n H IH N]; rewrite fold_left_app; cbn [fold_left]; unfold upd at 1.
  - replace (case_eq (wd at_ x) key) with true by (symmetry; apply case_iff; exact C). reflexivity.
  - destruct (case_eq (wd at_ x) key) eqn:E; [apply case_iff in E; tauto|exact IH].
Qed.
Lemma value_rem ls n : value (str "remaining") 0 2 ls n -> value (str "Remaining") 0 2 ls n.
Proof. intros H. induction H as [l x C|l x n H IH N]; constructor; auto; rewrite called_rem; auto. Qed.
Lemma value_range key at_ v (P : line -> Prop) ls n : (forall l, P l -> called key (wd at_ l) -> is_number (wd v l)) -> Forall P ls -> value key at_ v ls n -> 0 <= n < 2 ^ 31.
Proof.
  intros HP F H. induction H as [l x C|l x n H IH N]; apply Forall_app in F; destruct F as [F1 F2]; [|auto].
  inversion F2; subst. exact (proj2 (atoi_ok _ (HP x H1 C))).
Qed.

(** ** The range of the willingness *)
Lemma percent_range v m p : percent v m = Some p -> 0 <= p <= 100.
Proof.
  unfold percent, iabs. destruct (m =? - 2 ^ 31) eqn:A; [discriminate|]. destruct (v =? - 2 ^ 31) eqn:B; [discriminate|].
  set (a := Z.abs m). set (b := if Z.abs v >? a then a else Z.abs v).
  assert (0 <= a) by (unfold a; lia). assert (0 <= b) by (unfold b; destruct (Z.abs v >? a); lia). clearbody a b.
  destruct (a =? 0) eqn:C; [intros E; apply Some_inj in E; lia|]. destruct (b >=? a) eqn:D; [intros E; apply Some_inj in E; lia|].
  destruct (b * 100 >=? 2 ^ 31); [discriminate|]. intros E. apply Some_inj in E. subst p.
  split; [apply Z.div_pos; lia|]. apply Z.lt_succ_r. apply Z.div_lt_upper_bound; lia.
Qed.
Lemma acpi_range y ac p : read_acpi y = Some (Some (ac, p)) -> ac = true \/ 0 <= p <= 100.
Proof.
  unfold read_acpi. destruct (probe_ac 3 0 y) as [a|]; [|discriminate]. destruct (probe_bat 5 0 y) as [[i|]|]; [| |discriminate].
  - destruct (y_info y i), (y_state y i); try discriminate.
    destruct (lines info_line _ _ _); [|discriminate]. destruct (lines state_line _ _ _); [|discriminate].
    destruct (percent z0 z) as [q|] eqn:E; [|discriminate]. intros H. apply Some_inj, Some_inj in H. injection H as <- <-.
    right. exact (percent_range _ _ _ E).
  - destruct a; [|discriminate]. intros H. apply Some_inj, Some_inj in H. injection H as <- <-. left. reflexivity.
Qed.

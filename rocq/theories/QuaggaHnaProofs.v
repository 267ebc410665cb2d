(** What the announced networks are after reading. *)
From Verif Require Import Base Bytes Quagga QuaggaSpec QuaggaInProofs QuaggaReadProofs.

Lemma enc_msgs_count v v6 ms : Z.of_nat (length ms) <= blen (enc_msgs v v6 ms).
Proof.
  induction ms as [|m ms IH]; [unfold blen; cbn; lia|]. rewrite enc_msgs_cons, blen_app. pose proof (enc_msg_ge2 v v6 m). cbn [length]. lia.
Qed.
Lemma enc_msgs_bound v v6 ms N : blen (enc_msgs v v6 ms) < N -> Forall (fun m => blen (enc_msg v v6 m) < N) ms.
Proof.
  induction ms as [|m ms IH]; intros H; constructor; rewrite enc_msgs_cons, blen_app in H.
  - pose proof (blen_nonneg (enc_msgs v v6 ms)). lia.
  - apply IH. pose proof (blen_nonneg (enc_msg v v6 m)). lia.
Qed.

Lemma poll_ok fuel c ev ms s : version_ok (z_version c) -> Forall (zmsg_ok (z_version c) (z_v6 c)) ms ->
  blen (enc_msgs (z_version c) (z_v6 c) ms) < 65536 -> ms <> [] -> (length ms < fuel)%nat ->
  steady (length (enc_msgs (z_version c) (z_v6 c) ms)) ev ->
  exists ms1 ms2 ev', ms = ms1 ++ ms2 /\ ms1 <> [] /\
    zparse_connected fuel c ev (enc_msgs (z_version c) (z_v6 c) ms) s =
      PDone (mkZs (s_conn s) (s_sent s) (s_leak s) (s_calls s) (fold_left (msg_hna (z_v6 c)) ms1 (s_hna s)))
            (enc_msgs (z_version c) (z_v6 c) ms2) ev'.
Proof.
  intros V F L NE LF (SL & SF).
  assert (P : 0 < blen (enc_msgs (z_version c) (z_v6 c) ms)).
  { pose proof (enc_msgs_count (z_version c) (z_v6 c) ms). destruct ms; [now elim NE|]. cbn [length] in *. lia. }
  destruct (zread_loop_ok (z_version c) (z_v6 c) fuel ms L LF NE ev [] 0 [] ms eq_refl) as (ms1 & ms2 & b' & ev' & E & N1 & R & tl & B).
  - split; [unfold blen; cbn; lia|]. split; [lia|reflexivity].
  - now right.
  - exact SF.
  - unfold blen. lia.
  - now right.
  - exact P.
  - exists ms1, ms2, ev'. split; [exact E|]. split; [exact N1|].
    unfold zparse_connected, zclient_read. change (Z.to_nat 0) with 0%nat in R. cbn [skipn] in R. change (blen (enc_msgs (z_version c) (z_v6 c) [])) with 0 in R.
    rewrite R. 
    assert (F1 : Forall (zmsg_ok (z_version c) (z_v6 c)) ms1) by (rewrite E in F; now apply Forall_app in F).
    assert (L1 : blen (enc_msgs (z_version c) (z_v6 c) ms1) < 65536).
    { rewrite E, enc_msgs_app, blen_app in L. pose proof (blen_nonneg (enc_msgs (z_version c) (z_v6 c) ms2)). lia. }
    rewrite (zparse_data_ok c b' ms1 (S (Z.to_nat (blen (enc_msgs (z_version c) (z_v6 c) ms1)))) 0 tl _ (s_hna s) V F1).
    + reflexivity.
    + now apply enc_msgs_bound.
    + exact N1.
    + pose proof (enc_msgs_count (z_version c) (z_v6 c) ms1). lia.
    + exists []. split; [exact B|reflexivity].
    + lia.
Qed.

Lemma poll_idle fuel c ev stream s : s_conn s = true -> idle ev ->
  exists ev', zparse_connected fuel c ev stream s = PDone s stream ev'.
Proof.
  intros C (ev' & ->). exists ev'. unfold zparse_connected, zclient_read. cbn [zread_loop]. destruct s; cbn in *. now subst.
Qed.
Lemma poll_empty fuel c n ev s : s_conn s = true -> steady n ev ->
  exists ev', zparse_connected fuel c ev [] s = PDone s [] ev'.
Proof.
  intros C (L & F). destruct ev as [|e ev]; [cbn in L; lia|]. inversion F as [|? ? (k & -> & K) F']; subst. exists ev.
  unfold zparse_connected, zclient_read. cbn [zread_loop]. change (blen []) with 0. rewrite Z.eqb_refl. cbn [app].
  replace (Z.min k (Z.min (blen (repeat 0 (Z.to_nat AUTOBUFCHUNK)) - 0) 0) <=? 0) with true by lia.
  destruct s; cbn in *. now subst.
Qed.

Lemma steady_steadyb n ev : steady n ev -> steadyb ev = true.
Proof. intros (L & F). destruct ev as [|e ev]; [cbn in L; lia|]. inversion F as [|? ? (k & -> & K) F']; subst. reflexivity. Qed.
Lemma idle_steadyb ev : idle ev -> steadyb ev = false.
Proof. intros (ev' & ->). reflexivity. Qed.

Lemma polls_ok fuel c : version_ok (z_version c) -> forall evs ms s,
  Forall (zmsg_ok (z_version c) (z_v6 c)) ms -> blen (enc_msgs (z_version c) (z_v6 c) ms) < 65536 -> (length ms < fuel)%nat ->
  s_conn s = true ->
  Forall (fun ev => steady (length (enc_msgs (z_version c) (z_v6 c) ms)) ev \/ idle ev) evs ->
  (length ms <= length (filter steadyb evs))%nat ->
  polls fuel c evs (enc_msgs (z_version c) (z_v6 c) ms) s =
    PDone (mkZs true (s_sent s) (s_leak s) (s_calls s) (fold_left (msg_hna (z_v6 c)) ms (s_hna s))) [] [].
Proof.
  intros V. induction evs as [|ev evs IH]; intros ms s F L LF C FE N.
  - cbn [filter length] in N. assert (ms = []) by (destruct ms; [reflexivity|cbn in N; lia]). subst.
    cbn [polls fold_left]. destruct s; cbn in *. now subst.
  - inversion FE as [|? ? [S1 | I] FE']; subst.
    + cbn [filter] in N. rewrite (steady_steadyb _ _ S1) in N. cbn [length] in N.
      cbn [polls]. destruct ms as [|m ms].
      * destruct (poll_empty fuel c _ ev s C S1) as (ev' & E). change (enc_msgs (z_version c) (z_v6 c) []) with (@nil Z) in *. rewrite E.
        apply (IH [] s); try assumption. cbn [length]. lia.
      * destruct (poll_ok fuel c ev (m :: ms) s V F L ltac:(discriminate) LF S1) as (ms1 & ms2 & ev' & E & N1 & R).
        rewrite R. rewrite E in F, FE', L. rewrite E. apply Forall_app in F. destruct F as [F1 F2].
        rewrite (IH ms2).
        -- cbn [s_hna s_sent s_leak s_calls]. rewrite fold_left_app. reflexivity.
        -- exact F2.
        -- rewrite enc_msgs_app, blen_app in L. pose proof (blen_nonneg (enc_msgs (z_version c) (z_v6 c) ms1)). lia.
        -- assert (X : length (m :: ms) = length (ms1 ++ ms2)) by now rewrite E. rewrite app_length in X. lia.
        -- exact C.
        -- eapply Forall_impl; [|exact FE']. intros e [(X & Y) | X]; [left|now right]. split; [|exact Y].
           rewrite enc_msgs_app, app_length in X. lia.
        -- assert (X : length (m :: ms) = length (ms1 ++ ms2)) by now rewrite E. rewrite app_length in X.
           destruct ms1; [now elim N1|]. cbn [length] in *. lia.
    + cbn [filter] in N. rewrite (idle_steadyb _ I) in N. cbn [polls].
      destruct (poll_idle fuel c ev (enc_msgs (z_version c) (z_v6 c) ms) s C I) as (ev' & E). rewrite E. apply IH; assumption.
Qed.

(** *** Counting *)
Definition same (p e : list Z * Z) : bool := if list_eq_dec Z.eq_dec (fst e) (fst p) then snd e =? snd p else false.
Lemma same_spec p e : same p e = true <-> e = p.
Proof.
  unfold same. destruct p as [a n], e as [b m]. cbn [fst snd]. destruct (list_eq_dec Z.eq_dec b a) as [-> | N]; split; intros H.
  - apply Z.eqb_eq in H. now subst.
  - inversion H. apply Z.eqb_refl.
  - discriminate.
  - inversion H. now elim N.
Qed.
Lemma times_in p l : (0 < times p l)%nat <-> In p l.
Proof.
  unfold times. split.
  - intros H. destruct (filter _ l) as [|x r] eqn:E; [cbn in H; lia|].
    assert (X : In x (x :: r)) by now left. rewrite <- E in X. apply filter_In in X. destruct X as [X Y].
    change (same p x = true) in Y. apply same_spec in Y. now subst.
  - intros H. assert (X : In p (filter (fun e => same p e) l)).
    { apply filter_In. split; [exact H|]. now apply same_spec. }
    unfold same in X. destruct (filter _ l); [destruct X|cbn; lia].
Qed.
Lemma times_cons p e l : times p (e :: l) = ((if same p e then 1 else 0) + times p l)%nat.
Proof. unfold times, same. cbn [filter]. destruct (list_eq_dec Z.eq_dec (fst e) (fst p)); [destruct (snd e =? snd p)|]; reflexivity. Qed.

Lemma forallb_combine : forall a b, length a = length b -> forallb (fun p => fst p =? snd p) (combine a b) = true -> a = b.
Proof.
  induction a as [|x a IH]; intros [|y b] L H; try reflexivity; try discriminate.
  cbn [combine forallb fst snd] in H. apply andb_prop in H. destruct H as [A B]. apply Z.eqb_eq in A. subst. f_equal. apply IH; [now injection L|exact B].
Qed.
Lemma forallb_combine_refl : forall a, forallb (fun p => fst p =? snd p) (combine a a) = true.
Proof. induction a as [|x a IH]; [reflexivity|]. cbn [combine forallb fst snd]. now rewrite Z.eqb_refl, IH. Qed.

Definition wf_entry (v6 : bool) (e : list Z) : Prop := length e = 16%nat /\ (v6 = true \/ skipn 4 e = repeat 0 12).
Lemma zipequal_spec v6 a b : wf_entry v6 a -> wf_entry v6 b -> (zipequal v6 a b = true <-> a = b).
Proof.
  intros [La Ta] [Lb Tb]. unfold zipequal. split.
  - intros H. apply forallb_combine in H.
    2:{ unfold fam. rewrite !firstn_length, La, Lb. reflexivity. }
    unfold fam, alen in H. destruct v6.
    + change (Z.to_nat 16) with 16%nat in H. rewrite !firstn_all2 in H by lia. exact H.
    + change (Z.to_nat 4) with 4%nat in H. destruct Ta as [Ta | Ta]; [discriminate|]. destruct Tb as [Tb | Tb]; [discriminate|].
      rewrite <- (firstn_skipn 4 a), <- (firstn_skipn 4 b). now rewrite H, Ta, Tb.
  - intros ->. apply forallb_combine_refl.
Qed.

Definition wf_list (v6 : bool) (l : list (list Z * Z)) : Prop := Forall (fun e => wf_entry v6 (fst e)) l.
Lemma remove_wf v6 a n : forall l, wf_list v6 l -> wf_list v6 (ip_prefix_list_remove v6 l a n).
Proof.
  induction l as [|e l IH]; intros W; [exact W|]. inversion W as [|? ? We Wl]; subst. cbn [ip_prefix_list_remove].
  destruct (zipequal v6 a (fst e) && (snd e =? n)); [exact Wl|]. constructor; [exact We|now apply IH].
Qed.
Lemma remove_times v6 a n p : wf_entry v6 a -> forall l, wf_list v6 l ->
  times p (ip_prefix_list_remove v6 l a n) = (if same p (a, n) then Nat.pred (times p l) else times p l).
Proof.
  intros Wa. induction l as [|e l IH]; intros W.
  - cbn. now destruct (same p (a, n)).
  - inversion W as [|? ? We Wl]; subst. cbn [ip_prefix_list_remove].
    destruct (zipequal v6 a (fst e) && (snd e =? n)) eqn:G.
    + apply andb_prop in G. destruct G as [G1 G2]. apply (zipequal_spec v6 a (fst e) Wa We) in G1. apply Z.eqb_eq in G2.
      assert (EE : e = (a, n)) by (destruct e; cbn in *; now subst). rewrite EE, times_cons. destruct (same p (a, n)); reflexivity.
    + rewrite !times_cons, IH by exact Wl. destruct (same p (a, n)) eqn:S1.
      * apply same_spec in S1. destruct (same p e) eqn:S2.
        -- apply same_spec in S2. exfalso. subst p. rewrite S2 in G. cbn [fst snd] in G.
           rewrite Z.eqb_refl, andb_true_r in G. rewrite (proj2 (zipequal_spec v6 a a Wa Wa) eq_refl) in G. discriminate.
        -- reflexivity.
      * reflexivity.
Qed.

Lemma pad16_wf v6 i : zin_ok v6 i -> wf_entry v6 (pad16 (in_net i)).
Proof.
  intros (_ & _ & P & LN & _). unfold wf_entry, pad16. rewrite app_length, repeat_length.
  assert (L : (length (in_net i) <= width v6)%nat) by lia.
  split; [unfold width in L; destruct v6; lia|]. destruct v6; [now left|right]. cbn [width] in L.
  rewrite skipn_app, skipn_all2 by lia. cbn [app].
  destruct (in_net i) as [|a [|b [|d [|e [|f r]]]]]; try reflexivity. cbn [length] in L. lia.
Qed.

Lemma msg_hna_wf v6 v m l : zmsg_ok v v6 m -> wf_list v6 l -> wf_list v6 (msg_hna v6 l m).
Proof.
  intros OK W. destruct m as [i|cmd p]; [|exact W]. cbn [msg_hna zmsg_ok] in *. destruct (in_add i).
  - constructor; [now apply pad16_wf|exact W].
  - now apply remove_wf.
Qed.

Lemma last_word_route p b i l : last_word p b (MRoute i :: l) =
  if same p (about i) then if Bool.eqb (in_add i) b then None else last_word p (in_add i) l else last_word p b l.
Proof. reflexivity. Qed.
Lemma last_word_ok v6 v p : forall ms l (b b' : bool), Forall (zmsg_ok v v6) ms -> wf_list v6 l ->
  times p l = (if b then 1 else 0)%nat -> last_word p b ms = Some b' ->
  times p (fold_left (msg_hna v6) ms l) = (if b' then 1 else 0)%nat.
Proof.
  induction ms as [|m ms IH]; intros l b b' F W T H.
  - cbn in *. apply Some_inj in H. now subst.
  - inversion F as [|? ? Fm F']; subst. cbn [fold_left]. pose proof (msg_hna_wf v6 v m l Fm W) as W'.
    destruct m as [i|cmd q].
    + rewrite last_word_route in H.
      pose proof (pad16_wf v6 i Fm) as WP. cbn [msg_hna] in *.
      destruct (same p (about i)) eqn:S1.
      * destruct (Bool.eqb (in_add i) b) eqn:B; [discriminate H|]. apply (IH _ (in_add i) b' F' W'); [|exact H].
        destruct (in_add i), b; cbn in B; try congruence.
        -- unfold ip_prefix_list_add. rewrite times_cons. change (pad16 (in_net i), in_plen i) with (about i). rewrite S1, T. reflexivity.
        -- rewrite remove_times by assumption. change (pad16 (in_net i), in_plen i) with (about i). rewrite S1, T. reflexivity.
      * apply (IH _ b b' F' W'); [|exact H]. destruct (in_add i).
        -- unfold ip_prefix_list_add. rewrite times_cons. change (pad16 (in_net i), in_plen i) with (about i). rewrite S1. exact T.
        -- rewrite remove_times by assumption. change (pad16 (in_net i), in_plen i) with (about i). rewrite S1. exact T.
    + apply (IH l b b' F' W T H).
Qed.

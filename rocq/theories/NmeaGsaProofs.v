(** Lemmas about the satellites in use *)
From Coq Require Import String.
From Verif Require Import Base Regex NmeaScan NmeaScanSpec NmeaScanProofs NmeaTime NmeaTimeProofs NmeaGsv NmeaGsvProofs NmeaGsa NmeaGsaSpec.

Lemma names_len l m : names l m -> (List.length m <= List.length l)%nat /\ Forall (fun p => p <> 0) m.
Proof. induction 1 as [|l m _ [IH F]|p l m H _ [IH F]]; cbn [List.length]; [split; [lia|constructor]|split; [lia|exact F]|split; [lia|constructor; assumption]]. Qed.
Lemma names_ex l : exists m, names l m.
Proof. induction l as [|p l (m & IH)]; [exists []; constructor|]. destruct (Z.eq_dec p 0) as [->|N]; [exists m|exists (p :: m)]; constructor; assumption. Qed.
Lemma names_has l m : names l m -> existsb (fun p => negb (p =? 0)) l = negb (List.length m =? 0)%nat.
Proof. induction 1 as [|l m _ IH|p l m H _ IH]; cbn [existsb List.length]; [reflexivity|exact IH|]. replace (p =? 0) with false by lia. reflexivity. Qed.
Lemma setz_len i x v : (i < List.length v)%nat -> List.length (setz i x v) = List.length v.
Proof. intros H. unfold setz. rewrite app_length, firstn_length. cbn [List.length]. rewrite skipn_length. lia. Qed.
Lemma fill_eq l m : names l m -> forall i v c, List.length v = 72%nat -> (i + List.length l <= 72)%nat ->
  fill l i v c = (firstn i v ++ m ++ skipn (i + List.length m) v, c + Z.of_nat (List.length m)).
Proof.
  induction 1 as [|l m N IH|p l m P N IH]; intros i v c L B; cbn [fill List.length app] in *.
  - rewrite Nat.add_0_r, firstn_skipn. f_equal. lia.
  - replace (i <? maxsat)%nat with true by (symmetry; apply Nat.ltb_lt; unfold maxsat; lia). cbn [Z.eqb negb]. apply IH; [exact L|lia].
  - replace (i <? maxsat)%nat with true by (symmetry; apply Nat.ltb_lt; unfold maxsat; lia). replace (p =? 0) with false by lia. cbn [negb].
    rewrite IH; [|rewrite setz_len; lia|lia]. unfold setz. assert (Lf : List.length (firstn i v) = i) by (rewrite firstn_length; lia). f_equal; [|lia].
    rewrite firstn_app, Lf, firstn_firstn. replace (Nat.min (S i) i) with i by lia. replace (S i - i)%nat with 1%nat by lia. cbn [firstn]. rewrite <- app_assoc. cbn [app]. do 2 f_equal. f_equal.
    rewrite skipn_app, Lf, skipn_all2 by lia. cbn [app]. replace (S i + List.length m - i)%nat with (S (List.length m)) by lia. cbn [skipn].
    assert (G : forall (A : Type) a b (l : list A), skipn a (skipn b l) = skipn (b + a) l).
    { intros A a b. induction b as [|b IHb]; intros l0; [reflexivity|]. destruct l0 as [|y l0]; [rewrite !skipn_nil; reflexivity|]. cbn [skipn Nat.add]. apply IHb. }
    change (match v with [] => [] | _ :: l => skipn i l end) with (skipn (S i) v). rewrite G. f_equal. lia.
Qed.
Lemma pick_names m : Forall (fun p => p <> 0) m -> forall n k, (List.length m <= n)%nat -> pick n (m ++ repeat 0 k) = m.
Proof.
  induction 1 as [|p m P _ IH]; intros n k B; cbn [app List.length] in *.
  - revert n B. induction k as [|k IHk]; intros n B; [reflexivity|]. cbn [repeat pick]. destruct n; [reflexivity|]. cbn [Z.eqb negb]. apply IHk. lia.
  - destruct n as [|n]; [lia|]. cbn [pick]. replace (p =? 0) with false by lia. cbn [negb]. rewrite IH by lia. reflexivity.
Qed.
Lemma names_self m k : Forall (fun p => p <> 0) m -> names (m ++ repeat 0 k) m.
Proof. induction 1 as [|p m P _ IH]; cbn [app]; [induction k; constructor; assumption|constructor; assumption]. Qed.
Lemma parse_gsa_scan isnum s t l : s <> [] -> nmea_scanf isnum s (Some 0) gsa_format = Some (t, l) -> parse_gsa isnum s = check_gsa t l.
Proof. intros N E. unfold parse_gsa. destruct s as [|c r]; [congruence|]. rewrite E. reflexivity. Qed.
Definition gsa_kinds : list kind := [KLetter; KInt; KUns; KUns; KUns; KUns; KUns; KUns; KUns; KUns; KUns; KUns; KUns; KUns; KNum true; KNum true; KNum true].
Lemma gsa_format_eq : gsa_format = str "$GPGSA" ++ fmt gsa_kinds ++ [42].
Proof. vm_compute. reflexivity. Qed.
Lemma check_gsa_ok t l p : check_gsa t l = Some p ->
  List.length (gPrn p) = 12%nat /\ (gHasSig p = true -> gSig p = 65 \/ gSig p = 77) /\ (gHasSig p = false -> gSig p = 0) /\ 1 <= gFix p <= 3 /\
  gHasUse p = existsb (fun p => negb (p =? 0)) (gPrn p).
Proof.
  unfold check_gsa. destruct (negb (t =? 17)%nat); [discriminate|]. cbv zeta. generalize (match nth 0 l VKeep with VChar c => c | _ => 0 end) as sg. intros sg. generalize (destI l 1 (2 ^ 31 - 1)) as fx. intros fx.
  assert (L : List.length (map (fun i => destU l i 0) (seq 2 12)) = 12%nat) by reflexivity. revert L. generalize (map (fun i => destU l i 0) (seq 2 12)) as pr. intros pr L.
  destruct (negb (sg =? 0) && negb (sg =? 65) && negb (sg =? 77)) eqn:E1; [discriminate|]. destruct (negb (fx =? 2 ^ 31 - 1) && ((fx <? 1) || (fx >? 3))) eqn:E2; [discriminate|].
  intros H. apply Some_inj in H. rewrite <- H. cbn [gPrn gHasSig gSig gFix gHasUse]. split; [exact L|]. split; [lia|]. split; [lia|]. split; [|reflexivity]. destruct (fx =? 2 ^ 31 - 1) eqn:E3; cbn [negb andb] in *; lia.
Qed.
Lemma parse_gsa_ok isnum s p : parse_gsa isnum s = Some p ->
  List.length (gPrn p) = 12%nat /\ (gHasSig p = true -> gSig p = 65 \/ gSig p = 77) /\ (gHasSig p = false -> gSig p = 0) /\ 1 <= gFix p <= 3 /\
  gHasUse p = existsb (fun p => negb (p =? 0)) (gPrn p).
Proof.
  unfold parse_gsa. destruct s as [|c r]; [discriminate|]. destruct (nmea_scanf isnum (c :: r) (Some 0) gsa_format) as [[t l]|]; [|discriminate]. apply check_gsa_ok.
Qed.
Lemma use_eq p u m : List.length (gPrn p) = 12%nat -> gHasUse p = true -> names (gPrn p) m -> (1 <= List.length m)%nat -> List.length (uPrn u) = 72%nat ->
  uPrn (use_sentence p u) = m ++ skipn (List.length m) (uPrn u) /\ uCnt (use_sentence p u) = Z.of_nat (List.length m) /\ uHas (use_sentence p u) = true.
Proof.
  intros L H N M Lu. unfold use_sentence. rewrite H. rewrite (fill_eq _ _ N) by (rewrite ?setz_len, ?L; lia). cbn [uPrn uCnt uHas]. rewrite orb_true_r. split; [|split; [lia|reflexivity]].
  cbn [firstn app Nat.add]. f_equal. unfold setz. cbn [firstn app]. destruct (List.length m) as [|k] eqn:E; [lia|]. cbn [skipn]. destruct (uPrn u) as [|y v]; [discriminate Lu|]. reflexivity.
Qed.

(** C176: the satellites in use *)
From Coq Require Import String.
From Verif Require Import Base Regex NmeaScan NmeaScanSpec NmeaScanProofs NmeaTime NmeaTimeProofs NmeaGsv NmeaGsvSpec NmeaGsvProofs NmeaGsa NmeaGsaSpec NmeaGsaProofs.

(** Whatever sentence is accepted, its satellites are the first ones in the array and they are
    counted; if it names none, the array stays.  Missing: the entries behind them are cleared *)
Theorem C176_any_partial : forall isnum s p u m, parse_gsa isnum s = Some p -> List.length (uPrn u) = 72%nat -> names (gPrn p) m ->
  (m = [] -> uPrn (use_sentence p u) = uPrn u /\ uCnt (use_sentence p u) = uCnt u) /\
  (m <> [] -> firstn (List.length m) (uPrn (use_sentence p u)) = m /\ uCnt (use_sentence p u) = Z.of_nat (List.length m) /\ uHas (use_sentence p u) = true /\ List.length (uPrn (use_sentence p u)) = 72%nat).
Proof.
  intros isnum s p u m P L N. destruct (parse_gsa_ok _ _ _ P) as (A & _ & _ & _ & E). rewrite (names_has _ _ N) in E. split; intros M.
  - subst m. cbn in E. unfold use_sentence. rewrite E. split; reflexivity.
  - assert (Lm : (1 <= List.length m)%nat) by (destruct m; [congruence|cbn; lia]). replace (List.length m =? 0)%nat with false in E by (symmetry; apply Nat.eqb_neq; lia).
    destruct (use_eq p u m A E N Lm L) as (X & Y & Z0). pose proof (proj1 (names_len _ _ N)) as B. rewrite X. split; [rewrite firstn_app, firstn_all, Nat.sub_diag; apply app_nil_r|]. split; [exact Y|]. split; [exact Z0|].
    rewrite app_length, skipn_length. lia.
Qed.
Print Assumptions C176_any_partial.
Definition gsa1 : list Z := str "$GPGSA,A,3,05,,12,,,,,,,,,,1.6,1.6,1.0*20".
Example C176_any_ex : parse_gsa (fun _ => true) gsa1 = Some (mkGsa true true true 65 3 [5; 0; 12; 0; 0; 0; 0; 0; 0; 0; 0; 0]) /\
  let u := use_sentence (mkGsa true true true 65 3 [5; 0; 12; 0; 0; 0; 0; 0; 0; 0; 0; 0]) (mkUse false 0 false 1 false 0 (repeat 0 72)) in
  u = mkUse true 1 true 3 true 2 ([5; 12] ++ repeat 0 70).
Proof. vm_compute. split; reflexivity. Qed.

(** The mode and the fix that are stored are possible ones *)
Theorem C176_mode : forall isnum s p u, parse_gsa isnum s = Some p -> 0 <= uSig u <= 8 -> 1 <= uFix u <= 3 ->
  0 <= uSig (use_sentence p u) <= 8 /\ 1 <= uFix (use_sentence p u) <= 3 /\
  (uSig u <> 0 -> uSig (use_sentence p u) = uSig u) /\
  (uSig u = 0 -> gHasSig p = true -> uSig (use_sentence p u) = if gSig p =? 77 then 7 else 1).
Proof.
  intros isnum s p u P S1 F1. destruct (parse_gsa_ok _ _ _ P) as (_ & _ & _ & F & _). unfold use_sentence.
  destruct (if gHasUse p then fill (gPrn p) 0 (setz 0 0 (uPrn u)) 0 else (uPrn u, uCnt u)) as [a b]. cbn [uSig uFix].
  destruct (gHasSig p), (uSig u =? 0) eqn:E, (gHasFix p); cbn [andb]; destruct (gSig p =? 77); lia || (repeat split; try lia; intros; lia || congruence).
Qed.
Print Assumptions C176_mode.
Example C176_mode_ex : uSig (use_sentence (mkGsa true true false 77 3 (repeat 0 12)) (mkUse false 0 false 1 false 0 (repeat 0 72))) = 7.
Proof. reflexivity. Qed.

(** The sentence made from up to twelve satellites brings them into a cleared array *)
Theorem C176_again_partial : forall w u m, Forall (fun p => p <> 0) m -> (1 <= List.length m <= 12)%nat -> uHas w = true -> uPrn w = m ++ repeat 0 (72 - List.length m) -> uPrn u = repeat 0 72 ->
  uPrn (use_sentence (make_sentence w) u) = uPrn w /\ uCnt (use_sentence (make_sentence w) u) = Z.of_nat (List.length m).
Proof.
  intros w u m F L H W U. assert (Pm : gPrn (make_sentence w) = m ++ repeat 0 (12 - List.length m)) by (unfold make_sentence; rewrite H, W; cbn [gPrn]; rewrite (pick_names _ F) by lia; reflexivity).
  destruct (use_eq (make_sentence w) u m) as (X & Y & _); [rewrite Pm, app_length, repeat_length; lia|unfold make_sentence; rewrite H; reflexivity|rewrite Pm; apply names_self; exact F|lia|rewrite U; apply repeat_length|].
  rewrite X, Y, U, W. split; [|reflexivity]. f_equal. assert (G : forall a b, skipn a (repeat 0 b) = repeat 0 (b - a)).
  { clear. induction a as [|a IH]; intros [|b]; cbn [skipn repeat Nat.sub]; try reflexivity. apply IH. } apply G.
Qed.
Print Assumptions C176_again_partial.
Example C176_again_ex : uPrn (use_sentence (make_sentence (mkUse true 1 true 3 true 2 ([5; 12] ++ repeat 0 70))) (mkUse false 0 false 1 false 0 (repeat 0 72))) = [5; 12] ++ repeat 0 70.
Proof. vm_compute. reflexivity. Qed.

(** A satellite of an earlier sentence stays in use: only the first entry is cleared *)
Theorem C176_stale_refuted : exists s1 s2 p1 p2 u0, parse_gsa (fun _ => true) s1 = Some p1 /\ parse_gsa (fun _ => true) s2 = Some p2 /\ uPrn u0 = repeat 0 72 /\ ~ In 12 (gPrn p2) /\
  let u := use_sentence p2 (use_sentence p1 u0) in uCnt u = 1 /\ In 12 (uPrn u) /\ In 12 (gPrn (make_sentence u)).
Proof.
  exists gsa1, (str "$GPGSA,A,3,07,,,,,,,,,,,,1.6,1.6,1.0*20"). eexists _, _. exists (mkUse false 0 false 1 false 0 (repeat 0 72)).
  split; [vm_compute; reflexivity|]. split; [vm_compute; reflexivity|]. split; [reflexivity|]. split; [cbn; intros H; repeat (destruct H as [H|H]; [discriminate H|]); exact H|].
  vm_compute. split; [reflexivity|]. split; auto.
Qed.
Print Assumptions C176_stale_refuted.
Theorem C176_stale_always : forall isnum s p u m, parse_gsa isnum s = Some p -> List.length (uPrn u) = 72%nat -> names (gPrn p) m -> m <> [] ->
  forall i, (List.length m <= i < 72)%nat -> nth i (uPrn (use_sentence p u)) 0 = nth i (uPrn u) 0.
Proof.
  intros isnum s p u m P L N M i I. destruct (parse_gsa_ok _ _ _ P) as (A & _ & _ & _ & E). rewrite (names_has _ _ N) in E.
  assert (Lm : (1 <= List.length m)%nat) by (destruct m; [congruence|cbn; lia]). replace (List.length m =? 0)%nat with false in E by (symmetry; apply Nat.eqb_neq; lia).
  destruct (use_eq p u m A E N Lm L) as (X & _ & _). rewrite X, app_nth2 by lia. clear - I. revert I. generalize (uPrn u) as v. generalize (List.length m) as k. intros k v I.
  assert (G : forall k v j, nth j (skipn k v) 0 = nth (k + j) v 0). { clear. induction k as [|k IH]; intros [|x v] j; cbn [skipn Nat.add nth]; try reflexivity; [destruct j; reflexivity|apply IH]. }
  rewrite G. f_equal. lia.
Qed.
Print Assumptions C176_stale_always.

(** A sentence with all its fields is read as they say; those of the satellites may be empty *)
Theorem C176_text_partial : forall isnum xs vs tl c f ps a b d,
  all_give (fun t => isnum t = true) ([KLetter; KInt; KUns; KUns; KUns; KUns; KUns; KUns; KUns; KUns; KUns; KUns; KUns; KUns; KNum true; KNum true; KNum true]) xs vs ->
  vs = [VChar c; VInt f] ++ map ou ps ++ [a; b; d] -> List.length ps = 12%nat -> tl = [] \/ (exists ck, tl = 42 :: ck) -> c = 65 \/ c = 77 -> 1 <= f <= 3 ->
  exists hu, parse_gsa isnum (str "$GPGSA" ++ flat_map (fun x => 44 :: x) xs ++ tl) = Some (mkGsa true true hu c f (map dz ps)).
Proof.
  intros isnum xs vs tl c f ps a b d A Ev L T C F. rewrite (parse_gsa_scan isnum _ 17 vs).
  - subst vs. do 12 (destruct ps as [|? ps]; [discriminate L|]). destruct ps; [|discriminate L]. assert (Gu : forall o, match ou o with VUns v => v | _ => 0 end = dz o) by (intros []; reflexivity). unfold check_gsa, destI, destU. cbn [Nat.eqb negb app map nth seq]. rewrite !Gu.
    replace (negb (c =? 0) && negb (c =? 65) && negb (c =? 77)) with false by lia. replace (f =? 2 ^ 31 - 1) with false by lia. replace (negb false && ((f <? 1) || (f >? 3))) with false by lia. replace (c =? 0) with false by lia. eexists. reflexivity.
  - discriminate.
  - rewrite gsa_format_eq. apply (scanf_fields isnum (str "$GPGSA") gsa_kinds xs); [cbn; intros H; repeat (destruct H as [H|H]; [discriminate H|]); exact H|exact A|exact T].
Qed.
Print Assumptions C176_text_partial.
Example C176_text_ex : exists hu, parse_gsa (fun _ => true) (str "$GPGSA,m,2,1,2,,4,5,6,7,8,9,10,11,12,1.6,1.6,1.0") = Some (mkGsa true true hu 77 2 [1; 2; 0; 4; 5; 6; 7; 8; 9; 10; 11; 12]).
Proof. eexists. vm_compute. reflexivity. Qed.

(** The sentence made of an information has M for the manual signal and A for all the others *)
Theorem C176_letters : forall u, uHasSig u = true -> gHasSig (make_sentence u) = true /\ gSig (make_sentence u) = nth 0 (if uSig u =? 7 then str "M" else str "A") 0.
Proof. intros u E. unfold make_sentence. cbn [gHasSig gSig]. rewrite E. split; [reflexivity|]. destruct (uSig u =? 7); reflexivity. Qed.
Print Assumptions C176_letters.
Example C176_letters_ex : gSig (make_sentence (mkUse true 7 true 3 false 0 [])) = 77.
Proof. reflexivity. Qed.

(** C174: the satellites in view *)
From Coq Require Import String.
From Verif Require Import Base Regex NmeaScan NmeaScanSpec NmeaScanProofs NmeaTime NmeaTimeProofs NmeaGsv NmeaGsvSpec NmeaGsvProofs.

(** Whatever sentence is accepted, its four satellites go to their places in the array, the ones
    before stay and the ones behind are cleared; nothing outside is written *)
Theorem C174_any : forall isnum s p v, parse isnum s = Some p -> List.length (vSats v) = 72%nat ->
  exists v' l, to_info p v = Some v' /\ vCnt v' = cnt p /\ 0 <= cnt p <= 72 /\ 1 <= sNum p /\ 4 * sNum p <= 72 /\
    Forall2 stored (sats p) l /\ Forall possible (sats p) /\ List.length (sats p) = 4%nat /\
    vSats v' = firstn (4 * Z.to_nat (sNum p - 1)) (vSats v) ++ l ++ repeat (mkSat 0 0 0 0) (72 - 4 * Z.to_nat (sNum p)).
Proof.
  intros isnum s p v P L. destruct (parse_ok _ _ _ P) as (A & B & C & D & E & F & G). eexists _, _. split; [apply to_info_ok; assumption|].
  cbn [vCnt vSats]. split; [reflexivity|]. split; [exact C|]. split; [lia|].
  split; [pose proof (sentences_eq (cnt p) ltac:(lia)) as T; destruct (cnt p =? 0) eqn:?; lia|].
  split; [|split; [exact G|split; [exact F|reflexivity]]]. clear. induction (sats p) as [|x l IH]; [constructor|]. cbn [map]. constructor; [|exact IH].
  unfold stored, clean. destruct (prn x =? 0) eqn:Z0; [left|right]; split; (lia || reflexivity).
Qed.
Print Assumptions C174_any.
Definition sentence1 : list Z := str "$GPGSV,1,1,2,01,40,083,46,02,17,308,41,,,,,,,,*75".
Example C174_any_ex : parse (fun _ => true) sentence1 = Some (mkGsv true true 1 1 2 [mkSat 1 40 83 46; mkSat 2 17 308 41; no_sat; no_sat]).
Proof. vm_compute. reflexivity. Qed.
(** the same without the empty fields *)
Example C174_any_ex2 : parse (fun _ => true) (str "$GPGSV,1,1,2,01,40,083,46,02,17,308,41*75") = Some (mkGsv true true 1 1 2 [mkSat 1 40 83 46; mkSat 2 17 308 41; no_sat; no_sat]).
Proof. vm_compute. reflexivity. Qed.

(** The sentences made from an information, all of them in order, bring the same satellites into
    any other one *)
Theorem C174_series_partial : forall w l v, Forall seen l -> (1 <= List.length l <= 72)%nat -> holds l (vSats w) ->
  vHasCount w = true -> vHas w = true -> vCnt w = Z.of_nat (List.length l) -> List.length (vSats v) = 72%nat ->
  exists k v', 4 * Z.of_nat k - 4 < Z.of_nat (List.length l) <= 4 * Z.of_nat k /\
    fed (map (fun j => from_info w (Z.of_nat j)) (seq 0 k)) v v' /\
    holds l (vSats v') /\ vCnt v' = Z.of_nat (List.length l) /\ vHasCount v' = true /\ vHas v' = true /\ vBusy v' = false.
Proof.
  intros w l v Fs Ln H H1 H2 H3 Lv. pose proof (sentences_eq (Z.of_nat (List.length l)) ltac:(lia)) as T. replace (Z.of_nat (List.length l) =? 0) with false in T by lia.
  exists (Z.to_nat (to_sentences (Z.of_nat (List.length l)))). eexists. split; [lia|]. split; [apply (fed_from w l Fs Ln H1 H2 H3 H); [lia|lia|exact Lv|reflexivity]|].
  cbn [vSats vCnt vHasCount vHas vBusy]. auto 10.
Qed.
Print Assumptions C174_series_partial.
Definition five : list sat := [mkSat 1 40 83 46; mkSat 2 17 308 41; mkSat 12 7 344 39; mkSat 14 22 228 45; mkSat 20 (-3) 5 30].
Example C174_series_ex : exists v', fed (map (fun j => from_info (mkView true true 5 (five ++ repeat no_sat 67) false) (Z.of_nat j)) (seq 0 2)) (mkView false false 0 (repeat (mkSat 9 9 9 9) 72) false) v' /\ holds five (vSats v').
Proof. eexists. split; [econstructor; [vm_compute; reflexivity|]; econstructor; [vm_compute; reflexivity|]; apply fed_nil|vm_compute; reflexivity]. Qed.

(** A sentence with all its fields is read as they say; those of a satellite may be empty, which
    is 0 *)
Theorem C174_text_partial : forall isnum xs vs tl sc sn n a b c d, 
  all_give (fun t => isnum t = true) ([KUns; KUns; KUns] ++ [KUns; KInt; KUns; KUns] ++ [KUns; KInt; KUns; KUns] ++ [KUns; KInt; KUns; KUns] ++ [KUns; KInt; KUns; KUns]) xs vs ->
  vs = [VUns sc; VUns sn; VUns n] ++ flat_map vals_of [a; b; c; d] ->
  tl = [] \/ (exists ck, tl = 42 :: ck) -> 1 <= n <= 72 -> 4 * sc - 4 < n <= 4 * sc -> 1 <= sn <= sc -> Forall possible (map sat_of [a; b; c; d]) ->
  parse isnum (str "$GPGSV" ++ flat_map (fun x => 44 :: x) xs ++ tl) = Some (mkGsv true true sc sn n (map sat_of [a; b; c; d])).
Proof.
  intros isnum xs vs tl sc sn n a b c d A Ev T N SC SN F.
  subst vs. rewrite (parse_scan isnum _ 19 ([VUns sc; VUns sn; VUns n] ++ flat_map vals_of [a; b; c; d])).
  - apply check_full; assumption.
  - discriminate.
  - rewrite gsv_format_eq. apply (scanf_fields isnum (str "$GPGSV") gsv_kinds xs); [cbn; intros H; repeat (destruct H as [H|H]; [discriminate H|]); exact H|exact A|exact T].
Qed.
Print Assumptions C174_text_partial.
Example C174_text_ex : parse (fun _ => true) (str "$GPGSV,2,1,08,01,40,083,46,02,17,308,41,12,07,344,39,14,22,228,45*75") = Some (mkGsv true true 2 1 8 [mkSat 1 40 83 46; mkSat 2 17 308 41; mkSat 12 7 344 39; mkSat 14 22 228 45]).
Proof. vm_compute. reflexivity. Qed.

(** More satellites can be in the array than the sentence counts *)
Theorem C174_count_refuted : exists s p v v', parse (fun _ => true) s = Some p /\ to_info p v = Some v' /\ vSats v = repeat no_sat 72 /\ vCnt v' = 1 /\
  exists i, Z.of_nat i >= vCnt v' /\ prn (nth i (vSats v') no_sat) <> 0.
Proof.
  exists (str "$GPGSV,1,1,1,01,40,083,46,02,17,308,41,12,07,344,39,14,22,228,45*75"). eexists. exists (mkView false false 0 (repeat no_sat 72) false). eexists.
  split; [vm_compute; reflexivity|]. split; [vm_compute; reflexivity|]. split; [reflexivity|]. split; [reflexivity|]. exists 3%nat. split; [vm_compute; discriminate|vm_compute; discriminate].
Qed.
Print Assumptions C174_count_refuted.

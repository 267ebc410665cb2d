From Verif Require Import Base Bytes IpCalc Mantissa MantissaProofs GwSpeed GwSpeedProofs GwHna NetBuf NetBufSpec NetBufProofs Parser Tc BuildMsg BuildMsgSpec BuildMsgProofs BuildMsgTcProofs BuildHna BuildHnaSpec BuildHnaProofs.

Section step.
Variables (c : hcfg).
Hypothesis Cok : cfg_ok c.
Notation v6 := (a_v6 (c_ann c)).
Notation cap := (8 + 3 * ipsz (a_v6 (c_ann c))).

Lemma cap_eq : BASE v6 + 2 * ipsz v6 = cap. Proof. unfold BASE. lia. Qed.
Lemma kept_announced l : Forall (good_net c) l -> announced c l (kept c false l).
Proof.
  intros F. exists (fun h => negb (left_out c false h)). split; [reflexivity|]. intros h I. rewrite Forall_forall in F. pose proof (gateway_iff c h (F h I)) as G.
  unfold left_out. cbn [negb andb]. destruct (as_gateway c h) eqn:E; cbn [andb].
  - destruct G as (G & _). destruct (G eq_refl) as (A & D). destruct (c_bwzero c); cbn [negb]; split; intros H; try discriminate; auto; destruct H as (_ & X & _); discriminate.
  - cbn [negb]. split; [discriminate|]. intros (A & B & D). assert (false = true); [|discriminate]. apply G. auto.
Qed.
Lemma announced_unique l l1 l2 : announced c l l1 -> announced c l l2 -> l1 = l2.
Proof.
  intros (f & -> & F) (g & -> & G). apply filter_ext_in. intros h I. specialize (F h I). specialize (G h I). destruct (f h), (g h); auto; exfalso; [assert (true = false) by (apply F, G; reflexivity)|assert (true = false) by (apply G, F; reflexivity)]; discriminate.
Qed.
Lemma sgw_iff l : Forall (good_net c) l -> existsb (as_gateway c) (kept c false l) = true <->
  a_active (c_ann c) = true /\ c_bwzero c = false /\ exists h, In h l /\ default_route v6 h.
Proof.
  intros F. rewrite Forall_forall in F. rewrite existsb_exists. split.
  - intros (h & I & G). apply filter_In in I. destruct I as (I & K). unfold left_out in K. rewrite G in K. cbn [negb andb] in K. apply (gateway_iff c h (F h I)) in G. destruct G as (A & D). split; [exact A|]. split; [destruct (c_bwzero c); [discriminate|reflexivity]|]. exists h. auto.
  - intros (A & B & h & I & D). exists h. assert (G : as_gateway c h = true) by (apply gateway_iff; auto). split; [|exact G]. apply filter_In. split; [exact I|]. unfold left_out. rewrite B, andb_false_r. reflexivity.
Qed.

(** the networks, nothing to take back *)
Lemma hna_plain_M l s zt : l <> [] -> Forall (good_net c) l -> Z.of_nat (length l) < 2000 -> ready cap s -> 
  (a_active (c_ann c) = false \/ zt = 0 \/ existsb (as_gateway c) (kept c false l) = true) ->
  exists s' parts, serialize_hna c l zt s = Some (s', Some (if existsb (as_gateway c) (kept c false l) then c_valid c else zt)) /\
    delivers s s' (numbered (hna_msg (c_vt c) (c_main c)) (s_seq s) parts) /\ s_seq s' = plus_seq (s_seq s) (length parts) /\
    Forall2 (hna_says c false) (kept c false l) (concat parts) /\ ok s' /\ (kept c false l <> [] -> Forall (fun p => p <> []) parts) /\ (kept c false l = [] -> parts = [[]]).
Proof.
  intros Nl F Few Rd Cs. rewrite <- cap_eq in Rd. destruct (hna_body_M c Cok false zt (c_vt c) l s Rd F Few eq_refl) as (s' & parts & E & X).
  exists s', parts. split; [|exact X]. unfold serialize_hna. cbv zeta. destruct l as [|h l]; [congruence|]. 
  match goal with |- mbind ?m ?f s = _ => assert (Em : m s = Some (s', Some (if existsb (as_gateway c) (kept c false (h :: l)) then c_valid c else zt, existsb (as_gateway c) (kept c false (h :: l)))));
    [rewrite (bind_M _ _ _ _ _ E); reflexivity|rewrite (bind_M _ _ _ _ _ Em)] end.
  destruct (existsb (as_gateway c) (kept c false (h :: l))) eqn:Eg; cbn [negb]; [rewrite andb_false_r; reflexivity|].
  destruct Cs as [-> | [-> | X']]; [reflexivity| |congruence]. rewrite andb_false_r. reflexivity.
Qed.

(** taking back *)
Definition zero_net : hnet := (repeat 0 (Z.to_nat (ipsz v6)), 0).
Lemma zero_good : good_net c zero_net.
Proof.
  split; [|intros _ _; cbn; lia]. unfold hna_net, zero_net. cbn [fst snd]. pose proof (ipsz_val v6). split; [unfold blen; rewrite repeat_length; lia|]. split; [lia|]. intros _ X. discriminate.
Qed.
Lemma zero_kept : kept c true [zero_net] = [zero_net]. Proof. reflexivity. Qed.
Lemma concat_one {A} (parts : list (list A)) x : Forall (fun p => p <> []) parts -> concat parts = [x] -> parts = [[x]].
Proof.
  intros F E. destruct parts as [|p parts]; [discriminate|]. inversion F as [|? ? Np F']; subst. destruct p as [|y p]; [congruence|]. cbn [concat app] in E. injection E as -> E.
  apply app_eq_nil in E. destruct E as (-> & E). f_equal. destruct parts as [|q parts]; [reflexivity|]. inversion F' as [|? ? Nq _]; subst. cbn [concat] in E. apply app_eq_nil in E. destruct E. congruence.
Qed.
Lemma hna_zero_M s zt : ready cap s -> 0 < zt < 2 ^ 32 ->
  exists s' vt e, hna_body c true zt [zero_net] s = Some (s', Some (as_gateway c zero_net)) /\ reltime_to_me zt = Some vt /\ hna_says c true zero_net e /\
    delivers s s' [hna_msg vt (c_main c) (s_seq s) [e]] /\ s_seq s' = plus_seq (s_seq s) 1 /\ ok s'.
Proof.
  intros Rd Zr. rewrite <- cap_eq in Rd. destruct (enc_total zt ltac:(lia)) as (vt & Ev & _).
  destruct (hna_body_M c Cok true zt vt [zero_net] s Rd ltac:(repeat constructor; apply zero_good) ltac:(cbn; lia) Ev) as (s' & parts & E & D & Q & Fo & K & Ne & _).
  rewrite zero_kept in *. inversion Fo as [|? e' ? tl Se' Ft Eh Ec]; subst. inversion Ft; subst.
  assert (Ep : parts = [[e']]) by (apply concat_one; [apply Ne; discriminate|congruence]). subst parts.
  exists s', vt, e'. cbn [existsb] in E. rewrite orb_false_r in E. split; [exact E|]. split; [exact Ev|]. split; [exact Se'|]. split; [exact D|]. split; [exact Q|exact K].
Qed.
Definition less (zt : Z) : Z := if zt <=? c_period c then 0 else zt - c_period c.
Lemma hna_back_M l s zt : Forall (good_net c) l -> Z.of_nat (length l) < 2000 -> ready cap s -> 0 < zt < 2 ^ 32 ->
  a_active (c_ann c) = true -> existsb (as_gateway c) (kept c false l) = false ->
  exists s' parts vt e, serialize_hna c l zt s = Some (s', Some (less zt)) /\ reltime_to_me zt = Some vt /\ hna_says c true zero_net e /\
    delivers s s' (numbered (hna_msg (c_vt c) (c_main c)) (s_seq s) parts ++ [hna_msg vt (c_main c) (plus_seq (s_seq s) (length parts)) [e]]) /\ s_seq s' = plus_seq (s_seq s) (length parts + 1) /\
    Forall2 (hna_says c false) (kept c false l) (concat parts) /\ ok s' /\ (l = [] -> parts = []) /\ (kept c false l <> [] -> Forall (fun p => p <> []) parts).
Proof.
  intros F Few Rd Zr Act Ng.
  assert (First : exists s1 parts, (match l with [] => ret (zt, false) | _ => sgw <- hna_body c false zt l ;; ret (if sgw : bool then c_valid c else zt, sgw) end) s = Some (s1, Some (zt, false)) /\
     delivers s s1 (numbered (hna_msg (c_vt c) (c_main c)) (s_seq s) parts) /\ s_seq s1 = plus_seq (s_seq s) (length parts) /\ Forall2 (hna_says c false) (kept c false l) (concat parts) /\ ok s1 /\ (l = [] -> parts = []) /\ (kept c false l <> [] -> Forall (fun p => p <> []) parts)).
  { destruct l as [|h l].
    - exists s, []. split; [reflexivity|]. split; [apply delivers_refl, Rd|]. split; [symmetry; apply plus_seq_0, Rd|]. split; [constructor|]. split; [apply (ready_ok _ _ Rd)|]. split; [auto|]. cbn. congruence.
    - assert (Rd' := Rd). rewrite <- cap_eq in Rd'. destruct (hna_body_M c Cok false zt (c_vt c) (h :: l) s Rd' F Few eq_refl) as (s1 & parts & E & D & Q & Fo & K & Ne & _).
      exists s1, parts. split; [rewrite (bind_M _ _ _ _ _ E), Ng; reflexivity|]. split; [exact D|]. split; [exact Q|]. split; [exact Fo|]. split; [exact K|]. split; [discriminate|exact Ne]. }
  destruct First as (s1 & parts & E1 & D1 & Q1 & Fo & K1 & Nil & Ne).
  assert (Rd1 : ready cap s1) by (apply ok_ready; [exact K1|rewrite (delivers_max _ _ _ D1); apply Rd]).
  destruct (hna_zero_M s1 zt Rd1 Zr) as (s2 & vt & e & E2 & Ev & Se & D2 & Q2 & K2).
  exists s2, parts, vt, e. split; [|split; [exact Ev|split; [exact Se|split; [|split; [|auto]]]]].
  - unfold serialize_hna. cbv zeta. replace (zt =? 0) with false by lia.
    match goal with |- ?X = _ => assert (EX : X = mbind (match l with [] => ret (zt, false) | _ => sgw <- hna_body c false zt l ;; ret (if sgw : bool then c_valid c else zt, sgw) end)
       (fun x => let (zt, sgw) := x : Z * bool in if a_active (c_ann c) && negb sgw && negb (zt =? 0) then hna_body c true zt [zero_net] ;;; ret (if zt <=? c_period c then 0 else zt - c_period c) else ret zt) s) by (destruct l; reflexivity) end.
    rewrite EX, (bind_M _ _ _ _ _ E1). rewrite Act. replace (zt =? 0) with false by lia. cbn [negb andb]. rewrite (bind_M _ _ _ _ _ E2). reflexivity.
  - rewrite Q1 in D2. apply (delivers_trans _ _ _ _ _ D1 D2).
  - rewrite Q2, Q1, plus_seq_app. reflexivity.
Qed.
Lemma hna_none_M s : serialize_hna c [] 0 s = Some (s, Some 0). Proof. reflexivity. Qed.

(** successive calls with nothing else to announce *)
Lemma hna_run_M ls : a_active (c_ann c) = true -> 0 < c_period c -> Forall (fun l => l = []) ls -> forall zt s, 0 <= zt < 2 ^ 32 -> ready cap s ->
  exists s' ms zt', hna_run c ls zt s = Some (s', Some zt') /\ delivers s s' (numbered (fun seq x => hna_msg (fst x) (c_main c) seq [snd x]) (s_seq s) ms) /\ s_seq s' = plus_seq (s_seq s) (length ms) /\
    Forall2 (fun z x => reltime_to_me z = Some (fst x) /\ hna_says c true zero_net (snd x)) (remaining (length ls) zt (c_period c)) ms /\ ready cap s' /\ zt' = Z.max 0 (zt - Z.of_nat (length ls) * c_period c).
Proof.
  intros Act Per. induction ls as [|l ls IH]; intros F zt s Zr Rd; cbn [hna_run length remaining].
  - exists s, [], zt. split; [reflexivity|]. split; [apply delivers_refl, Rd|]. split; [symmetry; apply plus_seq_0, Rd|]. split; [constructor|]. split; [exact Rd|]. lia.
  - inversion F as [|? ? El F']; subst. specialize (IH F'). destruct (Z.leb_spec zt 0) as [L|L].
    + assert (zt = 0) by lia. subst zt. rewrite (bind_M _ _ _ _ _ (hna_none_M s)). destruct (IH 0 s ltac:(lia) Rd) as (s' & ms & zt' & E & D & Q & Fm & K & Ez).
      exists s', ms, zt'. split; [exact E|]. split; [exact D|]. split; [exact Q|]. split; [|split; [exact K|]].
      * replace (remaining (length ls) 0 (c_period c)) with (@nil Z) in Fm by (destruct (length ls); reflexivity). exact Fm.
      * rewrite Ez. clear - Per. nia.
    + destruct (hna_back_M [] s zt ltac:(constructor) ltac:(cbn; lia) Rd ltac:(lia) Act eq_refl) as (s1 & parts & vt & e & E1 & Ev & Se & D1 & Q1 & _ & K1 & Np & _).
      rewrite (Np eq_refl) in *. cbn [length numbered app Nat.add] in *. rewrite (bind_M _ _ _ _ _ E1).
      assert (Rd1 : ready cap s1) by (apply ok_ready; [exact K1|rewrite (delivers_max _ _ _ D1); apply Rd]).
      assert (Zl : 0 <= less zt < 2 ^ 32 /\ less zt = Z.max 0 (zt - c_period c)) by (unfold less; destruct (Z.leb_spec zt (c_period c)); lia). destruct Zl as (Zl & Zl').
      destruct (IH (less zt) s1 Zl Rd1) as (s' & ms & zt' & E & D & Q & Fm & K & Ez).
      exists s', ((vt, e) :: ms), zt'. split; [exact E|]. split; [|split; [|split; [|split; [exact K|]]]].
      * cbn [numbered fst snd]. rewrite plus_seq_0 in D1 by apply Rd. rewrite Q1, plus_seq_1 in D. apply (delivers_trans _ _ _ _ _ D1 D).
      * rewrite Q, Q1, plus_seq_app. reflexivity.
      * constructor; [split; [exact Ev|exact Se]|]. rewrite Zl' in Fm. destruct (Z.leb_spec (zt - c_period c) 0) as [G|G].
        { replace (Z.max 0 (zt - c_period c)) with 0 in Fm by lia. replace (remaining (length ls) (zt - c_period c) (c_period c)) with (@nil Z).
          - replace (remaining (length ls) 0 (c_period c)) with (@nil Z) in Fm by (destruct (length ls); reflexivity). exact Fm.
          - destruct (length ls); [reflexivity|]. cbn [remaining]. destruct (Z.leb_spec (zt - c_period c) 0); [reflexivity|lia]. }
        { replace (Z.max 0 (zt - c_period c)) with (zt - c_period c) in Fm by lia. exact Fm. }
      * rewrite Ez, Zl'. clear - Per. replace (Z.of_nat (S (length ls))) with (Z.of_nat (length ls) + 1) by lia. nia.
Qed.
End step.

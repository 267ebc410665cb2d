(** The HNA set withdraws smart gateways only along with a plain default route. *)
From Verif Require Import Base Bytes Mantissa IpCalc GwHna Parser Hna HnaSpec HnaProofs.

Section Hash.
Variable hash : list Z -> nat.
Hypothesis HB : forall a, (hash a < HASHSIZE)%nat.
Variable c : hcfg.
Notation get := (get hash).
Definition inet (n : list Z) (p : Z) : bool := is_prefix_inetgw (h_v6 c) (n, p).
Definition noinet (m : hmap) : Prop := forall g n p, inet n p = true -> m g n p = None.
Definition nodel (l : list heff) : Prop := forall g p, ~ In (EGwDel g p) l.
Lemma nodel_app a b : nodel a -> nodel b -> nodel (a ++ b).
Proof. intros A B g p H. apply in_app_iff in H. destruct H as [H|H]; [apply (A g p H)|apply (B g p H)]. Qed.

Lemma heard_noinet o vt l : forall m, noinet m -> (forall p, In p l -> foreign c p = true -> inet (fst p) (netmask_to_prefix (snd p)) = false) ->
  noinet (fold_left (heard_pair c o vt) l m).
Proof.
  induction l as [|p l IH]; intros m N H; [exact N|]. cbn [fold_left]. apply IH; [|intros q Hq; apply H; now right].
  intros g n q I. unfold heard_pair. destruct (foreign c p) eqn:F; [|now apply N]. unfold say. destruct (same_key o (fst p) (netmask_to_prefix (snd p)) g n q) eqn:K; [|now apply N].
  apply skey_spec in K. destruct K as (_ & <- & <-). rewrite H in I; [discriminate|now left|exact F].
Qed.
Lemma noinet1 e m : noinet m -> ~ plain_default c e -> noinet (heard1 c m e).
Proof.
  intros N P. destruct e as [sym b|gw net plen|o]; cbn [heard1].
  - destruct (m_ok c sym b) eqn:M; [|exact N]. apply heard_noinet; [exact N|]. intros p Hp F. destruct (inet (fst p) (netmask_to_prefix (snd p))) eqn:I; [|reflexivity].
    exfalso. apply P. cbn [plain_default]. eauto.
  - intros g n p I. unfold forget. destruct (same_key gw net plen g n p); [reflexivity|now apply N].
  - intros g n p I. unfold forget_all. destruct (bytes_eqb o g); [reflexivity|now apply N].
Qed.
Lemma update_nodel s gw net plen vt : nodel (snd (update_entry hash s gw net plen vt)).
Proof.
  destruct (update_shape hash s gw net plen vt) as (_ & ->). intros g p H. apply in_app_iff in H.
  destruct (lookup_net (base_nets hash s gw) net plen); cbn [In] in H; intuition discriminate.
Qed.
Lemma loop_nodel b orig seqn vt : forall fuel curr fin s s' ef, input_loop hash fuel c b orig seqn vt curr fin s = Some (s', ef) -> nodel ef.
Proof.
  induction fuel as [|fuel IH]; intros curr fin s s' ef H; cbn [input_loop] in H; destruct (curr <? fin); try discriminate;
    try (apply Some_inj in H; injection H as _ <-; intros g p C; exact C).
  unfold bind in H. destruct (rdn b curr (ipsize c)) as [net|]; [|discriminate]. destruct (rdn b (curr + ipsize c) (ipsize c)) as [mask|]; [|discriminate].
  destruct (input_pair hash c orig seqn vt net mask s) as [s1 e1] eqn:P. destruct (input_loop hash fuel c b orig seqn vt (curr + 2 * ipsize c) fin s1) as [[s2 e2]|] eqn:Q; [|discriminate].
  apply Some_inj in H. cbn [fst snd] in H. injection H as -> <-. apply nodel_app; [|eapply IH; eauto].
  revert P. unfold input_pair. cbv zeta. destruct (h_smartgw c && _); [intros E; injection E as _ <-; intros g p C; cbn [In] in C; intuition discriminate|].
  destruct (h_smartgw c && _); [intros E; injection E as _ <-; intros g p C; exact C|].
  destruct (existsb _ _); [intros E; injection E as _ <-; intros g p C; cbn [In] in C; intuition discriminate|].
  destruct (own_hna c net _); [intros E; injection E as _ <-; intros g p C; exact C|]. intros E. replace e1 with (snd (s1, e1)) by reflexivity. rewrite <- E. apply update_nodel.
Qed.
Lemma del_nodel gw n : inet (n_net n) (n_plen n) = false -> nodel (del_effects (h_v6 c) gw n).
Proof. unfold inet, del_effects. intros ->. intros g p C. cbn [app In] in C. intuition discriminate. Qed.
Lemma rec_noinet s h e n : wf hash s -> noinet (get s) -> In e (s h) -> In n (e_nets e) -> inet (n_net n) (n_plen n) = false.
Proof.
  intros W N He Hn. destruct (inet (n_net n) (n_plen n)) eqn:I; [|reflexivity]. specialize (N (e_gw e) _ _ I).
  assert (R : In (e_gw e, n_net n, n_plen n, n_vtime n) (records s)).
  { unfold records. apply in_flat_map. exists e. split; [apply (in_ents hash HB); [exact W|now rewrite (wf_hash hash s W h e He)]|]. unfold recs_of. apply in_map_iff. eauto. }
  apply (records_get hash HB) in R; [|exact W]. congruence.
Qed.
Lemma step_nodel e s s' ef : wf hash s -> noinet (get s) -> hstep hash c e s = Some (s', ef) -> nodel ef.
Proof.
  intros W N. destruct e as [sym b|gw net plen|o]; cbn [hstep].
  - unfold bind at 1. destruct (input_hna hash c sym b s) as [[[s1 e1] acc]|] eqn:H; [|discriminate]. cbn [fst]. intros E. apply Some_inj in E. injection E as _ <-.
    unfold input_hna, bind in H. destruct (rd8 b 0) as [ty|]; [|discriminate]. assert (Z0 : nodel []) by (intros g p C; exact C).
    destruct (negb (ty =? HNA_MESSAGE)); [apply Some_inj in H; injection H as _ <- _; exact Z0|]. destruct (rd8 b 1); [|discriminate]. destruct (rd16 b 2) as [ms|]; [|discriminate].
    destruct (rdn b 4 (ipsize c)); [|discriminate]. destruct (rdn b (4 + ipsize c) 2); [|discriminate]. destruct (rd16 b (6 + ipsize c)); [|discriminate].
    destruct (negb _); [apply Some_inj in H; injection H as _ <- _; exact Z0|]. destruct (negb sym); [apply Some_inj in H; injection H as _ <- _; exact Z0|].
    match type of H with match ?X with _ => _ end = _ => destruct X as [[s2 e2]|] eqn:L; [|discriminate] end. apply Some_inj in H. cbn [fst snd] in H. injection H as _ <- _. eapply loop_nodel; eauto.
  - intros E. apply Some_inj in E. unfold expire in E. destruct (lookup_gw hash s gw) as [e|] eqn:G; [|injection E as _ <-; intros g p C; exact C].
    destruct (lookup_net (e_nets e) net plen) as [x|] eqn:LN; injection E as _ <-; [|intros g p C; exact C]. apply del_nodel. unfold lookup_gw in G. unfold lookup_net in LN. apply find_some in G, LN.
    destruct G as (G & _), LN as (LN & _). eapply rec_noinet; eauto.
  - intros E. apply Some_inj in E. replace ef with (snd (cleanup (h_v6 c) s o)) by now rewrite E. clear E. unfold cleanup. cbn [snd]. intros g p C. apply in_flat_map in C. destruct C as (h & _ & C). revert C.
    assert (NI : forall e n, In e (s h) -> In n (e_nets e) -> inet (n_net n) (n_plen n) = false) by (intros e n He Hn; eapply rec_noinet; eauto).
    induction (s h) as [|e l IH]; [auto|]. cbn [clean_bucket]. specialize (IH (fun e0 n He Hn => NI e0 n (or_intror He) Hn)). destruct (clean_bucket (h_v6 c) o l) as [l' e']. cbn [snd] in IH.
    specialize (NI e). destruct (e_nets e) as [|x nets]; [exact IH|]. destruct (bytes_eqb (e_gw e) o); [|exact IH]. cbn [snd]. intros C. apply in_app_iff in C. destruct C as [C|C]; [|auto].
    clear IH. revert C. generalize (x :: nets) NI. intros ns NI2. induction ns as [|y ns IH]; [auto|]. cbn [drain]. intros C. apply in_app_iff in C. destruct C as [C|C].
    + revert C. apply del_nodel. apply NI2; now left.
    + apply IH; [intros n A B; apply NI2; [exact A|now right]|exact C].
Qed.
Lemma run_nodel evs : forall s s' ef, wf hash s -> noinet (get s) -> Forall (fun e => ~ plain_default c e) evs -> hrun hash c evs s = Some (s', ef) -> nodel ef.
Proof.
  induction evs as [|e evs IH]; intros s s' ef W N F H; cbn [hrun] in H.
  - apply Some_inj in H. injection H as _ <-. intros g p C; exact C.
  - inversion F as [|? ? F1 F2]; subst. unfold bind in H. destruct (hstep hash c e s) as [[s1 e1]|] eqn:S1; [|discriminate]. cbn [fst snd] in H. destruct (hrun hash c evs s1) as [[s2 e2]|] eqn:R; [|discriminate].
    cbn [fst snd] in H. apply Some_inj in H. injection H as _ <-. destruct (hstep_ok hash HB c _ _ _ _ W S1) as ((W1 & M1 & _) & _). apply nodel_app; [exact (step_nodel _ _ _ _ W N S1)|].
    refine (IH _ _ _ W1 _ F2 R). intros g n p I. rewrite M1. now apply noinet1.
Qed.
End Hash.

(** C30, C79, C80, C81: the MID set. *)
From Verif Require Import Base SchedTime Bytes Mantissa Mid MidSpec LinkSetProofs MidProofs MidTimeProofs MidExec.

Definition yes (a : Z) : bool := true.
Definition no (a : Z) : bool := false.

(** ** C30 *)

(** In every run: no lookup meets freed memory, the lookup from alias to main address and the lookup
    from main address to aliases agree, and an alias is in one list, once. *)
Theorem C30_agree : forall log s, mrun any_event log s ->
  (forall now e, mpossible now s e = true -> mstep now s e <> None) /\
  (forall a, lookup_main a s <> None) /\
  (forall a m, lookup_main a s = Some (Some m) <-> In a (map a_addr (lookup_aliases m s))) /\
  (forall a m m', In a (map a_addr (lookup_aliases m s)) -> In a (map a_addr (lookup_aliases m' s)) -> m = m') /\
  (forall m, NoDup (map a_addr (lookup_aliases m s))) /\
  NoDup (map e_main (ents s)).
Proof.
  intros log s R. pose proof (mrun_wf _ _ _ R) as [W _].
  assert (forall a m, listed s m a <-> In a (map a_addr (lookup_aliases m s))) as LA.
  { intros a m. unfold lookup_aliases. destruct (by_main m s) as [e|] eqn:B.
    - apply by_main_some in B. destruct B as [I M]. split.
      + intros (x & Ix & Mx & L). assert (x = e) as -> by (apply (inj_nodup _ _ e_main (ents s)); [apply (w_main _ W)|auto|auto|congruence]). exact L.
      + intro L. exists e. auto.
    - split; [|easy]. intros (x & Ix & Mx & _). now apply (by_main_none _ _ B x Ix). }
  split; [intros now e; now apply (mrun_safe _ _ _ _ _ R)|]. split; [intros a; destruct (lookup_listed s a W) as (o & -> & _); discriminate|].
  split; [|split; [|split; [|apply (w_main _ W)]]].
  - intros a m. rewrite <- LA. destruct (lookup_listed s a W) as (o & -> & K). rewrite <- K. split; [intro H; now apply Some_inj in H|congruence].
  - intros a m m' L L'. apply LA in L, L'. eapply listed_fun; eauto.
  - intro m. unfold lookup_aliases. destruct (by_main m s) as [e|] eqn:B; [|constructor]. apply by_main_some in B. destruct B as [I M].
    pose proof (w_aid _ W e I) as N. assert (forall a, In a (e_ali e) -> In (mkR (a_id a) (a_addr a) (e_id e)) (revs s)) as F by (intros a Ia; now apply (w_fwd _ W)).
    revert N F. generalize (e_ali e). induction l as [|a r IH]; intros N F; [constructor|]. cbn [map] in *. inversion N as [|? ? N1 N2]; subst. constructor; [|apply IH; auto; intros x Ix; apply F; now right].
    intro C. apply in_map_iff in C. destruct C as (x & C1 & C2). apply N1.
    assert (mkR (a_id a) (a_addr a) (e_id e) = mkR (a_id x) (a_addr x) (e_id e)) as Q.
    { apply (inj_nodup _ _ r_addr (revs s)); [apply (w_raddr _ W)|apply F; now left|apply F; now right|cbn; congruence]. }
    injection Q as Q1 Q2. rewrite Q1. now apply in_map.
Qed.
Print Assumptions C30_agree.
(** node 10 declares 11 and 12, node 20 declares 21 *)
Example C30_agree_example : exists log s, mrun any_event log s /\ lookup_main 12 s = Some (Some 10) /\ map a_addr (lookup_aliases 10 s) = [12; 11] /\ lookup_main 21 s = Some (Some 20) /\ lookup_main 13 s = Some None.
Proof.
  destruct (mexec [] minit [(1000, MMsg no yes no true 10 15000 [11; 12]); (2000, MMsg no yes no true 20 15000 [21])]) as [[log s]|] eqn:E; [|vm_compute in E; discriminate].
  exists log, s. split; [eapply mexec_run; [apply any_forall|apply mrun0|exact E]|]. vm_compute in E. inversion E; subst. vm_compute. auto.
Qed.

(** An alias may be a main address in use: 20 declares 30, 10 declares 20; and 10 may declare itself. *)
Theorem C30_main_refuted :
  (exists log s, mrun any_event log s /\ lookup_main 20 s = Some (Some 10) /\ lookup_main 30 s = Some (Some 20) /\ map a_addr (lookup_aliases 20 s) = [30]) /\
  (exists log s, mrun any_event log s /\ lookup_main 10 s = Some (Some 10)).
Proof.
  split.
  - destruct (mexec [] minit [(1000, MMsg no yes no true 20 15000 [30]); (2000, MMsg no yes no true 10 15000 [20])]) as [[log s]|] eqn:E; [|vm_compute in E; discriminate].
    exists log, s. split; [eapply mexec_run; [apply any_forall|apply mrun0|exact E]|]. vm_compute in E. inversion E; subst. vm_compute. auto.
  - destruct (mexec [] minit [(1000, MMsg no yes no true 10 15000 [10])]) as [[log s]|] eqn:E; [|vm_compute in E; discriminate].
    exists log, s. split; [eapply mexec_run; [apply any_forall|apply mrun0|exact E]|]. vm_compute in E. inversion E; subst. vm_compute. auto.
Qed.
Print Assumptions C30_main_refuted.

(** In a network in which the nodes only declare their own other addresses, an alias is never a main
    address in use, and it maps to its owner. *)
Theorem C30_main_partial : forall owner log s a m, mrun (honest owner) log s -> lookup_main a s = Some (Some m) ->
  m = owner a /\ by_main a s = None.
Proof.
  intros owner log s a m R L. pose proof (mrun_wf _ _ _ R) as [W _]. pose proof (mrun_honest _ _ _ R) as [_ H]. pose proof (honest_mains _ _ _ R) as M.
  pose proof (proj1 (lookup_main_eq _ _ _ W L m) eq_refl) as L'. destruct (H _ _ L') as [-> N]. split; [reflexivity|].
  destruct (by_main a s) as [e|] eqn:B; [|reflexivity]. apply by_main_some in B. destruct B as [I <-]. exfalso. apply N. symmetry. now apply M.
Qed.
Print Assumptions C30_main_partial.
Definition tens (a : Z) : Z := a / 10 * 10.
Example C30_main_example : exists log s, mrun (honest tens) log s /\ lookup_main 12 s = Some (Some 10) /\ lookup_main 21 s = Some (Some 20) /\ (exists e, by_main 10 s = Some e).
Proof.
  destruct (mexec [] minit [(1000, MMsg no yes no true 10 15000 [11; 12]); (2000, MHello yes no 20 21 6000)]) as [[log s]|] eqn:E; [|vm_compute in E; discriminate].
  exists log, s. split.
  - eapply mexec_run; [|apply mrun0|exact E]. apply honestb_ok. reflexivity.
  - vm_compute in E. inversion E; subst. vm_compute. eauto.
Qed.

(** ** C79 *)

(** A route is asked for to every alias known. *)
Theorem C79_listed : forall log s a m, mrun any_event log s -> lookup_main a s = Some (Some m) -> routed a m log = true.
Proof.
  intros log s a m R L. pose proof (mrun_wf _ _ _ R) as [W _]. eapply mrun_routed; [exact R|]. now apply (lookup_main_eq _ _ _ W L).
Qed.
Print Assumptions C79_listed.
Example C79_listed_example : exists log s, mrun any_event log s /\ lookup_main 11 s = Some (Some 10) /\ lookup_main 12 s = Some None /\ routed 12 10 log = false.
Proof.
  destruct (mexec [] minit [(1000, MMsg no yes no true 10 15000 [11; 12]); (20000, MMsg no yes no true 10 15000 [11])]) as [[log s]|] eqn:E; [|vm_compute in E; discriminate].
  exists log, s. split; [eapply mexec_run; [apply any_forall|apply mrun0|exact E]|]. vm_compute in E. inversion E; subst. vm_compute. auto.
Qed.

(** The converse is false: 20 also declares 11, which is taken to be an alias of 10.  The route to 11
    by way of 20 is asked for and stays after every entry has gone. *)
Theorem C79_refuted : exists log s a m, mrun any_event log s /\ ents s = [] /\ revs s = [] /\ routed a m log = true.
Proof.
  destruct (mexec [] minit [(1000, MMsg no yes no true 10 15000 [11]); (2000, MMsg no yes no true 20 15000 [11]); (16001, MFire 1)]) as [[log s]|] eqn:E; [|vm_compute in E; discriminate].
  exists log, s, 11, 20. split; [eapply mexec_run; [apply any_forall|apply mrun0|exact E]|]. vm_compute in E. inversion E; subst. vm_compute. auto.
Qed.
Print Assumptions C79_refuted.

(** In an honest network the routes asked for are exactly those to the aliases known. *)
Theorem C79_partial : forall owner log s a m, mrun (honest owner) log s -> routed a m log = true <-> lookup_main a s = Some (Some m).
Proof.
  intros owner log s a m R. pose proof (mrun_wf _ _ _ R) as [W _]. destruct (lookup_listed s a W) as (o & LM & LK). rewrite LM. split.
  - intro H. apply (mrun_routed_iff _ _ _ _ _ R) in H. apply LK in H. congruence.
  - intro H. apply Some_inj in H. apply LK in H. eapply mrun_routed; eauto.
Qed.
Print Assumptions C79_partial.
Example C79_example : exists log s, mrun (honest tens) log s /\ routed 12 10 log = true /\ routed 11 10 log = false /\ routed 21 20 log = true.
Proof.
  destruct (mexec [] minit [(1000, MMsg no yes no true 10 15000 [11; 12]); (2000, MHello yes no 20 21 6000); (18000, MMsg no yes no true 10 15000 [12])]) as [[log s]|] eqn:E; [|vm_compute in E; discriminate].
  exists log, s. split.
  - eapply mexec_run; [|apply mrun0|exact E]. apply honestb_ok. reflexivity.
  - vm_compute in E. inversion E; subst. vm_compute. auto.
Qed.

(** ** C80 *)

(** An alias learned from HELLOs goes away although the HELLOs go on: the node hears a HELLO of 10 from
    the address 11 every two seconds, each valid for six seconds; six seconds after the first one the
    entry is removed. *)
Theorem C80_hello_refuted : exists h s, tstate 100 h 7050 s /\ map (fun x => (fst (fst x), snd x)) h =
    [(1000, MHello yes no 10 11 6000); (3000, MHello yes no 10 11 6000); (5000, MHello yes no 10 11 6000); (7000, MHello yes no 10 11 6000); (7001, MFire 1)] /\
  lookup_main 11 s = Some None.
Proof.
  destruct (texec 100 [] 0 minit [(1000, MHello yes no 10 11 6000); (3000, MHello yes no 10 11 6000); (5000, MHello yes no 10 11 6000); (7000, MHello yes no 10 11 6000); (7001, MFire 1)]) as [[[h t] s]|] eqn:E; [|vm_compute in E; discriminate].
  pose proof (texec_run _ _ _ _ _ _ _ _ (trun0 100 0 ltac:(lia)) E) as R. exists h, s. vm_compute in E. inversion E; subst; clear E.
  split; [eexists; split; [exact R|split; [lia|apply mpromptb_ok; reflexivity]]|repeat split; reflexivity].
Qed.
Print Assumptions C80_hello_refuted.

(** An alias declared in a MID message stays at least as long as the message is valid: until [m] sends
    an empty list, an empty TC, or turns into an alias itself.  Missing: the aliases learned from
    HELLOs, see above. *)
Theorem C80_partial : forall slack h t s m a t0 v, 0 <= slack <= 536870912 -> tstate slack h t s ->
  declared m a h = Some (t0, v) -> t < t0 + v -> lookup_main a s = Some (Some m).
Proof. exact alias_lower. Qed.
Print Assumptions C80_partial.
Example C80_partial_example : exists h s, tstate 100 h 19999 s /\ declared 10 11 h = Some (5000, 15000) /\ declared 10 12 h = Some (1000, 15000) /\ lookup_main 11 s = Some (Some 10) /\ lookup_main 12 s = Some None.
Proof.
  destruct (texec 100 [] 0 minit [(1000, MMsg no yes no true 10 15000 [11; 12]); (5000, MMsg no yes no true 10 15000 [11]); (7000, MMsg no yes no true 20 15000 [11]); (17000, MMsg no yes no true 10 3000 [13])]) as [[[h t] s]|] eqn:E; [|vm_compute in E; discriminate].
  pose proof (texec_run _ _ _ _ _ _ _ _ (trun0 100 0 ltac:(lia)) E) as R. exists h, s. vm_compute in E. inversion E; subst; clear E.
  split; [eexists; split; [exact R|split; [lia|apply mpromptb_ok; reflexivity]]|repeat split; reflexivity].
Qed.

(** An alias goes away at the latest when everything heard from its main address has expired. *)
Theorem C80_expiry : forall slack h t s m a, 0 <= slack <= 536870912 -> tstate slack h t s -> lookup_main a s = Some (Some m) ->
  exists x tk vk, In x h /\ heard_from m x = Some (tk, vk) /\ t <= tk + vk + slack.
Proof. exact alias_upper. Qed.
Print Assumptions C80_expiry.
Example C80_expiry_example : exists h s, tstate 100 h 16100 s /\ lookup_main 11 s = Some (Some 10) /\ heard_from 10 (1000, minit, MMsg no yes no true 10 15000 [11]) = Some (1000, 15000) /\ map snd h = [MMsg no yes no true 10 15000 [11]].
Proof.
  destruct (texec 100 [] 0 minit [(1000, MMsg no yes no true 10 15000 [11])]) as [[[h t] s]|] eqn:E; [|vm_compute in E; discriminate].
  pose proof (texec_run _ _ _ _ _ _ _ _ (trun0 100 0 ltac:(lia)) E) as R. exists h, s. vm_compute in E. inversion E; subst; clear E.
  split; [eexists; split; [exact R|split; [lia|apply mpromptb_ok; reflexivity]]|repeat split; reflexivity].
Qed.

(** A MID message removes the aliases it does not list, unless an earlier one that lists them is
    still valid; during the first 24 days of the clock. *)
Theorem C80_pruned_partial : forall slack h t s m a own vd nb vt al s0, 0 <= slack <= 536870912 ->
  trun slack (h ++ [(t, s0, MMsg own vd nb true m vt al)]) t s ->
  0 < t < 2147483648 -> vd m = true -> ~ In a al -> lookup_main a s = Some (Some m) ->
  exists x tk vk, In x h /\ declares m a x = Some (tk, vk) /\ t < tk + vk.
Proof. exact alias_pruned. Qed.
Print Assumptions C80_pruned_partial.
Example C80_pruned_example : exists h s s0, trun 100 (h ++ [(5000, s0, MMsg no yes no true 10 15000 [13])]) 5000 s /\ lookup_main 12 s = Some (Some 10) /\ lookup_main 11 s = Some None /\ map snd h = [MMsg no yes no true 10 15000 [12]; MHello yes no 10 11 6000].
Proof.
  destruct (texec 100 [] 0 minit [(1000, MMsg no yes no true 10 15000 [12]); (3000, MHello yes no 10 11 6000)]) as [[[h t] s0]|] eqn:E; [|vm_compute in E; discriminate].
  pose proof (texec_run _ _ _ _ _ _ _ _ (trun0 100 0 ltac:(lia)) E) as R. vm_compute in E. inversion E; subst; clear E.
  match goal with R : trun _ ?h _ ?s0 |- _ => exists h; destruct (mstep (u32 5000) s0 (MMsg no yes no true 10 15000 [13])) as [[s l]|] eqn:E; [|vm_compute in E; discriminate]; exists s, s0 end.
  split; [eapply trun1; [exact R|lia|cbn; lia|apply mpromptb_ok; reflexivity|reflexivity|exact E]|].
  vm_compute in E. inversion E; subst. repeat split; reflexivity.
Qed.
(** Later it is false: the alias learned from a HELLO has the validity 0, which then counts as lying
    in the future, so that a MID message that does not list it keeps it. *)
Theorem C80_pruned_refuted : exists h t s s0, trun 100 (h ++ [(t, s0, MMsg no yes no true 10 15000 [12])]) t s /\ lookup_main 11 s = Some (Some 10) /\ forall x, In x h -> declares 10 11 x = None.
Proof.
  destruct (texec 100 [] 3000000000 minit [(3000000000, MHello yes no 10 11 6000)]) as [[[h t] s0]|] eqn:E; [|vm_compute in E; discriminate].
  pose proof (texec_run _ _ _ _ _ _ _ _ (trun0 100 3000000000 ltac:(lia)) E) as R. vm_compute in E. inversion E; subst; clear E.
  match goal with R : trun _ ?h _ ?s0 |- _ => exists h, 3000005000; destruct (mstep (u32 3000005000) s0 (MMsg no yes no true 10 15000 [12])) as [[s l]|] eqn:E; [|vm_compute in E; discriminate]; exists s, s0 end.
  split; [eapply trun1; [exact R|lia|cbn; lia|apply mpromptb_ok; reflexivity|reflexivity|exact E]|].
  vm_compute in E. inversion E; subst. split; [reflexivity|]. intros x [<-|[]]. reflexivity.
Qed.
Print Assumptions C80_pruned_refuted.

(** ** C81 *)

(** Parsing an IPv4 MID message gives the addresses in its body, and nothing else. *)
Theorem C81_v4 : forall b size, rd16 b 2 = Some size -> 12 <= size <= blen b ->
  mid_chgestruct false b = Some (slice b 4 4, me_to_reltime (be (slice b 1 1)), rev (body false b size)).
Proof.
  intros b size R H. apply (parse_ok false b size R H). unfold mid_count, header, addr_len. rewrite Z.quot_div_nonneg by lia. reflexivity.
Qed.
Print Assumptions C81_v4.
Example C81_v4_example : rd16 [3; 134; 0; 20; 10; 0; 0; 1; 9; 0; 0; 5; 10; 0; 0; 2; 10; 0; 0; 3; 77] 2 = Some 20 /\
  body false [3; 134; 0; 20; 10; 0; 0; 1; 9; 0; 0; 5; 10; 0; 0; 2; 10; 0; 0; 3; 77] 20 = [[10; 0; 0; 2]; [10; 0; 0; 3]].
Proof. split; reflexivity. Qed.
(** With IPv6 the header is 24 bytes, but 12 are subtracted: a body with 4 to 15 bytes after the last
    whole address is read as one address more, beyond the end of the message, here also beyond the
    end of the data received; or the bytes after the message are taken for an address. *)
Theorem C81_v6_refuted :
  (exists b size, rd16 b 2 = Some size /\ blen b = size /\ mid_chgestruct true b = None) /\
  (exists b size o v l, rd16 b 2 = Some size /\ size <= blen b /\ mid_chgestruct true b = Some (o, v, l) /\ l <> rev (body true b size) /\ In [1; 2; 3; 4; 7; 7; 7; 7; 7; 7; 7; 7; 7; 7; 7; 7] l).
Proof.
  split.
  - exists ([3; 134; 0; 28] ++ repeat 1 24), 28. repeat split; vm_compute; reflexivity.
  - exists ([3; 134; 0; 28] ++ repeat 1 20 ++ [1; 2; 3; 4] ++ repeat 7 12), 28. do 3 eexists. split; [reflexivity|]. split; [vm_compute; discriminate|].
    split; [vm_compute; reflexivity|]. split; [vm_compute; discriminate|]. left. reflexivity.
Qed.
Print Assumptions C81_v6_refuted.
(** It is right when fewer than 4 bytes follow the last whole address. *)
Theorem C81_v6_partial : forall b size, rd16 b 2 = Some size -> 24 <= size <= blen b -> (size - 24) mod 16 < 4 ->
  mid_chgestruct true b = Some (slice b 4 16, me_to_reltime (be (slice b 1 1)), rev (body true b size)).
Proof.
  intros b size R H M. apply (parse_ok true b size R H). unfold mid_count, header, addr_len. rewrite Z.quot_div_nonneg by lia. lia.
Qed.
Print Assumptions C81_v6_partial.
Example C81_v6_example : rd16 ([3; 134; 0; 40] ++ repeat 1 20 ++ repeat 5 16) 2 = Some 40 /\ (40 - 24) mod 16 = 0 /\ body true ([3; 134; 0; 40] ++ repeat 1 20 ++ repeat 5 16) 40 = [repeat 5 16].
Proof. repeat split; reflexivity. Qed.

(** Theorems about the routes for several uplinks (src/gateway.c, multi-gateway mode). *)
From Coq Require Import String.
From Verif Require Import Base Regex GwSpeed Egress EgressRunProofs MultiGw MultiGwSpec MultiGwProofs MultiGwRunProofs MultiGwReachProofs MultiGwPickProofs.

(** ** runs for the examples *)
Definition ex_C : mcfg := mkMc 254 90 (mkGc 1 1 1 5 2560) (fun _ => None).
Definition ex_W : world := mkW (fun i => 0 <? i) (fun _ _ => true) false.
Definition ex_xs : list (list Z * Z * bool) := [(str "eth0", 2, true); (str "ppp0", 3, true)].
Definition smoothb (o : option gop) (g g' : mgw) : bool :=
  match o with
  | None => forallb (fun m => negb (e_up (m_e m)) || (0 <? e_index (m_e m))) (g_ifs g)
  | Some (IfChange i false (IfAdd (Some name))) => (0 <? i) && forallb (fun m => negb (leqb (e_name (m_e m)) name) || negb (e_up (m_e m)) || (e_index (m_e m) =? i)) (g_ifs g)
  | Some LoseGw => false
  | _ => true
  end && forallb (fun m => negb (net_eqb (b_net (e_cur (m_e m))) (Some (0, 0)))) (g_ifs g').
Lemma smoothb_ok o g F g' : smoothb o g g' = true -> steady o ex_W g F g'.
Proof.
  unfold smoothb. intros H. apply andb_prop in H. destruct H as [H1 H2]. split.
  - split; [reflexivity|]. split; [reflexivity|]. split.
    + destruct o as [[f|i [|] [[name|]| |]|c|]|]; try exact I.
      * apply andb_prop in H1. destruct H1 as [H0 H1]. split; [lia|]. rewrite forallb_forall in H1. intros m Hm E U. specialize (H1 m Hm). apply leqb_ok in E. rewrite E, U in H1. cbn in H1. lia.
      * rewrite forallb_forall in H1. intros m Hm U. specialize (H1 m Hm). rewrite U in H1. cbn in H1. lia.
    + rewrite forallb_forall in H2. intros m Hm E. specialize (H2 m Hm). rewrite E in H2. discriminate.
  - intros E. rewrite E in H1. discriminate.
Qed.
Definition upb (qs : list req) : bool := forallb (fun q => 0 <? r_if (snd (fst q))) qs.
Lemma kreqs_in qs : forall F t d r, kreqs F qs t d = Some r -> F t d = Some r \/ exists a, In (a, r, true) qs.
Proof.
  unfold kreqs. induction qs as [|q qs IH]; intros F t d r H; cbn [fold_left] in H; [now left|]. destruct (IH _ _ _ _ H) as [X|(a & X)]; [|right; exists a; now right].
  destruct q as [[[|] x] [|]]; cbn [kreq] in X; try (left; exact X).
  - destruct (is_key x t d); [|now left]. apply Some_inj in X. subst x. right. exists true. now left.
  - destruct (is_key x t d); [|now left]. destruct (F t d) as [y|]; [|discriminate]. destruct (rt_eqb y x); [discriminate|now left].
Qed.
Lemma upb_ok o qs g g' : upb qs = true -> tidy o ex_W g (kreqs nofib qs) g'.
Proof.
  intros H. split; [reflexivity|]. intros t d r E. apply kreqs_in in E. destruct E as [E|(a & E)]; [discriminate|]. unfold upb in H. rewrite forallb_forall in H. exact (H _ E).
Qed.
Definition both (o : option gop) (W : world) (g : mgw) (F : fib) (g' : mgw) : Prop := steady o W g F g' /\ tidy o W g F g'.
Fixpoint run (C : mcfg) (os : list gop) (g : mgw) (qs : list req) : option (mgw * list req) :=
  match os with
  | [] => Some (g, qs)
  | o :: os' => let (g', t) := gstep C ex_W o g in if smoothb (Some o) g g' && upb qs then run C os' g' (qs ++ t) else None
  end.
Definition go (C : mcfg) (xs : list (list Z * Z * bool)) (f : found) (os : list gop) : option (mgw * list req) :=
  let (g, t) := startup C ex_W f (init C xs) in if smoothb None (init C xs) g then run C os g t else None.
Lemma run_reach C os : forall g qs g' qs', reach C both false g (kreqs nofib qs) -> run C os g qs = Some (g', qs') -> reach C both false g' (kreqs nofib qs').
Proof.
  induction os as [|o os IH]; intros g qs g' qs' R E; cbn [run] in E; [apply Some_inj in E; inversion E; now subst|].
  pose proof (reach_step C both false g (kreqs nofib qs) ex_W o R) as S. destruct (gstep C ex_W o g) as [g1 t]. cbn [fst snd] in S. destruct (smoothb (Some o) g g1) eqn:B; cbn [andb] in E; [|discriminate]. destruct (upb qs) eqn:U; [|discriminate].
  apply (IH g1 (qs ++ t) g' qs'); [|exact E]. rewrite kreqs_app. apply S. split; [now apply smoothb_ok|now apply upb_ok].
Qed.
Lemma go_reach C xs f os g qs : go C xs f os = Some (g, qs) -> reach C both false g (kreqs nofib qs).
Proof.
  unfold go. pose proof (reach_start C both false xs ex_W f) as S. destruct (startup C ex_W f (init C xs)) as [g1 t]. cbn [fst snd] in S. destruct (smoothb None (init C xs) g1) eqn:B; [|discriminate].
  apply run_reach. apply S. split; [now apply smoothb_ok|now apply (upb_ok None [])].
Qed.
Lemma reach_mono C (A B : option gop -> world -> mgw -> fib -> mgw -> Prop) fl g F : (forall o W g F g', A o W g F g' -> B o W g F g') -> reach C A fl g F -> reach C B fl g F.
Proof. intros H. induction 1; [apply reach_start; now apply H|apply reach_step; [assumption|now apply H]|now apply reach_flush]. Qed.
Lemma go_steady C xs f os g qs : go C xs f os = Some (g, qs) -> reach C steady false g (kreqs nofib qs).
Proof. intros E. apply go_reach in E. eapply reach_mono; [|exact E]. intros o W g0 F g' H. apply H. Qed.
Lemma go_smooth C xs f os g qs : go C xs f os = Some (g, qs) -> reach C smooth false g (kreqs nofib qs).
Proof. intros E. apply go_reach in E. eapply reach_mono; [|exact E]. intros o W g0 F g' H. apply H. Qed.
Lemma go_tidy C xs f os g qs : go C xs f os = Some (g, qs) -> reach C tidy false g (kreqs nofib qs).
Proof. intros E. apply go_reach in E. eapply reach_mono; [|exact E]. intros o W g0 F g' H. apply H. Qed.
(** eth0 is slow, ppp0 is fast and has a network and a gateway; then ppp0 goes down and up,
    a gateway is found, and the file changes *)
Definition ex_f1 : found := File (1, 0) (str "eth0=0,0,1000,1000" ++ [10] ++ str "ppp0=1,1,8000,8000,0,10.1.0.0/16,10.1.0.1" ++ [10]).
Definition ex_f2 : found := File (2, 0) (str "eth0=0,0,9000,9000" ++ [10] ++ str "ppp0=1,1,8000,8000,0,10.1.0.0/16,10.1.0.1" ++ [10]).
Definition ex_os : list gop := [IfChange 3 false IfRemove; IfChange 3 false (IfAdd (Some (str "ppp0"))); SetGw (mkGw 167772161 9000000 (Some 7)); Poll ex_f2].
Definition ex_run : option (mgw * list req) := go ex_C ex_xs ex_f1 ex_os.
Lemma ex_smooth g qs : ex_run = Some (g, qs) -> reach ex_C smooth false g (kreqs nofib qs).
Proof. unfold ex_run. apply go_smooth. Qed.
Lemma ex_steady g qs : ex_run = Some (g, qs) -> reach ex_C steady false g (kreqs nofib qs).
Proof. unfold ex_run. apply go_steady. Qed.
Lemma ex_tidy g qs : ex_run = Some (g, qs) -> reach ex_C tidy false g (kreqs nofib qs).
Proof. unfold ex_run. apply go_tidy. Qed.
Lemma tables_dec C g : NoDup (mc_rt C :: mc_off C :: map m_table (g_ifs g)) -> tables_ok C g.
Proof. exact (fun x => x). Qed.
Ltac nodup := repeat (apply NoDup_cons; [cbn; intuition discriminate|]); apply NoDup_nil.

(** ** C113 *)
(** The best uplink is the first of the cheapest usable interfaces.  Partial: requests
    succeed, interfaces that are up are running, and the tables are different. *)
Theorem C113_best_partial C g F : weights_ok (mc_w C) -> reach C smooth false g F -> tables_ok C g ->
  match g_best g with Some i => cheapest (g_ifs g) i | None => forall m, In m (g_ifs g) -> ~ usable m end.
Proof. apply reach_best. Qed.
Print Assumptions C113_best_partial.
Example C113_best_ex : exists g F, reach ex_C smooth false g F /\ tables_ok ex_C g /\ g_best g = Some 0%nat /\ length (g_ifs g) = 2%nat.
Proof.
  destruct ex_run as [[g qs]|] eqn:E; [|vm_compute in E; discriminate]. exists g, (kreqs nofib qs). split; [exact (ex_smooth _ _ E)|].
  vm_compute in E. inversion E. split; [apply tables_dec; nodup|]. split; reflexivity.
Qed.
(** In every state the costs are those of the values of the egress file, and an interface
    that is down has the highest costs. *)
Theorem C113_costs C A fl g F m : weights_ok (mc_w C) -> reach C A fl g F -> In m (g_ifs g) ->
  m_costs m = gw_costs_weigh (mc_w C) (e_up (m_e m)) (b_cost (e_cur (m_e m))) (b_up (e_cur (m_e m))) (b_down (e_cur (m_e m))) /\ 0 <= m_costs m <= INT64_MAX.
Proof.
  intros Wk R Hm. pose proof (reach_ranged C A fl g F R) as Rg. split; [|now apply (ranged_costs C g)]. unfold ranged in Rg. rewrite Forall_forall in Rg. apply (Rg m Hm).
Qed.
Print Assumptions C113_costs.
Example C113_costs_ex : exists g F m, reach ex_C smooth false g F /\ In m (g_ifs g) /\ e_up (m_e m) = true /\ b_up (e_cur (m_e m)) = 9000.
Proof.
  destruct ex_run as [[g qs]|] eqn:E; [|vm_compute in E; discriminate]. pose proof (ex_smooth _ _ E) as R.
  destruct (nth_error (g_ifs g) 0) as [m|] eqn:Em; [|vm_compute in E; inversion E; subst; discriminate]. exists g, (kreqs nofib qs), m. split; [exact R|]. split; [now apply nth_error_In in Em|].
  vm_compute in E. inversion E. subst g. vm_compute in Em. inversion Em. split; reflexivity.
Qed.
(** The best link is an interface exactly when the gateway is not cheaper.  Partial: as
    above, and the gateway is not lost. *)
Theorem C113_overall_partial C g F : weights_ok (mc_w C) -> reach C steady false g F -> tables_ok C g -> (forall c, g_gw g = Some c -> gw_cost c <= INT64_MAX) ->
  choice (g_ifs g) (offered g) (link g).
Proof. apply reach_link. Qed.
Print Assumptions C113_overall_partial.
Example C113_overall_ex : exists g F, reach ex_C steady false g F /\ tables_ok ex_C g /\ link g = Some (inl 0%nat) /\ (exists c, offered g = Some c).
Proof.
  destruct ex_run as [[g qs]|] eqn:E; [|vm_compute in E; discriminate]. exists g, (kreqs nofib qs). split; [exact (ex_steady _ _ E)|].
  vm_compute in E. inversion E. split; [apply tables_dec; nodup|]. split; [reflexivity|]. eexists. reflexivity.
Qed.
(** The speeds that are announced need not be those of the best uplink. *)
Definition ex_f3 : found := File (1, 0) (str "eth0=0,0,1000,8000").
Definition ex_f4 : found := File (2, 0) (str "eth0=0,0,8000,1000").
Theorem C113_announce_refuted : exists C g F m, weights_ok (mc_w C) /\ reach C steady false g F /\ tables_ok C g /\ nth_if (g_ifs g) (g_best g) = Some m /\
  g_up g <> b_up (e_cur (m_e m)) /\ g_down g <> b_down (e_cur (m_e m)).
Proof.
  destruct (go ex_C ex_xs ex_f3 [Poll ex_f4]) as [[g qs]|] eqn:E; [|vm_compute in E; discriminate]. pose proof (go_steady _ _ _ _ _ _ E) as R.
  destruct (nth_if (g_ifs g) (g_best g)) as [m|] eqn:Em; [|vm_compute in E; inversion E; subst; discriminate].
  exists ex_C, g, (kreqs nofib qs), m. split; [unfold weights_ok; cbn; lia|]. split; [exact R|]. vm_compute in E. inversion E. subst g. split; [apply tables_dec; nodup|]. split; [exact Em|]. vm_compute in Em. inversion Em. split; discriminate.
Qed.
Print Assumptions C113_announce_refuted.
(** When the divider is 0 then an interface that is not in the file is preferred. *)
Definition ex_C0 : mcfg := mkMc 254 90 (mkGc 1 1 1 0 2560) (fun _ => None).
Definition ex_f5 : found := File (1, 0) (str "eth0=0,0,8000,8000,1").
Theorem C113_absent_refuted : exists C g F m m', weights_ok (mc_w C) /\ reach C steady false g F /\ tables_ok C g /\ nth_if (g_ifs g) (g_best g) = Some m /\
  e_in (m_e m) = false /\ b_up (e_cur (m_e m)) = 0 /\ In m' (g_ifs g) /\ e_in (m_e m') = true /\ usable m' /\ 0 < b_up (e_cur (m_e m')).
Proof.
  destruct (go ex_C0 ex_xs ex_f5 []) as [[g qs]|] eqn:E; [|vm_compute in E; discriminate]. pose proof (go_steady _ _ _ _ _ _ E) as R.
  destruct (nth_if (g_ifs g) (g_best g)) as [m|] eqn:Em; [|vm_compute in E; inversion E; subst; discriminate].
  destruct (nth_error (g_ifs g) 0) as [m'|] eqn:Em'; [|vm_compute in E; inversion E; subst; discriminate].
  exists ex_C0, g, (kreqs nofib qs), m, m'. split; [unfold weights_ok; cbn; lia|]. split; [exact R|]. pose proof (nth_error_In _ _ Em') as Hi. vm_compute in E. inversion E. subst g. split; [apply tables_dec; nodup|]. split; [exact Em|]. vm_compute in Em. inversion Em. split; [reflexivity|]. split; [reflexivity|]. split; [exact Hi|].
  vm_compute in Em'. inversion Em'. split; [reflexivity|]. split; [split; reflexivity|reflexivity].
Qed.
Print Assumptions C113_absent_refuted.

(** ** C114 *)
(** Every route in the kernel is one that is on record.  Partial: deletions succeed and
    there are no routes over interfaces that are not up. *)
Theorem C114_stale_partial C fl g F t d r : reach C tidy fl g F -> F t d = Some r -> recorded g r /\ r_table r = t /\ r_dst r = d.
Proof. intros R E. destruct (reach_covered C fl g F R t d r E) as (A & B & D). now repeat split. Qed.
Print Assumptions C114_stale_partial.
Example C114_stale_ex : exists g F r, reach ex_C tidy false g F /\ F 92 (0, 0) = Some r.
Proof.
  destruct ex_run as [[g qs]|] eqn:E; [|vm_compute in E; discriminate]. pose proof (ex_tidy _ _ E) as R.
  destruct (kreqs nofib qs 92 (0, 0)) as [r|] eqn:Er; [|vm_compute in E; inversion E; subst; vm_compute in Er; discriminate]. exists g, (kreqs nofib qs), r. now split.
Qed.
(** After shutdown no route is left.  Partial: as above. *)
Theorem C114_shutdown_partial C W fl g F t d : reach C tidy fl g F -> tidy None W g F g -> w_up W 0 = false -> kreqs F (snd (shutdown C W g)) t d = None.
Proof. intros R T U. exact (shutdown_empty C W fl g F R T U t d). Qed.
Print Assumptions C114_shutdown_partial.
Example C114_shutdown_ex : exists g F, reach ex_C tidy false g F /\ tidy None ex_W g F g /\ w_up ex_W 0 = false /\ F 92 (167837696, 16) <> None /\ F 254 (0, 1) <> None.
Proof.
  destruct ex_run as [[g qs]|] eqn:E; [|vm_compute in E; discriminate]. exists g, (kreqs nofib qs). split; [exact (ex_tidy _ _ E)|].
  assert (U : upb qs = true) by (vm_compute in E; inversion E; reflexivity). split; [now apply upb_ok|]. split; [reflexivity|]. vm_compute in E. inversion E. split; vm_compute; discriminate.
Qed.
(** When an interface is not running any more and the kernel keeps its routes then they
    stay and are not on record. *)
Definition ex_W1 : world := mkW (fun i => i =? 2) (fun _ _ => true) false.
Theorem C114_carrier_refuted : exists C g F t d r, reach C (fun _ W _ _ _ => forall a r, w_ok W a r = true) false g F /\ F t d = Some r /\ ~ recorded g r.
Proof.
  set (A := fun (_ : option gop) (W : world) (_ : mgw) (_ : fib) (_ : mgw) => forall a r, w_ok W a r = true).
  pose proof (reach_start ex_C A false ex_xs ex_W ex_f1 (fun _ _ => eq_refl)) as R0.
  pose proof (reach_step ex_C A false _ _ ex_W1 (IfChange 3 false IfRemove) R0 (fun _ _ => eq_refl)) as R1.
  set (x := startup ex_C ex_W ex_f1 (init ex_C ex_xs)) in *.
  set (y := gstep ex_C ex_W1 (IfChange 3 false IfRemove) (fst x)) in *.
  destruct (kreqs (kreqs nofib (snd x)) (snd y) 92 (0, 0)) as [r|] eqn:Er; [|vm_compute in Er; discriminate].
  exists ex_C, (fst y), (kreqs (kreqs nofib (snd x)) (snd y)), 92, (0, 0), r. split; [exact R1|]. split; [exact Er|].
  vm_compute in Er. apply Some_inj in Er. subst r. intros H. destruct y as [g t] eqn:Ey. vm_compute in Ey. inversion Ey. subst g. clear - H. cbn [fst] in H. unfold recorded, m_holds, holds in H. cbn [g_broute g_ovr g_ifs fst snd ri_act ri_rt] in H.
  destruct H as [[_ H]|[[_ H]|[[_ H]|(m & [<-|[<-|[]]] & [[H1 H]|[H1 H]])]]]; cbn in *; discriminate.
Qed.
Print Assumptions C114_carrier_refuted.
(** When no uplink is usable the route that rejects everything is on record, but not in the
    kernel. *)
Theorem C114_blackhole_refuted : exists C g F r, reach C steady false g F /\ tables_ok C g /\ recorded g r /\ r_black r = true /\ r_table r = mc_off C /\ r_dst r = (0, 0) /\ F (mc_off C) (0, 0) = None.
Proof.
  destruct (go ex_C ex_xs NoFile []) as [[g qs]|] eqn:E; [|vm_compute in E; discriminate]. pose proof (go_steady _ _ _ _ _ _ E) as R.
  exists ex_C, g, (kreqs nofib qs), (mkRt 90 4 0 0 None (0, 0) true). split; [exact R|]. vm_compute in E. inversion E. split; [apply tables_dec; nodup|]. split; [left; split; reflexivity|]. repeat split.
Qed.
Print Assumptions C114_blackhole_refuted.

(** ** C115 *)
(** The table of an interface has the route to its network, and a default route over its
    gateway, exactly when they are wanted.  Partial: as above. *)
Theorem C115_net_partial C g F m d : reach C smooth false g F -> tables_ok C g -> In m (g_ifs g) -> d <> (0, 0) ->
  match F (m_table m) d with Some r => net_wanted m d /\ goes (m_table m) d (e_index (m_e m)) None r | None => ~ net_wanted m d end.
Proof. apply reach_net. Qed.
Print Assumptions C115_net_partial.
Example C115_net_ex : exists g F m, reach ex_C smooth false g F /\ tables_ok ex_C g /\ In m (g_ifs g) /\ net_wanted m (167837696, 16).
Proof.
  destruct ex_run as [[g qs]|] eqn:E; [|vm_compute in E; discriminate]. pose proof (ex_smooth _ _ E) as R.
  destruct (nth_error (g_ifs g) 1) as [m|] eqn:Em; [|vm_compute in E; inversion E; subst; discriminate]. exists g, (kreqs nofib qs), m. split; [exact R|]. pose proof (nth_error_In _ _ Em) as Hi.
  vm_compute in E. inversion E. subst g. split; [apply tables_dec; nodup|]. split; [exact Hi|]. vm_compute in Em. inversion Em. repeat split.
Qed.
Theorem C115_default_partial C g F m : reach C smooth false g F -> tables_ok C g -> In m (g_ifs g) ->
  match F (m_table m) (0, 0) with Some r => def_wanted m /\ goes (m_table m) (0, 0) (e_index (m_e m)) (b_gw (e_cur (m_e m))) r | None => ~ def_wanted m end.
Proof. apply reach_def. Qed.
Print Assumptions C115_default_partial.
Example C115_default_ex : exists g F m, reach ex_C smooth false g F /\ tables_ok ex_C g /\ In m (g_ifs g) /\ def_wanted m /\ net_wanted m (167837696, 16).
Proof.
  destruct ex_run as [[g qs]|] eqn:E; [|vm_compute in E; discriminate]. pose proof (ex_smooth _ _ E) as R.
  destruct (nth_error (g_ifs g) 1) as [m|] eqn:Em; [|vm_compute in E; inversion E; subst; discriminate]. exists g, (kreqs nofib qs), m. split; [exact R|]. pose proof (nth_error_In _ _ Em) as Hi.
  vm_compute in E. inversion E. subst g. split; [apply tables_dec; nodup|]. split; [exact Hi|]. vm_compute in Em. inversion Em. split; [split; [reflexivity|discriminate]|repeat split].
Qed.
(** The table of the best uplink has its default route, and none when there is no uplink. *)
Theorem C115_best_partial C g F : reach C smooth false g F -> tables_ok C g ->
  match nth_if (g_ifs g) (g_best g) with
  | Some m => exists r, F (mc_off C) (0, 0) = Some r /\ goes (mc_off C) (0, 0) (e_index (m_e m)) (b_gw (e_cur (m_e m))) r
  | None => F (mc_off C) (0, 0) = None
  end.
Proof. apply reach_off. Qed.
Print Assumptions C115_best_partial.
Example C115_best_ex : exists g F, reach ex_C smooth false g F /\ tables_ok ex_C g /\ g_best g = Some 0%nat.
Proof.
  destruct ex_run as [[g qs]|] eqn:E; [|vm_compute in E; discriminate]. exists g, (kreqs nofib qs). split; [exact (ex_smooth _ _ E)|].
  vm_compute in E. inversion E. split; [apply tables_dec; nodup|reflexivity].
Qed.
(** Both halves of the default route go over the interface of the best link, and there are
    no such routes when there is none. *)
Theorem C115_override_partial C g F dst : reach C steady false g F -> tables_ok C g -> dst = (0, 1) \/ dst = (2147483648, 1) ->
  (link_if g = 0 -> F (mc_rt C) dst = None) /\ (0 < link_if g -> exists r, F (mc_rt C) dst = Some r /\ r_table r = mc_rt C /\ r_dst r = dst /\ r_if r = link_if g).
Proof. apply reach_over. Qed.
Print Assumptions C115_override_partial.
Example C115_override_ex : exists g F, reach ex_C steady false g F /\ tables_ok ex_C g /\ link_if g = 7.
Proof.
  destruct (go ex_C ex_xs ex_f1 [SetGw (mkGw 167772161 90 (Some 7))]) as [[g qs]|] eqn:E; [|vm_compute in E; discriminate]. exists g, (kreqs nofib qs). split; [exact (go_steady _ _ _ _ _ _ E)|].
  vm_compute in E. inversion E. split; [apply tables_dec; nodup|reflexivity].
Qed.
(** When the gateway of the best uplink changes then the halves of the default route keep
    the old one. *)
Definition ex_f6 : found := File (2, 0) (str "ppp0=1,1,8000,8000,0,10.1.0.0/16,10.1.0.2").
Theorem C115_gateway_refuted : exists C g F i m r, reach C steady false g F /\ tables_ok C g /\ link g = Some (inl i) /\ nth_error (g_ifs g) i = Some m /\
  F (mc_rt C) (0, 1) = Some r /\ r_if r = e_index (m_e m) /\ r_gw r <> b_gw (e_cur (m_e m)).
Proof.
  destruct (go ex_C ex_xs ex_f1 [Poll ex_f6]) as [[g qs]|] eqn:E; [|vm_compute in E; discriminate]. pose proof (go_steady _ _ _ _ _ _ E) as R.
  destruct (nth_error (g_ifs g) 1) as [m|] eqn:Em; [|vm_compute in E; inversion E; subst; discriminate].
  destruct (kreqs nofib qs 254 (0, 1)) as [r|] eqn:Er; [|vm_compute in E; inversion E; subst; vm_compute in Er; discriminate].
  exists ex_C, g, (kreqs nofib qs), 1%nat, m, r. split; [exact R|]. assert (L : tables_ok ex_C g /\ link g = Some (inl 1%nat)) by (vm_compute in E; inversion E; split; [apply tables_dec; nodup|reflexivity]).
  destruct L as [T L]. split; [exact T|]. split; [exact L|]. split; [exact Em|]. split; [exact Er|]. vm_compute in E. inversion E. subst g qs. vm_compute in Em. inversion Em. vm_compute in Er. inversion Er. split; [reflexivity|discriminate].
Qed.
Print Assumptions C115_gateway_refuted.
(** When an interface gets a new index while it is up then its routes keep the old one. *)
Theorem C115_index_refuted : exists C g F m r, reach C (fun _ W _ _ _ => (forall a r, w_ok W a r = true) /\ (forall i, w_up W i = (0 <? i))) false g F /\ tables_ok C g /\
  In m (g_ifs g) /\ def_wanted m /\ F (m_table m) (0, 0) = Some r /\ r_if r <> e_index (m_e m).
Proof.
  set (A := fun (_ : option gop) (W : world) (_ : mgw) (_ : fib) (_ : mgw) => (forall a r, w_ok W a r = true) /\ (forall i, w_up W i = (0 <? i))).
  assert (Aw : forall o g F g', A o ex_W g F g') by (intros; split; reflexivity).
  pose proof (reach_start ex_C A false ex_xs ex_W ex_f1 (Aw _ _ _ _)) as R0.
  pose proof (reach_step ex_C A false _ _ ex_W (IfChange 9 false (IfAdd (Some (str "ppp0")))) R0 (Aw _ _ _ _)) as R1.
  set (x := startup ex_C ex_W ex_f1 (init ex_C ex_xs)) in *.
  set (y := gstep ex_C ex_W (IfChange 9 false (IfAdd (Some (str "ppp0")))) (fst x)) in *.
  destruct (nth_error (g_ifs (fst y)) 1) as [m|] eqn:Em; [|vm_compute in Em; discriminate].
  destruct (kreqs (kreqs nofib (snd x)) (snd y) 92 (0, 0)) as [r|] eqn:Er; [|vm_compute in Er; discriminate].
  exists ex_C, (fst y), (kreqs (kreqs nofib (snd x)) (snd y)), m, r. split; [exact R1|]. split; [apply tables_dec; vm_compute; nodup|]. split; [exact (nth_error_In _ _ Em)|].
  assert (T : m_table m = 92) by (vm_compute in Em; inversion Em; reflexivity). rewrite T. split; [|split; [exact Er|]].
  - vm_compute in Em. inversion Em. split; [reflexivity|discriminate].
  - vm_compute in Em. inversion Em. vm_compute in Er. inversion Er. discriminate.
Qed.
Print Assumptions C115_index_refuted.
(** The tables of the interfaces are the numbers after the offset, if they fit into 8 bits. *)
Theorem C115_offset_partial C xs W f os : let g := fold_left (fun g wo => fst (gstep C (fst wo) (snd wo) g)) os (fst (startup C W f (init C xs))) in
  0 < mc_off C -> mc_off C + Z.of_nat (length xs) <= 255 -> (mc_rt C < mc_off C \/ mc_off C + Z.of_nat (length xs) < mc_rt C) ->
  tables_ok C g /\ forall i m, nth_error (g_ifs g) i = Some m -> m_table m = mc_off C + 1 + Z.of_nat i.
Proof.
  intros g0 H1 H2 H3. unfold g0. clear g0.
  assert (T0 : forall os g, map m_table (g_ifs (fold_left (fun g wo => fst (gstep C (fst wo) (snd wo) g)) os g)) = map m_table (g_ifs g)).
  { induction os0 as [|o os0 IH]; intros g; cbn [fold_left]; [reflexivity|]. rewrite IH. apply step_tables. }
  assert (T1 : forall xs n i, mc_off C + Z.of_nat n + Z.of_nat (length xs) <= 255 -> nth_error (map m_table (init_ifs C n xs)) i = if (i <? length xs)%nat then Some (mc_off C + 1 + Z.of_nat n + Z.of_nat i) else None).
  { clear - H1. induction xs as [|[[name k] up] xs IH]; intros n i L; [destruct i; reflexivity|]. cbn [init_ifs map]. cbn [length] in *. destruct i as [|i]; cbn [nth_error].
    - cbn [init_if m_table]. cbn [Nat.ltb Nat.leb]. f_equal. unfold u8. rewrite Z.mod_small by lia. lia.
    - rewrite IH by lia. change (S i <? S (length xs))%nat with (i <? length xs)%nat. destruct (i <? length xs)%nat; [f_equal; lia|reflexivity]. }
  assert (T : forall i, nth_error (map m_table (g_ifs (fold_left (fun g wo => fst (gstep C (fst wo) (snd wo) g)) os (fst (startup C W f (init C xs)))))) i = if (i <? length xs)%nat then Some (mc_off C + 1 + Z.of_nat i) else None).
  { intros i. rewrite T0, start_tables. cbn [init g_ifs]. rewrite T1 by (cbn; lia). destruct (i <? length xs)%nat; [f_equal; lia|reflexivity]. }
  clear T0 T1. set (g := fold_left _ _ _) in *. clearbody g. split.
  - unfold tables_ok. assert (B : forall t, In t (map m_table (g_ifs g)) -> mc_off C < t <= mc_off C + Z.of_nat (length xs)).
    { intros t Ht. apply In_nth_error in Ht. destruct Ht as (i & Ei). rewrite T in Ei. destruct (Nat.ltb_spec i (length xs)); [|discriminate]. apply Some_inj in Ei. lia. }
    apply NoDup_cons; [intros [X|X]; [lia|apply B in X; lia]|]. apply NoDup_cons; [intros X; apply B in X; lia|].
    apply NoDup_nth_error. intros i j Li E. rewrite !T in E. destruct (Nat.ltb_spec i (length xs)) as [Ci|Ci].
    + destruct (Nat.ltb_spec j (length xs)); [|discriminate]. apply Some_inj in E. lia.
    + exfalso. apply nth_error_Some in Li. apply Li. rewrite T. now replace (i <? length xs)%nat with false by lia.
  - intros i m E. specialize (T i). rewrite nth_error_map, E in T. cbn [option_map] in T. destruct (i <? length xs)%nat; [|discriminate]. now apply Some_inj in T.
Qed.
Print Assumptions C115_offset_partial.
Example C115_offset_ex : 0 < mc_off ex_C /\ mc_off ex_C + Z.of_nat (length ex_xs) <= 255 /\ (mc_rt ex_C < mc_off ex_C \/ mc_off ex_C + Z.of_nat (length ex_xs) < mc_rt ex_C).
Proof. cbn. lia. Qed.
(** An offset that is accepted can lead to the main table. *)
Theorem C115_offset_refuted : exists C xs m, tables_accepted (mc_off C) (Z.of_nat (length xs)) 0 = true /\ In m (g_ifs (init C xs)) /\ m_table m = 254 /\ mc_off C <> 254.
Proof.
  exists (mkMc 254 508 (mkGc 1 1 1 5 2560) (fun _ => None)), ex_xs, (init_if (mkMc 254 508 (mkGc 1 1 1 5 2560) (fun _ => None)) 1 (str "ppp0", 3, true)).
  split; [reflexivity|]. split; [right; left; reflexivity|]. split; [reflexivity|discriminate].
Qed.
Print Assumptions C115_offset_refuted.

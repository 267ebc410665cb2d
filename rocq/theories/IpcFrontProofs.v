(** Proofs about the front end socket. *)
From Verif Require Import Base Parser ParserProofs IpCalc IpSpec IpProofs IpcFront IpcFrontSpec.

Lemma net4 peer n p : is_addr 4 peer -> is_addr 4 n -> 0 <= p <= 32 -> exists r, ip_in_net false (peer ++ repeat 0 8) n p = Some r /\ (r = true <-> same_prefix p peer n).
Proof.
  intros A B P. destruct (in_net_spec false peer n p A B P) as (r & E & R). exists r. split; [|exact R]. rewrite <- E.
  destruct A as (L & _). destruct peer as [|a [|b [|c [|d [|x t]]]]]; try discriminate. reflexivity.
Qed.
Lemma in_nets_may peer l : is_addr 4 peer -> Forall net_ok l -> exists r, in_nets false (peer ++ repeat 0 8) l = Some r /\ (r = true <-> exists n p, In (n, p) l /\ same_prefix p peer n).
Proof.
  intros A. induction l as [|[n p] l IH]; intros F; [exists false; split; [reflexivity|]; split; [discriminate|intros (n & p & [] & _)]|]. inversion F as [|? ? (F1 & F2) F3]; subst. cbn [fst snd] in *. cbn [in_nets].
  destruct (net4 peer n p A F1 F2) as (r & E & R). rewrite E. destruct r.
  - exists true. split; [reflexivity|]. split; [|reflexivity]. intros _. exists n, p. split; [left; reflexivity|]. now apply R.
  - destruct (IH F3) as (r & E2 & R2). exists r. split; [exact E2|]. rewrite R2. split; intros (n' & p' & J & K).
    + exists n', p'. split; [right; exact J|exact K].
    + destruct J as [J|J]; [injection J as -> ->; apply R in K; discriminate|]. exists n', p'. tauto.
Qed.
Lemma may_allowed c peer : i_v6 c = false -> is_addr 4 peer -> Forall net_ok (i_nets c) -> exists r, check_allowed c peer = Some r /\ (r = true <-> may (i_nets c) peer).
Proof.
  intros V A F. destruct (in_nets_may peer (i_nets c) A F) as (r & E & R). unfold check_allowed. rewrite V. destruct (bytes_eqb peer [127; 0; 0; 1]) eqn:B.
  - exists true. split; [reflexivity|]. split; [|reflexivity]. intros _. left. now apply bytes_eqb_spec.
  - exists r. split; [exact E|]. rewrite R. unfold may. split; [tauto|]. intros [X|X]; [|exact X]. subst peer. rewrite (proj2 (bytes_eqb_spec _ _) eq_refl) in B. discriminate.
Qed.
Lemma allowed_may c peer : i_v6 c = false -> is_addr 4 peer -> Forall net_ok (i_nets c) -> check_allowed c peer = Some true -> may (i_nets c) peer.
Proof. intros V A F H. destruct (may_allowed c peer V A F) as (r & E & R). apply R. congruence. Qed.

(** * Only hosts that may get anything *)
Lemma send_out ok fd b x : In x (fst (send ok fd b)) -> fst x = fd /\ 0 <= fd.
Proof. unfold send. destruct (ok && (0 <=? fd)) eqn:E; [|intros []]. intros [<-|[]]. cbn [fst]. apply andb_prop in E. lia. Qed.
Lemma routes_out ok fd l : forall i s s' o, send_routes ok fd i l s = Some (s', o) -> (forall x, In x o -> fst x = fd /\ 0 <= fd) /\ s_peers s' = s_peers s /\ (s_conn s' = s_conn s \/ s_conn s' = -1).
Proof.
  induction l as [|r l IH]; intros i s s' o H; cbn [send_routes] in H.
  - injection H as <- <-. split; [intros x []|]. tauto.
  - destruct (route_msg r) as [m|]; [|discriminate]. assert (SO := send_out (ok i) fd m). destruct (send (ok i) fd m) as [out good]. cbn [fst] in SO. destruct good.
    + destruct (send_routes ok fd (S i) l s) as [[s1 o1]|] eqn:E; [|discriminate]. injection H as <- <-. destruct (IH _ _ _ _ E) as (A & B & C). split; [|tauto]. intros x I. apply in_app_or in I. destruct I as [I|I]; [now apply SO|now apply A].
    + injection H as <- <-. split; [intros x []|]. cbn. tauto.
Qed.
Section safe.
Variable c : icfg.
Hypothesis V4 : i_v6 c = false.
Hypothesis NOK : Forall net_ok (i_nets c).
Definition goodfd (s : ist) (fd : Z) : Prop := 0 <= fd -> exists p, nth_error (s_peers s) (Z.to_nat fd) = Some p /\ may (i_nets c) p.
Lemma step_safe w s e w' s' o : addr4 e -> goodfd s (s_conn s) -> step c w s e = Some (Runs w' s' o) ->
  goodfd s' (s_conn s') /\ (exists t, s_peers s' = s_peers s ++ t) /\ (forall x, In x o -> 0 <= fst x /\ goodfd s' (fst x)).
Proof.
  intros A G H. destruct e as [peer ok|m ok|w1]; cbn [step] in H.
  - unfold accept in H. destruct (i_limit c <=? Z.of_nat (length (s_open s))); [discriminate|]. destruct (check_allowed c peer) as [[]|] eqn:CA; [| |discriminate].
    + apply allowed_may in CA; try assumption. set (fd := Z.of_nat (length (s_peers s))) in *. cbn [s_open s_peers] in H.
      assert (GF : forall s9, s_peers s9 = s_peers s ++ [peer] -> goodfd s9 fd).
      { intros s9 E _. exists peer. split; [|exact CA]. rewrite E. unfold fd. rewrite Nat2Z.id, nth_error_app2 by lia. rewrite Nat.sub_diag. reflexivity. }
      assert (S1 := send_out (ok 0%nat) fd (net_msg c w)). destruct (send (ok 0%nat) fd (net_msg c w)) as [o1 good]. cbn [fst] in S1.
      set (s3 := if good then mkS fd true (fd :: s_open s) (s_peers s ++ [peer]) else close_conn (mkS fd true (fd :: s_open s) (s_peers s ++ [peer]))) in *.
      assert (P3 : s_peers s3 = s_peers s ++ [peer]) by (unfold s3; destruct good; reflexivity). assert (C3 : s_conn s3 = fd \/ s_conn s3 = -1) by (unfold s3; destruct good; cbn; tauto).
      destruct (send_routes ok (s_conn s3) 1 (w_routes w) s3) as [[s4 o2]|] eqn:E; [|discriminate]. injection H as <- <- <-. destruct (routes_out _ _ _ _ _ _ _ E) as (R1 & R2 & R3).
      assert (P4 : s_peers s4 = s_peers s ++ [peer]) by congruence. split; [|split].
      * destruct R3 as [R3|R3], C3 as [C3|C3]; rewrite R3, ?C3; try (apply GF; exact P4); intros X; lia.
      * exists [peer]. exact P4.
      * intros x I. apply in_app_or in I. destruct I as [I|I].
        -- destruct (S1 _ I) as (-> & X). split; [exact X|]. apply GF. exact P4.
        -- destruct (R1 _ I) as (-> & X). split; [exact X|]. destruct C3 as [C3|C3]; [rewrite C3; apply GF; exact P4|lia].
    + injection H as <- <- <-. split; [intros X; cbn in X; lia|]. split; [exists [peer]; reflexivity|intros x []].
  - destruct (msgparser s m ok) as [[s1 o1]|] eqn:E; [|discriminate]. injection H as <- <- <-. unfold msgparser in E. destruct (negb (s_active s)).
    + injection E as <- <-. split; [exact G|]. split; [exists []; now rewrite app_nil_r|intros x []].
    + destruct (Z.of_nat (length m) <? _); [discriminate|]. assert (S1 := send_out ok (s_conn s) (firstn (Z.to_nat (nth 2 m 0 * 256 + nth 3 m 0)) m)). destruct (send ok (s_conn s) _) as [o2 good] eqn:ES. cbn [fst] in S1. injection E as <- <-.
      destruct good.
      * split; [exact G|]. split; [exists []; now rewrite app_nil_r|]. intros x I. destruct (S1 _ I) as (-> & X). split; [exact X|exact G].
      * split; [intros X; cbn in X; lia|]. split; [exists []; cbn; now rewrite app_nil_r|]. unfold send in ES. destruct (ok && (0 <=? s_conn s)); [discriminate|]. injection ES as <-. intros x [].
  - injection H as <- <- <-. split; [exact G|]. split; [exists []; now rewrite app_nil_r|intros x []].
Qed.
Lemma goodfd_app s s' fd t : s_peers s' = s_peers s ++ t -> goodfd s fd -> goodfd s' fd.
Proof. intros E G X. destruct (G X) as (p & N & M). exists p. split; [|exact M]. rewrite E, nth_error_app1; [exact N|]. apply nth_error_Some. congruence. Qed.
Theorem run_safe l : forall w s w' s' o, Forall addr4 l -> goodfd s (s_conn s) -> run c w s l = Some (Runs w' s' o) ->
  (exists t, s_peers s' = s_peers s ++ t) /\ (forall x, In x o -> 0 <= fst x /\ goodfd s' (fst x)).
Proof.
  induction l as [|e l IH]; intros w s w' s' o F G H; cbn [run] in H.
  - injection H as <- <- <-. split; [exists []; now rewrite app_nil_r|intros x []].
  - inversion F as [|? ? F1 F2]; subst. destruct (step c w s e) as [[w1 s1 o1|]|] eqn:E; try discriminate. destruct (step_safe _ _ _ _ _ _ F1 G E) as (A & (t1 & B) & C).
    destruct (run c w1 s1 l) as [[w2 s2 o2|]|] eqn:E2; try discriminate. injection H as <- <- <-. destruct (IH _ _ _ _ _ F2 A E2) as ((t2 & B2) & C2). split.
    + exists (t1 ++ t2). now rewrite B2, B, app_assoc.
    + intros x I. apply in_app_or in I. destruct I as [I|I]; [|now apply C2]. destruct (C _ I) as (X & Y). split; [exact X|]. eapply goodfd_app; eassumption.
Qed.
End safe.
Lemma peers_of c l : forall w s w' s' o, run c w s l = Some (Runs w' s' o) -> s_peers s' = s_peers s ++ flat_map (fun e => match e with Connect p _ => [p] | _ => [] end) l.
Proof.
  induction l as [|e l IH]; intros w s w' s' o H; cbn [run flat_map] in *; [injection H as <- <- <-; now rewrite app_nil_r|].
  destruct (step c w s e) as [[w1 s1 o1|]|] eqn:E; try discriminate. destruct (run c w1 s1 l) as [[w2 s2 o2|]|] eqn:E2; try discriminate. injection H as <- <- <-. rewrite (IH _ _ _ _ _ E2), app_assoc. f_equal.
  destruct e as [p ok|m ok|w3]; cbn [step] in E.
  - unfold accept in E. destruct (i_limit c <=? _); [discriminate|]. destruct (check_allowed c p) as [[]|]; [| |discriminate].
    + cbn [s_open s_peers] in E. destruct (send _ _ _) as [oa good]. destruct (send_routes _ _ _ _ _) as [[s4 ob]|] eqn:ER; [|discriminate]. injection E as <- <- <-. apply routes_out in ER. destruct ER as (_ & RP & _). rewrite RP. destruct good; reflexivity.
    + injection E as <- <- <-. reflexivity.
  - destruct (msgparser s m ok) as [[s9 o9]|] eqn:EM; [|discriminate]. injection E as <- <- <-. unfold msgparser in EM. destruct (negb (s_active s)); [injection EM as <- <-; now rewrite app_nil_r|]. destruct (_ <? _); [discriminate|]. destruct (send _ _ _) as [oa good]. injection EM as <- <-. rewrite app_nil_r. destruct good; reflexivity.
  - injection E as <- <- <-. now rewrite app_nil_r.
Qed.

(** * What a front end gets *)
Lemma route_says r m : route_ok r -> route_msg r = Some m -> says_route r m.
Proof.
  intros (A & B & H & N) E. unfold route_msg in E. set (name := match rt_name r with Some n => n ++ [0] | None => [118; 111; 105; 100; 0] end) in *.
  destruct (Z.of_nat (length name) <? 4) eqn:L; [discriminate|]. injection E as <-.
  destruct (rt_dst r) as [|d0 [|d1 [|d2 [|d3 [|d4 [|d5 [|d6 [|d7 [|d8 [|d9 [|d10 [|d11 [|d12 [|d13 [|d14 [|d15 [|]]]]]]]]]]]]]]]]] eqn:ED; try discriminate A.
  destruct (rt_gw r) as [|g0 [|g1 [|g2 [|g3 [|g4 [|g5 [|g6 [|g7 [|g8 [|g9 [|g10 [|g11 [|g12 [|g13 [|g14 [|g15 [|]]]]]]]]]]]]]]]]] eqn:EG; try discriminate B.
  destruct name as [|n0 [|n1 [|n2 [|n3 nr]]]] eqn:EN; try (cbn in L; discriminate L).
  unfold says_route. rewrite ED, EG. cbn [app be2 firstn length nth at_off skipn]. rewrite (Z.mod_small (rt_hops r)) by exact H. repeat split.
  2: { intros Hn. unfold name in EN. rewrite Hn in EN. now injection EN as <- <- <- <- <-. }
  intros n Hn i I. unfold name in EN. rewrite Hn in EN.
  assert (X : forall k, (k < 4)%nat -> nth k (n ++ [0]) 0 = nth k n 0).
  { intros k Hk. destruct (Nat.lt_ge_cases k (length n)) as [Y|Y]; [now apply app_nth1|]. rewrite app_nth2 by exact Y. rewrite (nth_overflow n) by exact Y. destruct (k - length n)%nat as [|[|q]]; reflexivity. }
  rewrite <- X by exact I. rewrite EN. destruct i as [|[|[|[|i]]]]; try reflexivity. lia.
Qed.
Lemma route_total r : route_ok r -> exists m, route_msg r = Some m.
Proof.
  intros (A & B & H & N). unfold route_msg. destruct (rt_name r) as [n|]; [|eexists; reflexivity]. specialize (N n eq_refl).
  replace (Z.of_nat (length (n ++ [0])) <? 4) with false by (rewrite app_length; cbn [length]; lia). eexists; reflexivity.
Qed.
Lemma net_says c w : length (i_main c) = 16%nat -> says_net c w (net_msg c w).
Proof.
  intros L. unfold says_net, net_msg. assert (X : at_off ([12; 0] ++ be2 36 ++ [if w_mids w then 1 else 0; if w_hnas w then 1 else 0; 0; 0] ++ repeat 0 10 ++ [if i_v6 c then 1 else 0; 0] ++ i_main c) 20 16 = i_main c).
  { unfold at_off. cbn [app be2 repeat skipn]. rewrite <- L. apply firstn_all. }
  repeat split; try exact X. rewrite !app_length, L. reflexivity.
Qed.
Lemma routes_all fd l : 0 <= fd -> Forall route_ok l -> forall i s, exists o, send_routes (fun _ => true) fd i l s = Some (s, map (fun b => (fd, b)) o) /\ Forall2 says_route l o.
Proof.
  intros F. induction l as [|r l IH]; intros G i s; cbn [send_routes]; [exists []; split; [reflexivity|constructor]|]. inversion G as [|? ? G1 G2]; subst.
  destruct (route_total r G1) as (m & E). rewrite E. unfold send. replace (0 <=? fd) with true by lia. cbn [andb]. destruct (IH G2 (S i) s) as (o & -> & FO). exists (m :: o). split; [reflexivity|]. constructor; [now apply route_says|exact FO].
Qed.
Lemma messages_all c w fd op ms : 0 <= fd -> Forall msg_ok ms -> forall pr, run c w (mkS fd true op pr) (map (fun m => Message m true) ms) = Some (Runs w (mkS fd true op pr) (map (fun m => (fd, m)) ms)).
Proof.
  intros F G pr. induction ms as [|m ms IH]; [reflexivity|]. inversion G as [|? ? (G1 & G2) G3]; subst. cbn [map run step]. unfold msgparser. cbn [s_active negb s_conn].
  rewrite G2. replace (Z.of_nat (length m) <? Z.max 4 (Z.of_nat (length m))) with false by lia. unfold send. replace (0 <=? fd) with true by lia. cbn [andb]. rewrite Nat2Z.id, firstn_all. rewrite (IH G3). reflexivity.
Qed.
Theorem gets c w s peer ms : i_v6 c = false -> is_addr 4 peer -> Forall net_ok (i_nets c) -> may (i_nets c) peer -> length (i_main c) = 16%nat -> Forall route_ok (w_routes w) -> Forall msg_ok ms -> Z.of_nat (length (s_open s)) < i_limit c ->
  let fd := Z.of_nat (length (s_peers s)) in
  exists s' net routes, run c w s (Connect peer (fun _ => true) :: map (fun m => Message m true) ms) = Some (Runs w s' (map (fun b => (fd, b)) (net :: routes ++ ms))) /\ says_net c w net /\ Forall2 says_route (w_routes w) routes.
Proof.
  intros V A N M L R G Lim fd. cbn [run step]. unfold accept. replace (i_limit c <=? Z.of_nat (length (s_open s))) with false by lia. destruct (may_allowed c peer V A N) as (al & -> & AL). rewrite (proj2 AL M).
  unfold send. assert (F : 0 <= Z.of_nat (length (s_peers s))) by lia. fold fd in F |- *. replace (0 <=? fd) with true by lia. cbn [andb s_conn s_open s_peers].
  destruct (routes_all fd (w_routes w) F R 1%nat (mkS fd true (fd :: s_open s) (s_peers s ++ [peer]))) as (o & -> & FO).
  rewrite (messages_all c w fd (fd :: s_open s) ms F G (s_peers s ++ [peer])). eexists. exists (net_msg c w), o. split; [|split; [now apply net_says|exact FO]].
  cbn [app map]. rewrite map_app. reflexivity.
Qed.

(** * Other connections *)
Lemma quiet c w ms : forall s, Forall msg_ok ms -> s_conn s = -1 -> exists s', run c w s (map (fun m => Message m true) ms) = Some (Runs w s' []).
Proof.
  induction ms as [|m ms IH]; intros s F C; [exists s; reflexivity|]. inversion F as [|? ? (G1 & G2) G3]; subst. cbn [map run step]. unfold msgparser. destruct (s_active s); cbn [negb].
  - rewrite G2. replace (Z.of_nat (length m) <? Z.max 4 (Z.of_nat (length m))) with false by lia. unfold send. rewrite C. cbn [andb Z.leb Z.compare]. destruct (IH (inactive (close_conn s)) G3 eq_refl) as (s' & ->). exists s'. reflexivity.
  - destruct (IH s G3 C) as (s' & ->). exists s'. reflexivity.
Qed.
Lemma kicked c w s peer ok ms : i_v6 c = false -> is_addr 4 peer -> Forall net_ok (i_nets c) -> ~ may (i_nets c) peer -> Forall msg_ok ms -> Z.of_nat (length (s_open s)) < i_limit c ->
  exists s', run c w s (Connect peer ok :: map (fun m => Message m true) ms) = Some (Runs w s' []).
Proof.
  intros V A N M G L. cbn [run step]. unfold accept. replace (i_limit c <=? Z.of_nat (length (s_open s))) with false by lia. destruct (may_allowed c peer V A N) as (r & -> & R).
  destruct r; [exfalso; now apply M, R|]. destruct (quiet c w ms (close_conn (mkS (Z.of_nat (length (s_peers s))) (s_active s) (Z.of_nat (length (s_peers s)) :: s_open s) (s_peers s ++ [peer]))) G eq_refl) as (s' & ->). exists s'. reflexivity.
Qed.
Lemma exits c w n : Forall route_ok (w_routes w) -> forall s, i_limit c <= Z.of_nat (length (s_open s)) + Z.of_nat n -> run c w s (repeat (Connect [127; 0; 0; 1] (fun _ => true)) (S n)) = Some Exits.
Proof.
  intros R. induction n as [|n IH]; intros s L.
  - cbn [repeat run step]. unfold accept. replace (i_limit c <=? Z.of_nat (length (s_open s))) with true by lia. reflexivity.
  - remember (S n) as n1. cbn [repeat run step]. unfold accept. destruct (i_limit c <=? Z.of_nat (length (s_open s))); [reflexivity|]. cbn [check_allowed]. change (check_allowed c [127; 0; 0; 1]) with (Some true). cbv iota.
    assert (F : 0 <= Z.of_nat (length (s_peers s))) by lia. unfold send. replace (0 <=? Z.of_nat (length (s_peers s))) with true by lia. cbn [andb s_conn s_open s_peers]. set (fd := Z.of_nat (length (s_peers s))) in *.
    destruct (routes_all fd (w_routes w) F R 1%nat (mkS fd true (fd :: s_open s) (s_peers s ++ [[127; 0; 0; 1]]))) as (o & -> & FO). subst n1. rewrite IH; [reflexivity|]. cbn [s_open length]. lia.
Qed.

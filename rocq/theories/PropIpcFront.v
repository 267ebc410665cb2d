(** Theorems about the socket for the front end (C159, C160). *)
From Verif Require Import Base Parser IpCalc IpSpec IpcFront IpcFrontSpec IpcFrontProofs.

Definition peers (l : list event) : list (list Z) := flat_map (fun e => match e with Connect p _ => [p] | _ => [] end) l.
Definition a16 (a : list Z) : list Z := a ++ repeat 0 12.
Definition ex_c : icfg := mkI false [([10; 0; 0; 0], 8)] (a16 [10; 0; 0; 1]) 1000.
Definition ex_w : world := mkW true false [mkRt (a16 [10; 0; 0; 2]) 2 (a16 [10; 0; 0; 3]) (Some [119; 108; 97; 110; 48])].
Definition all_ok : nat -> bool := fun _ => true.

(** With IPv4, whatever is sent goes to this host or to one in a configured network. *)
Theorem C159_allowed c w l w' s' o : i_v6 c = false -> Forall net_ok (i_nets c) -> Forall addr4 l -> run c w ist0 l = Some (Runs w' s' o) ->
  forall fd b, In (fd, b) o -> 0 <= fd /\ exists p, nth_error (peers l) (Z.to_nat fd) = Some p /\ may (i_nets c) p.
Proof.
  intros V N F R fd b I. destruct (run_safe c V N l w ist0 w' s' o F) as (_ & A); [intros X; cbn in X; lia|exact R|]. destruct (A _ I) as (X & Y). split; [exact X|]. cbn [fst] in *. destruct (Y X) as (p & P & M).
  exists p. split; [|exact M]. rewrite <- P. f_equal. symmetry. exact (peers_of c l w ist0 w' s' o R).
Qed.
Print Assumptions C159_allowed.
Example C159_allowed_ex : exists s o, run ex_c ex_w ist0 [Connect [11; 0; 0; 1] all_ok; Connect [10; 7; 0; 1] all_ok; Message [1; 0; 0; 4] true] = Some (Runs ex_w s o) /\ map fst o = [1; 1; 1] /\
  Forall net_ok (i_nets ex_c) /\ ~ may (i_nets ex_c) [11; 0; 0; 1].
Proof.
  eexists. eexists. split; [vm_compute; reflexivity|]. split; [reflexivity|]. split.
  - repeat constructor; cbn; lia.
  - intros [E|(n & p & [E|[]] & S)]; [discriminate|]. injection E as <- <-. assert (X := S 7 ltac:(lia)). vm_compute in X. discriminate X.
Qed.

(** With IPv6 the four bytes of an IPv4 address are compared with the first bytes of the IPv6
    networks: a host that is in none is let in. *)
Theorem C159_v6_refuted : exists c peer s o, i_v6 c = true /\ i_nets c = [([10; 0; 0; 1] ++ repeat 0 12, 32)] /\ peer = [10; 0; 0; 1] /\ run c ex_w ist0 [Connect peer all_ok] = Some (Runs ex_w s o) /\ s_active s = true /\ o <> [].
Proof.
  exists (mkI true [([10; 0; 0; 1] ++ repeat 0 12, 32)] (repeat 0 16) 10), [10; 0; 0; 1]. eexists. eexists. split; [reflexivity|]. split; [reflexivity|]. split; [reflexivity|]. split; [vm_compute; reflexivity|]. split; [reflexivity|discriminate].
Qed.
Print Assumptions C159_v6_refuted.

(** For a network longer than 96 bits the comparison can read behind the address of the peer. *)
Theorem C159_overread_refuted : exists c peer, i_v6 c = true /\ Forall (fun n => is_addr 16 (fst n) /\ 0 <= snd n <= 128) (i_nets c) /\ is_addr 4 peer /\ run c ex_w ist0 [Connect peer all_ok] = None.
Proof.
  exists (mkI true [([10; 0; 0; 1] ++ repeat 0 12, 128)] (repeat 0 16) 10), [10; 0; 0; 1]. split; [reflexivity|]. split; [|split; [|vm_compute; reflexivity]].
  - repeat constructor; cbn; lia.
  - repeat constructor; cbn; lia.
Qed.
Print Assumptions C159_overread_refuted.

(** A front end that may connect gets the state of the node, a record for each route, and then
    each message as it was received, as long as nobody else connects. *)
Theorem C160_gets c w s peer ms : i_v6 c = false -> is_addr 4 peer -> Forall net_ok (i_nets c) -> may (i_nets c) peer -> length (i_main c) = 16%nat -> Forall route_ok (w_routes w) -> Forall msg_ok ms -> Z.of_nat (length (s_open s)) < i_limit c ->
  let fd := Z.of_nat (length (s_peers s)) in
  exists s' net routes, run c w s (Connect peer all_ok :: map (fun m => Message m true) ms) = Some (Runs w s' (map (fun b => (fd, b)) (net :: routes ++ ms))) /\ says_net c w net /\ Forall2 says_route (w_routes w) routes.
Proof. apply gets. Qed.
Print Assumptions C160_gets.
Example C160_gets_ex : is_addr 4 [10; 7; 0; 1] /\ may (i_nets ex_c) [10; 7; 0; 1] /\ Forall route_ok (w_routes ex_w) /\ msg_ok [1; 0; 0; 4] /\
  exists s, run ex_c ex_w ist0 [Connect [10; 7; 0; 1] all_ok; Message [1; 0; 0; 4] true] = Some (Runs ex_w s
   [(0, [12; 0; 0; 36; 1; 0; 0; 0; 0; 0; 0; 0; 0; 0; 0; 0; 0; 0; 0; 0; 10; 0; 0; 1; 0; 0; 0; 0; 0; 0; 0; 0; 0; 0; 0; 0]);
    (0, [11; 0; 0; 44; 2; 1; 0; 0; 10; 0; 0; 2; 0; 0; 0; 0; 0; 0; 0; 0; 0; 0; 0; 0; 10; 0; 0; 3; 0; 0; 0; 0; 0; 0; 0; 0; 0; 0; 0; 0; 119; 108; 97; 110]); (0, [1; 0; 0; 4])]).
Proof.
  split; [repeat constructor; cbn; lia|]. split; [right; exists [10; 0; 0; 0], 8; split; [left; reflexivity|]|].
  - intros i I. assert (i = 0 \/ i = 1 \/ i = 2 \/ i = 3 \/ i = 4 \/ i = 5 \/ i = 6 \/ i = 7) as C by lia. repeat (destruct C as [-> | C]; [reflexivity|]). subst i. reflexivity.
  - split; [|split; [split; [cbn; lia|reflexivity]|eexists; vm_compute; reflexivity]]. constructor; [|constructor]. split; [reflexivity|]. split; [reflexivity|]. split; [cbn; lia|]. cbn. intros n E. injection E as <-. cbn. lia.
Qed.

(** A host that may not connect ends the service to the front end there is: nothing is sent
    any more though its connection stays open. *)
Theorem C160_kick_refuted : forall c w s peer ok ms, i_v6 c = false -> is_addr 4 peer -> Forall net_ok (i_nets c) -> ~ may (i_nets c) peer -> Forall msg_ok ms -> Z.of_nat (length (s_open s)) < i_limit c ->
  exists s', run c w s (Connect peer ok :: map (fun m => Message m true) ms) = Some (Runs w s' []).
Proof. apply kicked. Qed.
Print Assumptions C160_kick_refuted.
Example C160_kick_refuted_ex : exists s o, run ex_c ex_w ist0 [Connect [127; 0; 0; 1] all_ok; Connect [11; 0; 0; 1] all_ok; Message [1; 0; 0; 4] true; Message [1; 0; 0; 4] true] = Some (Runs ex_w s o) /\ length o = 2%nat /\ s_open s = [0] /\ s_active s = false.
Proof. eexists. eexists. split; [vm_compute; reflexivity|]. repeat split. Qed.

(** A second front end takes over; the connection of the first is never closed. *)
Theorem C160_takeover_refuted : exists s o, run ex_c ex_w ist0 [Connect [127; 0; 0; 1] all_ok; Connect [10; 0; 0; 9] all_ok; Message [1; 0; 0; 4] true; Message [1; 0; 0; 4] false] = Some (Runs ex_w s o) /\
  ~ In (0, [1; 0; 0; 4]) o /\ In (1, [1; 0; 0; 4]) o /\ s_open s = [0] /\ s_conn s = -1.
Proof.
  eexists. eexists. split; [vm_compute; reflexivity|]. split; [|split; [|split; reflexivity]].
  - intros H. cbn in H. repeat (destruct H as [H|H]; [discriminate H|]). exact H.
  - cbn. tauto.
Qed.
Print Assumptions C160_takeover_refuted.

(** So connections from this host alone use up the descriptors, and the next one ends olsrd. *)
Theorem C160_exit_refuted : forall c w n, Forall route_ok (w_routes w) -> i_limit c <= Z.of_nat n -> run c w ist0 (repeat (Connect [127; 0; 0; 1] all_ok) (S n)) = Some Exits.
Proof. intros c w n R L. apply exits; [exact R|]. cbn. lia. Qed.
Print Assumptions C160_exit_refuted.
Example C160_exit_refuted_ex : run (mkI false [] (repeat 0 16) 3) ex_w ist0 (repeat (Connect [127; 0; 0; 1] all_ok) 4) = Some Exits.
Proof. vm_compute. reflexivity. Qed.

(** Routes that change are not told: the front end that is connected never learns the new one. *)
Theorem C160_change_refuted : exists w' r s o, In r (w_routes w') /\ route_ok r /\ run ex_c ex_w ist0 [Connect [127; 0; 0; 1] all_ok; Change w'; Message [1; 0; 0; 4] true] = Some (Runs w' s o) /\ s_active s = true /\
  forall fd b, In (fd, b) o -> ~ says_route r b.
Proof.
  exists (mkW true false [mkRt (a16 [10; 0; 0; 7]) 1 (a16 [10; 0; 0; 7]) (Some [119; 108; 97; 110; 48])]), (mkRt (a16 [10; 0; 0; 7]) 1 (a16 [10; 0; 0; 7]) (Some [119; 108; 97; 110; 48])). eexists. eexists.
  split; [left; reflexivity|]. split; [split; [reflexivity|]; split; [reflexivity|]; split; [cbn; lia|]; intros n E; injection E as <-; cbn; lia|]. split; [vm_compute; reflexivity|]. split; [reflexivity|].
  intros fd b I (L & _ & _ & H & _). repeat (destruct I as [I|I]; [injection I as <- <-; vm_compute in L, H; discriminate|]). exact I.
Qed.
Print Assumptions C160_change_refuted.

(** A route over an interface with a name of two letters is read behind its end; longer names
    that begin alike look the same. *)
Theorem C160_name_refuted : exists w, (forall r, In r (w_routes w) -> rt_name r = Some [108; 111]) /\ w_routes w <> [] /\ run ex_c w ist0 [Connect [127; 0; 0; 1] all_ok] = None.
Proof. exists (mkW false false [mkRt (repeat 0 16) 1 (repeat 0 16) (Some [108; 111])]). split; [intros r [<-|[]]; reflexivity|]. split; [discriminate|vm_compute; reflexivity]. Qed.
Print Assumptions C160_name_refuted.
Theorem C160_alike_refuted : exists r1 r2, rt_name r1 <> rt_name r2 /\ route_ok r1 /\ route_ok r2 /\ route_msg r1 = route_msg r2.
Proof.
  exists (mkRt (repeat 0 16) 1 (repeat 0 16) (Some [119; 108; 97; 110; 48])), (mkRt (repeat 0 16) 1 (repeat 0 16) (Some [119; 108; 97; 110; 49])). split; [discriminate|].
  split; [|split; [|reflexivity]]; (split; [reflexivity|]; split; [reflexivity|]; split; [cbn; lia|]; intros n E; injection E as <-; cbn; lia).
Qed.
Print Assumptions C160_alike_refuted.

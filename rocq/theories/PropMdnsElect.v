(** C136: on each network one router is master for mDNS. *)
From Verif Require Import Base BmfPacket BmfPacketSpec MdnsElect MdnsElectSpec MdnsElectProofs.

Definition ex_main (x : Z) : list Z := [10; 0; 0; x; 0; 0; 0; 0; 0; 0; 0; 0; 0; 0; 0; 0].
(** [n] interfaces with election sockets 100, 101, ... *)
Definition ex_ifs (n : nat) : list iface := map (fun j => mkIface (200 + Z.of_nat j) (100 + Z.of_nat j) (300 + Z.of_nat j) true) (seq 0 n).
Definition ex_start (x : Z) (n : nat) : mstate := init_timer false (ex_main x) (mkMstate None 0 [] [] (ex_ifs n)).
Definition ex_hello (x : Z) : list Z := [36; 82; 69; 80; 2; 0; 0; 0] ++ ex_main x ++ [1].
Lemma ex_main_bytes : forall x, byte x -> Forall byte (ex_main x).
Proof. intros x B. unfold ex_main. repeat constructor; unfold byte in *; lia. Qed.
Lemma ex_hello_bytes : forall x, byte x -> Forall byte (ex_hello x).
Proof. intros x B. unfold ex_hello, ex_main. cbn [app]. repeat constructor; unfold byte in *; lia. Qed.
Lemma ex_started : forall x n, byte x -> started false (ex_main x) (ex_ifs n) (ex_start x n).
Proof. intros x n B. split; [reflexivity|]. split; [now apply ex_main_bytes|]. exists (mkMstate None 0 [] [] (ex_ifs n)). split; reflexivity. Qed.
Lemma ex_introduces : forall x, introduces false (ex_hello x) [10; 0; 0; x] 1.
Proof. intros x. exists 2, 0, 0, 0, (ex_main x), []. split; [reflexivity|]. split; [reflexivity|]. left. auto. Qed.
Definition active_at (j : nat) (s : mstate) : option bool := option_map if_active (nth_error (s_ifs s) j).

(** what a router sends introduces it to the others *)
Theorem C136_hello : forall v6 main ifs s ok, started v6 main ifs s -> (forall fd, ok fd = true) ->
  exists sent, hello_timer ok (s_hello s) (s_ifs s) = Done sent /\ map fst sent = map if_hello ifs /\
    forall fd data, In (fd, data) sent -> introduces v6 data (address_of v6 main) 1.
Proof.
  intros v6 main ifs s ok (Lm & Bm & s0 & <- & ->) Ok. set (s := init_timer v6 main s0). change (s_ifs s0) with (s_ifs s).
  assert (I : introduces v6 (s_hello s) (address_of v6 main) 1).
  { exists (if v6 then 10 else 2), 0, 0, 0, main, []. split; [reflexivity|]. split; [exact Lm|]. destruct v6; [right|left]; (split; [reflexivity|]); (split; [congruence|]); [apply firstn_all2; lia|reflexivity]. }
  set (h := s_hello s) in *. clearbody h. induction (s_ifs s) as [|i is IH]; [exists []; repeat split; intros fd data []|]. destruct IH as (sent & E & M & Q). cbn [hello_timer]. rewrite Ok, E. cbn [obind].
  eexists. split; [reflexivity|]. split; [cbn; now rewrite M|]. intros fd data [H|H]; [inversion H; subst; exact I|eauto].
Qed.
Print Assumptions C136_hello.
Example C136_hello_ex : hello_timer (fun _ => true) (s_hello (ex_start 7 2)) (s_ifs (ex_start 7 2)) = Done [(300, ex_hello 7); (301, ex_hello 7)].
Proof. reflexivity. Qed.

(** an election: an interface becomes active unless a router with a lower address is heard on
    it and not yet forgotten *)
Theorem C136_elect : forall v6 main ifs l s, started v6 main ifs s -> Forall good_event l -> exists s', events v6 (l ++ [Elect]) s = Done s' /\
  forall j i, nth_error ifs j = Some i -> exists i', nth_error (s_ifs s') j = Some i' /\
    (if_active i' = true <-> ~ exists id a, age v6 (if_election i) id 1 l a /\ remembered (length ifs) a j /\ number id < number (address_of v6 main)).
Proof. exact elect_ok. Qed.
Print Assumptions C136_elect.
(** 10.0.0.7 hears 10.0.0.3 on its second interface and 10.0.0.9 on the first *)
Example C136_elect_ex : exists s', events false ([Got 101 (ex_hello 3); Got 100 (ex_hello 9)] ++ [Elect]) (ex_start 7 2) = Done s' /\ active_at 0 s' = Some true /\ active_at 1 s' = Some false.
Proof. eexists. split; [vm_compute; reflexivity|]. split; reflexivity. Qed.

(** routers on a network that have all heard one another, and no one else, elect exactly one *)
Record node := mkNode { n_main : list Z; n_ifs : list iface; n_state : mstate; n_at : nat; n_if : iface; n_log : list event }.
Definition is_node (v6 : bool) (n : node) : Prop := started v6 (n_main n) (n_ifs n) (n_state n) /\ nth_error (n_ifs n) (n_at n) = Some (n_if n) /\ Forall good_event (n_log n).
Definition hears (v6 : bool) (n m : node) : Prop :=
  exists a, age v6 (if_election (n_if n)) (address_of v6 (n_main m)) 1 (n_log n) a /\ remembered (length (n_ifs n)) a (n_at n).
Definition master (v6 : bool) (n : node) : Prop :=
  exists s', events v6 (n_log n ++ [Elect]) (n_state n) = Done s' /\ active_at (n_at n) s' = Some true.
Theorem C136_one_master : forall v6 nodes, nodes <> [] -> NoDup (map (fun n => address_of v6 (n_main n)) nodes) ->
  (forall n, In n nodes -> is_node v6 n) -> (forall n m, In n nodes -> In m nodes -> n <> m -> hears v6 n m) ->
  (forall n id a, In n nodes -> age v6 (if_election (n_if n)) id 1 (n_log n) a -> exists m, In m nodes /\ id = address_of v6 (n_main m)) ->
  exists n, In n nodes /\ master v6 n /\ forall m, In m nodes -> master v6 m -> m = n.
Proof.
  intros v6 nodes Ne Nd Hn Hh Ho. destruct (least node (fun n => number (address_of v6 (n_main n))) nodes Ne) as (n & In_ & Least).
  assert (M : forall m, In m nodes -> (master v6 m <-> ~ exists id a, age v6 (if_election (n_if m)) id 1 (n_log m) a /\ remembered (length (n_ifs m)) a (n_at m) /\ number id < number (address_of v6 (n_main m)))).
  { intros m Im. destruct (Hn m Im) as (S & H & G). destruct (elect_ok v6 (n_main m) (n_ifs m) (n_log m) (n_state m) S G) as (s' & E & Q). destruct (Q _ _ H) as (i' & N & A). rewrite <- A. unfold master. split.
    - intros (s1 & E1 & A1). rewrite E in E1. inversion E1; subst s1. unfold active_at in A1. rewrite N in A1. cbn in A1. congruence.
    - intros T. exists s'. split; [exact E|]. unfold active_at. rewrite N. cbn. congruence. }
  exists n. split; [exact In_|]. split.
  - apply M; [exact In_|]. intros (id & a & A & _ & L). destruct (Ho n id a In_ A) as (m & Im & ->). specialize (Least m Im). lia.
  - intros m Im Mm. apply (M m Im) in Mm. destruct (Hn m Im) as ((Lm & Bm & _) & _). destruct (Hn n In_) as ((Ln & Bn & _) & _).
    destruct (list_eq_dec Z.eq_dec (address_of v6 (n_main m)) (address_of v6 (n_main n))) as [E|E].
    + clear - Nd Im In_ E. induction nodes as [|x nodes IH]; [destruct Im|]. cbn [map] in Nd. inversion Nd as [|? ? N1 N2]; subst. destruct Im as [->|Im], In_ as [->|In_]; auto.
      * exfalso. apply N1. rewrite E. now apply (in_map (fun n => address_of v6 (n_main n))).
      * exfalso. apply N1. rewrite <- E. now apply (in_map (fun n => address_of v6 (n_main n))).
    + exfalso. apply Mm. destruct (Hh m n Im In_) as (a & A & R); [intros ->; now apply E|]. exists (address_of v6 (n_main n)), a. split; [exact A|]. split; [exact R|].
      pose proof (Least m Im) as Le. assert (Ne' : number (address_of v6 (n_main m)) <> number (address_of v6 (n_main n))); [|lia].
      intros K. apply E. assert (Len : forall w, length w = 16%nat -> length (address_of v6 w) = if v6 then 16%nat else 4%nat) by (intros w Lw; unfold address_of; rewrite firstn_length; destruct v6; lia).
      assert (Byt : forall w, Forall byte w -> Forall byte (address_of v6 w)) by (intros w Bw; unfold address_of; rewrite <- (firstn_skipn (if v6 then 16 else 4) w) in Bw; now apply Forall_app in Bw).
      apply number_inj; [rewrite !Len by assumption; reflexivity|auto|auto|exact K].
Qed.
Print Assumptions C136_one_master.
Example C136_one_master_ex :
  let a := mkNode (ex_main 7) (ex_ifs 2) (ex_start 7 2) 1 (mkIface 201 101 301 true) [Got 101 (ex_hello 3)] in
  let b := mkNode (ex_main 3) (ex_ifs 1) (ex_start 3 1) 0 (mkIface 200 100 300 true) [Got 100 (ex_hello 7)] in
  is_node false a /\ is_node false b /\ hears false a b /\ hears false b a /\ NoDup (map (fun n => address_of false (n_main n)) [a; b]) /\
  (exists s, events false (n_log a ++ [Elect]) (n_state a) = Done s /\ active_at 1 s = Some false) /\ master false b.
Proof.
  cbv zeta.
  split; [split; [apply ex_started; unfold byte; lia|split; [reflexivity|constructor; [apply ex_hello_bytes; unfold byte; lia|constructor]]]|].
  split; [split; [apply ex_started; unfold byte; lia|split; [reflexivity|constructor; [apply ex_hello_bytes; unfold byte; lia|constructor]]]|].
  split; [exists 0%nat; split; [apply (age_now false 101 [10; 0; 0; 3] 1 [] (ex_hello 3)); apply ex_introduces|unfold remembered; cbn; lia]|].
  split; [exists 0%nat; split; [apply (age_now false 100 [10; 0; 0; 7] 1 [] (ex_hello 7)); apply ex_introduces|unfold remembered; cbn; lia]|].
  split; [cbn; repeat constructor; cbn; intuition discriminate|]. split; [eexists; split; [vm_compute; reflexivity|reflexivity]|eexists; split; [vm_compute; reflexivity|reflexivity]].
Qed.

(** false with eleven interfaces: a router with a lower address has just been heard on the last
    one, and yet this one is master, too *)
Theorem C136_many_refuted : exists main ifs s l j i id s', started false main ifs s /\ Forall good_event l /\ nth_error ifs j = Some i /\
  age false (if_election i) id 1 l 0 /\ number id < number (address_of false main) /\ events false (l ++ [Elect]) s = Done s' /\ active_at j s' = Some true.
Proof.
  exists (ex_main 7), (ex_ifs 11), (ex_start 7 11), [Got 110 (ex_hello 3)], 10%nat, (mkIface 210 110 310 true), [10; 0; 0; 3]. eexists.
  split; [apply ex_started; unfold byte; lia|]. split; [constructor; [apply ex_hello_bytes; unfold byte; lia|constructor]|]. split; [reflexivity|].
  split; [apply (age_now false 110 [10; 0; 0; 3] 1 []); apply ex_introduces|]. split; [vm_compute; reflexivity|]. split; [vm_compute; reflexivity|reflexivity].
Qed.
Print Assumptions C136_many_refuted.
(** and with six, as two elections fit between two introductions (every 15 and 20 seconds) *)
Theorem C136_pace_refuted : exists main ifs s l j i id s', started false main ifs s /\ length ifs = 6%nat /\ Forall good_event l /\ nth_error ifs j = Some i /\
  age false (if_election i) id 1 l 1 /\ number id < number (address_of false main) /\ events false (l ++ [Elect]) s = Done s' /\ active_at j s' = Some true.
Proof.
  exists (ex_main 7), (ex_ifs 6), (ex_start 7 6), ([Got 105 (ex_hello 3)] ++ [Elect]), 5%nat, (mkIface 205 105 305 true), [10; 0; 0; 3]. eexists.
  split; [apply ex_started; unfold byte; lia|]. split; [reflexivity|]. split; [constructor; [apply ex_hello_bytes; unfold byte; lia|constructor; [exact I|constructor]]|]. split; [reflexivity|].
  split; [apply age_elect; apply (age_now false 105 [10; 0; 0; 3] 1 []); apply ex_introduces|]. split; [vm_compute; reflexivity|]. split; [vm_compute; reflexivity|reflexivity].
Qed.
Print Assumptions C136_pace_refuted.
(** the configured network is forgotten when the plugin starts *)
Theorem C136_network_refuted : exists n s main, 0 <= n < 256 /\ s_net (set_network_id n s) = n /\ s_net (init_timer false main (set_network_id n s)) <> n.
Proof. exists 7, (mkMstate None 0 [] [] []), (ex_main 7). split; [lia|]. split; [reflexivity|]. cbn. lia. Qed.
Print Assumptions C136_network_refuted.
(** an introduction in the first second, or one that cannot be sent, ends the daemon *)
Theorem C136_early_refuted : exists s data, s_list s = None /\ introduces false data [10; 0; 0; 3] 1 /\ do_election false 100 data s = Outside.
Proof. exists (mkMstate None 0 [] [] (ex_ifs 1)), (ex_hello 3). split; [reflexivity|]. split; [apply ex_introduces|]. vm_compute. reflexivity. Qed.
Print Assumptions C136_early_refuted.
Theorem C136_unsent_refuted : exists ok s, started false (ex_main 7) (ex_ifs 1) s /\ hello_timer ok (s_hello s) (s_ifs s) = Outside.
Proof. exists (fun _ => false), (ex_start 7 1). split; [apply ex_started; unfold byte; lia|]. vm_compute. reflexivity. Qed.
Print Assumptions C136_unsent_refuted.

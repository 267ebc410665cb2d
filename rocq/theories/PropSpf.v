(** C19, C20, C63: route calculation. *)
From Verif Require Import Base Bytes Parser ParserProofs TcGraph TcGraphSpec TcGraphProofs Spf SpfSpec SpfProofs SpfGraph.

(** a state of the database that the events of C18 lead to *)
Definition reached (main : list Z) (mp : Z) (g : gst) (A : aset) : Prop :=
  exists A0 s0 ops, start main mp A0 /\ init_tc main mp = Some s0 /\ history mp A0 ops A /\ grun s0 ops = Some g.

Lemma reached_R main mp g A : reached main mp g A -> R mp g A.
Proof.
  intros (A0 & s0 & ops & S0 & E0 & H & E). destruct (init_ok main mp A0 S0) as (s0' & E0' & R0). assert (s0' = s0) by congruence. subst s0'.
  destruct (run_ok mp ops s0 A0 A R0 H) as (g' & E' & Rg). congruence.
Qed.
Lemma links_LC g ec : Inv g -> forall a b c, links_of g ec a b c <-> LC g ec a b c.
Proof. intros I a b c. unfold links_of, LC. split; intros (i & K & E); exists i; (split; [|exact E]); now apply (link_obj_ekey g a b i I). Qed.
Lemma node_addr g a n : Inv g -> (node_obj g a n <-> addr_of g n = Some a).
Proof. intros I. rewrite addr_some. split; [intros (x & _ & N & Q); eauto|]. intros (x & N & Q). exists x. split; [apply (iv_tree g I); congruence|auto]. Qed.
Lemma path_ext (L1 L2 : links) a : (forall u v c, L1 u v c -> L2 u v c) -> forall v d k f, path L1 a v d k f -> path L2 a v d k f.
Proof. intros H v d k f P. induction P; [constructor|]. econstructor; [eassumption|auto]. Qed.
Lemma usable_ext (L1 L2 : links) : (forall u v c, L1 u v c <-> L2 u v c) -> forall u v c, usable L1 u v c -> usable L2 u v c.
Proof. intros H u v c (A & B & c' & C). split; [now apply H|]. split; [exact B|]. exists c'. now apply H. Qed.

(** C19: in every database, with every cost of the links, after the calculation
    the cost of an entry is the least cost of a path to it over links that are
    known in both directions and not broken, and 2^32-1 if there is none.  The
    entries put on the list of reachable ones are those with a path.  [n] entries
    and link costs up to [W] must satisfy n W < 2^32-1 (see C19_overflow_refuted). *)
Theorem C19_shortest_paths_partial : forall main mp g A ec nbrs lcost newcost old W, reached main mp g A -> ~ no_main A -> NoDup (map nb_addr nbrs) ->
  let L := usable (refreshed (links_of g ec) (a_main A) nbrs lcost newcost) in
  (forall a b c, L a b c -> 0 <= c <= W) -> 0 <= W -> Z.of_nat (length (g_tree g)) * W < 2 ^ 32 - 1 ->
  exists r st, calculate g ec nbrs lcost newcost old = Some r /\ sr_st r = Some st /\
  (forall a b c, links_of (sr_g r) (sr_ec r) a b c <-> refreshed (links_of g ec) (a_main A) nbrs lcost newcost a b c) /\
  (forall a n, node_obj (sr_g r) a n <-> node_obj g a n) /\
  forall a n, node_obj g a n ->
    (forall d k f, path L (a_main A) a d k f -> s_cost st n <= d /\ In n (s_path st)) /\
    (In n (s_path st) -> exists k f, path L (a_main A) a (s_cost st n) k f) /\
    (~ (exists d k f, path L (a_main A) a d k f) -> s_cost st n = 2 ^ 32 - 1 /\ ~ In n (s_path st)).
Proof.
  intros main mp g A ec nbrs lcost newcost old W HRe NM ND L HW W0 W1. pose proof (reached_R _ _ _ _ HRe) as HR. pose proof (r_inv _ _ _ HR) as I.
  assert (RE : forall u v c, refreshed (LC g ec) (a_main A) nbrs lcost newcost u v c <-> refreshed (links_of g ec) (a_main A) nbrs lcost newcost u v c) by (apply refreshed_ext; intros; symmetry; now apply links_LC).
  destruct (calculate_ok mp g A ec nbrs lcost newcost old W HR NM ND ltac:(intros a b c Q; apply (HW a b c); revert Q; now apply usable_ext) W0 W1) as (r & st & nh0 & E & Est & I2 & T & AD & HL & _ & _ & me & Me & C1 & C2 & C3 & C4).
  exists r, st. split; [exact E|]. split; [exact Est|]. split; [intros a b c; rewrite (links_LC _ _ I2), HL; apply RE|]. split; [intros a n; rewrite (node_addr _ _ _ I2), (node_addr _ _ _ I), AD; reflexivity|].
  assert (U1 : forall u v c, usable (LC (sr_g r) (sr_ec r)) u v c -> L u v c) by (apply usable_ext; intros; rewrite HL; apply RE).
  assert (U2 : forall u v c, L u v c -> usable (LC (sr_g r) (sr_ec r)) u v c) by (apply usable_ext; intros; rewrite HL; symmetry; apply RE).
  assert (Me2 : addr_of (sr_g r) me = Some (a_main A)) by (rewrite AD; exact Me).
  intros a n Hn. apply (node_addr _ _ _ I) in Hn.
  assert (P1 : forall d k f, path L (a_main A) a d k f -> s_cost st n <= d /\ In n (s_path st)).
  { intros d k f P. apply (path_ext _ _ _ U2) in P. destruct (path_walk _ _ me _ I2 Me2 _ _ _ _ P) as (v & f' & Av & Wv). assert (v = n) by (apply (addr_inj _ _ _ a I2 Av); rewrite AD; exact Hn). subst v. destruct (C1 n d k f' Wv). auto. }
  assert (P2 : In n (s_path st) -> exists k f, path L (a_main A) a (s_cost st n) k f).
  { intros Hp. destruct (C2 n Hp) as ((k & f & Wk & _) & _). destruct (walk_path _ _ me _ I2 Me2 _ _ _ _ Wk) as (a' & fa & Aa & P & _). assert (a' = a) by (rewrite AD in Aa; congruence). subst a'. exists k, fa. now apply (path_ext _ _ _ U1). }
  split; [exact P1|]. split; [exact P2|]. intros NP. assert (Q : ~ In n (s_path st)) by (intros Q; destruct (P2 Q) as (k & f & P); apply NP; eauto). split; [|exact Q].
  apply (C3 n); [|exact Q]. apply (iv_tree g I). apply addr_some in Hn. destruct Hn as (x & Nx & _). congruence.
Qed.
Print Assumptions C19_shortest_paths_partial.

(** C20: the next hop of a reachable entry is the link to a symmetric neighbor,
    and the rest of a shortest path starts there; the hop count is the length of
    that path modulo 256.  There must be no link of this node to somebody who is
    not in the neighbor table (see C20_stale_link_refuted), and this node must not
    be its own neighbor. *)
Theorem C20_next_hop_partial : forall main mp g A ec nbrs lcost newcost old W, reached main mp g A -> ~ no_main A -> NoDup (map nb_addr nbrs) ->
  let L := usable (refreshed (links_of g ec) (a_main A) nbrs lcost newcost) in
  (forall a b c, L a b c -> 0 <= c <= W) -> 0 <= W -> Z.of_nat (length (g_tree g)) * W < 2 ^ 32 - 1 ->
  ~ In (a_main A) (map nb_addr nbrs) -> (forall b c, links_of g ec (a_main A) b c -> In b (map nb_addr nbrs)) ->
  exists r st, calculate g ec nbrs lcost newcost old = Some r /\ sr_st r = Some st /\
  forall a n, node_obj g a n -> a <> a_main A -> In n (s_path st) ->
    exists b l c k f, In (mkNb b true (Some l)) nbrs /\ s_nh st n = Some l /\ L (a_main A) b c /\ path L b a (s_cost st n - c) (k - 1) f /\ s_hops st n = k mod 256.
Proof.
  intros main mp g A ec nbrs lcost newcost old W HRe NM ND L HW W0 W1 NS ST. pose proof (reached_R _ _ _ _ HRe) as HR. pose proof (r_inv _ _ _ HR) as I.
  assert (RE : forall u v c, refreshed (LC g ec) (a_main A) nbrs lcost newcost u v c <-> refreshed (links_of g ec) (a_main A) nbrs lcost newcost u v c) by (apply refreshed_ext; intros; symmetry; now apply links_LC).
  destruct (calculate_ok mp g A ec nbrs lcost newcost old W HR NM ND ltac:(intros a b c Q; apply (HW a b c); revert Q; now apply usable_ext) W0 W1) as (r & st & nh0 & E & Est & I2 & T & AD & HL & N1 & N2 & me & Me & C1 & C2 & C3 & C4).
  exists r, st. split; [exact E|]. split; [exact Est|].
  assert (U1 : forall u v c, usable (LC (sr_g r) (sr_ec r)) u v c -> L u v c) by (apply usable_ext; intros; rewrite HL; apply RE).
  assert (Me2 : addr_of (sr_g r) me = Some (a_main A)) by (rewrite AD; exact Me).
  (* the links of this node lead to neighbors *)
  assert (NB : forall b c, L (a_main A) b c -> exists l, In (mkNb b true (Some l)) nbrs /\ b <> a_main A /\ exists c', LC g ec b (a_main A) c').
  { intros b c (H1 & _ & c' & H2). destruct H1 as [(Q & _)|[(_ & Q & H)|(_ & l & Hl & _)]]; [congruence|exfalso; apply Q, (ST b c H)|].
    assert (Hb : b <> a_main A) by (intros ->; apply NS; apply (in_map nb_addr) in Hl; exact Hl). exists l. split; [exact Hl|]. split; [exact Hb|]. exists c'. apply (links_LC g ec I). destruct H2 as [(_ & H)|[(Q & _)|(Q & _)]]; [exact H|congruence|congruence]. }
  assert (NH : forall u c, In (u, c) (adjg (sr_g r) (sr_ec r) me) -> exists b l, addr_of g u = Some b /\ In (mkNb b true (Some l)) nbrs /\ nh0 u = Some l).
  { intros u c Hu. destruct (adj_addr _ _ _ _ _ I2 Hu) as (a & b & Aa & Ab). assert (a = a_main A) by congruence. subst a. apply (adj_usable _ _ _ _ _ _ _ I2 Aa Ab) in Hu. apply U1 in Hu. destruct (NB b c Hu) as (l & Hl & Hb & Hc). exists b, l. rewrite AD in Ab. split; [exact Ab|]. split; [exact Hl|]. now apply (N1 u b l). }
  assert (NM0 : nh0 me = None). { apply N2; [apply (iv_tree g I); apply addr_some in Me; destruct Me as (x & Q & _); congruence|]. intros a Ha Q. assert (a = a_main A) by congruence. subst a. contradiction. }
  intros a n Hn Na Hp. apply (node_addr _ _ _ I) in Hn. destruct (C2 n Hp) as ((k & f & Wk & Hh & S1 & S2 & S3) & _).
  destruct (walk_path _ _ me _ I2 Me2 _ _ _ _ Wk) as (a' & fa & Aa & P & Hf). assert (a' = a) by (rewrite AD in Aa; congruence). subst a'.
  assert (Nme : n <> me) by (intros ->; congruence). destruct (S2 Nme) as (u & c & -> & Hu). destruct Hf as (Hf & _). destruct (NH u c Hu) as (b & l & Ab & Hl & Hnh).
  assert (Fb : fa = Some b) by (rewrite <- Hf, AD; exact Ab). rewrite Fb in P. destruct (path_split _ _ _ _ _ _ P) as (c1 & f1 & L1 & P1).
  exists b, l, c1, k, f1. split; [exact Hl|]. split; [rewrite S3; [exact Hnh|exact NM0|]; intros u' c' Hu'; destruct (NH u' c' Hu') as (? & ? & _ & _ & Q); congruence|]. split; [now apply U1|]. split; [|exact Hh]. now apply (path_ext _ _ _ U1).
Qed.
Print Assumptions C20_next_hop_partial.

(** a triangle with a detour that is cheaper than the direct link, and a node
    nobody links back to *)
Definition e_me := [10; 0; 0; 1].
Definition e_b := [10; 0; 0; 2].
Definition e_c := [10; 0; 0; 3].
Definition e_d := [10; 0; 0; 4].
Definition e_ops := [OMyEdge e_b; OMyEdge e_c; OEdge e_b e_me; OEdge e_c e_me; OEdge e_b e_c; OEdge e_c e_b; OEdge e_c e_d].
Definition e_g : option gst := match init_tc e_me 32 with Some s => grun s e_ops | None => None end.
Definition e_nb := [mkNb e_b true (Some 100); mkNb e_c true (Some 101)].
Definition e_lc (l : Z) : Z := if l =? 100 then 1024 else 9000.
Definition e_old : sst := mkSs (fun _ => 7) (fun _ => 3) (fun _ => Some 55) [] [].
Definition e_A : aset :=
  with_link (with_link (with_link (with_link (with_node 32 (with_link (with_node 32 (with_link (with_link (with_node 32 (mkA e_me [] [] []) e_me) e_me e_b) e_me e_c) e_b) e_b e_me) e_c) e_c e_me) e_b e_c) e_c e_b) e_c e_d.
Definition e_out (o : option sres) : option (list (list Z * Z * Z * option Z)) :=
  match o with
  | Some r => match sr_st r with
              | Some st => Some (flat_map (fun n => match g_nodes (sr_g r) n with Some x => [(gn_addr x, s_cost st n, s_hops st n, s_nh st n)] | None => [] end) (s_path st))
              | None => None
              end
  | None => None
  end.
Lemma e_reached : exists g, e_g = Some g /\ reached e_me 32 g e_A.
Proof.
  assert (NM : ~ no_main (mkA e_me [] [] [])) by (intros Q; apply no_main_b in Q; discriminate Q).
  assert (S0 : start e_me 32 (with_node 32 (mkA e_me [] [] []) e_me)) by reflexivity.
  destruct (init_ok _ _ _ S0) as (s0 & E0 & R0).
  assert (H : history 32 (with_node 32 (mkA e_me [] [] []) e_me) e_ops e_A).
  { eapply h_cons; [exact Logic.I|apply m_my_edge; exact NM|]. eapply h_cons; [exact Logic.I|apply m_my_edge; exact NM|].
    eapply h_cons; [exact Logic.I|apply m_edge; right; split; [cbn; intros [Q|[]]; discriminate Q|split; [exact NM|reflexivity]]|].
    eapply h_cons; [exact Logic.I|apply m_edge; right; split; [cbn; intros [Q|[Q|[]]]; discriminate Q|split; [exact NM|reflexivity]]|].
    eapply h_cons; [exact Logic.I|apply m_edge; left; split; [cbn; auto|reflexivity]|].
    eapply h_cons; [exact Logic.I|apply m_edge; left; split; [cbn; auto|reflexivity]|].
    eapply h_cons; [exact Logic.I|apply m_edge; left; split; [cbn; auto|reflexivity]|]. apply h_nil. }
  destruct (run_ok 32 e_ops s0 _ _ R0 H) as (g & E & _). exists g. unfold e_g. rewrite E0. split; [exact E|]. exists (with_node 32 (mkA e_me [] [] []) e_me), s0, e_ops. auto.
Qed.
Example C19_C20_ex : (exists g, e_g = Some g /\ reached e_me 32 g e_A) /\ NoDup (map nb_addr e_nb) /\ ~ In e_me (map nb_addr e_nb) /\
  match e_g with
  | Some g => e_out (calculate g (fun _ => 1500) e_nb e_lc LINK_COST_BROKEN e_old)
  | None => None
  end = Some [(e_me, 0, 0, None); (e_b, 1024, 1, Some 100); (e_c, 2524, 2, Some 100)].
Proof.
  split; [exact e_reached|]. split; [repeat constructor; cbn; intuition discriminate|]. split; [cbn; intuition discriminate|]. vm_compute. reflexivity.
Qed.

(** C20 with a stale link: false.  The interface to a neighbor goes away; the
    neighbor's address there is not its main address, so that the link of this
    node to it stays (src/link_set.c:374), and the neighbor table no longer has
    it.  Then that neighbor, although still reachable over another neighbor,
    is given a path without next hop, hence no route. *)
Definition t_ops := [OMyEdge e_c; OMyEdge e_b; OEdge e_b e_me; OEdge e_c e_me; OEdge e_b e_c; OEdge e_c e_b; ODelMyEdge [10; 1; 0; 3]].
Theorem C20_stale_link_refuted :
  match init_tc e_me 32 with
  | Some s0 =>
      match grun s0 t_ops with
      | Some g =>
          match calculate g (fun _ => 1024) [mkNb e_b true (Some 100)] e_lc LINK_COST_BROKEN e_old with
          | Some r =>
              match sr_st r with
              | Some st => exists n x, g_nodes (sr_g r) n = Some x /\ gn_addr x = e_c /\ In n (s_path st) /\ s_nh st n = None
              | None => False
              end
          | None => False
          end
      | None => False
      end
  | None => False
  end.
Proof.
  destruct (init_tc e_me 32) as [s0|] eqn:E0; [|vm_compute in E0; discriminate].
  destruct (grun s0 t_ops) as [g|] eqn:E.
  2: { assert (X : match init_tc e_me 32 with Some s => match grun s t_ops with None => true | _ => false end | None => true end = true) by now rewrite E0, E. vm_compute in X. discriminate. }
  set (f := fun g => calculate g (fun _ => 1024) [mkNb e_b true (Some 100)] e_lc LINK_COST_BROKEN e_old).
  change (match f g with Some r => match sr_st r with Some st => exists n x, g_nodes (sr_g r) n = Some x /\ gn_addr x = e_c /\ In n (s_path st) /\ s_nh st n = None | None => False end | None => False end).
  assert (X : forall B (h : option sres -> B), h (f g) = h (match init_tc e_me 32 with Some s => match grun s t_ops with Some g => f g | None => None end | None => None end)) by (intros B h; now rewrite E0, E).
  destruct (f g) as [r|]; [|specialize (X _ (fun o => match o with Some _ => true | None => false end)); vm_compute in X; discriminate].
  destruct (sr_st r) as [st|] eqn:Es.
  2: { specialize (X _ (fun o => match o with Some r => match sr_st r with Some _ => true | None => false end | None => false end)). cbv beta iota in X. rewrite Es in X. vm_compute in X. discriminate. }
  assert (Y : exists n, find (fun n => match g_nodes (sr_g r) n with Some x => bytes_eqb (gn_addr x) e_c | None => false end) (s_path st) = Some n /\ s_nh st n = None).
  { specialize (X _ (fun o => match o with Some r => match sr_st r with Some st => match find (fun n => match g_nodes (sr_g r) n with Some x => bytes_eqb (gn_addr x) e_c | None => false end) (s_path st) with Some n => match s_nh st n with None => true | _ => false end | None => false end | None => false end | None => false end)).
    cbv beta iota in X. rewrite Es in X. destruct (find _ (s_path st)) as [n|]; [|vm_compute in X; discriminate]. exists n. split; [reflexivity|]. destruct (s_nh st n); [vm_compute in X; discriminate|reflexivity]. }
  destruct Y as (n & Y1 & Y2). apply find_some in Y1. destruct Y1 as (Y1 & Y3). exists n. destruct (g_nodes (sr_g r) n) as [x|]; [|discriminate]. exists x. apply bytes_eqb_spec in Y3. auto.
Qed.
Print Assumptions C20_stale_link_refuted.

(** C63, a symmetric neighbor with a good link is reached at most at the cost of
    that link: false in the calculation that first sees it, as the edge made
    there is given the cost of qualities zero. *)
Theorem C63_new_neighbor_refuted :
  match init_tc e_me 32 with
  | Some s0 =>
      match grun s0 [OEdge e_b e_me] with
      | Some g => e_out (calculate g (fun _ => 1024) [mkNb e_b true (Some 100)] e_lc LINK_COST_BROKEN e_old) = Some [(e_me, 0, 0, None)] /\ e_lc 100 < LINK_COST_BROKEN
      | None => False
      end
  | None => False
  end.
Proof.
  destruct (init_tc e_me 32) as [s0|] eqn:E0; [|vm_compute in E0; discriminate].
  destruct (grun s0 [OEdge e_b e_me]) as [g|] eqn:E.
  2: { assert (X : match init_tc e_me 32 with Some s => match grun s [OEdge e_b e_me] with None => true | _ => false end | None => true end = true) by now rewrite E0, E. vm_compute in X. discriminate. }
  split; [|reflexivity].
  set (f := fun g => e_out (calculate g (fun _ => 1024) [mkNb e_b true (Some 100)] e_lc LINK_COST_BROKEN e_old)). change (f g = Some [(e_me, 0, 0, None)]).
  replace (f g) with (match init_tc e_me 32 with Some s => match grun s [OEdge e_b e_me] with Some g => f g | None => None end | None => None end) by (now rewrite E0, E). vm_compute. reflexivity.
Qed.
Print Assumptions C63_new_neighbor_refuted.

(** C63, what holds: in a calculation before which the link to the neighbor was
    known in both directions, the neighbor is reached at most at that cost. *)
Theorem C63_known_neighbor_partial : forall main mp g A ec nbrs lcost newcost old W, reached main mp g A -> ~ no_main A -> NoDup (map nb_addr nbrs) ->
  let L := usable (refreshed (links_of g ec) (a_main A) nbrs lcost newcost) in
  (forall a b c, L a b c -> 0 <= c <= W) -> 0 <= W -> Z.of_nat (length (g_tree g)) * W < 2 ^ 32 - 1 ->
  forall b l c c', In (mkNb b true (Some l)) nbrs -> b <> a_main A -> links_of g ec (a_main A) b c -> links_of g ec b (a_main A) c' -> lcost l < 2 ^ 22 ->
  exists r st n, calculate g ec nbrs lcost newcost old = Some r /\ sr_st r = Some st /\ node_obj g b n /\ In n (s_path st) /\ s_cost st n <= lcost l.
Proof.
  intros main mp g A ec nbrs lcost newcost old W HRe NM ND L HW W0 W1 b l c c' Hb Nb L1 L2 Hl.
  destruct (C19_shortest_paths_partial main mp g A ec nbrs lcost newcost old W HRe NM ND HW W0 W1) as (r & st & E & Es & _ & _ & H).
  assert (N : exists n, node_obj g b n) by (destruct L2 as (i & (n & _ & _ & Nn & _) & _); eauto). destruct N as (n & Nn). exists r, st, n. split; [exact E|]. split; [exact Es|]. split; [exact Nn|].
  destruct (H b n Nn) as (H1 & _). assert (P : path L (a_main A) b (0 + lcost l) (0 + 1) (Some b)).
  { apply (p_link L _ (a_main A) b 0 0 None); [constructor|]. split; [right; right; split; [reflexivity|]; exists l; split; [exact Hb|]; left; split; [now exists c|reflexivity]|]. split; [exact Hl|]. exists c'. left. auto. }
  destruct (H1 _ _ _ P) as (A1 & A2). split; [exact A2|lia].
Qed.
Print Assumptions C63_known_neighbor_partial.

(** C19 without the bound on the sum of costs: false.  On a chain of 1026
    entries with links of cost 2^22-1 the sum of costs wraps around, an entry that
    is done looks worse than before, and the program removes it from a tree that
    it is not in. *)
Definition w_n : Z := 1025.
Definition w_addr (n : Z) : list Z := [10; 0; n / 256; n mod 256].
Definition w_g : gst :=
  mkGs 40000
    (fun n => if (0 <=? n) && (n <=? w_n) then Some (mkGn (w_addr n) 4 ((if n <? w_n then [10000 + n] else []) ++ (if 0 <? n then [20000 + n] else [])) [(w_addr n, 32)]) else None)
    (fun i => if (10000 <=? i) && (i <? 10000 + w_n) then Some (mkGe (w_addr (i - 10000 + 1)) (i - 10000) (Some (20000 + (i - 10000) + 1)))
              else if (20000 <? i) && (i <=? 20000 + w_n) then Some (mkGe (w_addr (i - 20000 - 1)) (i - 20000) (Some (10000 + (i - 20000) - 1)))
              else None)
    (map Z.of_nat (seq 0 (Z.to_nat (w_n + 1)))) (Some 0) (w_addr 0) 32.
Theorem C19_overflow_refuted : exists g ec lcost newcost,
  (forall i, 0 <= ec i < LINK_COST_BROKEN) /\
  (forall i e j, g_edges g i = Some e -> ge_inv e = Some j -> exists e', g_edges g j = Some e' /\ ge_inv e' = Some i) /\
  calculate g ec [] lcost newcost e_old = None.
Proof.
  exists w_g, (fun _ => LINK_COST_BROKEN - 1), (fun _ => 0), 0. split; [intros i; unfold LINK_COST_BROKEN; lia|]. split.
  - intros i e j. unfold w_g, w_n. cbn [g_edges]. destruct ((10000 <=? i) && (i <? 10000 + 1025)) eqn:B1.
    + intros H Hj. apply Some_inj in H. subst e. cbn [ge_inv] in Hj. apply Some_inj in Hj. subst j. eexists. split.
      * replace ((10000 <=? 20000 + (i - 10000) + 1) && (20000 + (i - 10000) + 1 <? 10000 + 1025)) with false by lia. replace ((20000 <? 20000 + (i - 10000) + 1) && (20000 + (i - 10000) + 1 <=? 20000 + 1025)) with true by lia. reflexivity.
      * cbn [ge_inv]. f_equal. lia.
    + destruct ((20000 <? i) && (i <=? 20000 + 1025)) eqn:B2; [|discriminate]. intros H Hj. apply Some_inj in H. subst e. cbn [ge_inv] in Hj. apply Some_inj in Hj. subst j. eexists. split.
      * replace ((10000 <=? 10000 + (i - 20000) - 1) && (10000 + (i - 20000) - 1 <? 10000 + 1025)) with true by lia. reflexivity.
      * cbn [ge_inv]. f_equal. lia.
  - vm_compute. reflexivity.
Qed.
Print Assumptions C19_overflow_refuted.

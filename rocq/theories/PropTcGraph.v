(** C18: the link state graph. *)
From Verif Require Import Base Bytes Parser TcGraph TcGraphSpec TcGraphProofs.

(** For every history of topology, MID, HNA, own link and main address events
    the program does not go wrong; afterwards the entries and links in the
    database are exactly those the history says; each once; the two records of
    a link name each other exactly if both directions are known; nothing else
    is allocated; and the reference counts are exact.  The histories are those
    in which this node's own entry does not expire and the main address does
    not become that of a known originator. *)
Theorem C18_link_graph_partial : forall main mp A0 ops A, start main mp A0 -> history mp A0 ops A ->
  exists s0 s, init_tc main mp = Some s0 /\ grun s0 ops = Some s /\
  (forall a, (exists n, node_obj s a n) <-> knows A a) /\
  (forall a b, (exists i, link_obj s a b i) <-> In (a, b) (a_links A)) /\
  (forall a p, (exists n x, node_obj s a n /\ g_nodes s n = Some x /\ In p (gn_pfx x)) <-> In (a, p) (a_pfx A)) /\
  (forall a n m, node_obj s a n -> node_obj s a m -> n = m) /\
  (forall a b i j, link_obj s a b i -> link_obj s a b j -> i = j) /\
  (forall a b i e, link_obj s a b i -> g_edges s i = Some e -> forall j, ge_inv e = Some j <-> link_obj s b a j) /\
  (forall n x, g_nodes s n = Some x -> node_obj s (gn_addr x) n /\ gn_refs x = 1 + Z.of_nat (length (gn_edges x)) + Z.of_nat (length (gn_pfx x))) /\
  (forall i e, g_edges s i = Some e -> exists a, link_obj s a (ge_dest e) i).
Proof.
  intros main mp A0 ops A HS HH. destruct (init_ok main mp A0 HS) as (s0 & E0 & R0). destruct (run_ok mp ops s0 A0 A R0 HH) as (s & E & R1). exists s0, s. split; [exact E0|]. split; [exact E|].
  destruct R1 as [I M MP Na La Pa Me].
  assert (NO : forall a n, node_obj s a n <-> exists x, g_nodes s n = Some x /\ gn_addr x = a).
  { intros a n. split; [intros (x & _ & B & C); now exists x|]. intros (x & B & C). exists x. split; [apply (iv_tree s I); congruence|auto]. }
  split; [intros a; unfold knows; rewrite <- Na; unfold NA; setoid_rewrite NO; reflexivity|].
  split; [intros a b; rewrite <- La; unfold LA; setoid_rewrite link_obj_ekey; [reflexivity|exact I]|].
  split. { intros a p. rewrite <- Pa. unfold PA. split.
    - intros (n & x & (y & _ & B & C) & D & F). exists n, x. assert (y = x) by congruence. subst y. auto.
    - intros (n & x & B & C & D). exists n, x. split; [apply NO; now exists x|auto]. }
  split. { intros a n m H1 H2. apply NO in H1, H2. destruct H1 as (x & B & C), H2 as (y & D & F). apply (iv_addr s I n m x y B D). congruence. }
  split; [intros a b i j H1 H2; apply link_obj_ekey in H1, H2; auto; apply (iv_key s I i j a b H1 H2)|].
  split; [intros a b i e H1 He j; rewrite link_obj_ekey by exact I; apply link_obj_ekey in H1; [|exact I]; apply (iv_inv s I i e a b j He H1)|].
  split.
  - intros n x Nx. split; [apply NO; now exists x|apply (iv_ref s I n x Nx)].
  - intros i e He. destruct (iv_own s I i e He) as (x & Nx & _). exists (gn_addr x). apply link_obj_ekey; [exact I|]. exists e, x. auto.
Qed.
Print Assumptions C18_link_graph_partial.

(** A removed originator leaves nothing of its links: no link from it is in the
    database and no other record names one as its reverse. *)
Theorem C18_removed_partial : forall main mp A0 ops a A, start main mp A0 -> history mp A0 (ops ++ [ODelEntry a]) A ->
  exists s0 s, init_tc main mp = Some s0 /\ grun s0 (ops ++ [ODelEntry a]) = Some s /\
  (forall n, ~ node_obj s a n) /\ (forall b i, ~ link_obj s a b i) /\ (forall b i e, link_obj s b a i -> g_edges s i = Some e -> ge_inv e = None).
Proof.
  intros main mp A0 ops a A HS HH. destruct (C18_link_graph_partial main mp A0 _ A HS HH) as (s0 & s & E0 & E & H1 & H2 & _ & _ & _ & H3 & _). exists s0, s. split; [exact E0|]. split; [exact E|].
  assert (X : exists B, A = without B a).
  { clear -HH. revert A0 HH. induction ops as [|o ops IH]; intros A0 HH; inversion HH; subst.
    - inversion H3; subst. inversion H5; subst. now exists A0.
    - now apply (IH A'). }
  destruct X as (B & ->). destruct (without_spec B a) as (W1 & W2 & _).
  assert (NL : forall b i, ~ link_obj s a b i). { intros b i L. assert (Q : In (a, b) (a_links (without B a))) by (apply H2; now exists i). apply W2 in Q. tauto. }
  split; [intros n N; assert (Q : knows (without B a) a) by (apply H1; now exists n); apply W1 in Q; tauto|]. split; [exact NL|].
  intros b i e L He. destruct (ge_inv e) as [j|] eqn:G; [|reflexivity]. exfalso. apply (NL b j). now apply (H3 b a i e L He j).
Qed.
Print Assumptions C18_removed_partial.

(** both directions of a link, one direction of another, then one end removed *)
Definition ex_me := [10; 0; 0; 1].
Definition ex_b := [10; 0; 0; 2].
Definition ex_c := [10; 0; 0; 3].
Definition ex_ops := [OMyEdge ex_b; OEdge ex_b ex_me; OEdge ex_b ex_c; OEdge ex_c ex_b; OPath ex_c [10; 1; 0; 0] 24; ODelEntry ex_c].
Definition ex_edges (o : option gst) : option (list (Z * list Z * option Z)) :=
  match o with
  | None => None
  | Some s => Some (flat_map (fun n => match g_nodes s n with None => [] | Some x => flat_map (fun i => match g_edges s i with None => [] | Some e => [(i, ge_dest e, ge_inv e)] end) (gn_edges x) end) (g_tree s))
  end.
Definition ex_run (ops : list gop) : option gst := match init_tc ex_me 32 with None => None | Some s => grun s ops end.
Example C18_ex : start ex_me 32 (with_node 32 (mkA ex_me [] [] []) ex_me) /\
  (exists A, history 32 (with_node 32 (mkA ex_me [] [] []) ex_me) ex_ops A) /\
  option_map (fun l => length l) (ex_edges (ex_run (firstn 5 ex_ops))) = Some 4%nat /\
  option_map (map snd) (ex_edges (ex_run (firstn 5 ex_ops))) = Some [Some 4; Some 6; Some 1; Some 3] /\
  option_map (map snd) (ex_edges (ex_run ex_ops)) = Some [None; Some 1; Some 3].
Proof.
  split; [reflexivity|]. split.
  - assert (NM : ~ no_main (mkA ex_me [] [] [])) by (intros Q; apply no_main_b in Q; discriminate Q).
    eexists. eapply h_cons; [exact Logic.I|apply m_my_edge; exact NM|].
    eapply h_cons; [exact Logic.I|apply m_edge; right; split; [|split; [exact NM|reflexivity]]|].
    { cbn. intros [Q|[]]. discriminate Q. }
    eapply h_cons; [exact Logic.I|apply m_edge; left; split; [now left|reflexivity]|].
    eapply h_cons; [exact Logic.I|apply m_edge; right; split; [|split; [exact NM|reflexivity]]|].
    { cbn. intros [Q|[Q|[]]]; discriminate Q. }
    eapply h_cons; [exact Logic.I|apply m_path; [lia|left; split; [now left|reflexivity]]|].
    eapply h_cons; [discriminate|apply m_del|]. apply h_nil.
  - vm_compute. repeat split; reflexivity.
Qed.

(** The main address becoming that of a known originator: the new entry is not
    put into the tree, and the next change of the main address takes out of the
    tree a node that is not in it. *)
Theorem C18_main_change_refuted : exists main a b c,
  match init_tc main 32 with
  | Some s0 =>
      match grun s0 [OEdge a b; OMain a] with
      | Some s => (exists m x, g_me s = Some m /\ g_nodes s m = Some x /\ ~ In m (g_tree s)) /\ gstep s (OMain c) = None
      | None => False
      end
  | None => False
  end.
Proof.
  exists [10; 0; 0; 1], [10; 0; 0; 2], [10; 0; 0; 3], [10; 0; 0; 4].
  destruct (init_tc [10; 0; 0; 1] 32) as [s0|] eqn:E0; [|vm_compute in E0; discriminate].
  destruct (grun s0 [OEdge [10; 0; 0; 2] [10; 0; 0; 3]; OMain [10; 0; 0; 2]]) as [s|] eqn:E.
  2: { apply (f_equal (fun o => match o with Some x => match grun x [OEdge [10; 0; 0; 2] [10; 0; 0; 3]; OMain [10; 0; 0; 2]] with None => true | _ => false end | None => false end)) in E0. rewrite E in E0. vm_compute in E0. discriminate. }
  assert (X : forall B (f : gst -> B), option_map f (match init_tc [10; 0; 0; 1] 32 with Some x => grun x [OEdge [10; 0; 0; 2] [10; 0; 0; 3]; OMain [10; 0; 0; 2]] | None => None end) = Some (f s)) by (intros B f; rewrite E0, E; reflexivity).
  split.
  - destruct (g_me s) as [m|] eqn:G; [|specialize (X _ g_me); rewrite G in X; vm_compute in X; discriminate].
    destruct (g_nodes s m) as [x|] eqn:N.
    + exists m, x. split; [reflexivity|]. split; [exact N|]. intros T.
      pose proof (X _ (fun s => match g_me s with Some m => existsb (Z.eqb m) (g_tree s) | None => false end)) as Y. cbv beta in Y. rewrite G in Y.
      assert (Z : existsb (Z.eqb m) (g_tree s) = true) by (apply existsb_exists; exists m; split; [exact T|apply Z.eqb_refl]). rewrite Z in Y. vm_compute in Y. discriminate.
    + pose proof (X _ (fun s => match g_me s with Some m => match g_nodes s m with None => true | _ => false end | None => false end)) as Y. cbv beta in Y. rewrite G, N in Y. vm_compute in Y. discriminate.
  - pose proof (X _ (fun s => match gstep s (OMain [10; 0; 0; 4]) with None => true | _ => false end)) as Y. cbv beta in Y.
    destruct (gstep s (OMain [10; 0; 0; 4])) as [t|]; [vm_compute in Y; discriminate|reflexivity].
Qed.
Print Assumptions C18_main_change_refuted.

(** C62, an originator that nothing is known of any more is forgotten: false.
    The prefix of an HNA message makes an entry; when the prefix expires the
    entry stays, and only a topology message would have started the timer that
    removes it (src/tc_set.c:909; olsr_locate_tc_entry starts none). *)
Theorem C62_forgotten_refuted : exists main mp A0 a d l A, start main mp A0 /\ ~ knows A0 a /\
  history mp A0 [OPath a d l; ODelPath a d l] A /\
  match init_tc main mp with
  | Some s0 => match grun s0 [OPath a d l; ODelPath a d l] with Some s => exists n x, node_obj s a n /\ g_nodes s n = Some x /\ gn_edges x = [] /\ gn_pfx x = [(a, mp)] | None => False end
  | None => False
  end.
Proof.
  set (A0 := with_node 32 (mkA ex_me [] [] []) ex_me).
  assert (NM : ~ no_main A0) by (intros Q; apply no_main_b in Q; discriminate Q).
  assert (NK : ~ knows A0 ex_b) by (intros [Q|[]]; discriminate Q).
  assert (HS : start ex_me 32 A0) by reflexivity.
  assert (HH : history 32 A0 [OPath ex_b [10; 1; 0; 0] 24; ODelPath ex_b [10; 1; 0; 0] 24] (without_pfx (with_pfx (with_node 32 A0 ex_b) ex_b ([10; 1; 0; 0], 24)) ex_b ([10; 1; 0; 0], 24))).
  { eapply h_cons; [exact Logic.I|apply m_path; [lia|right; split; [exact NK|split; [exact NM|reflexivity]]]|]. eapply h_cons; [exact Logic.I|apply m_del_path; lia|]. apply h_nil. }
  exists ex_me, 32, A0, ex_b, [10; 1; 0; 0], 24. eexists. split; [exact HS|]. split; [exact NK|]. split; [exact HH|].
  destruct (C18_link_graph_partial _ _ _ _ _ HS HH) as (s0 & s & E0 & E & H1 & H2 & H3 & U & _).
  assert (K : exists n, node_obj s ex_b n) by (apply H1; now left). destruct K as (n & Nn). pose proof Nn as (x & T & Nx & Ax). rewrite E0, E. exists n, x. split; [exact Nn|]. split; [exact Nx|].
  assert (X : forall B (f : gst -> B), option_map f (match init_tc ex_me 32 with Some x => grun x [OPath ex_b [10; 1; 0; 0] 24; ODelPath ex_b [10; 1; 0; 0] 24] | None => None end) = Some (f s)) by (intros B f; rewrite E0, E; reflexivity).
  assert (n = 1).
  { apply (U ex_b); [exact Nn|]. pose proof (X _ (fun s => (existsb (Z.eqb 1) (g_tree s), option_map gn_addr (g_nodes s 1)))) as Y. cbv beta in Y. destruct (g_nodes s 1) as [y|] eqn:N1; [|vm_compute in Y; discriminate].
    exists y. destruct (existsb (Z.eqb 1) (g_tree s)) eqn:X1; [|vm_compute in Y; discriminate]. apply existsb_exists in X1. destruct X1 as (m & X1 & X2). apply Z.eqb_eq in X2. subst m. split; [exact X1|]. split; [exact N1|].
    destruct y as [ya yr ye yp]. cbn [option_map gn_addr] in Y. vm_compute in Y. injection Y as Y. symmetry. exact Y. }
  subst n. pose proof (X _ (fun s => option_map (fun x => (gn_edges x, gn_pfx x)) (g_nodes s 1))) as Y. cbv beta in Y. rewrite Nx in Y. cbn [option_map] in Y. vm_compute in Y. injection Y as Y1 Y2. auto.
Qed.
Print Assumptions C62_forgotten_refuted.

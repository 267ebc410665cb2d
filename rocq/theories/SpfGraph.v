(** From the entries in memory to addresses: lemmas for C19 and C20. *)
From Verif Require Import Base Bytes Parser TcGraph TcGraphSpec TcGraphProofs Spf SpfSpec SpfProofs.

Definition adj_i (g : gst) (ec : Z -> Z) (i : Z) : list (Z * Z) :=
  match g_edges g i with
  | Some e => match ge_inv e with
              | Some j => if ec i >=? LINK_COST_BROKEN then [] else match g_edges g j with Some ej => [(ge_tc ej, ec i)] | None => [] end
              | None => []
              end
  | None => []
  end.
Definition adjg (g : gst) (ec : Z -> Z) (p : Z) : list (Z * Z) := match g_nodes g p with None => [] | Some x => flat_map (adj_i g ec) (gn_edges x) end.

Lemma relax_all_app p l1 l2 st : relax_all p (l1 ++ l2) st = match relax_all p l1 st with None => None | Some st' => relax_all p l2 st' end.
Proof. revert st. induction l1 as [|[v c] l1 IH]; intros st; [reflexivity|]. cbn [app relax_all]. destruct (relax1 p st v c); [apply IH|reflexivity]. Qed.

Lemma ekey_of g i e : Inv g -> g_edges g i = Some e -> exists x, g_nodes g (ge_tc e) = Some x /\ ekey g i (gn_addr x) (ge_dest e).
Proof. intros I He. destruct (iv_own g I i e He) as (x & Nx & _). exists x. split; [exact Nx|]. exists e, x. auto. Qed.

Lemma relax_edges_adj g ec p : Inv g -> forall l st, (forall i, In i l -> g_edges g i <> None) -> relax_edges g ec p l st = relax_all p (flat_map (adj_i g ec) l) st.
Proof.
  intros I. induction l as [|i l IH]; intros st H; [reflexivity|]. cbn [relax_edges flat_map]. rewrite relax_all_app. unfold adj_i at 1.
  destruct (g_edges g i) as [e|] eqn:Ee; [|exfalso; apply (H i); [now left|exact Ee]].
  assert (H' : forall i0, In i0 l -> g_edges g i0 <> None) by (intros k Hk; apply H; now right).
  destruct (ge_inv e) as [j|] eqn:Ej; [|cbn [relax_all]; now apply IH]. destruct (ec i >=? LINK_COST_BROKEN); [cbn [relax_all]; now apply IH|].
  destruct (ekey_of g i e I Ee) as (x & _ & K). apply (iv_inv g I i e _ _ j Ee K) in Ej. destruct Ej as (ej & y & Q & _). rewrite Q. cbn [relax_all].
  destruct (relax1 p st (ge_tc ej) (ec i)); [now apply IH|reflexivity].
Qed.

Lemma relax_adj g ec p st : Inv g -> g_nodes g p <> None -> relax g ec p st = relax_all p (adjg g ec p) st.
Proof.
  intros I H. unfold relax, adjg. destruct (g_nodes g p) as [x|] eqn:N; [|congruence]. apply relax_edges_adj; [exact I|]. intros i Hi. destruct (iv_edges g I p x i N Hi) as (e & He & _). congruence.
Qed.

(** which entries are adjacent *)
Lemma adj_spec g ec p v c : Inv g -> (In (v, c) (adjg g ec p) <->
  exists x y i, g_nodes g p = Some x /\ g_nodes g v = Some y /\ ekey g i (gn_addr x) (gn_addr y) /\ ec i = c /\ c < LINK_COST_BROKEN /\ exists j, ekey g j (gn_addr y) (gn_addr x)).
Proof.
  intros I. unfold adjg. split.
  - destruct (g_nodes g p) as [x|] eqn:N; [|intros []]. intros H. apply in_flat_map in H. destruct H as (i & Hi & H). unfold adj_i in H.
    destruct (iv_edges g I p x i N Hi) as (e & He & T). rewrite He in H. destruct (ge_inv e) as [j|] eqn:Ej; [|destruct H]. destruct (ec i >=? LINK_COST_BROKEN) eqn:B; [destruct H|].
    assert (K : ekey g i (gn_addr x) (ge_dest e)) by (exists e, x; rewrite T; auto).
    apply (iv_inv g I i e _ _ j He K) in Ej. pose proof Ej as (ej & y & Q1 & Q2 & Q3 & Q4). rewrite Q1 in H. destruct H as [H|[]]. injection H as <- <-.
    exists x, y, i. rewrite Q3. repeat split; auto; [lia|]. exists j. exact Ej.
  - intros (x & y & i & N & Ny & K & Ec & B & j & Kj). rewrite N. apply in_flat_map. exists i. pose proof K as (e & x' & He & Nx' & A1 & A2).
    destruct (iv_own g I i e He) as (x'' & Nx'' & Hi). assert (x'' = x') by congruence. subst x''.
    assert (ge_tc e = p) by (apply (iv_addr g I _ _ x' x Nx' N A1)). subst p. assert (x' = x) by congruence. subst x'. split; [exact Hi|].
    unfold adj_i. rewrite He. assert (Ei : ge_inv e = Some j) by (apply (iv_inv g I i e _ _ j He K), Kj). rewrite Ei. rewrite Ec. replace (c >=? LINK_COST_BROKEN) with false by lia.
    destruct Kj as (ej & y' & Q1 & Q2 & Q3 & Q4). rewrite Q1. left. assert (ge_tc ej = v) as -> by (apply (iv_addr g I _ _ y' y Q2 Ny Q3)). reflexivity.
Qed.

Definition addr_of (g : gst) (n : Z) : option (list Z) := option_map gn_addr (g_nodes g n).
Definition LC (g : gst) (ec : Z -> Z) : links := fun a b c => exists i, ekey g i a b /\ ec i = c.

Lemma addr_some g n a : addr_of g n = Some a <-> exists x, g_nodes g n = Some x /\ gn_addr x = a.
Proof. unfold addr_of. destruct (g_nodes g n) as [x|]; cbn; split; [intros H; apply Some_inj in H; eauto|intros (y & Q & R); apply Some_inj in Q; congruence|discriminate|intros (y & Q & _); discriminate]. Qed.

Lemma adj_usable g ec p v c a b : Inv g -> addr_of g p = Some a -> addr_of g v = Some b -> (In (v, c) (adjg g ec p) <-> usable (LC g ec) a b c).
Proof.
  intros I Ap Av. rewrite (adj_spec g ec p v c I). apply addr_some in Ap, Av. destruct Ap as (x & Nx & <-), Av as (y & Ny & <-). unfold usable, LC. change (2 ^ 22) with LINK_COST_BROKEN. split.
  - intros (x' & y' & i & N1 & N2 & K & E & B & j & Kj). assert (x' = x) by congruence. assert (y' = y) by congruence. subst. split; [exists i; auto|]. split; [exact B|]. exists (ec j), j. auto.
  - intros ((i & K & E) & B & c' & j & Kj & _). exists x, y, i. repeat split; auto. exists j. exact Kj.
Qed.

Lemma adj_addr g ec p v c : Inv g -> In (v, c) (adjg g ec p) -> exists a b, addr_of g p = Some a /\ addr_of g v = Some b.
Proof. intros I H. apply adj_spec in H; [|exact I]. destruct H as (x & y & i & N1 & N2 & _). exists (gn_addr x), (gn_addr y). split; apply addr_some; eauto. Qed.

Lemma usable_node g ec a b c : usable (LC g ec) a b c -> exists n m, addr_of g n = Some a /\ addr_of g m = Some b.
Proof. intros ((i & (e & x & K1 & K2 & K3 & _) & _) & _ & c' & j & (e' & y & J1 & J2 & J3 & _) & _). exists (ge_tc e), (ge_tc e'). split; apply addr_some; eauto. Qed.

Lemma addr_inj g n m a : Inv g -> addr_of g n = Some a -> addr_of g m = Some a -> n = m.
Proof. intros I H1 H2. apply addr_some in H1, H2. destruct H1 as (x & N1 & A1), H2 as (y & N2 & A2). apply (iv_addr g I n m x y N1 N2). congruence. Qed.

(** walks are paths *)
Lemma walk_path g ec me main : Inv g -> addr_of g me = Some main -> forall v d k f, walk (adjg g ec) me v d k f ->
  exists a fa, addr_of g v = Some a /\ path (usable (LC g ec)) main a d k fa /\ match f with None => fa = None | Some u => addr_of g u = fa /\ fa <> None end.
Proof.
  intros I Hme v d k f H. induction H as [|p v d k f c H IH Hc].
  - exists main, None. split; [exact Hme|]. split; [constructor|reflexivity].
  - destruct IH as (b & fb & Ab & Pb & Fb). destruct (adj_addr g ec p v c I Hc) as (b' & a & Ap & Av). assert (b' = b) by congruence. subst b'.
    exists a. eexists. split; [exact Av|]. split; [eapply p_link; [exact Pb|]; now apply (adj_usable g ec p v c b a I Ap Av)|].
    destruct f as [u|].
    + destruct Fb as (Fb & Nb). destruct fb; [|congruence]. split; [exact Fb|discriminate].
    + subst fb. split; [exact Av|discriminate].
Qed.
Lemma path_walk g ec me main : Inv g -> addr_of g me = Some main -> forall a d k fa, path (usable (LC g ec)) main a d k fa ->
  exists v f, addr_of g v = Some a /\ walk (adjg g ec) me v d k f.
Proof.
  intros I Hme a d k fa H. induction H as [|b v d k f c H IH Hc].
  - exists me, None. split; [exact Hme|constructor].
  - destruct IH as (p & fp & Ap & Wp). destruct (usable_node g ec b v c Hc) as (n & m & An & Am). exists m. eexists. split; [exact Am|]. eapply w_step; [exact Wp|]. now apply (adj_usable g ec p m c b v I Ap Am).
Qed.

Lemma path_split L a v d k b : path L a v d k (Some b) -> exists c f, L a b c /\ path L b v (d - c) (k - 1) f.
Proof.
  intros H. remember (Some b) as fb eqn:E. induction H as [|p v d k f c H IH Hc]; [discriminate|]. destruct f as [u|].
  - destruct (IH E) as (c0 & f0 & L0 & P0). exists c0. eexists. split; [exact L0|]. replace (d + c - c0) with (d - c0 + c) by lia. replace (k + 1 - 1) with (k - 1 + 1) by lia. eapply p_link; [exact P0|exact Hc].
  - apply Some_inj in E. subst v. assert (X : p = a /\ d = 0 /\ k = 0). { inversion H; subst; [auto|]. destruct f; discriminate. }
    destruct X as (-> & -> & ->). exists c, None. split; [exact Hc|]. replace (0 + c - c) with 0 by lia. constructor.
Qed.

(** the while loop on the database *)
Lemma run_loop g ec me W nh0 : Inv g -> In me (g_tree g) ->
  (forall p v c, In p (g_tree g) -> In (v, c) (adjg g ec p) -> In v (g_tree g) /\ 0 <= c <= W) -> 0 <= W -> Z.of_nat (length (g_tree g)) * W < ROUTE_COST_BROKEN ->
  forall fuel D st, DI (adjg g ec) me (g_tree g) W nh0 D st -> run_full fuel g ec st = loop (adjg g ec) fuel st.
Proof.
  intros I Hme HA W0 W1. induction fuel as [|f IH]; intros D st Hd; cbn [run_full loop]; destruct (s_cand st) as [|p C] eqn:Hc; try reflexivity.
  rewrite relax_adj; [|exact I|].
  2: { apply (iv_tree g I). apply (di_V _ _ _ _ _ _ _ Hd), in_or_app. right. rewrite Hc. now left. }
  destruct (settle_ok (adjg g ec) me (g_tree g) W nh0 HA W0 W1 D p C st Hd Hc) as (st1 & cd & -> & -> & I1). now apply (IH (D ++ [p])).
Qed.

(** * the edges of this node *)
Lemma tree_nodes g g' : Inv g -> Inv g' -> g_tree g' = g_tree g -> forall n, g_nodes g' n <> None <-> g_nodes g n <> None.
Proof. intros I I' T n. rewrite <- (iv_tree g' I'), <- (iv_tree g I), T. reflexivity. Qed.
Lemma ak_addr g g' : Inv g -> Inv g' -> g_tree g' = g_tree g -> AK g g' -> forall n, addr_of g' n = addr_of g n.
Proof.
  intros I I' T K n. unfold addr_of. destruct (g_nodes g n) as [x|] eqn:N.
  - rewrite <- N. apply K. congruence.
  - destruct (g_nodes g' n) as [y|] eqn:N'; [|reflexivity]. exfalso. assert (Q : g_nodes g n <> None) by (apply (tree_nodes g g' I I' T n); congruence). congruence.
Qed.

Definition eff (b : nbr) : option Z := if nb_sym b then nb_link b else None.
Definition LC1 (L : links) main (b : nbr) lcost newcost : links := fun u v c =>
  ((u <> main \/ v <> nb_addr b) /\ L u v c) \/
  (u = main /\ v = nb_addr b /\ exists l, eff b = Some l /\ (((exists c0, L u v c0) /\ c = lcost l) \/ (~ (exists c0, L u v c0) /\ c = newcost))).

Lemma prep1_ok lcost newcost me main g ec nh b : Inv g -> addr_of g me = Some main ->
  exists g' ec' nh', prep1 lcost newcost me (g, ec, nh) b = Some (g', ec', nh') /\ Inv g' /\ frame g g' /\ (forall n, addr_of g' n = addr_of g n) /\
  (forall u v c, LC g' ec' u v c <-> LC1 (LC g ec) main b lcost newcost u v c) /\
  (forall n, addr_of g n <> Some (nb_addr b) -> nh' n = nh n) /\
  (forall n l, addr_of g n = Some (nb_addr b) -> eff b = Some l -> nb_addr b <> main -> (exists c, LC g ec (nb_addr b) main c) -> nh' n = Some l).
Proof.
  intros I Hme. pose proof Hme as Hme'. apply addr_some in Hme'. destruct Hme' as (x & Nx & Ax). unfold prep1. fold (eff b). destruct (eff b) as [l|] eqn:Eb.
  - destruct (lookup_edge_ok g me x (nb_addr b) I Nx) as (r & -> & S). rewrite Ax in S.
    assert (G : exists g' i ec', (match r with Some i => Some (g, i, updf ec i (lcost l)) | None => match add_edge g me (nb_addr b) with None => None | Some (g', i) => Some (g', i, updf ec i newcost) end end) = Some (g', i, ec') /\
      Inv g' /\ frame g g' /\ AK g g' /\ ekey g' i main (nb_addr b) /\ (forall j u v, ekey g' j u v <-> ekey g j u v \/ (j = i /\ u = main /\ v = nb_addr b)) /\
      (forall u v c, LC g' ec' u v c <-> LC1 (LC g ec) main b lcost newcost u v c)).
    { destruct r as [i|].
      - exists g, i, (updf ec i (lcost l)). split; [reflexivity|]. split; [exact I|]. split; [apply frame_refl|]. split; [apply AK_refl|]. split; [exact S|]. split.
        + intros j u v. split; [auto|]. intros [Q|(-> & -> & ->)]; [exact Q|exact S].
        + intros u v c. unfold LC, LC1. split.
          * intros (j & K & Ec). destruct (Z.eq_dec j i) as [->|Nj].
            -- right. rewrite updf_same in Ec. destruct K as (e1 & z1 & A1 & A2 & A3 & A4), S as (e2 & z2 & B1 & B2 & B3 & B4). assert (e1 = e2) by congruence. subst e2. assert (z1 = z2) by congruence. subst z2.
               split; [congruence|]. split; [congruence|]. exists l. split; [exact Eb|]. left. split; [|congruence]. exists (ec i), i. split; [|reflexivity]. exists e1, z1. auto.
            -- left. rewrite updf_other in Ec by exact Nj. split; [|now exists j]. destruct (addr_eq_dec u main) as [->|]; [|now left]. destruct (addr_eq_dec v (nb_addr b)) as [->|]; [|now right]. exfalso. apply Nj. apply (iv_key g I j i _ _ K S).
          * intros [(Q & j & K & Ec)|(-> & -> & l' & El & [(_ & ->)|(Q & _)])].
            -- exists j. split; [exact K|]. rewrite updf_other; [exact Ec|]. intros ->. destruct K as (e1 & z1 & A1 & A2 & A3 & A4), S as (e2 & z2 & B1 & B2 & B3 & B4). assert (e1 = e2) by congruence. subst e2. assert (z1 = z2) by congruence. subst z2. destruct Q; congruence.
            -- exists i. split; [exact S|]. rewrite updf_same. congruence.
            -- exfalso. apply Q. exists (ec i), i. auto.
      - rewrite <- Ax in S. destruct (add_edge_ok g me x (nb_addr b) I Nx S) as (g' & i & -> & I' & F & K & NA' & PA' & AK'). rewrite Ax in *. exists g', i, (updf ec i newcost). split; [reflexivity|]. split; [exact I'|]. split; [exact F|]. split; [exact AK'|].
        assert (Ki : ekey g' i main (nb_addr b)) by (apply K; right; auto). split; [exact Ki|]. split; [exact K|].
        assert (Fi : forall u v, ~ ekey g i u v). { intros u v Q. assert (Q' : ekey g' i u v) by (apply K; now left). destruct Q' as (e1 & z1 & A1 & A2 & A3 & A4), Ki as (e2 & z2 & B1 & B2 & B3 & B4). assert (e1 = e2) by congruence. subst e2. assert (z1 = z2) by congruence. subst z2. subst u v. rewrite B3, B4 in Q. now apply (S i). }
        intros u v c. unfold LC, LC1. split.
        + intros (j & Kj & Ec). apply K in Kj. destruct Kj as [Kj|(-> & -> & ->)].
          * left. rewrite updf_other in Ec by (intros ->; now apply (Fi u v)). split; [|now exists j]. destruct (addr_eq_dec u main) as [->|]; [|now left]. destruct (addr_eq_dec v (nb_addr b)) as [->|]; [|now right]. exfalso. now apply (S j).
          * right. split; [reflexivity|]. split; [reflexivity|]. exists l. split; [exact Eb|]. right. rewrite updf_same in Ec. split; [|congruence]. intros (c0 & j & Kj & _). now apply (S j).
        + intros [(Q & j & Kj & Ec)|(-> & -> & l' & El & [((c0 & j & Kj & _) & _)|(_ & ->)])].
          * exists j. split; [apply K; now left|]. rewrite updf_other by (intros ->; now apply (Fi u v)). exact Ec.
          * exfalso. now apply (S j).
          * exists i. split; [exact Ki|apply updf_same]. }
    destruct G as (g' & i & ec' & -> & I' & F & AK' & Ki & K & HL). pose proof (ak_addr g g' I I' (proj1 F) AK') as AD.
    pose proof Ki as (e & x' & He & Nx' & A1 & A2). rewrite He. destruct (ge_inv e) as [j|] eqn:Ej.
    + pose proof Ej as Ej'. apply (iv_inv g' I' i e _ _ j He Ki) in Ej'. pose proof Ej' as (ej & y & Hj & Ny & B1 & B2). rewrite Hj. exists g', ec', (updf nh (ge_tc ej) (Some l)). split; [reflexivity|].
      assert (Ay : addr_of g (ge_tc ej) = Some (nb_addr b)) by (rewrite <- AD; apply addr_some; eauto).
      repeat (split; [assumption|]). split.
      * intros n Hn. apply updf_other. intros ->. contradiction.
      * intros n l' Hn El _ _. assert (n = ge_tc ej) as -> by apply (addr_inj g _ _ _ I Hn Ay). rewrite updf_same. congruence.
    + exists g', ec', nh. split; [reflexivity|]. repeat (split; [assumption|]). split; [reflexivity|].
      intros n l' Hn El Nm (c & j & Kj & _). exfalso. assert (Q : ge_inv e = Some j); [|congruence]. apply (iv_inv g' I' i e _ _ j He Ki). apply K. now left.
  - unfold drop_edge. destruct (lookup_edge_ok g me x (nb_addr b) I Nx) as (r & -> & S). rewrite Ax in S. destruct r as [i|].
    + destruct (delete_edge_ok g i _ _ I S) as (g' & -> & I' & F & K & NV). destruct (nv_facts g g' _ NV) as (NA' & PA' & AK'). exists g', ec, nh. split; [reflexivity|]. split; [exact I'|]. split; [exact F|]. split; [apply (ak_addr g g' I I' (proj1 F) AK')|]. split; [|split; [reflexivity|intros; congruence]].
      intros u v c. unfold LC, LC1. split.
      * intros (j & Kj & Ec). apply K in Kj. destruct Kj as (Kj & Nj). left. split; [|now exists j]. destruct (addr_eq_dec u main) as [->|]; [|now left]. destruct (addr_eq_dec v (nb_addr b)) as [->|]; [|now right]. exfalso. apply Nj. apply (iv_key g I j i _ _ Kj S).
      * intros [(Q & j & Kj & Ec)|(_ & _ & l' & El & _)]; [|congruence]. exists j. split; [|exact Ec]. apply K. split; [exact Kj|]. intros ->. destruct Kj as (e1 & z1 & A1 & A2 & A3 & A4), S as (e2 & z2 & B1 & B2 & B3 & B4). assert (e1 = e2) by congruence. subst e2. assert (z1 = z2) by congruence. subst z2. destruct Q; congruence.
    + exists g, ec, nh. split; [reflexivity|]. split; [exact I|]. split; [apply frame_refl|]. split; [reflexivity|]. split; [|split; [reflexivity|intros; congruence]].
      intros u v c. unfold LC, LC1. split.
      * intros (j & Kj & Ec). left. split; [|now exists j]. destruct (addr_eq_dec u main) as [->|]; [|now left]. destruct (addr_eq_dec v (nb_addr b)) as [->|]; [|now right]. exfalso. now apply (S j).
      * intros [(Q & H)|(_ & _ & l' & El & _)]; [exact H|congruence].
Qed.

Lemma refreshed_cons L main b l lcost newcost : NoDup (map nb_addr (b :: l)) -> forall u v c,
  refreshed (LC1 L main b lcost newcost) main l lcost newcost u v c <-> refreshed L main (b :: l) lcost newcost u v c.
Proof.
  intros N u v c. cbn [map] in N. apply NoDup_cons_iff in N. destruct N as (Nb & N).
  assert (IN : forall w k, In (mkNb w true k) l -> In w (map nb_addr l)) by (intros w k Q; apply (in_map nb_addr) in Q; exact Q).
  unfold refreshed. cbn [map In]. destruct (addr_eq_dec u main) as [->|Nu].
  2: { assert (E : forall c, LC1 L main b lcost newcost u v c <-> L u v c) by (intros c0; unfold LC1; intuition congruence). rewrite E. intuition congruence. }
  destruct (addr_eq_dec v (nb_addr b)) as [->|Nv].
  - split.
    + intros [(Q & _)|[(_ & _ & [(Q & _)|(_ & _ & k & Ek & H)])|(_ & k & Hk & _)]]; [congruence|destruct Q; congruence| |exfalso; apply Nb; apply (IN _ _ Hk)].
      right. right. split; [reflexivity|]. exists k. split; [|exact H]. left. destruct b as [ba bs bl]. cbn in *. unfold eff in Ek. cbn in Ek. destruct bs; [congruence|discriminate].
    + intros [(Q & _)|[(_ & Q & _)|(_ & k & [Hk|Hk] & H)]]; [congruence|exfalso; apply Q; now left| |exfalso; apply Nb, (IN _ _ Hk)].
      right. left. split; [reflexivity|]. split; [exact Nb|]. right. split; [reflexivity|]. split; [reflexivity|]. exists k. split; [rewrite Hk; reflexivity|exact H].
  - assert (E : forall c, LC1 L main b lcost newcost main v c <-> L main v c) by (intros c0; unfold LC1; intuition congruence).
    assert (E2 : (exists c0, LC1 L main b lcost newcost main v c0) <-> exists c0, L main v c0) by (split; intros (c0 & H); exists c0; now apply E). specialize (E c). split.
    + intros [(Q & _)|[(_ & Q & H)|(_ & k & Hk & H)]]; [congruence|right; left; split; [reflexivity|]; split; [intros [?|?]; congruence|now apply E]|right; right; split; [reflexivity|]; exists k; split; [now right|tauto]].
    + intros [(Q & _)|[(_ & Q & H)|(_ & k & [Hk|Hk] & H)]]; [congruence|right; left; split; [reflexivity|]; split; [intros ?; apply Q; now right|now apply E]| |right; right; split; [reflexivity|]; exists k; split; [exact Hk|tauto]].
      exfalso. apply Nv. rewrite Hk. reflexivity.
Qed.

Lemma refreshed_ext L1 L2 main l lcost newcost : (forall u v c, L1 u v c <-> L2 u v c) -> forall u v c, refreshed L1 main l lcost newcost u v c <-> refreshed L2 main l lcost newcost u v c.
Proof.
  intros H u v c. unfold refreshed. assert (E : (exists c0, L1 u v c0) <-> exists c0, L2 u v c0) by (split; intros (c0 & Q); exists c0; now apply H). rewrite H.
  split; (intros [A|[A|(A & k & B & C)]]; [now left|right; now left|right; right; split; [exact A|]; exists k; split; [exact B|]]); tauto.
Qed.

Lemma prep_ok lcost newcost me main : forall nbrs g ec nh, Inv g -> addr_of g me = Some main -> NoDup (map nb_addr nbrs) ->
  exists g' ec' nh', prep lcost newcost me (g, ec, nh) nbrs = Some (g', ec', nh') /\ Inv g' /\ frame g g' /\ (forall n, addr_of g' n = addr_of g n) /\
  (forall u v c, LC g' ec' u v c <-> refreshed (LC g ec) main nbrs lcost newcost u v c) /\
  (forall n, (forall a, In a (map nb_addr nbrs) -> addr_of g n <> Some a) -> nh' n = nh n) /\
  (forall n a l, addr_of g n = Some a -> In (mkNb a true (Some l)) nbrs -> a <> main -> (exists c, LC g ec a main c) -> nh' n = Some l).
Proof.
  induction nbrs as [|b nbrs IH]; intros g ec nh I Hme N; cbn [prep].
  - exists g, ec, nh. split; [reflexivity|]. split; [exact I|]. split; [apply frame_refl|]. split; [reflexivity|]. split; [|split; [reflexivity|intros n a l _ []]].
    intros u v c. unfold refreshed. cbn [map In]. destruct (addr_eq_dec u main) as [->|Nu]; [|intuition congruence]. split; [intros H; right; left; auto|]. intros [(Q & _)|[(_ & _ & H)|(_ & k & [] & _)]]; [congruence|exact H].
  - destruct (prep1_ok lcost newcost me main g ec nh b I Hme) as (g1 & ec1 & nh1 & -> & I1 & F1 & AD1 & HL1 & O1 & S1).
    pose proof N as N'. cbn [map] in N'. apply NoDup_cons_iff in N'. destruct N' as (Nb & N').
    destruct (IH g1 ec1 nh1 I1 ltac:(rewrite AD1; exact Hme) N') as (g2 & ec2 & nh2 & -> & I2 & F2 & AD2 & HL2 & O2 & S2).
    exists g2, ec2, nh2. split; [reflexivity|]. split; [exact I2|]. split; [apply (frame_trans _ _ _ F1 F2)|]. split; [intros n; now rewrite AD2, AD1|]. split; [|split].
    + intros u v c. rewrite HL2. rewrite (refreshed_ext _ _ main nbrs lcost newcost HL1). now apply refreshed_cons.
    + intros n Hn. rewrite O2 by (intros a Ha; rewrite AD1; apply Hn; now right). apply O1. apply Hn. now left.
    + intros n a l Hn [Hb|Hb] Nm (c & Hc).
      * rewrite O2. 2: { intros a' Ha' Q. rewrite AD1, Hn in Q. apply Some_inj in Q. subst a'. apply Nb. rewrite Hb. exact Ha'. }
        apply S1; [rewrite Hb; exact Hn|rewrite Hb; reflexivity|rewrite Hb; exact Nm|]. rewrite Hb. now exists c.
      * apply (S2 n a l); [now rewrite AD1|exact Hb|exact Nm|]. exists c. apply HL1. left. split; [now left|exact Hc].
Qed.

Lemma init_all_spec {A} (f : Z -> A) v l n : init_all f v l n = if existsb (Z.eqb n) l then v else f n.
Proof.
  unfold init_all. revert f. induction l as [|m l IH]; intros f; [reflexivity|]. cbn [fold_left existsb]. rewrite IH. unfold updf. destruct (existsb (Z.eqb n) l), (n =? m); reflexivity.
Qed.

Lemma calculate_ok mp g A ec nbrs lcost newcost old W : R mp g A -> ~ no_main A -> NoDup (map nb_addr nbrs) ->
  (forall a b c, usable (refreshed (LC g ec) (a_main A) nbrs lcost newcost) a b c -> 0 <= c <= W) -> 0 <= W -> Z.of_nat (length (g_tree g)) * W < ROUTE_COST_BROKEN ->
  exists r st nh0, calculate g ec nbrs lcost newcost old = Some r /\ sr_st r = Some st /\ Inv (sr_g r) /\ g_tree (sr_g r) = g_tree g /\ (forall n, addr_of (sr_g r) n = addr_of g n) /\
  (forall u v c, LC (sr_g r) (sr_ec r) u v c <-> refreshed (LC g ec) (a_main A) nbrs lcost newcost u v c) /\
  (forall n a l, addr_of g n = Some a -> In (mkNb a true (Some l)) nbrs -> a <> a_main A -> (exists c, LC g ec a (a_main A) c) -> nh0 n = Some l) /\
  (forall n, In n (g_tree g) -> (forall a, In a (map nb_addr nbrs) -> addr_of g n <> Some a) -> nh0 n = None) /\
  exists me, addr_of g me = Some (a_main A) /\
  (forall v d k f, walk (adjg (sr_g r) (sr_ec r)) me v d k f -> In v (s_path st) /\ s_cost st v <= d) /\
  (forall v, In v (s_path st) -> way (adjg (sr_g r) (sr_ec r)) me nh0 st v /\ s_cost st v < ROUTE_COST_BROKEN) /\
  (forall v, In v (g_tree g) -> ~ In v (s_path st) -> s_cost st v = ROUTE_COST_BROKEN) /\ incl (s_path st) (g_tree g).
Proof.
  intros HR NM ND HW W0 W1. pose proof HR as [I M MP Na La Pa Me]. unfold calculate.
  assert (CM : change_myself g = Some g). { destruct (g_me g) as [n|] eqn:Eme; [|destruct Me; contradiction]. destruct Me as (Me & _). unfold change_myself. rewrite Eme. destruct (g_nodes g n) as [x|]; [|discriminate]. cbn in Me. apply Some_inj in Me. now rewrite Me, M, beq_refl. }
  rewrite CM. destruct (g_me g) as [me|] eqn:Eme; [|destruct Me; contradiction]. destruct Me as (Me & _). fold (addr_of g me) in Me.
  set (nh1 := init_all (s_nh old) None (g_tree g)).
  destruct (prep_ok lcost newcost me (a_main A) nbrs g ec nh1 I Me ND) as (g2 & ec2 & nh2 & -> & I2 & F2 & AD & HL & O2 & S2).
  assert (T2 : g_tree g2 = g_tree g) by apply F2.
  assert (Tme : In me (g_tree g2)) by (apply (iv_tree g2 I2); rewrite <- AD in Me; apply addr_some in Me; destruct Me as (x & Q & _); congruence).
  assert (HA : forall p v c, In p (g_tree g2) -> In (v, c) (adjg g2 ec2 p) -> In v (g_tree g2) /\ 0 <= c <= W).
  { intros p v c _ Hv. destruct (adj_addr g2 ec2 p v c I2 Hv) as (a & b & Ap & Av). split; [apply (iv_tree g2 I2); apply addr_some in Av; destruct Av as (y & Q & _); congruence|].
    apply (adj_usable g2 ec2 p v c a b I2 Ap Av) in Hv. apply (HW a b c). destruct Hv as (V1 & V2 & c' & V3). split; [now apply HL|]. split; [exact V2|]. exists c'. now apply HL. }
  set (cost1 := updf (init_all (s_cost old) ROUTE_COST_BROKEN (g_tree g)) me 0). set (hops0 := init_all (s_hops old) 0 (g_tree g)).
  assert (EX : forall n, In n (g_tree g) -> existsb (Z.eqb n) (g_tree g) = true) by (intros n Hn; apply existsb_exists; exists n; split; [exact Hn|apply Z.eqb_refl]).
  assert (SS : start_st me (g_tree g2) cost1 hops0).
  { rewrite T2. split; intros v Hv; [|unfold hops0; now rewrite init_all_spec, EX]. unfold cost1, updf. destruct (v =? me); [reflexivity|]. now rewrite init_all_spec, EX. }
  rewrite <- T2 in W1.
  destruct (core_ok (adjg g2 ec2) me (g_tree g2) W nh2 Tme HA W0 W1 cost1 hops0 (S (length (g_tree g2))) SS ltac:(lia)) as (st & E & C1 & C2 & C3 & C4 & C5 & C6).
  cbn [cinsert]. rewrite (run_loop g2 ec2 me W nh2 I2 Tme HA W0 W1 _ []).
  2: { apply start_ok; auto. }
  rewrite E. exists (mkSr g2 ec2 (Some st)), st, nh2. cbn [sr_g sr_ec sr_st]. rewrite T2 in *.
  split; [reflexivity|]. split; [reflexivity|]. split; [exact I2|]. split; [reflexivity|]. split; [exact AD|]. split; [exact HL|]. split; [exact S2|].
  split; [intros n Hn Ha; rewrite O2 by exact Ha; unfold nh1; now rewrite init_all_spec, EX|]. exists me. auto 10.
Qed.

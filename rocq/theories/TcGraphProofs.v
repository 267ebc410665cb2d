(** Proofs about the link state database. *)
From Verif Require Import Base Compare Parser ParserProofs TcGraph TcGraphSpec.

Definition ekey (s : gst) (i : Z) (a b : list Z) : Prop :=
  exists e x, g_edges s i = Some e /\ g_nodes s (ge_tc e) = Some x /\ gn_addr x = a /\ ge_dest e = b.

Record Inv (s : gst) : Prop := {
  iv_nd : NoDup (g_tree s);
  iv_tree : forall n, In n (g_tree s) <-> g_nodes s n <> None;
  iv_addr : forall n m x y, g_nodes s n = Some x -> g_nodes s m = Some y -> gn_addr x = gn_addr y -> n = m;
  iv_own : forall i e, g_edges s i = Some e -> exists x, g_nodes s (ge_tc e) = Some x /\ In i (gn_edges x);
  iv_edges : forall n x i, g_nodes s n = Some x -> In i (gn_edges x) -> exists e, g_edges s i = Some e /\ ge_tc e = n;
  iv_end : forall n x, g_nodes s n = Some x -> NoDup (gn_edges x);
  iv_key : forall i j a b, ekey s i a b -> ekey s j a b -> i = j;
  iv_inv : forall i e a b j, g_edges s i = Some e -> ekey s i a b -> (ge_inv e = Some j <-> ekey s j b a);
  iv_pnd : forall n x, g_nodes s n = Some x -> NoDup (gn_pfx x);
  iv_ref : forall n x, g_nodes s n = Some x -> gn_refs x = 1 + Z.of_nat (length (gn_edges x)) + Z.of_nat (length (gn_pfx x));
  iv_fn : forall n, g_nodes s n <> None -> n < g_next s;
  iv_fe : forall i, g_edges s i <> None -> i < g_next s }.

Definition frame (s s' : gst) : Prop := g_tree s' = g_tree s /\ g_me s' = g_me s /\ g_main s' = g_main s /\ g_maxplen s' = g_maxplen s.
Lemma frame_refl s : frame s s. Proof. repeat split. Qed.
Lemma frame_trans a b c : frame a b -> frame b c -> frame a c.
Proof. intros (A1 & A2 & A3 & A4) (B1 & B2 & B3 & B4). repeat split; congruence. Qed.

Lemma upd_same {A} (f : Z -> option A) i v : upd f i v i = v.
Proof. unfold upd. now rewrite Z.eqb_refl. Qed.
Lemma upd_other {A} (f : Z -> option A) i v j : j <> i -> upd f i v j = f j.
Proof. intros H. unfold upd. replace (j =? i) with false by lia. reflexivity. Qed.

Lemma beq_refl a : bytes_eqb a a = true. Proof. now apply bytes_eqb_spec. Qed.
Lemma beq_neq a b : a <> b -> bytes_eqb a b = false.
Proof. intros H. destruct (bytes_eqb a b) eqn:E; [apply bytes_eqb_spec in E; congruence|reflexivity]. Qed.

(** * lookups *)
Lemma lookup_in_ok s a l : (forall n, In n l -> g_nodes s n <> None) ->
  exists r, lookup_in s a l = Some r /\
  match r with Some n => In n l /\ exists x, g_nodes s n = Some x /\ gn_addr x = a | None => forall n x, In n l -> g_nodes s n = Some x -> gn_addr x <> a end.
Proof.
  induction l as [|n l IH]; intros H; cbn [lookup_in].
  - exists None. split; [reflexivity|]. intros n x [].
  - destruct (g_nodes s n) as [x|] eqn:E; [|exfalso; apply (H n); [now left|exact E]].
    destruct (bytes_eqb (gn_addr x) a) eqn:B.
    + apply bytes_eqb_spec in B. exists (Some n). split; [reflexivity|]. split; [now left|]. exists x. auto.
    + destruct IH as (r & -> & S); [intros m Hm; apply H; now right|]. exists r. split; [reflexivity|]. destruct r as [m|].
      * destruct S as (S1 & S2). split; [now right|exact S2].
      * intros m y [<-|Hm] Hy; [|now apply (S m)]. assert (y = x) by congruence. subst y. intros Q. rewrite Q, beq_refl in B. discriminate.
Qed.
Lemma lookup_ok s a : Inv s -> exists r, lookup_tc s a = Some r /\
  match r with Some n => exists x, g_nodes s n = Some x /\ gn_addr x = a | None => forall n x, g_nodes s n = Some x -> gn_addr x <> a end.
Proof.
  intros I. destruct (lookup_in_ok s a (g_tree s)) as (r & E & S); [intros n Hn; now apply (iv_tree s I)|].
  exists r. split; [exact E|]. destruct r; [tauto|]. intros n x Hn. apply (S n x); [|exact Hn]. apply (iv_tree s I). congruence.
Qed.
Lemma lookup_edge_in_ok s b l : (forall i, In i l -> g_edges s i <> None) ->
  exists r, lookup_edge_in s b l = Some r /\
  match r with Some i => In i l /\ exists e, g_edges s i = Some e /\ ge_dest e = b | None => forall i e, In i l -> g_edges s i = Some e -> ge_dest e <> b end.
Proof.
  induction l as [|n l IH]; intros H; cbn [lookup_edge_in].
  - exists None. split; [reflexivity|]. intros n x [].
  - destruct (g_edges s n) as [x|] eqn:E; [|exfalso; apply (H n); [now left|exact E]].
    destruct (bytes_eqb (ge_dest x) b) eqn:B.
    + apply bytes_eqb_spec in B. exists (Some n). split; [reflexivity|]. split; [now left|]. exists x. auto.
    + destruct IH as (r & -> & S); [intros m Hm; apply H; now right|]. exists r. split; [reflexivity|]. destruct r as [m|].
      * destruct S as (S1 & S2). split; [now right|exact S2].
      * intros m y [<-|Hm] Hy; [|now apply (S m)]. assert (y = x) by congruence. subst y. intros Q. rewrite Q, beq_refl in B. discriminate.
Qed.
Lemma lookup_edge_ok s n x b : Inv s -> g_nodes s n = Some x -> exists r, lookup_tc_edge s n b = Some r /\
  match r with Some i => ekey s i (gn_addr x) b | None => forall i, ~ ekey s i (gn_addr x) b end.
Proof.
  intros I N. unfold lookup_tc_edge. rewrite N.
  destruct (lookup_edge_in_ok s b (gn_edges x)) as (r & E & S).
  { intros i Hi. destruct (iv_edges s I n x i N Hi) as (e & -> & _). discriminate. }
  exists r. split; [exact E|]. destruct r as [i|].
  - destruct S as (Hi & e & Ee & Eb). destruct (iv_edges s I n x i N Hi) as (e' & E' & T). assert (e' = e) by congruence. subst e'.
    exists e, x. rewrite T. auto.
  - intros i (e & y & Ee & Ny & Ay & Db). assert (T : ge_tc e = n) by (apply (iv_addr s I _ _ y x); auto). rewrite T in Ny.
    destruct (iv_own s I i e Ee) as (z & Nz & Hz). rewrite T in Nz. assert (z = x) by congruence. subst z. now apply (S i e).
Qed.

Lemma filter_len_in (l : list Z) i : NoDup l -> In i l -> length l = S (length (filter (fun k => negb (i =? k)) l)).
Proof.
  induction l as [|x l IH]; intros N H; [contradiction|]. inversion N as [|? ? N1 N2]; subst. cbn [filter length]. destruct (Z.eqb_spec i x) as [->|Q].
  - cbn [negb]. assert (F : filter (fun k => negb (x =? k)) l = l).
    { clear - N1. induction l as [|y l IH]; [reflexivity|]. cbn [filter]. destruct (Z.eqb_spec x y) as [->|]; [exfalso; apply N1; now left|]. cbn [negb]. rewrite IH; [reflexivity|]. intros Q. apply N1. now right. }
    now rewrite F.
  - cbn [negb length]. destruct H as [H|H]; [congruence|]. now rewrite (IH N2 H).
Qed.

(** * deleting a link *)
Lemma delete_edge_ok s i a b : Inv s -> ekey s i a b -> exists s', delete_edge s i = Some s' /\ Inv s' /\ frame s s' /\
  (forall j u v, ekey s' j u v <-> ekey s j u v /\ j <> i) /\
  (forall n, match g_nodes s n with
             | Some x => exists y, g_nodes s' n = Some y /\ gn_addr y = gn_addr x /\ gn_pfx y = gn_pfx x /\ gn_edges y = filter (fun k => negb (i =? k)) (gn_edges x)
             | None => g_nodes s' n = None
             end).
Proof.
  intros I (e & x & Ee & Nx & Ax & Db). unfold delete_edge. rewrite Ee, Nx.
  destruct (iv_own s I i e Ee) as (x' & Nx' & Hi). assert (x' = x) by congruence. subst x'.
  assert (Ex : existsb (Z.eqb i) (gn_edges x) = true) by (apply existsb_exists; exists i; split; [exact Hi|apply Z.eqb_refl]). rewrite Ex. cbn [negb].
  set (es := filter (fun k => negb (i =? k)) (gn_edges x)). unfold unlock_tc, set_node at 1. cbn [g_nodes]. rewrite upd_same. cbn [gn_refs gn_addr gn_edges gn_pfx].
  pose proof (iv_ref s I _ x Nx) as Rf. pose proof (filter_len_in (gn_edges x) i (iv_end s I _ x Nx) Hi) as Le. fold es in Le.
  replace (gn_refs x - 1 =? 0) with false by lia.
  set (s1 := set_node (set_node s (ge_tc e) _) (ge_tc e) _).
  assert (N1 : forall n, g_nodes s1 n = if n =? ge_tc e then Some (mkGn (gn_addr x) (gn_refs x - 1) es (gn_pfx x)) else g_nodes s n).
  { intros n. unfold s1, set_node. cbn [g_nodes]. unfold upd. destruct (n =? ge_tc e); reflexivity. }
  assert (E1 : g_edges s1 = g_edges s) by reflexivity.
  assert (AD : forall n, option_map gn_addr (g_nodes s1 n) = option_map gn_addr (g_nodes s n)).
  { intros n. rewrite N1. destruct (Z.eqb_spec n (ge_tc e)) as [->|]; [rewrite Nx|]; reflexivity. }
  (* all outcomes have these nodes and these links *)
  assert (MAIN : forall f, (forall j, f j = if j =? i then None else match g_edges s j with
                       | Some ej => Some (mkGe (ge_dest ej) (ge_tc ej) (if match ge_inv ej with Some k => k =? i | None => false end then None else ge_inv ej)) | None => None end) ->
    let s' := mkGs (g_next s) (g_nodes s1) f (g_tree s) (g_me s) (g_main s) (g_maxplen s) in
    Inv s' /\ (forall j u v, ekey s' j u v <-> ekey s j u v /\ j <> i)).
  { intros f F s'.
    assert (K : forall j u v, ekey s' j u v <-> ekey s j u v /\ j <> i).
    { intros j u v. unfold ekey, s'. cbn [g_edges g_nodes]. split.
      - intros (ej & y & Ej & Ny & Ay & Dj). rewrite F in Ej. destruct (Z.eqb_spec j i) as [->|Nj]; [discriminate|]. split; [|exact Nj].
        destruct (g_edges s j) as [ej0|] eqn:Ej0; [|discriminate]. apply Some_inj in Ej. subst ej. cbn [ge_tc ge_dest] in *.
        pose proof (AD (ge_tc ej0)) as Q. rewrite Ny in Q. cbn [option_map] in Q. destruct (g_nodes s (ge_tc ej0)) as [y0|] eqn:Y0; [|discriminate].
        cbn [option_map] in Q. apply Some_inj in Q. exists ej0, y0. rewrite Y0. repeat split; congruence.
      - intros ((ej & y & Ej & Ny & Ay & Dj) & Nj).
        pose proof (AD (ge_tc ej)) as Q. rewrite Ny in Q. destruct (g_nodes s1 (ge_tc ej)) as [y0|] eqn:Y0; [|discriminate]. cbn [option_map] in Q. apply Some_inj in Q.
        eexists _, y0. rewrite F. replace (j =? i) with false by lia. rewrite Ej. split; [reflexivity|]. cbn [ge_tc ge_dest]. repeat split; congruence. }
    split; [|exact K]. constructor; unfold s'; cbn [g_tree g_nodes g_edges g_next].
    - apply (iv_nd s I).
    - intros n. rewrite (iv_tree s I n), N1. destruct (Z.eqb_spec n (ge_tc e)) as [->|]; [rewrite Nx; split; discriminate|tauto].
    - intros n m y z Ny Nz Q. pose proof (AD n) as Q1. pose proof (AD m) as Q2. rewrite Ny in Q1. rewrite Nz in Q2. cbn [option_map] in *.
      destruct (g_nodes s n) as [y0|] eqn:Y0; [|discriminate]. destruct (g_nodes s m) as [z0|] eqn:Z0; [|discriminate]. cbn [option_map] in *.
      apply Some_inj in Q1, Q2. apply (iv_addr s I n m y0 z0 Y0 Z0). congruence.
    - intros j ej Ej. rewrite F in Ej. destruct (Z.eqb_spec j i) as [->|Nj]; [discriminate|]. destruct (g_edges s j) as [ej0|] eqn:Ej0; [|discriminate].
      apply Some_inj in Ej. subst ej. cbn [ge_tc]. destruct (iv_own s I j ej0 Ej0) as (y & Ny & Hy). rewrite N1.
      destruct (Z.eqb_spec (ge_tc ej0) (ge_tc e)) as [Q|Q]; [|exists y; auto].
      eexists. split; [reflexivity|]. cbn [gn_edges]. unfold es. apply filter_In. rewrite Q in Ny. assert (y = x) by congruence. subst y. split; [exact Hy|]. lia.
    - intros n y j Ny Hj. rewrite N1 in Ny. destruct (Z.eqb_spec n (ge_tc e)) as [->|Q].
      + apply Some_inj in Ny. subst y. cbn [gn_edges] in Hj. unfold es in Hj. apply filter_In in Hj. destruct Hj as (Hj & Nj).
        destruct (iv_edges s I _ x j Nx Hj) as (ej & Ej & T). eexists. rewrite F. replace (j =? i) with false by lia. rewrite Ej. split; [reflexivity|exact T].
      + destruct (iv_edges s I n y j Ny Hj) as (ej & Ej & T). eexists. rewrite F.
        replace (j =? i) with false. 2: { symmetry. apply Z.eqb_neq. intros ->. congruence. } rewrite Ej. split; [reflexivity|exact T].
    - intros n y Ny. rewrite N1 in Ny. destruct (n =? ge_tc e); [|now apply (iv_end s I n)]. apply Some_inj in Ny. subst y. cbn [gn_edges]. unfold es. apply NoDup_filter. now apply (iv_end s I _ x Nx).
    - intros j k u v Kj Kk. apply K in Kj, Kk. apply (iv_key s I j k u v); tauto.
    - intros j ej u v k Ej Kj. rewrite F in Ej. apply K in Kj. destruct Kj as (Kj & Nj). replace (j =? i) with false in Ej by lia.
      destruct (g_edges s j) as [ej0|] eqn:Ej0; [|discriminate]. apply Some_inj in Ej. subst ej. cbn [ge_inv]. fold s'. rewrite K.
      rewrite <- (iv_inv s I j ej0 u v k Ej0 Kj). destruct (ge_inv ej0) as [k0|]; [|split; [discriminate|intros (Q & _); discriminate]].
      destruct (Z.eqb_spec k0 i) as [->|Nk]; split.
      + discriminate.
      + intros (Q & Q2). apply Some_inj in Q. congruence.
      + intros Q. split; [exact Q|]. apply Some_inj in Q. congruence.
      + tauto.
    - intros n y Ny. rewrite N1 in Ny. destruct (n =? ge_tc e); [|now apply (iv_pnd s I n)]. apply Some_inj in Ny. subst y. cbn [gn_pfx]. now apply (iv_pnd s I _ x Nx).
    - intros n y Ny. rewrite N1 in Ny. destruct (n =? ge_tc e); [|now apply (iv_ref s I n)]. apply Some_inj in Ny. subst y. cbn [gn_refs gn_edges gn_pfx]. lia.
    - intros n Hn. apply (iv_fn s I). rewrite N1 in Hn. destruct (Z.eqb_spec n (ge_tc e)) as [Qn|Qn]; [rewrite Qn, Nx; discriminate|exact Hn].
    - intros j Hj. apply (iv_fe s I). rewrite F in Hj. destruct (Z.eqb_spec j i) as [Qj|Qj]; [congruence|]. destruct (g_edges s j); congruence. }
  assert (NV : forall f n, match g_nodes s n with
             | Some y => exists z, g_nodes (mkGs (g_next s) (g_nodes s1) f (g_tree s) (g_me s) (g_main s) (g_maxplen s)) n = Some z /\ gn_addr z = gn_addr y /\ gn_pfx z = gn_pfx y /\ gn_edges z = filter (fun k => negb (i =? k)) (gn_edges y)
             | None => g_nodes (mkGs (g_next s) (g_nodes s1) f (g_tree s) (g_me s) (g_main s) (g_maxplen s)) n = None end).
  { intros f n. cbn [g_nodes]. rewrite N1. destruct (Z.eqb_spec n (ge_tc e)) as [->|Q].
    - rewrite Nx. eexists. split; [reflexivity|]. cbn. auto.
    - destruct (g_nodes s n) as [y|] eqn:Y; [|reflexivity]. exists y. repeat split; auto. symmetry.
      assert (Ni : ~ In i (gn_edges y)) by (intros H; destruct (iv_edges s I n y i Y H) as (e' & E' & T); congruence).
      clear - Ni. induction (gn_edges y) as [|k l IH]; [reflexivity|]. cbn [filter]. destruct (Z.eqb_spec i k) as [->|]; [exfalso; apply Ni; now left|]. cbn [negb]. rewrite IH; [reflexivity|]. intros Q. apply Ni. now right. }
  assert (Ki : ekey s i a b) by (exists e, x; auto).
  destruct (ge_inv e) as [j|] eqn:Ei.
  - pose proof (proj1 (iv_inv s I i e a b j Ee Ki) Ei) as Kj. pose proof Kj as (ej & y & Ej & Ny & Ay & Dj).
    assert (Vj : ge_inv ej = Some i) by (apply (iv_inv s I j ej b a i Ej Kj); exact Ki).
    rewrite E1, Ej. eexists. split; [reflexivity|].
    assert (F : forall k, upd (upd (g_edges s) j (Some (mkGe (ge_dest ej) (ge_tc ej) None))) i None k = if k =? i then None else match g_edges s k with
                       | Some ek => Some (mkGe (ge_dest ek) (ge_tc ek) (if match ge_inv ek with Some q => q =? i | None => false end then None else ge_inv ek)) | None => None end).
    { intros k. unfold upd. destruct (Z.eqb_spec k i); [reflexivity|]. destruct (Z.eqb_spec k j) as [->|Nk]; [rewrite Ej, Vj, Z.eqb_refl; reflexivity|].
      destruct (g_edges s k) as [ek|] eqn:Ek; [|reflexivity]. destruct (ge_inv ek) as [q|] eqn:Eq; [|destruct ek; cbn in *; now subst].
      destruct (Z.eqb_spec q i) as [->|]; [|destruct ek; cbn in *; now subst]. exfalso. apply Nk.
      destruct (iv_own s I k ek Ek) as (w & Nw & _). assert (Kk : ekey s k (gn_addr w) (ge_dest ek)) by (exists ek, w; auto).
      pose proof (proj1 (iv_inv s I k ek _ _ i Ek Kk) Eq) as K2. apply (iv_key s I k j b a); [|exact Kj].
      destruct K2 as (e2 & x2 & E2 & X2 & A2 & D2). assert (e2 = e) by congruence. subst e2. assert (x2 = x) by congruence. subst x2. rewrite <- Ax, <- Db, A2, D2. exact Kk. }
    destruct (MAIN _ F) as (M1 & M2). split; [exact M1|]. split; [repeat split|]. split; [exact M2|apply NV].
  - eexists. split; [reflexivity|].
    assert (F : forall k, upd (g_edges s) i None k = if k =? i then None else match g_edges s k with
                       | Some ek => Some (mkGe (ge_dest ek) (ge_tc ek) (if match ge_inv ek with Some q => q =? i | None => false end then None else ge_inv ek)) | None => None end).
    { intros k. unfold upd. destruct (Z.eqb_spec k i); [reflexivity|].
      destruct (g_edges s k) as [ek|] eqn:Ek; [|reflexivity]. destruct (ge_inv ek) as [q|] eqn:Eq; [|destruct ek; cbn in *; now subst].
      destruct (Z.eqb_spec q i) as [->|]; [|destruct ek; cbn in *; now subst]. exfalso.
      destruct (iv_own s I k ek Ek) as (w & Nw & _). assert (Kk : ekey s k (gn_addr w) (ge_dest ek)) by (exists ek, w; auto).
      pose proof (proj1 (iv_inv s I k ek _ _ i Ek Kk) Eq) as K2.
      assert (Q : ge_inv e = Some k) by (apply (iv_inv s I i e _ _ k Ee K2); exact Kk). congruence. }
    destruct (MAIN _ F) as (M1 & M2). split; [exact M1|]. split; [repeat split|]. split; [exact M2|apply NV].
Qed.

(** * what the database contains *)
Definition NA (s : gst) (a : list Z) : Prop := exists n x, g_nodes s n = Some x /\ gn_addr x = a.
Definition LA (s : gst) (a b : list Z) : Prop := exists i, ekey s i a b.
Definition PA (s : gst) (a : list Z) (p : list Z * Z) : Prop := exists n x, g_nodes s n = Some x /\ gn_addr x = a /\ In p (gn_pfx x).

(** entries keep their place *)
Definition AK (s s' : gst) : Prop := forall m, g_nodes s m <> None -> option_map gn_addr (g_nodes s' m) = option_map gn_addr (g_nodes s m).
Lemma AK_refl s : AK s s. Proof. intros m H. reflexivity. Qed.
Lemma AK_trans a b c : AK a b -> AK b c -> AK a c.
Proof. intros H1 H2 m H. specialize (H1 m H). rewrite <- H1. apply H2. destruct (g_nodes a m); [|congruence]. destruct (g_nodes b m); [discriminate|discriminate]. Qed.

Lemma pfx_eqb_spec p q : pfx_eqb p q = true <-> p = q.
Proof. unfold pfx_eqb. rewrite andb_true_iff, bytes_eqb_spec, Z.eqb_eq. destruct p, q; cbn [fst snd]. split; [intros (-> & ->); reflexivity|intros Q; injection Q; auto]. Qed.

(** the prefixes of an entry change *)
Lemma set_pfx_ok s n x y s' : Inv s -> g_nodes s n = Some x -> gn_addr y = gn_addr x -> gn_edges y = gn_edges x -> NoDup (gn_pfx y) ->
  gn_refs y = 1 + Z.of_nat (length (gn_edges y)) + Z.of_nat (length (gn_pfx y)) ->
  (forall m, g_nodes s' m = if m =? n then Some y else g_nodes s m) -> g_edges s' = g_edges s -> g_next s' = g_next s -> g_tree s' = g_tree s ->
  Inv s' /\ (forall i u v, ekey s' i u v <-> ekey s i u v) /\ (forall u, NA s' u <-> NA s u) /\
  (forall u p, PA s' u p <-> (u = gn_addr x /\ In p (gn_pfx y)) \/ (u <> gn_addr x /\ PA s u p)) /\ AK s s'.
Proof.
  intros I N Ya Ye Yn Yr N1 E1 X1 T1.
  assert (AD : forall m, option_map gn_addr (g_nodes s' m) = option_map gn_addr (g_nodes s m) /\ option_map gn_edges (g_nodes s' m) = option_map gn_edges (g_nodes s m)).
  { intros m. rewrite N1. destruct (Z.eqb_spec m n) as [->|]; [rewrite N; cbn; now rewrite Ya, Ye|auto]. }
  assert (B1 : forall m z, g_nodes s' m = Some z -> exists w, g_nodes s m = Some w /\ gn_addr w = gn_addr z /\ gn_edges w = gn_edges z).
  { intros m z Z1. destruct (AD m) as (Q1 & Q2). rewrite Z1 in Q1, Q2. destruct (g_nodes s m) as [w|]; [|discriminate]. cbn in *. exists w. apply Some_inj in Q1, Q2. auto. }
  assert (B2 : forall m z, g_nodes s m = Some z -> exists w, g_nodes s' m = Some w /\ gn_addr w = gn_addr z /\ gn_edges w = gn_edges z).
  { intros m z Z1. destruct (AD m) as (Q1 & Q2). rewrite Z1 in Q1, Q2. destruct (g_nodes s' m) as [w|]; [|discriminate]. cbn in *. exists w. apply Some_inj in Q1, Q2. auto. }
  assert (K : forall i u v, ekey s' i u v <-> ekey s i u v).
  { intros i u v. unfold ekey. rewrite E1. split; intros (e & z & A & B & C & D).
    - destruct (B1 _ _ B) as (w & W1 & W2 & _). exists e, w. repeat split; congruence.
    - destruct (B2 _ _ B) as (w & W1 & W2 & _). exists e, w. repeat split; congruence. }
  split; [|split; [exact K|split; [|split; [|intros m _; apply (AD m)]]]].
  - constructor.
    + rewrite T1. apply (iv_nd s I).
    + intros m. rewrite T1, (iv_tree s I m), N1. destruct (Z.eqb_spec m n) as [->|]; [rewrite N; split; discriminate|tauto].
    + intros m k z w Zm Wk Q. destruct (B1 _ _ Zm) as (z0 & Z1 & Z2 & _). destruct (B1 _ _ Wk) as (w0 & W1 & W2 & _). apply (iv_addr s I m k z0 w0); congruence.
    + intros i e E. rewrite E1 in E. destruct (iv_own s I i e E) as (z & Z1 & Z2). destruct (B2 _ _ Z1) as (w & W1 & _ & W2). exists w. rewrite W2. auto.
    + intros m z i Zm Hi. rewrite E1. destruct (B1 _ _ Zm) as (w & W1 & _ & W2). rewrite <- W2 in Hi. apply (iv_edges s I m w i W1 Hi).
    + intros m z Zm. destruct (B1 _ _ Zm) as (w & W1 & _ & W2). rewrite <- W2. apply (iv_end s I m w W1).
    + intros i j u v Ki Kj. apply K in Ki, Kj. apply (iv_key s I i j u v Ki Kj).
    + intros i e u v j E Ki. rewrite E1 in E. rewrite K in *. apply (iv_inv s I i e u v j E Ki).
    + intros m z Zm. rewrite N1 in Zm. destruct (m =? n); [apply Some_inj in Zm; now subst|apply (iv_pnd s I m z Zm)].
    + intros m z Zm. rewrite N1 in Zm. destruct (m =? n); [apply Some_inj in Zm; now subst|apply (iv_ref s I m z Zm)].
    + intros m Hm. rewrite X1. apply (iv_fn s I). rewrite N1 in Hm. destruct (Z.eqb_spec m n) as [Q|Q]; [congruence|exact Hm].
    + intros i Hi. rewrite X1. apply (iv_fe s I). now rewrite <- E1.
  - intros u. unfold NA. split; intros (m & z & A & B); [destruct (B1 _ _ A) as (w & W1 & W2 & _)|destruct (B2 _ _ A) as (w & W1 & W2 & _)]; exists m, w; split; congruence.
  - intros u p. unfold PA. split.
    + intros (m & z & A & B & C). rewrite N1 in A. destruct (Z.eqb_spec m n) as [->|Q].
      * apply Some_inj in A. subst z. left. split; [congruence|exact C].
      * destruct (addr_eq_dec u (gn_addr x)) as [Qu|Qu]; [|right; split; [exact Qu|exists m, z; auto]]. exfalso. apply Q. apply (iv_addr s I m n z x A N). congruence.
    + intros [(-> & C)|(Q & m & z & A & B & C)].
      * exists n, y. rewrite N1, Z.eqb_refl. auto.
      * exists m, z. rewrite N1. destruct (Z.eqb_spec m n) as [->|]; [|auto]. exfalso. apply Q. congruence.
Qed.

Lemma filter_plen p (l : list (list Z * Z)) : NoDup l -> In p l -> length l = S (length (filter (fun q => negb (pfx_eqb p q)) l)).
Proof.
  induction l as [|x l IH]; intros N H; [contradiction|]. inversion N as [|? ? N1 N2]; subst. cbn [filter length]. destruct (pfx_eqb p x) eqn:Q.
  - apply pfx_eqb_spec in Q. subst x. cbn [negb]. assert (F : filter (fun q => negb (pfx_eqb p q)) l = l).
    { clear - N1. induction l as [|y l IH]; [reflexivity|]. cbn [filter]. destruct (pfx_eqb p y) eqn:Q; [apply pfx_eqb_spec in Q; subst; exfalso; apply N1; now left|]. cbn [negb]. rewrite IH; [reflexivity|]. intros Q'. apply N1. now right. }
    now rewrite F.
  - cbn [negb length]. destruct H as [H|H]; [exfalso; assert (pfx_eqb p x = true) by (apply pfx_eqb_spec; congruence); congruence|]. now rewrite (IH N2 H).
Qed.

Lemma add_path_ok s n x p : Inv s -> g_nodes s n = Some x -> exists s', add_path s n p = Some s' /\ Inv s' /\ frame s s' /\
  (forall i u v, ekey s' i u v <-> ekey s i u v) /\ (forall u, NA s' u <-> NA s u) /\ (forall u q, PA s' u q <-> PA s u q \/ (u = gn_addr x /\ q = p)) /\
  AK s s'.
Proof.
  intros I N. unfold add_path. rewrite N. destruct (existsb (pfx_eqb p) (gn_pfx x)) eqn:E.
  - exists s. split; [reflexivity|]. split; [exact I|]. split; [apply frame_refl|]. split; [tauto|]. split; [tauto|]. split; [|apply AK_refl].
    intros u q. split; [auto|]. intros [H|(-> & ->)]; [exact H|]. apply existsb_exists in E. destruct E as (q & Hq & Q). apply pfx_eqb_spec in Q. subst q. exists n, x. auto.
  - unfold lock_tc, set_node at 1. cbn [g_nodes]. rewrite upd_same. cbn [gn_addr gn_refs gn_edges gn_pfx]. eexists. split; [reflexivity|].
    set (y := mkGn (gn_addr x) (gn_refs x + 1) (gn_edges x) (p :: gn_pfx x)).
    assert (Np : ~ In p (gn_pfx x)).
    { intros H. assert (existsb (pfx_eqb p) (gn_pfx x) = true) by (apply existsb_exists; exists p; split; [exact H|now apply pfx_eqb_spec]). congruence. }
    match goal with |- Inv ?t /\ _ => destruct (set_pfx_ok s n x y t I N) as (J1 & J2 & J3 & J4 & J5); try reflexivity end.
    + cbn. constructor; [exact Np|apply (iv_pnd s I n x N)].
    + cbn [gn_refs gn_edges gn_pfx y length]. pose proof (iv_ref s I n x N). lia.
    + intros m. cbn [g_nodes set_node]. unfold upd. destruct (m =? n); reflexivity.
    + split; [exact J1|]. split; [repeat split|]. split; [exact J2|]. split; [exact J3|]. split; [|exact J5]. intros u q. rewrite J4. cbn [gn_pfx y In]. split.
      * intros [(-> & [<-|H])|(H1 & H2)]; auto. left. exists n, x. auto.
      * intros [H|(-> & ->)]; [|left; auto]. destruct (addr_eq_dec u (gn_addr x)) as [->|Q]; [|right; auto]. left. split; [reflexivity|]. right.
        destruct H as (m & z & A & B & C). assert (m = n) by (apply (iv_addr s I m n z x); congruence). subst m. congruence.
Qed.

Lemma delete_path_ok s n x p : Inv s -> g_nodes s n = Some x -> In p (gn_pfx x) -> exists s', delete_path s n p = Some s' /\ Inv s' /\ frame s s' /\
  (forall i u v, ekey s' i u v <-> ekey s i u v) /\ (forall u, NA s' u <-> NA s u) /\ (forall u q, PA s' u q <-> PA s u q /\ ~ (u = gn_addr x /\ q = p)) /\ AK s s' /\
  (forall m, m <> n -> g_nodes s' m = g_nodes s m) /\
  exists y, g_nodes s' n = Some y /\ gn_addr y = gn_addr x /\ gn_edges y = gn_edges x /\ gn_pfx y = filter (fun q => negb (pfx_eqb p q)) (gn_pfx x).
Proof.
  intros I N Hp. unfold delete_path. rewrite N.
  assert (E : existsb (pfx_eqb p) (gn_pfx x) = true) by (apply existsb_exists; exists p; split; [exact Hp|now apply pfx_eqb_spec]). rewrite E.
  unfold unlock_tc, set_node at 1. cbn [g_nodes]. rewrite upd_same. cbn [gn_addr gn_refs gn_edges gn_pfx].
  pose proof (iv_ref s I n x N) as Rf. pose proof (filter_plen p (gn_pfx x) (iv_pnd s I n x N) Hp) as Lp.
  replace (gn_refs x - 1 =? 0) with false by lia. eexists. split; [reflexivity|].
  set (y := mkGn (gn_addr x) (gn_refs x - 1) (gn_edges x) (filter (fun q => negb (pfx_eqb p q)) (gn_pfx x))).
  match goal with |- Inv ?t /\ _ => destruct (set_pfx_ok s n x y t I N) as (J1 & J2 & J3 & J4 & J5); try reflexivity end.
  - cbn. apply NoDup_filter. apply (iv_pnd s I n x N).
  - cbn [gn_refs gn_edges gn_pfx y]. lia.
  - intros m. cbn [g_nodes set_node]. unfold upd. destruct (m =? n); reflexivity.
  - split; [exact J1|]. split; [repeat split|]. split; [exact J2|]. split; [exact J3|]. split.
    + intros u q. rewrite J4. cbn [gn_pfx y]. rewrite filter_In. split.
      * intros [(-> & H1 & H2)|(H1 & H2)]; [|split; [exact H2|tauto]]. split; [exists n, x; auto|]. intros (_ & ->).
        assert (pfx_eqb p p = true) by now apply pfx_eqb_spec. rewrite H in H2. discriminate.
      * intros ((m & z & A & B & C) & H). destruct (addr_eq_dec u (gn_addr x)) as [->|Q]; [|right; split; [exact Q|exists m, z; auto]]. left. split; [reflexivity|].
        assert (m = n) by (apply (iv_addr s I m n z x); congruence). subst m. assert (z = x) by congruence. subst z. split; [exact C|].
        destruct (pfx_eqb p q) eqn:Q; [|reflexivity]. apply pfx_eqb_spec in Q. subst q. exfalso. apply H. auto.
    + split; [exact J5|]. split; [intros m Hm; cbn [g_nodes set_node]; rewrite !upd_other by exact Hm; reflexivity|]. exists y. cbn [g_nodes set_node]. rewrite upd_same. repeat split.
Qed.

(** * entries *)
Lemma drop_node_ok s n x : Inv s -> g_nodes s n = Some x -> gn_edges x = [] -> gn_pfx x = [] ->
  exists s', unlock_tc (set_tree s (filter (fun m => negb (n =? m)) (g_tree s))) n = Some s' /\ Inv s' /\
  (g_me s' = g_me s /\ g_main s' = g_main s /\ g_maxplen s' = g_maxplen s) /\
  (forall m, g_nodes s' m = if m =? n then None else g_nodes s m) /\
  (forall i u v, ekey s' i u v <-> ekey s i u v) /\ (forall u, NA s' u <-> NA s u /\ u <> gn_addr x) /\ (forall u q, PA s' u q <-> PA s u q).
Proof.
  intros I N Ee Ep. unfold unlock_tc. cbn [g_nodes set_tree]. rewrite N. pose proof (iv_ref s I n x N) as Rf. rewrite Ee, Ep in Rf. cbn [length] in Rf.
  replace (gn_refs x - 1 =? 0) with true by lia. eexists. split; [reflexivity|].
  match goal with |- Inv ?t /\ _ => set (s' := t) end.
  assert (N1 : forall m, g_nodes s' m = if m =? n then None else g_nodes s m) by (intros m; reflexivity).
  assert (E1 : g_edges s' = g_edges s) by reflexivity.
  assert (NO : forall i e, g_edges s i = Some e -> ge_tc e <> n).
  { intros i e E Q. destruct (iv_own s I i e E) as (y & Y1 & Y2). rewrite Q in Y1. assert (y = x) by congruence. subst y. rewrite Ee in Y2. contradiction. }
  assert (B1 : forall m z, g_nodes s' m = Some z -> g_nodes s m = Some z /\ m <> n) by (intros m z; rewrite N1; destruct (Z.eqb_spec m n); [discriminate|auto]).
  assert (B2 : forall m z, g_nodes s m = Some z -> m <> n -> g_nodes s' m = Some z) by (intros m z H Q; rewrite N1; replace (m =? n) with false by lia; exact H).
  assert (K : forall i u v, ekey s' i u v <-> ekey s i u v).
  { intros i u v. unfold ekey. rewrite E1. split; intros (e & z & A & B & C & D); exists e, z; (split; [exact A|]); (split; [|auto]).
    - now apply B1.
    - apply B2; [exact B|]. now apply (NO i). }
  split; [|split; [repeat split|split; [exact N1|split; [exact K|split]]]].
  - constructor.
    + apply NoDup_filter. apply (iv_nd s I).
    + intros m. unfold s'. cbn [g_tree set_node set_tree]. rewrite filter_In, (iv_tree s I m). fold s'. rewrite N1. destruct (Z.eqb_spec m n) as [->|Q].
      * rewrite Z.eqb_refl. cbn [negb]. split; [intros (_ & H); discriminate|congruence].
      * replace (n =? m) with false by lia. cbn [negb]. tauto.
    + intros m k z w Zm Wk Q. apply B1 in Zm, Wk. apply (iv_addr s I m k z w); tauto.
    + intros i e E. rewrite E1 in E. destruct (iv_own s I i e E) as (z & Z1 & Z2). exists z. split; [|exact Z2]. apply B2; [exact Z1|]. now apply (NO i).
    + intros m z i Zm Hi. rewrite E1. apply B1 in Zm. apply (iv_edges s I m z i); tauto.
    + intros m z Zm. apply B1 in Zm. apply (iv_end s I m z). tauto.
    + intros i j u v Ki Kj. apply K in Ki, Kj. apply (iv_key s I i j u v Ki Kj).
    + intros i e u v j E Ki. rewrite E1 in E. rewrite K in *. apply (iv_inv s I i e u v j E Ki).
    + intros m z Zm. apply B1 in Zm. apply (iv_pnd s I m z). tauto.
    + intros m z Zm. apply B1 in Zm. apply (iv_ref s I m z). tauto.
    + intros m Hm. apply (iv_fn s I m). rewrite N1 in Hm. destruct (m =? n); congruence.
    + intros i Hi. apply (iv_fe s I i). exact Hi.
  - intros u. unfold NA. split.
    + intros (m & z & A & B). apply B1 in A. destruct A as (A & Q). split; [exists m, z; auto|]. intros ->. apply Q. apply (iv_addr s I m n z x); auto.
    + intros ((m & z & A & B) & Q). exists m, z. split; [|exact B]. apply B2; [exact A|]. intros ->. congruence.
  - intros u q. unfold PA. split.
    + intros (m & z & A & B). apply B1 in A. exists m, z. tauto.
    + intros (m & z & A & B & C). exists m, z. split; [|auto]. apply B2; [exact A|]. intros ->. assert (z = x) by congruence. subst z. rewrite Ep in C. contradiction.
Qed.

Lemma no_main_b l : forallb (fun b => b =? 0) l = true <-> Forall (fun b => b = 0) l.
Proof. rewrite forallb_forall, Forall_forall. split; intros H x Hx; specialize (H x Hx); lia. Qed.

Lemma add_tc_ok s a : Inv s -> ~ NA s a -> forallb (fun b => b =? 0) (g_main s) = false -> exists s' n, add_tc s a = Some (s', Some n) /\ Inv s' /\
  (g_me s' = g_me s /\ g_main s' = g_main s /\ g_maxplen s' = g_maxplen s) /\ option_map gn_addr (g_nodes s' n) = Some a /\
  (forall i u v, ekey s' i u v <-> ekey s i u v) /\ (forall u, NA s' u <-> NA s u \/ u = a) /\ (forall u q, PA s' u q <-> PA s u q \/ (u = a /\ q = (a, g_maxplen s))) /\ AK s s'.
Proof.
  intros I Na Mz. unfold add_tc. rewrite Mz. destruct (lookup_ok s a I) as (r & -> & S). destruct r as [m|]; [exfalso; apply Na; destruct S as (x & S1 & S2); exists m, x; auto|].
  set (n := g_next s). assert (Fn : g_nodes s n = None) by (destruct (g_nodes s n) eqn:E; [|reflexivity]; exfalso; assert (n < g_next s) by (apply (iv_fn s I n); congruence); unfold n in *; lia).
  assert (Fe : g_edges s n = None) by (destruct (g_edges s n) eqn:E; [|reflexivity]; exfalso; assert (n < g_next s) by (apply (iv_fe s I n); congruence); unfold n in *; lia).
  unfold lock_tc, set_tree. cbn [g_nodes set_node set_next]. rewrite upd_same. cbn [gn_addr gn_refs gn_edges gn_pfx].
  match goal with |- context [add_path ?t n _] => set (s1 := t) end.
  assert (N1 : forall m, g_nodes s1 m = if m =? n then Some (mkGn a 1 [] []) else g_nodes s m) by (intros m; unfold s1; cbn [g_nodes set_node]; unfold upd; cbn [g_nodes set_node set_next]; unfold upd; destruct (m =? n); reflexivity).
  assert (B1 : forall m z, g_nodes s1 m = Some z -> (m = n /\ z = mkGn a 1 [] []) \/ (m <> n /\ g_nodes s m = Some z)).
  { intros m z. rewrite N1. destruct (Z.eqb_spec m n); intros H; [left; apply Some_inj in H; auto|right; auto]. }
  assert (B2 : forall m z, g_nodes s m = Some z -> g_nodes s1 m = Some z) by (intros m z H; rewrite N1; destruct (Z.eqb_spec m n); [congruence|exact H]).
  assert (K : forall i u v, ekey s1 i u v <-> ekey s i u v).
  { intros i u v. unfold ekey. change (g_edges s1) with (g_edges s). split; intros (e & z & A & B & C & D); exists e, z; (split; [exact A|]); (split; [|auto]); [|now apply B2].
    destruct (B1 _ _ B) as [(Q & _)|(_ & Q)]; [|exact Q]. exfalso. destruct (iv_own s I i e A) as (w & W & _). congruence. }
  assert (NAe : forall u, NA s1 u <-> NA s u \/ u = a).
  { intros u. unfold NA. split.
    - intros (m & z & A & B). destruct (B1 _ _ A) as [(-> & ->)|(Q & A')]; [right; now rewrite <- B|left; exists m, z; auto].
    - intros [(m & z & A & B)| ->]; [exists m, z; auto|]. exists n, (mkGn a 1 [] []). rewrite N1, Z.eqb_refl. auto. }
  assert (PAe : forall u q, PA s1 u q <-> PA s u q).
  { intros u q. unfold PA. split.
    - intros (m & z & A & B & C). destruct (B1 _ _ A) as [(-> & ->)|(Q & A')]; [contradiction|exists m, z; auto].
    - intros (m & z & A & B). exists m, z. auto. }
  assert (I1 : Inv s1).
  { constructor.
    - constructor; [|apply (iv_nd s I)]. intros H. apply (iv_tree s I) in H. congruence.
    - intros m. change (g_tree s1) with (n :: g_tree s). rewrite N1. cbn [In]. rewrite (iv_tree s I m). destruct (Z.eqb_spec m n) as [->|Q]; [split; [discriminate|auto]|]. split; [intros [H|H]; congruence|auto].
    - intros m k z w Zm Wk Q. destruct (B1 _ _ Zm) as [(-> & ->)|(Qm & Zm')]; destruct (B1 _ _ Wk) as [(-> & ->)|(Qk & Wk')]; [reflexivity| | |apply (iv_addr s I m k z w); auto]; exfalso; apply Na; cbn in Q.
      + exists k, w. auto.
      + exists m, z. auto.
    - intros i e E. destruct (iv_own s I i e E) as (z & Z1 & Z2). exists z. auto.
    - intros m z i Zm Hi. destruct (B1 _ _ Zm) as [(-> & ->)|(Qm & Zm')]; [contradiction|]. apply (iv_edges s I m z i Zm' Hi).
    - intros m z Zm. destruct (B1 _ _ Zm) as [(-> & ->)|(Qm & Zm')]; [constructor|apply (iv_end s I m z Zm')].
    - intros i j u v Ki Kj. apply K in Ki, Kj. apply (iv_key s I i j u v Ki Kj).
    - intros i e u v j E Ki. rewrite K in *. apply (iv_inv s I i e u v j E Ki).
    - intros m z Zm. destruct (B1 _ _ Zm) as [(-> & ->)|(Qm & Zm')]; [constructor|apply (iv_pnd s I m z Zm')].
    - intros m z Zm. destruct (B1 _ _ Zm) as [(-> & ->)|(Qm & Zm')]; [reflexivity|apply (iv_ref s I m z Zm')].
    - intros m Hm. change (g_next s1) with (g_next s + 1). rewrite N1 in Hm. destruct (Z.eqb_spec m n) as [Q|Q]; [unfold n in *; lia|]. pose proof (iv_fn s I m Hm). lia.
    - intros i Hi. change (g_next s1) with (g_next s + 1). pose proof (iv_fe s I i Hi). lia. }
  assert (Nn : g_nodes s1 n = Some (mkGn a 1 [] [])) by (rewrite N1, Z.eqb_refl; reflexivity).
  destruct (add_path_ok s1 n _ (a, g_maxplen s) I1 Nn) as (s2 & -> & I2 & (F1 & F2 & F3 & F4) & P1 & P2 & P3 & P4).
  exists s2, n. split; [reflexivity|]. split; [exact I2|]. split; [rewrite F2, F3, F4; repeat split|]. split; [rewrite P4 by congruence; rewrite Nn; reflexivity|].
  split; [intros; rewrite P1; apply K|]. split; [intros; rewrite P2; apply NAe|]. split; [intros u q; rewrite P3, PAe; cbn [gn_addr]; tauto|].
  apply (AK_trans s s1 s2); [|exact P4]. intros m Hm. rewrite N1. destruct (Z.eqb_spec m n); [congruence|reflexivity].
Qed.

Definition is_some_z (o : option Z) (k : Z) : bool := match o with Some j => j =? k | None => false end.
Lemma add_edge_ok s n x b : Inv s -> g_nodes s n = Some x -> (forall i, ~ ekey s i (gn_addr x) b) -> exists s' i, add_edge s n b = Some (s', i) /\ Inv s' /\ frame s s' /\
  (forall j u v, ekey s' j u v <-> ekey s j u v \/ (j = i /\ u = gn_addr x /\ v = b)) /\ (forall u, NA s' u <-> NA s u) /\ (forall u q, PA s' u q <-> PA s u q) /\ AK s s'.
Proof.
  intros I N Nk. unfold add_edge. rewrite N. destruct (lookup_edge_ok s n x b I N) as (r & -> & S). destruct r as [j|]; [exfalso; now apply (Nk j)|]. clear S.
  set (i := g_next s). set (a := gn_addr x) in *.
  assert (Fe : g_edges s i = None) by (destruct (g_edges s i) eqn:E; [|reflexivity]; exfalso; assert (i < g_next s) by (apply (iv_fe s I i); congruence); unfold i in *; lia).
  set (y := mkGn a (gn_refs x + 1) (i :: gn_edges x) (gn_pfx x)).
  set (s2 := set_node (set_edge (set_next s (i + 1)) i (Some (mkGe b n None))) n (Some y)).
  assert (N2 : forall m, g_nodes s2 m = if m =? n then Some y else g_nodes s m) by (intros m; reflexivity).
  assert (E2 : forall k, g_edges s2 k = if k =? i then Some (mkGe b n None) else g_edges s k) by (intros k; reflexivity).
  assert (B1 : forall m z, g_nodes s2 m = Some z -> exists w, g_nodes s m = Some w /\ gn_addr w = gn_addr z /\ gn_pfx w = gn_pfx z /\ gn_edges z = (if m =? n then [i] else []) ++ gn_edges w).
  { intros m z. rewrite N2. destruct (Z.eqb_spec m n) as [->|]; intros H; [apply Some_inj in H; subst z; exists x; auto|exists z; auto]. }
  assert (B2 : forall m z, g_nodes s m = Some z -> exists w, g_nodes s2 m = Some w /\ gn_addr w = gn_addr z /\ gn_pfx w = gn_pfx z /\ gn_edges w = (if m =? n then [i] else []) ++ gn_edges z).
  { intros m z. rewrite N2. destruct (Z.eqb_spec m n) as [->|]; intros H; [exists y; assert (z = x) by congruence; subst z; auto|exists z; auto]. }
  assert (MAIN : forall f jo, (forall k, f k = if k =? i then Some (mkGe b n jo) else match g_edges s k with
        | Some e => Some (mkGe (ge_dest e) (ge_tc e) (if is_some_z jo k then Some i else ge_inv e)) | None => None end) ->
      (forall j, jo = Some j <-> ekey s j b a \/ (j = i /\ b = a)) ->
      let s' := mkGs (g_next s2) (g_nodes s2) f (g_tree s2) (g_me s2) (g_main s2) (g_maxplen s2) in
      Inv s' /\ frame s s' /\ (forall j u v, ekey s' j u v <-> ekey s j u v \/ (j = i /\ u = a /\ v = b)) /\ (forall u, NA s' u <-> NA s u) /\ (forall u q, PA s' u q <-> PA s u q) /\ AK s s').
  { intros f jo F J s'.
    assert (G1 : forall k e, f k = Some e -> (k = i /\ e = mkGe b n jo) \/ (k <> i /\ exists e0, g_edges s k = Some e0 /\ e = mkGe (ge_dest e0) (ge_tc e0) (if is_some_z jo k then Some i else ge_inv e0))).
    { intros k e. rewrite F. destruct (Z.eqb_spec k i) as [->|Q]; intros H; [left; apply Some_inj in H; auto|]. right. split; [exact Q|]. destruct (g_edges s k) as [e0|]; [|discriminate]. exists e0. apply Some_inj in H. auto. }
    assert (Ki : forall j u v, ekey s j u v -> j <> i) by (intros j u v (e & z & A & _) ->; congruence).
    assert (K : forall j u v, ekey s' j u v <-> ekey s j u v \/ (j = i /\ u = a /\ v = b)).
    { intros j u v. unfold ekey, s'. cbn [g_edges g_nodes]. split.
      - intros (e & z & A & B & C & D). destruct (G1 j e A) as [(-> & ->)|(Q & e0 & E0 & ->)]; cbn [ge_tc ge_dest] in *; destruct (B1 _ _ B) as (w & W1 & W2 & _).
        + right. assert (w = x) by congruence. subst w. unfold a. split; [reflexivity|]. split; congruence.
        + left. exists e0, w. rewrite <- C. auto.
      - intros [H|(-> & -> & ->)].
        + pose proof (Ki j u v H) as Q. destruct H as (e & z & A & B & C & D). destruct (B2 _ _ B) as (w & W1 & W2 & _).
          eexists _, w. rewrite F. replace (j =? i) with false by lia. rewrite A. split; [reflexivity|]. cbn [ge_tc ge_dest]. rewrite W2. auto.
        + exists (mkGe b n jo), y. rewrite F, Z.eqb_refl. split; [reflexivity|]. cbn [ge_tc ge_dest]. rewrite N2, Z.eqb_refl. auto. }
    split; [|split; [repeat split|split; [exact K|split; [|split]]]].
    - constructor.
      + apply (iv_nd s I).
      + intros m. change (g_tree s') with (g_tree s). change (g_nodes s' m) with (g_nodes s2 m). rewrite (iv_tree s I m), N2. destruct (Z.eqb_spec m n) as [->|]; [rewrite N; split; discriminate|tauto].
      + intros m k z w Zm Wk Q. destruct (B1 _ _ Zm) as (z0 & Z1 & Z2 & _). destruct (B1 _ _ Wk) as (w0 & W1 & W2 & _). apply (iv_addr s I m k z0 w0); congruence.
      + intros k e E. change (g_nodes s') with (g_nodes s2). destruct (G1 k e E) as [(-> & ->)|(Q & e0 & E0 & ->)]; cbn [ge_tc].
        * exists y. rewrite N2, Z.eqb_refl. split; [reflexivity|now left].
        * destruct (iv_own s I k e0 E0) as (z & Z1 & Z2). destruct (B2 _ _ Z1) as (w & W1 & _ & _ & W2). exists w. split; [exact W1|]. rewrite W2. apply in_or_app. now right.
      + intros m z k Zm Hk. change (g_edges s') with f. destruct (B1 _ _ Zm) as (w & W1 & _ & _ & W2). rewrite W2 in Hk. apply in_app_or in Hk. destruct Hk as [Hk|Hk].
        * destruct (Z.eqb_spec m n) as [->|]; [|contradiction]. destruct Hk as [<-|[]]. eexists. rewrite F, Z.eqb_refl. split; reflexivity.
        * destruct (iv_edges s I m w k W1 Hk) as (e & E & T). eexists. rewrite F. replace (k =? i) with false by (symmetry; apply Z.eqb_neq; congruence). rewrite E. split; [reflexivity|exact T].
      + intros m z Zm. destruct (B1 _ _ Zm) as (w & W1 & _ & _ & W2). rewrite W2. pose proof (iv_end s I m w W1) as D. destruct (m =? n); [|exact D]. constructor; [|exact D].
        intros H. destruct (iv_edges s I m w i W1 H) as (e & E & _). congruence.
      + intros j k u v Kj Kk. apply K in Kj, Kk. destruct Kj as [Kj|(-> & -> & ->)]; destruct Kk as [Kk|(-> & Q1 & Q2)].
        * apply (iv_key s I j k u v Kj Kk).
        * subst u v. exfalso. now apply (Nk j).
        * exfalso. now apply (Nk k).
        * reflexivity.
      + intros k e u v j E Kk. rewrite K. apply K in Kk. destruct (G1 k e E) as [(-> & ->)|(Q & e0 & E0 & ->)]; cbn [ge_inv].
        * destruct Kk as [Kk|(_ & -> & ->)]; [exfalso; now apply (Ki i u v Kk)|]. rewrite J. clear. intuition congruence.
        * destruct Kk as [Kk|(Q' & _)]; [|congruence]. pose proof (iv_inv s I k e0 u v j E0 Kk) as V. destruct (is_some_z jo k) eqn:Z1.
          -- assert (Jk : jo = Some k) by (unfold is_some_z in Z1; destruct jo; [|discriminate]; f_equal; lia). apply J in Jk. destruct Jk as [Jk|(Jk & _)]; [|congruence].
             assert (Euv : u = b /\ v = a) by (destruct Kk as (e1 & z1 & A1 & A2 & A3 & A4), Jk as (e2 & z2 & C1 & C2 & C3 & C4); assert (e1 = e2) by congruence; subst e2; assert (z1 = z2) by congruence; subst; auto).
             destruct Euv as (-> & ->). split.
             ++ intros H. apply Some_inj in H. subst j. right. auto.
             ++ intros [H|(-> & _)]; [exfalso; now apply (Nk j)|reflexivity].
          -- rewrite V. split; [auto|]. intros [H|(-> & -> & ->)]; [exact H|]. exfalso.
             assert (Jk : jo = Some k) by (apply J; now left). rewrite Jk in Z1. cbn in Z1. lia.
      + intros m z Zm. destruct (B1 _ _ Zm) as (w & W1 & _ & W2 & _). rewrite <- W2. apply (iv_pnd s I m w W1).
      + intros m z Zm. change (g_nodes s' m) with (g_nodes s2 m) in Zm. rewrite N2 in Zm. destruct (Z.eqb_spec m n) as [->|]; [|apply (iv_ref s I m z Zm)]. apply Some_inj in Zm. subst z. cbn [gn_refs gn_edges gn_pfx y length]. pose proof (iv_ref s I n x N). lia.
      + intros m Hm. change (g_next s') with (g_next s + 1). change (g_nodes s' m) with (g_nodes s2 m) in Hm. rewrite N2 in Hm.
        assert (g_nodes s m <> None) by (destruct (Z.eqb_spec m n) as [Q|Q]; congruence). pose proof (iv_fn s I m H). lia.
      + intros k Hk. change (g_next s') with (g_next s + 1). change (g_edges s' k) with (f k) in Hk. destruct (f k) as [e|] eqn:E; [|congruence]. destruct (G1 k e E) as [(-> & _)|(_ & e0 & E0 & _)]; [unfold i; lia|].
        assert (g_edges s k <> None) by congruence. pose proof (iv_fe s I k H). lia.
    - intros u. unfold NA. split; intros (m & z & A & B); [destruct (B1 _ _ A) as (w & W1 & W2 & _)|destruct (B2 _ _ A) as (w & W1 & W2 & _)]; exists m, w; split; auto; congruence.
    - intros u q. unfold PA. split; intros (m & z & A & B & C); [destruct (B1 _ _ A) as (w & W1 & W2 & W3 & _)|destruct (B2 _ _ A) as (w & W1 & W2 & W3 & _)]; exists m, w; rewrite W2, W3; auto.
    - intros m Hm. change (g_nodes s' m) with (g_nodes s2 m). rewrite N2. destruct (Z.eqb_spec m n) as [->|]; [rewrite N|]; reflexivity. }
  assert (F0 : forall k, g_edges s2 k = if k =? i then Some (mkGe b n None) else match g_edges s k with
        | Some e => Some (mkGe (ge_dest e) (ge_tc e) (if is_some_z None k then Some i else ge_inv e)) | None => None end).
  { intros k. rewrite E2. destruct (k =? i); [reflexivity|]. destruct (g_edges s k) as [e|]; [destruct e|]; reflexivity. }
  fold y. fold s2.
  destruct (lookup_in_ok s2 b (g_tree s2)) as (r & Lr & Sr).
  { intros m Hm. rewrite N2. destruct (m =? n); [discriminate|]. apply (iv_tree s I). exact Hm. }
  unfold lookup_tc at 1. rewrite Lr. destruct r as [m|].
  - destruct Sr as (Hm & z & Zm & Az). unfold lookup_tc_edge. rewrite Zm. destruct (B1 _ _ Zm) as (w & W1 & W2 & _ & W3).
    destruct (lookup_edge_in_ok s2 a (gn_edges z)) as (r & Lr2 & Sr2).
    { intros k Hk. rewrite E2. destruct (Z.eqb_spec k i) as [|Q]; [discriminate|]. rewrite W3 in Hk. apply in_app_or in Hk. destruct Hk as [Hk|Hk]; [destruct (m =? n); [destruct Hk as [Hk|[]]; congruence|contradiction]|].
      destruct (iv_edges s I m w k W1 Hk) as (e & -> & _). discriminate. }
    rewrite Lr2. destruct r as [j|].
    + destruct Sr2 as (Hj & ej & Ej & Dj). rewrite Ej. cbn [g_edges set_edge].
      (* the link found *)
      assert (Kj : ekey s j b a \/ (j = i /\ b = a)).
      { rewrite E2 in Ej. destruct (Z.eqb_spec j i) as [->|Q].
        - right. split; [reflexivity|]. apply Some_inj in Ej. subst ej. exact Dj.
        - left. rewrite W3 in Hj. apply in_app_or in Hj. destruct Hj as [Hj|Hj]; [destruct (m =? n); [destruct Hj as [Hj|[]]; congruence|contradiction]|].
          destruct (iv_edges s I m w j W1 Hj) as (e' & E' & T). assert (e' = ej) by congruence. subst e'. exists ej, w. rewrite T, W2. auto. }
      assert (J : forall j', Some j = Some j' <-> ekey s j' b a \/ (j' = i /\ b = a)).
      { intros j'. split; [intros H; apply Some_inj in H; now subst|]. intros H. f_equal. destruct Kj as [Kj|(-> & Q)]; destruct H as [H|(-> & Q')].
        - apply (iv_key s I j j' b a Kj H).
        - exfalso. rewrite <- Q' in Kj. apply (Nk j). unfold a in *. congruence.
        - exfalso. apply (Nk j'). unfold a in *. congruence.
        - reflexivity. }
      assert (F : forall k ei, upd (g_edges s2) j (Some (mkGe (ge_dest ej) (ge_tc ej) (Some i))) i = Some ei ->
         upd (upd (g_edges s2) j (Some (mkGe (ge_dest ej) (ge_tc ej) (Some i)))) i (Some (mkGe (ge_dest ei) (ge_tc ei) (Some j))) k =
         (if k =? i then Some (mkGe b n (Some j)) else match g_edges s k with
        | Some e => Some (mkGe (ge_dest e) (ge_tc e) (if is_some_z (Some j) k then Some i else ge_inv e)) | None => None end)).
      { intros k ei. unfold upd. rewrite !E2, Z.eqb_refl. rewrite E2 in Ej. destruct (Z.eqb_spec i j) as [Q|Q].
        - intros H. apply Some_inj in H. subst ei. cbn [ge_dest ge_tc]. rewrite <- Q, Z.eqb_refl in Ej. apply Some_inj in Ej. subst ej. cbn [ge_dest ge_tc].
          destruct (Z.eqb_spec k i); [reflexivity|]. replace (k =? j) with false by lia. destruct (g_edges s k) as [e|]; [|reflexivity]. cbn [is_some_z]. replace (j =? k) with false by lia. now destruct e.
        - intros H. apply Some_inj in H. subst ei. cbn [ge_dest ge_tc]. replace (j =? i) with false in Ej by lia. destruct (Z.eqb_spec k i); [reflexivity|]. cbn [is_some_z].
          destruct (Z.eqb_spec k j) as [->|Qk]; [rewrite Ej, Z.eqb_refl; reflexivity|]. replace (j =? k) with false by lia. destruct (g_edges s k) as [e|]; [|reflexivity]. now destruct e. }
      destruct (upd (g_edges s2) j (Some (mkGe (ge_dest ej) (ge_tc ej) (Some i))) i) as [ei|] eqn:Ei.
      * eexists _, i. split; [reflexivity|]. apply (MAIN _ (Some j)); [|exact J]. intros k. apply F. reflexivity.
      * exfalso. unfold upd in Ei. destruct (i =? j); [discriminate|]. rewrite E2, Z.eqb_refl in Ei. discriminate.
    + eexists s2, i. split; [reflexivity|]. apply (MAIN (g_edges s2) None); [exact F0|]. intros j. split; [discriminate|]. intros [H|(-> & Q)]; exfalso.
      * destruct H as (e & z0 & A & B & C & D). assert (T : ge_tc e = m) by (apply (iv_addr s I _ _ z0 w B W1); congruence).
        destruct (iv_own s I j e A) as (z1 & Z1 & H1). rewrite T in Z1. assert (z1 = w) by congruence. subst z1.
        apply (Sr2 j e); [rewrite W3; apply in_or_app; now right| |exact D]. rewrite E2. replace (j =? i) with false by (symmetry; apply Z.eqb_neq; congruence). exact A.
      * assert (Q' : m = n) by (apply (iv_addr s I m n w x W1 N); unfold a in Q; congruence). subst m. apply (Sr2 i (mkGe b n None)); [rewrite W3, Z.eqb_refl; now left| |exact Q]. rewrite E2, Z.eqb_refl. reflexivity.
  - eexists s2, i. split; [reflexivity|]. apply (MAIN (g_edges s2) None); [exact F0|]. intros j. split; [discriminate|]. intros [H|(-> & Q)]; exfalso.
    + destruct H as (e & z0 & A & B & C & D). destruct (B2 _ _ B) as (w & W1 & W2 & _). apply (Sr (ge_tc e) w); [|exact W1|congruence]. apply (iv_tree s I). congruence.
    + apply (Sr n y); [|rewrite N2, Z.eqb_refl; reflexivity|symmetry; exact Q]. apply (iv_tree s I). congruence.
Qed.

Lemma filter_self (l : list Z) i : ~ In i l -> filter (fun k => negb (i =? k)) l = l.
Proof.
  induction l as [|k l IH]; intros H; [reflexivity|]. cbn [filter]. destruct (Z.eqb_spec i k) as [->|]; [exfalso; apply H; now left|]. cbn [negb]. rewrite IH; [reflexivity|]. intros Q. apply H. now right.
Qed.
Lemma filter_pself (l : list (list Z * Z)) p : ~ In p l -> filter (fun q => negb (pfx_eqb p q)) l = l.
Proof.
  induction l as [|k l IH]; intros H; [reflexivity|]. cbn [filter]. destruct (pfx_eqb p k) eqn:Q; [apply pfx_eqb_spec in Q; subst; exfalso; apply H; now left|]. cbn [negb]. rewrite IH; [reflexivity|]. intros Q'. apply H. now right.
Qed.

Lemma nv_facts s s' f : (forall n, match g_nodes s n with
             | Some x => exists y, g_nodes s' n = Some y /\ gn_addr y = gn_addr x /\ gn_pfx y = gn_pfx x /\ gn_edges y = f (gn_edges x)
             | None => g_nodes s' n = None
             end) -> (forall u, NA s' u <-> NA s u) /\ (forall u q, PA s' u q <-> PA s u q) /\ AK s s'.
Proof.
  intros H. assert (B1 : forall n y, g_nodes s' n = Some y -> exists x, g_nodes s n = Some x /\ gn_addr y = gn_addr x /\ gn_pfx y = gn_pfx x).
  { intros n y Hy. specialize (H n). destruct (g_nodes s n) as [x|]; [|congruence]. destruct H as (z & A & B & C & _). exists x. assert (z = y) by congruence. subst z. auto. }
  assert (B2 : forall n x, g_nodes s n = Some x -> exists y, g_nodes s' n = Some y /\ gn_addr y = gn_addr x /\ gn_pfx y = gn_pfx x).
  { intros n x Hx. specialize (H n). rewrite Hx in H. destruct H as (z & A & B & C & _). exists z. auto. }
  split; [|split].
  - intros u. unfold NA. split; intros (m & z & A & B); [destruct (B1 _ _ A) as (w & W1 & W2 & _)|destruct (B2 _ _ A) as (w & W1 & W2 & _)]; exists m, w; split; congruence.
  - intros u q. unfold PA. split; intros (m & z & A & B & C); [destruct (B1 _ _ A) as (w & W1 & W2 & W3)|destruct (B2 _ _ A) as (w & W1 & W2 & W3)]; exists m, w; repeat split; congruence.
  - intros m Hm. destruct (g_nodes s m) as [x|] eqn:X; [|congruence]. destruct (B2 _ _ X) as (w & W1 & W2 & _). rewrite W1. cbn. now rewrite W2.
Qed.

Lemma delete_edges_ok n : forall l s x, Inv s -> g_nodes s n = Some x -> gn_edges x = l -> exists s' y, delete_edges s l = Some s' /\ Inv s' /\ frame s s' /\
  g_nodes s' n = Some y /\ gn_addr y = gn_addr x /\ gn_pfx y = gn_pfx x /\ gn_edges y = [] /\
  (forall j u v, ekey s' j u v <-> ekey s j u v /\ u <> gn_addr x) /\ (forall u, NA s' u <-> NA s u) /\ (forall u q, PA s' u q <-> PA s u q) /\ AK s s'.
Proof.
  induction l as [|i l IH]; intros s x I N El; cbn [delete_edges].
  - exists s, x. split; [reflexivity|]. split; [exact I|]. split; [apply frame_refl|]. split; [exact N|]. split; [reflexivity|]. split; [reflexivity|]. split; [exact El|].
    split; [|split; [tauto|split; [tauto|apply AK_refl]]]. intros j u v. split; [|tauto]. intros K. split; [exact K|]. intros ->.
    destruct K as (e & z & A & B & C & D). assert (T : ge_tc e = n) by (apply (iv_addr s I _ _ z x B N C)). destruct (iv_own s I j e A) as (w & W1 & W2). rewrite T in W1. assert (w = x) by congruence. subst w. rewrite El in W2. contradiction.
  - assert (Hi : In i (gn_edges x)) by (rewrite El; now left). destruct (iv_edges s I n x i N Hi) as (e & Ee & T).
    assert (Ki : ekey s i (gn_addr x) (ge_dest e)) by (exists e, x; rewrite T; auto).
    destruct (delete_edge_ok s i _ _ I Ki) as (s1 & -> & I1 & F1 & K1 & NV). destruct (nv_facts s s1 _ NV) as (NA1 & PA1 & AK1).
    pose proof (NV n) as Nn. rewrite N in Nn. destruct Nn as (x1 & N1 & A1 & P1 & Es1).
    assert (Nd : ~ In i l) by (pose proof (iv_end s I n x N) as D; rewrite El in D; now inversion D).
    assert (El1 : gn_edges x1 = l) by (rewrite Es1, El; cbn [filter]; rewrite Z.eqb_refl; cbn [negb]; now apply filter_self).
    destruct (IH s1 x1 I1 N1 El1) as (s' & y & -> & I' & F' & Ny & Ay & Py & Ey & K' & NA' & PA' & AK').
    exists s', y. split; [reflexivity|]. split; [exact I'|]. split; [apply (frame_trans s s1 s' F1 F')|]. split; [exact Ny|]. split; [congruence|]. split; [congruence|]. split; [exact Ey|].
    split; [|split; [intros; rewrite NA'; apply NA1|split; [intros; rewrite PA'; apply PA1|apply (AK_trans s s1 s' AK1 AK')]]].
    intros j u v. rewrite K', K1, A1. split; [tauto|]. intros (Kj & Q). split; [|exact Q]. split; [exact Kj|]. intros ->.
    destruct Kj as (e2 & z2 & C1 & C2 & C3 & C4). assert (e2 = e) by congruence. subst e2. rewrite T in C2. congruence.
Qed.

Lemma delete_paths_ok n : forall l s x, Inv s -> g_nodes s n = Some x -> gn_pfx x = l -> exists s' y, delete_paths s n l = Some s' /\ Inv s' /\ frame s s' /\
  g_nodes s' n = Some y /\ gn_addr y = gn_addr x /\ gn_pfx y = [] /\ gn_edges y = gn_edges x /\
  (forall j u v, ekey s' j u v <-> ekey s j u v) /\ (forall u, NA s' u <-> NA s u) /\ (forall u q, PA s' u q <-> PA s u q /\ u <> gn_addr x) /\ AK s s'.
Proof.
  induction l as [|p l IH]; intros s x I N El; cbn [delete_paths].
  - exists s, x. split; [reflexivity|]. split; [exact I|]. split; [apply frame_refl|]. split; [exact N|]. split; [reflexivity|]. split; [exact El|]. split; [reflexivity|].
    split; [tauto|split; [tauto|split; [|apply AK_refl]]]. intros u q. split; [|tauto]. intros K. split; [exact K|]. intros ->.
    destruct K as (m & z & A & B & C). assert (T : m = n) by (apply (iv_addr s I _ _ z x A N B)). subst m. assert (z = x) by congruence. subst z. rewrite El in C. contradiction.
  - assert (Hp : In p (gn_pfx x)) by (rewrite El; now left).
    destruct (delete_path_ok s n x p I N Hp) as (s1 & -> & I1 & F1 & K1 & NA1 & PA1 & AK1 & _ & x1 & N1 & A1 & Es1 & P1).
    assert (Nd : ~ In p l) by (pose proof (iv_pnd s I n x N) as D; rewrite El in D; now inversion D).
    assert (El1 : gn_pfx x1 = l) by (rewrite P1, El; cbn [filter]; replace (pfx_eqb p p) with true by (symmetry; now apply pfx_eqb_spec); cbn [negb]; now apply filter_pself).
    destruct (IH s1 x1 I1 N1 El1) as (s' & y & -> & I' & F' & Ny & Ay & Py & Ey & K' & NA' & PA' & AK').
    exists s', y. split; [reflexivity|]. split; [exact I'|]. split; [apply (frame_trans s s1 s' F1 F')|]. split; [exact Ny|]. split; [congruence|]. split; [congruence|]. split; [congruence|].
    split; [intros; rewrite K'; apply K1|split; [intros; rewrite NA'; apply NA1|split; [|apply (AK_trans s s1 s' AK1 AK')]]].
    intros u q. rewrite PA', PA1, A1. split; [tauto|]. intros (H1 & H2). split; [|exact H2]. split; [exact H1|]. intros (Q & _). contradiction.
Qed.

Lemma delete_rt_ok s a dst plen : Inv s -> exists s', delete_rt s dst plen a = Some s' /\ Inv s' /\ frame s s' /\
  (forall j u v, ekey s' j u v <-> ekey s j u v) /\ (forall u, NA s' u <-> NA s u) /\
  (forall u q, PA s' u q <-> PA s u q /\ ~ (plen <= g_maxplen s /\ u = a /\ q = (dst, plen))) /\ AK s s' /\
  (forall n x, g_nodes s n = Some x -> exists y, g_nodes s' n = Some y /\ gn_edges y = gn_edges x /\ gn_addr y = gn_addr x).
Proof.
  intros I. unfold delete_rt. assert (SAME : (forall u q, PA s u q -> ~ (plen <= g_maxplen s /\ u = a /\ q = (dst, plen))) -> exists s', Some s = Some s' /\ Inv s' /\ frame s s' /\
    (forall j u v, ekey s' j u v <-> ekey s j u v) /\ (forall u, NA s' u <-> NA s u) /\ (forall u q, PA s' u q <-> PA s u q /\ ~ (plen <= g_maxplen s /\ u = a /\ q = (dst, plen))) /\ AK s s' /\
    (forall n x, g_nodes s n = Some x -> exists y, g_nodes s' n = Some y /\ gn_edges y = gn_edges x /\ gn_addr y = gn_addr x)).
  { intros H. exists s. split; [reflexivity|]. split; [exact I|]. split; [apply frame_refl|]. split; [tauto|]. split; [tauto|]. split; [|split; [apply AK_refl|intros n x Nx; exists x; auto]].
    intros u q. split; [|tauto]. intros P. split; [exact P|]. now apply H. }
  destruct (plen >? g_maxplen s) eqn:Lp; [apply SAME; intros; lia|].
  destruct (lookup_ok s a I) as (r & -> & S). destruct r as [n|].
  - destruct S as (x & Nx & Ax). rewrite Nx. destruct (existsb (pfx_eqb (dst, plen)) (gn_pfx x)) eqn:E.
    + apply existsb_exists in E. destruct E as (q & Hq & Q). apply pfx_eqb_spec in Q. subst q.
      destruct (delete_path_ok s n x (dst, plen) I Nx Hq) as (s1 & -> & I1 & F1 & K1 & NA1 & PA1 & AK1 & O1 & y & N1 & A1 & Es1 & P1).
      exists s1. split; [reflexivity|]. split; [exact I1|]. split; [exact F1|]. split; [exact K1|]. split; [exact NA1|]. split; [|split; [exact AK1|]].
      * intros u q. rewrite PA1, Ax. assert (plen <= g_maxplen s) by lia. tauto.
      * intros m z Nz. destruct (Z.eq_dec m n) as [->|Q]; [exists y; assert (z = x) by congruence; subst z; auto|].
        exists z. rewrite O1 by exact Q. auto.
    + apply SAME. intros u q (m & z & A & B & C) (_ & -> & ->). assert (m = n) by (apply (iv_addr s I m n z x A Nx); congruence). subst m. assert (z = x) by congruence. subst z.
      assert (existsb (pfx_eqb (dst, plen)) (gn_pfx x) = true) by (apply existsb_exists; exists (dst, plen); split; [exact C|now apply pfx_eqb_spec]). congruence.
  - apply SAME. intros u q (m & z & A & B & C) (_ & -> & _). now apply (S m z).
Qed.

Lemma delete_tc_ok s n x : Inv s -> g_nodes s n = Some x -> exists s', delete_tc s n = Some s' /\ Inv s' /\
  (g_me s' = g_me s /\ g_main s' = g_main s /\ g_maxplen s' = g_maxplen s) /\
  (forall j u v, ekey s' j u v <-> ekey s j u v /\ u <> gn_addr x) /\ (forall u, NA s' u <-> NA s u /\ u <> gn_addr x) /\ (forall u q, PA s' u q <-> PA s u q /\ u <> gn_addr x) /\
  (forall m, m <> n -> g_nodes s m <> None -> option_map gn_addr (g_nodes s' m) = option_map gn_addr (g_nodes s m)).
Proof.
  intros I N. unfold delete_tc. rewrite N.
  destruct (delete_rt_ok s (gn_addr x) (gn_addr x) (g_maxplen s) I) as (s1 & -> & I1 & F1 & K1 & NA1 & PA1 & AK1 & V1).
  destruct (V1 n x N) as (x1 & N1 & E1 & A1).
  rewrite <- E1. destruct (delete_edges_ok n (gn_edges x1) s1 x1 I1 N1 eq_refl) as (s2 & x2 & -> & I2 & F2 & N2 & A2 & P2 & E2 & K2 & NA2 & PA2 & AK2).
  rewrite N2. destruct (delete_paths_ok n (gn_pfx x2) s2 x2 I2 N2 eq_refl) as (s3 & x3 & -> & I3 & F3 & N3 & A3 & P3 & E3 & K3 & NA3 & PA3 & AK3).
  assert (T : existsb (Z.eqb n) (g_tree s3) = true) by (apply existsb_exists; exists n; split; [apply (iv_tree s3 I3); congruence|apply Z.eqb_refl]). rewrite T.
  destruct (drop_node_ok s3 n x3 I3 N3 ltac:(congruence) P3) as (s4 & -> & I4 & F4 & O4 & K4 & NA4 & PA4).
  exists s4. split; [reflexivity|]. split; [exact I4|]. destruct F1 as (_ & F1 & F1' & F1''), F2 as (_ & F2 & F2' & F2''), F3 as (_ & F3 & F3' & F3''), F4 as (F4 & F4' & F4'').
  split; [repeat split; congruence|]. split; [intros j u v; rewrite K4, K3, K2, K1, A1; tauto|]. split; [intros u; rewrite NA4, NA3, NA2, NA1, A3, A2, A1; tauto|].
  split.
  - intros u q. rewrite PA4, PA3, PA2, PA1, A2, A1. tauto.
  - intros m Q H. rewrite O4. replace (m =? n) with false by lia. apply (AK_trans s s2 s3); [apply (AK_trans s s1 s2 AK1 AK2)|exact AK3|exact H].
Qed.

(** * simulation *)
Record R (mp : Z) (s : gst) (A : aset) : Prop := {
  r_inv : Inv s;
  r_main : g_main s = a_main A;
  r_mp : g_maxplen s = mp;
  r_na : forall a, NA s a <-> In a (a_nodes A);
  r_la : forall a b, LA s a b <-> In (a, b) (a_links A);
  r_pa : forall a p, PA s a p <-> In (a, p) (a_pfx A);
  r_me : match g_me s with Some n => option_map gn_addr (g_nodes s n) = Some (a_main A) /\ ~ no_main A | None => no_main A /\ ~ knows A (a_main A) end }.

Lemma locate_ok mp s A a : R mp s A -> exists s' r, locate s a = Some (s', r) /\
  match r with
  | None => s' = s /\ ~ knows A a /\ no_main A
  | Some n => option_map gn_addr (g_nodes s' n) = Some a /\ exists A', can_add A A' mp a /\ R mp s' A'
  end.
Proof.
  intros H. pose proof H as [I M MP Na La Pa Me]. unfold locate. destruct (lookup_ok s a I) as (r & -> & S). destruct r as [n|].
  - destruct S as (x & Nx & Ax). exists s, (Some n). split; [reflexivity|]. rewrite Nx. cbn [option_map]. split; [congruence|]. exists A. split; [|exact H]. left. split; [|reflexivity]. apply Na. exists n, x. auto.
  - assert (NK : ~ knows A a) by (intros K; apply Na in K; destruct K as (n & x & Nx & Ax); now apply (S n x)).
    destruct (forallb (fun b => b =? 0) (g_main s)) eqn:Z.
    + exists s, None. unfold add_tc. rewrite Z. split; [reflexivity|]. split; [reflexivity|]. split; [exact NK|]. unfold no_main. rewrite <- M. now apply no_main_b.
    + assert (NM : ~ no_main A) by (unfold no_main; rewrite <- M; intros Q; apply no_main_b in Q; congruence).
      destruct (add_tc_ok s a I ltac:(intros Q; now apply NK, Na) Z) as (s' & n & -> & I' & (F1 & F2 & F3) & Nn & K & NA' & PA' & AK').
      exists s', (Some n). split; [reflexivity|]. split; [exact Nn|]. exists (with_node mp A a). split; [right; auto|]. constructor.
      * exact I'.
      * rewrite F2. exact M.
      * rewrite F3. exact MP.
      * intros u. rewrite NA', Na. cbn [a_nodes with_node In]. intuition congruence.
      * intros u v. unfold LA. setoid_rewrite K. apply La.
      * intros u q. rewrite PA', Pa. cbn [a_pfx with_node In]. rewrite MP. split; [intros [Q|(-> & ->)]; auto|]. intros [Q|Q]; [injection Q as <- <-; auto|auto].
      * rewrite F1. cbn [a_main with_node]. destruct (g_me s) as [m|]; [|destruct Me; contradiction]. destruct Me as (Me & _). split; [|exact NM]. rewrite AK'; [exact Me|]. destruct (g_nodes s m); [discriminate|discriminate Me].
Qed.

Lemma ensure_ok mp s A n a b : R mp s A -> option_map gn_addr (g_nodes s n) = Some a -> exists s', ensure_edge s n b = Some s' /\ R mp s' (with_link A a b).
Proof.
  intros H Nn. pose proof H as [I M MP Na La Pa Me]. destruct (g_nodes s n) as [x|] eqn:Nx; [|discriminate]. cbn in Nn. apply Some_inj in Nn. subst a.
  unfold ensure_edge. destruct (lookup_edge_ok s n x b I Nx) as (r & -> & S). destruct r as [i|].
  - exists s. split; [reflexivity|]. constructor; auto. intros u v. rewrite La. cbn [a_links with_link In]. split; [auto|]. intros [Q|Q]; [|exact Q]. injection Q as <- <-. apply La. now exists i.
  - destruct (add_edge_ok s n x b I Nx S) as (s' & i & -> & I' & (_ & F1 & F2 & F3) & K & NA' & PA' & AK'). cbn [option_map fst]. exists s'. split; [reflexivity|]. constructor.
    + exact I'.
    + rewrite F2. exact M.
    + rewrite F3. exact MP.
    + intros u. rewrite NA'. apply Na.
    + intros u v. unfold LA. cbn [a_links with_link In]. rewrite <- La. unfold LA. split.
      * intros (j & Kj). apply K in Kj. destruct Kj as [Kj|(_ & -> & ->)]; [right; now exists j|now left].
      * intros [Q|(j & Kj)]; [injection Q as <- <-; exists i; apply K; right; auto|exists j; apply K; now left].
    + intros u q. rewrite PA'. apply Pa.
    + rewrite F1. cbn [a_main with_link]. destruct (g_me s) as [m|]; [|exact Me]. destruct Me as (Me & NM). split; [|exact NM]. rewrite AK'; [exact Me|]. destruct (g_nodes s m); [discriminate|discriminate Me].
Qed.

Lemma drop_ok mp s A n a b : R mp s A -> option_map gn_addr (g_nodes s n) = Some a -> exists s', drop_edge s n b = Some s' /\ R mp s' (without_link A a b).
Proof.
  intros H Nn. pose proof H as [I M MP Na La Pa Me]. destruct (g_nodes s n) as [x|] eqn:Nx; [|discriminate]. cbn in Nn. apply Some_inj in Nn. subst a.
  assert (WL : forall u v, In (u, v) (a_links (without_link A (gn_addr x) b)) <-> In (u, v) (a_links A) /\ ~ (u = gn_addr x /\ v = b)).
  { intros u v. cbn [a_links without_link]. rewrite filter_In. cbn [fst snd]. destruct (addr_eq_dec u (gn_addr x)); [destruct (addr_eq_dec v b)|]; intuition congruence. }
  unfold drop_edge. destruct (lookup_edge_ok s n x b I Nx) as (r & -> & S). destruct r as [i|].
  - destruct (delete_edge_ok s i _ _ I S) as (s' & -> & I' & (_ & F1 & F2 & F3) & K & NV). destruct (nv_facts s s' _ NV) as (NA' & PA' & AK'). exists s'. split; [reflexivity|]. constructor.
    + exact I'.
    + rewrite F2. exact M.
    + rewrite F3. exact MP.
    + intros u. rewrite NA'. apply Na.
    + intros u v. rewrite WL, <- La. unfold LA. split.
      * intros (j & Kj). apply K in Kj. destruct Kj as (Kj & Q). split; [now exists j|]. intros (-> & ->). apply Q. apply (iv_key s I j i _ _ Kj S).
      * intros ((j & Kj) & Q). exists j. apply K. split; [exact Kj|]. intros ->. apply Q. destruct Kj as (e1 & z1 & A1 & A2 & A3 & A4), S as (e2 & z2 & C1 & C2 & C3 & C4). assert (e1 = e2) by congruence. subst e2. split; congruence.
    + intros u q. rewrite PA'. apply Pa.
    + rewrite F1. cbn [a_main without_link]. destruct (g_me s) as [m|]; [|exact Me]. destruct Me as (Me & NM). split; [|exact NM]. rewrite AK'; [exact Me|]. destruct (g_nodes s m); [discriminate|discriminate Me].
  - exists s. split; [reflexivity|]. constructor; auto. intros u v. rewrite WL, <- La. split; [|tauto]. intros L. split; [exact L|]. intros (-> & ->). destruct L as (i & Ki). now apply (S i).
Qed.

Lemma without_spec A a : (forall u, In u (a_nodes (without A a)) <-> In u (a_nodes A) /\ u <> a) /\
  (forall u v, In (u, v) (a_links (without A a)) <-> In (u, v) (a_links A) /\ u <> a) /\ (forall u q, In (u, q) (a_pfx (without A a)) <-> In (u, q) (a_pfx A) /\ u <> a).
Proof.
  split; [|split]; intros u; [|intros v|intros q]; cbn [without a_nodes a_links a_pfx]; rewrite filter_In; cbn [fst]; destruct (addr_eq_dec u a); intuition congruence.
Qed.

Lemma Inv_main s a : Inv s -> Inv (set_main s a).
Proof. intros I. destruct I. constructor; assumption. Qed.
Lemma Inv_me s a : Inv s -> Inv (set_me s a).
Proof. intros I. destruct I. constructor; assumption. Qed.
Lemma LA_NA s a b : LA s a b -> NA s a.
Proof. intros (i & e & x & A & B & C & D). now exists (ge_tc e), x. Qed.
Lemma PA_NA s a b : PA s a b -> NA s a.
Proof. intros (n & x & A & B & C). now exists n, x. Qed.

(** the entry of this node is made anew *)
Lemma renew_ok mp s B a : Inv s -> g_main s = a -> g_maxplen s = mp -> a_main B = a ->
  (forall u, NA s u <-> In u (a_nodes B)) -> (forall u v, LA s u v <-> In (u, v) (a_links B)) -> (forall u q, PA s u q <-> In (u, q) (a_pfx B)) -> ~ knows B a ->
  exists s' r, add_tc s a = Some (s', r) /\ R mp (set_me s' r) (if forallb (fun b => b =? 0) a then B else with_node mp B a).
Proof.
  intros I M MP MB Na La Pa NK. destruct (forallb (fun b => b =? 0) a) eqn:Z.
  - exists s, None. unfold add_tc. rewrite M, Z. split; [reflexivity|]. constructor; try (cbn [g_main g_maxplen set_me]; congruence); [now apply Inv_me|exact Na|exact La|exact Pa|].
    cbn [g_me set_me]. split; [unfold no_main; rewrite MB; now apply no_main_b|now rewrite MB].
  - destruct (add_tc_ok s a I ltac:(intros Q; now apply NK, Na) ltac:(now rewrite M)) as (s' & n & -> & I' & (F1 & F2 & F3) & Nn & K & NA' & PA' & AK').
    exists s', (Some n). split; [reflexivity|]. constructor; try (cbn [g_main g_maxplen set_me a_main with_node]; congruence); [now apply Inv_me| | | |].
    + intros u. change (NA (set_me s' (Some n)) u) with (NA s' u). rewrite NA', Na. cbn [a_nodes with_node In]. intuition congruence.
    + intros u v. change (LA (set_me s' (Some n)) u v) with (LA s' u v). unfold LA. setoid_rewrite K. apply La.
    + intros u q. change (PA (set_me s' (Some n)) u q) with (PA s' u q). rewrite PA', Pa. cbn [a_pfx with_node In]. rewrite MP. split; [intros [Q|(-> & ->)]; auto|]. intros [Q|Q]; [injection Q as <- <-; auto|auto].
    + cbn [g_me set_me a_main with_node g_nodes]. split; [now rewrite MB|]. unfold no_main. cbn [a_main with_node]. rewrite MB. intros Q. apply no_main_b in Q. congruence.
Qed.

Lemma main_ok mp s A a : R mp s A -> a <> a_main A -> ~ knows A a ->
  exists s', change_myself (set_main s a) = Some s' /\ R mp s' (if forallb (fun b => b =? 0) a then set_amain (without A (a_main A)) a else with_node mp (set_amain (without A (a_main A)) a) a).
Proof.
  intros H D NK. pose proof H as [I M MP Na La Pa Me]. destruct (without_spec A (a_main A)) as (W1 & W2 & W3). unfold change_myself. change (g_me (set_main s a)) with (g_me s). destruct (g_me s) as [n|] eqn:Eme.
  - destruct Me as (Me & NM). change (g_nodes (set_main s a) n) with (g_nodes s n). destruct (g_nodes s n) as [x|] eqn:Nx; [|discriminate]. cbn in Me. apply Some_inj in Me.
    cbn [g_main set_main]. rewrite Me, beq_neq by congruence.
    destruct (delete_tc_ok (set_main s a) n x (Inv_main s a I) Nx) as (s1 & -> & I1 & (F1 & F2 & F3) & K & NA1 & PA1 & O). rewrite Me in *.
    destruct (renew_ok mp s1 (set_amain (without A (a_main A)) a) a I1 F2 ltac:(rewrite F3; exact MP) eq_refl) as (s2 & r & -> & R2).
    + intros u. rewrite NA1. change (NA (set_main s a) u) with (NA s u). rewrite Na. cbn [a_nodes set_amain]. rewrite W1. tauto.
    + intros u v. cbn [a_links set_amain]. rewrite W2, <- La. unfold LA. split; [intros (j & Kj); apply K in Kj; destruct Kj as (Kj & Q); split; [now exists j|exact Q]|]. intros ((j & Kj) & Q). exists j. apply K. auto.
    + intros u q. rewrite PA1. change (PA (set_main s a) u q) with (PA s u q). rewrite Pa. cbn [a_pfx set_amain]. rewrite W3. tauto.
    + unfold knows. cbn [a_nodes set_amain]. rewrite W1. unfold knows in NK. tauto.
    + exists (set_me s2 r). split; [reflexivity|exact R2].
  - destruct Me as (NM & NK2). cbn [g_main set_main].
    destruct (renew_ok mp (set_main s a) (set_amain (without A (a_main A)) a) a (Inv_main s a I) eq_refl MP eq_refl) as (s2 & r & -> & R2).
    + intros u. change (NA (set_main s a) u) with (NA s u). cbn [a_nodes set_amain]. rewrite W1, Na. split; [|tauto]. intros Q. split; [exact Q|]. intros ->. now apply NK2.
    + intros u v. change (LA (set_main s a) u v) with (LA s u v). cbn [a_links set_amain]. rewrite W2, <- La. split; [|tauto]. intros Q. split; [exact Q|]. intros ->. now apply NK2, Na, (LA_NA s _ v).
    + intros u v. change (PA (set_main s a) u v) with (PA s u v). cbn [a_pfx set_amain]. rewrite W3, <- Pa. split; [|tauto]. intros Q. split; [exact Q|]. intros ->. now apply NK2, Na, (PA_NA s _ v).
    + unfold knows. cbn [a_nodes set_amain]. rewrite W1. unfold knows in NK. tauto.
    + exists (set_me s2 r). split; [reflexivity|exact R2].
Qed.

Lemma main_same mp s A : R mp s A -> exists s', change_myself (set_main s (a_main A)) = Some s' /\ R mp s' A.
Proof.
  intros H. pose proof H as [I M MP Na La Pa Me]. assert (set_main s (a_main A) = s) as -> by (destruct s; cbn in *; unfold set_main; cbn; congruence).
  unfold change_myself. destruct (g_me s) as [n|] eqn:Eme.
  - destruct Me as (Me & NM). destruct (g_nodes s n) as [x|]; [|discriminate]. cbn in Me. apply Some_inj in Me. rewrite Me, M, beq_refl. exists s. auto.
  - destruct Me as (NM & NK). unfold add_tc. apply no_main_b in NM. rewrite M, NM. exists (set_me s None). split; [reflexivity|].
    assert (set_me s None = s) as -> by (destruct s; cbn in *; unfold set_me; cbn; congruence). exact H.
Qed.

Lemma step_ok mp s A o A' : R mp s A -> allowed A o -> ameans mp A o A' -> exists s', gstep s o = Some s' /\ R mp s' A'.
Proof.
  intros H AL ME. pose proof H as [I M MP Na La Pa Me]. destruct ME; cbn [gstep].
  - destruct (locate_ok mp s A a H) as (s1 & r & -> & S). destruct r as [n|].
    + destruct S as (Nn & A1 & C1 & R1). destruct (ensure_ok mp s1 A1 n a b R1 Nn) as (s2 & E2 & R2). exists s2. split; [exact E2|].
      assert (A1 = A'); [|now subst]. destruct C1 as [(Q1 & ->)|(Q1 & Q2 & ->)]; destruct H0 as [(Q3 & ->)|(Q3 & Q4 & ->)]; tauto || reflexivity.
    + destruct S as (-> & NK & NM). destruct H0 as [(Q3 & _)|(_ & Q4 & _)]; contradiction.
  - destruct (locate_ok mp s A a H) as (s1 & r & -> & S). destruct r as [n|].
    + destruct S as (Nn & A1 & C1 & R1). destruct C1 as [(Q1 & _)|(_ & Q2 & _)]; contradiction.
    + destruct S as (-> & _). exists s. auto.
  - destruct (lookup_ok s a I) as (r & -> & S). destruct r as [n|].
    + destruct S as (x & Nx & Ax). apply (drop_ok mp s A n a b H). rewrite Nx. cbn. congruence.
    + exists s. split; [reflexivity|]. constructor; auto. intros u v. cbn [a_links without_link]. rewrite filter_In, <- La. cbn [fst snd]. split; [|tauto]. intros L. split; [exact L|].
      destruct (addr_eq_dec u a) as [->|]; [|reflexivity]. exfalso. destruct L as (i & e & x & A1 & A2 & A3 & _). now apply (S (ge_tc e) x).
  - cbn in AL. destruct (without_spec A a) as (W1 & W2 & W3). destruct (lookup_ok s a I) as (r & -> & S). destruct r as [n|].
    + destruct S as (x & Nx & Ax). destruct (delete_tc_ok s n x I Nx) as (s' & -> & I' & (F1 & F2 & F3) & K & NA' & PA' & O). exists s'. split; [reflexivity|]. rewrite Ax in *. constructor.
      * exact I'.
      * rewrite F2. exact M.
      * rewrite F3. exact MP.
      * intros u. rewrite NA', W1, Na. tauto.
      * intros u v. rewrite W2, <- La. unfold LA. split; [intros (j & Kj); apply K in Kj; destruct Kj as (Kj & Q); split; [now exists j|exact Q]|]. intros ((j & Kj) & Q). exists j. apply K. auto.
      * intros u q. rewrite PA', W3, Pa. tauto.
      * rewrite F1. cbn [a_main without]. destruct (g_me s) as [m|]; [|destruct Me as (Me & Me'); split; [exact Me|]; unfold knows; rewrite W1; tauto]. destruct Me as (Me & NM). split; [|exact NM].
        destruct (g_nodes s m) as [z|] eqn:Zm; [|discriminate]. cbn in Me. apply Some_inj in Me. rewrite O; [rewrite Zm; cbn; congruence|intros ->; congruence|congruence].
    + exists s. split; [reflexivity|]. constructor; auto.
      * intros u. rewrite W1, <- Na. split; [|tauto]. intros L. split; [exact L|]. intros ->. destruct L as (n & x & A1 & A2). now apply (S n x).
      * intros u v. rewrite W2, <- La. split; [|tauto]. intros L. split; [exact L|]. intros ->. destruct L as (i & e & x & A1 & A2 & A3 & _). now apply (S (ge_tc e) x).
      * intros u q. rewrite W3, <- Pa. split; [|tauto]. intros L. split; [exact L|]. intros ->. destruct L as (n & x & A1 & A2 & _). now apply (S n x).
      * destruct (g_me s) as [m|]; [exact Me|]. destruct Me as (Me & Me'); split; [exact Me|]; unfold knows; rewrite W1; tauto.
  - unfold insert_rt. rewrite MP. replace (l >? mp) with false by lia. destruct (locate_ok mp s A a H) as (s1 & r & -> & S). destruct r as [n|].
    + destruct S as (Nn & A1 & C1 & R1).
      assert (A1 = A') by (destruct C1 as [(Q1 & ->)|(Q1 & Q2 & ->)]; destruct H1 as [(Q3 & ->)|(Q3 & Q4 & ->)]; tauto || reflexivity). subst A1.
      destruct R1 as [I1 M1 MP1 Na1 La1 Pa1 Me1]. destruct (g_nodes s1 n) as [x|] eqn:Nx; [|discriminate]. cbn in Nn. apply Some_inj in Nn.
      destruct (add_path_ok s1 n x (d, l) I1 Nx) as (s2 & -> & I2 & (_ & F1 & F2 & F3) & K & NA' & PA' & AK'). exists s2. split; [reflexivity|]. constructor.
      * exact I2.
      * rewrite F2. exact M1.
      * rewrite F3. exact MP1.
      * intros u. rewrite NA'. apply Na1.
      * intros u v. rewrite <- La1. unfold LA. setoid_rewrite K. reflexivity.
      * intros u q. rewrite PA', Pa1, Nn. cbn [a_pfx with_pfx In]. split; [intros [Q|(-> & ->)]; auto|]. intros [Q|Q]; [injection Q as <- <-; auto|auto].
      * rewrite F1. cbn [a_main with_pfx]. destruct (g_me s1) as [m|]; [|exact Me1]. destruct Me1 as (Me1 & NM). split; [|exact NM]. rewrite AK'; [exact Me1|]. destruct (g_nodes s1 m); [discriminate|discriminate Me1].
    + destruct S as (_ & NK & NM). destruct H1 as [(Q3 & _)|(_ & Q4 & _)]; contradiction.
  - unfold insert_rt. rewrite MP. destruct (l >? mp) eqn:L; [exists s; auto|]. destruct H0 as [Q|(NK & NM)]; [lia|].
    destruct (locate_ok mp s A a H) as (s1 & r & -> & S). destruct r as [n|].
    + destruct S as (Nn & A1 & C1 & R1). destruct C1 as [(Q1 & _)|(_ & Q2 & _)]; contradiction.
    + destruct S as (-> & _). exists s. auto.
  - destruct (delete_rt_ok s a d l I) as (s1 & -> & I1 & (_ & F1 & F2 & F3) & K & NA' & PA' & AK' & _). exists s1. split; [reflexivity|]. constructor.
    + exact I1.
    + rewrite F2. exact M.
    + rewrite F3. exact MP.
    + intros u. rewrite NA'. apply Na.
    + intros u v. rewrite <- La. unfold LA. setoid_rewrite K. reflexivity.
    + intros u q. rewrite PA', Pa, MP. cbn [a_pfx without_pfx]. rewrite filter_In. cbn [fst snd]. destruct q as [q1 q2]. cbn [fst snd].
      destruct (addr_eq_dec u a); [destruct (addr_eq_dec q1 d); [destruct (Z.eq_dec q2 l)|]|]; split; intros (Q1 & Q2); split; auto; try discriminate; try (exfalso; apply Q2; split; [lia|split; congruence]); intros (_ & Q3 & Q4); congruence.
    + rewrite F1. cbn [a_main without_pfx]. destruct (g_me s) as [m|]; [|exact Me]. destruct Me as (Me & NM). split; [|exact NM]. rewrite AK'; [exact Me|]. destruct (g_nodes s m); [discriminate|discriminate Me].
  - unfold delete_rt. rewrite MP. replace (l >? mp) with true by lia. exists s. auto.
  - destruct (g_me s) as [n|]; [|destruct Me; contradiction]. destruct Me as (Me & _). apply (ensure_ok mp s A n _ b H Me).
  - destruct (g_me s) as [n|]; [destruct Me as (_ & Me); contradiction|]. exists s. auto.
  - destruct (g_me s) as [n|]; [|destruct Me; contradiction]. destruct Me as (Me & _). apply (drop_ok mp s A n _ b H Me).
  - destruct (g_me s) as [n|]; [destruct Me as (_ & Me); contradiction|]. exists s. auto.
  - apply (main_same mp s A H).
  - cbn in AL. destruct AL as [AL|AL]; [contradiction|]. destruct (main_ok mp s A a H H0 AL) as (s' & E & Rr). exists s'. split; [exact E|].
    destruct (forallb (fun b => b =? 0) a) eqn:Z; [apply no_main_b in Z; contradiction|exact Rr].
  - cbn in AL. destruct AL as [AL|AL]; [contradiction|]. destruct (main_ok mp s A a H H0 AL) as (s' & E & Rr). exists s'. split; [exact E|].
    apply no_main_b in H1. rewrite H1 in Rr. exact Rr.
Qed.

Lemma run_ok mp ops : forall s A A', R mp s A -> history mp A ops A' -> exists s', grun s ops = Some s' /\ R mp s' A'.
Proof.
  induction ops as [|o ops IH]; intros s A A' H Hh; inversion Hh; subst; cbn [grun].
  - exists s. auto.
  - destruct (step_ok mp s A o A'0 H ltac:(assumption) ltac:(assumption)) as (s1 & -> & R1). now apply (IH s1 A'0 A').
Qed.

Lemma init_ok main mp A : start main mp A -> exists s, init_tc main mp = Some s /\ R mp s A.
Proof.
  intros H. unfold init_tc.
  destruct (renew_ok mp (mkGs 0 (fun _ => None) (fun _ => None) [] None main mp) (mkA main [] [] []) main) as (s & r & -> & Rr); try reflexivity.
  - constructor; cbn; try (intros; discriminate); try (intros; contradiction).
    + constructor.
    + intros n. split; [intros []|congruence].
    + intros i j a b (e & x & Q & _). discriminate.
  - intros u. split; [intros (n & x & Q & _); discriminate|intros []].
  - intros u v. split; [intros (n & e & x & Q & _); discriminate|intros []].
  - intros u v. split; [intros (n & x & Q & _); discriminate|intros []].
  - intros [].
  - exists (set_me s r). split; [reflexivity|]. unfold start in H. destruct (forallb (fun b => b =? 0) main); subst A; exact Rr.
Qed.

Lemma link_obj_ekey s a b i : Inv s -> (link_obj s a b i <-> ekey s i a b).
Proof.
  intros I. split.
  - intros (n & x & e & (x' & T & N' & Q) & N & Hi & He & D). assert (x' = x) by congruence. subst x'. destruct (iv_edges s I n x i N Hi) as (e' & He' & T'). exists e, x. assert (e' = e) by congruence. subst e'. rewrite T'. auto.
  - intros (e & x & He & N & Q & D). destruct (iv_own s I i e He) as (x' & N' & Hi). assert (x' = x) by congruence. subst x'. exists (ge_tc e), x, e. repeat split; auto. exists x. repeat split; auto. apply (iv_tree s I). congruence.
Qed.

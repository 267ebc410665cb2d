(** Proofs about the neighbors BMF sends to. *)
From Coq Require Import Sorted.
From Verif Require Import Base BmfPacket BmfForward BmfPacketSpec BmfForwardSpec.

Lemma same_node_other : forall e nb a, (same_node e nb a = false <-> other e nb a) /\ (same_node e nb a = true -> ~ other e nb a).
Proof.
  intros e nb [a|]; unfold same_node, other.
  - split; [split|].
    + intros H x E. inversion E; subst. lia.
    + intros H. specialize (H a eq_refl). lia.
    + intros H O. specialize (O a eq_refl). lia.
  - split; [split; [discriminate|reflexivity]|discriminate].
Qed.
Lemma previous_ok : forall e a, sane e -> exists p, previous e a = Done p /\ 0 <= p <= 4194304 /\ forall x q, a = Some x -> heard e x q -> q = p.
Proof.
  intros e [a|] (_ & C & B & _); unfold previous.
  - destruct (e_best e a) as [k|] eqn:E.
    + destruct (B _ _ E) as (l & L). rewrite L. exists (l_cost l). split; [reflexivity|]. split; [eauto|].
      intros x q X H. inversion X; subst. destruct H as [(k' & l' & K & N & <-)|(K & _)]; congruence.
    + exists BROKEN. split; [reflexivity|]. split; [unfold BROKEN; lia|]. intros x q X H. inversion X; subst. destruct H as [(k' & l' & K & _)|(_ & ->)]; [congruence|reflexivity].
  - exists BROKEN. split; [reflexivity|]. split; [unfold BROKEN; lia|]. discriminate.
Qed.
Lemma heard_exists : forall e a, sane e -> exists q, heard e a q.
Proof.
  intros e a (_ & _ & B & _). destruct (e_best e a) as [k|] eqn:E.
  - destruct (B _ _ E) as (l & L). exists (l_cost l). left. eauto.
  - exists 4194304. right. auto.
Qed.

(** one more candidate *)
Definition add (e : env) (k : nat) (l : link) (f : found) : outcome found :=
  let* ls := put_link e k f in
  Done (if e_lq e =? 0 then mkFound (match f_best f with None => Some k | b => b end) (f_etx f) ls (f_n f + 1)
        else if l_cost l <? f_etx f then mkFound (Some k) (l_cost l) ls (f_n f + 1) else mkFound (f_best f) (f_etx f) ls (f_n f + 1)).
Lemma consider_ok : forall e i src by_ to prev k l f, sane e -> nth_error (e_links e) k = Some l ->
  (e_lq e <> 0 -> 0 <= prev <= 4194304 /\ forall x q, by_ = Some x -> heard e x q -> q = prev) ->
  (candidate e i src by_ to k /\ consider e i src by_ to prev k l f = add e k l f) \/
  (~ candidate e i src by_ to k /\ consider e i src by_ to prev k l f = Done f).
Proof.
  intros e i src by_ to prev k l f S K P. unfold consider.
  assert (U : forall l', nth_error (e_links e) k = Some l' -> l' = l) by congruence.
  destruct (Z.eqb_spec (i_addr i) (l_local l)) as [A|A]; cbn [negb]; [|right; split; [intros (l' & E & F & _); rewrite (U _ E) in F; congruence|reflexivity]].
  destruct (same_node e (l_nbr l) src) eqn:E1; [right; split; [intros (l' & E & _ & F & _); rewrite (U _ E) in F; exact (proj2 (same_node_other _ _ _) E1 F)|reflexivity]|].
  destruct (same_node e (l_nbr l) by_) eqn:E2; [right; split; [intros (l' & E & _ & _ & F & _); rewrite (U _ E) in F; exact (proj2 (same_node_other _ _ _) E2 F)|reflexivity]|].
  destruct (same_node e (l_nbr l) to) eqn:E3; [right; split; [intros (l' & E & _ & _ & _ & F & _); rewrite (U _ E) in F; exact (proj2 (same_node_other _ _ _) E3 F)|reflexivity]|].
  apply same_node_other in E1, E2, E3.
  destruct (Z.eqb_spec (e_lq e) 0) as [Q|Q]; [left; split; [exists l; repeat (split; [auto|]); tauto|unfold add; rewrite Q; reflexivity]|].
  specialize (P Q). destruct P as (Pr & Ph). pose proof S as (_ & C & _). pose proof (C _ _ K) as Cl.
  destruct (Z.geb_spec (l_cost l) BROKEN) as [G|G]; unfold BROKEN in G; [right; split; [intros (l' & E & _ & _ & _ & _ & F); rewrite (U _ E) in F; destruct (F Q) as (F1 & _); lia|reflexivity]|].
  destruct (e_best e (l_nbr l)) as [b|] eqn:B; [destruct (Nat.eqb_spec b k) as [Bk|Bk]|]; cbn [negb];
    [|right; split; [intros (l' & E & _ & _ & _ & _ & F); rewrite (U _ E) in F; destruct (F Q) as (_ & F1 & _); congruence|reflexivity]..].
  subst b. set (ed := match by_ with None => false | Some _ => _ end).
  assert (Ed : ed = false <-> forall a p c, by_ = Some a -> heard e a p -> e_edge e (e_main e a) (e_main e (l_nbr l)) = Some c -> p + l_cost l <= c).
  { unfold ed. destruct by_ as [a|]; [|split; [discriminate|reflexivity]]. destruct (e_edge e (e_main e a) (e_main e (l_nbr l))) as [c|] eqn:Ec.
    - assert (W : u32 (prev + l_cost l) = prev + l_cost l) by (unfold u32; apply Z.mod_small; lia). rewrite W. split.
      + intros H a' p c' Ea Hp Ecc. inversion Ea; subst a'. rewrite Ec in Ecc. inversion Ecc; subst c'. rewrite (Ph _ _ eq_refl Hp). lia.
      + intros H. destruct (heard_exists e a S) as (q & Hq). pose proof (Ph _ _ eq_refl Hq). specialize (H a q c eq_refl Hq Ec). lia.
    - split; [|reflexivity]. intros _ a' p c' Ea _ Ecc. inversion Ea; subst. congruence. }
  destruct ed.
  - right. split; [|reflexivity]. intros (l' & E & _ & _ & _ & _ & F). rewrite (U _ E) in F. destruct (F Q) as (_ & _ & F1). apply Ed in F1. discriminate.
  - left. split; [|unfold add; destruct (Z.eqb_spec (e_lq e) 0); [congruence|]; destruct (put_link e k f); try reflexivity].
    exists l. do 5 (split; [auto|]). intros _. split; [lia|]. split; [exact B|]. now apply Ed.
Qed.

(** after the links before [k] *)
Record finv (e : env) (i : intf) (src by_ to : option Z) (k : nat) (ks : list nat) (f : found) : Prop := {
  v_sorted : StronglySorted lt ks;
  v_in : forall j, In j ks <-> (j < k)%nat /\ candidate e i src by_ to j;
  v_n : f_n f = Z.of_nat (length ks);
  v_len : length (f_links f) = 10%nat;
  v_links : forall j x, nth_error ks j = Some x -> Z.of_nat j < e_fan e -> nth_error (f_links f) j = Some (Some x);
  v_none : ks = [] -> f_best f = None /\ f_etx f = 4194304;
  v_best : ks <> [] -> exists b, f_best f = Some b /\ best_of e ks b /\ (e_lq e <> 0 -> forall lb, nth_error (e_links e) b = Some lb -> l_cost lb = f_etx f) }.
Lemma sorted_snoc : forall ks k, StronglySorted lt ks -> (forall j, In j ks -> (j < k)%nat) -> StronglySorted lt (ks ++ [k]).
Proof.
  induction ks as [|x ks IH]; intros k S B; [repeat constructor|]. inversion S; subst. cbn [app]. constructor.
  - apply IH; [assumption|]. intros j J. apply B. now right.
  - apply Forall_app. split; [assumption|]. constructor; [|constructor]. apply B. now left.
Qed.
Lemma nth_set : forall (ls : list (option nat)) n x j, (n < length ls)%nat -> nth_error (firstn n ls ++ Some x :: skipn (S n) ls) j = if Nat.eq_dec j n then Some (Some x) else nth_error ls j.
Proof.
  induction ls as [|y ls IH]; intros n x j L; cbn [length] in L; [lia|]. destruct n as [|n].
  - destruct j as [|j]; cbn [firstn app skipn nth_error]; [destruct (Nat.eq_dec 0 0); congruence|]. destruct (Nat.eq_dec (S j) 0); congruence.
  - cbn [firstn app]. change (skipn (S (S n)) (y :: ls)) with (skipn (S n) ls). destruct j as [|j]; cbn [nth_error]; [destruct (Nat.eq_dec 0 (S n)); congruence|].
    rewrite IH by lia. destruct (Nat.eq_dec j n), (Nat.eq_dec (S j) (S n)); congruence.
Qed.
Lemma put_link_ok : forall e k f, 0 <= e_fan e <= 10 -> 0 <= f_n f -> length (f_links f) = 10%nat ->
  exists ls, put_link e k f = Done ls /\ length ls = 10%nat /\ (f_n f < e_fan e -> nth_error ls (Z.to_nat (f_n f)) = Some (Some k)) /\
    forall j, j <> Z.to_nat (f_n f) -> nth_error ls j = nth_error (f_links f) j.
Proof.
  intros e k f F N L. unfold put_link. destruct (Z.ltb_spec (f_n f) (e_fan e)) as [H|H].
  - replace (f_n f <? 10) with true by lia. eexists. split; [reflexivity|]. split; [|split].
    + rewrite app_length. cbn [length]. rewrite firstn_length, skipn_length. lia.
    + intros _. rewrite nth_set by lia. destruct (Nat.eq_dec _ _); congruence.
    + intros j J. rewrite nth_set by lia. destruct (Nat.eq_dec _ _); congruence.
  - exists (f_links f). split; [reflexivity|]. split; [exact L|]. split; [lia|reflexivity].
Qed.
Lemma add_ok : forall e i src by_ to k ks l f, sane e -> nth_error (e_links e) k = Some l -> candidate e i src by_ to k -> finv e i src by_ to k ks f ->
  exists f', add e k l f = Done f' /\ finv e i src by_ to (S k) (ks ++ [k]) f'.
Proof.
  intros e i src by_ to k ks l f S K C V. pose proof S as (Fan & Co & _). pose proof (v_n _ _ _ _ _ _ _ _ V) as Vn.
  destruct (put_link_ok e k f Fan ltac:(lia) (v_len _ _ _ _ _ _ _ _ V)) as (ls & P & L & L1 & L2). unfold add. rewrite P. cbn [obind].
  assert (Cl : e_lq e <> 0 -> l_cost l < 4194304).
  { intros Q. destruct C as (l' & E & _ & _ & _ & _ & H). rewrite K in E. inversion E; subst. now destruct (H Q). }
  eexists. split; [reflexivity|]. set (f' := if e_lq e =? 0 then _ else _).
  assert (Fn : f_n f' = f_n f + 1) by (unfold f'; destruct (e_lq e =? 0); [reflexivity|]; destruct (l_cost l <? f_etx f); reflexivity).
  assert (Fl : f_links f' = ls) by (unfold f'; destruct (e_lq e =? 0); [reflexivity|]; destruct (l_cost l <? f_etx f); reflexivity).
  constructor.
  - apply sorted_snoc; [apply (v_sorted _ _ _ _ _ _ _ _ V)|]. intros j J. now apply (v_in _ _ _ _ _ _ _ _ V) in J.
  - intros j. rewrite in_app_iff, (v_in _ _ _ _ _ _ _ _ V). cbn [In]. split.
    + intros [(A & B)|[<-|[]]]; [split; [lia|exact B]|split; [lia|exact C]].
    + intros (A & B). destruct (Nat.eq_dec j k) as [->|N]; [auto|]. left. split; [lia|exact B].
  - rewrite Fn, Vn, app_length. cbn [length]. lia.
  - now rewrite Fl.
  - intros j x J F. rewrite Fl. destruct (le_lt_dec (length ks) j) as [G|G].
    + rewrite nth_error_app2 in J by lia. destruct (j - length ks)%nat as [|m] eqn:E; cbn [nth_error] in J; [|destruct m; discriminate].
      inversion J as [Jx]. rewrite <- Jx. assert (Ej : j = Z.to_nat (f_n f)) by lia. rewrite Ej. apply L1. lia.
    + rewrite nth_error_app1 in J by lia. rewrite L2 by lia. now apply (v_links _ _ _ _ _ _ _ _ V).
  - intros E. destruct ks; discriminate.
  - intros _. destruct ks as [|k0 ks0] eqn:Eks.
    + destruct (v_none _ _ _ _ _ _ _ _ V eq_refl) as (B0 & X0). exists k. unfold f'. destruct (Z.eqb_spec (e_lq e) 0) as [Q|Q].
      * rewrite B0. cbn [f_best]. split; [reflexivity|]. split; [|intros; congruence]. split; [now left|]. split; [|intros; congruence]. intros _ j [<-|[]]. lia.
      * specialize (Cl Q). rewrite X0. replace (l_cost l <? 4194304) with true by lia. cbn [f_best f_etx]. split; [reflexivity|]. split; [|intros _ lb Lb; congruence].
        split; [now left|]. split; [intros; congruence|]. intros _ j lb lk [<-|[]] Hb Hk. right. split; [congruence|lia].
    + rewrite <- Eks in *. assert (NE : ks <> []) by (rewrite Eks; discriminate). destruct (v_best _ _ _ _ _ _ _ _ V NE) as (b & B0 & (Bi & B1 & B2) & X).
      assert (Lt : forall j, In j ks -> (j < k)%nat) by (intros j J; now apply (v_in _ _ _ _ _ _ _ _ V) in J).
      unfold f'. destruct (Z.eqb_spec (e_lq e) 0) as [Q|Q].
      * exists b. rewrite B0. cbn [f_best]. split; [reflexivity|]. split; [|intros; congruence]. split; [apply in_or_app; now left|]. split; [|intros; congruence].
        intros _ j J. apply in_app_or in J. destruct J as [J|[<-|[]]]; [now apply B1|]. specialize (Lt b Bi). lia.
      * pose proof Bi as Bi'. apply (v_in _ _ _ _ _ _ _ _ V) in Bi'. destruct Bi' as (_ & lb0 & Lb0 & _). pose proof (X Q _ Lb0) as X0.
        destruct (Z.ltb_spec (l_cost l) (f_etx f)) as [G|G].
        -- exists k. cbn [f_best f_etx]. split; [reflexivity|]. split; [|intros _ lb Lb; congruence]. split; [apply in_or_app; right; now left|]. split; [intros; congruence|].
           intros _ j lb lk J Hb Hk. rewrite K in Hb. inversion Hb; subst lb. apply in_app_or in J. destruct J as [J|[<-|[]]].
           ++ left. destruct (B2 Q j _ _ J Lb0 Hk) as [H|(H & _)]; lia.
           ++ right. split; [congruence|lia].
        -- exists b. cbn [f_best f_etx]. split; [exact B0|]. split; [|auto]. split; [apply in_or_app; now left|]. split; [intros; congruence|].
           intros _ j lb lk J Hb Hk. apply in_app_or in J. destruct J as [J|[<-|[]]]; [eapply B2; eauto|]. rewrite Lb0 in Hb. inversion Hb; subst lb. rewrite K in Hk. inversion Hk; subst lk.
           specialize (Lt b Bi). lia.
Qed.
Lemma loop_ok : forall e i src by_ to prev, sane e -> (e_lq e <> 0 -> 0 <= prev <= 4194304 /\ forall x q, by_ = Some x -> heard e x q -> q = prev) ->
  forall ls k f ks, ls = skipn k (e_links e) -> finv e i src by_ to k ks f ->
  exists f' ks', find_loop e i src by_ to prev k ls f = Done f' /\ finv e i src by_ to (k + length ls) ks' f'.
Proof.
  intros e i src by_ to prev Sa P. induction ls as [|l ls IH]; intros k f ks E V.
  - exists f, ks. split; [reflexivity|]. cbn [length]. now rewrite Nat.add_0_r.
  - assert (K : nth_error (e_links e) k = Some l).
    { rewrite <- (firstn_skipn k (e_links e)), <- E. rewrite nth_error_app2; [|rewrite firstn_length; lia]. rewrite firstn_length.
      assert (H : length (l :: ls) = length (skipn k (e_links e))) by now rewrite E. rewrite skipn_length in H. cbn [length] in H.
      replace (k - Nat.min k (length (e_links e)))%nat with 0%nat by lia. reflexivity. }
    assert (E' : ls = skipn (S k) (e_links e)).
    { clear -E. revert k E. generalize (e_links e) as m. induction m as [|x m IH]; intros k E; [destruct k; discriminate|]. destruct k as [|k]; [cbn in E; inversion E; reflexivity|]. exact (IH k E). }
    cbn [find_loop length]. replace (k + S (length ls))%nat with (S k + length ls)%nat by lia.
    destruct (consider_ok e i src by_ to prev k l f Sa K P) as [(C & ->)|(C & ->)].
    + destruct (add_ok e i src by_ to k ks l f Sa K C V) as (f' & -> & V'). cbn [obind]. eapply IH; eauto.
    + cbn [obind]. apply (IH (S k) f ks E'). destruct V as [V1 V2 V3 V4 V5 V6 V7]. constructor; auto.
      intros j. rewrite V2. split; [intros (A & B); split; [lia|exact B]|]. intros (A & B). split; [|exact B]. destruct (Nat.eq_dec j k) as [->|N]; [contradiction|lia].
Qed.
Lemma find_ok : forall e i src by_ to, sane e -> exists f ks, find_neighbors e i src by_ to = Done f /\ listing e i src by_ to ks /\
  f_n f = Z.of_nat (length ks) /\ length (f_links f) = 10%nat /\
  (forall j x, nth_error ks j = Some x -> Z.of_nat j < e_fan e -> nth_error (f_links f) j = Some (Some x)) /\
  (ks <> [] -> exists b, f_best f = Some b /\ best_of e ks b).
Proof.
  intros e i src by_ to S. unfold find_neighbors.
  assert (V0 : finv e i src by_ to 0 [] found0).
  { constructor; try (split; reflexivity); try reflexivity; try (cbn; tauto).
    - constructor.
    - intros j. split; [intros []|lia].
    - intros [|j] x J; discriminate. }
  assert (R : exists prev, (if e_lq e =? 0 then Done BROKEN else previous e by_) = Done prev /\ (e_lq e <> 0 -> 0 <= prev <= 4194304 /\ forall x q, by_ = Some x -> heard e x q -> q = prev)).
  { destruct (Z.eqb_spec (e_lq e) 0) as [Q|Q]; [exists BROKEN; split; [reflexivity|congruence]|]. destruct (previous_ok e by_ S) as (p & E & A & B). exists p. auto. }
  destruct R as (prev & -> & P). cbn [obind].
  destruct (loop_ok e i src by_ to prev S P (e_links e) 0 found0 [] eq_refl V0) as (f & ks & E & V). exists f, ks. split; [exact E|].
  destruct V as [V1 V2 V3 V4 V5 V6 V7]. split; [split; [exact V1|]|].
  - intros k. rewrite V2. split; [tauto|]. intros C. split; [|exact C]. destruct C as (l & L & _). apply nth_error_Some. congruence.
  - split; [exact V3|]. split; [exact V4|]. split; [exact V5|]. intros N. destruct (V7 N) as (b & B1 & B2 & _). eauto.
Qed.

(** * Sending *)
Lemma send_ok : forall e i u len data p b, take len data = Done b -> forall n k,
  (forall j, (j < n)%nat -> exists a, nth_error p (k + j) = Some a /\ (match u with Some links => target e links (k + j) | None => Done (i_broad i) end) = Done a) ->
  exists r, (r <= n)%nat /\ send_loop e i u len data k n = Done (map (fun a => Encap (i_id i) a b) (firstn r (skipn k p))) /\
    (forall j, (j < r)%nat -> e_ready e (i_id i) (k + j) = true) /\ (r = n \/ e_ready e (i_id i) (k + r) = false).
Proof.
  intros e i u len data p b T. induction n as [|n IH]; intros k H.
  - exists 0%nat. split; [lia|]. split; [reflexivity|]. split; [lia|auto].
  - destruct (H 0%nat ltac:(lia)) as (a & A & B). rewrite Nat.add_0_r in A, B. cbn [send_loop]. rewrite B. cbn [obind].
    destruct (e_ready e (i_id i) k) eqn:R.
    + rewrite T. cbn [obind]. destruct (IH (S k)) as (r & Rn & E & F & G).
      { intros j J. destruct (H (S j) ltac:(lia)) as (a' & A' & B'). exists a'. replace (S k + j)%nat with (k + S j)%nat by lia. auto. }
      rewrite E. cbn [obind]. exists (S r). split; [lia|]. split; [|split].
      * assert (Sk : skipn k p = a :: skipn (S k) p).
        { clear -A. revert k A. induction p as [|x p IHp]; intros k A; [destruct k; discriminate|]. destruct k as [|k]; [cbn in A; inversion A; reflexivity|]. exact (IHp k A). }
        rewrite Sk. reflexivity.
      * intros j J. destruct j as [|j]; [now rewrite Nat.add_0_r|]. replace (k + S j)%nat with (S k + j)%nat by lia. apply F. lia.
      * destruct G as [->|G]; [auto|]. right. replace (k + S r)%nat with (S k + r)%nat by lia. exact G.
    + exists 0%nat. split; [lia|]. split; [reflexivity|]. split; [lia|]. right. now rewrite Nat.add_0_r.
Qed.
Lemma target_ok : forall e links k j l, nth_error links k = Some (Some j) -> nth_error (e_links e) j = Some l -> target e links k = Done (l_nbr l).
Proof. intros e links k j l A B. unfold target. now rewrite A, B. Qed.
Lemma listing_links : forall e i src by_ to ks, listing e i src by_ to ks -> exists p, Forall2 (leads e) ks p.
Proof.
  intros e i src by_ to ks (_ & L). assert (H : forall k, In k ks -> exists l, nth_error (e_links e) k = Some l).
  { intros k K. apply L in K. destruct K as (l & E & _). eauto. }
  clear L. induction ks as [|k ks IH]; [exists []; constructor|]. destruct IH as (p & P); [intros; apply H; now right|]. destruct (H k) as (l & E); [now left|].
  exists (l_nbr l :: p). constructor; [exists l; auto|exact P].
Qed.
Lemma forall2_nth : forall (A B : Type) (R : A -> B -> Prop) x y, Forall2 R x y -> forall j a, nth_error x j = Some a -> exists b, nth_error y j = Some b /\ R a b.
Proof. intros A B R x y F. induction F; intros [|j] c J; try discriminate; cbn in *; [inversion J; subst; eauto|auto]. Qed.
Lemma forall2_len : forall (A B : Type) (R : A -> B -> Prop) x y, Forall2 R x y -> length x = length y.
Proof. intros A B R x y F. induction F; cbn [length]; congruence. Qed.
Lemma encap_ok : forall e i hdr pkt src by_ to t b, sane e -> ip_total_length pkt = Done t -> u16 (t + 8) = t + 8 -> take (t + 8) (hdr ++ pkt) = Done b ->
  exists p r, plan e i src by_ to p /\ reached e i (length p) r /\ encap_forward e i hdr pkt src by_ to = Done (map (fun a => Encap (i_id i) a b) (firstn r p)).
Proof.
  intros e i hdr pkt src by_ to t b S T W B. unfold encap_forward, udp_data_length. rewrite T. cbn [obind]. rewrite W.
  destruct (find_ok e i src by_ to S) as (f & ks & -> & L & N & Len & Li & Be). cbn [obind]. rewrite N.
  destruct ks as [|k0 ks0] eqn:Eks.
  - exists [], 0%nat. cbn [length]. split; [|split; [split; [lia|split; [lia|auto]]|reflexivity]].
    exists []. split; [exact L|]. split; [auto|]. split; [congruence|]. split; [constructor|]. pose proof S as (Fan & _). cbn [length]. lia.
  - rewrite <- Eks in *. assert (NE : ks <> []) by (rewrite Eks; discriminate). assert (Pos : (0 < length ks)%nat) by (rewrite Eks; cbn [length]; lia). replace (Z.of_nat (length ks) <=? 0) with false by lia.
    destruct (e_promisc e) eqn:Pr.
    + destruct (Be NE) as (bk & B1 & B2). pose proof B2 as (Bi & _). apply (proj2 L) in Bi. destruct Bi as (lb & Lb & _).
      destruct (send_ok e i (Some (f_best f :: tl (f_links f))) (t + 8) (hdr ++ pkt) [l_nbr lb] b B 1 0) as (r & R1 & R2 & R3 & R4).
      { intros j J. assert (j = 0)%nat by lia. subst j. exists (l_nbr lb). split; [reflexivity|]. eapply target_ok; [|exact Lb]. cbn. now rewrite B1. }
      exists [l_nbr lb], r. split; [|split; [split; [exact R1|split; [exact R3|exact R4]]|exact R2]].
      exists ks. split; [exact L|]. split; [congruence|]. split; [|split; intros; congruence]. intros _ _. exists bk, (l_nbr lb). split; [exact B2|]. split; [exists lb; auto|reflexivity].
    + destruct (Z.leb_spec (Z.of_nat (length ks)) (e_fan e)) as [F|F].
      * destruct (listing_links _ _ _ _ _ _ L) as (p & P). pose proof (forall2_len _ _ _ _ _ P) as Lp.
        destruct (send_ok e i (Some (f_links f)) (t + 8) (hdr ++ pkt) p b B (length ks) 0) as (r & R1 & R2 & R3 & R4).
        { intros j J. destruct (nth_error ks j) as [k|] eqn:Kj; [|apply nth_error_None in Kj; lia]. destruct (forall2_nth _ _ _ _ _ P j k Kj) as (a & A1 & (l & A2 & A3)).
          exists a. split; [exact A1|]. cbn [Nat.add]. rewrite <- A3. eapply target_ok; [|exact A2]. apply Li; [exact Kj|lia]. }
        rewrite Nat2Z.id. exists p, r. split; [|split; [split; [lia|split; [exact R3|rewrite <- Lp; exact R4]]|exact R2]].
        exists ks. split; [exact L|]. split; [congruence|]. split; [congruence|]. split; [auto|lia].
      * set (p := repeat (i_broad i) (Z.to_nat (e_again e))). assert (Lp : length p = Z.to_nat (e_again e)) by apply repeat_length.
        destruct (send_ok e i None (t + 8) (hdr ++ pkt) p b B (Z.to_nat (e_again e)) 0) as (r & R1 & R2 & R3 & R4).
        { intros j J. exists (i_broad i). split; [|reflexivity]. cbn [Nat.add]. unfold p. clear -J. revert j J. induction (Z.to_nat (e_again e)) as [|n IH]; intros j J; [lia|]. destruct j as [|j]; [reflexivity|]. apply IH. lia. }
        exists p, r. split; [|split; [split; [lia|split; [exact R3|rewrite Lp; exact R4]]|exact R2]].
        exists ks. split; [exact L|]. split; [congruence|]. split; [congruence|]. split; [lia|auto].
Qed.

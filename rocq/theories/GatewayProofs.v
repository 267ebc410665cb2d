(** Invariants of the gateway client. *)
From Coq Require Import Sorting.
From Verif Require Import Base DupSet GwSpeed Gateway.

Definition listed (s : gst) : list Z := map snd (s_list s).
Definition tunok (e : genv) : Prop := forall ip, e_tun e ip = true.

Record inv (c : gcfg) (s : gst) : Prop := mkInv {
  i_use : 1 <= c_use c <= 255;
  i_tree : NoDup (map g_ip (s_tree s));
  i_count : s_count s = Z.of_nat (length (s_list s));
  i_max : s_count s <= c_use c;
  i_ids : NoDup (map fst (s_list s));
  i_gws : NoDup (listed s);
  i_next : forall id, In id (map fst (s_list s)) -> (id < s_next s)%nat;
  i_in : forall ip, In ip (listed s) -> In ip (map g_ip (s_tree s));
  i_tun : forall ip, In ip (s_tun s) <-> In ip (listed s);
  i_tnd : NoDup (s_tun s);
  i_cln : forall g, In g (s_tree s) -> g_cln g = true -> ~ In (g_ip g) (listed s) /\ g_v4 g = false }.

Definition live (s : gst) : Prop :=
  match s_cur s with None => s_route s = None | Some id => exists ip, In (id, ip) (s_list s) /\ s_route s = Some ip end.
Definition leq (t : list gw) (a b : nat * Z) : Prop := cost_of t (snd a) <= cost_of t (snd b).
Definition srt (s : gst) : Prop := StronglySorted (leq (s_tree s)) (s_list s).

Definition post (c : gcfg) (e : genv) (s : gst) (r : res gst) : Prop :=
  match r with
  | OK s' => inv c s' /\ (srt s -> srt s') /\ (live s -> tunok e -> live s')
  | Fault f => f <> AssertFailed /\ (live s -> tunok e -> f <> Freed)
  end.

Lemma post_bind c e s r k : post c e s r -> (forall s1, r = OK s1 -> inv c s1 -> post c e s1 (k s1)) -> post c e s (bindr r k).
Proof.
  intros H K. destruct r as [s1|f]; cbn [bindr]; [|exact H]. destruct H as [I [S L]].
  specialize (K s1 eq_refl I). destruct (k s1) as [s2|f]; cbn [post] in *.
  - destruct K as [I2 [S2 L2]]. auto.
  - destruct K as [A B]. auto.
Qed.
Lemma post_ok c e s : inv c s -> post c e s (OK s).
Proof. intros I. cbn. auto. Qed.

(** trees *)
Lemma find_in t ip g : find_gw t ip = Some g -> In g t /\ g_ip g = ip.
Proof. unfold find_gw. intros H. apply find_some in H. destruct H as [A B]. split; [exact A|lia]. Qed.
Lemma find_none t ip : find_gw t ip = None -> ~ In ip (map g_ip t).
Proof. unfold find_gw. intros H X. apply in_map_iff in X. destruct X as [g [A B]]. pose proof (find_none _ _ H g B) as N. cbn in N. lia. Qed.
Lemma in_find t g : NoDup (map g_ip t) -> In g t -> find_gw t (g_ip g) = Some g.
Proof.
  unfold find_gw. induction t as [|h t IH]; cbn [map find In]; intros N H; [contradiction|].
  inversion N as [|x l A B]; subst. destruct H as [->|H].
  - rewrite Z.eqb_refl. reflexivity.
  - destruct (Z.eqb_spec (g_ip h) (g_ip g)) as [E|E]; [|auto]. exfalso. apply A. rewrite E. apply in_map. exact H.
Qed.
Lemma map_store t g : map g_ip (store t g) = map g_ip t.
Proof. unfold store. rewrite map_map. apply map_ext. intros h. destruct (Z.eqb_spec (g_ip h) (g_ip g)); auto. Qed.
Lemma in_store t g h : In h (store t g) -> (In h t /\ g_ip h <> g_ip g) \/ (h = g /\ In (g_ip g) (map g_ip t)).
Proof.
  unfold store. rewrite in_map_iff. intros [x [E H]]. destruct (Z.eqb_spec (g_ip x) (g_ip g)) as [Q|Q].
  - right. subst h. split; [reflexivity|]. rewrite <- Q. apply in_map. exact H.
  - left. subst h. auto.
Qed.
Lemma find_store_same t g : In (g_ip g) (map g_ip t) -> find_gw (store t g) (g_ip g) = Some g.
Proof.
  unfold find_gw, store. induction t as [|h t IH]; cbn [map find In]; intros H; [contradiction|].
  destruct (Z.eqb_spec (g_ip h) (g_ip g)) as [E|E].
  - rewrite Z.eqb_refl. reflexivity.
  - destruct (Z.eqb_spec (g_ip h) (g_ip g)); [contradiction|]. apply IH. destruct H; [congruence|assumption].
Qed.
Lemma find_store_other t g ip : ip <> g_ip g -> find_gw (store t g) ip = find_gw t ip.
Proof.
  intros N. unfold find_gw, store. induction t as [|h t IH]; cbn [map find]; [reflexivity|].
  destruct (Z.eqb_spec (g_ip h) (g_ip g)) as [E|E]; rewrite IH; [|reflexivity].
  destruct (Z.eqb_spec (g_ip g) ip); [congruence|]. destruct (Z.eqb_spec (g_ip h) ip); [congruence|reflexivity].
Qed.
Lemma store_store t g h : g_ip g = g_ip h -> store (store t g) h = store t h.
Proof.
  intros E. unfold store. rewrite map_map. apply map_ext. intros x.
  destruct (Z.eqb_spec (g_ip x) (g_ip g)) as [A|A].
  - rewrite E, Z.eqb_refl. rewrite A, E, Z.eqb_refl. reflexivity.
  - reflexivity.
Qed.
Lemma cost_store t g h ip : find_gw t (g_ip g) = Some h -> g_cost h = g_cost g -> cost_of (store t g) ip = cost_of t ip.
Proof.
  intros F C. unfold cost_of. destruct (Z.eq_dec ip (g_ip g)) as [->|N].
  - rewrite find_store_same, F; [auto|]. apply find_in in F. destruct F as [A B]. rewrite <- B. apply in_map. exact A.
  - rewrite find_store_other; auto.
Qed.

(** lists *)
Lemma unlink_in l id x : In x (unlink l id) <-> In x l /\ fst x <> id.
Proof. unfold unlink. rewrite filter_In. destruct (Nat.eqb_spec (fst x) id); cbn; intuition congruence. Qed.
Lemma unlink_out l id : ~ In id (map fst l) -> unlink l id = l.
Proof.
  induction l as [|h l IH]; cbn [map In]; intros H; [reflexivity|]. unfold unlink. cbn [filter].
  destruct (Nat.eqb_spec (fst h) id) as [E|E]; [exfalso; auto|]. cbn [negb]. fold (unlink l id). rewrite IH; auto.
Qed.
Lemma unlink_len l k : NoDup (map fst l) -> In k l -> length l = S (length (unlink l (fst k))).
Proof.
  induction l as [|h l IH]; cbn [map In]; intros N H; [contradiction|]. inversion N as [|x y A B]; subst.
  unfold unlink. cbn [filter]. fold (unlink l (fst k)). destruct (Nat.eqb_spec (fst h) (fst k)) as [E|E]; cbn [negb length].
  - rewrite unlink_out; [reflexivity|]. rewrite <- E. exact A.
  - destruct H as [->|H]; [congruence|]. rewrite <- IH; auto.
Qed.
Lemma nodup_unlink {A} (f : nat * Z -> A) l id : NoDup (map f l) -> NoDup (map f (unlink l id)).
Proof.
  induction l as [|h l IH]; cbn [map]; intros N; [constructor|]. inversion N as [|x y P Q]; subst.
  unfold unlink. cbn [filter]. fold (unlink l id). destruct (negb (Nat.eqb (fst h) id)); cbn [map]; [constructor|]; auto.
  intros X. apply P. apply in_map_iff in X. destruct X as [z [E X]]. rewrite <- E. apply in_map. apply unlink_in in X. tauto.
Qed.
Lemma nodup_inj {A B} (f : A -> B) l x y : NoDup (map f l) -> In x l -> In y l -> f x = f y -> x = y.
Proof.
  induction l as [|h l IH]; cbn [map In]; intros N H K Q; [contradiction|]. inversion N as [|u v P R]; subst.
  destruct H as [->|H], K as [->|K]; auto.
  - exfalso. apply P. rewrite Q. apply in_map. exact K.
  - exfalso. apply P. rewrite <- Q. apply in_map. exact H.
Qed.
Lemma listed_unlink l k ip : NoDup (map fst l) -> NoDup (map snd l) -> In k l ->
  (In ip (map snd (unlink l (fst k))) <-> In ip (map snd l) /\ ip <> snd k).
Proof.
  intros N M K. rewrite !in_map_iff. split.
  - intros [x [E H]]. apply unlink_in in H. destruct H as [H D]. split; [eauto|]. intros Q. subst ip. apply D.
    f_equal. apply (nodup_inj snd l); auto.
  - intros [[x [E H]] D]. exists x. split; [exact E|]. apply unlink_in. split; [exact H|]. intros Q. apply D. subst ip.
    f_equal. apply (nodup_inj fst l); auto.
Qed.
Lemma place_in t l e x : In x (place t l e) <-> x = e \/ In x l.
Proof.
  induction l as [|h l IH]; cbn [place In]; [intuition|].
  destruct (cost_of t (snd e) <=? cost_of t (snd h)); cbn [In]; [intuition|]. rewrite IH. intuition.
Qed.
Lemma place_len t l e : length (place t l e) = S (length l).
Proof. induction l as [|h l IH]; cbn [place length]; [reflexivity|]. destruct (_ <=? _); cbn [length]; auto. Qed.
Lemma place_nodup {A} (f : nat * Z -> A) t l e : NoDup (map f l) -> ~ In (f e) (map f l) -> NoDup (map f (place t l e)).
Proof.
  induction l as [|h l IH]; cbn [place map In]; intros N D; [constructor; [auto|constructor]|].
  destruct (_ <=? _); cbn [map].
  - constructor; [cbn [In]; exact D|exact N].
  - inversion N as [|u v P Q]; subst. constructor.
    + intros X. apply in_map_iff in X. destruct X as [y [E X]]. apply place_in in X. destruct X as [->|X]; [apply D; auto|].
      apply P. rewrite <- E. apply in_map. exact X.
    + apply IH; auto.
Qed.
Lemma place_sorted t l e : StronglySorted (leq t) l -> StronglySorted (leq t) (place t l e).
Proof.
  induction l as [|h l IH]; cbn [place]; intros S; [repeat constructor|].
  inversion S as [|a b P Q]; subst. destruct (Z.leb_spec (cost_of t (snd e)) (cost_of t (snd h))) as [L|L].
  - constructor; [exact S|]. constructor; [exact L|]. eapply Forall_impl; [|exact Q]. intros x H. unfold leq in *. lia.
  - constructor; [auto|]. rewrite Forall_forall in *. intros x H. apply place_in in H. destruct H as [->|H]; [unfold leq; lia|auto].
Qed.
Lemma unlink_sorted t l id : StronglySorted (leq t) l -> StronglySorted (leq t) (unlink l id).
Proof.
  induction l as [|h l IH]; intros S; [constructor|]. inversion S as [|a b P Q]; subst.
  unfold unlink. cbn [filter]. fold (unlink l id). destruct (negb (Nat.eqb (fst h) id)); auto.
  constructor; auto. rewrite Forall_forall in *. intros x H. apply unlink_in in H. apply Q. tauto.
Qed.
Lemma sorted_ext t t' l : (forall e, In e l -> cost_of t' (snd e) = cost_of t (snd e)) -> StronglySorted (leq t) l -> StronglySorted (leq t') l.
Proof.
  induction l as [|h l IH]; intros E S; [constructor|]. inversion S as [|a b P Q]; subst. constructor.
  - apply IH; auto. intros e H. apply E. right. exact H.
  - rewrite Forall_forall in *. intros x H. specialize (Q x H). unfold leq in *. rewrite !E; [exact Q|now right|now left].
Qed.

Lemma filter_neq_in (l : list Z) x y : In y (filter (fun z => negb (z =? x)) l) <-> In y l /\ y <> x.
Proof. rewrite filter_In. destruct (Z.eqb_spec y x); cbn; intuition congruence. Qed.

(** removing a container with its tunnel *)
Lemma remove_ok c s k : inv c s -> In k (s_list s) ->
  exists s', remove_from_list s k = OK s' /\ inv c s' /\ s_tree s' = s_tree s /\ s_list s' = unlink (s_list s) (fst k) /\
    s_cur s' = s_cur s /\ s_next s' = s_next s /\ s_new4 s' = s_new4 s /\ s_count s' = s_count s - 1 /\
    s_route s' = match s_route s with Some r => if r =? snd k then None else Some r | None => None end.
Proof.
  intros [I0 I1 I2 I3 I4 I5 I6 I7 I8 I9 I10] K. pose proof (unlink_len _ _ I4 K) as L.
  unfold remove_from_list, list_del, del_tunnel, set_kern, set_list. cbn [s_count s_list s_tree s_cur s_next s_new4 s_route].
  destruct (Z.eqb_spec (s_count s) 0) as [E|E]; [lia|].
  assert (U : u8 (s_count s - 1) = s_count s - 1) by (unfold u8; apply Z.mod_small; lia).
  pose proof (fun ip => listed_unlink _ _ ip I4 I5 K) as LU. unfold listed in *.
  eexists. split; [reflexivity|]. cbn [s_tree s_list s_cur s_next s_new4 s_route s_count]. split; [|repeat split; auto].
  constructor; unfold listed; cbn [s_tree s_list s_cur s_next s_new4 s_route s_count s_tun]; auto.
  - lia.
  - lia.
  - apply nodup_unlink. exact I4.
  - apply nodup_unlink. exact I5.
  - intros id H. apply I6. apply in_map_iff in H. destruct H as [x [A B]]. rewrite <- A. apply in_map. apply unlink_in in B. tauto.
  - intros ip H. apply LU in H. apply I7. tauto.
  - intros ip. rewrite filter_neq_in, LU, I8. tauto.
  - apply NoDup_filter. exact I9.
  - intros g A B. destruct (I10 g A B) as [C D]. split; [|exact D]. intros X. apply LU in X. tauto.
Qed.

Lemma last_in {A} (l : list A) h : In (last l h) (h :: l).
Proof.
  induction l as [|a l _] using rev_ind; [left; reflexivity|]. rewrite last_last. right. apply in_or_app. right. left. reflexivity.
Qed.
Lemma worst_in c s : inv c s -> 0 < s_count s -> exists w, list_worst s = Some w /\ In w (s_list s).
Proof.
  intros I H. unfold list_worst. destruct (Z.eqb_spec (s_count s) 0); [lia|]. pose proof (i_count _ _ I) as C.
  destruct (s_list s) as [|h l]; [cbn in C; lia|]. exists (last l h). split; [reflexivity|]. apply last_in.
Qed.

Lemma current_ok s : (exists o, current s = OK o /\ match s_cur s, o with None, None => True | Some id, Some ip => In (id, ip) (s_list s) | _, _ => False end)
  \/ (current s = Fault Freed /\ ~ live s).
Proof.
  unfold current, live. destruct (s_cur s) as [id|]; [|left; exists None; auto].
  destruct (find (fun e => Nat.eqb (fst e) id) (s_list s)) as [[i ip]|] eqn:E.
  - left. exists (Some ip). split; [reflexivity|]. apply find_some in E. cbn in E. destruct E as [A B].
    apply Nat.eqb_eq in B. subst i. exact A.
  - right. split; [reflexivity|]. intros [ip [A _]]. pose proof (List.find_none _ _ E _ A) as N. cbn in N.
    rewrite Nat.eqb_refl in N. discriminate.
Qed.
Lemma current_post {c e s} (k : option Z -> res gst) :
  (forall o, current s = OK o -> match s_cur s, o with None, None => True | Some id, Some ip => In (id, ip) (s_list s) | _, _ => False end ->
     post c e s (k o)) -> post c e s (bindr (current s) k).
Proof.
  intros K. destruct (current_ok s) as [[o [E H]]|[E H]]; rewrite E; cbn [bindr]; [auto|].
  cbn. split; [discriminate|]. intros L. contradiction.
Qed.

(** choosing a gateway *)
Definition sel (c : gcfg) (t : list gw) (ip : Z) : Prop := exists g, find_gw t ip = Some g /\ selectable c g = true.

Lemma list_find_some s ip k : list_find s ip = Some k -> In k (s_list s) /\ snd k = ip.
Proof. unfold list_find. intros H. apply find_some in H. destruct H. split; [auto|lia]. Qed.
Lemma list_find_none s ip : list_find s ip = None -> ~ In ip (listed s).
Proof.
  unfold list_find, listed. intros H X. apply in_map_iff in X. destruct X as [k [E K]].
  pose proof (List.find_none _ _ H _ K) as N. cbn in N. lia.
Qed.

(** adding a gateway that is not in the list, with a new tunnel *)
Lemma add_ok c s ip : inv c s -> s_count s < c_use c -> ~ In ip (listed s) -> (exists g, find_gw (s_tree s) ip = Some g /\ g_v4 g = true) ->
  let s2 := set_route (add_tunnel s ip) ip in let k := s_next s2 in
  exists s', bindr (list_add c (set_next s2 (S k)) (k, ip)) (fun s3 => OK (set_cur s3 (Some k))) = OK s' /\
    inv c s' /\ s_tree s' = s_tree s /\ s_list s' = place (s_tree s) (s_list s) (s_next s, ip) /\ s_new4 s' = s_new4 s /\
    s_cur s' = Some (s_next s) /\ s_route s' = Some ip.
Proof.
  intros [I0 I1 I2 I3 I4 I5 I6 I7 I8 I9 I10] F D [g [G V]] s2 k.
  assert (U : u8 (s_count s + 1) = s_count s + 1) by (unfold u8; apply Z.mod_small; lia).
  unfold list_add, list_full. subst s2 k. unfold set_route, add_tunnel, set_kern, set_next, set_list, set_cur.
  cbn [s_count s_list s_tree s_cur s_next s_new4 s_route].
  destruct (Z.geb_spec (s_count s) (c_use c)) as [E|E]; [lia|]. cbn [bindr]. eexists. split; [reflexivity|].
  cbn [s_count s_list s_tree s_cur s_next s_new4 s_route s_tun]. split; [|repeat split; auto].
  assert (LP : forall x, In x (map snd (place (s_tree s) (s_list s) (s_next s, ip))) <-> x = ip \/ In x (listed s)).
  { intros x. unfold listed. rewrite !in_map_iff. split.
    - intros [y [A B]]. apply place_in in B. destruct B as [->|B]; [left; auto|right; eauto].
    - intros [->|[y [A B]]]; [exists (s_next s, ip)|exists y]; (split; [auto|]); apply place_in; auto. }
  constructor; unfold listed; cbn [s_tree s_list s_cur s_next s_new4 s_route s_count s_tun]; auto.
  - rewrite place_len. lia.
  - lia.
  - apply place_nodup; [exact I4|]. cbn [fst]. intros X. apply I6 in X. lia.
  - apply place_nodup; [exact I5|exact D].
  - intros id H. apply in_map_iff in H. destruct H as [y [A B]]. apply place_in in B. destruct B as [->|B]; [cbn in A; lia|].
    enough (id < s_next s)%nat by lia. apply I6. rewrite <- A. apply in_map. exact B.
  - intros x H. apply LP in H. destruct H as [->|H]; [|auto]. apply find_in in G. destruct G as [A B]. rewrite <- B. apply in_map. exact A.
  - intros x. rewrite LP, <- I8. cbn [In]. intuition.
  - constructor; [|exact I9]. rewrite I8. exact D.
  - intros h A B. destruct (I10 h A B) as [P Q]. split; [|exact Q]. intros X. apply LP in X. destruct X as [X|X]; [|auto].
    pose proof (in_find _ _ I1 A) as FF. rewrite X, G in FF. congruence.
Qed.

Lemma set_gateway_post c e s ip : inv c s -> post c e s (set_gateway c e s ip).
Proof.
  intros I. unfold set_gateway. destruct (find_gw (s_tree s) ip) as [g|] eqn:G; [|apply post_ok; exact I].
  destruct (g_v4 g) eqn:V; cbn [andb]; [|apply post_ok; exact I].
  destruct (negb (g_nat g) || c_nat c); [|apply post_ok; exact I].
  apply current_post. intros o Eo Ho. destruct (match o with Some x => x =? ip | None => false end) eqn:Eq; [apply post_ok; exact I|].
  destruct (list_find s ip) as [k|] eqn:K.
  - apply list_find_some in K. destruct K as [K1 K2]. cbn [post].
    split; [|split; [auto|]].
    + destruct I. constructor; auto.
    + intros _ _. unfold live. cbn. exists ip. split; [|reflexivity]. rewrite <- K2. destruct k; exact K1.
  - apply list_find_none in K.
    assert (P : exists s1, (if list_full c s then match list_worst s with None => Fault AssertFailed | Some w => remove_from_list s w end else OK s) = OK s1 /\
               inv c s1 /\ s_tree s1 = s_tree s /\ s_count s1 < c_use c /\ (srt s -> srt s1) /\ ~ In ip (listed s1)).
    { unfold list_full. destruct (Z.geb_spec (s_count s) (c_use c)) as [E|E].
      - pose proof (i_use _ _ I). destruct (worst_in c s I) as [w [W1 W2]]; [lia|]. rewrite W1.
        destruct (remove_ok c s w I W2) as [s1 [R [I1 [T1 [L1 [_ [_ [_ [C1 _]]]]]]]]]. exists s1. split; [exact R|]. split; [exact I1|].
        split; [exact T1|]. pose proof (i_max _ _ I). split; [lia|]. split.
        + unfold srt. rewrite T1, L1. apply unlink_sorted.
        + unfold listed in *. rewrite L1. rewrite (listed_unlink _ w); [tauto|apply (i_ids _ _ I)|apply (i_gws _ _ I)|exact W2].
      - exists s. pose proof (i_max _ _ I). auto 10. }
    destruct P as [s1 [E1 [I1 [T1 [C1 [S1 D1]]]]]]. rewrite E1. cbn [bindr].
    destruct (e_tun e ip) eqn:Tn.
    + destruct (add_ok c s1 ip I1 C1 D1) as [s' [A1 [A2 [A3 [A4 [A5 [A6 A7]]]]]]]; [rewrite T1; eauto|].
      cbv zeta in A1. rewrite A1. cbn [post]. split; [exact A2|]. split.
      * intros S. unfold srt. rewrite A3, A4. apply place_sorted. apply S1. exact S.
      * intros _ _. unfold live. rewrite A6, A7. exists ip. split; [|reflexivity]. rewrite A4. apply place_in. auto.
    + cbn [post]. split; [exact I1|]. split; [exact S1|]. intros _ Q. rewrite Q in Tn. discriminate.
Qed.

Definition same (s s1 : gst) : Prop :=
  s_tree s1 = s_tree s /\ s_list s1 = s_list s /\ s_count s1 = s_count s /\ s_cur s1 = s_cur s /\ s_next s1 = s_next s /\
  s_tun s1 = s_tun s /\ s_route s1 = s_route s.
Lemma same_inv c s s1 : same s s1 -> inv c s -> inv c s1.
Proof.
  intros [A [B [C [D [E [F G]]]]]] [I0 I1 I2 I3 I4 I5 I6 I7 I8 I9 I10].
  constructor; unfold listed in *; rewrite ?A, ?B, ?C, ?E, ?F; auto.
Qed.
Lemma same_post c e s s1 r : same s s1 -> post c e s1 r -> post c e s r.
Proof.
  intros [A [B [C [D [E [F G]]]]]]. unfold post, live, srt. rewrite D, G, A, B. auto.
Qed.
Lemma same_new4 s b : same s (set_new4 s b). Proof. repeat split. Qed.
Lemma same_timer s b : same s (set_timer s b). Proof. repeat split. Qed.
Lemma same_nodes s n k : same s (set_nodes s n k). Proof. repeat split. Qed.
Lemma same_startup c e s : same s (startup c e s). Proof. repeat split. Qed.

Lemma set_gateway_tree c e s ip s' : set_gateway c e s ip = OK s' -> s_tree s' = s_tree s.
Proof.
  unfold set_gateway. destruct (find_gw (s_tree s) ip) as [g|]; [|intros [= <-]; reflexivity].
  destruct (g_v4 g && _); [|intros [= <-]; reflexivity].
  destruct (current s) as [o|]; cbn [bindr]; [|discriminate].
  destruct (match o with Some x => x =? ip | None => false end); [intros [= <-]; reflexivity|].
  destruct (list_find s ip); [intros [= <-]; reflexivity|].
  assert (P : forall s1, (if list_full c s then match list_worst s with None => Fault AssertFailed | Some w => remove_from_list s w end else OK s) = OK s1 ->
              s_tree s1 = s_tree s).
  { intros s1. destruct (list_full c s); [|intros [= <-]; reflexivity]. destruct (list_worst s) as [w|]; [|discriminate].
    unfold remove_from_list, list_del. destruct (_ =? 0); [discriminate|]. intros [= <-]. reflexivity. }
  destruct (if list_full c s then _ else _) as [s1|]; cbn [bindr]; [|discriminate]. specialize (P s1 eq_refl).
  destruct (e_tun e ip); [|intros [= <-]; exact P].
  unfold list_add. destruct (list_full _ _); cbn [bindr]; [discriminate|]. intros [= <-]. exact P.
Qed.

Lemma pick_sel c th t g : pick c th t = Some g -> In g t /\ selectable c g = true /\ g_cost g < INT64_MAX /\ match th with Some x => g_cost g < x | None => True end.
Proof.
  unfold pick. enough (H : forall l b, (forall x, b = Some x -> In x t /\ selectable c x = true /\ g_cost x < INT64_MAX /\ match th with Some y => g_cost x < y | None => True end) ->
    incl l t -> forall x, fold_left (better c th) l b = Some x -> In x t /\ selectable c x = true /\ g_cost x < INT64_MAX /\ match th with Some y => g_cost x < y | None => True end).
  { intros P. apply (H t None); auto; [discriminate|]. intros x; auto. }
  induction l as [|h l IH]; cbn [fold_left]; intros b B L x; [apply B|]. apply IH; [|intros y Y; apply L; right; exact Y].
  clear x. intros x. unfold better. destruct (Z.eqb_spec (g_cost h) INT64_MAX); [apply B|].
  destruct (selectable c h) eqn:S; cbn [andb]; [|apply B].
  destruct (Z.ltb_spec (g_cost h) (match b with Some b0 => g_cost b0 | None => INT64_MAX end)) as [A|A]; cbn [andb]; [|apply B].
  destruct (match th with Some t0 => g_cost h <? t0 | None => true end) eqn:T; [|apply B].
  intros E. apply Some_inj in E. subst x. split; [apply L; left; reflexivity|]. split; [exact S|]. split.
  - destruct b as [b0|]; [|exact A]. destruct (B b0 eq_refl) as [_ [_ [Q _]]]. lia.
  - destruct th; [lia|exact Logic.I].
Qed.

Lemma choose_post c e s : inv c s -> post c e s (choose c e s).
Proof.
  intros I. unfold choose.
  assert (X : forall th, post c e s (
    let p := if s_new4 s then pick c th (s_tree s) else None in
    let s1 := set_new4 s (s_new4 s && match p with None => true | Some _ => false end) in
    bindr (match p with Some g => set_gateway c e s1 (g_ip g) | None => OK s1 end) (fun s2 =>
    OK (if (c_thresh c =? 0) && negb (s_new4 s2) then set_timer s2 false else s2)))).
  { intros th. cbv zeta. set (p := if s_new4 s then _ else _). set (s1 := set_new4 s _). apply same_post with (s1 := s1); [apply same_new4|]. assert (I1 : inv c s1) by (eapply same_inv; [apply same_new4|exact I]).
    apply post_bind.
    - destruct p; [apply set_gateway_post|apply post_ok]; exact I1.
    - clearbody s1. intros s2 _ I2. destruct ((c_thresh c =? 0) && negb (s_new4 s2)); [|apply post_ok; exact I2]. apply same_post with (s1 := set_timer s2 false); [apply same_timer|].
      apply post_ok. eapply same_inv; [apply same_timer|exact I2]. }
  destruct (c_thresh c =? 0) eqn:T; [exact (X None)|].
  destruct (current_ok s) as [[o [E H]]|[E H]]; rewrite E; cbn [bindr].
  - destruct o as [ip|]; cbn [bindr]; [|exact (X None)].
    unfold threshold. rewrite T. destruct (_ >? INT64_MAX); cbn [bindr]; [cbn; split; discriminate|]. exact (X (Some _)).
  - cbn. split; [discriminate|contradiction].
Qed.
Lemma choose_tree c e s s' : choose c e s = OK s' -> s_tree s' = s_tree s.
Proof.
  unfold choose. destruct (if c_thresh c =? 0 then _ else _) as [th|]; cbn [bindr]; [|discriminate].
  cbv zeta. destruct (if s_new4 s then _ else _) as [g|]; cbn [bindr].
  - destruct (set_gateway c e _ (g_ip g)) as [s2|] eqn:E; cbn [bindr]; [|discriminate]. apply set_gateway_tree in E.
    intros [= <-]. destruct ((c_thresh c =? 0) && negb (s_new4 s2)); exact E.
  - intros [= <-]. match goal with |- s_tree (if ?b then _ else _) = _ => destruct b end; reflexivity.
Qed.
Lemma lookup_post c e s b : inv c s -> post c e s (lookup c e s b).
Proof.
  intros I. unfold lookup. set (s1 := if b then set_new4 s true else s).
  assert (S : same s s1) by (destruct b; repeat split). apply same_post with (s1 := s1); [exact S|].
  pose proof (same_inv c _ _ S I) as I1. destruct (s_new4 s1); [apply choose_post|apply post_ok]; exact I1.
Qed.
Lemma lookup_tree c e s b s' : lookup c e s b = OK s' -> s_tree s' = s_tree s.
Proof.
  unfold lookup. destruct b; cbn [s_new4 set_new4].
  - intros H. apply choose_tree in H. exact H.
  - destruct (s_new4 s); [apply choose_tree|intros [= <-]; reflexivity].
Qed.
Lemma choose_handler_post c e s b : inv c s -> post c e s (choose_handler c e s b).
Proof.
  intros I. unfold choose_handler. apply post_bind; [apply lookup_post; exact I|]. intros s1 _ I1.
  destruct (s_new4 s1); [|apply post_ok; exact I1]. apply same_post with (s1 := startup c e s1); [apply same_startup|].
  apply post_ok. eapply same_inv; [apply same_startup|exact I1].
Qed.
Lemma update_handler_post c e s g : inv c s -> post c e s (update_handler c e s g).
Proof.
  intros I. unfold update_handler. destruct (c_thresh c =? 0); [|apply lookup_post; exact I].
  apply current_post. intros o _ _. destruct (_ && _); [apply lookup_post|apply post_ok]; exact I.
Qed.
Lemma delete_handler_post c e s ip : inv c s -> post c e s (delete_handler c e s ip).
Proof.
  intros I. unfold delete_handler. apply current_post. intros o _ _.
  destruct (match o with Some x => x =? ip | None => false end); [apply lookup_post|apply post_ok]; exact I.
Qed.
Lemma delete_handler_tree c e s ip s' : delete_handler c e s ip = OK s' -> s_tree s' = s_tree s.
Proof.
  unfold delete_handler. destruct (current s) as [o|]; cbn [bindr]; [|discriminate].
  destruct (match o with Some x => x =? ip | None => false end); [apply lookup_tree|intros [= <-]; reflexivity].
Qed.
Lemma timer_post c e s : inv c s -> post c e s (timer_handler c e s).
Proof.
  intros I. unfold timer_handler. destruct (s_timer s); cbn [negb]; [|apply post_ok; exact I].
  set (s1 := if e_count e =? _ then _ else _). assert (S : same s s1) by (subst s1; destruct (e_count e =? _); repeat split).
  clearbody s1. cbv zeta. apply same_post with (s1 := s1); [exact S|]. pose proof (same_inv c _ _ S I) as I1.
  destruct (_ >=? _); [apply choose_post|apply post_ok]; exact I1.
Qed.
Lemma loss_post c e s : inv c s -> post c e s (loss_check c e s).
Proof.
  intros I. unfold loss_check. apply current_post. intros o _ _. destruct o as [ip|]; [|apply post_ok; exact I].
  destruct (match e_tc e ip with None => true | Some p => p >=? 4294967295 end); [apply choose_handler_post|apply post_ok]; exact I.
Qed.

(** writing an entry *)
Lemma inv_store c s g : inv c s -> In (g_ip g) (map g_ip (s_tree s)) -> (g_cln g = true -> ~ In (g_ip g) (listed s) /\ g_v4 g = false) ->
  inv c (set_tree s (store (s_tree s) g)).
Proof.
  intros [I0 I1 I2 I3 I4 I5 I6 I7 I8 I9 I10] H C. constructor; unfold listed in *; cbn [set_tree s_tree s_list s_count s_next s_tun]; auto.
  - rewrite map_store. exact I1.
  - intros ip. rewrite map_store. auto.
  - intros h A B. apply in_store in A. destruct A as [[A N]|[A N]]; [auto|]. subst h. auto.
Qed.
Lemma store_post c e s g h r : find_gw (s_tree s) (g_ip g) = Some h -> g_cost h = g_cost g ->
  post c e (set_tree s (store (s_tree s) g)) r -> post c e s r.
Proof.
  intros F C. assert (S : srt s -> srt (set_tree s (store (s_tree s) g))).
  { unfold srt. cbn [set_tree s_tree s_list]. apply sorted_ext. intros x _. eapply cost_store; eauto. }
  unfold post. destruct r as [s'|f]; [|auto]. intros [A [B D]]. split; [exact A|]. split; [auto|exact D].
Qed.
Lemma find_del t ip x : x <> ip -> find_gw (del_gw t ip) x = find_gw t x.
Proof.
  intros N. unfold find_gw, del_gw. induction t as [|h t IH]; cbn [filter find]; [reflexivity|].
  destruct (Z.eqb_spec (g_ip h) ip) as [E|E]; cbn [negb find].
  - destruct (Z.eqb_spec (g_ip h) x); [congruence|exact IH].
  - rewrite IH. reflexivity.
Qed.
Lemma in_del t ip x : In x (map g_ip (del_gw t ip)) <-> In x (map g_ip t) /\ x <> ip.
Proof.
  unfold del_gw. rewrite !in_map_iff. split.
  - intros [g [E H]]. apply filter_In in H. destruct H as [H N]. split; [eauto|lia].
  - intros [[g [E H]] N]. exists g. split; [exact E|]. apply filter_In. split; [exact H|lia].
Qed.
Lemma nodup_del t ip : NoDup (map g_ip t) -> NoDup (map g_ip (del_gw t ip)).
Proof.
  unfold del_gw. induction t as [|h t IH]; cbn [map filter]; intros N; [constructor|]. inversion N as [|x l A B]; subst.
  destruct (negb _); cbn [map]; auto. constructor; auto. intros X. apply A. apply in_map_iff in X. destruct X as [g [E X]].
  rewrite <- E. apply in_map. apply filter_In in X. tauto.
Qed.
Lemma cleanup_post c e s ip : inv c s -> ~ In ip (listed s) -> post c e s (OK (cleanup s ip)).
Proof.
  intros I D. unfold cleanup. destruct (find_gw (s_tree s) ip) as [g|] eqn:F; [|apply post_ok; exact I].
  destruct (g_v4 g); [apply post_ok; exact I|]. cbn [post]. split; [|split].
  - destruct I as [I0 I1 I2 I3 I4 I5 I6 I7 I8 I9 I10]. constructor; unfold listed in *; cbn [set_tree s_tree s_list s_count s_next s_tun]; auto.
    + apply nodup_del. exact I1.
    + intros x H. apply in_del. split; [auto|congruence].
    + intros h A. apply I10. unfold del_gw in A. apply filter_In in A. tauto.
  - unfold srt. cbn [set_tree s_tree s_list]. apply sorted_ext. intros x H. unfold cost_of. rewrite find_del; [reflexivity|].
    intros E. apply D. rewrite <- E. unfold listed. apply in_map. exact H.
  - auto.
Qed.
Lemma cleanup_timer_post c e s ip : inv c s -> post c e s (OK (cleanup_timer s ip)).
Proof.
  intros I. unfold cleanup_timer. destruct (find_gw (s_tree s) ip) as [g|] eqn:F; [|apply post_ok; exact I].
  destruct (g_cln g) eqn:C; [|apply post_ok; exact I]. apply cleanup_post; [exact I|].
  apply find_in in F. destruct F as [A B]. rewrite <- B. apply (i_cln _ _ I g A C).
Qed.

Definition drop (s : gst) (ip : Z) : res gst :=
  match list_find s ip with
  | None => OK s
  | Some k =>
      bindr (current s) (fun o =>
      let s4 := if match o with Some x => x =? ip | None => false end then set_cur (del_route s ip) None else s in
      list_del (del_tunnel s4 ip) (fst k))
  end.
Lemma drop_post c e s ip : inv c s -> post c e s (drop s ip) /\ forall s', drop s ip = OK s' -> s_tree s' = s_tree s /\ ~ In ip (listed s').
Proof.
  intros I. unfold drop. destruct (list_find s ip) as [k|] eqn:K.
  2:{ apply list_find_none in K. split; [apply post_ok; exact I|]. intros s' [= <-]. auto. }
  apply list_find_some in K. destruct K as [K1 K2].
  assert (X : forall s4, same s (set_cur (set_kern s4 (s_tun s4) (s_route s)) (s_cur s)) -> s_tun s4 = s_tun s ->
     exists s', list_del (del_tunnel s4 ip) (fst k) = OK s' /\ inv c s' /\ s_tree s' = s_tree s /\ (srt s -> srt s') /\ ~ In ip (listed s') /\
        s_list s' = unlink (s_list s) (fst k) /\ s_cur s' = s_cur s4 /\ s_route s' = match s_route s4 with Some r => if r =? ip then None else Some r | None => None end).
  { intros s4 [A [B [C [_ [E [F _]]]]]] T. cbn in A, B, C, E.
    assert (I4 : inv c s4).
    { destruct I. constructor; unfold listed in *; rewrite ?A, ?B, ?C, ?E, ?T; auto. }
    destruct (remove_ok c s4 k I4) as [s' [R1 [R2 [R3 [R4 [R5 [R6 [R7 [R8 R9]]]]]]]]]; [rewrite B; exact K1|].
    unfold remove_from_list in R1. rewrite K2 in R1, R9. exists s'. split; [exact R1|]. split; [exact R2|]. split; [congruence|]. split.
    - unfold srt. rewrite R3, R4, A, B. apply unlink_sorted.
    - split; [|rewrite R4, B; auto]. unfold listed. rewrite R4, B. rewrite (listed_unlink _ k); [|apply (i_ids _ _ I)|apply (i_gws _ _ I)|exact K1].
      rewrite K2. tauto. }
  destruct (current_ok s) as [[o [E H]]|[E H]]; rewrite E; cbn [bindr].
  2:{ split; [cbn; split; [discriminate|contradiction]|discriminate]. }
  destruct (match o with Some x => x =? ip | None => false end) eqn:Eq.
  - destruct (X (set_cur (del_route s ip) None)) as [s' [R1 [R2 [R3 [R4 [R5 [R6 [R7 R8]]]]]]]]; [repeat split|reflexivity|].
    cbv zeta. rewrite R1. split; [|intros s'' [= <-]; auto]. cbn [post]. split; [exact R2|]. split; [exact R4|]. intros L _.
    unfold live. rewrite R7, R8. cbn. destruct o as [x|]; [|discriminate]. unfold live in L.
    destruct (s_cur s) as [id|]; [|contradiction]. destruct L as [y [L1 L2]]. rewrite L2.
    assert ((id, x) = (id, y)) by (apply (nodup_inj fst (s_list s)); auto; apply (i_ids _ _ I)).
    assert (x = y) by congruence. subst y. rewrite Eq. reflexivity.
  - destruct (X s) as [s' [R1 [R2 [R3 [R4 [R5 [R6 [R7 R8]]]]]]]]; [repeat split|reflexivity|].
    cbv zeta. rewrite R1. split; [|intros s'' [= <-]; auto]. cbn [post]. split; [exact R2|]. split; [exact R4|]. intros L _.
    unfold live in *. rewrite R7. destruct (s_cur s) as [id|].
    + destruct L as [y [L1 L2]]. exists y. destruct o as [x|]; [|contradiction].
      assert ((id, x) = (id, y)) by (apply (nodup_inj fst (s_list s)); auto; apply (i_ids _ _ I)).
      assert (x = y) by congruence. subst y. rewrite R8, L2, Eq. split; [|reflexivity]. rewrite R6. apply unlink_in. split; [exact L1|].
      cbn. intros Q. assert ((id, x) = k) by (apply (nodup_inj fst (s_list s)); auto; apply (i_ids _ _ I)). subst k. cbn in K2. lia.
    + rewrite R8, L. reflexivity.
Qed.

Lemma delete_entry_post c e s ip plen (imm : bool) : (find_gw (s_tree s) ip = None -> inv c s) ->
  (forall g, find_gw (s_tree s) ip = Some g -> inv c (set_tree s (store (s_tree s) (timers g false (if imm then false else g_cln g))))) ->
  post c e s (delete_entry c e s ip plen imm).
Proof.
  intros IN IS. unfold delete_entry. destruct (find_gw (s_tree s) ip) as [g|] eqn:F; [|apply post_ok; auto].
  specialize (IS g eq_refl). destruct (find_in _ _ _ F) as [Fi Fp]. set (g1 := timers g false (if imm then false else g_cln g)) in *.
  assert (P1 : g_ip g1 = ip) by exact Fp.
  apply store_post with (g := g1) (h := g); [rewrite P1; exact F|reflexivity|].
  set (s1 := set_tree s (store (s_tree s) g1)) in *.
  assert (F1 : find_gw (s_tree s1) ip = Some g1).
  { subst s1. cbn [set_tree s_tree]. rewrite <- P1. apply find_store_same. rewrite P1, <- Fp. apply in_map. exact Fi. }
  assert (M1 : In ip (map g_ip (s_tree s1))) by (apply find_in in F1; rewrite <- P1; apply in_map; tauto).
  clearbody s1. clear Fi Fp F IN s. cbv zeta. destruct (g_cln g1 && negb (g_v4 g1)) eqn:C1; [apply post_ok; exact IS|].
  set (g2 := if plen =? 0 then no_v4 g1 else g1).
  assert (P2 : g_ip g2 = ip /\ g_cost g2 = g_cost g1 /\ g_cln g2 = g_cln g1) by (subst g2; destruct (plen =? 0); auto). destruct P2 as [P2 [Q2 R2]].
  assert (CL : g_cln g1 = true -> ~ In ip (listed s1)).
  { intros H. rewrite <- P1. apply (i_cln _ _ IS g1); [|exact H]. apply find_in in F1. tauto. }
  destruct ((plen =? 255) || negb (g_v4 g2)) eqn:D.
  - apply store_post with (g := no_v4 g2) (h := g1); [cbn; rewrite P2; exact F1|cbn; auto|].
    assert (I2 : inv c (set_tree s1 (store (s_tree s1) (no_v4 g2)))).
    { apply inv_store; [exact IS|cbn; rewrite P2; exact M1|]. cbn [no_v4 g_cln g_ip g_v4]. rewrite R2, P2. auto. }
    set (s2 := set_tree s1 (store (s_tree s1) (no_v4 g2))) in *.
    assert (F2 : find_gw (s_tree s2) ip = Some (no_v4 g2)).
    { subst s2. cbn [set_tree s_tree]. rewrite <- P2 at 1. apply (find_store_same (s_tree s1) (no_v4 g2)). cbn [no_v4 g_ip]. rewrite P2. exact M1. }
    clearbody s2. apply post_bind; [apply delete_handler_post; exact I2|]. intros s3 E3 I3. apply delete_handler_tree in E3.
    fold (drop s3 ip). destruct (drop_post c e s3 ip I3) as [D1 D2]. apply post_bind; [exact D1|]. intros s5 E5 I5.
    destruct (D2 s5 E5) as [T5 N5]. set (s6 := if imm then cleanup s5 ip else match find_gw (s_tree s5) ip with
                         | Some h => set_tree s5 (store (s_tree s5) (timers h (g_exp h) true))
                         | None => s5
                         end). assert (X : post c e s5 (OK s6)).
    { subst s6. destruct imm; [apply cleanup_post; assumption|]. rewrite T5, E3, F2.
      apply store_post with (g := timers (no_v4 g2) (g_exp (no_v4 g2)) true) (h := no_v4 g2); [cbn [timers g_ip no_v4]; rewrite P2, T5, E3; exact F2|reflexivity|].
      rewrite T5, E3. apply post_ok. replace (s_tree s2) with (s_tree s5) by congruence. apply inv_store; [exact I5| |].
      - cbn [timers g_ip no_v4]. rewrite P2, T5, E3. apply find_in in F2. cbn in F2. rewrite P2 in F2. destruct F2 as [A _].
        apply in_map_iff. exists (no_v4 g2). auto.
      - cbn [timers g_ip no_v4 g_v4]. rewrite P2. auto. }
    clearbody s6. assert (post c e s5 (bindr (OK s6) (fun s6 => choose_handler c e s6 (match s_cur s6 with None => true | Some _ => false end)))) as Y; [|exact Y].
    apply post_bind; [exact X|]. intros s7 _ I7. apply choose_handler_post. exact I7.
  - apply store_post with (g := g2) (h := g1); [rewrite P2; exact F1|auto|].
    assert (I2 : inv c (set_tree s1 (store (s_tree s1) g2))).
    { apply inv_store; [exact IS|rewrite P2; exact M1|]. rewrite R2, P2. intros H. split; [auto|].
      subst g2. destruct (plen =? 0); [reflexivity|]. apply (i_cln _ _ IS g1); [|exact H]. apply find_in in F1. tauto. }
    destruct ((plen =? 0) && g_v4 g1); [apply update_handler_post|apply post_ok]; exact I2.
Qed.

Lemma ins_ips t g x : In x (map g_ip (ins_gw t g)) <-> x = g_ip g \/ In x (map g_ip t).
Proof.
  induction t as [|h t IH]; cbn [ins_gw map In]; [intuition|].
  destruct (g_ip g <? g_ip h); cbn [map In]; [intuition|]. destruct (Z.eqb_spec (g_ip g) (g_ip h)); cbn [map In]; [intuition congruence|]. rewrite IH. intuition.
Qed.
Lemma ins_in t g x : In x (ins_gw t g) -> x = g \/ In x t.
Proof.
  induction t as [|h t IH]; cbn [ins_gw In]; [intuition|].
  destruct (g_ip g <? g_ip h); cbn [In]; [intuition|]. destruct (g_ip g =? g_ip h); cbn [In]; intuition.
Qed.
Lemma ins_nodup t g : NoDup (map g_ip t) -> ~ In (g_ip g) (map g_ip t) -> NoDup (map g_ip (ins_gw t g)).
Proof.
  induction t as [|h t IH]; cbn [ins_gw map In]; intros N D; [constructor; auto; constructor|].
  inversion N as [|a b P Q]; subst. destruct (g_ip g <? g_ip h); cbn [map]; [constructor; [cbn [In]; exact D|exact N]|].
  destruct (Z.eqb_spec (g_ip g) (g_ip h)); cbn [map]; [exact N|]. constructor; [|apply IH; auto].
  rewrite ins_ips. intros [X|X]; [|contradiction]. apply D. left. exact X.
Qed.
Lemma find_ins t g ip : ip <> g_ip g -> find_gw (ins_gw t g) ip = find_gw t ip.
Proof.
  intros N. unfold find_gw. induction t as [|h t IH]; cbn [ins_gw find].
  - destruct (Z.eqb_spec (g_ip g) ip); [congruence|reflexivity].
  - destruct (g_ip g <? g_ip h); cbn [find]; [destruct (Z.eqb_spec (g_ip g) ip); [congruence|reflexivity]|].
    destruct (g_ip g =? g_ip h); cbn [find]; [reflexivity|]. rewrite IH. reflexivity.
Qed.

(** the list stays sorted unless a gateway in it becomes infinitely expensive *)
Definition calm (c : gcfg) (e : genv) (s : gst) (x : gev) : Prop :=
  match x with
  | Ann a => In (n_ip a) (listed s) ->
      getcosts c e (mkGw (n_ip a) (n_up a) (n_down a) 0 false false false false 0) <> INT64_MAX
  | _ => True
  end.

Lemma getcosts_ext c e g h : g_ip g = g_ip h -> g_up g = g_up h -> g_down g = g_down h -> getcosts c e g = getcosts c e h.
Proof. intros A B C. unfold getcosts. rewrite A, B, C. reflexivity. Qed.

Lemma list_update_post c e s s' k : inv c s -> In k (s_list s) -> list_update c s k = OK s' ->
  inv c s' /\ s_tree s' = s_tree s /\ s_cur s' = s_cur s /\ s_route s' = s_route s /\ s_list s' = place (s_tree s) (unlink (s_list s) (fst k)) k /\ (live s -> tunok e -> live s').
Proof.
  intros [I0 I1 I2 I3 I4 I5 I6 I7 I8 I9 I10] K. unfold list_update, list_del, list_add, list_full. pose proof (unlink_len _ _ I4 K) as L.
  destruct (Z.eqb_spec (s_count s) 0) as [E|E]; [lia|]. cbn [bindr set_list s_count s_list s_tree].
  assert (U : u8 (s_count s - 1) = s_count s - 1) by (unfold u8; apply Z.mod_small; lia). rewrite U.
  assert (U2 : u8 (s_count s - 1 + 1) = s_count s) by (unfold u8; rewrite Z.mod_small; lia).
  destruct (Z.geb_spec (s_count s - 1) (c_use c)) as [Q|Q]; [discriminate|]. intros [= <-]. unfold live.
  cbn [set_list s_count s_list s_tree s_cur s_route]. rewrite U2.
  assert (LP : forall x, In x (place (s_tree s) (unlink (s_list s) (fst k)) k) <-> In x (s_list s)).
  { intros x. rewrite place_in, unlink_in. split; [intros [->|[A _]]; auto|]. intros A.
    destruct (Nat.eq_dec (fst x) (fst k)) as [B|B]; [left|right; auto]. apply (nodup_inj fst (s_list s)); auto. }
  assert (LM : forall T (f : nat * Z -> T) x, In x (map f (place (s_tree s) (unlink (s_list s) (fst k)) k)) <-> In x (map f (s_list s))).
  { intros T f x. rewrite !in_map_iff. split; intros [y [A B]]; exists y; (split; [exact A|]); apply LP; exact B. }
  split; [|split; [reflexivity|split; [reflexivity|split; [reflexivity|split; [reflexivity|]]]]].
  - constructor; unfold listed in *; cbn [set_list s_tree s_list s_cur s_next s_new4 s_route s_count s_tun]; auto.
    + rewrite place_len. lia.
    + apply place_nodup; [apply nodup_unlink; exact I4|]. rewrite in_map_iff. intros [y [A B]]. apply unlink_in in B. tauto.
    + apply place_nodup; [apply nodup_unlink; exact I5|]. rewrite (listed_unlink _ k); auto. tauto.
    + intros id H. apply LM in H. auto.
    + intros ip H. apply LM in H. auto.
    + intros ip. rewrite LM. auto.
    + intros g A B. rewrite LM. auto.
  - intros L1 _. destruct (s_cur s) as [id|]; [|exact L1]. destruct L1 as [ip [A B]]. exists ip. split; [apply LP; exact A|exact B].
Qed.
Lemma list_update_ok c s k : inv c s -> In k (s_list s) -> exists s', list_update c s k = OK s'.
Proof.
  intros [I0 I1 I2 I3 I4 I5 I6 I7 I8 I9 I10] K. unfold list_update, list_del, list_add, list_full. pose proof (unlink_len _ _ I4 K) as L.
  destruct (Z.eqb_spec (s_count s) 0) as [E|E]; [lia|]. cbn [bindr set_list s_count s_list s_tree].
  assert (U : u8 (s_count s - 1) = s_count s - 1) by (unfold u8; apply Z.mod_small; lia). rewrite U.
  destruct (Z.geb_spec (s_count s - 1) (c_use c)) as [Q|Q]; [lia|]. eauto.
Qed.

Definition epost (P : Prop) (c : gcfg) (e : genv) (s : gst) (r : res gst) : Prop :=
  match r with
  | OK s' => inv c s' /\ (P -> srt s -> srt s') /\ (live s -> tunok e -> live s')
  | Fault f => f <> AssertFailed /\ (live s -> tunok e -> f <> Freed)
  end.
Lemma epost_of c e s r P : post c e s r -> epost P c e s r.
Proof. destruct r; cbn; tauto. Qed.

Lemma update_entry_post c e s a : inv c s -> epost (calm c e s (Ann a)) c e s (update_entry c e s a).
Proof.
  intros I. unfold update_entry. set (old := find_gw (s_tree s) (n_ip a)).
  destruct (match old with Some g => seqno_diff (n_seq a) (g_seq g) <=? 0 | None => false end); [apply epost_of, post_ok; exact I|].
  set (g0 := match old with Some g => g | None => _ end). set (s0 := match old with Some _ => s | None => _ end).
  assert (B0 : inv c s0 /\ In (n_ip a) (map g_ip (s_tree s0)) /\ (forall x, x <> n_ip a -> find_gw (s_tree s0) x = find_gw (s_tree s) x) /\
               s_list s0 = s_list s /\ s_cur s0 = s_cur s /\ s_route s0 = s_route s /\ (g_cln g0 = true -> ~ In (n_ip a) (listed s0))).
  { subst s0 g0 old. destruct (find_gw (s_tree s) (n_ip a)) as [g|] eqn:F.
    - pose proof (find_in _ _ _ F) as [A B]. split; [exact I|]. split; [rewrite <- B; apply in_map; exact A|].
      split; [auto|]. repeat split. rewrite <- B. intros H. apply (i_cln _ _ I g A H).
    - apply find_none in F. set (g := mkGw (n_ip a) 0 0 0 false false false false 0).
      split; [|split; [|split; [|repeat split; discriminate]]].
      + destruct I as [I0 I1 I2 I3 I4 I5 I6 I7 I8 I9 I10]. constructor; unfold listed in *; cbn [set_tree s_tree s_list s_count s_next s_tun]; auto.
        * apply ins_nodup; [exact I1|exact F].
        * intros x H. apply ins_ips. auto.
        * intros h A B. apply ins_in in A. destruct A as [->|A]; [discriminate|auto].
      + cbn [set_tree s_tree]. apply ins_ips. left. reflexivity.
      + intros x N. cbn [set_tree s_tree]. apply find_ins. exact N. }
  destruct B0 as [I0 [M0 [F0 [L0 [C0 [R0 N0]]]]]]. clearbody g0 s0. cbv zeta.
  assert (LV : live s -> live s0) by (unfold live; rewrite L0, C0, R0; auto).
  assert (LI : listed s0 = listed s) by (unfold listed; rewrite L0; reflexivity).
  set (g1 := mkGw (n_ip a) (n_up a) (n_down a) INT64_MAX (n_v4 a) (n_nat a) (g_exp g0) (g_cln g0) (n_seq a)).
  destruct ((n_up a =? 0) || (n_down a =? 0)) eqn:Z0.
  - assert (FS : find_gw (store (s_tree s0) g1) (n_ip a) = Some g1) by (apply (find_store_same (s_tree s0) g1); exact M0).
    assert (D : post c e (set_tree s0 (store (s_tree s0) g1)) (delete_entry c e (set_tree s0 (store (s_tree s0) g1)) (n_ip a) 255 true)).
    { apply delete_entry_post; cbn [set_tree s_tree]; rewrite FS; [discriminate|]. intros g G. apply Some_inj in G. subst g.
      rewrite store_store by reflexivity. apply (inv_store c s0 (timers g1 false false)); [exact I0|exact M0|discriminate]. }
    destruct (delete_entry c e _ (n_ip a) 255 true) as [s'|f]; cbn [post epost] in *.
    + destruct D as [D1 [D2 D3]]. split; [exact D1|]. split.
      * unfold calm. rewrite <- LI. intros H S. apply D2. unfold srt in *. cbn [set_tree s_tree s_list]. rewrite L0.
        eapply sorted_ext; [|exact S]. intros x X. unfold cost_of.
        assert (N : snd x <> n_ip a).
        { intros E. apply H; [unfold listed; rewrite L0, <- E; apply in_map; exact X|]. unfold getcosts. cbn [g_ip g_up g_down].
          destruct (e_tc e (n_ip a)); [|reflexivity]. rewrite <- orb_assoc, Z0, orb_true_r. reflexivity. }
        rewrite find_store_other by (cbn; exact N). rewrite F0 by exact N. reflexivity.
      * intros L. apply D3. unfold live in *. cbn [set_tree s_cur s_route s_list]. apply LV in L. exact L.
    + destruct D as [D1 D2]. split; [exact D1|]. intros L. apply D2. apply LV in L. exact L.
  - set (g2 := mkGw (n_ip a) (n_up a) (n_down a) (getcosts c e g1) (n_v4 a) (n_nat a) true false (n_seq a)).
    cbn [set_tree s_tree]. set (s2 := set_tree (set_tree s0 (store (s_tree s0) g1)) (store (store (s_tree s0) g1) g2)).
    assert (E2 : s2 = set_tree s0 (store (s_tree s0) g2)) by (subst s2; rewrite store_store by reflexivity; reflexivity).
    assert (I2 : inv c s2) by (rewrite E2; apply inv_store; [exact I0|exact M0|discriminate]).
    assert (O2 : forall x, x <> n_ip a -> find_gw (s_tree s2) x = find_gw (s_tree s) x).
    { intros x N. rewrite E2. cbn [set_tree s_tree]. rewrite find_store_other by (cbn; exact N). apply F0. exact N. }
    assert (L2 : s_list s2 = s_list s) by (rewrite E2; exact L0).
    assert (V2 : live s -> live s2) by (intros L; rewrite E2; apply LV in L; exact L).
    clearbody s2. clear E2.
    assert (SE : forall l, (forall x, In x l -> snd x <> n_ip a) -> StronglySorted (leq (s_tree s)) l -> StronglySorted (leq (s_tree s2)) l).
    { intros l H. apply sorted_ext. intros x X. unfold cost_of. rewrite O2; auto. }
    assert (GC : getcosts c e g1 = getcosts c e (mkGw (n_ip a) (n_up a) (n_down a) 0 false false false false 0)) by (apply getcosts_ext; reflexivity).
    set (r := if negb (getcosts c e g1 =? INT64_MAX) then match list_find s2 (n_ip a) with Some k => list_update c s2 k | None => OK s2 end else OK s2).
    assert (X : epost (calm c e s (Ann a)) c e s r).
    { subst r. destruct (Z.eqb_spec (getcosts c e g1) INT64_MAX) as [Q|Q]; cbn [negb].
      - cbn [epost]. split; [exact I2|]. split; [|auto]. unfold calm. rewrite <- GC. intros H S. unfold srt. rewrite L2. apply SE; [|exact S].
        intros x X E. apply H; [|exact Q]. unfold listed. rewrite <- E. apply in_map. exact X.
      - destruct (list_find s2 (n_ip a)) as [k|] eqn:K.
        + apply list_find_some in K. destruct K as [K1 K2]. destruct (list_update_ok c s2 k I2 K1) as [s3 U]. rewrite U.
          destruct (list_update_post c e s2 s3 k I2 K1 U) as [A1 [A2 [A3 [A4 [A5 A6]]]]]. cbn [epost]. split; [exact A1|].
          split; [|auto]. intros _ S. unfold srt. rewrite A2, A5, L2. apply place_sorted. apply SE; [|apply unlink_sorted; exact S].
          intros x X E. apply unlink_in in X. destruct X as [X1 X2]. apply X2. f_equal. rewrite L2 in K1.
          apply (nodup_inj snd (s_list s)); auto; [apply (i_gws _ _ I)|congruence].
        + apply list_find_none in K. cbn [epost]. split; [exact I2|]. split; [|auto]. intros _ S. unfold srt. rewrite L2. apply SE; [|exact S].
          intros x X E. apply K. unfold listed. rewrite L2, <- E. apply in_map. exact X. }
    change (g_cost g2) with (getcosts c e g1). fold r.
    destruct r as [s3|f]; cbn [bindr]; [|exact X]. cbn [epost] in X. destruct X as [X1 [X2 X3]].
    pose proof (update_handler_post c e s3 g2 X1) as Y. destruct (update_handler c e s3 g2) as [s4|f]; cbn [post epost] in *; [|tauto].
    destruct Y as [Y1 [Y2 Y3]]. auto.
Qed.

(** takedown *)
Lemma unlink_last l w : NoDup (map fst (l ++ [w])) -> unlink (l ++ [w]) (fst w) = l.
Proof.
  intros N. unfold unlink. rewrite filter_app. cbn [filter]. rewrite Nat.eqb_refl. cbn [negb]. rewrite app_nil_r. fold (unlink l (fst w)).
  apply unlink_out. rewrite map_app in N. cbn [map] in N. apply NoDup_remove_2 in N. rewrite app_nil_r in N. exact N.
Qed.
Lemma worst_last c s w : inv c s -> list_worst s = Some w -> exists l, s_list s = l ++ [w].
Proof.
  intros I. unfold list_worst. destruct (s_count s =? 0); [discriminate|]. destruct (s_list s) as [|h l]; [discriminate|].
  intros [= <-]. induction l as [|a l _] using rev_ind; [exists []; reflexivity|]. rewrite last_last. exists (h :: l). reflexivity.
Qed.
Lemma takedown_loop_ok c e id b : forall n s, inv c s -> s_cur s = Some id ->
  exists s', takedown_loop n id b s = OK s' /\ inv c s' /\ s_tree s' = s_tree s /\ s_cur s' = s_cur s /\ (live s -> tunok e -> live s') /\
    exists R, s_list s = s_list s' ++ R /\ (forall k, In k R -> fst k <> id /\ b <= cost_of (s_tree s) (snd k)) /\
      ((n >= length (s_list s))%nat -> (length (s_list s') <= 1)%nat \/
         exists l w, s_list s' = l ++ [w] /\ (fst w = id \/ cost_of (s_tree s) (snd w) < b)).
Proof.
  induction n as [|n IH]; intros s I C.
  - exists s. split; [reflexivity|]. split; [exact I|]. split; [reflexivity|]. split; [reflexivity|]. split; [auto|]. exists []. rewrite app_nil_r. split; [reflexivity|]. split; [contradiction|]. lia.
  - cbn [takedown_loop]. destruct (Z.leb_spec (s_count s) 1) as [E|E].
    { exists s. split; [reflexivity|]. split; [exact I|]. split; [reflexivity|]. split; [reflexivity|]. split; [auto|]. exists []. rewrite app_nil_r. split; [reflexivity|]. split; [contradiction|].
      intros _. left. rewrite (i_count _ _ I) in E. lia. }
    destruct (worst_in c s I) as [w [W1 W2]]; [lia|]. rewrite W1. destruct (worst_last c s w I W1) as [l Hl].
    destruct (Nat.eqb (fst w) id || (cost_of (s_tree s) (snd w) <? b)) eqn:X.
    { exists s. split; [reflexivity|]. split; [exact I|]. split; [reflexivity|]. split; [reflexivity|]. split; [auto|]. exists []. rewrite app_nil_r. split; [reflexivity|]. split; [contradiction|].
      intros _. right. exists l, w. split; [exact Hl|]. apply orb_true_iff in X. destruct X as [X|X]; [left; apply Nat.eqb_eq; exact X|right; lia]. }
    apply orb_false_iff in X. destruct X as [X1 X2]. apply Nat.eqb_neq in X1.
    destruct (remove_ok c s w I W2) as [s1 [R1 [R2 [R3 [R4 [R5 [R6 [R7 [R8 R9]]]]]]]]]. rewrite R1. cbn [bindr].
    assert (L1 : s_list s1 = l).
    { rewrite R4, Hl. apply unlink_last. rewrite <- Hl. apply (i_ids _ _ I). }
    destruct (IH s1 R2) as [s' [A1 [A2 [A3 [A4 [A5 [R [A6 [A7 A8]]]]]]]]]; [congruence|]. exists s'. split; [exact A1|]. split; [exact A2|].
    split; [congruence|]. split; [congruence|]. split.
    + intros L T. apply A5; [|exact T]. unfold live in *. rewrite R5. rewrite C in *. destruct L as [ip [P Q]]. exists ip.
      assert (D : ip <> snd w).
      { intros D. apply X1. assert (w = (id, ip)); [|subst w; reflexivity]. apply (nodup_inj snd (s_list s)); auto. apply (i_gws _ _ I). }
      rewrite R9, Q, R4. destruct (Z.eqb_spec ip (snd w)); [contradiction|]. split; [|reflexivity]. apply unlink_in. split; [exact P|]. cbn. auto.
    + exists (R ++ [w]). rewrite app_assoc, <- A6, L1. split; [exact Hl|]. rewrite R3 in A7, A8. split.
      * intros k K. apply in_app_or in K. destruct K as [K|[<-|[]]]; [auto|]. split; [auto|lia].
      * intros N. apply A8. rewrite L1. rewrite Hl, app_length in N. cbn [length] in N. lia.
Qed.
Lemma takedown_post c e s : inv c s -> post c e s (takedown c s).
Proof.
  intros I. unfold takedown. destruct (c_takedown c =? 0); [apply post_ok; exact I|]. destruct (s_cur s) as [id|] eqn:C; [|apply post_ok; exact I].
  destruct (s_count s <=? 1); [apply post_ok; exact I|]. apply current_post. intros o _ _. destruct o as [ip|]; [|apply post_ok; exact I].
  cbv zeta. destruct (_ >? INT64_MAX); [cbn; split; discriminate|].
  destruct (takedown_loop_ok c e id (boundary c (cost_of (s_tree s) ip)) (length (s_list s)) s I C) as [s' [A1 [A2 [A3 [A4 [A5 [R [A6 A7]]]]]]]].
  rewrite A1. cbn [post]. split; [exact A2|]. split; [|exact A5]. unfold srt. rewrite A3, A6. clear.
  induction (s_list s') as [|h l IH]; cbn [app]; intros S; [constructor|]. inversion S as [|a b P Q]; subst. constructor; [auto|].
  apply Forall_app in Q. tauto.
Qed.

(** every event *)
Lemma step_post c e s x : inv c s -> epost (calm c e s x) c e s (gstep c e s x).
Proof.
  intros I. destruct x as [a|ip|ip| | | |ip|]; cbn [gstep].
  - apply update_entry_post. exact I.
  - apply epost_of. unfold expire. destruct (find_gw (s_tree s) ip) as [g|] eqn:F; [|apply post_ok; exact I].
    destruct (g_exp g); [|apply post_ok; exact I]. apply delete_entry_post; [auto|]. intros h G. rewrite F in G. apply Some_inj in G. subst h.
    apply find_in in F. destruct F as [A B]. apply inv_store; [exact I|cbn; apply in_map; exact A|]. cbn. apply (i_cln _ _ I g A).
  - apply epost_of, cleanup_timer_post. exact I.
  - apply epost_of, timer_post. exact I.
  - apply epost_of, takedown_post. exact I.
  - apply epost_of, loss_post. exact I.
  - apply epost_of, delete_entry_post; [auto|]. intros g F.
    apply find_in in F. destruct F as [A B]. apply inv_store; [exact I|cbn; apply in_map; exact A|]. cbn. apply (i_cln _ _ I g A).
  - apply epost_of. apply same_post with (s1 := startup c e s); [apply same_startup|]. apply post_ok. eapply same_inv; [apply same_startup|exact I].
Qed.

Lemma init_inv c : 1 <= c_use c <= 255 -> inv c ginit.
Proof.
  intros U. constructor; unfold listed, ginit; cbn [s_tree s_list s_count s_next s_tun map length]; try constructor; try lia; try contradiction; auto.
Qed.
Lemma run_inv c : forall l s s', inv c s -> grun c s l = OK s' -> inv c s'.
Proof.
  induction l as [|[e x] l IH]; cbn [grun]; intros s s' I H; [inversion H; subst; exact I|].
  pose proof (step_post c e s x I) as P. destruct (gstep c e s x) as [s1|f]; cbn [bindr epost] in *; [|discriminate]. eapply IH; [|exact H]. tauto.
Qed.
Lemma run_live c : forall l s, inv c s -> live s -> Forall (fun p => tunok (fst p)) l ->
  match grun c s l with OK s' => live s' | Fault f => f = Overflow end.
Proof.
  induction l as [|[e x] l IH]; cbn [grun]; intros s I L T; [exact L|]. inversion T as [|a b T1 T2]; subst. cbn [fst] in T1.
  pose proof (step_post c e s x I) as P. destruct (gstep c e s x) as [s1|f]; cbn [bindr epost] in *.
  - destruct P as [P1 [P2 P3]]. apply IH; auto.
  - destruct P as [P1 P2]. specialize (P2 L T1). destruct f; congruence.
Qed.

(** what is chosen *)
Definition cand (c : gcfg) (th : option Z) (g : gw) : Prop :=
  selectable c g = true /\ g_cost g < INT64_MAX /\ match th with Some x => g_cost g < x | None => True end.
Lemma pick_best c th : forall t b, (forall x, b = Some x -> g_cost x < INT64_MAX) ->
  match fold_left (better c th) t b with
  | Some g => g_cost g < INT64_MAX /\ (forall h, In h t -> cand c th h -> g_cost g <= g_cost h) /\ (forall x, b = Some x -> g_cost g <= g_cost x)
  | None => b = None /\ forall h, In h t -> ~ cand c th h
  end.
Proof.
  induction t as [|h t IH]; cbn [fold_left]; intros b B.
  - destruct b as [g|]; [|auto]. split; [auto|]. split; [contradiction|]. intros x [= <-]. lia.
  - assert (B' : forall x, better c th b h = Some x -> g_cost x < INT64_MAX).
    { intros x. unfold better. destruct (_ =? INT64_MAX); [apply B|].
      destruct (selectable c h); cbn [andb]; [|apply B].
      destruct (Z.ltb_spec (g_cost h) (match b with Some b0 => g_cost b0 | None => INT64_MAX end)) as [A|A]; cbn [andb]; [|apply B].
      destruct (match th with Some t0 => g_cost h <? t0 | None => true end); [|apply B].
      intros [= <-]. destruct b as [b0|]; [specialize (B b0 eq_refl); lia|lia]. }
    specialize (IH (better c th b h) B').
    assert (K : (better c th b h = Some h /\ (forall x, b = Some x -> g_cost h < g_cost x)) \/
                (better c th b h = b /\ (cand c th h -> exists x, b = Some x /\ g_cost x <= g_cost h))).
    { unfold better, cand. destruct (Z.eqb_spec (g_cost h) INT64_MAX) as [Q|Q]; [right; split; [reflexivity|lia]|].
      destruct (selectable c h); cbn [andb]; [|right; split; [reflexivity|intros [X _]; discriminate]].
      destruct (Z.ltb_spec (g_cost h) (match b with Some b0 => g_cost b0 | None => INT64_MAX end)) as [A|A]; cbn [andb].
      - destruct (match th with Some t0 => g_cost h <? t0 | None => true end) eqn:T.
        + left. split; [reflexivity|]. intros x ->. exact A.
        + right. split; [reflexivity|]. intros [_ [_ X]]. destruct th; [lia|discriminate].
      - right. split; [reflexivity|]. intros [_ [X _]]. destruct b as [b0|]; [eauto|lia]. }
    destruct (fold_left (better c th) t (better c th b h)) as [g|].
    + destruct IH as [I1 [I2 I3]]. split; [exact I1|]. destruct K as [[K1 K2]|[K1 K2]]; rewrite K1 in *.
      * specialize (I3 h eq_refl). split; [|intros x X; specialize (K2 x X); lia]. intros y [<-|Y]; auto.
      * split; [|exact I3]. intros y [<-|Y] C; [|auto]. destruct (K2 C) as [x [X1 X2]]. specialize (I3 x X1). lia.
    + destruct IH as [I1 I2]. destruct K as [[K1 K2]|[K1 K2]]; rewrite K1 in I1; [discriminate|]. split; [exact I1|].
      intros y [<-|Y]; [|auto]. intros C. destruct (K2 C) as [x [X _]]. congruence.
Qed.

Lemma cur_is s id ip : NoDup (map fst (s_list s)) -> s_cur s = Some id -> In (id, ip) (s_list s) -> current s = OK (Some ip).
Proof.
  intros N C H. destruct (current_ok s) as [[o [E X]]|[E X]].
  - rewrite E. rewrite C in X. destruct o as [x|]; [|contradiction].
    assert ((id, x) = (id, ip)) by (apply (nodup_inj fst (s_list s)); auto). congruence.
  - exfalso. unfold current in E. rewrite C in E. destruct (find _ _) eqn:F; [discriminate|].
    pose proof (List.find_none _ _ F _ H) as Q. cbn in Q. rewrite Nat.eqb_refl in Q. discriminate.
Qed.
Lemma set_gateway_cur c e s ip g s' : inv c s -> tunok e -> find_gw (s_tree s) ip = Some g -> selectable c g = true ->
  set_gateway c e s ip = OK s' -> current s' = OK (Some ip).
Proof.
  intros I T F S. pose proof (set_gateway_post c e s ip I) as P. revert P. unfold set_gateway. rewrite F.
  unfold selectable in S. apply andb_true_iff in S. destruct S as [S1 S2]. rewrite S1, orb_comm, S2. cbn [andb].
  destruct (current s) as [o|] eqn:C; cbn [bindr]; [|discriminate].
  destruct (match o with Some x => x =? ip | None => false end) eqn:Eq.
  { intros _ [= <-]. destruct o as [x|]; [|discriminate]. apply Z.eqb_eq in Eq. subst x. exact C. }
  destruct (list_find s ip) as [k|] eqn:K.
  - intros P [= <-]. cbn [post] in P. destruct P as [P _]. apply list_find_some in K. destruct K as [K1 K2].
    apply cur_is with (id := fst k); [apply (i_ids _ _ P)|reflexivity|]. cbn. rewrite <- K2. destruct k; exact K1.
  - destruct (if list_full c s then _ else _) as [s1|]; cbn [bindr]; [|discriminate]. rewrite T.
    unfold list_add. destruct (list_full _ _); cbn [bindr]; [discriminate|]. intros P [= <-]. cbn [post] in P. destruct P as [P _].
    apply cur_is with (id := s_next s1); [apply (i_ids _ _ P)|reflexivity|]. cbn. apply place_in. left. reflexivity.
Qed.

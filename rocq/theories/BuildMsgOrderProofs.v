From Verif Require Import Base Bytes NetBuf Parser Hello HelloSpec Tc TcSpec BuildMsg BuildMsgSpec BuildMsgProofs BuildMsgTcProofs BuildMsgHelloProofs BuildMsgLqProofs.
From Coq Require Import Permutation.

Lemma code_link i j : 0 <= i <= 2 -> 0 <= j <= 3 -> link_code i j mod 4 = j /\ link_code i j / 4 mod 4 = i.
Proof.
  intros Hi Hj. assert (i = 0 \/ i = 1 \/ i = 2) as [-> | [-> | ->]] by lia; assert (j = 0 \/ j = 1 \/ j = 2 \/ j = 3) as [-> | [-> | [-> | ->]]] by lia; split; reflexivity.
Qed.
Lemma map_filter_ext {A B} (f g : A -> B) p (l : list A) : (forall x, In x l -> p x = true -> f x = g x) -> map f (filter p l) = map g (filter p l).
Proof. intros H. apply map_ext_in. intros x I. apply filter_In in I. apply H; apply I. Qed.

Definition exact4 (n : hnb) : hneigh := mkHN (n_link n) (n_status n) (firstn 4 (n_addr n)) [].
Definition exact6 (n : hnb) : hneigh := mkHN (n_link n) (n_status n) (n_addr n) [].
Lemma hello4_order l : flat_map (fun '(i, j) => map (reads false (link_code i j)) (filter (fun n => (n_status n =? i) && (n_link n =? j)) l)) (hello_types false) =
  map exact4 (in_order n_status n_link [0; 1; 2; 3] l).
Proof.
  assert (G : forall i j, 0 <= i <= 2 -> 0 <= j <= 3 -> map (reads false (link_code i j)) (filter (fun n => (n_status n =? i) && (n_link n =? j)) l) = map exact4 (filter (fun n => (n_status n =? i) && (n_link n =? j)) l)).
  { intros i j Hi Hj. apply map_filter_ext. intros n _ E. destruct (code_link i j Hi Hj) as (A & B). unfold reads, exact4. rewrite A, B. replace (n_link n) with j by lia. replace (n_status n) with i by lia. reflexivity. }
  change (hello_types false) with [(0, 0); (0, 1); (0, 2); (0, 3); (1, 0); (1, 1); (1, 2); (1, 3); (2, 0); (2, 1); (2, 2); (2, 3)].
  unfold in_order. cbn [flat_map]. rewrite !G by lia. rewrite !map_app. cbn [map]. rewrite ?app_nil_r, <- ?app_assoc. reflexivity.
Qed.
(** with IPv6 all five link types are gone through, the code of the last one says something else *)
Lemma hello6_order l : flat_map (fun '(i, j) => map (reads true (link_code i j)) (filter (fun n => (n_status n =? i) && (n_link n =? j)) l)) (hello_types true) =
  map (fun n => mkHN (link_code (n_status n) (n_link n) mod 4) (link_code (n_status n) (n_link n) / 4 mod 4) (firstn 16 (n_addr n)) []) (in_order n_status n_link [0; 1; 2; 3; 4] l).
Proof.
  set (f := fun n => mkHN (link_code (n_status n) (n_link n) mod 4) (link_code (n_status n) (n_link n) / 4 mod 4) (firstn 16 (n_addr n)) []).
  assert (G : forall i j, map (reads true (link_code i j)) (filter (fun n => (n_status n =? i) && (n_link n =? j)) l) = map f (filter (fun n => (n_status n =? i) && (n_link n =? j)) l)).
  { intros i j. apply map_filter_ext. intros n _ E. unfold reads, f. replace (n_link n) with j by lia. replace (n_status n) with i by lia. reflexivity. }
  change (hello_types true) with [(0, 0); (0, 1); (0, 2); (0, 3); (0, 4); (1, 0); (1, 1); (1, 2); (1, 3); (1, 4); (2, 0); (2, 1); (2, 2); (2, 3); (2, 4)].
  unfold in_order. cbn [flat_map]. rewrite !G. rewrite !map_app. cbn [map]. rewrite ?app_nil_r, <- ?app_assoc. reflexivity.
Qed.
Lemma hello6_nohide l : Forall (fun n => blen (n_addr n) = 16) l -> Forall (fun n => n_link n <> 4) l ->
  flat_map (fun '(i, j) => map (reads true (link_code i j)) (filter (fun n => (n_status n =? i) && (n_link n =? j)) l)) (hello_types true) = map exact6 (in_order n_status n_link [0; 1; 2; 3] l).
Proof.
  intros F N. rewrite Forall_forall in F, N.
  assert (G : forall i j, 0 <= i <= 2 -> 0 <= j <= 3 -> map (reads true (link_code i j)) (filter (fun n => (n_status n =? i) && (n_link n =? j)) l) = map exact6 (filter (fun n => (n_status n =? i) && (n_link n =? j)) l)).
  { intros i j Hi Hj. apply map_filter_ext. intros n In E. destruct (code_link i j Hi Hj) as (A & B). unfold reads, exact6. rewrite A, B. replace (n_link n) with j by lia. replace (n_status n) with i by lia.
    specialize (F n In). f_equal. apply firstn_all2. unfold blen in F. cbn. lia. }
  assert (G4 : forall i, map (reads true (link_code i 4)) (filter (fun n => (n_status n =? i) && (n_link n =? 4)) l) = []).
  { intros i. replace (filter (fun n => (n_status n =? i) && (n_link n =? 4)) l) with (@nil hnb); [reflexivity|]. symmetry. clear - N. induction l as [|n l IH]; [reflexivity|]. cbn [filter].
    assert (n_link n <> 4) by (apply N; left; reflexivity). replace (n_link n =? 4) with false by lia. rewrite andb_false_r. apply IH. intros x I. apply N. right. exact I. }
  change (hello_types true) with [(0, 0); (0, 1); (0, 2); (0, 3); (0, 4); (1, 0); (1, 1); (1, 2); (1, 3); (1, 4); (2, 0); (2, 1); (2, 2); (2, 3); (2, 4)].
  unfold in_order. cbn [flat_map]. rewrite !G4. rewrite !G by lia. rewrite !map_app. cbn [map app]. rewrite ?app_nil_r, <- ?app_assoc. reflexivity.
Qed.
Lemma lq_order l : flat_map (fun '(i, j) => map (lreads (link_code i j)) (filter (is_type i j) l)) lq_types =
  map (fun n => mkHN (l_link n) (l_neigh n) (l_addr n) (firstn 2 (l_lq n))) (in_order l_neigh l_link [0; 3; 1; 2] l).
Proof.
  set (f := fun n => mkHN (l_link n) (l_neigh n) (l_addr n) (firstn 2 (l_lq n))).
  assert (G : forall i j, 0 <= i <= 2 -> 0 <= j <= 3 -> map (lreads (link_code i j)) (filter (is_type i j) l) = map f (filter (fun n => (l_neigh n =? i) && (l_link n =? j)) l)).
  { intros i j Hi Hj. change (filter (is_type i j) l) with (filter (fun n => (l_neigh n =? i) && (l_link n =? j)) l). apply map_filter_ext. intros n _ E. destruct (code_link i j Hi Hj) as (A & B). unfold lreads, f. rewrite A, B. replace (l_link n) with j by lia. replace (l_neigh n) with i by lia. reflexivity. }
  change lq_types with [(0, 0); (0, 3); (0, 1); (0, 2); (1, 0); (1, 3); (1, 1); (1, 2); (2, 0); (2, 3); (2, 1); (2, 2)].
  unfold in_order. cbn [flat_map]. rewrite !G by lia. rewrite !map_app. cbn [map]. rewrite ?app_nil_r, <- ?app_assoc. reflexivity.
Qed.

(** grouping neither loses nor repeats *)
Lemma group_perm {A} (st lk : A -> Z) (keys : list (Z * Z)) : NoDup keys -> forall l, Forall (fun x => In (st x, lk x) keys) l ->
  Permutation (flat_map (fun '(i, j) => filter (fun x => (st x =? i) && (lk x =? j)) l) keys) l.
Proof.
  intros ND. induction l as [|x l IH]; intros F.
  - clear. induction keys as [|(i, j) ks IH]; [constructor|exact IH].
  - inversion F as [|? ? Ix F']; subst. specialize (IH F'). eapply Permutation_trans; [|apply perm_skip; exact IH]. clear IH F F'.
    assert (Out : forall ks, ~ In (st x, lk x) ks -> flat_map (fun '(i, j) => filter (fun x => (st x =? i) && (lk x =? j)) (x :: l)) ks = flat_map (fun '(i, j) => filter (fun x => (st x =? i) && (lk x =? j)) l) ks).
    { induction ks as [|(i, j) ks IH]; intros N; [reflexivity|]. cbn [flat_map]. rewrite IH by (intros H; apply N; right; exact H). f_equal. cbn [filter].
      destruct ((st x =? i) && (lk x =? j)) eqn:E; [|reflexivity]. exfalso. apply N. left. f_equal; lia. }
    induction keys as [|(i, j) ks IH]; [destruct Ix|]. inversion ND as [|? ? Nk ND']; subst. cbn [flat_map].
    destruct ((st x =? i) && (lk x =? j)) eqn:E.
    + assert (Ek : (i, j) = (st x, lk x)) by (f_equal; lia). rewrite Out by congruence. cbn [filter]. rewrite E. reflexivity.
    + cbn [filter]. rewrite E. destruct Ix as [Ei|Ii]; [inversion Ei; subst; rewrite !Z.eqb_refl in E; discriminate|].
      rewrite (IH ND' Ii). symmetry. apply Permutation_middle.
Qed.
Lemma in_order_flat {A} (st lk : A -> Z) links l : in_order st lk links l = flat_map (fun '(i, j) => filter (fun x => (st x =? i) && (lk x =? j)) l) (flat_map (fun i => map (fun j => (i, j)) links) [0; 1; 2]).
Proof.
  unfold in_order. assert (G : forall i, flat_map (fun j => filter (fun n => (st n =? i) && (lk n =? j)) l) links = flat_map (fun '(i, j) => filter (fun x => (st x =? i) && (lk x =? j)) l) (map (fun j => (i, j)) links)).
  { intros i. induction links as [|j links IH]; [reflexivity|]. cbn [flat_map map]. now rewrite IH. }
  cbn [flat_map]. rewrite !flat_map_app, !G. reflexivity.
Qed.
Lemma in_order_sub {A} (st lk : A -> Z) links l x : In x (in_order st lk links l) -> In x l.
Proof. rewrite in_order_flat. intros H. apply in_flat_map in H. destruct H as ((i, j) & _ & H). apply filter_In in H. apply H. Qed.
Lemma nodup_keys : NoDup (flat_map (fun i => map (fun j => (i, j)) [0; 1; 2; 3]) [0; 1; 2]) /\ NoDup (flat_map (fun i => map (fun j => (i, j)) [0; 1; 2; 3; 4]) [0; 1; 2]) /\
  NoDup (flat_map (fun i => map (fun j => (i, j)) [0; 3; 1; 2]) [0; 1; 2]).
Proof. cbn. repeat split; repeat (constructor; [cbn; intuition congruence|]); constructor. Qed.
Ltac keys := match goal with |- In (?a, ?b) _ => let x := fresh in let y := fresh in set (x := a) in *; set (y := b) in *; clearbody x y; cbn;
  assert (x = 0 \/ x = 1 \/ x = 2) as [-> | [-> | ->]] by lia; assert (y = 0 \/ y = 1 \/ y = 2 \/ y = 3 \/ y = 4) as [-> | [-> | [-> | [-> | ->]]]] by lia; tauto || (exfalso; lia) end.
Lemma order_perm_4 l : Forall (fun n => 0 <= n_status n <= 2 /\ 0 <= n_link n <= 3) l -> Permutation (in_order n_status n_link [0; 1; 2; 3] l) l.
Proof. intros F. rewrite in_order_flat. apply group_perm; [apply nodup_keys|]. eapply Forall_impl; [|exact F]. intros n (A & B). keys. Qed.
Lemma order_perm_5 l : Forall (fun n => 0 <= n_status n <= 2 /\ 0 <= n_link n <= 4) l -> Permutation (in_order n_status n_link [0; 1; 2; 3; 4] l) l.
Proof. intros F. rewrite in_order_flat. apply group_perm; [apply nodup_keys|]. eapply Forall_impl; [|exact F]. intros n (A & B). keys. Qed.
Lemma order_perm_lq l : Forall (fun n => 0 <= l_neigh n <= 2 /\ 0 <= l_link n <= 3) l -> Permutation (in_order l_neigh l_link [0; 3; 1; 2] l) l.
Proof. intros F. rewrite in_order_flat. apply group_perm; [apply nodup_keys|]. eapply Forall_impl; [|exact F]. intros n (A & B). keys. Qed.

(** Proofs about the contents of outgoing messages without link quality. *)
From Coq Require Import Permutation.
From Verif Require Import Base Bytes SchedTime Compare Parser ParserProofs Tc Hello HelloSpec NetBuf NetBufSpec BuildMsg BuildMsgSpec BuildMsgProofs BuildMsgOrderProofs LinkSetProofs PropBuildMsg RfcMsg RfcMsgSpec.

Lemma addr_ips v6 a : addr v6 a = firstn (Z.to_nat (ipsz v6)) a.
Proof. now destruct v6. Qed.
Lemma ipeq_dec v6 a b : ipeq v6 a b = if list_eq_dec Z.eq_dec (addr v6 a) (addr v6 b) then true else false.
Proof. unfold ipeq, bytes_eqb. rewrite !addr_ips. destruct (list_eq_dec _ _ _); reflexivity. Qed.

(** * HELLO *)
Definition of_link (k : rlnk) : hent := (mkHnb (nb_status (k_nbr k)) (k_stat k) (k_addr k), r_main (k_nbr k)).
Definition of_nbr (n : rnb) : hent := (mkHnb (nb_status n) 0 (r_main n), r_main n).
Lemma links_list v6 out ks : hello_links v6 out ks = rev (map of_link (filter (on v6 out) ks)).
Proof.
  unfold hello_links. assert (G : forall acc, fold_left (fun acc k => if ipeq v6 (k_local k) out then of_link k :: acc else acc) ks acc = rev (map of_link (filter (on v6 out) ks)) ++ acc).
  { induction ks as [|k ks IH]; intros acc; [reflexivity|]. cbn [fold_left filter]. unfold on at 1. rewrite ipeq_dec. rewrite IH. destruct (list_eq_dec Z.eq_dec (addr v6 (k_local k)) (addr v6 out)); [|reflexivity].
    cbn [map rev]. now rewrite <- app_assoc. }
  rewrite <- (app_nil_r (rev _)). exact (G []).
Qed.
Lemma nbrs_list v6 ns : forall l, NoDup (map (fun n => addr v6 (r_main n)) ns) ->
  hello_nbrs v6 ns l = rev (map of_nbr (filter (fun n => negb (existsb (fun x : hent => ipeq v6 (snd x) (r_main n)) l)) ns)) ++ l.
Proof.
  unfold hello_nbrs. change (fun acc n => if existsb (fun x : hnb * list Z => ipeq v6 (snd x) (r_main n)) acc then acc else (mkHnb (nb_status n) 0 (r_main n), r_main n) :: acc)
    with (fun (acc : list hent) n => if existsb (fun x : hent => ipeq v6 (snd x) (r_main n)) acc then acc else of_nbr n :: acc).
  induction ns as [|n ns IH]; intros l Nd; [reflexivity|]. cbn [map] in Nd. inversion Nd as [|? ? N1 N2]; subst. cbn [fold_left filter].
  destruct (existsb (fun x : hent => ipeq v6 (snd x) (r_main n)) l) eqn:E; cbn [negb]; rewrite IH by assumption; [reflexivity|]. cbn [map rev]. rewrite <- app_assoc. cbn [app]. f_equal. f_equal. f_equal.
  apply filter_ext_in. intros m Hm. cbn [existsb]. unfold of_nbr at 1. cbn [snd]. rewrite ipeq_dec. destruct (list_eq_dec Z.eq_dec (addr v6 (r_main n)) (addr v6 (r_main m))) as [Q|Q]; [|reflexivity].
  exfalso. apply N1. rewrite Q. now apply (in_map (fun n => addr v6 (r_main n))).
Qed.
Lemma existsb_perm_map {A B} (f : A -> B) (p : B -> bool) l : existsb p (rev (map f l)) = existsb (fun x => p (f x)) l.
Proof.
  induction l as [|x l IH]; [reflexivity|]. cbn [map rev]. rewrite existsb_app, IH. cbn [existsb]. rewrite orb_false_r. apply orb_comm.
Qed.
Lemma reached_links v6 out ks n : existsb (fun x : hent => ipeq v6 (snd x) (r_main n)) (hello_links v6 out ks) = reached v6 out ks n.
Proof.
  rewrite links_list, existsb_perm_map. unfold reached. induction ks as [|k ks IH]; [reflexivity|]. cbn [filter existsb]. destruct (on v6 out k); cbn [existsb andb orb]; rewrite IH; [|reflexivity].
  unfold of_link. cbn [snd]. now rewrite ipeq_dec.
Qed.
Definition others (v6 several : bool) (out : list Z) (ks : list rlnk) (ns : list rnb) : list rnb := if several then filter (fun n => negb (reached v6 out ks n)) ns else [].
Lemma build_perm v6 several out ks ns : nbrs_ok v6 ns ->
  Permutation (build_hello v6 several out ks ns) (map of_link (filter (on v6 out) ks) ++ map of_nbr (others v6 several out ks ns)).
Proof.
  intros (_ & Nd). unfold build_hello, others. destruct several.
  - rewrite nbrs_list by assumption. rewrite (filter_ext _ (fun n => negb (reached v6 out ks n))) by (intros n; now rewrite reached_links). rewrite links_list.
    rewrite <- !Permutation_rev. apply Permutation_app_comm.
  - rewrite links_list, <- Permutation_rev. cbn [map]. now rewrite app_nil_r.
Qed.

Lemma in_order_perm l l' : Permutation l l' -> Permutation (in_order n_status n_link [0; 1; 2; 3] l) (in_order n_status n_link [0; 1; 2; 3] l').
Proof.
  intros P. unfold in_order. assert (F : forall f, Permutation (filter f l) (filter f l')).
  { intros f. induction P; cbn [filter]; [constructor|destruct (f x); [now constructor|assumption]|destruct (f x), (f y); try apply Permutation_refl; apply perm_swap|now transitivity (filter f l')]. }
  cbn [flat_map]. repeat (apply Permutation_app; [|]); auto.
Qed.
(** without the hidden links *)
Lemma in_order_hides l : Forall (fun n => 0 <= n_status n <= 2 /\ 0 <= n_link n <= 4) l -> Permutation (in_order n_status n_link [0; 1; 2; 3] l) (filter (fun n => negb (n_link n =? 4)) l).
Proof.
  intros F. rewrite <- (order_perm_4 (filter (fun n => negb (n_link n =? 4)) l)).
  2: { apply Forall_forall. intros x Hx. apply filter_In in Hx. destruct Hx as (Hx & N4). rewrite Forall_forall in F. specialize (F x Hx). cbn in F. lia. }
  unfold in_order. rewrite (flat_map_ext _ (fun i => flat_map (fun j => filter (fun n => (n_status n =? i) && (n_link n =? j)) (filter (fun n => negb (n_link n =? 4)) l)) [0; 1; 2; 3])); [reflexivity|].
  intros i. cbn [flat_map]. assert (G : forall j, j <> 4 -> filter (fun n => (n_status n =? i) && (n_link n =? j)) l = filter (fun n => (n_status n =? i) && (n_link n =? j)) (filter (fun n => negb (n_link n =? 4)) l)).
  { intros j Hj. clear F. induction l as [|x l IH]; [reflexivity|]. cbn [filter]. destruct (Z.eqb_spec (n_link x) 4) as [Q|Q]; cbn [negb filter].
    - replace (n_link x =? j) with false by lia. rewrite andb_false_r. exact IH.
    - destruct ((n_status x =? i) && (n_link x =? j)); [f_equal|]; exact IH. }
  rewrite <- !G by lia. reflexivity.
Qed.
Lemma nb_status_range n : 0 <= nb_status n <= 2.
Proof. unfold nb_status. destruct (r_mpr n), (r_sym n); lia. Qed.
Lemma build_ok v6 several out ks ns : links_ok ks -> nbrs_ok v6 ns -> Forall (fun n => blen (n_addr n) = 16 /\ 0 <= n_status n <= 2 /\ 0 <= n_link n <= 4) (map fst (build_hello v6 several out ks ns)).
Proof.
  intros K N. apply Forall_forall. intros x Hx. apply in_map_iff in Hx. destruct Hx as (y & <- & Hy). eapply Permutation_in in Hy; [|apply build_perm; exact N].
  apply in_app_or in Hy. unfold links_ok in K. destruct N as (N & _). rewrite Forall_forall in K, N. destruct Hy as [Hy|Hy]; apply in_map_iff in Hy; destruct Hy as (z & <- & Hz).
  - apply filter_In in Hz. specialize (K z (proj1 Hz)). cbn. pose proof (nb_status_range (k_nbr z)). lia.
  - unfold others in Hz. destruct several; [|destruct Hz]. apply filter_In in Hz. specialize (N z (proj1 Hz)). cbn. pose proof (nb_status_range z). lia.
Qed.
(** what is said *)
Lemma said_perm v6 several out ks ns (f : hnb -> hneigh) : links_ok ks -> nbrs_ok v6 ns -> (forall n, f n = mkHN (n_link n) (n_status n) (addr v6 (n_addr n)) []) ->
  Permutation (map f (in_order n_status n_link [0; 1; 2; 3] (map fst (build_hello v6 several out ks ns)))) (to_say v6 several out ks ns).
Proof.
  intros K N Hf. rewrite in_order_hides. 2: { eapply Forall_impl; [|now apply build_ok]. cbn. tauto. }
  assert (P := Permutation_map fst (build_perm v6 several out ks ns N)).
  assert (F : forall (g : hnb -> bool) l l', Permutation l l' -> Permutation (filter g l) (filter g l')).
  { intros g l l' Q. induction Q; cbn [filter]; [constructor|destruct (g x); [now constructor|assumption]|destruct (g x), (g y); try apply Permutation_refl; apply perm_swap|now transitivity (filter g l')]. }
  rewrite (F _ _ _ P). rewrite map_app, filter_app, map_app. unfold to_say. apply Permutation_app.
  - rewrite map_map. assert (Q : forall l, map f (filter (fun n => negb (n_link n =? 4)) (map (fun x => fst (of_link x)) (filter (on v6 out) l))) =
      map (fun k => mkHN (k_stat k) (neigh_type (k_nbr k)) (addr v6 (k_addr k)) []) (filter (fun k => on v6 out k && negb (hidden k)) l)).
    { induction l as [|k l IH]; [reflexivity|]. cbn [filter]. destruct (on v6 out k); cbn [andb map filter]; [|exact IH]. unfold of_link at 1. cbn [fst n_link]. unfold hidden at 1.
      destruct (k_stat k =? 4); cbn [negb map]; [exact IH|]. rewrite Hf, IH. reflexivity. }
    now rewrite Q.
  - unfold others. destruct several; [|constructor]. rewrite map_map. set (l := filter _ ns). clearbody l. assert (Q : map f (filter (fun n => negb (n_link n =? 4)) (map (fun x => fst (of_nbr x)) l)) = map (fun n => mkHN 0 (neigh_type n) (addr v6 (r_main n)) []) l).
    { induction l as [|n l IH]; [reflexivity|]. cbn [map filter]. unfold of_nbr at 1. cbn [fst n_link]. change (0 =? 4) with false. cbn [negb map]. rewrite Hf, IH. reflexivity. }
    now rewrite Q.
Qed.
Lemma no_hide v6 several out ks ns : nbrs_ok v6 ns -> (forall k, In k ks -> on v6 out k = true -> k_stat k <> 4) -> Forall (fun n => n_link n <> 4) (map fst (build_hello v6 several out ks ns)).
Proof.
  intros N H. apply Forall_forall. intros x Hx. apply in_map_iff in Hx. destruct Hx as (y & <- & Hy). eapply Permutation_in in Hy; [|apply build_perm; exact N].
  apply in_app_or in Hy. destruct Hy as [Hy|Hy]; apply in_map_iff in Hy; destruct Hy as (z & <- & Hz); [|cbn; lia]. apply filter_In in Hz. cbn. now apply H.
Qed.

(** * TC *)
Lemma adds_spec red n : rfc_adds red n = true <-> advertise red n.
Proof.
  unfold rfc_adds, advertise. destruct (r_sym n), (r_mpr n), (r_sel n), (Z.eqb_spec red 2), (Z.eqb_spec red 1); cbn [negb orb]; split; intros H; try discriminate; try reflexivity; try lia;
    repeat split; try lia; auto; try (destruct H as (H & _); discriminate); destruct H as (_ & A & B); try (destruct (A ltac:(assumption)); discriminate); specialize (B ltac:(assumption) ltac:(assumption)); discriminate.
Qed.
Lemma list_in v6 red ns : rfc_tc_list v6 red ns = rev (map (fun n => addr v6 (r_main n)) (filter (rfc_adds red) ns)).
Proof.
  unfold rfc_tc_list. assert (G : forall acc, fold_left (fun acc n => if rfc_adds red n then firstn (Z.to_nat (ipsz v6)) (r_main n) :: acc else acc) ns acc = rev (map (fun n => addr v6 (r_main n)) (filter (rfc_adds red) ns)) ++ acc).
  { induction ns as [|n ns IH]; intros acc; [reflexivity|]. cbn [fold_left filter]. rewrite IH. destruct (rfc_adds red n); [|reflexivity]. cbn [map rev]. rewrite <- app_assoc, addr_ips. reflexivity. }
  rewrite <- (app_nil_r (rev _)). exact (G []).
Qed.
Lemma list_nil v6 red ns : rfc_tc_list v6 red ns = [] <-> nothing red ns.
Proof.
  rewrite list_in. unfold nothing. split.
  - intros H n Hn A. assert (I : In n (filter (rfc_adds red) ns)) by (apply filter_In; split; [exact Hn|now apply adds_spec]).
    destruct (filter (rfc_adds red) ns) as [|m l]; [destruct I|]. cbn [map rev] in H. now destruct (rev (map (fun n0 => addr v6 (r_main n0)) l)).
  - intros H. destruct (filter (rfc_adds red) ns) as [|m l] eqn:E; [reflexivity|]. exfalso. assert (I : In m (filter (rfc_adds red) ns)) by (rewrite E; now left). apply filter_In in I. apply (H m); [apply I|]. apply adds_spec, I.
Qed.
Lemma list_ok v6 red ns : nbrs_ok v6 ns -> addrs_ok v6 (rfc_tc_list v6 red ns).
Proof.
  intros (N & _). unfold addrs_ok. rewrite list_in. apply Forall_rev. apply Forall_map. rewrite Forall_forall in *. intros n Hn. apply filter_In in Hn. specialize (N n (proj1 Hn)). cbn in N.
  rewrite addr_ips. unfold blen in *. rewrite firstn_length. unfold ipsz. destruct v6; lia.
Qed.
Definition call_ok (v6 : bool) (c : call) : Prop := 0 <= c_ansn c < 65536 /\ nbrs_ok v6 (c_nbrs c) /\ ready (12 + 2 * ipsz v6) (c_st c).
Lemma tc_call v6 red vt main ansn now wait ns g s : blen main = ipsz v6 -> 0 <= ansn < 65536 -> nbrs_ok v6 ns -> ready (12 + 2 * ipsz v6) s ->
  let l := rfc_tc_list v6 red ns in let g' := rfc_gen now wait l g in
  exists s' parts, rfc_tc v6 red vt main ansn now wait ns g s = Some (s', Some g') /\ delivers s s' (numbered (tc_msg vt (mkTcm 0 255 main ansn l)) (s_seq s) parts) /\ concat parts = l /\
    (l <> [] -> Forall (fun p => p <> []) parts) /\ (l = [] -> parts = if isTimedOut now (g_timer g') then [] else [[]]).
Proof.
  intros Hm Ha N Rd l g'. destruct (C32_tc v6 vt (isTimedOut now (g_timer g')) (mkTcm 0 255 main ansn l) s) as (s' & parts & r & E & D & _ & Cc & _ & X1 & X2); auto.
  { cbn. now apply list_ok. }
  exists s', parts. split; [|split; [exact D|]; split; [exact Cc|]; split; [intros H; now apply X1|intros H; now apply X2]].
  unfold rfc_tc. fold l. fold g'. rewrite (bind_M _ _ _ _ _ E). reflexivity.
Qed.
Lemma calls_app v6 red vt main wait a : forall b g, calls v6 red vt main wait (a ++ b) g = match calls v6 red vt main wait a g with Some g' => calls v6 red vt main wait b g' | None => None end.
Proof.
  induction a as [|c a IH]; intros b g; [reflexivity|]. cbn [app calls]. destruct (rfc_tc _ _ _ _ _ _ _ _ g (c_st c)) as [[s [g'|]]|]; auto.
Qed.
Lemma calls_ok v6 red vt main wait cs : blen main = ipsz v6 -> Forall (call_ok v6) cs -> forall g, exists g', calls v6 red vt main wait cs g = Some g' /\
  (Forall (fun c => nothing red (c_nbrs c)) cs -> g_sending g = false -> g' = g).
Proof.
  intros Hm F. induction F as [|c cs (A & B & C) F IH]; intros g; [exists g; auto|]. cbn [calls].
  destruct (tc_call v6 red vt main (c_ansn c) (c_t c mod 4294967296) wait (c_nbrs c) g (c_st c) Hm A B C) as (s' & parts & E & _). rewrite E.
  destruct (IH (rfc_gen (c_t c mod 4294967296) wait (rfc_tc_list v6 red (c_nbrs c)) g)) as (g' & E' & G). exists g'. split; [exact E'|].
  intros Fn Sn. inversion Fn as [|? ? N1 N2]; subst. assert (Q : rfc_gen (c_t c mod 4294967296) wait (rfc_tc_list v6 red (c_nbrs c)) g = g).
  { rewrite (proj2 (list_nil v6 red (c_nbrs c)) N1). unfold rfc_gen. now rewrite Sn. }
  rewrite Q in G. now apply G.
Qed.

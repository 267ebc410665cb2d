(** Proofs about the contents of outgoing messages. *)
From Coq Require Import Permutation.
From Verif Require Import Base Bytes SchedTime Compare Parser ParserProofs Tc TcSpec TcBase TcFrag HelloSpec NetBuf NetBufSpec BuildMsg BuildMsgSpec BuildMsgProofs CreateMsg CreateMsgSpec.

(** * TC messages *)
Lemma entry_spec red n x : lq_tc_entry red n = Some x <-> advertise red n /\ x = (o_addr n, quality n ++ [0; 0]).
Proof.
  unfold lq_tc_entry, advertise, quality, COST_BROKEN. destruct (o_sym n); cbn [negb]; [|split; [discriminate|intros ((H & _) & _); discriminate]].
  destruct (o_link n) as [[q c]|]; destruct (o_mpr n), (o_sel n), (Z.eqb_spec red 1), (Z.eqb_spec red 0); cbn [negb andb]; try lia;
    (split; [intros H; try discriminate|intros ((_ & A & B & C) & ->)]);
    try (destruct (Z.geb_spec c 4194304) as [G|G]; [discriminate|apply Some_inj in H; subst x; split; [|reflexivity]; split; [reflexivity|]; split; [auto; lia|]; split; [auto; lia|]; exists q, c; auto]; fail);
    destruct C as (q' & c' & C1 & C2); try discriminate; try (apply Some_inj in C1; injection C1 as -> ->);
    try (destruct (Z.geb_spec c' 4194304); [lia|reflexivity]); try (exfalso; auto; destruct (A ltac:(assumption)); discriminate); exfalso; specialize (B ltac:(assumption)); discriminate.
Qed.

Section put.
Variable e : tenv.
Definition key_of (x : list Z * list Z) : Z := akey e (fst x).
Fixpoint asc (l : list (list Z * list Z)) : Prop :=
  match l with [] => True | x :: l' => (forall y, In y l' -> key_of x < key_of y) /\ asc l' end.
Lemma asc_ascending l : asc l -> ascending e l.
Proof.
  induction l as [|x l IH]; cbn [asc ascending]; [tauto|]. intros (A & B). split; [|now apply IH]. destruct l as [|y l]; [exact I|]. apply (A y). now left.
Qed.
Lemma put_in x l y : In y (lq_tc_put e x l) <-> y = x \/ In y l.
Proof.
  induction l as [|z l IH]; cbn [lq_tc_put In]; [intuition|]. destruct (acmp e (fst z) (fst x) >? 0); cbn [In]; [intuition|]. rewrite IH. intuition.
Qed.
Lemma put_asc x l : is_addr e (fst x) -> Forall (fun y => is_addr e (fst y) /\ fst y <> fst x) l -> asc l -> asc (lq_tc_put e x l).
Proof.
  intros Ax Fl. induction l as [|z l IH]; intros A; cbn [lq_tc_put asc]; [split; [intros y []|exact I]|].
  inversion Fl as [|? ? (Az & Nz) Fl']; subst. cbn [asc] in A. destruct A as (A1 & A2).
  assert (C : (acmp e (fst z) (fst x) >? 0) = negb (key_of z <=? key_of x)).
  { unfold key_of. rewrite <- acmp_le by auto. destruct (Z.gtb_spec (acmp e (fst z) (fst x)) 0), (Z.leb_spec (acmp e (fst z) (fst x)) 0); auto; lia. }
  rewrite C. destruct (Z.leb_spec (key_of z) (key_of x)) as [L|L]; cbn [negb asc].
  - split; [|apply IH; auto]. intros y Hy. apply put_in in Hy. destruct Hy as [->|Hy]; [|now apply A1].
    assert (key_of z <> key_of x) by (intros Q; apply Nz, (akey_inj e); auto). lia.
  - split; [|split; auto]. intros y [<-|Hy]; [exact L|]. specialize (A1 y Hy). lia.
Qed.
End put.

Lemma create_snoc e red l n : create_lq_tc e red (l ++ [n]) = match lq_tc_entry red n with Some x => lq_tc_put e x (create_lq_tc e red l) | None => create_lq_tc e red l end.
Proof. unfold create_lq_tc. rewrite fold_left_app. reflexivity. Qed.
Lemma create_in e red l x : In x (create_lq_tc e red l) <-> exists n, In n l /\ lq_tc_entry red n = Some x.
Proof.
  induction l as [|n l IH] using rev_ind; [split; [intros []|intros (n & [] & _)]|]. rewrite create_snoc.
  destruct (lq_tc_entry red n) as [y|] eqn:E.
  - rewrite put_in, IH. split.
    + intros [->|(m & M1 & M2)]; [exists n; rewrite in_app_iff; cbn [In]; auto|exists m; rewrite in_app_iff; auto].
    + intros (m & M1 & M2). apply in_app_or in M1. destruct M1 as [M1|[->|[]]]; [right; eauto|left; congruence].
  - rewrite IH. split; intros (m & M1 & M2); exists m; (split; [|exact M2]); [apply in_or_app; auto|]. apply in_app_or in M1. destruct M1 as [M1|[->|[]]]; [auto|congruence].
Qed.
Lemma create_asc e red l : table_ok e l -> asc e (create_lq_tc e red l).
Proof.
  intros (N & F). induction l as [|n l IH] using rev_ind; [exact I|]. rewrite create_snoc.
  rewrite map_app in N. apply Forall_app in F. destruct F as (F1 & F2). inversion F2 as [|? ? (A & _) _]; subst.
  assert (N1 : NoDup (map o_addr l)). { clear -N. induction (map o_addr l) as [|a m IHm]; [constructor|]. cbn in N. inversion N; subst. constructor; [rewrite in_app_iff in *; tauto|auto]. }
  assert (N2 : ~ In (o_addr n) (map o_addr l)). { cbn in N. apply NoDup_remove_2 in N. now rewrite app_nil_r in N. }
  specialize (IH N1 F1). destruct (lq_tc_entry red n) as [x|] eqn:E; [|exact IH]. apply entry_spec in E. destruct E as (_ & ->).
  apply put_asc; auto. apply Forall_forall. intros y Hy. apply create_in in Hy. destruct Hy as (m & M1 & M2). apply entry_spec in M2. destruct M2 as (_ & ->). cbn [fst].
  rewrite Forall_forall in F1. split; [apply (F1 m M1)|]. intros Q. apply N2. rewrite <- Q. now apply in_map.
Qed.

Lemma firstn_two (q r : list Z) : length q = 2%nat -> firstn 2 (q ++ r) = q.
Proof. destruct q as [|a [|b [|]]]; try discriminate. reflexivity. Qed.
(** the entries without the two empty bytes *)
Definition bare (x : list Z * list Z) : list Z * list Z := (fst x, firstn 2 (snd x)).
Lemma create_bare e red l : table_ok e l ->
  map (fun x => (fst x, snd x ++ [0; 0])) (map bare (create_lq_tc e red l)) = create_lq_tc e red l /\
  ascending e (map bare (create_lq_tc e red l)) /\ Forall (wf_ent e) (map bare (create_lq_tc e red l)) /\
  (forall n, In n l -> advertise red n -> In (o_addr n, quality n) (map bare (create_lq_tc e red l))) /\
  (forall x, In x (map bare (create_lq_tc e red l)) -> exists n, In n l /\ advertise red n /\ x = (o_addr n, quality n)).
Proof.
  intros T. pose proof (create_asc e red l T) as As. destruct T as (N & F). rewrite Forall_forall in F.
  assert (Q : forall x, In x (create_lq_tc e red l) -> exists n, In n l /\ advertise red n /\ x = (o_addr n, quality n ++ [0; 0]) /\ bare x = (o_addr n, quality n) /\ length (quality n) = 2%nat).
  { intros x H. apply create_in in H. destruct H as (n & H1 & H2). apply entry_spec in H2. destruct H2 as (H2 & ->). exists n. split; [exact H1|]. split; [exact H2|]. split; [reflexivity|].
    destruct (F n H1) as (_ & _ & Lq). pose proof H2 as (_ & _ & _ & q & c & E & _). rewrite E in Lq. split; [|exact Lq]. unfold bare. cbn [fst snd]. f_equal. now apply firstn_two. }
  split; [|split; [|split; [|split]]].
  - rewrite map_map. rewrite <- (map_id (create_lq_tc e red l)) at 2. apply map_ext_in. intros x H. destruct (Q x H) as (n & _ & _ & -> & B & _). rewrite B. reflexivity.
  - assert (asc e (map bare (create_lq_tc e red l))). { clear -As. induction (create_lq_tc e red l) as [|x m IH]; [exact I|]. cbn [map asc] in *. destruct As as (A & B). split; [|auto]. intros y H. apply in_map_iff in H. destruct H as (z & <- & H). apply (A z H). }
    now apply asc_ascending.
  - apply Forall_forall. intros y H. apply in_map_iff in H. destruct H as (x & <- & H). destruct (Q x H) as (n & Hn & _ & _ & B & L). rewrite B. destruct (F n Hn) as (A1 & A2 & _). split; [exact A1|]. split; [exact L|exact A2].
  - intros n Hn Ad. assert (H : In (o_addr n, quality n ++ [0; 0]) (create_lq_tc e red l)) by (apply create_in; exists n; split; [exact Hn|]; apply entry_spec; auto).
    destruct (F n Hn) as (_ & _ & Lq). pose proof Ad as (_ & _ & _ & q & c & E & _). rewrite E in Lq.
    apply in_map_iff. exists (o_addr n, quality n ++ [0; 0]). split; [|exact H]. unfold bare. cbn [fst snd]. f_equal. now apply firstn_two.
  - intros y H. apply in_map_iff in H. destruct H as (x & <- & H). destruct (Q x H) as (n & Hn & Ad & _ & B & _). exists n. auto.
Qed.

Lemma says_notin l a : (forall x, In x l -> fst x <> a) -> says l a = None.
Proof.
  induction l as [|[b q] l IH]; intros H; cbn [says]; [reflexivity|]. rewrite IH by (intros x Hx; apply H; now right).
  destruct (list_eq_dec Z.eq_dec b a) as [->|]; [|reflexivity]. exfalso. apply (H (a, q)); [now left|reflexivity].
Qed.
Lemma says_in e l a q : ascending e l -> In (a, q) l -> says l a = Some q.
Proof.
  induction l as [|[b p] l IH]; intros As H; [destruct H|]. cbn [says].
  assert (Gt : forall x, In x l -> akey e b < akey e (fst x)).
  { clear -As. revert b p As. induction l as [|y l IH]; intros b p As x Hx; [destruct Hx|]. destruct As as (A & As'). cbn [fst] in A. destruct Hx as [<-|Hx]; [exact A|]. destruct y as [c r]. specialize (IH c r As' x Hx). cbn [fst] in A. lia. }
  destruct H as [H|H].
  - injection H as -> ->. rewrite says_notin; [destruct (list_eq_dec Z.eq_dec a a); congruence|]. intros x Hx Q. specialize (Gt x Hx). rewrite Q in Gt. lia.
  - destruct As as (_ & As). now rewrite (IH As H).
Qed.

Lemma pieces_at flag vt orig ttl hops ttl' hops' ansn frags : forall seq lower,
  map (at_hop ttl' hops') (pieces flag vt orig ttl hops seq ansn lower frags) = pieces flag vt orig ttl' hops' seq ansn lower frags.
Proof. induction frags as [|f fr IH]; intros seq lower; [reflexivity|]. cbn [pieces map]. rewrite IH. reflexivity. Qed.
Lemma pieces_len flag vt orig ttl hops ansn frags : forall seq lower, length (pieces flag vt orig ttl hops seq ansn lower frags) = length frags.
Proof. induction frags as [|f fr IH]; intros seq lower; [reflexivity|]. cbn [pieces length]. now rewrite IH. Qed.
Lemma pieces_wf e flag vt orig ttl hops ansn n frags : is_addr e orig -> 0 <= ansn < 65536 -> n < 65536 -> Forall (wf_ent e) (concat frags) -> forall seq lower, 0 <= seq < 65536 ->
  Forall (fun m => blen m <= n) (map enc_tc (pieces flag vt orig ttl hops seq ansn lower frags)) -> Forall (wf_tmsg e) (pieces flag vt orig ttl hops seq ansn lower frags).
Proof.
  intros Ho Ha Hn. induction frags as [|f fr IH]; intros We seq lower Hs Fm; [constructor|]. cbn [pieces map concat] in *. apply Forall_app in We. destruct We as (W1 & W2).
  inversion Fm as [|? ? F1 F2]; subst. constructor.
  - split; [exact Ho|]. cbn [m_seq m_ansn m_ents m_orig]. split; [exact Hs|]. split; [exact Ha|]. split; [exact W1|].
    unfold enc_tc in F1. cbv zeta in F1. cbn [m_vt m_orig m_ttl m_hops m_seq m_ansn m_lower m_upper m_ents] in F1. rewrite !blen_app in F1. unfold enc16, blen in F1. cbn [length] in F1. unfold blen. lia.
  - apply IH; auto. apply Z.mod_pos_bound. lia.
Qed.

(** * HELLO messages *)
Definition entry_for (t : Z) (k : olnk) : lqn := mkLqn t (neigh_type k) (k_addr k) (k_lq k).
Lemma hello_entry out k : lq_hello_entry out k = entry_for (if list_eq_dec Z.eq_dec (k_local k) out then k_status k else 0) k.
Proof.
  unfold lq_hello_entry, entry_for, neigh_type. f_equal. destruct (list_eq_dec Z.eq_dec (k_local k) out) as [E|E].
  - apply bytes_eqb_spec in E. now rewrite E.
  - destruct (bytes_eqb (k_local k) out) eqn:B; [|reflexivity]. now apply bytes_eqb_spec in B.
Qed.
Lemma merge_spec x l : NoDup (map l_addr l) ->
  match lq_hello_merge x l with
  | None => ~ In (l_addr x) (map l_addr l)
  | Some l' => map l_addr l' = map l_addr l /\ exists y, In y l /\ l_addr y = l_addr x /\
      forall z, In z l' <-> (In z l /\ l_addr z <> l_addr x) \/ z = (if (l_link y =? 0) && negb (l_link x =? 0) then x else y)
  end.
Proof.
  induction l as [|y l IH]; intros N; cbn [lq_hello_merge map]; [intros []|]. cbn [map] in N. inversion N as [|? ? N1 N2]; subst.
  destruct (bytes_eqb (l_addr y) (l_addr x)) eqn:B.
  - apply bytes_eqb_spec in B. cbn [map]. split; [f_equal; destruct ((l_link y =? 0) && negb (l_link x =? 0)); auto|]. exists y. split; [now left|]. split; [exact B|].
    intros z. cbn [In]. set (c := if (l_link y =? 0) && negb (l_link x =? 0) then x else y).
    assert (Nz : In z l -> l_addr z <> l_addr x) by (intros H Q; apply N1; rewrite B, <- Q; now apply in_map).
    split; [intros [H|H]; auto|]. intros [([H|H] & Q)|H]; [subst; congruence|auto|auto].
  - assert (Bn : l_addr y <> l_addr x) by (intros Q; apply bytes_eqb_spec in Q; congruence). specialize (IH N2). destruct (lq_hello_merge x l) as [l'|].
    + destruct IH as (E & y' & Hy & Ey & H). cbn [map]. split; [now rewrite E|]. exists y'. split; [now right|]. split; [exact Ey|]. intros z. cbn [In]. rewrite H. split.
      * intros [<-|[(A & B')|C]]; auto.
      * intros [([<-|A] & B')|C]; auto.
    + cbn [In]. intros [Q|Q]; auto.
Qed.
Lemma create_hello_snoc out ks k : create_lq_hello out (ks ++ [k]) =
  let x := lq_hello_entry out k in match lq_hello_merge x (create_lq_hello out ks) with Some acc' => acc' | None => x :: create_lq_hello out ks end.
Proof. unfold create_lq_hello. rewrite fold_left_app. reflexivity. Qed.

Lemma find_snoc {A} (f : A -> bool) l x : find f (l ++ [x]) = match find f l with Some y => Some y | None => if f x then Some x else None end.
Proof. induction l as [|y l IH]; cbn [app find]; [destruct (f x); reflexivity|]. destruct (f y); [reflexivity|exact IH]. Qed.

Lemma hello_of_addr out ks a t k : hello_of out ks a = Some (t, k) -> In k ks /\ k_addr k = a /\ (k_local k = out /\ t = k_status k \/ t = 0).
Proof.
  unfold hello_of. destruct (find _ ks) as [k1|] eqn:F1.
  - intros H. apply Some_inj in H. injection H as <- <-. apply find_some in F1. destruct F1 as (H1 & H2). destruct (list_eq_dec Z.eq_dec (k_addr k1) a); [|discriminate].
    destruct (list_eq_dec Z.eq_dec (k_local k1) out); [|discriminate]. auto.
  - clear F1. destruct (find _ ks) as [k2|] eqn:F2; [|discriminate]. cbn [option_map]. intros H. apply Some_inj in H. injection H as <- <-. apply find_some in F2. destruct F2 as (H1 & H2).
    destruct (list_eq_dec Z.eq_dec (k_addr k2) a); [|discriminate]. auto.
Qed.
Lemma hello_of_none out ks a : hello_of out ks a = None -> forall k, In k ks -> k_addr k <> a.
Proof.
  unfold hello_of. destruct (find _ ks) as [k1|]; [discriminate|]. destruct (find (fun k => if list_eq_dec Z.eq_dec (k_addr k) a then true else false) ks) as [k2|] eqn:F2; [discriminate|].
  intros _ k Hk Q. apply (find_none _ _ F2) in Hk. destruct (list_eq_dec Z.eq_dec (k_addr k) a); congruence.
Qed.
Lemma hello_of_zero out ks a k t : hello_of out ks a = Some (t, k) -> Forall (fun k => k_status k <> 0) ks -> t = 0 -> forall k', In k' ks -> k_addr k' = a -> k_local k' <> out.
Proof.
  unfold hello_of. destruct (find _ ks) as [k1|] eqn:F1.
  - intros H F Z0. apply Some_inj in H. injection H as <- <-. apply find_some in F1. rewrite Forall_forall in F. now destruct (F k1 (proj1 F1)).
  - intros _ _ _ k' H1 H2 H3. apply (find_none _ _ F1) in H1. destruct (list_eq_dec Z.eq_dec (k_addr k') a); [|congruence]. destruct (list_eq_dec Z.eq_dec (k_local k') out); congruence.
Qed.
Lemma hello_of_snoc out ks k a : hello_of out (ks ++ [k]) a =
  if list_eq_dec Z.eq_dec (k_addr k) a
  then match find (fun k => if list_eq_dec Z.eq_dec (k_addr k) a then if list_eq_dec Z.eq_dec (k_local k) out then true else false else false) ks with
       | Some _ => hello_of out ks a
       | None => if list_eq_dec Z.eq_dec (k_local k) out then Some (k_status k, k)
                 else match hello_of out ks a with None => Some (0, k) | Some r => Some r end
       end
  else hello_of out ks a.
Proof.
  unfold hello_of. rewrite !find_snoc.
  destruct (list_eq_dec Z.eq_dec (k_addr k) a) as [A|A]; destruct (find _ ks) as [k1|] eqn:F1; auto.
  - destruct (list_eq_dec Z.eq_dec (k_local k) out); [reflexivity|]. destruct (find (fun k0 => if list_eq_dec Z.eq_dec (k_addr k0) a then true else false) ks); reflexivity.
  - destruct (find (fun k0 => if list_eq_dec Z.eq_dec (k_addr k0) a then true else false) ks); reflexivity.
Qed.

Lemma create_hello_ok v6 out ks : links_ok v6 ks ->
  NoDup (map l_addr (create_lq_hello out ks)) /\
  forall x, In x (create_lq_hello out ks) <-> exists t k, hello_of out ks (l_addr x) = Some (t, k) /\ x = entry_for t k.
Proof.
  induction ks as [|k ks IH] using rev_ind; intros (N & F).
  - split; [constructor|]. intros x. split; [intros []|intros (t & k & H & _); discriminate].
  - rewrite map_app in N. cbn [map] in N. apply Forall_app in F. destruct F as (F1 & F2). inversion F2 as [|? ? (S1 & S2 & S3) _]; subst.
    assert (N1 : NoDup (map (fun k => (k_local k, k_addr k)) ks)). { apply (NoDup_remove_1 _ [] _) in N. now rewrite app_nil_r in N. }
    assert (N2 : ~ In (k_local k, k_addr k) (map (fun k => (k_local k, k_addr k)) ks)). { apply (NoDup_remove_2 _ [] _) in N. now rewrite app_nil_r in N. }
    destruct (IH (conj N1 F1)) as (Nd & H). clear IH N. rewrite create_hello_snoc. cbv zeta. rewrite hello_entry.
    set (t := if list_eq_dec Z.eq_dec (k_local k) out then k_status k else 0). set (x := entry_for t k). assert (Ax : l_addr x = k_addr k) by reflexivity. assert (Lx : l_link x = t) by reflexivity.
    pose proof (merge_spec x _ Nd) as M. destruct (lq_hello_merge x (create_lq_hello out ks)) as [l'|].
    + destruct M as (E & y & Hy & Ey & M). split; [now rewrite E|]. intros z. rewrite M. clear M.
      pose proof Hy as Hy'. apply H in Hy'. destruct Hy' as (ty & ky & Gy & Y). rewrite Ey, Ax in Gy. assert (Ly : l_link y = ty) by now rewrite Y.
      assert (F1' : Forall (fun k => k_status k <> 0) ks) by (eapply Forall_impl; [|exact F1]; cbn; intros; lia).
      (* what is said about the address now *)
      assert (G : hello_of out (ks ++ [k]) (k_addr k) = if (ty =? 0) && negb (t =? 0) then Some (t, k) else Some (ty, ky)).
      { rewrite hello_of_snoc. destruct (list_eq_dec Z.eq_dec (k_addr k) (k_addr k)); [|congruence]. destruct (find _ ks) as [k1|] eqn:F.
        - unfold hello_of in Gy. rewrite F in Gy. apply Some_inj in Gy. injection Gy as Q1 Q2. subst ty ky. apply find_some in F. destruct F as (F3 & F4). rewrite Forall_forall in F1'. pose proof (F1' k1 F3).
          replace (k_status k1 =? 0) with false by lia. cbn [andb]. unfold hello_of. destruct (find _ ks) as [k1'|] eqn:F'; [|apply (find_none _ _ F') in F3; rewrite F3 in F4; discriminate].
          destruct (find_some _ _ F') as (F5 & F6). destruct (list_eq_dec Z.eq_dec (k_addr k1) (k_addr k)) as [e1|]; [|discriminate]. destruct (list_eq_dec Z.eq_dec (k_local k1) out) as [e2|]; [|discriminate].
          destruct (list_eq_dec Z.eq_dec (k_addr k1') (k_addr k)) as [e3|]; [|discriminate]. destruct (list_eq_dec Z.eq_dec (k_local k1') out) as [e4|]; [|discriminate].
          assert (k1 = k1') as ->; [|reflexivity]. apply In_nth_error in F3. apply In_nth_error in F5. destruct F3 as (i & F3), F5 as (j & F5).
          assert (i = j); [|congruence]. apply (proj1 (NoDup_nth_error _) N1); [rewrite map_length; apply nth_error_Some; congruence|]. rewrite (map_nth_error _ _ _ F3), (map_nth_error _ _ _ F5). congruence.
        - unfold hello_of in Gy |- *. rewrite F in Gy |- *. destruct (find (fun k0 => if list_eq_dec Z.eq_dec (k_addr k0) (k_addr k) then true else false) ks) as [k2|]; [|discriminate]. cbn [option_map] in *. apply Some_inj in Gy. injection Gy as <- <-. cbn [Z.eqb].
          unfold t. destruct (list_eq_dec Z.eq_dec (k_local k) out); [replace (k_status k =? 0) with false by lia; reflexivity|reflexivity]. }
      rewrite Ly, Lx. split.
      * intros [(A & B)|C].
        -- apply H in A. destruct A as (t0 & k0 & A1 & A2). exists t0, k0. split; [|exact A2]. rewrite hello_of_snoc. destruct (list_eq_dec Z.eq_dec (k_addr k) (l_addr z)); [congruence|exact A1].
        -- destruct ((ty =? 0) && negb (t =? 0)); subst z; [exists t, k; rewrite Ax; auto|exists ty, ky; rewrite Ey, Ax; auto].
      * intros (t0 & k0 & A1 & A2). destruct (list_eq_dec Z.eq_dec (l_addr z) (k_addr k)) as [Q|Q].
        -- right. rewrite Q, G in A1. destruct ((ty =? 0) && negb (t =? 0)); apply Some_inj in A1; injection A1 as <- <-; [exact A2|now rewrite A2].
        -- left. rewrite Ax. split; [|exact Q]. apply H. exists t0, k0. split; [|exact A2]. rewrite hello_of_snoc in A1. destruct (list_eq_dec Z.eq_dec (k_addr k) (l_addr z)); [congruence|exact A1].
    + assert (G0 : hello_of out ks (k_addr k) = None).
      { destruct (hello_of out ks (k_addr k)) as [[t0 k0]|] eqn:E; [|reflexivity]. exfalso. apply M. rewrite Ax. destruct (hello_of_addr _ _ _ _ _ E) as (_ & A & _).
        rewrite <- A. change (k_addr k0) with (l_addr (entry_for t0 k0)). apply in_map. apply H. exists t0, k0. cbn [l_addr entry_for]. rewrite A. auto. }
      assert (G : hello_of out (ks ++ [k]) (k_addr k) = Some (t, k)).
      { rewrite hello_of_snoc. destruct (list_eq_dec Z.eq_dec (k_addr k) (k_addr k)); [|congruence]. rewrite G0. unfold hello_of in G0. destruct (find _ ks); [discriminate|]. unfold t. destruct (list_eq_dec Z.eq_dec (k_local k) out); reflexivity. }
      split; [cbn [map]; constructor; assumption|]. intros z. cbn [In]. split.
      * intros [<-|A]; [exists t, k; rewrite Ax; auto|]. apply H in A. destruct A as (t0 & k0 & A1 & A2). exists t0, k0. split; [|exact A2]. rewrite hello_of_snoc.
        destruct (list_eq_dec Z.eq_dec (k_addr k) (l_addr z)) as [Q|]; [rewrite <- Q in A1; congruence|exact A1].
      * intros (t0 & k0 & A1 & A2). destruct (list_eq_dec Z.eq_dec (k_addr k) (l_addr z)) as [Q|Q].
        -- left. rewrite <- Q in A1.
           rewrite G in A1. apply Some_inj in A1. injection A1 as <- <-. now rewrite A2.
        -- right. apply H. exists t0, k0. rewrite hello_of_snoc in A1. destruct (list_eq_dec Z.eq_dec (k_addr k) (l_addr z)); [congruence|]. auto.
Qed.

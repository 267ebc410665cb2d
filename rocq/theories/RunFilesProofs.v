(** Proofs about the lock file and the PID file. *)
From Verif Require Import Base NameSvc ProcFsSpec RunFiles RunFilesSpec.

Lemma at_same : forall A (f : nat -> A) k v, at_ f k v k = v.
Proof. intros. unfold at_. now rewrite Nat.eqb_refl. Qed.
Lemma at_other : forall A (f : nat -> A) k v i, i <> k -> at_ f k v i = f i.
Proof. intros. unfold at_. destruct (i =? k)%nat eqn:E; [apply Nat.eqb_eq in E; congruence|reflexivity]. Qed.

(** every lock is of a process that has the file open, files are older than the next number *)
Definition linv (l : list levent) (w : lworld) : Prop :=
  (forall p i, l_locks w i = Some p -> l_fd w p = Some i) /\ (forall p i, l_fd w p = Some i -> (i < l_next w)%nat) /\ (forall i, l_name w = Some i -> (i < l_next w)%nat) /\
  (forall p, l_fd w p <> None -> alive p l).
Lemma alive_app : forall p l e, alive p l -> ~ ends p e -> alive p (l ++ [e]).
Proof. intros p l e (l1 & l2 & ok & -> & H) N. exists l1, (l2 ++ [e]), ok. split; [now rewrite <- app_assoc|]. intros x I. apply in_app_iff in I. destruct I as [I|[<-|[]]]; auto. Qed.
Lemma alive_attempt : forall p l ok, alive p (l ++ [Attempt p ok]).
Proof. intros. exists l, [], ok. split; [reflexivity|]. intros e []. Qed.
Lemma remove_fd : forall p q w, l_fd (remove_lock p w) q = if (q =? p)%nat then None else l_fd w q.
Proof.
  intros p q w. unfold remove_lock. destruct (l_fd w p) eqn:E; cbn [l_fd].
  - unfold at_. reflexivity.
  - destruct (q =? p)%nat eqn:X; [apply Nat.eqb_eq in X; congruence|reflexivity].
Qed.
Lemma remove_locks : forall p w, (forall q i, l_locks w i = Some q -> l_fd w q = Some i) -> forall i, l_locks (remove_lock p w) i = match l_locks w i with Some q => if (q =? p)%nat then None else Some q | None => None end.
Proof.
  intros p w H i. unfold remove_lock. destruct (l_fd w p) as [j|] eqn:E; cbn [l_locks].
  - destruct (Nat.eq_dec i j) as [->|N].
    + destruct (l_locks w j) as [q|] eqn:L; [|exact L]. destruct (q =? p)%nat; [now rewrite at_same|exact L].
    + replace (match l_locks w j with Some q => if (q =? p)%nat then at_ (l_locks w) j None else l_locks w | None => l_locks w end i) with (l_locks w i) by (destruct (l_locks w j) as [q|]; [destruct (q =? p)%nat; [now rewrite at_other|reflexivity]|reflexivity]).
      destruct (l_locks w i) as [q|] eqn:L; [|reflexivity]. destruct (q =? p)%nat eqn:X; [|reflexivity]. apply Nat.eqb_eq in X. subst q. apply H in L. congruence.
  - destruct (l_locks w i) as [q|] eqn:L; [|reflexivity]. destruct (q =? p)%nat eqn:X; [|reflexivity]. apply Nat.eqb_eq in X. subst q. apply H in L. congruence.
Qed.
Lemma create_ok : forall p ok w, (forall q i, l_locks w i = Some q -> l_fd w q = Some i) -> (forall q i, l_fd w q = Some i -> (i < l_next w)%nat) -> (forall i, l_name w = Some i -> (i < l_next w)%nat) -> l_fd w p = None ->
  let w' := snd (create_internal p ok w) in
  (forall q i, l_locks w' i = Some q -> l_fd w' q = Some i) /\ (forall q i, l_fd w' q = Some i -> (i < l_next w')%nat) /\ (forall i, l_name w' = Some i -> (i < l_next w')%nat) /\
  (forall q, q <> p -> l_fd w' q = l_fd w q) /\ (forall i q, l_locks w i = Some q -> l_locks w' i = Some q).
Proof.
  intros p ok w H1 H2 H3 Fp. unfold create_internal. destruct ok.
  2:{ cbn [snd]. assert (E : forall q, l_fd (remove_lock p w) q = l_fd w q) by (intros q; rewrite remove_fd; destruct (q =? p)%nat eqn:X; [apply Nat.eqb_eq in X; congruence|reflexivity]).
      assert (EL : forall i, l_locks (remove_lock p w) i = l_locks w i) by (unfold remove_lock; rewrite Fp; reflexivity). assert (En : l_next (remove_lock p w) = l_next w) by (unfold remove_lock; now rewrite Fp).
      assert (Em : l_name (remove_lock p w) = None) by (unfold remove_lock; now rewrite Fp). repeat split; intros; rewrite ?EL, ?E, ?En, ?Em in *; auto; try discriminate; eauto. }
  cbn [l_locks l_name l_next l_fd]. set (i0 := match l_name w with Some i => i | None => l_next w end). set (nx := match l_name w with Some _ => l_next w | None => S (l_next w) end).
  assert (Bi : (i0 < nx)%nat) by (subst i0 nx; destruct (l_name w) eqn:E; [now apply H3|lia]). assert (Bn : (l_next w <= nx)%nat) by (subst nx; destruct (l_name w); lia). clearbody i0 nx.
  destruct (l_locks w i0) as [q0|] eqn:L.
  - destruct (q0 =? p)%nat eqn:X; [apply Nat.eqb_eq in X; subst; apply H1 in L; congruence|]. apply Nat.eqb_neq in X. cbn [snd]. set (w1 := mkL (Some i0) nx (l_locks w) (at_ (l_fd w) p (Some i0))).
    assert (E : forall q, l_fd (remove_lock p w1) q = l_fd w q). { intros q. rewrite remove_fd. cbn [w1 l_fd]. destruct (q =? p)%nat eqn:Y; [apply Nat.eqb_eq in Y; congruence|]. apply Nat.eqb_neq in Y. now rewrite at_other. }
    assert (EL : forall i, l_locks (remove_lock p w1) i = l_locks w i). { intros i. unfold remove_lock. cbn [w1 l_fd l_locks]. rewrite at_same. cbn [l_locks]. rewrite L. replace (q0 =? p)%nat with false by (symmetry; now apply Nat.eqb_neq). reflexivity. }
    assert (En : l_next (remove_lock p w1) = nx) by (unfold remove_lock; cbn [w1 l_fd]; rewrite at_same; reflexivity). assert (Em : l_name (remove_lock p w1) = None) by (unfold remove_lock; cbn [w1 l_fd]; rewrite at_same; reflexivity).
    split; [intros q i; rewrite EL, E; apply H1|]. split; [intros q i; rewrite E, En; intros A; apply H2 in A; lia|]. split; [intros i; rewrite Em; discriminate|]. split; [intros; apply E|]. intros i q A. now rewrite EL.
  - cbn [snd l_locks l_name l_next l_fd].
    assert (Un : forall q, l_fd w q = Some i0 -> True) by auto.
    split. { intros q i A. destruct (Nat.eq_dec i i0) as [->|N]; [rewrite at_same in A; inversion A; apply at_same|]. rewrite at_other in A by exact N. apply H1 in A. rewrite at_other; [exact A|]. congruence. }
    split. { intros q i A. destruct (Nat.eq_dec q p) as [->|N]; [rewrite at_same in A; inversion A; subst; exact Bi|]. rewrite at_other in A by exact N. apply H2 in A. lia. }
    split; [intros i A; inversion A; subst; exact Bi|]. split; [intros q N; now rewrite at_other|]. intros i q A. rewrite at_other; [exact A|]. congruence.
Qed.
Lemma killed_inv : forall p l w e, ends p e -> linv l w -> linv (l ++ [e]) (killed p w).
Proof.
  intros p l w e En (H1 & H2 & H3 & H4). unfold killed. split; [|split; [|split]]; cbn [l_locks l_name l_next l_fd].
  - intros q i A. destruct (l_locks w i) as [r|] eqn:L; [|discriminate]. destruct (r =? p)%nat eqn:X; [discriminate|]. inversion A; subst. apply Nat.eqb_neq in X. rewrite at_other by exact X. now apply H1.
  - intros q i A. destruct (Nat.eq_dec q p) as [->|N]; [rewrite at_same in A; discriminate|]. rewrite at_other in A by exact N. eauto.
  - exact H3.
  - intros q A. destruct (Nat.eq_dec q p) as [->|N]; [rewrite at_same in A; congruence|]. rewrite at_other in A by exact N. apply alive_app; [auto|]. intros [->| ->]; destruct En as [E|E]; congruence.
Qed.
(** no process makes another attempt once it has the lock *)
Definition once (l : list levent) : Prop := forall l1 p ok l2, l = l1 ++ Attempt p ok :: l2 -> l_fd (lsteps l1) p = None.
Lemma lsteps_snoc : forall l e, lsteps (l ++ [e]) = lstep e (lsteps l).
Proof. intros. unfold lsteps. now rewrite fold_left_app. Qed.
Lemma once_app : forall l e, once (l ++ [e]) -> once l.
Proof. intros l e O l1 p ok l2 ->. apply (O l1 p ok (l2 ++ [e])). now rewrite <- app_assoc. Qed.
Lemma linv_ok : forall l, once l -> linv l (lsteps l).
Proof.
  induction l as [|e l IH] using rev_ind; intros O; [repeat split; cbn; intros; try discriminate; congruence|].
  specialize (IH (once_app _ _ O)). rewrite lsteps_snoc. destruct e as [p ok|p|p]; cbn [lstep].
  - assert (Fp : l_fd (lsteps l) p = None) by (apply (O l p ok []); reflexivity). destruct IH as (H1 & H2 & H3 & H4). destruct (create_ok p ok _ H1 H2 H3 Fp) as (A & B & C & D & _). split; [exact A|]. split; [exact B|]. split; [exact C|].
    intros q N. destruct (Nat.eq_dec q p) as [->|Nq]; [apply alive_attempt|]. rewrite D in N by exact Nq. apply alive_app; [auto|]. intros [X|X]; discriminate.
  - assert (K : linv l (remove_lock p (lsteps l))).
    { destruct IH as (H1 & H2 & H3 & H4). split; [|split; [|split]].
      - intros q i A. rewrite (remove_locks p _ H1) in A. destruct (l_locks (lsteps l) i) as [r|] eqn:L; [|discriminate]. destruct (r =? p)%nat eqn:X; [discriminate|]. inversion A; subst. rewrite remove_fd, X. now apply H1.
      - intros q i A. rewrite remove_fd in A. destruct (q =? p)%nat; [discriminate|]. unfold remove_lock. destruct (l_fd (lsteps l) p); cbn [l_next]; eauto.
      - intros i A. unfold remove_lock in A. destruct (l_fd (lsteps l) p); discriminate.
      - intros q A. rewrite remove_fd in A. destruct (q =? p)%nat; [congruence|auto]. }
    apply killed_inv; [now left|exact K].
  - apply killed_inv; [now right|exact IH].
Qed.
Lemma alone_ok : forall l p, once l -> (forall q, alive q l -> q = p) -> l_fd (lsteps l) p = None -> exists w', create_internal p true (lsteps l) = (true, w') /\ guards w' p.
Proof.
  intros l p O A Fp. destruct (linv_ok l O) as (H1 & H2 & H3 & H4). set (w := lsteps l) in *.
  assert (N : forall i, l_locks w i = None). { intros i. destruct (l_locks w i) as [q|] eqn:L; [|reflexivity]. pose proof (H1 _ _ L) as F. assert (q = p) by (apply A, H4; congruence). congruence. }
  unfold create_internal. cbn [l_locks l_name l_next l_fd]. rewrite N. eexists. split; [reflexivity|]. eexists. split; [reflexivity|]. unfold holds. cbn [l_locks]. apply at_same.
Qed.
Lemma refused_ok : forall l p q, once l -> l_fd (lsteps l) p = None -> p <> q -> guards (lsteps l) q -> fst (create_internal p true (lsteps l)) = false.
Proof.
  intros l p q O Fp N (i & E & H). unfold create_internal. cbn [l_locks l_name]. rewrite E. unfold holds in H. rewrite H. replace (q =? p)%nat with false by (symmetry; apply Nat.eqb_neq; congruence). reflexivity.
Qed.
Lemma kept_ok : forall l p e i, once (l ++ [e]) -> holds (lsteps l) p i -> ~ ends p e -> holds (lsteps (l ++ [e])) p i.
Proof.
  intros l p e i O H N. pose proof (linv_ok l (once_app _ _ O)) as (H1 & H2 & H3 & _). rewrite lsteps_snoc. unfold holds in *. destruct e as [q ok|q|q]; cbn [lstep].
  - assert (Fq : l_fd (lsteps l) q = None) by (apply (O l q ok []); reflexivity). now apply (create_ok q ok _ H1 H2 H3 Fq).
  - assert (p <> q) by (intros ->; apply N; now left). unfold killed. cbn [l_locks]. rewrite (remove_locks q _ H1), H. replace (p =? q)%nat with false by (symmetry; now apply Nat.eqb_neq). replace (p =? q)%nat with false by (symmetry; now apply Nat.eqb_neq). reflexivity.
  - assert (p <> q) by (intros ->; apply N; now right). unfold killed. cbn [l_locks]. rewrite H. replace (p =? q)%nat with false by (symmetry; now apply Nat.eqb_neq). reflexivity.
Qed.

(** a process that is alone gets the lock if the file can be opened once in six attempts *)
Lemma no_locks p w : (forall i, l_locks w i = None) -> forall i, l_locks (remove_lock p w) i = None.
Proof. intros N i. unfold remove_lock. destruct (l_fd w p); cbn [l_locks]; [rewrite N|]; apply N. Qed.
Lemma attempts_get p k r : forall w, (forall i, l_locks w i = None) -> exists w', attempts p (repeat false k ++ true :: r) (fun w => w) w = (true, w') /\ guards w' p.
Proof.
  induction k as [|k IH]; intros w N; cbn [repeat app attempts].
  - unfold create_internal. cbn [l_locks l_name l_next l_fd]. rewrite N. eexists. split; [reflexivity|]. eexists. split; [reflexivity|]. unfold holds. cbn [l_locks]. apply at_same.
  - cbn [create_internal]. apply IH. now apply no_locks.
Qed.
Lemma retry_ok : forall l p k r, once l -> (forall q, alive q l -> q = p) -> l_fd (lsteps l) p = None -> (k < 6)%nat -> exists w', create_lock true p (repeat false k ++ true :: r) (fun w => w) (lsteps l) = (true, w') /\ guards w' p.
Proof.
  intros l p k r O A Fp K. destruct (linv_ok l O) as (H1 & H2 & H3 & H4). set (w := lsteps l) in *.
  assert (N : forall i, l_locks w i = None). { intros i. destruct (l_locks w i) as [q|] eqn:L; [|reflexivity]. pose proof (H1 _ _ L) as F. assert (q = p) by (apply A, H4; congruence). congruence. }
  unfold create_lock. destruct k as [|[|[|[|[|[|k]]]]]]; try lia; cbn [repeat app firstn]; [apply (attempts_get p 0)|apply (attempts_get p 1)|apply (attempts_get p 2)|apply (attempts_get p 3)|apply (attempts_get p 4)|apply (attempts_get p 5)]; exact N.
Qed.
Lemma gives_up : forall p r others w, fst (create_lock true p (repeat false 6 ++ r) others w) = false.
Proof. intros. unfold create_lock. cbn [repeat app firstn]. reflexivity. Qed.

(** ** The PID file *)
Lemma dec_written : forall k n acc, 0 <= n < 10 ^ Z.of_nat k -> (0 < k)%nat -> exists d, dec k n acc = d ++ acc /\ written d n.
Proof.
  induction k as [|k IH]; intros n acc B P; [lia|]. cbn [dec]. destruct (n <? 10) eqn:E.
  - exists [48 + n mod 10]. split; [reflexivity|]. split; [discriminate|]. split; [constructor; [lia|constructor]|]. cbn [fold_left]. lia.
  - assert (k <> 0%nat). { intros ->. cbn in B. lia. } assert (B' : 0 <= n / 10 < 10 ^ Z.of_nat k). { rewrite Nat2Z.inj_succ, Z.pow_succ_r in B by lia. split; [apply Z.div_pos; lia|]. apply Z.div_lt_upper_bound; lia. }
    destruct (IH (n / 10) ((48 + n mod 10) :: acc) B' ltac:(lia)) as (d & -> & Ne & F & V). exists (d ++ [48 + n mod 10]). split; [now rewrite <- app_assoc|]. split; [now destruct d|]. split; [apply Forall_app; split; [exact F|constructor; [lia|constructor]]|].
    rewrite fold_left_app, <- V. cbn [fold_left]. lia.
Qed.
Lemma pid_ok : forall pid file, 0 <= pid < 2 ^ 31 -> (exists d, dec 10 pid [] = d /\ forall old, file = Some old -> (length old <= length d)%nat) -> names_pid (write_pid pid file) pid.
Proof.
  intros pid file B (d & Ed & L). destruct (dec_written 10 pid []) as (d' & E & W); [change (10 ^ Z.of_nat 10) with 10000000000; lia|lia|]. rewrite app_nil_r in E. unfold write_pid. rewrite Ed in *. subst d'.
  exists d. split; [|exact W]. f_equal. rewrite skipn_all2; [apply app_nil_r|]. destruct file as [old|]; [now apply L|cbn; lia].
Qed.
Lemma dec_mono : forall k n m acc acc', 0 <= n <= m -> (length acc <= length acc')%nat -> (length (dec k n acc) <= length (dec k m acc'))%nat.
Proof.
  induction k as [|k IH]; intros n m acc acc' B L; [exact L|]. cbn [dec]. destruct (n <? 10) eqn:E; destruct (m <? 10) eqn:E'; cbn [length]; try lia.
  - clear - L. assert (H : forall k n acc, (length acc <= length (dec k n acc))%nat). { induction k0 as [|k0 IH]; intros n0 a; [cbn; lia|]. cbn [dec]. destruct (n0 <? 10); [cbn [length]; lia|]. specialize (IH (n0 / 10) ((48 + n0 mod 10) :: a)). cbn [length] in IH. lia. }
    specialize (H k (m / 10) ((48 + m mod 10) :: acc')). cbn [length] in H. lia.
  - apply IH; [split; [apply Z.div_pos; lia|apply Z.div_le_mono; lia]|cbn [length]; lia].
Qed.
Lemma rising_ok : forall pids pid, (forall p, In p pids -> 0 <= p) -> (forall l1 p q l2, pids ++ [pid] = l1 ++ p :: q :: l2 -> p <= q) -> 0 <= pid < 2 ^ 31 -> names_pid (pid_runs (pids ++ [pid]) None) pid.
Proof.
  intros pids pid P R B. unfold pid_runs. rewrite fold_left_app. cbn [fold_left].
  assert (H : fold_left (fun f p => write_pid p f) pids None = None \/ exists q, 0 <= q <= pid /\ fold_left (fun f p => write_pid p f) pids None = Some (dec 10 q [])).
  { assert (G : pids = [] \/ exists l q, pids = l ++ [q] /\ fold_left (fun f p => write_pid p f) pids None = Some (dec 10 q [])).
    { clear B. revert P pid R. induction pids as [|q l IH] using rev_ind; intros P pid R; [now left|]. right. exists l, q. split; [reflexivity|]. rewrite fold_left_app. cbn [fold_left].
      assert (IH' : l = [] \/ exists l1 q1, l = l1 ++ [q1] /\ fold_left (fun f p => write_pid p f) l None = Some (dec 10 q1 [])).
      { apply (IH ltac:(intros; apply P, in_app_iff; now left) q). intros l1 a b l2 E. apply (R l1 a b (l2 ++ [pid])). rewrite E. now rewrite <- app_assoc. }
      destruct IH' as [-> | (l1 & q1 & -> & ->)].
      - cbn [fold_left]. unfold write_pid. now rewrite skipn_nil, app_nil_r.
      - unfold write_pid. rewrite skipn_all2; [now rewrite app_nil_r|]. apply dec_mono; [|lia]. split; [apply P; rewrite !in_app_iff; cbn; tauto|]. apply (R l1 q1 q [pid]). now rewrite <- !app_assoc. }
    destruct G as [-> | (l & q & -> & E)]; [now left|]. right. exists q. split; [|exact E]. split; [apply P, in_app_iff; right; now left|]. apply (R l q pid []). now rewrite <- app_assoc. }
  apply pid_ok; [exact B|]. exists (dec 10 pid []). split; [reflexivity|]. intros old E. destruct H as [H|(q & Bq & H)]; rewrite H in E; [discriminate|]. apply Some_inj in E. subst old. apply dec_mono; [exact Bq|lia].
Qed.

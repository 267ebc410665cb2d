(** C39: the recycling allocator. *)
From Verif Require Import Base Cookie CookieSpec CookieProofs.

(** One more call after any history of permitted calls: it never fails (except that
    the 50th cookie stops the program), a block handed out is held by nobody, is
    zeroed, and nobody else's block changes. *)
Theorem C39_blocks : forall s g e, hist s g -> allowed s g e ->
  match cstep s e with
  | Ok s' r =>
      (forall i p, e = EMalloc i p -> ~ In r (held g) /\
         exists c d, get s i = Some c /\ mem_get (heap s') r = Some d /\ (c_size c <= length d)%nat /\ firstn (c_size c) d = repeat 0 (c_size c)) /\
      (forall x, In x (held g) -> (forall o v, e <> EWrite x o v) -> (forall i j, e <> EFree i x j) -> mem_get (heap s') x = mem_get (heap s) x)
  | Exit => (exists m n, e = ENew m n) /\ forall i, (1 <= i < 50)%nat -> get s i <> None
  | _ => False
  end.
Proof.
  intros s g e H A. apply hist_inv in H. destruct e; cbn [allowed cstep] in *.
  - pose proof (inv_new s g m size H A) as K. unfold alloc_cookie in *. destruct (free_index _ _) as [i|].
    + split; [discriminate|]. intros x X _ _. reflexivity.
    + split; [eauto|exact K].
  - pose proof (inv_del s g i H A) as K. unfold free_cookie in *. destruct (get s i) as [c|] eqn:G; [|contradiction].
    split; [discriminate|]. intros x X _ _. cbn [heap]. destruct (c_mem c); [|reflexivity].
    destruct (fold_del (c_free c) (heap s) (I_keys _ _ H)) as [_ F]. rewrite F. destruct (existsb _ _) eqn:Y; [|reflexivity].
    apply existsb_exists in Y. destruct Y as [z [Y1 Y2]]. apply Z.eqb_eq in Y2. subst z. destruct (I_free _ _ H i c x G Y1). contradiction.
  - destruct A as [[c [A1 A2]] A3]. destruct (inv_malloc s g i p c H A1 A2 A3) as [s1 [q [d [B1 [B2 [B3 [B4 [B5 [B6 B7]]]]]]]]]. rewrite B1. split.
    + intros i' p' [= <- <-]. split; [exact B3|]. exists c, d. split; [exact A1|]. split; [exact B4|]. split; [lia|exact B6].
    + intros x X _ _. apply B7. intros ->. contradiction.
  - destruct A as [A1 A2]. destruct (inv_free s g i p junk H A1 A2) as [s1 [B1 [B2 B3]]]. rewrite B1. split; [discriminate|].
    intros x X _ Y. apply B3. intros ->. exact (Y i junk eq_refl).
  - destruct A as [i [c [A1 [A2 A3]]]]. destruct (inv_write s g i p o v c H A1 A2 A3) as [s1 [B1 [B2 B3]]]. rewrite B1. split; [discriminate|].
    intros x X Y _. apply B3. intros ->. exact (Y o v eq_refl).
  - split; [discriminate|]. intros x _ _ _. unfold usage_incr. destruct (get s i); reflexivity.
  - split; [discriminate|]. intros x _ _ _. unfold usage_decr. destruct (get s i); reflexivity.
Qed.
Print Assumptions C39_blocks.

(** the usage counter of a memory cookie *)
Theorem C39_usage : forall s g i c, hist s g -> get s i = Some c -> c_mem c = true -> count g i < 2 ^ 32 -> c_usage c = count g i.
Proof.
  intros s g i c H G M B. apply hist_inv in H. rewrite (I_use _ _ H i c G M). unfold u32. apply Z.mod_small. unfold count in *. lia.
Qed.
Print Assumptions C39_usage.

(** no block is held twice, and every block obtained from calloc is held by a user
    or waits on exactly one free list *)
Theorem C39_accounting : forall s g, hist s g -> NoDup (held g) /\ forall p, mem_get (heap s) p <> None ->
  (In p (held g) /\ forall i c, get s i = Some c -> ~ In p (c_free c)) \/
  (~ In p (held g) /\ exists i c, get s i = Some c /\ In p (c_free c) /\ NoDup (c_free c) /\ forall j e, get s j = Some e -> In p (c_free e) -> j = i).
Proof.
  intros s g H. apply hist_inv in H. split; [apply (I_held _ _ H)|]. intros p P. destruct (I_all _ _ H p P) as [A|[i [c [A B]]]].
  - left. split; [exact A|]. intros i c G F. destruct (I_free _ _ H i c p G F). contradiction.
  - right. split; [apply (I_free _ _ H i c p A B)|]. exists i, c. split; [exact A|]. split; [exact B|]. split; [apply (I_fnd _ _ H i c A)|].
    intros j e G F. exact (I_dis _ _ H j i e c p G A F B).
Qed.
Print Assumptions C39_accounting.

(** A second free of a block still waiting for reuse stops the program, for blocks
    of at least 16 bytes. *)
Theorem C39_double : forall s g i c p junk, hist s g -> get s i = Some c -> (16 <= c_size c)%nat -> In p (c_free c) -> cookie_free s i p junk = Abort.
Proof.
  intros s g i c p junk H G S F. apply hist_inv in H. destruct (I_free _ _ H i c p G F) as [_ [d [D1 [D2 D3]]]]. unfold cookie_free. rewrite G, D1.
  unfold peek. rewrite (proj2 (Nat.leb_le _ _)) by (unfold BRAND; lia). unfold BRAND. rewrite (D3 S). unfold beq.
  destruct (list_eq_dec _ _ _) as [E|]; [discriminate E|reflexivity].
Qed.
Print Assumptions C39_double.

(** permitted calls from a state *)
Fixpoint crun (s : cs) (g : ghost) (l : list cev) : option (cs * ghost) :=
  match l with [] => Some (s, g) | e :: l' => match cstep s e with Ok s' r => crun s' (gupd g e r) l' | _ => None end end.
Definition junk16 : list Z := repeat 77 16.
Definition demo : list cev :=
  [ENew false 0; ENew true 16; EMalloc 2 100; EWrite 100 3 9; EMalloc 2 200; EFree 2 100 junk16; EMalloc 2 300; EWrite 100 0 5].
Definition demo_state : cs * ghost := match crun cinit (mkG [] []) demo with Some x => x | None => (cinit, mkG [] []) end.
Example C39_ex : hist (fst demo_state) (snd demo_state) /\ used (snd demo_state) = [(2%nat, 100); (2%nat, 200)] /\
  allowed (fst demo_state) (snd demo_state) (EFree 2 200 junk16) /\
  (exists c, get (fst demo_state) 2 = Some c /\ c_mem c = true /\ c_usage c = 2 /\ c_free c = []).
Proof.
  split.
  - unfold demo_state. assert (S : forall l s g, hist s g -> (forall l1 e l2 s1 g1, l = l1 ++ e :: l2 -> crun s g l1 = Some (s1, g1) -> allowed s1 g1 e) ->
      match crun s g l with Some (s', g') => hist s' g' | None => True end).
    { induction l as [|e l IH]; intros s g H A; cbn [crun]; [exact H|]. destruct (cstep s e) as [s1 r| | |] eqn:E; auto. apply IH.
      - eapply h_step; eauto. apply (A [] e l s g); reflexivity.
      - intros l1 x l2 s2 g2 -> R. apply (A (e :: l1) x l2 s2 g2); [reflexivity|]. cbn [crun]. rewrite E. exact R. }
    specialize (S demo cinit (mkG [] []) h_init).
    assert (T : match crun cinit (mkG [] []) demo with Some (s', g') => hist s' g' | None => True end).
    { apply S. clear S. intros l1 e l2 s1 g1. unfold demo.
      do 8 (destruct l1 as [|? l1]; [intros [= <- <-]; intros R; vm_compute in R; injection R as <- <-; cbn [allowed];
        first [discriminate | lia | split; [eexists; split; reflexivity|reflexivity] | split; [right; left; reflexivity|reflexivity] |
               exists 2%nat; eexists; split; [left; reflexivity|]; split; [reflexivity|cbn; lia]]
        |try discriminate; intros [= <- H]; revert H]).
      destruct l1; discriminate. }
    destruct (crun cinit (mkG [] []) demo) as [[s g]|] eqn:E; [exact T|discriminate (f_equal (fun o => match o with Some _ => true | None => false end) E)].
  - split; [vm_compute; reflexivity|]. split; [split; [right; left; reflexivity|reflexivity]|]. eexists. split; [vm_compute; reflexivity|]. auto.
Qed.

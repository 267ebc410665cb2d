(** Proofs about the election. *)
From Verif Require Import Base BmfPacket BmfPacketSpec MdnsElect MdnsElectSpec.

Lemma memsame_ok : forall a b, memsame a b = true <-> a = b.
Proof.
  induction a as [|x a IH]; intros [|y b]; cbn; try (split; intros H; [discriminate|inversion H]); [tauto|].
  rewrite andb_true_iff, Z.eqb_eq, IH. split; [intros (-> & ->); reflexivity|intros H; inversion H; auto].
Qed.
Lemma number_bound : forall a, Forall byte a -> 0 <= number a < 256 ^ Z.of_nat (length a).
Proof.
  induction 1 as [|x a B _ IH]; [cbn; lia|]. cbn [number length]. rewrite Nat2Z.inj_succ, Z.pow_succ_r by lia. unfold byte in B. set (p := 256 ^ Z.of_nat (length a)) in *.
  assert (0 <= x * p <= 255 * p) by (split; [apply Z.mul_nonneg_nonneg; lia|apply Z.mul_le_mono_nonneg_r; lia]). lia.
Qed.
Lemma memless_ok : forall a b, length a = length b -> Forall byte a -> Forall byte b -> (memless a b = true <-> number a < number b).
Proof.
  induction a as [|x a IH]; intros [|y b] L A B; try discriminate; cbn [memless number]; [cbn; split; [discriminate|lia]|]. inversion A as [|? ? Bx A']; inversion B as [|? ? By B']; subst. cbn [length] in *.
  pose proof (number_bound _ A') as Na. pose proof (number_bound _ B') as Nb. specialize (IH b ltac:(lia) A' B'). assert (E : length b = length a) by lia. rewrite E in *. unfold byte in *.
  set (p := 256 ^ Z.of_nat (length a)) in *. destruct (Z.ltb_spec x y) as [H|H].
  - split; [intros _|reflexivity]. assert ((x + 1) * p <= y * p) by (apply Z.mul_le_mono_nonneg_r; lia). lia.
  - destruct (Z.ltb_spec y x) as [H'|H'].
    + split; [discriminate|]. assert ((y + 1) * p <= x * p) by (apply Z.mul_le_mono_nonneg_r; lia). lia.
    + assert (x = y) by lia. subst. rewrite IH. lia.
Qed.

(** * Packets *)
Lemma firstn_all' : forall (a b : list Z) n, n = length a -> firstn n (a ++ b) = a.
Proof. intros a b n ->. rewrite firstn_app, Nat.sub_diag. cbn. rewrite app_nil_r. apply firstn_all. Qed.
Lemma firstn_le : forall (a b : list Z) n, (n <= length a)%nat -> firstn n (a ++ b) = firstn n a.
Proof. intros a b n H. rewrite firstn_app. replace (n - length a)%nat with 0%nat by lia. cbn. apply app_nil_r. Qed.
Lemma introduces_fun : forall v6 data id net id' net', introduces v6 data id net -> introduces v6 data id' net' -> id = id' /\ net = net'.
Proof.
  intros v6 data id net id' net' (f0 & f1 & f2 & f3 & addr & rest & E & L & D) (g0 & g1 & g2 & g3 & addr' & rest' & E' & L' & D'). rewrite E in E'.
  cbn [app] in E'. inversion E' as [[H0 H1 H2 H3 H]]. subst.
  assert (A : addr = addr').
  { pose proof (f_equal (firstn 16) H) as G. rewrite (firstn_all' addr), (firstn_all' addr') in G by lia. exact G. }
  subst addr'. apply app_inv_head in H. inversion H; subst. split; [|reflexivity].
  destruct D as [(-> & F & ->)|(-> & F & ->)], D' as [(Q & F' & ->)|(Q & F' & ->)]; try discriminate; reflexivity.
Qed.
Lemma byte_le32 : forall a b c d r, byte a -> byte b -> byte c -> byte d -> (le32 (a :: b :: c :: d :: r) = 2 <-> [a; b; c; d] = [2; 0; 0; 0]).
Proof. unfold byte, le32. cbn [nth]. intros. split; [intros H'; f_equal; [lia|]; f_equal; [lia|]; f_equal; [lia|]; f_equal; lia|intros H'; inversion H'; lia]. Qed.
Lemma heard_ok : forall v6 fd data s l, Forall byte data -> s_list s = Some l ->
  (exists id net, introduces v6 data id net /\ do_election v6 fd data s = Done (mkMstate (Some (refresh (mkRouter id net 10 fd) l)) (s_net s) (s_id s) (s_hello s) (s_ifs s))) \/
  ((forall id net, ~ introduces v6 data id net) /\ do_election v6 fd data s = Done s).
Proof.
  intros v6 fd data s l F Sl. unfold do_election. assert (Len : Z.of_nat (length (firstn 2047 data)) = Z.min 2047 (Z.of_nat (length data))) by (rewrite firstn_length; lia).
  destruct (Z_lt_le_dec (Z.of_nat (length data)) 25) as [Sh|Lo].
  { right. split.
    - intros id net (f0 & f1 & f2 & f3 & addr & rest & E & L & _). subst data. rewrite !app_length in Sh. cbn [length] in Sh. lia.
    - destruct ((_ <? 4) || _); [reflexivity|]. replace (Z.of_nat (length (firstn 2047 data)) <? 25) with true by lia. reflexivity. }
  replace (Z.of_nat (length (firstn 2047 data)) <? 4) with false by lia. replace (Z.of_nat (length (firstn 2047 data)) <? 25) with false by lia.
  assert (D : exists p f addr net rest, data = p ++ f ++ addr ++ net :: rest /\ length p = 4%nat /\ length f = 4%nat /\ length addr = 16%nat).
  { exists (firstn 4 data), (firstn 4 (skipn 4 data)), (firstn 16 (skipn 8 data)), (nth 24 data 0), (skipn 25 data). split; [|rewrite !firstn_length, !skipn_length; lia].
    do 25 (destruct data as [|? data]; [cbn [length] in Lo; lia|]). reflexivity. }
  destruct D as (p & f & addr & net & rest & -> & Lp & Lf & La).
  do 5 (destruct p as [|? p]; try discriminate Lp). do 5 (destruct f as [|? f]; try discriminate Lf).
  assert (E0 : firstn 2047 ([z; z0; z1; z2] ++ [z3; z4; z5; z6] ++ addr ++ net :: rest) = [z; z0; z1; z2] ++ [z3; z4; z5; z6] ++ addr ++ net :: firstn 2022 rest).
  { change (firstn 2047 ([z; z0; z1; z2] ++ [z3; z4; z5; z6] ++ addr ++ net :: rest)) with ([z; z0; z1; z2] ++ [z3; z4; z5; z6] ++ firstn 2039 (addr ++ net :: rest)). rewrite firstn_app, La, firstn_all2 by lia. reflexivity. }
  rewrite E0. clear E0 Len. set (rest' := firstn 2022 rest). clearbody rest'.
  change (firstn 4 ([z; z0; z1; z2] ++ [z3; z4; z5; z6] ++ addr ++ net :: rest')) with [z; z0; z1; z2].
  change (skipn 4 ([z; z0; z1; z2] ++ [z3; z4; z5; z6] ++ addr ++ net :: rest')) with (z3 :: z4 :: z5 :: z6 :: addr ++ net :: rest').
  change (skipn 8 ([z; z0; z1; z2] ++ [z3; z4; z5; z6] ++ addr ++ net :: rest')) with (addr ++ net :: rest').
  replace (nth 24 ([z; z0; z1; z2] ++ [z3; z4; z5; z6] ++ addr ++ net :: rest') 0) with net by (cbn [app nth]; rewrite app_nth2, La by lia; reflexivity).
  cbn [app] in F. repeat match goal with H : Forall byte (_ :: _) |- _ => let B := fresh "B" in inversion H as [|? ? B ?]; subst; clear H end.
  pose proof (byte_le32 z3 z4 z5 z6 (addr ++ net :: rest') ltac:(assumption) ltac:(assumption) ltac:(assumption) ltac:(assumption)) as LE.
  cbv zeta. rewrite orb_false_l. destruct (memsame [z; z0; z1; z2] [36; 82; 69; 80]) eqn:M; cbn [negb].
  2: { right. split; [|reflexivity]. intros id n (f0 & f1 & f2 & f3 & ad & r & E & _). cbn [app] in E. inversion E; subst. discriminate. }
  apply memsame_ok in M. inversion M; subst z z0 z1 z2. destruct (Z.eqb_spec (le32 (z3 :: z4 :: z5 :: z6 :: addr ++ net :: rest')) 2) as [Q|Q].
  - apply LE in Q. destruct v6; cbn [Bool.eqb].
    + right. split; [|reflexivity]. intros id n (f0 & f1 & f2 & f3 & ad & r & E & _ & [(N & _)|(_ & N & _)]); [discriminate|]. cbn [app] in E. inversion E; subst. now apply N.
    + left. exists (firstn 4 addr), net. rewrite Sl. split; [|rewrite (firstn_le addr) by lia; reflexivity].
      exists z3, z4, z5, z6, addr, rest. split; [reflexivity|]. split; [exact La|]. left. auto.
  - destruct v6; cbn [Bool.eqb].
    + left. exists addr, net. rewrite Sl. split; [|rewrite (firstn_all' addr) by lia; reflexivity].
      exists z3, z4, z5, z6, addr, rest. split; [reflexivity|]. split; [exact La|]. right. split; [reflexivity|]. split; [intros H; apply Q, LE, H|reflexivity].
    + right. split; [|reflexivity]. intros id n (f0 & f1 & f2 & f3 & ad & r & E & _ & [(_ & N & _)|(N & _)]); [|discriminate]. cbn [app] in E. inversion E; subst. now apply Q, LE.
Qed.

(** * Ages *)
Lemma age_inv : forall v6 fd id net l e a, age v6 fd id net (l ++ [e]) a ->
  match e with
  | Got fd' data => (fd' = fd /\ introduces v6 data id net /\ a = 0%nat) \/ (~ (fd' = fd /\ introduces v6 data id net) /\ age v6 fd id net l a)
  | Elect => exists a', a = S a' /\ age v6 fd id net l a'
  end.
Proof.
  intros v6 fd id net l e a H. inversion H as [l' data I E1 E2|l' fd' data a' N A E1 E2|l' a' A E1 E2]; apply app_inj_tail in E1; destruct E1 as (-> & <-).
  - left. auto.
  - right. auto.
  - exists a'. auto.
Qed.
Lemma age_nil : forall v6 fd id net a, ~ age v6 fd id net [] a.
Proof. intros v6 fd id net a H. inversion H; destruct l; discriminate. Qed.
Lemma age_fun : forall v6 fd id net l a b, age v6 fd id net l a -> age v6 fd id net l b -> a = b.
Proof.
  intros v6 fd id net l. induction l as [|e l IH] using rev_ind; intros a b A B; [now apply age_nil in A|]. apply age_inv in A, B. destruct e as [fd' data|].
  - destruct A as [(A1 & A2 & ->)|(A1 & A2)], B as [(B1 & B2 & ->)|(B1 & B2)]; try tauto; auto.
  - destruct A as (a' & -> & A), B as (b' & -> & B). f_equal. auto.
Qed.
Lemma age_length : forall v6 fd id net l a, Forall good_event l -> age v6 fd id net l a -> length id = (if v6 then 16 else 4)%nat /\ Forall byte id.
Proof.
  intros v6 fd id net l a G A. induction A as [l data I|l fd' data a N A IH|l a A IH]; [|apply Forall_app in G; tauto|apply Forall_app in G; tauto].
  apply Forall_app in G. destruct G as (_ & G). inversion G as [|? ? Gd _]; subst. cbn in Gd. destruct I as (f0 & f1 & f2 & f3 & addr & rest & -> & L & D).
  apply Forall_app in Gd. destruct Gd as (_ & Gd). apply Forall_app in Gd. destruct Gd as (Ga & _). destruct D as [(-> & _ & ->)|(-> & _ & ->)].
  - split; [rewrite firstn_length; lia|]. rewrite <- (firstn_skipn 4 addr) in Ga. now apply Forall_app in Ga.
  - auto.
Qed.

(** * The list *)
Definition key : Type := (Z * list Z * Z)%type.
Definition key_of (r : router) : key := (r_fd r, r_id r, r_net r).
Definition inv (D : key -> nat -> Prop) (R : list router) : Prop :=
  (forall r, In r R -> exists d, D (key_of r) d /\ r_ttl r = 10 - Z.of_nat d /\ (d < 10)%nat) /\
  (forall k d, D k d -> (d < 10)%nat -> exists r, In r R /\ key_of r = k).
Definition fn (D : key -> nat -> Prop) : Prop := forall k d d', D k d -> D k d' -> d = d'.
Definition shift (n : nat) (D : key -> nat -> Prop) : key -> nat -> Prop := fun k d => exists d0, d = (d0 + n)%nat /\ D k d0.
Lemma same_key : forall n r, same_router n r = true <-> key_of r = key_of n.
Proof.
  intros n r. unfold same_router, key_of. rewrite !andb_true_iff, !Z.eqb_eq, memsame_ok. split; [intros ((-> & ->) & ->); reflexivity|intros H; inversion H; auto].
Qed.
Lemma refresh_inv : forall D n R, fn D -> inv D R -> r_ttl n = 10 ->
  inv (fun k d => (k = key_of n /\ d = 0%nat) \/ (k <> key_of n /\ D k d)) (refresh n R).
Proof.
  intros D n R Fn (I1 & I2) T. unfold refresh. destruct (existsb (same_router n) R) eqn:X.
  - apply existsb_exists in X. destruct X as (x & Ix & X). apply same_key in X. split.
    + intros r H. apply in_map_iff in H. destruct H as (r0 & <- & I0). destruct (same_router n r0) eqn:Q.
      * apply same_key in Q. exists 0%nat. split; [left; split; [exact Q|reflexivity]|]. cbn. lia.
      * destruct (I1 r0 I0) as (d & A & B & C). exists d. split; [|auto]. right. split; [|exact A]. intros K. apply same_key in K. congruence.
    + intros k d [(-> & ->)|(N & A)] L.
      * exists (mkRouter (r_id x) (r_net x) (r_ttl n) (r_fd x)). split; [|exact X]. apply in_map_iff. exists x. split; [|exact Ix]. replace (same_router n x) with true; [reflexivity|]. symmetry. now apply same_key.
      * destruct (I2 k d A L) as (r & Ir & K). exists r. split; [|exact K]. apply in_map_iff. exists r. split; [|exact Ir]. destruct (same_router n r) eqn:Q; [|reflexivity]. apply same_key in Q. congruence.
  - assert (X' : forall r, In r R -> key_of r <> key_of n).
    { intros r I K. apply same_key in K. assert (existsb (same_router n) R = true) by (apply existsb_exists; eauto). congruence. }
    split.
    + intros r H. apply in_app_or in H. destruct H as [H|[<-|[]]].
      * destruct (I1 r H) as (d & A & B & C). exists d. split; [|auto]. right. auto.
      * exists 0%nat. split; [left; auto|]. lia.
    + intros k d [(-> & ->)|(N & A)] L.
      * exists n. split; [|reflexivity]. apply in_or_app. right. now left.
      * destruct (I2 k d A L) as (r & Ir & K). exists r. split; [|exact K]. apply in_or_app. now left.
Qed.
Lemma pass_in : forall net own fd R b R', pass net own fd R = (b, R') ->
  (b = true <-> ~ exists r, In r R /\ r_net r = net /\ r_fd r = fd /\ memless (r_id r) own = true) /\
  (forall r, In r R' <-> exists r0, In r0 R /\ 1 < r_ttl r0 /\ r = mkRouter (r_id r0) (r_net r0) (r_ttl r0 - 1) (r_fd r0)).
Proof.
  intros net own fd R. induction R as [|r R IH]; intros b R' E; cbn [pass] in E.
  - inversion E. split; [split; [intros _ (r & [] & _)|reflexivity]|]. intros r. split; [intros []|intros (r0 & [] & _)].
  - destruct (pass net own fd R) as (b0 & R0) eqn:P. destruct (IH b0 R0 eq_refl) as (A & B). inversion E; subst. split.
    + rewrite andb_true_iff, negb_true_iff, A. split.
      * intros (N & H) (x & [<-|Ix] & E1 & E2 & E3); [|apply H; eauto]. rewrite E1, E2, E3, !Z.eqb_refl in N. discriminate.
      * intros H. split; [|intros (x & Ix & Q); apply H; exists x; split; [now right|exact Q]].
        destruct ((r_net r =? net) && (r_fd r =? fd) && memless (r_id r) own) eqn:Q; [|reflexivity]. exfalso. apply H. exists r. rewrite !andb_true_iff, !Z.eqb_eq in Q. split; [now left|tauto].
    + intros x. destruct (Z.leb_spec (r_ttl r - 1) 0) as [T|T].
      * rewrite B. split; intros (r0 & I & Q); exists r0.
        -- split; [now right|exact Q].
        -- destruct I as [<-|I]; [lia|auto].
      * split.
        -- intros [<-|I]; [exists r; split; [now left|]; split; [lia|reflexivity]|]. apply B in I. destruct I as (r0 & I & Q). exists r0. split; [now right|exact Q].
        -- intros (r0 & [<-|I] & Q1 & Q2); [left; auto|right; apply B; eauto].
Qed.
Lemma pass_inv : forall D net own fd R b R', fn D -> inv D R -> pass net own fd R = (b, R') ->
  inv (shift 1 D) R' /\ (b = true <-> ~ exists id d, D (fd, id, net) d /\ (d < 10)%nat /\ memless id own = true).
Proof.
  intros D net own fd R b R' Fn (I1 & I2) E. destruct (pass_in _ _ _ _ _ _ E) as (A & B). split; [split|].
  - intros r I. apply B in I. destruct I as (r0 & I & T & ->). destruct (I1 r0 I) as (d & Dd & Q & L). exists (S d). split; [exists d; split; [lia|exact Dd]|]. cbn [r_ttl]. lia.
  - intros k d (d0 & -> & Dd) L. destruct (I2 k d0 Dd ltac:(lia)) as (r & I & K). destruct (I1 r I) as (d' & Dd' & Q & L'). rewrite K in Dd'. pose proof (Fn _ _ _ Dd Dd'). subst d'.
    exists (mkRouter (r_id r) (r_net r) (r_ttl r - 1) (r_fd r)). split; [|exact K]. apply B. exists r. split; [exact I|]. split; [lia|reflexivity].
  - rewrite A. split; intros H.
    + intros (id & d & Dd & L & M). destruct (I2 _ _ Dd L) as (r & I & K). unfold key_of in K. inversion K; subst. apply H. exists r. auto.
    + intros (r & I & <- & <- & M). destruct (I1 r I) as (d & Dd & _ & L). apply H. exists (r_id r), d. auto.
Qed.
Lemma shift_fn : forall n D, fn D -> fn (shift n D).
Proof. intros n D Fn k d d' (a & -> & A) (b & -> & B). now rewrite (Fn _ _ _ A B). Qed.
Lemma passes_inv : forall net own ifs D R ifs' R', fn D -> inv D R -> passes net own ifs R = (ifs', R') ->
  inv (shift (length ifs) D) R' /\ length ifs' = length ifs /\
  forall j i, nth_error ifs j = Some i -> exists i', nth_error ifs' j = Some i' /\ if_election i' = if_election i /\ if_capture i' = if_capture i /\ if_hello i' = if_hello i /\
    (if_active i' = true <-> ~ exists id d, D (if_election i, id, net) d /\ (d + j < 10)%nat /\ memless id own = true).
Proof.
  intros net own ifs. induction ifs as [|i ifs IH]; intros D R ifs' R' Fn I E; cbn [passes] in E.
  - inversion E; subst. split; [|split; [reflexivity|intros [|j] i H; discriminate]]. destruct I as (I1 & I2). split.
    + intros r Ir. destruct (I1 r Ir) as (d & A & B). exists d. split; [exists d; cbn [length]; split; [lia|exact A]|exact B].
    + intros k d (d0 & -> & A) L. cbn [length] in L. apply (I2 k d0 A). lia.
  - destruct (pass net own (if_election i) R) as (b & R1) eqn:P. destruct (passes net own ifs R1) as (ifs1 & R2) eqn:Q. inversion E; subst. destruct (pass_inv _ _ _ _ _ _ _ Fn I P) as (I1 & Bb).
    destruct (IH _ _ _ _ (shift_fn 1 D Fn) I1 Q) as (I2 & Le & N). split; [|split; [cbn [length]; lia|]].
    + destruct I2 as (J1 & J2). split.
      * intros r Ir. destruct (J1 r Ir) as (d & (d1 & -> & (d0 & -> & A)) & B). exists (d0 + length (i :: ifs))%nat. cbn [length]. split; [exists d0; auto|]. replace (d0 + S (length ifs))%nat with (d0 + 1 + length ifs)%nat by lia. exact B.
      * intros k d (d0 & -> & A) L. cbn [length] in L. apply (J2 k (d0 + 1 + length ifs)%nat); [|lia]. exists (d0 + 1)%nat. split; [reflexivity|]. exists d0. auto.
    + intros [|j] i0 H; cbn [nth_error] in *.
      * inversion H; subst i0. eexists. split; [reflexivity|]. cbn. do 3 (split; [reflexivity|]). rewrite Bb. split; intros G (id & d & A & B & C); apply G; exists id, d; repeat split; auto; lia.
      * destruct (N j i0 H) as (i' & X1 & X2 & X3 & X4 & X5). exists i'. do 4 (split; [assumption|]). rewrite X5. split; intros G (id & d & A & B & C); apply G.
        -- exists id, (d + 1)%nat. split; [exists d; auto|]. split; [lia|exact C].
        -- destruct A as (d0 & -> & A). exists id, d0. split; [exact A|]. split; [lia|exact C].
Qed.

(** * Histories *)
Definition weight (v6 : bool) (k : nat) (l : list event) : key -> nat -> Prop :=
  fun q d => match q with (fd, id, net) => exists a, age v6 fd id net l a /\ d = (a * k)%nat end.
Lemma weight_fn : forall v6 k l, fn (weight v6 k l).
Proof. intros v6 k l ((fd, id), net) d d' (a & A & ->) (b & B & ->). now rewrite (age_fun _ _ _ _ _ _ _ A B). Qed.
Lemma inv_ext : forall D D' R, (forall k d, D k d <-> D' k d) -> inv D R -> inv D' R.
Proof.
  intros D D' R H (I1 & I2). split.
  - intros r I. destruct (I1 r I) as (d & A & B). exists d. split; [now apply H|exact B].
  - intros k d A. apply I2. now apply H.
Qed.
Definition known (v6 : bool) (main : list Z) (ifs : list iface) (l : list event) (s : mstate) : Prop :=
  exists R, s_list s = Some R /\ inv (weight v6 (length ifs) l) R /\ s_net s = 1 /\ s_id s = address_of v6 main /\ map if_election (s_ifs s) = map if_election ifs.
Lemma events_app : forall v6 a b s, events v6 (a ++ b) s = (let* s := events v6 a s in events v6 b s).
Proof. intros v6 a. induction a as [|e a IH]; intros b s; [reflexivity|]. cbn [app events]. destruct (step v6 e s); cbn [obind]; [apply IH|reflexivity|reflexivity]. Qed.
Lemma passes_map : forall net own ifs R ifs' R', passes net own ifs R = (ifs', R') -> map if_election ifs' = map if_election ifs.
Proof.
  intros net own ifs. induction ifs as [|i ifs IH]; intros R ifs' R' E; cbn [passes] in E; [inversion E; reflexivity|].
  destruct (pass net own (if_election i) R) as (b & R1). destruct (passes net own ifs R1) as (ifs1 & R2) eqn:Q. inversion E; subst. cbn [map if_election]. f_equal. eauto.
Qed.
Lemma known_run : forall v6 main ifs l s, started v6 main ifs s -> Forall good_event l -> exists s', events v6 l s = Done s' /\ known v6 main ifs l s'.
Proof.
  intros v6 main ifs l s (Lm & Bm & s0 & E0 & ->). induction l as [|e l IH] using rev_ind; intros G.
  - exists (init_timer v6 main s0). split; [reflexivity|]. exists []. split; [reflexivity|]. split; [|split; [reflexivity|split; [reflexivity|cbn; now rewrite E0]]].
    split; [intros r []|]. intros ((fd, id), net) d (a & A & _). now apply age_nil in A.
  - apply Forall_app in G. destruct G as (G & Ge). inversion Ge as [|? ? Gd _]; subst. destruct (IH G) as (s' & E & R & Sl & I & Sn & Si & Sf). rewrite events_app, E. cbn [obind events].
    destruct e as [fd data|]; cbn [step].
    + destruct (heard_ok v6 fd data s' R Gd Sl) as [(id & net & Hi & ->)|(No & ->)]; cbn [obind]; eexists; (split; [reflexivity|]).
      * eexists. split; [reflexivity|]. split; [|auto]. eapply inv_ext; [|apply refresh_inv; [apply weight_fn|exact I|reflexivity]].
        intros ((fd', id'), net') d. unfold key_of. cbn [r_fd r_id r_net]. split.
        -- intros [(K & ->)|(K & (a & A & ->))].
           ++ inversion K; subst. exists 0%nat. split; [now apply age_now|reflexivity].
           ++ exists a. split; [|reflexivity]. apply age_other; [|exact A]. intros (-> & Hi'). destruct (introduces_fun _ _ _ _ _ _ Hi Hi') as (-> & ->). now apply K.
        -- intros (a & A & ->). apply age_inv in A. destruct A as [(-> & Hi' & ->)|(N & A)].
           ++ destruct (introduces_fun _ _ _ _ _ _ Hi Hi') as (-> & ->). left. auto.
           ++ right. split; [|exists a; auto]. intros K. inversion K; subst. apply N. auto.
      * exists R. split; [exact Sl|]. split; [|auto]. eapply inv_ext; [|exact I]. intros ((fd', id'), net') d. split; intros (a & A & ->); exists a; (split; [|reflexivity]).
        -- apply age_other; [|exact A]. intros (_ & Hi). exact (No _ _ Hi).
        -- apply age_inv in A. destruct A as [(_ & Hi & _)|(_ & A)]; [now apply No in Hi|exact A].
    + unfold elect_timer. rewrite Sl. destruct (passes (s_net s') (s_id s') (s_ifs s') R) as (ifs' & R') eqn:P. cbn [obind]. eexists. split; [reflexivity|].
      destruct (passes_inv _ _ _ _ _ _ _ (weight_fn v6 (length (s_ifs s0)) l) I P) as (I' & Le & _). exists R'. split; [reflexivity|]. cbn [s_net s_id s_ifs].
      split; [|split; [exact Sn|split; [exact Si|rewrite (passes_map _ _ _ _ _ _ P); exact Sf]]].
      assert (Lk : length (s_ifs s') = length (s_ifs s0)) by (rewrite <- (map_length if_election (s_ifs s')), Sf; apply map_length).
      eapply inv_ext; [|exact I']. intros ((fd', id'), net') d. rewrite Lk. unfold shift, weight. split.
      * intros (d0 & -> & (a & A & ->)). exists (S a). split; [now apply age_elect|lia].
      * intros (a & A & ->). apply age_inv in A. destruct A as (a' & -> & A). exists (a' * length (s_ifs s0))%nat. split; [lia|]. exists a'. auto.
Qed.
Lemma elect_ok : forall v6 main ifs l s, started v6 main ifs s -> Forall good_event l -> exists s', events v6 (l ++ [Elect]) s = Done s' /\
  forall j i, nth_error ifs j = Some i -> exists i', nth_error (s_ifs s') j = Some i' /\
    (if_active i' = true <-> ~ exists id a, age v6 (if_election i) id 1 l a /\ remembered (length ifs) a j /\ number id < number (address_of v6 main)).
Proof.
  intros v6 main ifs l s S G. pose proof S as (Lm & Bm & _). destruct (known_run v6 main ifs l s S G) as (s' & E & R & Sl & I & Sn & Si & Sf). rewrite events_app, E. cbn [obind events step]. unfold elect_timer. rewrite Sl.
  destruct (passes (s_net s') (s_id s') (s_ifs s') R) as (ifs' & R') eqn:P. cbn [obind]. eexists. split; [reflexivity|]. cbn [s_ifs].
  destruct (passes_inv _ _ _ _ _ _ _ (weight_fn v6 (length ifs) l) I P) as (_ & _ & N). intros j i H.
  assert (Hs : exists i0, nth_error (s_ifs s') j = Some i0 /\ if_election i0 = if_election i).
  { pose proof (map_nth_error if_election _ _ H) as M. rewrite <- Sf in M. destruct (nth_error (s_ifs s') j) as [i0|] eqn:Q.
    - exists i0. split; [reflexivity|]. rewrite (map_nth_error if_election _ _ Q) in M. congruence.
    - apply nth_error_None in Q. assert (nth_error (map if_election (s_ifs s')) j = None) by (apply nth_error_None; now rewrite map_length). congruence. }
  destruct Hs as (i0 & H0 & Ei). destruct (N j i0 H0) as (i' & X1 & _ & _ & _ & X5). exists i'. split; [exact X1|]. rewrite X5, Ei, Sn, Si.
  assert (La : length (address_of v6 main) = (if v6 then 16 else 4)%nat) by (unfold address_of; rewrite firstn_length; destruct v6; lia).
  assert (Ba : Forall byte (address_of v6 main)) by (unfold address_of; rewrite <- (firstn_skipn (if v6 then 16 else 4) main) in Bm; now apply Forall_app in Bm).
  unfold remembered. split; intros K (id & a & A & B & C); apply K.
  - destruct (age_length _ _ _ _ _ _ G A) as (Li & Bi). exists id, (a * length ifs)%nat. split; [exists a; auto|]. split; [exact B|]. apply memless_ok; [congruence|assumption|assumption|exact C].
  - destruct A as (a' & A & ->). destruct (age_length _ _ _ _ _ _ G A) as (Li & Bi). exists id, a'. split; [exact A|]. split; [exact B|]. now apply memless_ok; [congruence| | |].
Qed.
(** the least of some *)
Lemma least : forall (A : Type) (f : A -> Z) (l : list A), l <> [] -> exists x, In x l /\ forall y, In y l -> f x <= f y.
Proof.
  intros A f l. induction l as [|x l IH]; intros H; [congruence|]. destruct l as [|y l]; [exists x; split; [now left|intros z [<-|[]]; lia]|].
  destruct IH as (m & I & M); [discriminate|]. destruct (Z_le_gt_dec (f x) (f m)).
  - exists x. split; [now left|]. intros z [<-|Z]; [lia|]. specialize (M z Z). lia.
  - exists m. split; [now right|]. intros z [<-|Z]; [lia|auto].
Qed.
Lemma number_inj : forall a b, length a = length b -> Forall byte a -> Forall byte b -> number a = number b -> a = b.
Proof.
  induction a as [|x a IH]; intros [|y b] L A B E; try discriminate; [reflexivity|]. inversion A as [|? ? Bx A']; inversion B as [|? ? By B']; subst. cbn [length number] in *.
  pose proof (number_bound _ A') as Na. pose proof (number_bound _ B') as Nb. assert (El : length b = length a) by lia. rewrite El in *. unfold byte in *. set (p := 256 ^ Z.of_nat (length a)) in *.
  assert (x = y). { destruct (Z.lt_trichotomy x y) as [H|[H|H]]; [|exact H|].
    - assert ((x + 1) * p <= y * p) by (apply Z.mul_le_mono_nonneg_r; lia). lia.
    - assert ((y + 1) * p <= x * p) by (apply Z.mul_le_mono_nonneg_r; lia). lia. }
  subst. f_equal. apply IH; auto; lia.
Qed.

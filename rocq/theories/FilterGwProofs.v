From Verif Require Import Base Bytes IpCalc GwHna Parser ParserProofs Hna FilterGw FilterGwSpec.

(** * Whom *)
Lemma should_spec l : forall s, 
  (forall a, should_filter (set_params s l) a = true <->
    exists al, (al = (match filter_groups s with None => [] | Some x => x end)) /\
     exists n, ((exists l1 l2, l = l1 ++ PAllow n :: l2 /\ forall m, ~ In (PAllow m) l2) \/ (n = is_allowlist s /\ forall m, ~ In (PAllow m) l)) /\
     ((n = 0 /\ (In a al \/ named l a)) \/ (n <> 0 /\ ~ (In a al \/ named l a)))).
Proof.
  induction l as [|p l IH]; intros s a; cbn [set_params].
  - unfold should_filter. destruct (filter_groups s) as [al|] eqn:F.
    + assert (E : existsb (fun x => bytes_eqb x a) al = true <-> In a al).
      { rewrite existsb_exists. split.
        - intros (x & H & G). apply bytes_eqb_spec in G. now subst.
        - intros H. exists a. split; [exact H|]. now apply bytes_eqb_spec. }
      split.
      * intros H. exists al. split; [reflexivity|]. exists (is_allowlist s). split; [right; split; [reflexivity|intros m []]|].
        destruct (is_allowlist s =? 0) eqn:Z0; cbn [negb] in H.
        -- left. split; [lia|]. left. now apply E.
        -- right. split; [lia|]. intros [G|[]]. apply E in G. rewrite G in H. discriminate.
      * intros (al' & -> & n & [(l1 & l2 & H & _)|[-> _]] & G); [now destruct l1|].
        destruct G as [[G1 [G2|[]]]|[G1 G2]].
        -- rewrite G1. cbn [Z.eqb negb]. now apply E.
        -- replace (is_allowlist s =? 0) with false by lia. cbn [negb]. destruct (existsb (fun x => bytes_eqb x a) al); [|reflexivity].
           exfalso. apply G2. left. now apply E.
    + split.
      * intros H. exists []. split; [reflexivity|]. exists (is_allowlist s). split; [right; split; [reflexivity|intros m []]|].
        right. split; [lia|]. intros [[]|[]].
      * intros (al' & -> & n & [(l1 & l2 & H & _)|[-> _]] & G); [now destruct l1|].
        destruct G as [[G1 [[]|[]]]|[G1 G2]]. lia.
  - rewrite IH. clear IH. destruct p as [[x|]|k]; cbn [set_param fst filter_groups is_allowlist].
    + set (al := match filter_groups s with Some l => l | None => [] end). unfold add_to_originator_list.
      assert (N : forall b, (In b (x :: al) \/ named l b) <-> (In b al \/ named (POriginator (Some x) :: l) b)).
      { intros b. unfold named. cbn [In]. split; intros [H|H]; try tauto.
        - destruct H as [->|H]; tauto.
        - destruct H as [H|H]; [inversion H; tauto|tauto]. }
      split.
      * intros (al' & -> & n & H & G). exists al. split; [reflexivity|]. exists n. split.
        -- destruct H as [(l1 & l2 & -> & H)|[H1 H2]]; [left; exists (POriginator (Some x) :: l1), l2; tauto|right].
           split; [exact H1|]. intros m [H|H]; [discriminate|exact (H2 m H)].
        -- destruct G as [[G1 G2]|[G1 G2]]; [left|right]; (split; [exact G1|]); rewrite <- N; exact G2.
      * intros (al' & -> & n & H & G). exists (x :: al). split; [reflexivity|]. exists n. split.
        -- destruct H as [(l1 & l2 & H0 & H)|[H1 H2]].
           ++ left. destruct l1 as [|y l1]; [discriminate|]. inversion H0; subst. exists l1, l2. tauto.
           ++ right. split; [exact H1|]. intros m H. exact (H2 m (or_intror H)).
        -- destruct G as [[G1 G2]|[G1 G2]]; [left|right]; (split; [exact G1|]); rewrite N; exact G2.
    + assert (N : forall b, named l b <-> named (POriginator None :: l) b).
      { intros b. unfold named. cbn [In]. split; [tauto|]. intros [H|H]; [discriminate|exact H]. }
      split; intros (al' & -> & n & H & G); (eexists; split; [reflexivity|]); exists n.
      * split.
        -- destruct H as [(l1 & l2 & -> & H)|[H1 H2]]; [left; exists (POriginator None :: l1), l2; tauto|right].
           split; [exact H1|]. intros m [H|H]; [discriminate|exact (H2 m H)].
        -- now rewrite <- N.
      * split.
        -- destruct H as [(l1 & l2 & H0 & H)|[H1 H2]].
           ++ left. destruct l1 as [|y l1]; [discriminate|]. inversion H0; subst. exists l1, l2. tauto.
           ++ right. split; [exact H1|]. intros m H. exact (H2 m (or_intror H)).
        -- now rewrite N.
    + assert (N : forall b, named l b <-> named (PAllow k :: l) b).
      { intros b. unfold named. cbn [In]. split; [tauto|]. intros [H|H]; [discriminate|exact H]. }
      split; intros (al' & -> & n & H & G); (eexists; split; [reflexivity|]); exists n.
      * split.
        -- left. destruct H as [(l1 & l2 & -> & H)|[-> H2]]; [exists (PAllow k :: l1), l2; tauto|].
           exists [], l. split; [reflexivity|exact H2].
        -- now rewrite <- N.
      * split.
        -- destruct H as [(l1 & l2 & H0 & H)|[H1 H2]].
           ++ destruct l1 as [|y l1]; inversion H0; subst; [right; tauto|]. left. exists l1, l2. tauto.
           ++ exfalso. exact (H2 k (or_introl eq_refl)).
        -- now rewrite N.
Qed.
Lemma allow_value_iff l n :
  allow_value l n <-> ((exists l1 l2, l = l1 ++ PAllow n :: l2 /\ forall m, ~ In (PAllow m) l2) \/ (n = 0 /\ forall m, ~ In (PAllow m) l)).
Proof.
  split.
  - intros H. inversion H; subst; [right; tauto|]. left. eexists _, _. split; [reflexivity|assumption].
  - intros [(l1 & l2 & -> & H)|[-> H]]; constructor; exact H.
Qed.
Lemma should_filtered l a : should_filter (set_params fgw_start l) a = true <-> filtered l a.
Proof.
  rewrite should_spec. cbn [filter_groups fgw_start is_allowlist]. unfold filtered. split.
  - intros (al & -> & n & H & G). apply allow_value_iff in H. destruct G as [[-> [[]|G]]|[G1 G2]]; [now left|].
    right. exists n. repeat split; try assumption. intros K. apply G2. now right.
  - intros [[H G]|(n & N & H & G)]; exists []; (split; [reflexivity|]).
    + exists 0. split; [now apply allow_value_iff|]. left. tauto.
    + exists n. split; [now apply allow_value_iff|]. right. split; [exact N|]. intros [[]|K]. now apply G.
Qed.

(** * Which announcements *)
Definition isgw (v6 : bool) (e : list Z * list Z) : bool := is_prefix_inetgw v6 (fst e, netmask_to_prefix (snd e)).
Lemma loop_other r : forall acc b, b <> 255 -> netmask_to_prefix_loop (b :: r) acc =
   match last_byte_bits b with Some k => u16 (acc + k) | None => 255 end.
Proof. intros acc b H. cbn [netmask_to_prefix_loop]. now replace (b =? 255) with false by lia. Qed.
Ltac bit_cases b :=
  unfold last_byte_bits;
  destruct (b =? 0) eqn:?; [|destruct (b =? 128) eqn:?; [|destruct (b =? 192) eqn:?; [|destruct (b =? 224) eqn:?; [|destruct (b =? 240) eqn:?;
  [|destruct (b =? 248) eqn:?; [|destruct (b =? 252) eqn:?; [|destruct (b =? 254) eqn:?; [|destruct (b =? 255) eqn:?]]]]]]]].
Lemma plen_min r : forall acc, 0 <= acc <= 128 -> 8 * Z.of_nat (length r) + acc <= 128 ->
  acc <= netmask_to_prefix_loop r acc <= 255.
Proof.
  induction r as [|b r IH]; intros acc H L; cbn [netmask_to_prefix_loop length] in *; [lia|].
  destruct (b =? 255) eqn:E.
  - assert (u16 (acc + 8) = acc + 8) as -> by (unfold u16; lia). specialize (IH (acc + 8) ltac:(lia) ltac:(lia)). lia.
  - bit_cases b; unfold u16; lia.
Qed.
Lemma plen_step r acc : 0 <= acc <= 128 -> 8 * Z.of_nat (length r) + acc <= 128 -> forall k, 0 <= k < 8 -> acc + k <= 128 ->
  netmask_to_prefix_loop r acc = acc + k -> 
  (r = [] /\ k = 0) \/ (exists b r', r = b :: r' /\ last_byte_bits b = Some k /\ b <> 255).
Proof.
  intros H L k K KK E. destruct r as [|b r]; [left; cbn in E; split; [reflexivity|lia]|].
  right. exists b, r. split; [reflexivity|].
  destruct (Z.eq_dec b 255) as [->|N].
  - exfalso. cbn [netmask_to_prefix_loop length] in *. rewrite Z.eqb_refl in E. assert (U : u16 (acc + 8) = acc + 8) by (unfold u16; lia).
    rewrite U in E. pose proof (plen_min r (acc + 8) ltac:(lia) ltac:(lia)). lia.
  - rewrite loop_other in E by exact N. split; [|exact N]. destruct (last_byte_bits b) as [j|] eqn:B; [|lia].
    f_equal. assert (0 <= j <= 8). { revert B. bit_cases b; intros B; inversion B; lia. }
    unfold u16 in E. lia.
Qed.
Lemma bits0 b : last_byte_bits b = Some 0 -> b = 0.
Proof. bit_cases b; intros H; inversion H; lia. Qed.
Lemma bits3 b : last_byte_bits b = Some 3 -> b = 224.
Proof. bit_cases b; intros H; inversion H; lia. Qed.
Lemma isgw4 e : ann_ok false e -> isgw false e = true <-> announces_gateway false e.
Proof.
  destruct e as [net mask]. intros [H1 H2]. cbn [fst snd alen] in *. unfold isgw, is_prefix_inetgw, ip_prefix_is_v4_inetgw, announces_gateway. cbn [fst snd].
  destruct net as [|n0 [|n1 [|n2 [|n3 [|]]]]]; try discriminate. destruct mask as [|m0 mask]; [discriminate|].
  cbn [length] in H2. cbn [memeq ipv4_internet_route fst]. rewrite !andb_true_iff. unfold netmask_to_prefix. split.
  - intros (A & B0 & B1 & B2 & B3 & _). split; [f_equal; [lia|f_equal; [lia|f_equal; [lia|f_equal; lia]]]|]. exists mask. f_equal.
    pose proof (plen_min (m0 :: mask) 0 ltac:(lia) ltac:(cbn [length]; lia)) as P.
    assert (E : netmask_to_prefix_loop (m0 :: mask) 0 = 0 + 0) by (apply Z.eqb_eq in A; unfold u8 in A; lia).
    apply plen_step in E; try (cbn [length]; lia). destruct E as [[E _]|(b & r & E & B & _)]; [discriminate|]. inversion E; subst. now apply bits0.
  - intros [E (r & F)]. inversion E; subst. inversion F; subst. cbn [netmask_to_prefix_loop Z.eqb last_byte_bits]. repeat split; reflexivity.
Qed.
Lemma memeq_len k : forall x y, memeq k x y = true -> (k <= length x)%nat.
Proof. induction k as [|k IH]; intros [|a x] [|b y] H; cbn [memeq length] in *; try lia; try discriminate. apply andb_true_iff in H as [_ H]. apply IH in H. lia. Qed.
Lemma memeq_firstn k : forall x y, (k <= length y)%nat -> memeq k x y = true <-> exists r, x = firstn k y ++ r.
Proof.
  induction k as [|k IH]; intros x y H.
  - cbn [memeq firstn]. split; [intros _; now exists x|reflexivity].
  - destruct y as [|b y]; [cbn [length] in H; lia|]. cbn [length] in H. cbn [firstn]. destruct x as [|a x]; cbn [memeq].
    + split; [discriminate|]. intros [r R]. discriminate.
    + rewrite andb_true_iff, (IH x y) by lia. split.
      * intros [A [r ->]]. apply Z.eqb_eq in A. subst. now exists r.
      * intros [r R]. inversion R; subst. split; [apply Z.eqb_refl|now exists r].
Qed.
Lemma plen96 mask : length mask = 16%nat -> netmask_to_prefix_loop mask 0 = 96 <-> exists r, mask = [255;255;255;255;255;255;255;255;255;255;255;255] ++ 0 :: r.
Proof.
  intros L. split.
  - intros H.
    assert (G : forall k m, (k <= 12)%nat -> (length m + 12 = 16 + k)%nat -> netmask_to_prefix_loop m (96 - 8 * Z.of_nat k) = 96 ->
                exists r, m = repeat 255 k ++ 0 :: r).
    { induction k as [|k IH]; intros m K M E.
      - change (96 - 8 * Z.of_nat 0) with 96 in E. replace 96 with (96 + 0) in E at 2 by lia.
        apply plen_step in E; try lia. destruct E as [[-> _]|(b & r & -> & B & _)]; [cbn in M; lia|]. apply bits0 in B. subst. now exists r.
      - destruct m as [|b m]; [cbn in M; lia|]. cbn [length] in M. destruct (Z.eq_dec b 255) as [->|N].
        + cbn [netmask_to_prefix_loop] in E. rewrite Z.eqb_refl in E.
          assert (U : u16 (96 - 8 * Z.of_nat (S k) + 8) = 96 - 8 * Z.of_nat k) by (unfold u16; lia). rewrite U in E.
          destruct (IH m ltac:(lia) ltac:(lia) E) as [r ->]. now exists r.
        + exfalso. rewrite loop_other in E by exact N. destruct (last_byte_bits b) as [j|] eqn:B; [|lia].
          assert (0 <= j <= 8 /\ (j = 8 -> b = 255)). { revert B. bit_cases b; intros B; inversion B; lia. }
          unfold u16 in E. lia. }
    apply (G 12%nat); [lia|lia|exact H].
  - intros [r ->]. reflexivity.
Qed.
Lemma isgw6 e : ann_ok true e -> isgw true e = true <-> announces_gateway true e.
Proof.
  destruct e as [net mask]. intros [H1 H2]. cbn [fst snd alen] in *.
  unfold isgw, is_prefix_inetgw, ip_prefix_is_v6_inetgw, ip_prefix_is_mappedv4_inetgw, announces_gateway. cbn [fst snd].
  pose proof (plen_min mask 0 ltac:(lia) ltac:(lia)) as P.
  rewrite orb_true_iff, !andb_true_iff. change (Z.to_nat (96 / 8)) with 12%nat. change (Z.to_nat (3 / 8)) with 0%nat.
  unfold netmask_to_prefix. rewrite (memeq_firstn 12 net) by (cbn; lia).
  change (firstn 12 (fst ipv6_mappedv4_route)) with [0;0;0;0;0;0;0;0;0;0;255;255].
  assert (U : u8 (netmask_to_prefix_loop mask 0) = netmask_to_prefix_loop mask 0) by (unfold u8; lia). rewrite U. clear U.
  pose proof (plen96 mask H2) as G. rewrite !Z.eqb_eq. split.
  - intros [[A _]|[A B]].
    + left. replace 3 with (0 + 3) in A by lia. apply plen_step in A; try lia. destruct A as [[_ A]|(b & r & -> & B & _)]; [lia|].
      apply bits3 in B. subst. now exists r.
    + right. split; [exact B|]. now apply G.
  - intros [[r ->]|[A B]]; [left|right].
    + split; [reflexivity|now destruct net].
    + split; [now apply G|exact A].
Qed.
Lemma isgw_spec v6 e : ann_ok v6 e -> isgw v6 e = true <-> announces_gateway v6 e.
Proof. destruct v6; [apply isgw6|apply isgw4]. Qed.
Lemma without_filter v6 es : Forall (ann_ok v6) es -> forall es', without (announces_gateway v6) es es' <-> es' = filter (fun e => negb (isgw v6 e)) es.
Proof.
  induction es as [|e es IH]; intros F es'.
  - split; [intros H; now inversion H|intros ->; constructor].
  - inversion F as [|? ? F1 F2]; subst. specialize (IH F2). cbn [filter]. pose proof (isgw_spec v6 e F1) as G. split.
    + intros H. inversion H as [|? ? ? A B|? ? ? A B]; subst.
      * apply G in A. rewrite A. cbn [negb]. now apply IH.
      * destruct (isgw v6 e); [exfalso; apply A; now apply G|]. cbn [negb]. f_equal. now apply IH.
    + intros ->. destruct (isgw v6 e) eqn:E; cbn [negb].
      * apply w_drop; [now apply G|now apply IH].
      * apply w_keep; [intros K; apply G in K; discriminate|now apply IH].
Qed.

(** * The loop *)
Definition ent (es : list (list Z * list Z)) : list Z := flat_map (fun e => fst e ++ snd e) es.
Lemma ent_len v6 es : Forall (ann_ok v6) es -> blen (ent es) = 2 * Z.of_nat (alen v6) * Z.of_nat (length es).
Proof.
  intros F. induction F as [|e es [E1 E2] F IH]; [cbn; lia|]. cbn [ent flat_map length]. fold (ent es). rewrite !blen_app, IH. unfold blen. lia.
Qed.
Lemma move_at h g m r d f n : d = blen h -> f = blen h + blen g -> n = blen m ->
  move (h ++ g ++ m ++ r) d f n = Some (h ++ m ++ skipn (length m) (g ++ m) ++ r).
Proof.
  intros -> -> ->. unfold move.
  replace (h ++ g ++ m ++ r) with ((h ++ g) ++ m ++ r) at 1 by now rewrite <- !app_assoc.
  rewrite rdn_at by (rewrite ?blen_app; reflexivity). cbn [bind].
  pose proof (blen_nonneg h). pose proof (blen_nonneg g). pose proof (blen_nonneg r). pose proof (blen_nonneg m).
  rewrite !blen_app. replace ((0 <=? blen h) && (blen h + blen m <=? blen h + (blen g + (blen m + blen r)))) with true by lia.
  f_equal. unfold blen. rewrite <- Nat2Z.inj_add, !Nat2Z.id. f_equal.
  - rewrite firstn_app, firstn_all, Nat.sub_diag. cbn [firstn]. apply app_nil_r.
  - f_equal. rewrite skipn_app. rewrite skipn_all2 by lia. cbn [app]. replace (length h + length m - length h)%nat with (length m) by lia.
    rewrite app_assoc, skipn_app. rewrite app_length. replace (length m - (length g + length m))%nat with 0%nat by lia. reflexivity.
Qed.
Lemma put_at a b c d t v : put_u16 (a :: b :: c :: d :: t) 2 v = Some (a :: b :: u16 v / 256 :: u16 v mod 256 :: t).
Proof.
  unfold put_u16. replace ((0 <=? 2) && (2 + 2 <=? blen (a :: b :: c :: d :: t))) with true; [reflexivity|].
  unfold blen. cbn [length]. lia.
Qed.
Lemma last_cons {A} (x y : A) l d : last (x :: y :: l) d = last (y :: l) d. Proof. reflexivity. Qed.
Lemma loop_spec v6 es : Forall (ann_ok v6) es -> forall fuel a b t rest k,
  let ip := Z.of_nat (alen v6) in
  let sz := wire_size v6 (k + length es) in
  let kept := filter (fun e => negb (isgw v6 e)) es in
  (length es <= fuel)%nat -> sz < 65536 -> blen t = 4 + ip + 2 * ip * Z.of_nat k ->
  exists junk, 
  filter_loop fuel v6 ip ([a; b; sz / 256; sz mod 256] ++ t ++ ent es ++ rest) (4 + blen t) (4 + blen t) sz (sz - 8 - ip) sz =
    (if Nat.eqb (k + length kept) 0 && negb (Nat.eqb (length es) 0) then
       Some ([a; b; wire_size v6 1 / 256; wire_size v6 1 mod 256] ++ t ++ ent [last es ([], [])] ++ junk ++ rest, false)
     else Some ([a; b; wire_size v6 (k + length kept) / 256; wire_size v6 (k + length kept) mod 256] ++ t ++ ent kept ++ junk ++ rest, true))
  /\ blen junk = 2 * ip * (Z.of_nat (length es) - (if Nat.eqb (k + length kept) 0 && negb (Nat.eqb (length es) 0) then 1 else Z.of_nat (length kept))).
Proof.
  intros F. induction F as [|e es E F IH]; intros fuel a b t rest k ip sz kept Fu SZ T.
  - subst kept. cbn [filter length] in *. rewrite Nat.eqb_refl. cbn [negb]. rewrite andb_false_r. exists []. split; [|cbn; lia].
    cbn [ent flat_map app]. assert (sz = 4 + blen t) by (subst sz; unfold wire_size; fold ip; lia).
    destruct fuel; cbn [filter_loop]; replace (4 + blen t <? sz) with false by lia; reflexivity.
  - cbn [length] in Fu. destruct fuel as [|fuel]; [lia|].
    assert (IPv : ip = 4 \/ ip = 16) by (subst ip; destruct v6; cbn; lia).
    destruct e as [net mask]. destruct E as [E1 E2]. cbn [fst snd] in E1, E2.
    assert (SZv : sz = 4 + blen t + 2 * ip * Z.of_nat (S (length es))) by (subst sz; unfold wire_size; cbn [length]; fold ip; lia).
    set (B := [a; b; sz / 256; sz mod 256] ++ t ++ ent ((net, mask) :: es) ++ rest).
    assert (R1 : rdn B (4 + blen t) ip = Some net).
    { subst B. replace ([a; b; sz / 256; sz mod 256] ++ t ++ ent ((net, mask) :: es) ++ rest) with
        (([a; b; sz / 256; sz mod 256] ++ t) ++ net ++ (mask ++ ent es ++ rest)).
      - apply rdn_at; [rewrite blen_app; reflexivity|unfold blen; rewrite E1; reflexivity].
      - cbn [ent flat_map fst snd]. fold (ent es). rewrite <- !app_assoc. reflexivity. }
    assert (R2 : rdn B (4 + blen t + ip) ip = Some mask).
    { subst B. replace ([a; b; sz / 256; sz mod 256] ++ t ++ ent ((net, mask) :: es) ++ rest) with
        (([a; b; sz / 256; sz mod 256] ++ t ++ net) ++ mask ++ (ent es ++ rest)).
      - apply rdn_at; [rewrite !blen_app; unfold blen at 2 4; cbn [length]; unfold blen; rewrite E1; fold ip; lia|unfold blen; rewrite E2; reflexivity].
      - cbn [ent flat_map fst snd]. fold (ent es). rewrite <- !app_assoc. reflexivity. }
    cbn [filter_loop]. replace (4 + blen t <? sz) with true by lia. rewrite R1, R2. cbn [bind].
    change (is_prefix_inetgw v6 (net, netmask_to_prefix mask)) with (isgw v6 (net, mask)).
    subst kept. cbn [filter length]. replace (Nat.eqb (S (length es)) 0) with false by reflexivity. cbn [negb]. rewrite andb_true_r.
    destruct (isgw v6 (net, mask)) eqn:G; cbn [negb].
    + set (kept := filter (fun e => negb (isgw v6 e)) es) in *.
      destruct (0 <? sz - 8 - ip - 2 * ip) eqn:Pos.
      * subst B. cbn [ent flat_map fst snd]. fold (ent es).
        assert (EL := ent_len v6 es F). fold ip in EL.
        replace ([a; b; sz / 256; sz mod 256] ++ t ++ ((net ++ mask) ++ ent es) ++ rest) with
          (([a; b; sz / 256; sz mod 256] ++ t) ++ (net ++ mask) ++ ent es ++ rest) by (rewrite <- !app_assoc; reflexivity).
        assert (L2 : blen (net ++ mask) = 2 * ip) by (rewrite blen_app; unfold blen; rewrite E1, E2; fold ip; lia).
        assert (L1 : blen ([a; b; sz / 256; sz mod 256] ++ t) = 4 + blen t) by (rewrite blen_app; reflexivity).
        rewrite move_at by (rewrite ?L1, ?L2, ?EL; lia). cbn [bind].
        set (j1 := skipn (length (ent es)) ((net ++ mask) ++ ent es)).
        assert (J1 : blen j1 = 2 * ip).
        { subst j1. unfold blen in *. rewrite skipn_length. rewrite !app_length in *. lia. }
        cbn [app]. rewrite put_at. cbn [bind].
        assert (SZ' : u16 (sz - 2 * ip) = wire_size v6 (k + length es)).
        { assert (W : wire_size v6 (k + length es) = sz - 2 * ip) by (unfold wire_size; subst sz; unfold wire_size; cbn [length]; fold ip; lia).
          rewrite W. pose proof (blen_nonneg t). unfold u16. destruct IPv as [I|I]; rewrite I in *; lia. }
        rewrite SZ'. set (sz' := wire_size v6 (k + length es)) in *.
        assert (SZ0 : 0 <= sz') by (unfold sz', wire_size; lia).
        assert (Sd : sz' = sz - 2 * ip) by (unfold sz', wire_size; subst sz; unfold wire_size; cbn [length]; fold ip; lia).
        replace (u16 sz') with sz' by (unfold u16; lia).
        specialize (IH fuel a b t (j1 ++ rest) k ltac:(lia) ltac:(fold sz'; lia) T). fold ip in IH. fold sz' in IH. fold kept in IH.
        destruct IH as (junk & IH & JL). cbn [app] in IH.
        replace (sz - 2 * ip) with sz' by lia. replace (sz - 8 - ip - 2 * ip) with (sz' - 8 - ip) by lia.
        exists (junk ++ j1). rewrite <- !app_assoc. rewrite IH.
        destruct (Nat.eqb (k + length kept) 0) eqn:K0; cbn [andb] in *.
        -- destruct (Nat.eqb (length es) 0) eqn:L0; cbn [negb] in *.
           ++ (* es = [] and k = 0 contradicts Pos *) exfalso. apply Nat.eqb_eq in K0, L0. unfold sz', wire_size in Sd. fold ip in Sd. lia.
           ++ split; [|rewrite blen_app; lia]. destruct es as [|e2 es]; [discriminate|]. rewrite last_cons. cbn [ent flat_map]. rewrite <- !app_assoc. reflexivity.
        -- split; [reflexivity|rewrite blen_app; lia].
      * assert (K : k = 0%nat /\ es = []).
        { clearbody sz ip. destruct k as [|k]; [|exfalso; destruct IPv; subst ip; lia].
          split; [reflexivity|]. destruct es; [reflexivity|]. exfalso. cbn [length] in SZv. destruct IPv; subst ip; lia. }
        destruct K as [-> ->]. subst kept. cbn [filter length Nat.add Nat.eqb]. exists []. split; [|cbn; lia].
        cbn [last]. subst B. cbn [app]. reflexivity.
    + set (kept := filter (fun e => negb (isgw v6 e)) es) in *. cbn [length].
      replace (Nat.eqb (k + S (length kept)) 0) with false by (symmetry; apply Nat.eqb_neq; lia).
      assert (L2 : blen (net ++ mask) = 2 * ip) by (rewrite blen_app; unfold blen; rewrite E1, E2; fold ip; lia).
      specialize (IH fuel a b (t ++ net ++ mask) rest (S k) ltac:(lia)).
      assert (Ws : wire_size v6 (S k + length es) = sz) by (subst sz; unfold wire_size; cbn [length]; lia).
      rewrite Ws in IH. specialize (IH SZ). fold ip in IH. fold kept in IH.
      rewrite blen_app, L2 in IH. specialize (IH ltac:(lia)). destruct IH as (junk & IH & JL). exists junk.
      replace (4 + (blen t + 2 * ip)) with (4 + blen t + 2 * ip) in IH by lia.
      subst B. cbn [ent flat_map fst snd]. fold (ent es) (ent kept).
      replace (Nat.eqb (S k + length kept) 0) with false in IH, JL by reflexivity. cbn [andb] in IH, JL.
      replace (S k + length kept)%nat with (k + S (length kept))%nat in IH by lia.
      split; [|lia].
      rewrite <- !app_assoc in IH. rewrite <- !app_assoc. exact IH.
Qed.

Lemma rd_head v6 h es rest : head_ok v6 h -> wire_size v6 (length es) < 65536 ->
  let b := hna_wire v6 h es ++ rest in
  rd8 b 0 = Some 4 /\ (exists x, rd8 b 1 = Some x) /\ rd16 b 2 = Some (wire_size v6 (length es)) /\ rdn b 4 (Z.of_nat (alen v6)) = Some (o_orig h).
Proof.
  intros [H1 H2] SZ b. set (sz := wire_size v6 (length es)) in *.
  assert (B : b = [4; o_vtime h; sz / 256; sz mod 256] ++ o_orig h ++ ([o_ttl h; o_hops h] ++ o_seq h ++ ent es) ++ rest).
  { subst b. unfold hna_wire. fold sz. fold (ent es). rewrite <- !app_assoc. reflexivity. }
  assert (L : 4 <= blen b) by (rewrite B; rewrite blen_app; pose proof (blen_nonneg (o_orig h ++ ([o_ttl h; o_hops h] ++ o_seq h ++ ent es) ++ rest)); unfold blen at 1; cbn [length]; lia).
  repeat split.
  - unfold rd8. rewrite rdn_some by lia. rewrite B. reflexivity.
  - exists (o_vtime h). unfold rd8. rewrite rdn_some by lia. rewrite B. reflexivity.
  - unfold rd16. rewrite rdn_some by lia. rewrite B. cbn [option_map]. f_equal. transitivity (be [sz / 256; sz mod 256]); [reflexivity|]. unfold be. cbn [fold_left].
    assert (0 <= sz) by (unfold sz, wire_size; lia). lia.
  - rewrite B. apply rdn_at; [reflexivity|]. unfold blen. now rewrite H1.
Qed.
Lemma parser_spec l v6 h es rest : head_ok v6 h -> Forall (ann_ok v6) es -> wire_size v6 (length es) < 65536 -> filtered l (o_orig h) ->
  let kept := filter (fun e => negb (isgw v6 e)) es in
  exists junk, filtergw_parser (set_params fgw_start l) v6 (hna_wire v6 h es ++ rest) =
    (if Nat.eqb (length kept) 0 && negb (Nat.eqb (length es) 0) then Some (hna_wire v6 h [last es ([], [])] ++ junk ++ rest, false)
     else Some (hna_wire v6 h kept ++ junk ++ rest, true)) /\
   blen junk = 2 * Z.of_nat (alen v6) * (Z.of_nat (length es) - (if Nat.eqb (length kept) 0 && negb (Nat.eqb (length es) 0) then 1 else Z.of_nat (length kept))).
Proof.
  intros HO F SZ FI kept. destruct (rd_head v6 h es rest HO SZ) as (R0 & (x & R1) & R2 & R3).
  unfold filtergw_parser. replace (if v6 then 16 else 4) with (Z.of_nat (alen v6)) by (now destruct v6).
  rewrite R0. cbn [bind]. change (negb (4 =? HNA_MESSAGE)) with false. cbn [negb].
  rewrite R1, R2. cbn [bind]. rewrite R3. cbn [bind].
  apply should_filtered in FI. rewrite FI. cbn [negb].
  set (sz := wire_size v6 (length es)) in *. set (ip := Z.of_nat (alen v6)).
  assert (IPv : ip = 4 \/ ip = 16) by (subst ip; destruct v6; cbn; lia).
  assert (M : (sz - 8 - ip) mod (2 * ip) = 0).
  { subst sz. unfold wire_size. fold ip. replace (8 + ip + 2 * ip * Z.of_nat (length es) - 8 - ip) with (Z.of_nat (length es) * (2 * ip)) by lia. apply Z.mod_mul. lia. }
  rewrite M. cbn [Z.eqb negb].
  set (t := o_orig h ++ [o_ttl h; o_hops h] ++ o_seq h).
  assert (TL : blen t = 4 + ip). { subst t. destruct HO as [H1 H2]. rewrite !blen_app. unfold blen. rewrite H1, H2. cbn [length]. fold ip. lia. }
  destruct (loop_spec v6 es F (Z.to_nat sz) 4 (o_vtime h) t rest 0 ltac:(subst sz; unfold wire_size; lia) SZ ltac:(fold ip; lia)) as (junk & L & J).
  fold ip in L, J. cbn [Nat.add] in L, J. fold sz kept in L, J. exists junk. split; [|exact J].
  replace (8 + ip) with (4 + blen t) by lia.
  replace (hna_wire v6 h es ++ rest) with ([4; o_vtime h; sz / 256; sz mod 256] ++ t ++ ent es ++ rest).
  - rewrite L. subst t. unfold hna_wire. destruct (Nat.eqb (length kept) 0 && negb (Nat.eqb (length es) 0)).
    + do 2 f_equal. cbn [length]. fold (ent [last es ([], [])]). rewrite <- !app_assoc. reflexivity.
    + do 2 f_equal. fold (ent kept). rewrite <- !app_assoc. reflexivity.
  - subst t. unfold hna_wire. fold sz. fold (ent es). rewrite <- !app_assoc. reflexivity.
Qed.

(** * Any buffer *)
Lemma move_some b d f n : 0 <= d -> d + n <= blen b -> 0 <= f -> 0 <= n -> f + n <= blen b -> exists b', move b d f n = Some b' /\ blen b' = blen b.
Proof.
  intros. unfold move. rewrite rdn_some by lia. cbn [bind]. replace ((0 <=? d) && (d + n <=? blen b)) with true by lia.
  eexists. split; [reflexivity|]. rewrite !blen_app, slice_length by lia. unfold blen in *. rewrite firstn_length, skipn_length. lia.
Qed.
Lemma put_some b v : 4 <= blen b -> exists b', put_u16 b 2 v = Some b' /\ blen b' = blen b.
Proof.
  intros. unfold put_u16. replace ((0 <=? 2) && (2 + 2 <=? blen b)) with true by lia. eexists. split; [reflexivity|].
  rewrite !blen_app. unfold blen in *. rewrite firstn_length, skipn_length. cbn [length]. lia.
Qed.
Lemma loop_safe v6 ip : ip = 4 \/ ip = 16 -> forall fuel b curr fin hs ms q,
  8 <= curr -> fin <= blen b -> fin - curr = q * (2 * ip) -> fin - curr <= Z.of_nat fuel -> 4 <= blen b ->
  exists b' r, filter_loop fuel v6 ip b curr curr fin hs ms = Some (b', r) /\ blen b' = blen b.
Proof.
  intros IP. induction fuel as [|fuel IH]; intros b curr fin hs ms q C Fi Q Fu B4; cbn [filter_loop].
  - destruct (curr <? fin) eqn:E; [lia|]. now exists b, true.
  - destruct (curr <? fin) eqn:E; [|now exists b, true].
    assert (1 <= q) by (destruct IP; subst; lia). assert (2 * ip <= q * (2 * ip)) by (destruct IP; subst; lia).
    rewrite !rdn_some by lia. cbn [bind].
    destruct (is_prefix_inetgw v6 _).
    + destruct (0 <? hs - 2 * ip); [|now exists b, false].
      destruct (move_some b curr (curr + 2 * ip) (fin - (curr + 2 * ip)) ltac:(lia) ltac:(lia) ltac:(lia) ltac:(lia) ltac:(lia)) as (b1 & -> & L1).
      cbn [bind]. destruct (put_some b1 (u16 (ms - 2 * ip)) ltac:(lia)) as (b2 & -> & L2). cbn [bind].
      destruct (IH b2 curr (fin - 2 * ip) (hs - 2 * ip) (u16 (ms - 2 * ip)) (q - 1) C ltac:(lia) ltac:(lia) ltac:(lia) ltac:(lia)) as (b' & r & -> & L).
      exists b', r. split; [reflexivity|lia].
    + apply (IH b (curr + 2 * ip) fin hs ms (q - 1)); lia.
Qed.
Lemma rd8_some b i : 0 <= i -> i + 1 <= blen b -> exists x, rd8 b i = Some x.
Proof. intros. unfold rd8. rewrite rdn_some by lia. cbn [option_map]. now eexists. Qed.
Lemma parser_safe s (v6 : bool) b sz : rd16 b 2 = Some sz -> sz <= blen b -> 8 + (if v6 then 16 else 4) <= blen b -> 
  exists b' r, filtergw_parser s v6 b = Some (b', r) /\ blen b' = blen b.
Proof.
  intros R Sz B. unfold filtergw_parser. set (ip := if v6 then 16 else 4) in *.
  assert (IP : ip = 4 \/ ip = 16) by (subst ip; destruct v6; lia).
  destruct (rd8_some b 0 ltac:(lia) ltac:(lia)) as (ty & ->). cbn [bind].
  destruct (negb (ty =? HNA_MESSAGE)); [now exists b, false|].
  destruct (rd8_some b 1 ltac:(lia) ltac:(lia)) as (x & ->). cbn [bind]. rewrite R. cbn [bind].
  rewrite rdn_some by lia. cbn [bind]. destruct (negb (should_filter s (slice b 4 ip))); [now exists b, true|].
  destruct ((sz - 8 - ip) mod (2 * ip) =? 0) eqn:M; cbn [negb]; [|now exists b, false].
  apply Z.eqb_eq in M. apply Z.mod_divide in M; [|lia]. destruct M as [q M].
  destruct (Z_lt_le_dec sz (8 + ip)) as [N|N].
  - exists b, true. split; [|reflexivity]. destruct (Z.to_nat sz) as [|f]; cbn [filter_loop]; replace (8 + ip <? sz) with false by lia; reflexivity.
  - apply (loop_safe v6 ip IP _ b (8 + ip) sz (sz - 8 - ip) sz q); lia.
Qed.

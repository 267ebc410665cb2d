(** Reading what zebra sends. *)
From Verif Require Import Base Bytes Quagga QuaggaSpec.

Ltac inv H := inversion H; subst; clear H.

(** The buffer from position [i] on is [l]. *)
Definition here (b : list Z) (i : Z) (l : list Z) : Prop := exists pre, b = pre ++ l /\ i = blen pre.

Lemma here_rdn b i x l n : here b i (x ++ l) -> n = blen x -> rdn b i n = Some x /\ here b (i + n) l.
Proof.
  intros (pre & -> & ->) ->. split.
  - apply rdn_at; reflexivity.
  - exists (pre ++ x). rewrite <- app_assoc, blen_app. split; reflexivity.
Qed.
Lemma here_rd8 b i x l : here b i (x :: l) -> rd8 b i = Some x /\ here b (i + 1) l.
Proof.
  intros H. destruct (here_rdn b i [x] l 1 H eq_refl) as [E H']. split; [|exact H'].
  unfold rd8. rewrite E. cbn [option_map]. f_equal. 
Qed.
Lemma here_rd32 b i v l : here b i (enc32 v ++ l) -> 0 <= v < 4294967296 -> rd32 b i = Some v /\ here b (i + 4) l.
Proof.
  intros H R. destruct (here_rdn b i (enc32 v) l 4 H eq_refl) as [E H']. split; [|exact H'].
  unfold rd32. rewrite E. cbn [option_map]. f_equal. unfold be, enc32. cbn [fold_left]. lia.
Qed.
Lemma here_rd16 b i v l : here b i (enc16 v ++ l) -> 0 <= v < 65536 -> rd16 b i = Some v /\ here b (i + 2) l.
Proof.
  intros H R. destruct (here_rdn b i (enc16 v) l 2 H eq_refl) as [E H']. split; [|exact H'].
  unfold rd16. rewrite E. cbn [option_map]. f_equal. unfold be, enc16. cbn [fold_left]. lia.
Qed.

Lemma parse_hops_ok v6 b : forall hs i l,
  here b i (concat hs ++ l) -> Forall (fun a => length a = width v6 /\ Forall byte a) hs ->
  exists hs' j, parse_hops v6 (length hs) b i = ZOk (hs', j) /\ j = i + blen (concat hs) /\ hs' = map pad16 hs /\ here b j l.
Proof.
  induction hs as [|a hs IH]; intros i l H F.
  - exists [], i. cbn. repeat split; try exact H. cbn in *. lia.
  - inversion F as [|? ? [La Fa] F']; subst. cbn [concat] in H. rewrite <- app_assoc in H.
    assert (A : alen v6 = blen a) by (unfold alen, blen; rewrite La; destruct v6; reflexivity).
    destruct (here_rdn b i a (concat hs ++ l) (alen v6) H A) as [E H'].
    destruct (IH _ _ H' F') as (hs' & j & E2 & J & M & H2).
    exists (pad16 a :: hs'), j. cbn [parse_hops length]. rewrite E. cbn [zrd zbind]. rewrite E2. cbn [zbind fst snd].
    repeat split; [|cbn [concat]; rewrite blen_app; lia|now rewrite M|exact H2].
    f_equal. f_equal. f_equal. unfold pad16. f_equal. f_equal. rewrite La. destruct v6; reflexivity.
Qed.

Lemma parse_ifs_ok b : forall xs i l,
  here b i (concat (map enc32 xs) ++ l) -> Forall (fun x => 0 <= x < 4294967296) xs ->
  exists j, parse_ifs (length xs) b i = ZOk (xs, j) /\ j = i + blen (concat (map enc32 xs)) /\ here b j l.
Proof.
  induction xs as [|x xs IH]; intros i l H F.
  - exists i. cbn. repeat split; try exact H. lia.
  - inversion F as [|? ? Fx F']; subst. cbn [map concat] in H. rewrite <- app_assoc in H.
    destruct (here_rd32 b i x _ H Fx) as [E H'].
    destruct (IH _ _ H' F') as (j & E2 & J & H2).
    exists j. cbn [parse_ifs length]. rewrite E. cbn [zrd zbind]. rewrite E2. cbn [zbind fst snd].
    repeat split; [|exact H2]. cbn [map concat]. rewrite blen_app. change (blen (enc32 x)) with 4. lia.
Qed.

Lemma parse_prefix_ok b i l net plen :
  here b i (net ++ l) -> blen net = (plen + 7) / 8 -> 0 <= plen <= 128 ->
  parse_prefix b i plen = ZOk (pad16 net, i + blen net) /\ here b (i + blen net) l.
Proof.
  intros H L R. destruct (here_rdn b i net l (blen net) H eq_refl) as [E H']. split; [|exact H'].
  unfold parse_prefix. rewrite <- L. rewrite E. replace (blen net >? 16) with false by lia. cbn [zrd zbind].
  f_equal. f_equal. unfold pad16. f_equal. f_equal. unfold blen. lia.
Qed.

(** the bits of the message byte *)
Lemma msg_bits {A B} (h : option A) (x : option B) (d m : option Z) :
  let v := bit h 1 + bit x 2 + bit d 4 + bit m 8 in
  zbit v ZAPI_NEXTHOP = (if h then true else false) /\ zbit v ZAPI_IFINDEX = (if x then true else false) /\
  zbit v ZAPI_DISTANCE = (if d then true else false) /\ zbit v ZAPI_METRIC = (if m then true else false).
Proof. destruct h, x, d, m; vm_compute; repeat split. Qed.

(** What is to be read. *)
Definition in_route (i : zin) : zroute :=
  mkZr (in_type i) (in_flags i) (bit (in_hops i) 1 + bit (in_ifs i) 2 + bit (in_dist i) 4 + bit (in_metric i) 8) 0 (in_plen i)
    (pad16 (in_net i)) (match in_hops i with Some l => map pad16 l | None => [] end)
    (match in_ifs i with Some l => l | None => [] end)
    (match in_metric i with Some m => m | None => 0 end) (match in_dist i with Some d => d | None => 0 end).

Definition version_ok (v : Z) : Prop := v = 0 \/ v = 1 \/ v = 2.

Lemma enc_cmd_len v cmd : version_ok v -> blen (enc_cmd v cmd) = if v =? 0 then 1 else 4.
Proof. intros [-> | [-> | ->]]; reflexivity. Qed.

Lemma here_skip b i x l : here b i (x ++ l) -> here b (i + blen x) l.
Proof. intros H. exact (proj2 (here_rdn b i x l (blen x) H eq_refl)). Qed.

Lemma opt_hops v6 b hs i l :
  here b i (opt hs (fun l => Z.of_nat (length l) :: concat l) ++ l) ->
  (forall l, hs = Some l -> (length l < 256)%nat /\ Forall (fun a => length a = width v6 /\ Forall byte a) l) ->
  exists j, (if (if hs then true else false) then zbind (zrd (rd8 b i)) (fun n => parse_hops v6 (Z.to_nat n) b (i + 1)) else ZOk ([], i))
     = ZOk (match hs with Some l => map pad16 l | None => [] end, j) /\
   j = i + blen (opt hs (fun l => Z.of_nat (length l) :: concat l)) /\ here b j l.
Proof.
  intros H F. destruct hs as [hs|]; cbn [opt] in *.
  - destruct (F hs eq_refl) as [L F']. cbn [app] in H. destruct (here_rd8 _ _ _ _ H) as [E H'].
    destruct (parse_hops_ok v6 b hs _ l H' F') as (hs' & j & E2 & J & M & H2).
    exists j. rewrite E. cbn [zrd zbind]. rewrite Nat2Z.id, E2, M. repeat split; [|exact H2].
    rewrite J. change (Z.of_nat (length hs) :: concat hs) with ([Z.of_nat (length hs)] ++ concat hs). rewrite blen_app. unfold blen at 2. cbn [length]. lia.
  - exists i. repeat split; [unfold blen; cbn; lia|exact H].
Qed.
Lemma opt_ifs b xs i l :
  here b i (opt xs (fun l => Z.of_nat (length l) :: concat (map enc32 l)) ++ l) ->
  (forall l, xs = Some l -> (length l < 256)%nat /\ Forall (fun x => 0 <= x < 4294967296) l) ->
  exists j, (if (if xs then true else false) then zbind (zrd (rd8 b i)) (fun n => parse_ifs (Z.to_nat n) b (i + 1)) else ZOk ([], i))
     = ZOk (match xs with Some l => l | None => [] end, j) /\
   j = i + blen (opt xs (fun l => Z.of_nat (length l) :: concat (map enc32 l))) /\ here b j l.
Proof.
  intros H F. destruct xs as [xs|]; cbn [opt] in *.
  - destruct (F xs eq_refl) as [L F']. cbn [app] in H. destruct (here_rd8 _ _ _ _ H) as [E H'].
    destruct (parse_ifs_ok b xs _ l H' F') as (j & E2 & J & H2).
    exists j. rewrite E. cbn [zrd zbind]. rewrite Nat2Z.id, E2. repeat split; [|exact H2].
    rewrite J. change (Z.of_nat (length xs) :: concat (map enc32 xs)) with ([Z.of_nat (length xs)] ++ concat (map enc32 xs)). rewrite blen_app. unfold blen at 2. cbn [length]. lia.
  - exists i. repeat split; [unfold blen; cbn; lia|exact H].
Qed.
Lemma opt_dist b d i l :
  here b i (opt d (fun d => [d]) ++ l) ->
  exists j, (if (if d then true else false) then zbind (zrd (rd8 b i)) (fun d => ZOk (d, i + 1)) else ZOk (0, i))
     = ZOk (match d with Some d => d | None => 0 end, j) /\ j = i + blen (opt d (fun d => [d])) /\ here b j l.
Proof.
  intros H. destruct d as [d|]; cbn [opt] in *.
  - destruct (here_rd8 _ _ _ _ H) as [E H']. exists (i + 1). rewrite E. repeat split. exact H'.
  - exists i. repeat split; [unfold blen; cbn; lia|exact H].
Qed.
Lemma opt_met v b m i l : version_ok v ->
  here b i (match m with Some m => enc32 m | None => if v =? 0 then [0; 0; 0; 0] else [] end ++ l) ->
  (forall x, m = Some x -> 0 <= x < 4294967296) ->
  exists j, (if (if m then true else false) || (v =? 0) then zbind (zrd (rd32 b i)) (fun m => ZOk (m, i + 4)) else ZOk (0, i))
     = ZOk (match m with Some m => m | None => 0 end, j) /\
   j = i + blen (match m with Some m => enc32 m | None => if v =? 0 then [0; 0; 0; 0] else [] end) /\ here b j l.
Proof.
  intros V H R. destruct m as [m|].
  - destruct (here_rd32 _ _ _ _ H (R m eq_refl)) as [E H']. exists (i + 4). rewrite E. repeat split. exact H'.
  - cbn [orb]. destruct (v =? 0) eqn:E0.
    + destruct (here_rd32 b i 0 l) as [E H']; [exact H|lia|]. exists (i + 4). rewrite E. repeat split. exact H'.
    + exists i. repeat split; [unfold blen; cbn; lia|exact H].
Qed.

Lemma parse_route_ok c b o i l cmd : version_ok (z_version c) -> zin_ok (z_v6 c) i ->
  let m := enc_cmd (z_version c) cmd ++ enc_route (z_version c) i in
  2 + blen m < 65536 ->
  here b o (enc16 (2 + blen m) ++ m ++ l) -> zparse_route c b o = ZOk (in_route i).
Proof.
  intros V (T & Fl & P & LN & BN & HO & IF & DI & ME) m LM H. unfold zparse_route.
  pose proof (blen_nonneg m) as NM.
  destruct (here_rd16 b o (2 + blen m) _ H ltac:(lia)) as [E1 H1]. rewrite E1. cbn [zrd zbind].
  assert (HV : negb ((z_version c =? 0) || (z_version c =? 1) || (z_version c =? 2)) = false) by (destruct V as [-> | [-> | ->]]; reflexivity).
  rewrite HV. cbv zeta.
  unfold m in H1 at 1. rewrite <- app_assoc in H1. apply here_skip in H1. rewrite enc_cmd_len in H1 by exact V.
  set (i0 := o + (if z_version c =? 0 then 3 else 6)).
  replace (o + 2 + (if z_version c =? 0 then 1 else 4)) with i0 in H1 by (unfold i0; destruct (z_version c =? 0); lia).
  unfold enc_route in H1. cbn [app] in H1.
  destruct (here_rd8 _ _ _ _ H1) as [E2 H2]. rewrite E2. cbn [zrd zbind].
  destruct (here_rd8 _ _ _ _ H2) as [E3 H3]. rewrite E3. cbn [zrd zbind].
  destruct (here_rd8 _ _ _ _ H3) as [E4 H4]. replace (i0 + 1 + 1) with (i0 + 2) in * by lia. rewrite E4. cbn [zrd zbind].
  destruct (here_rd8 _ _ _ _ H4) as [E5 H5]. replace (i0 + 2 + 1) with (i0 + 3) in * by lia. rewrite E5. cbn [zrd zbind].
  replace (i0 + 3 + 1) with (i0 + 4) in * by lia.
  rewrite <- !app_assoc in H5.
  destruct (parse_prefix_ok b (i0 + 4) _ (in_net i) (in_plen i) H5 LN) as [E6 H6]; [unfold width in P; destruct (z_v6 c); lia|].
  rewrite E6. cbn [zbind fst snd].
  destruct (msg_bits (in_hops i) (in_ifs i) (in_dist i) (in_metric i)) as (B1 & B2 & B3 & B4). cbv zeta in B1, B2, B3, B4.
  rewrite B1, B2, B3, B4.
  destruct (opt_hops (z_v6 c) b _ _ _ H6 HO) as (j1 & X1 & J1 & H7). rewrite X1. cbn [zbind fst snd].
  destruct (opt_ifs b _ _ _ H7 IF) as (j2 & X2 & J2 & H8). rewrite X2. cbn [zbind fst snd].
  destruct (opt_dist b _ _ _ H8) as (j3 & X3 & J3 & H9). rewrite X3. cbn [zbind fst snd].
  destruct (opt_met _ b _ _ _ V H9 ME) as (j4 & X4 & J4 & H10). rewrite X4. cbn [zbind fst snd].
  assert (BL : blen m = (if z_version c =? 0 then 1 else 4) + (4 + (blen (in_net i) + (blen (opt (in_hops i) (fun l => Z.of_nat (length l) :: concat l)) + (blen (opt (in_ifs i) (fun l => Z.of_nat (length l) :: concat (map enc32 l))) + (blen (opt (in_dist i) (fun d => [d])) + blen (match in_metric i with Some m => enc32 m | None => if z_version c =? 0 then [0; 0; 0; 0] else [] end))))))).
  { unfold m, enc_route. rewrite !blen_app, enc_cmd_len by exact V. reflexivity. }
  assert (LL : j4 - o = 2 + blen m).
  { rewrite BL, J4, J3, J2, J1. unfold i0. destruct (z_version c =? 0); lia. }
  rewrite LL, Z.eqb_refl. cbn [negb]. reflexivity.
Qed.

(** what a message does to the list *)
Definition msg_hna (v6 : bool) (hna : list (list Z * Z)) (m : zmsg) : list (list Z * Z) :=
  match m with
  | MOther _ _ => hna
  | MRoute i => if in_add i then ip_prefix_list_add hna (pad16 (in_net i)) (in_plen i)
                else ip_prefix_list_remove v6 hna (pad16 (in_net i)) (in_plen i)
  end.

Lemma zcommand_ok c b o v cmd l : version_ok (z_version c) -> v = z_version c -> 0 <= cmd < (if v =? 0 then 256 else 65536) ->
  here b (o + 2) (enc_cmd v cmd ++ l) -> zcommand c b o = ZOk cmd.
Proof.
  intros V -> R H. unfold zcommand, enc_cmd in *. destruct (z_version c =? 0) eqn:E0.
  - cbn [app] in H. destruct (here_rd8 _ _ _ _ H) as [E _]. rewrite E. reflexivity.
  - replace ((z_version c =? 1) || (z_version c =? 2)) with true by (destruct V as [V | [V | V]]; rewrite V in *; [discriminate|reflexivity|reflexivity]).
    rewrite <- app_assoc in H. cbn [app] in H.
    destruct (here_rd8 _ _ _ _ H) as [E1 H1]. rewrite E1. cbn [zrd zbind]. change (255 =? ZEBRA_HEADER_MARKER) with true. cbn [negb].
    destruct (here_rd8 _ _ _ _ H1) as [E2 H2]. replace (o + 2 + 1) with (o + 3) in * by lia. rewrite E2. cbn [zrd zbind]. rewrite Z.eqb_refl. cbn [negb].
    replace (o + 3 + 1) with (o + 4) in * by lia. destruct (here_rd16 _ _ _ _ H2) as [E3 _]; [exact R|]. rewrite E3. reflexivity.
Qed.

Lemma parse_one_ok c b o m l hna : version_ok (z_version c) -> zmsg_ok (z_version c) (z_v6 c) m ->
  blen (enc_msg (z_version c) (z_v6 c) m) < 65536 ->
  here b o (enc_msg (z_version c) (z_v6 c) m ++ l) ->
  rd16 b o = Some (blen (enc_msg (z_version c) (z_v6 c) m)) /\ zparse_one c b o hna = ZOk (msg_hna (z_v6 c) hna m).
Proof.
  intros V OK LM H.
  assert (EL : blen (enc_msg (z_version c) (z_v6 c) m) = 2 + blen (enc_body (z_version c) (z_v6 c) m)) by (unfold enc_msg; rewrite blen_app; reflexivity).
  rewrite EL in LM |- *. pose proof (blen_nonneg (enc_body (z_version c) (z_v6 c) m)) as NN.
  unfold enc_msg in H. rewrite <- app_assoc in H. change (Z.of_nat (length (enc_body (z_version c) (z_v6 c) m))) with (blen (enc_body (z_version c) (z_v6 c) m)) in H.
  destruct (here_rd16 b o _ _ H ltac:(lia)) as [E H']. split; [exact E|].
  unfold zparse_one. destruct m as [i|cmd p]; cbn [enc_body zmsg_ok msg_hna] in *.
  - set (k := if in_add i then if z_v6 c then 9 else 7 else if z_v6 c then 10 else 8) in *.
    assert (KR : 0 <= k < (if z_version c =? 0 then 256 else 65536)) by (unfold k; destruct (in_add i), (z_v6 c), (z_version c =? 0); lia).
    rewrite <- app_assoc in H'. rewrite (zcommand_ok c b o (z_version c) k _ V eq_refl KR H'). cbn [zbind].
    rewrite (parse_route_ok c b o i l k V OK LM H). cbn [zbind].
    unfold k. destruct (in_add i), (z_v6 c); reflexivity.
  - destruct OK as (R & BP & LP & N1 & N2).
    rewrite <- app_assoc in H'. rewrite (zcommand_ok c b o (z_version c) cmd _ V eq_refl R H'). cbn [zbind].
    unfold ZEBRA_IPV6_ROUTE_ADD, ZEBRA_IPV4_ROUTE_ADD, ZEBRA_IPV6_ROUTE_DELETE, ZEBRA_IPV4_ROUTE_DELETE.
    replace (cmd =? (if z_v6 c then 9 else 7)) with false by (symmetry; now apply Z.eqb_neq).
    replace (cmd =? (if z_v6 c then 10 else 8)) with false by (symmetry; now apply Z.eqb_neq). reflexivity.
Qed.

Lemma enc_msgs_cons v v6 m ms : enc_msgs v v6 (m :: ms) = enc_msg v v6 m ++ enc_msgs v v6 ms.
Proof. reflexivity. Qed.
Lemma enc_msgs_app v v6 a b : enc_msgs v v6 (a ++ b) = enc_msgs v v6 a ++ enc_msgs v v6 b.
Proof. unfold enc_msgs. now rewrite map_app, concat_app. Qed.
Lemma enc_msg_ge2 v v6 m : 2 <= blen (enc_msg v v6 m).
Proof. unfold enc_msg. rewrite blen_app. pose proof (blen_nonneg (enc_body v v6 m)). change (blen (enc16 _)) with 2. lia. Qed.

Lemma zparse_data_ok c b : forall ms fuel o l len hna, version_ok (z_version c) ->
  Forall (zmsg_ok (z_version c) (z_v6 c)) ms -> Forall (fun m => blen (enc_msg (z_version c) (z_v6 c) m) < 65536) ms -> ms <> [] ->
  (length ms <= fuel)%nat -> here b o (enc_msgs (z_version c) (z_v6 c) ms ++ l) -> len = o + blen (enc_msgs (z_version c) (z_v6 c) ms) ->
  zparse_data fuel c b len o hna = ZOk (fold_left (msg_hna (z_v6 c)) ms hna).
Proof.
  induction ms as [|m ms IH]; intros fuel o l len hna V F FL NE LF H LE; [now elim NE|].
  destruct fuel as [|fuel]; [cbn [length] in LF; lia|].
  inversion F as [|? ? Fm F']; subst. inversion FL as [|? ? Lm FL']; subst.
  rewrite enc_msgs_cons in *. rewrite <- app_assoc in H. rewrite blen_app.
  destruct (parse_one_ok c b o m _ hna V Fm Lm H) as [E1 E2].
  pose proof (enc_msg_ge2 (z_version c) (z_v6 c) m) as G.
  cbn [zparse_data]. rewrite E1. cbn [zrd zbind]. replace (blen (enc_msg (z_version c) (z_v6 c) m) =? 0) with false by lia.
  rewrite E2. cbn [zbind fold_left].
  apply here_skip in H. destruct ms as [|m' ms].
  - cbn [fold_left]. change (blen (enc_msgs (z_version c) (z_v6 c) [])) with 0.
    match goal with |- context [if ?x then _ else _] => replace x with false by lia end. reflexivity.
  - assert (G2 : 2 <= blen (enc_msgs (z_version c) (z_v6 c) (m' :: ms))).
    { rewrite enc_msgs_cons, blen_app. pose proof (enc_msg_ge2 (z_version c) (z_v6 c) m'). pose proof (blen_nonneg (enc_msgs (z_version c) (z_v6 c) ms)). lia. }
    match goal with |- context [if ?x then _ else _] => replace x with true by lia end.
    apply (IH fuel _ l); try assumption; [discriminate|cbn [length] in *; lia|lia].
Qed.

From Verif Require Import Base Bytes NetBuf NetBufSpec NetBufProofs Parser Hello HelloSpec HelloProofs Tc TcSpec BuildMsg BuildMsgSpec.

Lemma nbrun_app p ops1 ops2 : forall b, nbrun p b (ops1 ++ ops2) =
  match nbrun p b ops1 with None => None | Some (b', x) => match nbrun p b' ops2 with None => None | Some (b2, y) => Some (b2, x ++ y) end end.
Proof.
  induction ops1 as [|o ops1 IH]; intros b; cbn [nbrun app]; [destruct (nbrun p b ops2) as [[b2 y]|]; reflexivity|].
  destruct (nbstep p b o) as [[b' x]|]; [|reflexivity]. rewrite IH. destruct (nbrun p b' ops1) as [[b1 x1]|]; [|reflexivity].
  destruct (nbrun p b1 ops2) as [[b2 y]|]; reflexivity.
Qed.
Lemma run_R ops : forall mtu s b, R mtu s b -> Forall sane ops -> exists mtu' s' b' obs, nbrun [] b ops = Some (b', obs) /\ R mtu' s' b'.
Proof.
  induction ops as [|o ops IH]; intros mtu s b r Sa; cbn [nbrun]; [exists mtu, s, b, []; auto|].
  destruct (step_ok mtu s b o r (Forall_inv Sa)) as (mtu' & b1 & E & r' & _). rewrite E.
  destruct (IH mtu' _ b1 r' (Forall_inv_tail Sa)) as (m2 & s2 & b2 & o2 & E2 & R2). rewrite E2. exists m2, s2, b2. eexists. split; [reflexivity|exact R2].
Qed.
Lemma usable_R b : usable b -> exists mtu q, R mtu q b /\ queued q <= q_cap q.
Proof.
  intros (mtu & q & ops & obs & A & B & C & D & E).
  destruct (run_R ops mtu (mkSQ [] (mtu - 4) 0 q) (net_add_buffer mtu (nb_zero q))) as (m & s & b' & o & E1 & r); auto.
  - apply (add_ok mtu (nb_zero q)); auto. discriminate.
  - rewrite D in E1. apply Some_inj in E1. injection E1 as -> _. exists m, s. split; [exact r|]. rewrite <- (r_pend _ _ _ r), <- (r_max _ _ _ r). exact E.
Qed.
Lemma usable_step b o b' x : usable b -> sane o -> nbstep [] b o = Some (b', x) -> nb_pend b' <= nb_max b' -> usable b'.
Proof.
  intros (mtu & q & ops & obs & A & B & C & D & E) S N P. exists mtu, q, (ops ++ [o]), (obs ++ [x]). split; [exact A|]. split; [exact B|].
  split; [apply Forall_app; auto|]. split; [|exact P]. rewrite nbrun_app, D. cbn [nbrun]. now rewrite N.
Qed.
Lemma waiting_R mtu q b : R mtu q b -> waiting b = concat (q_msgs q).
Proof.
  intros [A (h & t & B1 & B2 & B3) C D E F G H I]. unfold waiting. rewrite B1, E. unfold slice, queued.
  rewrite skipn_app. unfold blen in B2. replace (Z.to_nat 4 - length h)%nat with 0%nat by lia. rewrite skipn_all2 by lia. cbn [skipn app].
  unfold blen. rewrite Nat2Z.id, firstn_app, firstn_all, Nat.sub_diag. cbn [firstn]. apply app_nil_r.
Qed.

Definition ok (s : bst) : Prop := usable (s_nb s) /\ blen (s_msg s) = 1500 /\ 0 <= s_seq s < 65536.
Definition set_msg (s : bst) (m : list Z) : bst := mkS (s_nb s) m (s_seq s) (s_log s).
Definition room (s : bst) : Z := Z.min 1228 (nb_max (s_nb s) - nb_pend (s_nb s)).

Lemma usable_bounds b : usable b -> 0 <= nb_pend b <= nb_max b /\ nb_max b <= 65531 /\ nb_size b = nb_size b.
Proof.
  intros U. destruct (usable_R b U) as (mtu & q & [A _ C D E F G H I] & L). rewrite D, E. pose proof (blen_nonneg (concat (q_msgs q))). unfold queued in *. lia.
Qed.
Lemma space_ok s : space s = Some (s, Some (room s)).
Proof.
  unfold space, room, net_outbuffer_bytes_left. change MAX_REMAINING with 1228. cbv zeta.
  destruct (Z.gtb_spec (nb_max (s_nb s) - nb_pend (s_nb s)) 1228) as [L|L]; do 3 f_equal; lia.
Qed.
Lemma space16_ok s : ok s -> space16 s = Some (s, Some (room s)).
Proof.
  intros (U & _). unfold space16, mbind. rewrite space_ok. unfold ret. do 3 f_equal. unfold u16. apply Z.mod_small. unfold room.
  destruct (usable_bounds _ U). lia.
Qed.

Lemma delivers_refl s : usable (s_nb s) -> delivers s s [].
Proof. intros U. exists []. cbn. rewrite !app_nil_r. repeat split; auto. contradiction. Qed.
Lemma delivers_trans s s1 s2 a b : delivers s s1 a -> delivers s1 s2 b -> delivers s s2 (a ++ b).
Proof.
  intros (e1 & A1 & A2 & A3 & A4 & A5 & A6 & A7 & A8) (e2 & B1 & B2 & B3 & B4 & B5 & B6 & B7 & B8). exists (e1 ++ e2).
  split; [now rewrite B1, A1, app_assoc|]. split; [now rewrite flat_map_app, map_app, A2, B2|].
  split; [rewrite flat_map_app, <- app_assoc, B3, app_assoc, A3, concat_app, app_assoc; reflexivity|].
  split. { intros p H. apply in_app_or in H. destruct H as [H|H]; [rewrite B5; auto|auto]. }
  split; [congruence|]. split; [congruence|]. split; [exact B7|]. apply Forall_app. split; [rewrite B6; exact A8|exact B8].
Qed.
Lemma delivers_eq s s' a b : delivers s s' a -> a = b -> delivers s s' b.
Proof. now intros H <-. Qed.
Lemma delivers_nb s s' s1 s1' ms : delivers s s' ms -> s_nb s1 = s_nb s -> s_log s1 = s_log s -> s_nb s1' = s_nb s' -> s_log s1' = s_log s' -> delivers s1 s1' ms.
Proof. unfold delivers. intros H -> -> -> ->. exact H. Qed.

Lemma output_M s : ok s -> exists s', output s = Some (s', Some tt) /\ delivers s s' [] /\ ok s' /\ s_msg s' = s_msg s /\ s_seq s' = s_seq s /\ nb_pend (s_nb s') = 0.
Proof.
  intros (U & K2 & K3). destruct (usable_R _ U) as (mtu & q & r & L). unfold output.
  destruct (output_ok mtu q (s_nb s) true r) as (b' & E & r'). rewrite E.
  assert (Q0 : queued (fst (sq_flush q)) = 0).
  { unfold sq_flush. destruct (Z.eqb_spec (queued q) 0); cbn [fst]; [assumption|reflexivity]. }
  assert (P0 : nb_pend b' = 0) by (rewrite (r_pend _ _ _ r'); exact Q0).
  assert (U' : usable b').
  { apply (usable_step (s_nb s) (OOutput true) b' (match snd (sq_flush q) with None => 0 | Some x => blen x end, snd (sq_flush q)) U Logic.I); [cbn [nbstep]; now rewrite E|]. rewrite P0, (r_max _ _ _ r'). apply (r_cap _ _ _ r'). }
  eexists. split; [reflexivity|]. split.
  - exists [EOut (snd (sq_flush q))]. cbn [s_log s_nb flat_map queued_now]. split; [reflexivity|]. split; [reflexivity|].
    split.
    { rewrite (waiting_R _ _ _ r), (waiting_R _ _ _ r'). cbn [concat]. rewrite !app_nil_r. unfold sq_flush.
      destruct (Z.eqb_spec (queued q) 0) as [Z0|Z0]; cbn [fst snd payload q_msgs concat]; [reflexivity|]. rewrite app_nil_r. reflexivity. }
    assert (Mx : q_cap (fst (sq_flush q)) = q_cap q) by (unfold sq_flush; destruct (queued q =? 0); reflexivity).
    split; [|split; [now rewrite (r_size _ _ _ r'), (r_size _ _ _ r)|split; [now rewrite (r_max _ _ _ r'), (r_max _ _ _ r)|split; [exact U'|constructor]]]].
    intros p [H|[]]. injection H as H. rewrite (r_size _ _ _ r'). unfold sq_flush in H. destruct (queued q =? 0); [discriminate|]. cbn [snd] in H. apply Some_inj in H. subst p.
    destruct r as [A (h & t & B1 & B2 & B3) _ _ _ _ _ _ _]. unfold packet_of. cbv zeta. rewrite blen_app. rewrite !blen_app in B3. pose proof (blen_nonneg t). unfold blen at 1. cbn [length]. lia.
  - split; [split; [exact U'|split; [exact K2|exact K3]]|]. split; [reflexivity|]. split; [reflexivity|exact P0].
Qed.

Lemma push_M s m t n : ok s -> s_msg s = m ++ t -> blen m = n -> n <= room s ->
  exists s', push n s = Some (s', Some tt) /\ delivers s s' [m] /\ ok s' /\ s_msg s' = s_msg s /\ s_seq s' = s_seq s.
Proof.
  intros (U & K2 & K3) E Ln Rm. destruct (usable_R _ U) as (mtu & q & r & L). unfold push.
  assert (Rd : rdn (s_msg s) 0 n = Some m).
  { rewrite E. change (m ++ t) with ([] ++ m ++ t). apply rdn_at; [reflexivity|lia]. }
  rewrite Rd. unfold room in Rm. pose proof (blen_nonneg m).
  destruct (step_ok mtu q (s_nb s) (OPush m) r Logic.I) as (mtu' & b' & St & r' & Em). subst mtu'.
  cbn [sq_step] in St, r'. rewrite <- (r_pend _ _ _ r), <- (r_max _ _ _ r) in St, r'.
  replace (nb_pend (s_nb s) + blen m <=? nb_max (s_nb s)) with true in St, r' by lia. cbn [fst snd] in St, r'.
  assert (Pu : net_outbuffer_push (s_nb s) m = Some (b', blen m)).
  { cbn [nbstep] in St. destruct (net_outbuffer_push (s_nb s) m) as [[b1 r1]|]; [|discriminate]. apply Some_inj in St. now injection St as -> ->. }
  rewrite Pu.
  assert (Pd : nb_pend b' = nb_pend (s_nb s) + blen m).
  { rewrite (r_pend _ _ _ r'), (r_pend _ _ _ r). unfold queued. cbn [q_msgs]. rewrite concat_app, blen_app. cbn [concat]. now rewrite app_nil_r. }
  assert (Mx : nb_max b' = nb_max (s_nb s)) by (pose proof (r_max _ _ _ r') as X; cbn [q_cap] in X; exact X).
  assert (U' : usable b') by (apply (usable_step (s_nb s) (OPush m) b' _ U Logic.I St); lia).
  eexists. split; [reflexivity|]. split.
  - exists [EPush m (blen m)]. cbn [s_log s_nb flat_map queued_now map app payload]. split; [reflexivity|]. split; [reflexivity|].
    split. { rewrite (waiting_R _ _ _ r), (waiting_R _ _ _ r'). cbn [q_msgs]. rewrite concat_app. reflexivity. }
    split; [intros p [H'|[]]; discriminate|]. split; [now rewrite (r_size _ _ _ r'), (r_size _ _ _ r)|]. split; [exact Mx|]. split; [exact U'|]. constructor; [|constructor]. rewrite Mx. destruct (usable_bounds _ U). lia.
  - split; [split; [exact U'|split; [exact K2|exact K3]]|]. split; reflexivity.
Qed.

Lemma poke_M s i a x t d : s_msg s = a ++ x ++ t -> i = blen a -> blen x = blen d -> poke i d s = Some (set_msg s (a ++ d ++ t), Some tt).
Proof. intros E I L. unfold poke. rewrite E, (wr_at a x t d i I L). reflexivity. Qed.

Lemma seqno_M s : seqno s = Some (mkS (s_nb s) (s_msg s) ((s_seq s + 1) mod 65536) (s_log s), Some (s_seq s)).
Proof. reflexivity. Qed.

(** * Running computations *)
Lemma bind_M {A B} (m : M A) (f : A -> M B) s s' a : m s = Some (s', Some a) -> mbind m f s = f a s'.
Proof. unfold mbind. now intros ->. Qed.
Lemma ok_set s m : ok s -> blen m = 1500 -> ok (set_msg s m).
Proof. intros (A & _ & C) L. split; [exact A|split; [exact L|exact C]]. Qed.
Lemma room_set s m : room (set_msg s m) = room s. Proof. reflexivity. Qed.
Lemma delivers_set s m : usable (s_nb s) -> delivers s (set_msg s m) [].
Proof. intros U. apply (delivers_nb s s _ _ [] (delivers_refl s U)); reflexivity. Qed.

(** a store to some place within the buffer *)
Lemma poke_at s i d : ok s -> 0 <= i -> i + blen d <= 1500 ->
  exists a x t, s_msg s = a ++ x ++ t /\ blen a = i /\ blen x = blen d /\ poke i d s = Some (set_msg s (a ++ d ++ t), Some tt) /\ ok (set_msg s (a ++ d ++ t)).
Proof.
  intros K I L. pose proof K as (_ & K2 & _). pose proof (blen_nonneg d).
  destruct (split_at (s_msg s) i ltac:(lia)) as (a & y & E & La). assert (Ly : blen y = 1500 - i) by (rewrite E, blen_app in K2; lia).
  destruct (split_at y (blen d) ltac:(lia)) as (x & t & -> & Lx). exists a, x, t. split; [exact E|]. split; [exact La|]. split; [exact Lx|].
  split; [now apply (poke_M s i a x t d)|]. apply ok_set; [exact K|]. rewrite !blen_app in *. lia.
Qed.

(** * The header *)
Definition hdrb (typ vt : Z) (sz orig : list Z) (ttl hops : Z) (sq : list Z) : list Z := [typ; vt] ++ sz ++ orig ++ [ttl; hops] ++ sq.
Lemma hdrb_len typ vt sz orig ttl hops sq v6 : blen sz = 2 -> blen sq = 2 -> blen orig = ipsz v6 -> blen (hdrb typ vt sz orig ttl hops sq) = BASE v6.
Proof. intros A B C. unfold hdrb. rewrite !blen_app, A, B, C. unfold BASE. unfold blen. cbn [length]. lia. Qed.
Lemma ipsz_val v6 : ipsz v6 = 4 \/ ipsz v6 = 16. Proof. unfold ipsz. destruct v6; auto. Qed.
Lemma message_hdrb typ vt orig ttl hops seq body : 0 <= seq < 65536 ->
  message typ vt orig ttl hops seq body = hdrb typ vt (enc16 (8 + blen orig + blen body)) orig ttl hops (enc16 seq) ++ body.
Proof. intros _. unfold message, hdrb. rewrite <- !app_assoc. reflexivity. Qed.
Lemma net16_enc n : 0 <= n < 65536 -> net16 n = enc16 n. Proof. apply enc_net16. Qed.
Lemma net16_len n : blen (net16 n) = 2. Proof. reflexivity. Qed.

(** the buffer starts with a header *)
Definition shape (v6 : bool) (typ vt : Z) (orig : list Z) (ttl hops : Z) (s : bst) (rest : list Z) : Prop :=
  exists sz sq, s_msg s = hdrb typ vt sz orig ttl hops sq ++ rest /\ blen sz = 2 /\ blen sq = 2 /\ blen orig = ipsz v6.

Lemma shape_size v6 typ vt orig ttl hops s rest : shape v6 typ vt orig ttl hops s rest -> ok s -> BASE v6 + blen rest = 1500.
Proof. intros (sz & sq & E & A & B & C) (_ & K & _). rewrite E, blen_app, (hdrb_len _ _ _ _ _ _ _ v6) in K; auto. Qed.
Lemma poke_size v6 typ vt orig ttl hops s rest n : ok s -> shape v6 typ vt orig ttl hops s rest ->
  exists m, poke 2 (net16 n) s = Some (set_msg s m, Some tt) /\ ok (set_msg s m) /\
  exists sq, m = hdrb typ vt (net16 n) orig ttl hops sq ++ rest /\ blen sq = 2 /\ blen orig = ipsz v6 /\ s_msg s = hdrb typ vt (slice (s_msg s) 2 2) orig ttl hops sq ++ rest.
Proof.
  intros K (sz & sq & E & A & B & C). exists (hdrb typ vt (net16 n) orig ttl hops sq ++ rest). split; [|split].
  - unfold hdrb. rewrite <- !app_assoc. apply (poke_M s 2 [typ; vt] sz); [rewrite E; unfold hdrb; now rewrite <- !app_assoc|reflexivity|rewrite net16_len; exact A].
  - apply ok_set; [exact K|]. destruct K as (_ & K & _). rewrite E in K. rewrite blen_app, (hdrb_len _ _ _ _ _ _ _ v6) in K by auto. rewrite blen_app, (hdrb_len _ _ _ _ _ _ _ v6) by auto. exact K.
  - exists sq. repeat split; auto. rewrite E at 1. f_equal. unfold hdrb. do 2 f_equal. rewrite E. unfold hdrb, slice.
    destruct sz as [|z1 [|z2 [|z3 sz]]]; try discriminate; [reflexivity|]. unfold blen in A. cbn [length] in A. lia.
Qed.
Lemma poke_seq v6 typ vt orig ttl hops s sz sq rest n : s_msg s = hdrb typ vt sz orig ttl hops sq ++ rest -> blen sz = 2 -> blen sq = 2 -> blen orig = ipsz v6 ->
  poke (6 + ipsz v6) (net16 n) s = Some (set_msg s (hdrb typ vt sz orig ttl hops (net16 n) ++ rest), Some tt).
Proof.
  intros E A B C. rewrite (poke_M s (6 + ipsz v6) ([typ; vt] ++ sz ++ orig ++ [ttl; hops]) sq rest (net16 n)).
  - unfold hdrb. now rewrite <- !app_assoc.
  - rewrite E. unfold hdrb. now rewrite <- !app_assoc.
  - rewrite !blen_app, A, C. unfold blen. cbn [length]. lia.
  - rewrite net16_len. exact B.
Qed.

Definition bump (s : bst) : bst := mkS (s_nb s) (s_msg s) ((s_seq s + 1) mod 65536) (s_log s).
Lemma ok_bump s : ok s -> ok (bump s).
Proof. intros (A & B & C). split; [exact A|]. split; [exact B|]. cbn [bump s_seq]. apply Z.mod_pos_bound. lia. Qed.

Lemma finish_M v6 typ vt orig ttl hops s body t curr : ok s -> shape v6 typ vt orig ttl hops s (body ++ t) -> curr = BASE v6 + blen body -> curr <= room s ->
  exists s', finish v6 curr s = Some (s', Some tt) /\ delivers s s' [message typ vt orig ttl hops (s_seq s) body] /\ ok s' /\
  shape v6 typ vt orig ttl hops s' (body ++ t) /\ s_seq s' = (s_seq s + 1) mod 65536.
Proof.
  intros K Sh Ec Rm. unfold finish. pose proof K as (U & K2 & K3).
  assert (Rr : room s <= 1228) by (unfold room; lia). pose proof (blen_nonneg body) as Nb. assert (Ib := ipsz_val v6). assert (Cr : 0 <= curr < 65536) by (unfold BASE in *; lia).
  destruct (poke_size v6 typ vt orig ttl hops s (body ++ t) curr K Sh) as (m & P1 & K1 & sq & Em & Lq & Lo & _).
  rewrite (bind_M _ _ _ _ _ P1). rewrite (bind_M _ _ _ _ _ (seqno_M _)). fold (bump (set_msg s m)).
  set (s1 := bump (set_msg s m)). assert (K1' : ok s1) by now apply ok_bump.
  assert (P2 := poke_seq v6 typ vt orig ttl hops s1 (net16 curr) sq (body ++ t) (s_seq s) Em (net16_len _) Lq Lo).
  change (s_seq (set_msg s m)) with (s_seq s). rewrite (bind_M _ _ _ _ _ P2).
  set (m2 := hdrb typ vt (net16 curr) orig ttl hops (net16 (s_seq s)) ++ body ++ t) in *.
  assert (K4 : ok (set_msg s1 m2)).
  { apply ok_set; [exact K1'|]. destruct K1 as (_ & K1 & _). cbn [set_msg s_msg] in K1. rewrite Em in K1. unfold m2. rewrite blen_app, (hdrb_len _ _ _ _ _ _ _ v6) in K1 by auto. rewrite blen_app, (hdrb_len _ _ _ _ _ _ _ v6) by auto. exact K1. }
  destruct (push_M (set_msg s1 m2) (hdrb typ vt (net16 curr) orig ttl hops (net16 (s_seq s)) ++ body) t curr K4) as (s' & P3 & D & K5 & M5 & S5).
  - cbn [set_msg s_msg]. unfold m2. now rewrite app_assoc.
  - rewrite blen_app, (hdrb_len _ _ _ _ _ _ _ v6); auto.
  - exact Rm.
  - exists s'. split; [exact P3|]. split.
    + apply (delivers_nb (set_msg s1 m2) s' s s' _); auto. apply (delivers_eq _ _ _ _ D). f_equal. rewrite message_hdrb by auto.
      rewrite !net16_enc by auto. do 2 f_equal. f_equal. rewrite Ec, Lo. unfold BASE. lia.
    + split; [exact K5|]. split; [|exact S5]. exists (net16 curr), (net16 (s_seq s)). split; [exact M5|]. auto.
Qed.

(** * Writing the header *)
Record raw (v6 : bool) (s : bst) (a b : Z) (sz o : list Z) (c d : Z) (sq rest : list Z) : Prop := mkRaw {
  w_ok : ok s; w_msg : s_msg s = hdrb a b sz o c d sq ++ rest; w_sz : blen sz = 2; w_o : blen o = ipsz v6; w_sq : blen sq = 2 }.
Lemma raw_len v6 s a b sz o c d sq rest : raw v6 s a b sz o c d sq rest -> BASE v6 + blen rest = 1500.
Proof. intros [(_ & K & _) E A B C]. rewrite E, blen_app, (hdrb_len _ _ _ _ _ _ _ v6) in K; auto. Qed.
Lemma raw_ok v6 s a b sz o c d sq rest m a' b' sz' o' c' d' sq' rest' : raw v6 s a b sz o c d sq rest ->
  m = hdrb a' b' sz' o' c' d' sq' ++ rest' -> blen sz' = 2 -> blen o' = ipsz v6 -> blen sq' = 2 -> blen rest' = blen rest -> raw v6 (set_msg s m) a' b' sz' o' c' d' sq' rest'.
Proof.
  intros W -> A B C D. pose proof (raw_len _ _ _ _ _ _ _ _ _ _ W) as L. constructor; auto. apply ok_set; [apply W|].
  rewrite blen_app, (hdrb_len _ _ _ _ _ _ _ v6) by auto. lia.
Qed.
Lemma raw_exists v6 s : ok s -> exists a b sz o c d sq rest, raw v6 s a b sz o c d sq rest.
Proof.
  intros K. pose proof K as (_ & L & _). pose proof (ipsz_val v6) as I.
  destruct (split_at (s_msg s) 2 ltac:(lia)) as (x & m1 & E1 & L1). rewrite E1, blen_app in L.
  destruct (split_at m1 2 ltac:(lia)) as (sz & m2 & -> & L2). rewrite blen_app in L.
  destruct (split_at m2 (ipsz v6) ltac:(lia)) as (o & m3 & -> & L3). rewrite blen_app in L.
  destruct (split_at m3 2 ltac:(lia)) as (y & m4 & -> & L4). rewrite blen_app in L.
  destruct (split_at m4 2 ltac:(lia)) as (sq & rest & -> & L5).
  destruct x as [|a [|b [|? ?]]]; try discriminate L1; [|unfold blen in L1; cbn [length] in L1; lia].
  destruct y as [|c [|d [|? ?]]]; try discriminate L4; [|unfold blen in L4; cbn [length] in L4; lia].
  exists a, b, sz, o, c, d, sq, rest. constructor; auto. rewrite E1. unfold hdrb. now rewrite <- !app_assoc.
Qed.

Section fields.
Variables (v6 : bool) (s : bst) (a b : Z) (sz o : list Z) (c d : Z) (sq rest : list Z).
Hypothesis W : raw v6 s a b sz o c d sq rest.
Lemma poke_f_type x : exists m, poke 0 [x] s = Some (set_msg s m, Some tt) /\ raw v6 (set_msg s m) x b sz o c d sq rest.
Proof.
  destruct W as [K E A B C]. eexists. split; [apply (poke_M s 0 [] [a] (b :: sz ++ o ++ [c; d] ++ sq ++ rest)); [rewrite E; unfold hdrb; now rewrite <- !app_assoc|reflexivity|reflexivity]|].
  apply (raw_ok _ _ _ _ _ _ _ _ _ _ _ _ _ _ _ _ _ _ _ W); auto. unfold hdrb. now rewrite <- !app_assoc.
Qed.
Lemma poke_f_vt x : exists m, poke 1 [x] s = Some (set_msg s m, Some tt) /\ raw v6 (set_msg s m) a x sz o c d sq rest.
Proof.
  destruct W as [K E A B C]. eexists. split; [apply (poke_M s 1 [a] [b] (sz ++ o ++ [c; d] ++ sq ++ rest)); [rewrite E; unfold hdrb; now rewrite <- !app_assoc|reflexivity|reflexivity]|].
  apply (raw_ok _ _ _ _ _ _ _ _ _ _ _ _ _ _ _ _ _ _ _ W); auto. unfold hdrb. now rewrite <- !app_assoc.
Qed.
Lemma poke_f_size x : exists m, poke 2 (net16 x) s = Some (set_msg s m, Some tt) /\ raw v6 (set_msg s m) a b (net16 x) o c d sq rest.
Proof.
  destruct W as [K E A B C]. eexists. split; [apply (poke_M s 2 [a; b] sz (o ++ [c; d] ++ sq ++ rest)); [rewrite E; unfold hdrb; now rewrite <- !app_assoc|reflexivity|exact A]|].
  apply (raw_ok _ _ _ _ _ _ _ _ _ _ _ _ _ _ _ _ _ _ _ W); auto. unfold hdrb. now rewrite <- !app_assoc.
Qed.
Lemma poke_f_orig x : blen x = ipsz v6 -> exists m, poke 4 x s = Some (set_msg s m, Some tt) /\ raw v6 (set_msg s m) a b sz x c d sq rest.
Proof.
  intros L. destruct W as [K E A B C]. eexists. split; [apply (poke_M s 4 ([a; b] ++ sz) o ([c; d] ++ sq ++ rest)); [rewrite E; unfold hdrb; now rewrite <- !app_assoc|rewrite blen_app, A; reflexivity|congruence]|].
  apply (raw_ok _ _ _ _ _ _ _ _ _ _ _ _ _ _ _ _ _ _ _ W); auto. unfold hdrb. now rewrite <- !app_assoc.
Qed.
Lemma poke_f_ttl x : exists m, poke (4 + ipsz v6) [x] s = Some (set_msg s m, Some tt) /\ raw v6 (set_msg s m) a b sz o x d sq rest.
Proof.
  destruct W as [K E A B C]. eexists. split; [apply (poke_M s (4 + ipsz v6) ([a; b] ++ sz ++ o) [c] (d :: sq ++ rest)); [rewrite E; unfold hdrb; now rewrite <- !app_assoc|rewrite !blen_app, A, B; unfold blen; cbn [length]; lia|reflexivity]|].
  apply (raw_ok _ _ _ _ _ _ _ _ _ _ _ _ _ _ _ _ _ _ _ W); auto. unfold hdrb. now rewrite <- !app_assoc.
Qed.
Lemma poke_f_hops x : exists m, poke (5 + ipsz v6) [x] s = Some (set_msg s m, Some tt) /\ raw v6 (set_msg s m) a b sz o c x sq rest.
Proof.
  destruct W as [K E A B C]. eexists. split; [apply (poke_M s (5 + ipsz v6) ([a; b] ++ sz ++ o ++ [c]) [d] (sq ++ rest)); [rewrite E; unfold hdrb; now rewrite <- !app_assoc|rewrite !blen_app, A, B; unfold blen; cbn [length]; lia|reflexivity]|].
  apply (raw_ok _ _ _ _ _ _ _ _ _ _ _ _ _ _ _ _ _ _ _ W); auto. unfold hdrb. now rewrite <- !app_assoc.
Qed.
Lemma poke_f_seq x : exists m, poke (6 + ipsz v6) (net16 x) s = Some (set_msg s m, Some tt) /\ raw v6 (set_msg s m) a b sz o c d (net16 x) rest.
Proof.
  destruct W as [K E A B C]. eexists. split; [apply (poke_seq v6 a b o c d s sz sq rest x); auto|].
  apply (raw_ok _ _ _ _ _ _ _ _ _ _ _ _ _ _ _ _ _ _ _ W); auto.
Qed.
Lemma poke_f_rest p x y z i : rest = p ++ x ++ y -> i = BASE v6 + blen p -> blen x = blen z ->
  exists m, poke i z s = Some (set_msg s m, Some tt) /\ raw v6 (set_msg s m) a b sz o c d sq (p ++ z ++ y).
Proof.
  intros -> -> Lz. pose proof W as [K E A B C]. eexists. split.
  - apply (poke_M s _ (hdrb a b sz o c d sq ++ p) x y); [rewrite E; now rewrite <- !app_assoc|rewrite blen_app, (hdrb_len _ _ _ _ _ _ _ v6); auto|exact Lz].
  - apply (raw_ok _ _ _ _ _ _ _ _ _ _ _ _ _ _ _ _ _ _ _ W); auto; [now rewrite <- !app_assoc|]. rewrite !blen_app. lia.
Qed.
End fields.
Lemma raw_shape v6 s a b sz o c d sq rest : raw v6 s a b sz o c d sq rest -> shape v6 a b o c d s rest.
Proof. intros [K E A B C]. exists sz, sq. auto. Qed.
Lemma shape_raw v6 s a b o c d rest : ok s -> shape v6 a b o c d s rest -> exists sz sq, raw v6 s a b sz o c d sq rest.
Proof. intros K (sz & sq & E & A & B & C). exists sz, sq. constructor; auto. Qed.

(** the output buffer is as before *)
Definition same (s s' : bst) : Prop := s_nb s' = s_nb s /\ s_log s' = s_log s.
Lemma same_room s s' : same s s' -> room s' = room s. Proof. intros (A & _). unfold room. now rewrite A. Qed.
Lemma same_set s m : same s (set_msg s m). Proof. split; reflexivity. Qed.
Lemma same_trans s s1 s2 : same s s1 -> same s1 s2 -> same s s2. Proof. intros (A & B) (C & D). split; congruence. Qed.
Lemma same_delivers_l s s1 s2 ms : same s s1 -> delivers s1 s2 ms -> delivers s s2 ms.
Proof. intros (A & B) D. apply (delivers_nb s1 s2 s s2 ms D); auto. Qed.
Lemma same_delivers s s1 : ok s1 -> same s s1 -> delivers s s1 [].
Proof. intros (U & _) S. apply (same_delivers_l s s1 s1 [] S). now apply delivers_refl. Qed.

(** * Messages made of items of one size *)
Definition Inv (v6 : bool) (typ vt : Z) (orig : list Z) (ttl hops : Z) (pre : list Z) (s : bst) (cur : list (list Z)) (rem : Z) : Prop :=
  ok s /\ (exists t, shape v6 typ vt orig ttl hops s ((pre ++ concat cur) ++ t)) /\ rem = room s /\ BASE v6 + blen pre + blen (concat cur) <= rem.

Lemma numbered_app {A} (f : Z -> A -> list Z) a b : forall s, 0 <= s < 65536 -> numbered f s (a ++ b) = numbered f s a ++ numbered f (plus_seq s (length a)) b.
Proof.
  induction a as [|x a IH]; intros s H; cbn [numbered app length].
  - unfold plus_seq. cbn. now rewrite Z.add_0_r, Z.mod_small by lia.
  - rewrite IH by (apply Z.mod_pos_bound; lia). do 3 f_equal. unfold plus_seq. rewrite Zplus_mod_idemp_l. f_equal. lia.
Qed.
Lemma plus_seq_app s a b : plus_seq (plus_seq s a) b = plus_seq s (a + b).
Proof. unfold plus_seq. rewrite Zplus_mod_idemp_l. f_equal. lia. Qed.
Lemma plus_seq_0 s : 0 <= s < 65536 -> plus_seq s 0 = s.
Proof. intros H. unfold plus_seq. rewrite Z.add_0_r. apply Z.mod_small. exact H. Qed.
Lemma plus_seq_1 s : plus_seq s 1 = (s + 1) mod 65536. Proof. reflexivity. Qed.

Section items.
Variables (v6 : bool) (typ vt : Z) (orig : list Z) (ttl hops : Z) (pre : list Z) (isz chk : Z).
Hypotheses (Hi : 0 < isz <= 32) (Hc : 0 <= chk <= isz).
Notation Inv' := (Inv v6 typ vt orig ttl hops pre).
Notation msg := (fun seq l => message typ vt orig ttl hops seq (pre ++ concat l)).
Notation hdr := (BASE v6 + blen pre).

Lemma item_step s cur rem a : Inv' s cur rem -> Forall (fun x => blen x = isz) cur -> blen a = isz -> hdr + isz <= Z.min 1228 (nb_max (s_nb s)) ->
  exists s1 s2 out cur1 rem1,
    make_room v6 hdr isz chk (hdr + blen (concat cur)) rem s = Some (s1, Some (hdr + blen (concat cur1), rem1)) /\
    poke (hdr + blen (concat cur1)) a s1 = Some (s2, Some tt) /\
    Inv' s2 (cur1 ++ [a]) rem1 /\ delivers s s2 (numbered msg (s_seq s) out) /\ s_seq s2 = plus_seq (s_seq s) (length out) /\
    nb_max (s_nb s2) = nb_max (s_nb s) /\ concat out ++ cur1 = cur /\ Forall (fun l => l <> []) out /\ u16 (hdr + blen (concat cur1) + isz) = hdr + blen (concat (cur1 ++ [a])).
Proof.
  intros (K & (t & Sh) & Er & Le) Fc La Cap. pose proof K as (U & K2 & K3). pose proof (blen_nonneg pre) as Np. pose proof (ipsz_val v6) as Iv.
  assert (R1 : forall x, room x <= 1228) by (intros x; unfold room; lia).
  (* adding the item to a buffer with room *)
  assert (Add : forall s1 cur1 rem1, Inv' s1 cur1 rem1 -> hdr + blen (concat cur1) + isz <= rem1 ->
    exists s2, poke (hdr + blen (concat cur1)) a s1 = Some (s2, Some tt) /\ Inv' s2 (cur1 ++ [a]) rem1 /\ delivers s1 s2 [] /\ s_seq s2 = s_seq s1 /\ u16 (hdr + blen (concat cur1) + isz) = hdr + blen (concat (cur1 ++ [a]))).
  { intros s1 cur1 rem1 (K1 & (t1 & Sh1) & Er1 & Le1) L1.
    destruct (shape_raw _ _ _ _ _ _ _ _ K1 Sh1) as (sz & sq & W1). pose proof (raw_len _ _ _ _ _ _ _ _ _ _ W1) as Ln. rewrite !blen_app in Ln.
    pose proof (blen_nonneg (concat cur1)). pose proof (R1 s1). assert (Ht : isz <= blen t1) by lia.
    destruct (split_at t1 isz ltac:(lia)) as (x & t2 & -> & Lx).
    destruct (poke_f_rest v6 s1 typ vt sz orig ttl hops sq _ W1 (pre ++ concat cur1) x t2 a (hdr + blen (concat cur1)) eq_refl) as (m & P & W2); [rewrite blen_app; lia|congruence|].
    assert (Lc : blen (concat (cur1 ++ [a])) = blen (concat cur1) + isz) by (rewrite concat_app, blen_app; cbn [concat]; now rewrite app_nil_r, La).
    exists (set_msg s1 m). split; [exact P|]. split; [|split; [apply delivers_set; apply K1|split; [reflexivity|rewrite Lc; unfold u16; rewrite Z.mod_small; unfold BASE in *; lia]]].
    split; [apply W2|]. split; [exists t2; apply raw_shape in W2|split; [exact Er1|rewrite Lc; lia]].
    replace ((pre ++ concat (cur1 ++ [a])) ++ t2) with ((pre ++ concat cur1) ++ a ++ t2); [exact W2|].
    rewrite concat_app. cbn [concat]. rewrite app_nil_r. now rewrite <- !app_assoc. }
  unfold make_room. destruct (Z.gtb_spec (hdr + blen (concat cur) + isz) rem) as [Gt|Le2].
  - (* flush *)
    assert (Fl : exists sF out, (if hdr + blen (concat cur) >? hdr then (finish v6 (hdr + blen (concat cur)) ;;; ret hdr) else ret (hdr + blen (concat cur))) s = Some (sF, Some hdr) /\
       ok sF /\ (exists t', shape v6 typ vt orig ttl hops sF (pre ++ t')) /\ delivers s sF (numbered msg (s_seq s) out) /\ s_seq sF = plus_seq (s_seq s) (length out) /\ concat out = cur /\ Forall (fun l => l <> []) out).
    { destruct (Z.gtb_spec (hdr + blen (concat cur)) hdr) as [G|G].
      - destruct (finish_M v6 typ vt orig ttl hops s (pre ++ concat cur) t (hdr + blen (concat cur)) K) as (sF & P & D & KF & SF & QF); [exact Sh|rewrite blen_app; lia|lia|].
        exists sF, [cur]. rewrite (bind_M _ _ _ _ _ P). split; [reflexivity|]. split; [exact KF|]. split; [exists (concat cur ++ t); now rewrite app_assoc|].
        split; [exact D|]. split; [exact QF|]. split; [cbn [concat]; apply app_nil_r|]. repeat constructor. intros ->. cbn [concat] in G. change (blen []) with 0 in G. lia.
      - assert (cur = []). { destruct cur as [|x cur]; [reflexivity|]. exfalso. cbn [concat] in G. rewrite blen_app in G. pose proof (Forall_inv Fc) as H. cbn in H. pose proof (blen_nonneg (concat cur)). lia. }
        subst cur. cbn [concat] in *. exists s, []. unfold ret. rewrite Z.add_0_r. split; [reflexivity|]. split; [exact K|]. split; [exists t; now rewrite app_nil_r in Sh|].
        split; [now apply delivers_refl|]. split; [now rewrite plus_seq_0|]. split; [reflexivity|constructor]. }
    destruct Fl as (sF & out & Ef & KF & (tF & SF) & DF & QF & Co & NE). rewrite (bind_M _ _ _ _ _ Ef).
    destruct (output_M sF KF) as (sO & Eo & DO & KO & MO & QO & PO). rewrite (bind_M _ _ _ _ _ Eo). rewrite (bind_M _ _ _ _ _ (space16_ok sO KO)).
    assert (DD := delivers_trans _ _ _ _ _ DF DO). rewrite app_nil_r in DD.
    assert (Mx : nb_max (s_nb sO) = nb_max (s_nb s)) by (destruct DD as (? & _ & _ & _ & _ & _ & X & _); exact X).
    assert (Ro : room sO = Z.min 1228 (nb_max (s_nb s))) by (unfold room; rewrite PO, Mx; lia).
    unfold check_buffspace. replace (hdr + chk >? room sO) with false by lia. rewrite (bind_M _ _ _ sO tt) by reflexivity.
    destruct (Add sO [] (room sO)) as (s2 & P2 & I2 & D2 & Q2 & V2).
    { split; [exact KO|]. split; [exists tF; destruct SF as (sz & sq & E & F); exists sz, sq; rewrite MO, app_nil_r; auto|]. split; [reflexivity|]. change (blen (concat [])) with 0. lia. }
    { change (blen (concat [])) with 0. lia. }
    change (blen (concat [])) with 0 in *. rewrite Z.add_0_r in *.
    exists sO, s2, out, [], (room sO). change (blen (concat [])) with 0. rewrite Z.add_0_r. split; [reflexivity|]. split; [exact P2|]. split; [exact I2|].
    assert (D3 := delivers_trans _ _ _ _ _ DD D2). rewrite app_nil_r in D3. split; [exact D3|]. split; [now rewrite Q2, QO|]. split; [destruct D3 as (? & _ & _ & _ & _ & _ & X & _); exact X|].
    split; [now rewrite app_nil_r|]. split; [exact NE|exact V2].
  - destruct (Add s cur rem) as (s2 & P2 & I2 & D2 & Q2 & V2); [split; [exact K|split; [now exists t|auto]]|lia|].
    exists s, s2, [], cur, rem. split; [reflexivity|]. split; [exact P2|]. split; [exact I2|]. split; [exact D2|]. split; [now rewrite Q2, plus_seq_0|].
    split; [destruct D2 as (? & _ & _ & _ & _ & _ & X & _); exact X|]. split; [reflexivity|]. split; [constructor|exact V2].
Qed.
End items.

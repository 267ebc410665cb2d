From Verif Require Import Base Bytes NetBuf NetBufSpec NetBufProofs HelloSpec HelloProofs DupSet Forward ForwardSpec.

Lemma fwd_if_ok ok m i mtu s : R mtu s (if_nb i) -> 0 < blen m ->
  exists i', fwd_if ok m i = Some (i', snd (enqueue s m)) /\ if_id i' = if_id i /\ if_mode i' = if_mode i /\ R mtu (fst (enqueue s m)) (if_nb i').
Proof.
  intros r Lm. pose proof r as [A (h & t & B1 & B2 & B3) C D E F G H I]. unfold fwd_if, enqueue.
  assert (Q0 : 0 <= queued s <= mtu - 4).
  { unfold queued. split; [apply blen_nonneg|]. rewrite !blen_app in B3. pose proof (blen_nonneg t). lia. }
  assert (P : net_output_pending (if_nb i) = queued s) by (unfold net_output_pending, u16; rewrite E, Z.mod_small; lia).
  rewrite P.
  assert (Push : forall s0 b0, R mtu s0 b0 -> exists b1, net_outbuffer_push b0 m = Some (b1, if queued s0 + blen m <=? q_cap s0 then blen m else 0) /\
     R mtu (if queued s0 + blen m <=? q_cap s0 then put s0 m else s0) b1).
  { intros s0 b0 r0. destruct (step_ok mtu s0 b0 (OPush m) r0 Logic.I) as (mtu' & b1 & Es & R1 & ->). cbn [nbstep sq_step] in Es, R1.
    destruct (queued s0 + blen m <=? q_cap s0); cbn [fst snd] in *; destruct (net_outbuffer_push b0 m) as [[b2 z]|]; try discriminate; injection Es as -> ->; exists b1; auto. }
  destruct (Push s (if_nb i) r) as (b1 & E1 & R1). rewrite E1.
  destruct (Z.eqb_spec (queued s) 0) as [Z0|NZ]; cbn [negb].
  - destruct (queued s + blen m <=? q_cap s) eqn:Q; cbn [fst snd].
    + eexists. split; [reflexivity|]. cbn [with_nb set_buffer_timer if_id if_mode if_nb]. auto.
    + unfold sq_flush. rewrite Z0. cbn [Z.eqb]. rewrite Z0 in Q. rewrite Z0, Q. cbn [fst snd].
      eexists. split; [reflexivity|]. cbn [with_nb set_buffer_timer if_id if_mode if_nb]. auto.
  - destruct (queued s + blen m <=? q_cap s) eqn:Q.
    + rewrite Z.eqb_refl. cbn [negb fst snd]. eexists. split; [reflexivity|]. cbn [with_nb if_id if_mode if_nb]. auto.
    + replace (0 =? blen m) with false by lia. cbn [negb].
      destruct (output_ok mtu s b1 ok R1) as (b2 & Eo & R2). rewrite Eo. destruct (sq_flush s) as [s' p]. cbn [fst snd] in *.
      destruct (Push s' b2 R2) as (b3 & E3 & R3). rewrite E3.
      eexists. split; [reflexivity|]. cbn [with_nb set_buffer_timer if_id if_mode if_nb fst]. auto.
Qed.

Lemma leaves_skip x in_if i s : if_rel i s -> 
  skip_if in_if (is_ttl_1 (o_ttl x) (o_hops x)) i = negb (leaves_on x in_if (fst (fst s)) (snd (fst s))).
Proof.
  intros (A & B & _). unfold skip_if, leaves_on, is_ttl_1. rewrite <- A, <- B.
  replace ((o_ttl x <=? 1) || (256 <=? o_hops x + o_ttl x)) with ((o_ttl x <? 2) || (255 <? o_hops x + o_ttl x)) by lia.
  destruct (if_mode i); cbn [mode_eqb negb]; destruct (if_id i =? in_if), ((o_ttl x <? 2) || (255 <? o_hops x + o_ttl x)); reflexivity.
Qed.

Lemma fwd_ifs_ok ok in_if x : 0 < blen (enc_msg (relayed x)) -> forall ifs ss, Forall2 if_rel ifs ss ->
  exists ifs', fwd_ifs ok in_if (is_ttl_1 (o_ttl x) (o_hops x)) (enc_msg (relayed x)) ifs = Some (ifs', flat_map (fun s => snd (relay_if x in_if s)) ss)
    /\ Forall2 if_rel ifs' (map (fun s => fst (relay_if x in_if s)) ss).
Proof.
  intros Lm. induction 1 as [|i s ifs ss r rs IH]; cbn [fwd_ifs flat_map map]; [exists []; split; [reflexivity|constructor]|].
  destruct IH as (ifs' & E & F). rewrite (leaves_skip x in_if i s r). destruct s as [[id mode] q].
  pose proof r as (A & B & mtu & Rr). cbn [fst snd] in *. unfold relay_if at 1 3. destruct (leaves_on x in_if id mode); cbn [negb].
  - destruct (fwd_if_ok ok (enc_msg (relayed x)) i mtu q Rr Lm) as (i' & Ei & I1 & I2 & I3). rewrite Ei, E.
    destruct (enqueue q (enc_msg (relayed x))) as [q' p]. cbn [fst snd] in *. exists (i' :: ifs'). split.
    + destruct p; cbn [app]; rewrite ?A; reflexivity.
    + constructor; [|exact F]. unfold if_rel. cbn [fst snd]. split; [congruence|]. split; [congruence|eauto].
  - rewrite E. exists (i :: ifs'). split; [reflexivity|]. constructor; [exact r|exact F].
Qed.

(** may this message be relayed *)
Definition may_relay (e : fenv) (now : Z) (d : dup_set) (x : omsg) (from : Z) : Prop :=
  let src := match fe_main e from with Some s => s | None => from end in
  fe_neigh e src = Some true /\ fe_mprs e src = true /\ snd (message_is_duplicate now d (be (o_orig x)) (o_seq x)) = false.

Section Fwd.
Variables (e : fenv) (x : omsg) (post : list Z).
Hypothesis W : wf_omsg (fe_ips e) x.

Definition m : list Z := enc_msg x ++ post.
Definition size : Z := 8 + blen (o_orig x) + blen (o_body x).
Lemma m_eq : m = ([o_type x; o_vtime x] ++ enc16 size ++ o_orig x) ++ o_ttl x :: o_hops x :: (enc16 (o_seq x) ++ o_body x ++ post).
Proof. unfold m, enc_msg, size, enc16. cbv zeta. rewrite <- !app_assoc. reflexivity. Qed.
Lemma pre_len : blen ([o_type x; o_vtime x] ++ enc16 size ++ o_orig x) = 4 + fe_ips e.
Proof. destruct W as (Wo & _). rewrite !blen_app, Wo. change (blen [o_type x; o_vtime x]) with 2. change (blen (enc16 size)) with 2. lia. Qed.

Lemma reads : rd8 m (4 + fe_ips e) = Some (o_ttl x) /\ rd8 m (5 + fe_ips e) = Some (o_hops x) /\ rdn m 4 (fe_ips e) = Some (o_orig x)
  /\ rd16 m (6 + fe_ips e) = Some (o_seq x) /\ rd16 m 2 = Some size.
Proof.
  pose proof pre_len as P. destruct W as (Wo & _). rewrite m_eq. split; [now apply rd8_at|]. split.
  { change (o_ttl x :: o_hops x :: ?r) with ([o_ttl x] ++ o_hops x :: r). rewrite app_assoc. apply rd8_at. rewrite blen_app, P. change (blen [o_ttl x]) with 1. lia. }
  split.
  { rewrite <- !app_assoc. rewrite (app_assoc [o_type x; o_vtime x]). apply rdn_at; [reflexivity|now rewrite Wo]. }
  split.
  { change (o_ttl x :: o_hops x :: ?r) with ([o_ttl x; o_hops x] ++ r). rewrite app_assoc. apply rd16_at. rewrite blen_app, P. change (blen [o_ttl x; o_hops x]) with 2. lia. }
  rewrite <- !app_assoc. now apply rd16_at.
Qed.

Lemma blen_enc y : blen (enc_msg y) = 8 + blen (o_orig y) + blen (o_body y).
Proof. unfold enc_msg. cbv zeta. rewrite !blen_app. assert (F : forall a b c d : Z, blen [a; b; c; d] = 4) by reflexivity. rewrite !F. lia. Qed.

Lemma relayed_bytes : exists m', (if is_ttl_1 (o_ttl x) (o_hops x) then Some m
    else match wr m (5 + fe_ips e) [u8 (o_hops x + 1)] with Some m1 => wr m1 (4 + fe_ips e) [u8 (o_ttl x - 1)] | None => None end) = Some m'
  /\ rdn m' 0 size = Some (enc_msg (relayed x)).
Proof.
  pose proof pre_len as P. destruct W as (Wo & Wt & Wh & Ws). unfold relayed.
  replace ((o_ttl x <=? 1) || (256 <=? o_hops x + o_ttl x)) with (is_ttl_1 (o_ttl x) (o_hops x)) by (unfold is_ttl_1; lia).
  destruct (is_ttl_1 (o_ttl x) (o_hops x)) eqn:T.
  - exists m. split; [reflexivity|]. unfold m. apply (rdn_at [] (enc_msg x) post); [reflexivity|]. rewrite blen_enc. reflexivity.
  - unfold is_ttl_1 in T. rewrite m_eq.
    change (o_ttl x :: o_hops x :: ?r) with ([o_ttl x] ++ [o_hops x] ++ r). rewrite app_assoc.
    rewrite (wr_at _ [o_hops x] _ [u8 (o_hops x + 1)]); [|rewrite blen_app, P; change (blen [o_ttl x]) with 1; lia|reflexivity].
    rewrite <- (app_assoc _ [o_ttl x]). rewrite (wr_at _ [o_ttl x] _ [u8 (o_ttl x - 1)]); [|now rewrite P|reflexivity].
    eexists. split; [reflexivity|].
    assert (U1 : u8 (o_hops x + 1) = o_hops x + 1) by (unfold u8; apply Z.mod_small; lia).
    assert (U2 : u8 (o_ttl x - 1) = o_ttl x - 1) by (unfold u8; apply Z.mod_small; lia).
    rewrite U1, U2. set (y := mkMsg (o_type x) (o_vtime x) (o_orig x) (o_ttl x - 1) (o_hops x + 1) (o_seq x) (o_body x)).
    replace (([o_type x; o_vtime x] ++ enc16 size ++ o_orig x) ++ [o_ttl x - 1] ++ [o_hops x + 1] ++ enc16 (o_seq x) ++ o_body x ++ post)
      with (enc_msg y ++ post) by (unfold enc_msg, y, size, enc16; cbn [o_type o_vtime o_orig o_ttl o_hops o_seq o_body]; cbv zeta; rewrite <- !app_assoc; reflexivity).
    apply (rdn_at [] (enc_msg y) post); [reflexivity|]. rewrite blen_enc. reflexivity.
Qed.

Lemma relayed_len : 0 < blen (enc_msg (relayed x)).
Proof. rewrite blen_enc. pose proof (blen_nonneg (o_orig (relayed x))). pose proof (blen_nonneg (o_body (relayed x))). lia. Qed.

Lemma forward_yes ok now d ifs ss in_if from : Forall2 if_rel ifs ss -> may_relay e now d x from ->
  exists ifs', forward_message e ok now d ifs m in_if from =
    Some (mkFres 1 (fst (message_is_duplicate now d (be (o_orig x)) (o_seq x))) ifs' (flat_map (fun s => snd (relay_if x in_if s)) ss))
  /\ Forall2 if_rel ifs' (map (fun s => fst (relay_if x in_if s)) ss).
Proof.
  intros F (M1 & M2 & M3). destruct reads as (A1 & A2 & A3 & A4 & A5). unfold forward_message. cbv zeta. rewrite A1, A2, A3, A4, A5, M1, M2. cbn [negb].
  destruct (message_is_duplicate now d (be (o_orig x)) (o_seq x)) as [d' v]. cbn [fst snd] in *. subst v.
  destruct relayed_bytes as (m' & -> & ->). destruct (fwd_ifs_ok ok in_if x relayed_len ifs ss F) as (ifs' & -> & F'). eauto.
Qed.

Lemma forward_no ok now d ifs in_if from : ~ may_relay e now d x from ->
  exists d', forward_message e ok now d ifs m in_if from = Some (mkFres 0 d' ifs []).
Proof.
  intros N. destruct reads as (A1 & A2 & A3 & A4 & A5). unfold forward_message, may_relay in *. cbv zeta in *. rewrite A1, A2, A3, A4, A5.
  destruct (fe_neigh e _) as [[|]|]; eauto. destruct (fe_mprs e _); cbn [negb]; eauto.
  destruct (message_is_duplicate now d (be (o_orig x)) (o_seq x)) as [d' [|]]; eauto. exfalso. apply N. auto.
Qed.
End Fwd.

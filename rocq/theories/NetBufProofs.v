From Verif Require Import Base Bytes NetBuf NetBufSpec.

Lemma wr_at a x t d i : i = blen a -> blen x = blen d -> wr (a ++ x ++ t) i d = Some (a ++ d ++ t).
Proof.
  intros -> E. unfold wr. rewrite !blen_app. pose proof (blen_nonneg a). pose proof (blen_nonneg t).
  replace ((0 <=? blen a) && (blen a + blen d <=? blen a + (blen x + blen t))) with true by lia.
  f_equal. unfold blen in *. rewrite Nat2Z.id. rewrite firstn_app, firstn_all, Nat.sub_diag. cbn [firstn]. rewrite app_nil_r. do 2 f_equal.
  replace (Z.to_nat (Z.of_nat (length a) + Z.of_nat (length d))) with (length a + length x)%nat by lia.
  rewrite app_assoc, skipn_app, <- app_length, skipn_all, Nat.sub_diag. reflexivity.
Qed.
Lemma split_at (t : list Z) n : 0 <= n <= blen t -> exists t1 t2, t = t1 ++ t2 /\ blen t1 = n.
Proof.
  intros H. exists (firstn (Z.to_nat n) t), (skipn (Z.to_nat n) t). split; [now rewrite firstn_skipn|].
  unfold blen in *. rewrite firstn_length. lia.
Qed.

Record R (mtu : Z) (s : sq) (b : nb) : Prop := {
  r_mtu : 4 <= mtu < 65536;
  r_buf : exists h t, nb_buf b = Some (h ++ concat (q_msgs s) ++ t) /\ blen h = 4 /\ blen (h ++ concat (q_msgs s) ++ t) = mtu;
  r_size : nb_size b = mtu;
  r_max : nb_max b = q_cap s;
  r_pend : nb_pend b = queued s;
  r_res : nb_res b = q_extra s;
  r_seq : nb_seq b = q_next s;
  r_seqr : 0 <= q_next s < 65536;
  r_cap : 0 <= q_cap s /\ 0 <= q_extra s /\ q_cap s + q_extra s <= mtu - 4 }.

Lemma append_ok mtu s b d : R mtu s b -> queued s + blen d <= mtu - 4 ->
  exists b', append b d = Some b' /\ R mtu (mkSQ (q_msgs s ++ [d]) (q_cap s) (q_extra s) (q_next s)) b'.
Proof.
  intros [A (h & t & B1 & B2 & B3) C D E F G H I] L. unfold append. rewrite B1, E.
  rewrite !blen_app in B3. fold (queued s) in B3. pose proof (blen_nonneg d).
  destruct (split_at t (blen d) ltac:(lia)) as (t1 & t2 & -> & Lt). rewrite blen_app in B3.
  rewrite (app_assoc h). rewrite wr_at; [|rewrite blen_app; fold (queued s); unfold HDR; lia|exact Lt].
  eexists. split; [reflexivity|].
  assert (Qc : queued (mkSQ (q_msgs s ++ [d]) (q_cap s) (q_extra s) (q_next s)) = queued s + blen d).
  { unfold queued. cbn [q_msgs]. rewrite concat_app, blen_app. cbn [concat]. now rewrite app_nil_r. }
  constructor; cbn [nb_buf nb_size nb_max nb_pend nb_res nb_seq q_msgs q_cap q_extra q_next]; auto.
  - exists h, t2. rewrite concat_app. cbn [concat]. rewrite app_nil_r. split; [now rewrite <- !app_assoc|]. split; [exact B2|].
    rewrite !blen_app. unfold queued in B3. lia.
Qed.

Lemma enc_net16 n : 0 <= n < 65536 -> net16 n = [n / 256; n mod 256].
Proof. intros H. unfold net16, u16. rewrite Z.mod_small by lia. reflexivity. Qed.

Lemma output_ok mtu s b ok : R mtu s b ->
  exists b', net_output [] ok b = Some (b', match snd (sq_flush s) with None => 0 | Some x => if ok then blen x else -1 end, snd (sq_flush s)) /\ R mtu (fst (sq_flush s)) b'.
Proof.
  intros r. pose proof r as [A (h & t & B1 & B2 & B3) C D E F G H I]. unfold net_output, sq_flush. rewrite E.
  destruct (Z.eqb_spec (queued s) 0) as [Q|Q]; cbn [fst snd]; [exists b; split; [reflexivity|exact r]|].
  rewrite B1. cbv zeta. set (c := concat (q_msgs s)) in *.
  assert (Nq : 0 <= queued s) by apply blen_nonneg.
  assert (Lq : queued s = blen c) by reflexivity.
  destruct (split_at h 2 ltac:(lia)) as (h1 & h2 & -> & L1). rewrite blen_app in B2.
  rewrite <- (app_assoc h1). rewrite (wr_at h1 h2 (c ++ t) (net16 (nb_seq b)) 2); [|lia|change (blen (net16 (nb_seq b))) with 2; lia].
  pose proof (wr_at [] h1 (net16 (nb_seq b) ++ c ++ t) (net16 (queued s + HDR)) 0 eq_refl) as W. cbn [app] in W. rewrite W; [|exact L1].
  cbn [run_ptfs].
  assert (Rd : rdn (net16 (queued s + HDR) ++ net16 (nb_seq b) ++ c ++ t) 0 (queued s + HDR) = Some (net16 (queued s + HDR) ++ net16 (nb_seq b) ++ c)).
  { replace (net16 (queued s + HDR) ++ net16 (nb_seq b) ++ c ++ t) with ([] ++ (net16 (queued s + HDR) ++ net16 (nb_seq b) ++ c) ++ t) by (cbn [app]; rewrite <- !app_assoc; reflexivity).
    apply rdn_at; [reflexivity|]. rewrite !blen_app, Lq. unfold HDR. change (blen (net16 (blen c + 4))) with 2. change (blen (net16 (nb_seq b))) with 2. lia. }
  rewrite Rd. eexists. split.
  - assert (P : net16 (queued s + HDR) ++ net16 (nb_seq b) ++ c = packet_of (q_next s) (q_msgs s)).
    { unfold packet_of. fold c. rewrite <- Lq. rewrite G. rewrite !enc_net16; [|lia|unfold HDR; rewrite !blen_app, <- Lq in B3; pose proof (blen_nonneg t); lia].
      unfold HDR. replace (queued s + 4) with (4 + queued s) by lia. reflexivity. }
    rewrite P. do 3 f_equal. destruct ok; [|reflexivity]. unfold packet_of, HDR. cbv zeta. rewrite blen_app. fold c. rewrite <- Lq.
    replace (blen [(4 + queued s) / 256; (4 + queued s) mod 256; q_next s / 256; q_next s mod 256]) with 4 by reflexivity. lia.
  - constructor; cbn [nb_buf nb_size nb_max nb_pend nb_res nb_seq q_msgs q_cap q_extra q_next]; auto.
    + exists (net16 (queued s + HDR) ++ net16 (nb_seq b)), (c ++ t). cbn [concat app]. split; [now rewrite <- !app_assoc|]. split; [reflexivity|].
      rewrite !blen_app in B3 |- *. change (blen (net16 (queued s + HDR))) with 2. change (blen (net16 (nb_seq b))) with 2. lia.
    + now rewrite G.
    + apply Z.mod_pos_bound; lia.
Qed.

Lemma add_ok mtu b : 4 <= mtu < 65536 -> 0 <= nb_seq b < 65536 -> (forall x, nb_buf b = Some x -> blen x = nb_size b) -> R mtu (mkSQ [] (mtu - 4) 0 (nb_seq b)) (net_add_buffer mtu b).
Proof.
  intros M S B. unfold net_add_buffer. cbv zeta. 
  assert (L : forall x : list Z, blen x = mtu -> exists h t, Some x = Some (h ++ concat (q_msgs (mkSQ [] (mtu - 4) 0 (nb_seq b))) ++ t) /\ blen h = 4 /\ blen (h ++ concat (q_msgs (mkSQ [] (mtu - 4) 0 (nb_seq b))) ++ t) = mtu).
  { intros x Lx. cbn [q_msgs concat app]. destruct (split_at x 4 ltac:(lia)) as (h & t & -> & Lh). exists h, t. auto. }
  assert (L0 : blen (repeat 0 (Z.to_nat mtu)) = mtu) by (unfold blen; rewrite repeat_length; lia).
  constructor; cbn [nb_buf nb_size nb_max nb_pend nb_res nb_seq q_msgs q_cap q_extra q_next]; auto; try (unfold HDR; lia).
  destruct (nb_buf b) as [x|]; [|apply L, L0]. destruct (Z.eqb_spec (nb_size b) mtu); [|apply L, L0]. apply L. rewrite B; auto.
Qed.

Lemma step_ok mtu s b o : R mtu s b -> sane o -> exists mtu' b', nbstep [] b o = Some (b', snd (sq_step s o)) /\ R mtu' (fst (sq_step s o)) b' /\
  (match o with OMtu m _ => mtu' = m | _ => mtu' = mtu end).
Proof.
  intros r Sa. pose proof r as [A (h & t & B1 & B2 & B3) C D E F G H I]. destruct o as [d|d|n| |ok|m ok]; cbn [nbstep sq_step].
  - unfold net_outbuffer_push. rewrite D, E. pose proof (blen_nonneg d).
    destruct (Z.gtb_spec (queued s + blen d) (q_cap s)) as [Gt|Le].
    + replace (queued s + blen d <=? q_cap s) with false by lia. cbn [fst snd]. exists mtu, b. auto.
    + replace (queued s + blen d <=? q_cap s) with true by lia. cbn [fst snd]. destruct (append_ok mtu s b d r ltac:(lia)) as (b' & -> & R'). exists mtu, b'. auto.
  - unfold net_outbuffer_push_reserved. rewrite D, E, F. pose proof (blen_nonneg d).
    destruct (Z.gtb_spec (queued s + blen d) (q_cap s + q_extra s)) as [Gt|Le].
    + replace (queued s + blen d <=? q_cap s + q_extra s) with false by lia. cbn [fst snd]. exists mtu, b. auto.
    + replace (queued s + blen d <=? q_cap s + q_extra s) with true by lia. cbn [fst snd]. destruct (append_ok mtu s b d r ltac:(lia)) as (b' & -> & R'). exists mtu, b'. auto.
  - unfold net_reserve_bufspace. rewrite D. cbn [sane] in Sa. destruct (Z.gtb_spec n (q_cap s)) as [Gt|Le].
    + replace (n <=? q_cap s) with false by lia. exists mtu, b. auto.
    + replace (n <=? q_cap s) with true by lia. cbn [fst snd]. exists mtu. eexists. split; [reflexivity|]. split; [|reflexivity].
      constructor; cbn [nb_buf nb_size nb_max nb_pend nb_res nb_seq q_msgs q_cap q_extra q_next]; auto; try lia. exists h, t. auto.
  - exists mtu, b. split; [|auto]. unfold net_outbuffer_bytes_left. rewrite D, E. cbv zeta. change MAX_REMAINING with 1228. cbn [snd]. do 3 f_equal.
    destruct (Z.gtb_spec (q_cap s - queued s) 1228); lia.
  - destruct (output_ok mtu s b ok r) as (b' & -> & R'). destruct (sq_flush s) as [s' p]. cbn [fst snd] in *. exists mtu, b'. auto.
  - cbn [sane] in Sa. unfold change_mtu, net_remove_buffer.
    destruct (output_ok mtu s b ok r) as (b' & Eo & R').
    assert (Same : (if nb_pend b =? 0 then Some (b, 0, None) else net_output [] ok b) = net_output [] ok b) by (unfold net_output; destruct (nb_pend b =? 0); reflexivity).
    rewrite Same, Eo. destruct (sq_flush s) as [s' p]. cbn [fst snd] in *. exists m. eexists. split; [reflexivity|]. split; [|reflexivity].
    rewrite <- (r_seq _ _ _ R'). apply (add_ok m (mkNB None (nb_size b') (nb_max b') (nb_pend b') (nb_res b') (nb_seq b'))); [exact Sa| |intros x Q; discriminate].
    cbn [nb_seq]. rewrite (r_seq _ _ _ R'). apply (r_seqr _ _ _ R').
Qed.

Lemma run_ok ops : forall mtu s b, R mtu s b -> Forall sane ops -> exists b', nbrun [] b ops = Some (b', snd (sq_run s ops)).
Proof.
  induction ops as [|o ops IH]; intros mtu s b r Sa; cbn [nbrun sq_run]; [exists b; reflexivity|].
  destruct (step_ok mtu s b o r (Forall_inv Sa)) as (mtu' & b1 & E & r' & _). rewrite E.
  destruct (sq_step s o) as [s' x]. cbn [fst snd] in *. destruct (IH mtu' s' b1 r' (Forall_inv_tail Sa)) as (b2 & E2). rewrite E2.
  destruct (sq_run s' ops) as [s2 xs]. cbn [snd]. eauto.
Qed.

Lemma c31_refines mtu seq ops : 4 <= mtu < 65536 -> 0 <= seq < 65536 -> Forall sane ops ->
  exists b', nbrun [] (net_add_buffer mtu (nb_zero seq)) ops = Some (b', snd (sq_run (mkSQ [] (mtu - 4) 0 seq) ops)).
Proof.
  intros M S Sa. eapply run_ok; [|exact Sa]. apply (add_ok mtu (nb_zero seq)); [exact M|exact S|intros x Q; discriminate].
Qed.

(** every packet fits the MTU in force *)
Definition mtu_before (mtu : Z) (ops : list nbop) : Z :=
  fold_left (fun m o => match o with OMtu n _ => n | _ => m end) ops mtu.

Lemma run_fits ops : forall mtu s b, R mtu s b -> Forall sane ops ->
  forall n r p, nth_error (snd (sq_run s ops)) n = Some (r, Some p) -> blen p <= mtu_before mtu (firstn n ops).
Proof.
  induction ops as [|o ops IH]; intros mtu s b rr Sa n r p H; cbn [sq_run] in H; [destruct n; discriminate|].
  destruct (step_ok mtu s b o rr (Forall_inv Sa)) as (mtu' & b1 & E & r' & Em).
  destruct (sq_step s o) as [s' x] eqn:Es. cbn [fst snd] in r'.
  destruct n as [|n].
  - destruct (sq_run s' ops) as [s2 xs]. cbn [snd nth_error] in H. apply Some_inj in H. subst x. cbn [firstn mtu_before fold_left].
    assert (P : forall s1 p, sq_flush s = (s1, Some p) -> blen p <= mtu).
    { intros s1 p0 Q. unfold sq_flush in Q. destruct (queued s =? 0); [discriminate|]. injection Q as _ <-.
      destruct rr as [A (h & t & B1 & B2 & B3) C D E' F G H' I]. unfold packet_of. cbv zeta. rewrite blen_app. rewrite !blen_app in B3. pose proof (blen_nonneg t).
      unfold blen at 1. cbn [length]. lia. }
    destruct o as [d|d|m| |ok|m ok]; cbn [sq_step] in Es.
    + destruct (_ <=? _); discriminate. + destruct (_ <=? _); discriminate. + destruct (_ <=? _); discriminate. + discriminate.
    + destruct (sq_flush s) as [s1 [q|]] eqn:Q; [|discriminate]. injection Es as _ _ <-. eauto.
    + destruct (sq_flush s) as [s1 [q|]] eqn:Q; [|discriminate]. injection Es as _ _ <-. eauto.
  - specialize (IH mtu' s' b1 r' (Forall_inv_tail Sa) n r p). destruct (sq_run s' ops) as [s2 xs]. cbn [snd nth_error] in H, IH. specialize (IH H).
    cbn [firstn mtu_before fold_left]. destruct o; subst mtu'; exact IH.
Qed.

(** reservations *)
Lemma reserved_room ds : forall s n d, 0 <= n -> queued s + n <= q_cap s + n -> queued s <= q_cap s -> q_extra s = n -> blen d <= n ->
  snd (sq_run s (map OPush ds ++ [OPushRes d])) = snd (sq_run s (map OPush ds)) ++ [(blen d, None)].
Proof.
  induction ds as [|x ds IH]; intros s n d N Q1 Q2 E L; cbn [map app sq_run].
  - cbn [sq_step snd]. rewrite E. replace (queued s + blen d <=? q_cap s + n) with true by lia. reflexivity.
  - destruct (sq_step s (OPush x)) as [s' o] eqn:Es. 
    assert (H : queued s' <= q_cap s' /\ q_extra s' = n).
    { cbn [sq_step] in Es. destruct (Z.leb_spec (queued s + blen x) (q_cap s)); injection Es as <- _; [|auto]. cbn [q_cap q_extra]. split; [|exact E].
      unfold queued. cbn [q_msgs]. rewrite concat_app, blen_app. cbn [concat]. rewrite app_nil_r. exact H. }
    specialize (IH s' n d N ltac:(lia) ltac:(tauto) ltac:(tauto) L).
    destruct (sq_run s' (map OPush ds ++ [OPushRes d])) as [s2 xs]. destruct (sq_run s' (map OPush ds)) as [s3 ys]. cbn [snd] in *. rewrite IH. reflexivity.
Qed.

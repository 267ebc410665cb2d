(** Proofs about the secure plugin: the handshake. *)
From Verif Require Import Base Bytes NetBuf NetBufSpec NetBufProofs Parser ParserProofs SchedTime BuildMsgSpec Secure SecureSpec SecureProofs SecureRunProofs.

Lemma mine_in c a : In a (c_ifs c) -> is_mine c a = true.
Proof. intros I. unfold is_mine. apply existsb_exists. exists a. split; [exact I|apply bytes_refl]. Qed.
Lemma hs_ne c t n seq d b : hs_sign c (hs_header c t n seq d ++ b) <> [].
Proof. discriminate. Qed.
Lemma blen_hs c t n seq d b : cfg_ok c -> blen d = 4 -> blen (hs_sign c (hs_header c t n seq d ++ b)) = 16 + blen b + ssz (c_abi c).
Proof.
  intros (A & M & Hsh) Ld. unfold hs_sign, hs_header. rewrite !blen_app, Hsh, !blen_net16, M, Ld. change (blen [t; 0]) with 2. change (blen [1; 0]) with 2. lia.
Qed.
Lemma peers_sym c c' : peers c c' -> peers c' c.
Proof. unfold peers. intuition congruence. Qed.

(** a packet from a node that is not known *)
Definition challenge_msg (c : scfg) (s : sec) (e : senv) (host : list Z) : list Z :=
  hs_sign c (hs_header c 11 (CMSG (c_abi c)) (s_seq s) host ++ net32 (e_r2 e)).
Lemma challenge_ok c c' e s now seq q w p rest :
  cfg_ok c -> cfg_ok c' -> peers c c' -> ~ padded (c_abi c) -> signed c now seq q w p -> w <> [] -> ~ handshake_type w ->
  4 + blen w + SMSG (c_abi c) - ssz (c_abi c) <= 1512 -> calm (c_abi c') (s_nb s) -> lookup_stamp (s_tab s) (c_main c) = None ->
  exists s' p', secure_preprocessor c' e s (p ++ rest) (blen p) = Some (s', [p'], None) /\
    s_tab s' = mkStamp (c_main c) 0 (e_r2 e) false (e_junk2 e) (getTimestamp (e_ms e) 5000) :: s_tab s /\ s_now s' = s_now s /\
    calm (c_abi c') (s_nb s') /\
    signed c' (s_now s) (u16 (s_seq s + 1)) (nb_seq (s_nb s)) (challenge_msg c' s e (c_main c)) p'.
Proof.
  intros C C' Pe Np Sg Nw Nh Hl Id L. destruct w as [|t w']; [congruence|].
  unfold secure_preprocessor.
  rewrite (no_auth c' e s (p ++ rest) t); [|eapply signed_first; eassumption|..]; try (intros ->; apply Nh; do 2 eexists; eauto; fail).
  cbn [obind]. rewrite (validate_signed c c' e s now seq q (t :: w') p rest) by assumption.
  unfold check_timestamp. rewrite L. unfold send_challenge. cbv zeta. fold (challenge_msg c' s e (c_main c)).
  destruct (send_ok c' e (set_seq s (u16 (s_seq s + 1))) (challenge_msg c' s e (c_main c))) as (s' & p' & E & T & N & I & S'); try assumption.
  - discriminate.
  - unfold challenge_msg. rewrite blen_hs by (assumption || apply C). change (blen (net32 (e_r2 e))) with 4.
    destruct C' as (A & _). pose proof (layouts _ A) as Ly. destruct A as [_ [G|G]], Ly; lia.
  - rewrite E. cbn [obind fst snd]. eexists _, p'. split; [reflexivity|]. cbn [s_tab set_tab s_now s_nb]. rewrite T. cbn [s_tab set_seq]. repeat split; try assumption; try reflexivity; apply I.
Qed.

(** the challenge arrives *)
Definition cres_msg (c : scfg) (seq now r1 : Z) (to from chal : list Z) : list Z :=
  let a := c_abi c in
  hs_sign c (hs_header c 12 (CRMSG a) seq to ++ net32 r1 ++ repeat 0 (Z.to_nat (cts_off a - 20)) ++ enc_ts a now ++ c_hash c (chal ++ from)).
Lemma cres_len c seq now r1 to from chal : cfg_ok c -> blen to = 4 -> blen (cres_msg c seq now r1 to from chal) = CRMSG (c_abi c).
Proof.
  intros C Lt. unfold cres_msg. cbv zeta. rewrite blen_hs by assumption. destruct C as (A & M & Hsh).
  rewrite !blen_app, Hsh, blen_enc_ts by assumption. change (blen (net32 r1)) with 4. unfold blen at 1. rewrite repeat_length.
  destruct (layouts _ A); lia.
Qed.
Lemma chal_arrives cA cB e s nowA seqA q sc r p rest :
  cfg_ok cA -> cfg_ok cB -> peers cA cB -> ~ padded (c_abi cA) -> In (c_main cB) (c_ifs cB) ->
  signed cA nowA seqA q (hs_sign cA (hs_header cA 11 (CMSG (c_abi cA)) sc (c_main cB) ++ net32 r)) p ->
  calm (c_abi cB) (s_nb s) ->
  (forall P, lookup_stamp (s_tab s) (c_main cA) = Some P -> isTimedOut (e_ms e) (p_conf P) = true) ->
  exists s' p' P, secure_preprocessor cB e s (p ++ rest) (blen p) = Some (s', [p'], None) /\
    lookup_stamp (s_tab s') (c_main cA) = Some P /\ p_valid P = false /\ p_chal P = e_r1 e /\ s_now s' = s_now s /\ calm (c_abi cB) (s_nb s') /\
    signed cB (s_now s) (u16 (s_seq s + 1)) (nb_seq (s_nb s)) (cres_msg cB (s_seq s) (s_now s) (e_r1 e) (c_main cA) (c_main cB) (net32 r)) p'.
Proof.
  intros C C' Pe Np Mi Sg Id L.
  destruct (signed_split _ _ _ _ _ _ rest Sg) as (h & post & Eb & Lh).
  pose proof (hs_read cA cB 11 (CMSG (c_abi cA)) sc (c_main cB) (net32 r) h post C Pe (proj1 (proj2 C')) Lh) as R. cbv zeta in R. rewrite <- Eb in R.
  destruct R as (R1 & R2 & R3 & R4 & R5).
  { unfold CMSG. change (blen (net32 r)) with 4. lia. }
  unfold secure_preprocessor, check_auth. rewrite R1. cbn [obind Z.eqb Pos.eqb].
  unfold parse_challenge. rewrite R2. cbn [obind]. rewrite (mine_in _ _ Mi). cbn [negb]. rewrite R3. cbn [obind].
  replace (CMSG (c_abi cB)) with (CMSG (c_abi cA)) by (f_equal; apply Pe). rewrite R4. cbn [obind negb].
  rewrite (R5 [] (net32 r) [] 16 4) by reflexivity. cbn [obind].
  assert (X : exists s1 P0, (match lookup_stamp (s_tab s) (c_main cA) with
           | None => Some (set_tab s (mkStamp (c_main cA) (p_diff (e_junk1 e)) (p_chal (e_junk1 e)) (p_valid (e_junk1 e)) (p_val (e_junk1 e)) (p_conf (e_junk1 e)) :: s_tab s))
           | Some p => if isTimedOut (e_ms e) (p_conf p) then Some s else None
           end) = Some s1 /\ s_nb s1 = s_nb s /\ s_seq s1 = s_seq s /\ s_now s1 = s_now s /\ lookup_stamp (s_tab s1) (c_main cA) = Some P0).
  { destruct (lookup_stamp (s_tab s) (c_main cA)) as [P0|] eqn:El.
    - exists s, P0. rewrite (L P0 eq_refl). auto.
    - eexists _, _. split; [reflexivity|]. cbn. repeat split. unfold lookup_stamp. cbn [find p_addr]. rewrite bytes_refl. reflexivity. }
  destruct X as (s1 & P0 & -> & X1 & X2 & X3 & X4).
  unfold send_cres. cbv zeta. cbn [s_tab set_tab s_seq s_now]. rewrite upd_upd by reflexivity. rewrite X2, X3.
  fold (cres_msg cB (s_seq s) (s_now s) (e_r1 e) (c_main cA) (c_main cB) (net32 r)).
  match goal with |- context [send cB e ?x _] => set (s2 := x) end.
  destruct (send_ok cB e s2 (cres_msg cB (s_seq s) (s_now s) (e_r1 e) (c_main cA) (c_main cB) (net32 r))) as (s' & p' & E & T & N & I & S'); try assumption.
  - cbn. rewrite X1. exact Id.
  - discriminate.
  - rewrite cres_len; [lia|assumption|apply C].
  - rewrite E. cbn [obind].
    assert (Ln : 4 + blen (hs_sign cA (hs_header cA 11 (CMSG (c_abi cA)) sc (c_main cB) ++ net32 r)) + SMSG (c_abi cA) - ssz (c_abi cA) <= 1512).
    { rewrite blen_hs by (assumption || apply C'). change (blen (net32 r)) with 4. destruct C as (A & _). pose proof (layouts _ A) as Ly.
      destruct A as [_ [G|G]], Ly; destruct (ssz (c_abi cA) =? 20); lia. }
    rewrite (validate_signed cA cB e s' nowA seqA q _ p rest C Pe Np Sg Ln).
    assert (Lk : exists P, lookup_stamp (s_tab s') (c_main cA) = Some P /\ p_valid P = false /\ p_chal P = e_r1 e).
    { rewrite T. unfold s2. cbn [s_tab set_tab set_seq]. rewrite lookup_upd by reflexivity. rewrite X4. cbn [option_map]. eexists. repeat split. }
    destruct Lk as (P & Lk & Vp & Cp). unfold check_timestamp. rewrite Lk, Vp. cbn [negb obind].
    exists s', p', P. split; [reflexivity|]. repeat split; try assumption; try apply I.
    + rewrite N. cbn. exact X3.
    + revert S'. unfold s2. cbn. rewrite X1, X3. auto.
Qed.

(** the challenge-response arrives *)
Definition rres_msg (c : scfg) (seq now : Z) (to from chal : list Z) : list Z :=
  let a := c_abi c in hs_sign c (hs_header c 13 (RRMSG a) seq to ++ enc_ts a now ++ c_hash c (chal ++ from)).
Lemma rres_len c seq now to from chal : cfg_ok c -> blen to = 4 -> blen (rres_msg c seq now to from chal) = RRMSG (c_abi c).
Proof.
  intros C Lt. unfold rres_msg. cbv zeta. rewrite blen_hs by assumption. destruct C as (A & M & Hsh).
  rewrite !blen_app, Hsh, blen_enc_ts by assumption. destruct (layouts _ A); lia.
Qed.
(** the packet of a response is accepted *)
Lemma response_accepted c c' e s now seq q w p rest P :
  cfg_ok c -> peers c c' -> ~ padded (c_abi c) -> signed c now seq q w p -> 4 + blen w + SMSG (c_abi c) - ssz (c_abi c) <= 1512 -> 0 <= q < 65536 ->
  lookup_stamp (s_tab s) (c_main c) = Some P -> p_valid P = true -> p_diff P = s_now s - u32 now ->
  exists s' buf', (obind (validate_packet c' e s (p ++ rest) (blen p)) (fun r2 => let '(s2, o2, n) := r2 in
       match n with None => Some (s2, o2, None)
       | Some len => obind (wr (p ++ rest) 0 (net16 len)) (fun buf' => Some (s2, o2, Some (buf', len))) end))
     = Some (s', [], Some (buf', 4 + blen w)) /\ slice buf' 0 (4 + blen w) = packet_of q [w] /\
     s_now s' = s_now s /\ s_nb s' = s_nb s /\ s_seq s' = s_seq s /\ knows s' (c_main c) (s_now s - u32 now).
Proof.
  intros C Pe Np Sg Hl Hq L V D.
  assert (Sz : ssz (c_abi c) <= SMSG (c_abi c)).
  { destruct C as (A & _). pose proof (layouts _ A) as Ly. destruct A as [_ [G|G]], Ly; destruct (ssz (c_abi c) =? 20); lia. }
  destruct (signed_body _ _ _ _ _ _ rest Sg ltac:(lia) Hq) as (buf' & Eb & Es).
  rewrite (validate_signed c c' e s now seq q w p rest) by assumption.
  rewrite (fresh_check _ _ _ _ _ (p_diff P)); [|exists P; auto|lia]. cbn [obind]. rewrite Eb. cbn [obind].
  eexists _, buf'. split; [reflexivity|]. split; [exact Es|]. repeat split.
  unfold knows, refreshed. cbn [s_tab set_tab]. rewrite lookup_upd by reflexivity. rewrite L. cbn [option_map]. eexists. split; [reflexivity|].
  split; [exact V|]. cbn. rewrite D. replace (s_now s - u32 now + (s_now s - u32 now)) with ((s_now s - u32 now) * 2) by lia. apply Z.quot_mul. lia.
Qed.

Lemma cres_arrives cA cB e s nowB seqB q sc r1 r2 p rest P :
  cfg_ok cA -> cfg_ok cB -> peers cB cA -> ~ padded (c_abi cB) -> In (c_main cA) (c_ifs cA) -> 0 <= q < 65536 ->
  signed cB nowB seqB q (cres_msg cB sc nowB r1 (c_main cA) (c_main cB) (net32 r2)) p ->
  calm (c_abi cA) (s_nb s) -> lookup_stamp (s_tab s) (c_main cB) = Some P -> p_chal P = r2 ->
  exists s' p' buf' len, secure_preprocessor cA e s (p ++ rest) (blen p) = Some (s', [p'], Some (buf', len)) /\
    knows s' (c_main cB) (s_now s - u32 nowB) /\
    signed cA (s_now s) (u16 (s_seq s + 1)) (nb_seq (s_nb s)) (rres_msg cA (s_seq s) (s_now s) (c_main cB) (c_main cA) (net32 r1)) p'.
Proof.
  intros CA CB Pe Np Mi Hq Sg Id L Ch.
  destruct (signed_split _ _ _ _ _ _ rest Sg) as (h & post & Eb & Lh). set (a := c_abi cB) in *.
  assert (Ea : c_abi cA = a) by (symmetry; apply Pe). assert (Eh : c_hash cA = c_hash cB) by (symmetry; apply Pe).
  pose proof CB as (AB & MB & HB). fold a in AB, HB. pose proof (layouts _ AB) as Ly.
  pose proof (hs_read cB cA 12 (CRMSG a) sc (c_main cA) (net32 r1 ++ repeat 0 (Z.to_nat (cts_off a - 20)) ++ enc_ts a nowB ++ c_hash cB (net32 r2 ++ c_main cB)) h post CB Pe (proj1 (proj2 CA)) Lh) as R.
  cbv zeta in R. change (hs_sign cB (hs_header cB 12 (CRMSG a) sc (c_main cA) ++ net32 r1 ++ repeat 0 (Z.to_nat (cts_off a - 20)) ++ enc_ts a nowB ++ c_hash cB (net32 r2 ++ c_main cB)))
    with (cres_msg cB sc nowB r1 (c_main cA) (c_main cB) (net32 r2)) in R.
  rewrite <- Eb in R.
  assert (Lrep : blen (repeat 0 (Z.to_nat (cts_off a - 20))) = cts_off a - 20). { unfold blen. rewrite repeat_length. destruct Ly; lia. }
  destruct R as (R1 & R2 & R3 & R4 & R5).
  { fold a. rewrite !blen_app, HB, Lrep, blen_enc_ts by assumption. change (blen (net32 r1)) with 4. destruct Ly; lia. }
  assert (Cl : cres_msg cB sc nowB r1 (c_main cA) (c_main cB) (net32 r2) <> []) by discriminate.
  pose proof (cres_len cB sc nowB r1 (c_main cA) (c_main cB) (net32 r2) CB (proj1 (proj2 CA))) as Cll. fold a in Cll.
  assert (Ln : 4 + CRMSG a + SMSG a - ssz a <= 1512) by (destruct AB as [_ [G|G]], Ly; destruct (ssz a =? 20); lia).
  unfold secure_preprocessor, check_auth. rewrite R1. cbn [obind Z.eqb Pos.eqb].
  unfold parse_cres, response_ok. rewrite Ea. cbv zeta. rewrite R2. cbn [obind]. rewrite (mine_in _ _ Mi). cbn [negb]. rewrite R4. cbn [obind negb].
  rewrite R3. cbn [obind]. rewrite L.
  rewrite (R5 (net32 r1 ++ repeat 0 (Z.to_nat (cts_off a - 20)) ++ enc_ts a nowB) (c_hash cB (net32 r2 ++ c_main cB)) [] (cts_off a + tsz a) (ssz a)).
  2:{ rewrite app_nil_r. asc. }
  2:{ rewrite !blen_app, Lrep, blen_enc_ts by assumption. change (blen (net32 r1)) with 4. lia. }
  2:{ now rewrite HB. }
  cbn [obind]. rewrite Ch, Eh, bytes_refl. cbn [obind].
  rewrite (R5 (net32 r1 ++ repeat 0 (Z.to_nat (cts_off a - 20))) (enc_ts a nowB) (c_hash cB (net32 r2 ++ c_main cB)) (cts_off a) (tsz a)).
  2:{ asc. }
  2:{ rewrite !blen_app, Lrep. change (blen (net32 r1)) with 4. lia. }
  2:{ now rewrite blen_enc_ts. }
  cbn [obind]. rewrite (R5 [] (net32 r1) (repeat 0 (Z.to_nat (cts_off a - 20)) ++ enc_ts a nowB ++ c_hash cB (net32 r2 ++ c_main cB)) 16 4) by reflexivity.
  cbn [obind]. unfold send_rres. cbv zeta.
  set (s1 := validated cA e s (c_main cB) (enc_ts a nowB)). change (s_seq s1) with (s_seq s). change (s_now s1) with (s_now s).
  fold (rres_msg cA (s_seq s) (s_now s) (c_main cB) (c_main cA) (net32 r1)).
  destruct (send_ok cA e (set_seq s1 (u16 (s_seq s + 1))) (rres_msg cA (s_seq s) (s_now s) (c_main cB) (c_main cA) (net32 r1))) as (s' & p' & E & T & N & I & S'); try assumption.
  - discriminate.
  - rewrite rres_len; [|assumption|assumption]. rewrite Ea. destruct AB as [_ [G|G]], Ly; lia.
  - rewrite E. cbn [obind].
    assert (Lk : exists P', lookup_stamp (s_tab s') (c_main cB) = Some P' /\ p_valid P' = true /\ p_diff P' = s_now s' - u32 nowB).
    { rewrite T, N. unfold s1, validated. cbn [s_tab set_tab set_seq s_now]. rewrite lookup_upd by reflexivity. rewrite L. cbn [option_map]. eexists. split; [reflexivity|]. cbn. rewrite Ea, dec_enc_ts by assumption. auto. }
    destruct Lk as (P' & Lk & Vp & Dp).
    destruct (response_accepted cB cA e s' nowB seqB q _ p rest P' CB Pe Np Sg ltac:(fold a; lia) Hq Lk Vp Dp) as (s3 & buf' & E3 & B3 & N3 & _ & _ & K3).
    assert (E4 : obind (validate_packet cA e s' (p ++ rest) (blen p)) (fun r2 => let '(s2, o2, n) := r2 in
       match n with None => Some (s2, [p'] ++ o2, None)
       | Some len => obind (wr (p ++ rest) 0 (net16 len)) (fun buf' => Some (s2, [p'] ++ o2, Some (buf', len))) end)
       = Some (s3, [p'], Some (buf', 4 + blen (cres_msg cB sc nowB r1 (c_main cA) (c_main cB) (net32 r2))))).
    { revert E3. destruct (validate_packet cA e s' (p ++ rest) (blen p)) as [[[x y] z]|]; [|discriminate]. cbn [obind]. destruct z as [z|]; [|discriminate].
      destruct (wr (p ++ rest) 0 (net16 z)); [|discriminate]. cbn [obind]. intros E3. apply Some_inj in E3. inversion E3; subst. reflexivity. }
    rewrite E4. eexists _, p', buf', _. split; [reflexivity|]. split.
    + rewrite N in K3. exact K3.
    + exact S'.
Qed.

Lemma rres_arrives cA cB e s nowA seqA q sc r1 p rest P :
  cfg_ok cA -> cfg_ok cB -> peers cA cB -> ~ padded (c_abi cA) -> In (c_main cB) (c_ifs cB) -> 0 <= q < 65536 ->
  signed cA nowA seqA q (rres_msg cA sc nowA (c_main cB) (c_main cA) (net32 r1)) p ->
  lookup_stamp (s_tab s) (c_main cA) = Some P -> p_chal P = r1 ->
  exists s' buf' len, secure_preprocessor cB e s (p ++ rest) (blen p) = Some (s', [], Some (buf', len)) /\
    knows s' (c_main cA) (s_now s - u32 nowA).
Proof.
  intros CA CB Pe Np Mi Hq Sg L Ch.
  destruct (signed_split _ _ _ _ _ _ rest Sg) as (h & post & Eb & Lh). set (a := c_abi cA) in *.
  assert (Ea : c_abi cB = a) by (symmetry; apply Pe). assert (Eh : c_hash cB = c_hash cA) by (symmetry; apply Pe).
  pose proof CA as (AA & MA & HA). fold a in AA, HA. pose proof (layouts _ AA) as Ly.
  pose proof (hs_read cA cB 13 (RRMSG a) sc (c_main cB) (enc_ts a nowA ++ c_hash cA (net32 r1 ++ c_main cA)) h post CA Pe (proj1 (proj2 CB)) Lh) as R.
  cbv zeta in R. change (hs_sign cA (hs_header cA 13 (RRMSG a) sc (c_main cB) ++ enc_ts a nowA ++ c_hash cA (net32 r1 ++ c_main cA)))
    with (rres_msg cA sc nowA (c_main cB) (c_main cA) (net32 r1)) in R.
  rewrite <- Eb in R.
  destruct R as (R1 & R2 & R3 & R4 & R5).
  { fold a. rewrite !blen_app, HA, blen_enc_ts by assumption. destruct Ly; lia. }
  pose proof (rres_len cA sc nowA (c_main cB) (c_main cA) (net32 r1) CA (proj1 (proj2 CB))) as Cll. fold a in Cll.
  assert (Ln : 4 + RRMSG a + SMSG a - ssz a <= 1512) by (destruct AA as [_ [G|G]], Ly; destruct (ssz a =? 20); lia).
  unfold secure_preprocessor, check_auth. rewrite R1. cbn [obind Z.eqb Pos.eqb].
  unfold parse_rres, response_ok. rewrite Ea. cbv zeta. rewrite R2. cbn [obind]. rewrite (mine_in _ _ Mi). cbn [negb]. rewrite R4. cbn [obind negb].
  rewrite R3. cbn [obind]. rewrite L.
  rewrite (R5 (enc_ts a nowA) (c_hash cA (net32 r1 ++ c_main cA)) [] (16 + tsz a) (ssz a)).
  2:{ rewrite app_nil_r. reflexivity. }
  2:{ now rewrite blen_enc_ts. }
  2:{ now rewrite HA. }
  cbn [obind]. rewrite Ch, Eh, bytes_refl. cbn [obind].
  rewrite (R5 [] (enc_ts a nowA) (c_hash cA (net32 r1 ++ c_main cA)) 16 (tsz a)); [|reflexivity|reflexivity|now rewrite blen_enc_ts].
  cbn [obind]. set (s1 := validated cB e s (c_main cA) (enc_ts a nowA)).
  assert (Lk : exists P', lookup_stamp (s_tab s1) (c_main cA) = Some P' /\ p_valid P' = true /\ p_diff P' = s_now s1 - u32 nowA).
  { unfold s1, validated. cbn [s_tab set_tab s_now]. rewrite lookup_upd by reflexivity. rewrite L. cbn [option_map]. eexists. split; [reflexivity|]. cbn. rewrite Ea, dec_enc_ts by assumption. auto. }
  destruct Lk as (P' & Lk & Vp & Dp).
  destruct (response_accepted cA cB e s1 nowA seqA q _ p rest P' CA Pe Np Sg ltac:(fold a; lia) Hq Lk Vp Dp) as (s3 & buf' & E3 & B3 & N3 & _ & _ & K3).
  cbn [app]. rewrite E3. eexists _, buf', _. split; [reflexivity|]. exact K3.
Qed.

(** the whole handshake *)
Lemma handshake cA cB e1 e2 e3 e4 sA sB seq0 q0 w0 p0 t0 t1 t2 t3 :
  cfg_ok cA -> cfg_ok cB -> peers cA cB -> ~ padded (c_abi cA) ->
  In (c_main cA) (c_ifs cA) -> In (c_main cB) (c_ifs cB) ->
  signed cB (s_now sB) seq0 q0 w0 p0 -> w0 <> [] -> ~ handshake_type w0 ->
  4 + blen w0 + SMSG (c_abi cB) - ssz (c_abi cB) <= 1512 ->
  calm (c_abi cA) (s_nb sA) -> calm (c_abi cB) (s_nb sB) ->
  lookup_stamp (s_tab sA) (c_main cB) = None ->
  (forall P, lookup_stamp (s_tab sB) (c_main cA) = Some P -> isTimedOut (e_ms e2) (p_conf P) = true) ->
  exists sA1 p1 sB1 p2 sA2 p3 sB2 x3 x4,
    secure_preprocessor cA e1 sA (p0 ++ t0) (blen p0) = Some (sA1, [p1], None) /\
    secure_preprocessor cB e2 sB (p1 ++ t1) (blen p1) = Some (sB1, [p2], None) /\
    secure_preprocessor cA e3 sA1 (p2 ++ t2) (blen p2) = Some (sA2, [p3], Some x3) /\
    secure_preprocessor cB e4 sB1 (p3 ++ t3) (blen p3) = Some (sB2, [], Some x4) /\
    knows sA2 (c_main cB) (s_now sA - u32 (s_now sB)) /\ knows sB2 (c_main cA) (s_now sB - u32 (s_now sA)).
Proof.
  intros CA CB Pe Np MA MB Sg Nw Nh Hl IA IB LA LB. pose proof (peers_sym _ _ Pe) as Pe'.
  assert (Np' : ~ padded (c_abi cB)) by (rewrite <- (proj1 Pe); exact Np).
  destruct (challenge_ok cB cA e1 sA (s_now sB) seq0 q0 w0 p0 t0) as (sA1 & p1 & E1 & T1 & N1 & I1 & S1); try assumption.
  destruct (chal_arrives cA cB e2 sB (s_now sA) _ _ _ _ p1 t1 CA CB Pe Np MB S1 IB LB) as (sB1 & p2 & PB & E2 & T2 & V2 & C2 & N2 & I2 & S2).
  assert (LA1 : lookup_stamp (s_tab sA1) (c_main cB) = Some (mkStamp (c_main cB) 0 (e_r2 e1) false (e_junk2 e1) (getTimestamp (e_ms e1) 5000))).
  { rewrite T1. unfold lookup_stamp. cbn [find p_addr]. now rewrite bytes_refl. }
  destruct (cres_arrives cA cB e3 sA1 (s_now sB) (u16 (s_seq sB + 1)) (nb_seq (s_nb sB)) (s_seq sB) (e_r1 e2) (e_r2 e1) p2 t2 _ CA CB Pe' Np' MA (proj2 IB) S2 I1 LA1 eq_refl)
    as (sA2 & p3 & b3 & l3 & E3 & K3 & S3).
  destruct (rres_arrives cA cB e4 sB1 (s_now sA1) _ _ _ _ p3 t3 PB CA CB Pe Np MB (proj2 I1) S3 T2 C2) as (sB2 & b4 & l4 & E4 & K4).
  exists sA1, p1, sB1, p2, sA2, p3, sB2, (b3, l3), (b4, l4). repeat (split; [assumption|]). rewrite N1 in K3, K4. rewrite N2 in K4. split; assumption.
Qed.

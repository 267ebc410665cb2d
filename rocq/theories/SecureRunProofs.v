(** Proofs about the secure plugin: received packets, handshake, replays. *)
From Verif Require Import Base Bytes NetBuf NetBufSpec NetBufProofs Parser ParserProofs SchedTime LinkSetProofs BuildMsgSpec Secure SecureSpec SecureProofs.

(** the database *)
Lemma lookup_addr l a p : lookup_stamp l a = Some p -> p_addr p = a.
Proof. intros H. apply find_some in H. destruct H as (_ & E). now apply bytes_eqb_spec. Qed.
Lemma bytes_neq a b : a <> b -> bytes_eqb a b = false.
Proof. intros N. destruct (bytes_eqb a b) eqn:E; [|reflexivity]. apply bytes_eqb_spec in E. contradiction. Qed.
Lemma lookup_upd l a f : (forall p, p_addr (f p) = p_addr p) -> lookup_stamp (upd_stamp l a f) a = option_map f (lookup_stamp l a).
Proof.
  intros Hf. induction l as [|p l IH]; [reflexivity|]. cbn [upd_stamp]. destruct (bytes_eqb (p_addr p) a) eqn:E.
  - unfold lookup_stamp. cbn [find]. rewrite Hf, E. reflexivity.
  - unfold lookup_stamp in *. cbn [find]. rewrite E. exact IH.
Qed.
Lemma lookup_upd_other l a b f : (forall p, p_addr (f p) = p_addr p) -> a <> b -> lookup_stamp (upd_stamp l a f) b = lookup_stamp l b.
Proof.
  intros Hf N. induction l as [|p l IH]; [reflexivity|]. cbn [upd_stamp]. destruct (bytes_eqb (p_addr p) a) eqn:E.
  - apply bytes_eqb_spec in E. unfold lookup_stamp. cbn [find]. rewrite Hf, E, (bytes_neq _ _ N). reflexivity.
  - unfold lookup_stamp in *. cbn [find]. destruct (bytes_eqb (p_addr p) b); [reflexivity|exact IH].
Qed.
Lemma upd_upd l a f g : (forall p, p_addr (f p) = p_addr p) -> upd_stamp (upd_stamp l a f) a g = upd_stamp l a (fun p => g (f p)).
Proof.
  intros Hf. induction l as [|p l IH]; [reflexivity|]. cbn [upd_stamp]. destruct (bytes_eqb (p_addr p) a) eqn:E; cbn [upd_stamp].
  - rewrite Hf, E. reflexivity.
  - rewrite E, IH. reflexivity.
Qed.
Lemma lookup_filter (g : stamp -> bool) l a p : lookup_stamp l a = Some p -> g p = true -> lookup_stamp (filter g l) a = Some p.
Proof.
  unfold lookup_stamp. induction l as [|x l IH]; [discriminate|]. cbn [find filter]. destruct (bytes_eqb (p_addr x) a) eqn:E.
  - intros [= ->] G. rewrite G. cbn [find]. rewrite E. reflexivity.
  - intros F G. destruct (g x); [cbn [find]; rewrite E|]; now apply IH.
Qed.

(** received packets: the first byte behind the header *)
Lemma signed_first c now seq q t w p rest : signed c now seq q (t :: w) p -> rd8 (p ++ rest) 4 = Some t.
Proof.
  intros (g1 & g2 & g3 & P & ->). set (h := c_hash c _). clearbody h. unfold unsigned_part, rd8.
  rewrite (rdn_is _ (hdr4 (c_abi c) (t :: w) q) [t] (w ++ sig_msg c now seq g1 g2 g3 ++ h ++ rest)).
  - cbn [option_map]. unfold be. cbn [fold_left]. f_equal.
  - rewrite <- !app_assoc. reflexivity.
  - reflexivity.
  - reflexivity.
Qed.
Lemma no_auth c e s buf t : rd8 buf 4 = Some t -> t <> 11 -> t <> 12 -> t <> 13 -> check_auth c e s buf = Some (s, []).
Proof.
  intros E A B D. unfold check_auth. rewrite E. cbn [obind]. replace (t =? 11) with false by lia. replace (t =? 12) with false by lia.
  replace (t =? 13) with false by lia. reflexivity.
Qed.
Lemma signed_body c now seq q w p rest : signed c now seq q w p -> 4 + blen w < 65536 -> 0 <= q < 65536 ->
  exists buf', wr (p ++ rest) 0 (net16 (4 + blen w)) = Some buf' /\ slice buf' 0 (4 + blen w) = packet_of q [w].
Proof.
  intros (g1 & g2 & g3 & P & ->) Hl Hq. set (h := c_hash c _). clearbody h. unfold unsigned_part, hdr4.
  rewrite (wr_is _ [] (net16 (4 + blen w + SMSG (c_abi c))) (net16 q ++ w ++ sig_msg c now seq g1 g2 g3 ++ h ++ rest)); [|asc|reflexivity|reflexivity].
  eexists. split; [reflexivity|]. pose proof (blen_nonneg w).
  unfold packet_of. cbn [concat]. rewrite app_nil_r.
  rewrite (slice_is _ [] (net16 (4 + blen w) ++ net16 q ++ w) (sig_msg c now seq g1 g2 g3 ++ h ++ rest)); [|asc|reflexivity|].
  - rewrite !enc_net16 by lia. reflexivity.
  - rewrite !blen_app, !blen_net16. lia.
Qed.

(** what a receiver that knows the clock of the sender does with a signed packet *)
Definition refreshed (s : sec) (e : senv) (a : list Z) (t : Z) : sec :=
  set_tab s (upd_stamp (s_tab s) a (fun p => mkStamp (p_addr p) (Z.quot (s_now s - t + p_diff p) 2) (p_chal p) (p_valid p)
                                      (getTimestamp (e_ms e) 30000) (p_conf p))).
Lemma fresh_check c e s a t d : knows s a d -> -3 <= d - (s_now s - t) <= 3 ->
  check_timestamp c e s a t = Some (refreshed s e a t, [], true).
Proof.
  intros (p & L & V & <-) W. unfold check_timestamp. rewrite L, V. cbn [negb].
  replace ((p_diff p - (s_now s - t) >? 3) || (p_diff p - (s_now s - t) <? -3)) with false by lia. reflexivity.
Qed.
Lemma accept_signed c c' e s now seq q w p rest d :
  cfg_ok c -> peers c c' -> ~ padded (c_abi c) -> signed c now seq q w p -> w <> [] -> ~ handshake_type w ->
  4 + blen w + SMSG (c_abi c) - ssz (c_abi c) <= 1512 -> 0 <= q < 65536 ->
  knows s (c_main c) d -> -3 <= d - (s_now s - u32 now) <= 3 ->
  exists buf', secure_preprocessor c' e s (p ++ rest) (blen p) = Some (refreshed s e (c_main c) (u32 now), [], Some (buf', 4 + blen w)) /\
    slice buf' 0 (4 + blen w) = packet_of q [w].
Proof.
  intros C Pe Np Sg Nw Nh Hl Hq K Win. destruct w as [|t w']; [congruence|].
  assert (Sz : ssz (c_abi c) <= SMSG (c_abi c)).
  { destruct C as (A & _). pose proof (layouts _ A) as L. destruct A as [_ [G|G]], L; destruct (ssz (c_abi c) =? 20); lia. }
  destruct (signed_body _ _ _ _ _ _ rest Sg ltac:(lia) Hq) as (buf' & Eb & Es). exists buf'. split; [|exact Es].
  unfold secure_preprocessor.
  rewrite (no_auth c' e s (p ++ rest) t); [|eapply signed_first; eassumption|..]; try (intros ->; apply Nh; do 2 eexists; eauto; fail).
  cbn [obind]. rewrite (validate_signed c c' e s now seq q (t :: w') p rest) by assumption.
  rewrite (fresh_check _ _ _ _ _ d K Win). cbn [obind]. rewrite Eb. reflexivity.
Qed.

(** replays *)
Lemma replay_step c c' e s now seq q w p rest ms P :
  cfg_ok c -> peers c c' -> ~ padded (c_abi c) -> signed c now seq q w p -> w <> [] -> ~ handshake_type w ->
  4 + blen w + SMSG (c_abi c) - ssz (c_abi c) <= 1512 -> 0 <= q < 65536 -> e_ms e = ms ->
  lookup_stamp (s_tab s) (c_main c) = Some P -> p_valid P = true -> -3 <= p_diff P - (s_now s - u32 now) <= 3 ->
  exists s' P', accepts c' e s (p ++ rest) (blen p) = Some s' /\ s_now s' = s_now s /\ lookup_stamp (s_tab s') (c_main c) = Some P' /\
    p_valid P' = true /\ p_diff P' = Z.quot (s_now s - u32 now + p_diff P) 2 /\ p_val P' = u32 (ms + 30000).
Proof.
  intros C Pe Np Sg Nw Nh Hl Hq He L V Win.
  destruct (accept_signed c c' e s now seq q w p rest (p_diff P)) as (buf' & E & _); try assumption.
  { exists P. auto. }
  unfold accepts. rewrite E. eexists _, _. split; [reflexivity|]. split; [reflexivity|].
  unfold refreshed. cbn [s_tab set_tab]. rewrite lookup_upd by reflexivity. rewrite L. cbn [option_map]. split; [reflexivity|].
  cbn. rewrite He. auto.
Qed.
Lemma replay_forever c c' now seq q w p rest :
  cfg_ok c -> peers c c' -> ~ padded (c_abi c) -> signed c now seq q w p -> w <> [] -> ~ handshake_type w ->
  4 + blen w + SMSG (c_abi c) - ssz (c_abi c) <= 1512 -> 0 <= q < 65536 ->
  forall n e ms s P, lookup_stamp (s_tab s) (c_main c) = Some P -> p_valid P = true -> p_val P = u32 (ms + 30000) ->
  0 <= p_diff P -> 0 <= s_now s - u32 now - p_diff P <= 1 ->
  exists s', replay c' e n ms s (p ++ rest) (blen p) = Some s' /\ s_now s' = s_now s + 2 * Z.of_nat n.
Proof.
  intros C Pe Np Sg Nw Nh Hl Hq. induction n as [|n IH]; intros e ms s P L V Vt D G.
  { exists s. split; [reflexivity|lia]. }
  cbn [replay]. set (ms' := u32 (ms + 2000)). set (e' := mkEnv ms' (e_ok e) (e_r1 e) (e_r2 e) (e_junk1 e) (e_junk2 e)).
  set (s0 := timeout_timestamps ms' (s_now s + 2) s).
  assert (L0 : lookup_stamp (s_tab s0) (c_main c) = Some P).
  { unfold s0, timeout_timestamps. cbn [s_tab]. apply lookup_filter; [exact L|]. rewrite Vt. unfold ms'.
    rewrite due_iff by lia. replace (ms + 30000 <=? ms + 2000) with false by lia. reflexivity. }
  assert (N0 : s_now s0 = s_now s + 2) by reflexivity.
  destruct (replay_step c c' e' s0 now seq q w p rest ms' P) as (s1 & P1 & E1 & N1 & L1 & V1 & D1 & T1); try assumption; [reflexivity|lia|].
  assert (Q1 : p_diff P1 = (s_now s0 - u32 now + p_diff P) / 2) by (rewrite D1; apply Z.quot_div_nonneg; lia).
  destruct (replay_step c c' e' s1 now seq q w p rest ms' P1) as (s2 & P2 & E2 & N2 & L2 & V2 & D2 & T2); try assumption; [reflexivity|lia|].
  assert (Q2 : p_diff P2 = (s_now s1 - u32 now + p_diff P1) / 2) by (rewrite D2; apply Z.quot_div_nonneg; lia).
  destruct (IH e ms' s2 P2) as (s' & Er & Ns); try assumption; try lia.
  exists s'. rewrite E1. cbn [obind]. rewrite E2. cbn [obind]. split; [exact Er|]. rewrite Ns. lia.
Qed.

(** handshake messages *)
Lemma fld_at buf h pre mid post off n : buf = h ++ pre ++ mid ++ post -> blen h = 4 -> off = blen pre -> n = blen mid -> fld buf off n = Some mid.
Proof.
  intros -> Hh Ho Hn. unfold fld. apply rdn_is with (pre := h ++ pre) (post := post); [asc| |exact Hn]. rewrite blen_app. lia.
Qed.
Lemma hs_read c c' t n seq dest body h post :
  cfg_ok c -> peers c c' -> blen dest = 4 -> blen h = 4 -> n - ssz (c_abi c) = 16 + blen body ->
  let buf := h ++ hs_sign c (hs_header c t n seq dest ++ body) ++ post in
  rd8 buf 4 = Some t /\ fld buf 12 4 = Some dest /\ fld buf 4 4 = Some (c_main c) /\ hs_verify c' buf n = Some true /\
  forall pre mid tl off k, body = pre ++ mid ++ tl -> off = 16 + blen pre -> k = blen mid -> fld buf off k = Some mid.
Proof.
  intros (A & M & Hsh) (Ea & Eh & Ek) Ld Lh Hn buf. set (x := hs_header c t n seq dest ++ body).
  set (g := c_hash c (x ++ c_key c)).
  assert (Eb : buf = h ++ x ++ g ++ post) by (unfold buf, hs_sign; fold x g; asc).
  assert (Lx : blen x = n - ssz (c_abi c)).
  { unfold x, hs_header. rewrite !blen_app, !blen_net16, M, Ld. change (blen [t; 0]) with 2. change (blen [1; 0]) with 2. lia. }
  assert (Lg : blen g = ssz (c_abi c)) by apply Hsh.
  assert (Ex : x = ([t] ++ [0] ++ net16 n) ++ c_main c ++ ([1; 0] ++ net16 seq) ++ dest ++ body) by (unfold x, hs_header; asc).
  repeat split.
  - unfold rd8. rewrite (rdn_is _ h [t] ([0] ++ net16 n ++ c_main c ++ [1; 0] ++ net16 seq ++ dest ++ body ++ g ++ post)).
    + unfold be. cbn [option_map fold_left]. f_equal.
    + rewrite Eb, Ex. asc.
    + lia.
    + reflexivity.
  - apply fld_at with (h := h) (pre := ([t] ++ [0] ++ net16 n) ++ c_main c ++ [1; 0] ++ net16 seq) (post := body ++ g ++ post); try assumption; try lia.
    + rewrite Eb, Ex. asc.
    + rewrite !blen_app, M. reflexivity.
  - apply fld_at with (h := h) (pre := [t] ++ [0] ++ net16 n) (post := ([1; 0] ++ net16 seq) ++ dest ++ body ++ g ++ post); try assumption; try lia.
    + rewrite Eb, Ex. asc.
    + reflexivity.
  - unfold hs_verify. rewrite <- Ea. rewrite (fld_at buf h [] x (g ++ post)); [|rewrite Eb; asc|assumption|reflexivity|lia].
    cbn [obind]. rewrite (fld_at buf h x g post); [|rewrite Eb; asc|assumption|lia|lia]. cbn [obind]. rewrite <- Eh, <- Ek. fold g. now rewrite bytes_refl.
  - intros pre mid tl off k E O K.
    apply fld_at with (h := h) (pre := hs_header c t n seq dest ++ pre) (post := tl ++ g ++ post); try assumption.
    + rewrite Eb. unfold x. rewrite E. asc.
    + unfold hs_header. rewrite !blen_app, !blen_net16, M, Ld. change (blen [t; 0]) with 2. change (blen [1; 0]) with 2. lia.
Qed.
(** a signed packet with one message *)
Lemma signed_split c now seq q m p rest : signed c now seq q m p -> exists h post, p ++ rest = h ++ m ++ post /\ blen h = 4.
Proof.
  intros (g1 & g2 & g3 & P & ->). unfold unsigned_part. set (u := c_hash c _). clearbody u.
  exists (hdr4 (c_abi c) m q), (sig_msg c now seq g1 g2 g3 ++ u ++ rest). split; [asc|reflexivity].
Qed.

Definition calm (a : abi) (b : nb) : Prop := idle a b /\ 0 <= nb_seq b < 65536.
Lemma send_ok c e s m : cfg_ok c -> calm (c_abi c) (s_nb s) -> m <> [] -> blen m <= CRMSG (c_abi c) ->
  exists s' p, send c e s m = Some (s', [p]) /\ s_tab s' = s_tab s /\ s_now s' = s_now s /\ calm (c_abi c) (s_nb s') /\
    signed c (s_now s) (s_seq s) (nb_seq (s_nb s)) m p.
Proof.
  intros C ((((b & Eb & Lb) & _) & Z0 & Hm & Hs) & Hq) Nm Lm. set (a := c_abi c) in *.
  assert (B : 4 + CRMSG a + SMSG a - ssz a <= 1512 /\ 0 <= SMSG a).
  { destruct C as (A & _). fold a in A. pose proof (layouts _ A) as L. destruct A as [_ [G|G]], L; destruct (ssz a =? 20); lia. }
  assert (Lm0 : 0 < blen m). { destruct m; [congruence|]. unfold blen. cbn [length]. lia. }
  unfold send, net_outbuffer_push. rewrite Z0. replace (0 + blen m >? nb_max (s_nb s)) with false by lia.
  unfold append. rewrite Eb, Z0. unfold HDR.
  destruct (split_exact b 4) as (h & t & -> & Lh & Lt); [lia|]. rewrite blen_app in Lb.
  destruct (split_exact t (blen m)) as (x & t' & -> & Lx & Lt'); [lia|]. rewrite blen_app in *.
  rewrite (wr_is _ h x t'); [|reflexivity|lia|lia]. cbn [option_map obind fst].
  set (nb1 := mkNB _ _ _ _ _ _).
  destruct (output_signed c (s_now s) (s_seq s) (e_ok e) nb1 m) as (b' & r & p & E & Sg & W & S1 & S2 & S3 & S4); try assumption.
  - split; [|cbn; lia]. exists (h ++ m ++ t'). split; [reflexivity|]. cbn. rewrite !blen_app. lia.
  - split; cbn; fold a; lia.
  - unfold waiting. cbn. apply slice_is with (pre := h) (post := t'); [reflexivity|lia|lia].
  - cbn. lia.
  - rewrite E. cbn [obind]. eexists _, p. split; [reflexivity|]. cbn [s_tab s_now s_nb]. repeat split; try assumption; try lia; try apply W; cbn in S1, S2; rewrite ?S1, ?S2; try lia.
Qed.

(** Proofs about the secure plugin: what packets without the key can do, and the
    output buffer. *)
From Verif Require Import Base Bytes NetBuf NetBufSpec NetBufProofs Parser ParserProofs SchedTime BuildMsgSpec Secure SecureSpec SecureProofs SecureRunProofs.

Lemma obind_inv {A B} (x : option A) (f : A -> option B) y : obind x f = Some y -> exists a, x = Some a /\ f a = Some y.
Proof. destruct x as [a|]; [|discriminate]. intros H. now exists a. Qed.
Lemma skipn_skipn (x y : nat) : forall (l : list Z), skipn x (skipn y l) = skipn (y + x) l.
Proof. induction y as [|y IH]; intros l; [reflexivity|]. destruct l as [|a l]; [now rewrite !skipn_nil|]. cbn [skipn Nat.add]. apply IH. Qed.
Lemma slice_split b i n m : 0 <= i -> 0 <= n -> 0 <= m -> slice b i (n + m) = slice b i n ++ slice b (i + n) m.
Proof.
  intros Hi Hn Hm. unfold slice. rewrite !Z2Nat.inj_add by lia.
  set (k := Z.to_nat n). set (j := Z.to_nat m). set (o := Z.to_nat i).
  rewrite <- (firstn_skipn k (firstn (k + j) (skipn o b))). rewrite firstn_firstn. replace (Nat.min k (k + j)) with k by lia. f_equal.
  rewrite skipn_firstn_comm. replace (k + j - k)%nat with j by lia. rewrite skipn_skipn. reflexivity.
Qed.
Lemma wr_inv b i d b' : wr b i d = Some b' -> 0 <= i /\ i + blen d <= blen b /\ blen b' = blen b.
Proof.
  unfold wr. destruct ((0 <=? i) && (i + blen d <=? blen b)) eqn:E; [|discriminate]. intros H. apply Some_inj in H. subst b'.
  pose proof (blen_nonneg d). rewrite !blen_app. unfold blen in *. rewrite firstn_length, skipn_length. lia.
Qed.
Lemma wr_tail b i d b' j n : wr b i d = Some b' -> i + blen d <= j -> slice b' j n = slice b j n.
Proof.
  unfold wr. destruct ((0 <=? i) && (i + blen d <=? blen b)) eqn:E; [|discriminate]. intros H Hj. apply Some_inj in H. subst b'.
  pose proof (blen_nonneg d). unfold slice. f_equal. rewrite app_assoc, skipn_app, skipn_skipn.
  set (f := firstn (Z.to_nat i) b ++ d). assert (Lf : length f = Z.to_nat (i + blen d)).
  { unfold f. rewrite app_length, firstn_length. unfold blen in *. lia. }
  rewrite skipn_all2 by (rewrite Lf; lia). cbn [app]. rewrite Lf. f_equal. lia.
Qed.

(** the table after sending *)
Lemma send_tab c e s m s' o : send c e s m = Some (s', o) -> s_tab s' = s_tab s /\ s_now s' = s_now s.
Proof.
  unfold send. intros H. apply obind_inv in H. destruct H as (br & _ & H). apply obind_inv in H. destruct H as ([[b r] pkt] & _ & H).
  apply Some_inj in H. inversion H. split; reflexivity.
Qed.

(** validate_packet *)
Definition mac_ok (c : scfg) (buf : list Z) (size : Z) : Prop :=
  let a := c_abi c in
  4 <= size - SMSG a /\ size - SMSG a + sg_off a + ssz a <= blen buf /\
  slice buf (size - SMSG a + sg_off a) (ssz a) = c_hash c (slice buf 0 (size - ssz a) ++ c_key c).
Lemma validate_inv c e s buf size s' (o : list (list Z)) (r : option Z) : cfg_ok c -> validate_packet c e s buf size = Some (s', o, r) ->
  s' = s /\ o = [] /\ r = None \/
  mac_ok c buf size /\ exists ok : bool, r = (if ok then Some (size - SMSG (c_abi c)) else None) /\
    check_timestamp c e s (slice buf (size - SMSG (c_abi c) + 4) 4)
      (dec_ts (c_abi c) (slice buf (size - SMSG (c_abi c) + ts_off (c_abi c)) (tsz (c_abi c)))) = Some (s', o, ok).
Proof.
  intros C. unfold validate_packet. cbv zeta. set (a := c_abi c).
  assert (Fin : Some (s, @nil (list Z), @None Z) = Some (s', o, r) -> s' = s /\ o = [] /\ r = None \/
     mac_ok c buf size /\ exists ok : bool, r = (if ok then Some (size - SMSG (c_abi c)) else None) /\
    check_timestamp c e s (slice buf (size - SMSG (c_abi c) + 4) 4)
      (dec_ts (c_abi c) (slice buf (size - SMSG (c_abi c) + ts_off (c_abi c)) (tsz (c_abi c)))) = Some (s', o, ok)).
  { intros E. apply Some_inj in E. inversion E. left. auto. }
  destruct (size - SMSG a <? 4) eqn:E4; [exact Fin|].
  intros H. apply obind_inv in H. destruct H as (h & Eh & H). apply rdn_inv in Eh. destruct Eh as (Hp & _ & Hb & ->).
  match type of H with (if negb ?x then _ else _) = _ => destruct x; cbn [negb] in H; [|exact (Fin H)] end.
  apply obind_inv in H. destruct H as (ty & _ & H). destruct (ty =? 1); cbn [negb] in H; [|exact (Fin H)].
  apply obind_inv in H. destruct H as (x & Ex & H). unfold packet_hash in Ex. destruct (size - ssz a <=? 1512); [|discriminate].
  apply obind_inv in Ex. destruct Ex as (d & Ed & Ex). apply rdn_inv in Ed. destruct Ed as (_ & D2 & D3 & ->). apply Some_inj in Ex. subst x.
  apply obind_inv in H. destruct H as (g & Eg & H). apply rdn_inv in Eg. destruct Eg as (_ & _ & G3 & ->).
  match type of H with (if negb ?x then _ else _) = _ => destruct x eqn:Eq; cbn [negb] in H; [|exact (Fin H)] end.
  apply bytes_eqb_spec in Eq.
  apply obind_inv in H. destruct H as (ts & Et & H). apply rdn_inv in Et. destruct Et as (_ & _ & _ & ->).
  apply obind_inv in H. destruct H as ([[s1 o1] ok] & Ec & H). apply Some_inj in H. inversion H; subst s1 o1 r.
  right. split.
  - unfold mac_ok. fold a. split; [lia|]. split; [lia|now symmetry].
  - exists ok. fold a. split; [reflexivity|]. rewrite <- Ec. f_equal. symmetry. apply slice_slice; lia.
Qed.

(** an accepted packet carries the right code *)
Lemma unpadded a : abi_ok a -> ~ padded a -> SMSG a = sg_off a + ssz a /\ 0 <= ssz a /\ 20 <= sg_off a.
Proof.
  intros A Np. pose proof (layouts a A) as L. unfold padded in Np. destruct A as [[T|T] [G|G]], L; destruct (ssz a =? 20) eqn:E20; lia.
Qed.
Lemma mac_authentic c buf size : cfg_ok c -> ~ padded (c_abi c) -> mac_ok c buf size -> authentic c (slice buf 0 size).
Proof.
  intros (A & _ & _) Np (M1 & M2 & M3). destruct (unpadded _ A Np) as (U1 & U2 & U3).
  exists (slice buf 0 (size - ssz (c_abi c))). rewrite <- M3.
  replace size with ((size - ssz (c_abi c)) + ssz (c_abi c)) at 1 by lia. rewrite slice_split by lia. f_equal. f_equal. lia.
Qed.
Lemma accepted_inv c e s buf size s' o buf' n : cfg_ok c -> secure_preprocessor c e s buf size = Some (s', o, Some (buf', n)) ->
  mac_ok c buf size /\ n = size - SMSG (c_abi c) /\ slice buf' 0 n = net16 n ++ slice buf 2 (n - 2) /\
  exists s1 o1 o2, check_auth c e s buf = Some (s1, o1) /\ o = o1 ++ o2 /\
    check_timestamp c e s1 (slice buf (n + 4) 4) (dec_ts (c_abi c) (slice buf (n + ts_off (c_abi c)) (tsz (c_abi c)))) = Some (s', o2, true).
Proof.
  intros C. unfold secure_preprocessor. intros H. apply obind_inv in H. destruct H as ([s1 o1] & E1 & H).
  apply obind_inv in H. destruct H as ([[s2 o2] r] & E2 & H). destruct r as [len|]; [|discriminate].
  apply obind_inv in H. destruct H as (b2 & Ew & H). apply Some_inj in H. inversion H; subst s2 o buf' n.
  apply validate_inv in E2; [|exact C]. destruct E2 as [(_ & _ & Q)|(M & ok & Er & Ec)]; [discriminate|].
  destruct ok; [|discriminate]. apply Some_inj in Er. split; [exact M|]. split; [exact Er|].
  destruct (wr_inv _ _ _ _ Ew) as (_ & W2 & W3). change (blen (net16 len)) with 2 in W2. destruct M as (M1 & M2 & _). split.
  - replace len with (2 + (len - 2)) at 1 by lia. rewrite slice_split by lia. f_equal.
    + clear - Ew W2 W3. unfold wr in Ew. destruct ((0 <=? 0) && (0 + blen (net16 len) <=? blen buf)); [|discriminate]. apply Some_inj in Ew. subst b2. reflexivity.
    + apply (wr_tail _ _ _ _ 2 (len - 2) Ew). reflexivity.
  - exists s1, o1, o2. split; [exact E1|]. split; [reflexivity|]. subst len. exact Ec.
Qed.

Lemma verify_inv c buf n b : hs_verify c buf n = Some b ->
  b = true <-> slice buf (4 + n - ssz (c_abi c)) (ssz (c_abi c)) = c_hash c (slice buf 4 (n - ssz (c_abi c)) ++ c_key c).
Proof.
  unfold hs_verify, fld. intros H. apply obind_inv in H. destruct H as (m & Em & H). apply obind_inv in H. destruct H as (g & Eg & H).
  apply rdn_inv in Em. destruct Em as (_ & _ & _ & ->). apply rdn_inv in Eg. destruct Eg as (_ & _ & _ & ->).
  apply Some_inj in H. subst b. rewrite bytes_eqb_spec. change (4 + 0) with 4. replace (4 + (n - ssz (c_abi c))) with (4 + n - ssz (c_abi c)) by lia. split; intros; congruence.
Qed.
Lemma mine_inv c a : is_mine c a = true -> In a (c_ifs c).
Proof. unfold is_mine. intros H. apply existsb_exists in H. destruct H as (x & I & E). apply bytes_eqb_spec in E. now subst. Qed.
Lemma fld_inv buf off n x : fld buf off n = Some x -> x = slice buf (4 + off) n.
Proof. unfold fld. intros H. apply rdn_inv in H. apply H. Qed.

(** parse_challenge *)
Lemma challenge_inv c e s buf s' o : rd8 buf 4 = Some 11 -> parse_challenge c e s buf = Some (s', o) ->
  s' = s /\ o = [] \/
  (let a := slice buf 8 4 in In (slice buf 16 4) (c_ifs c) /\
   ((exists P, lookup_stamp (s_tab s) a = Some P) \/ lookup_stamp (s_tab s) a = None) /\
   ((s' = added s (e_junk1 e) a /\ o = [] /\ lookup_stamp (s_tab s) a = None) \/
    (hs_from c buf 11 (CMSG (c_abi c)) a /\ s_now s' = s_now s /\
     (exists P, lookup_stamp (s_tab s') a = Some P /\ p_valid P = false) /\
     (forall b, b <> a -> lookup_stamp (s_tab s') b = lookup_stamp (s_tab s) b)))).
Proof.
  intros R H. unfold parse_challenge in H. apply obind_inv in H. destruct H as (dest & Ed & H). apply fld_inv in Ed. change (4 + 12) with 16 in Ed.
  assert (Fin : Some (s, @nil (list Z)) = Some (s', o) -> s' = s /\ o = []) by (intros E; apply Some_inj in E; inversion E; auto).
  destruct (is_mine c dest) eqn:Em; cbn [negb] in H; [|left; auto]. apply mine_inv in Em. rewrite Ed in Em.
  apply obind_inv in H. destruct H as (orig & Eo & H). apply fld_inv in Eo. change (4 + 4) with 8 in Eo.
  assert (X : exists s1, (s1 = s /\ (exists P, lookup_stamp (s_tab s) orig = Some P) \/ s1 = added s (e_junk1 e) orig /\ lookup_stamp (s_tab s) orig = None) /\
     obind (hs_verify c buf (CMSG (c_abi c))) (fun good =>
        if negb good then Some (s1, [])
        else
          obind (fld buf 16 4) (fun chal =>
          send_cres c e (set_tab s1 (upd_stamp (s_tab s1) orig
                     (fun p => mkStamp (p_addr p) 0 (p_chal p) false (p_val p) (getTimestamp (e_ms e) 5000)))) orig dest chal)) = Some (s', o) \/ s' = s /\ o = []).
  { destruct (lookup_stamp (s_tab s) orig) as [P|] eqn:L.
    - destruct (isTimedOut (e_ms e) (p_conf P)).
      + exists s. left. split; [left; eauto|exact H].
      + exists s. right. auto.
    - exists (added s (e_junk1 e) orig). left. split; [right; auto|exact H]. }
  destruct X as (s1 & [(X1 & X2)|X]); [|left; exact X]. clear H.
  apply obind_inv in X2. destruct X2 as (good & Eg & H).
  pose proof (verify_inv _ _ _ _ Eg) as V. destruct good; cbn [negb] in H.
  2:{ apply Some_inj in H. inversion H; subst s1 o. destruct X1 as [(X1 & _)|(X1 & X3)]; [left; auto|].
      right. cbv zeta. rewrite <- Eo. split; [exact Em|]. split; [right; exact X3|]. left. auto. }
  apply obind_inv in H. destruct H as (chal & _ & H). unfold send_cres in H. cbv zeta in H. apply send_tab in H. destruct H as (T & N).
  cbn [s_tab s_now set_tab set_seq] in T, N. rewrite upd_upd in T by reflexivity.
  right. cbv zeta. rewrite <- Eo. split; [exact Em|]. split. { destruct X1 as [(_ & X1)|(_ & X1)]; [left|right]; exact X1. }
  right. split; [|split; [|split]].
  - split; [exact R|]. split; [now symmetry|]. split; [exact Em|]. now apply V.
  - rewrite N. destruct X1 as [(-> & _)|(-> & _)]; reflexivity.
  - rewrite T, lookup_upd by reflexivity. destruct X1 as [(-> & P & ->)|(-> & _)]; cbn [option_map].
    + eexists. split; reflexivity.
    + unfold lookup_stamp at 1. cbn [added s_tab set_tab find p_addr]. rewrite bytes_refl. cbn [option_map]. eexists. split; reflexivity.
  - intros b Nb. rewrite T, lookup_upd_other by (reflexivity || congruence). destruct X1 as [(-> & _)|(-> & _)]; [reflexivity|].
    unfold lookup_stamp. cbn [added s_tab set_tab find p_addr]. rewrite bytes_neq by congruence. reflexivity.
Qed.

(** responses *)
Lemma response_inv c s buf t n doff r : rd8 buf 4 = Some t -> response_ok c s buf n doff = Some r ->
  r = None \/ exists P, r = Some (slice buf 8 4, slice buf 16 4) /\ lookup_stamp (s_tab s) (slice buf 8 4) = Some P /\
    hs_from c buf t n (slice buf 8 4) /\ slice buf (4 + doff) (ssz (c_abi c)) = c_hash c (net32 (p_chal P) ++ slice buf 8 4).
Proof.
  intros R H. unfold response_ok in H. apply obind_inv in H. destruct H as (dest & Ed & H). apply fld_inv in Ed. change (4 + 12) with 16 in Ed.
  destruct (is_mine c dest) eqn:Em; cbn [negb] in H; [|left; apply Some_inj in H; auto]. apply mine_inv in Em.
  apply obind_inv in H. destruct H as (good & Eg & H). pose proof (verify_inv _ _ _ _ Eg) as V. destruct good; cbn [negb] in H; [|left; apply Some_inj in H; auto].
  apply obind_inv in H. destruct H as (orig & Eo & H). apply fld_inv in Eo. change (4 + 4) with 8 in Eo.
  destruct (lookup_stamp (s_tab s) orig) as [P|] eqn:L; [|left; apply Some_inj in H; auto].
  apply obind_inv in H. destruct H as (d & E & H). apply fld_inv in E. apply Some_inj in H.
  destruct (bytes_eqb d (c_hash c (net32 (p_chal P) ++ orig))) eqn:Q; [|left; auto]. apply bytes_eqb_spec in Q. right. exists P.
  subst orig dest d. split; [now symmetry|]. split; [exact L|]. split; [|exact Q]. split; [exact R|]. split; [reflexivity|]. split; [exact Em|]. now apply V.
Qed.
(** all of check_auth *)
Lemma auth_inv c e s buf s' o : check_auth c e s buf = Some (s', o) ->
  s' = s /\ o = [] \/
  (s' = added s (e_junk1 e) (slice buf 8 4) /\ o = [] /\ lookup_stamp (s_tab s) (slice buf 8 4) = None /\ rd8 buf 4 = Some 11 /\ In (slice buf 16 4) (c_ifs c)) \/
  (hs_signed c buf /\ s_now s' = s_now s /\ (forall b, b <> slice buf 8 4 -> lookup_stamp (s_tab s') b = lookup_stamp (s_tab s) b) /\
   exists P', lookup_stamp (s_tab s') (slice buf 8 4) = Some P' /\
     (p_valid P' = false \/ exists P, lookup_stamp (s_tab s) (slice buf 8 4) = Some P /\ responds c buf (slice buf 8 4) (p_chal P))).
Proof.
  unfold check_auth. intros H. apply obind_inv in H. destruct H as (t & R & H).
  destruct (t =? 11) eqn:T11; [apply Z.eqb_eq in T11; subst t|destruct (t =? 12) eqn:T12; [apply Z.eqb_eq in T12; subst t|destruct (t =? 13) eqn:T13; [apply Z.eqb_eq in T13; subst t|]]].
  - apply challenge_inv in H; [|exact R]. cbv zeta in H. destruct H as [H|(I & _ & [(H1 & H2 & H3)|(H1 & H2 & (P & H3 & H4) & H5)])]; [left; exact H|right; left; auto|].
    right. right. split; [exists 11, (CMSG (c_abi c)), (slice buf 8 4); auto|]. split; [exact H2|]. split; [exact H5|]. exists P. auto.
  - unfold parse_cres in H. cbv zeta in H. apply obind_inv in H. destruct H as (r & Er & H). apply (response_inv _ _ _ 12) in Er; [|exact R].
    destruct Er as [->|(P & -> & L & F & D)]; [left; apply Some_inj in H; inversion H; auto|].
    apply obind_inv in H. destruct H as (ts & _ & H). apply obind_inv in H. destruct H as (ch & _ & H). unfold send_rres in H. cbv zeta in H.
    apply send_tab in H. destruct H as (T & N). unfold validated in T, N. cbn [s_tab s_now set_tab set_seq] in T, N. right. right.
    split; [exists 12, (CRMSG (c_abi c)), (slice buf 8 4); auto|]. split; [exact N|]. split.
    { intros b Nb. rewrite T. apply lookup_upd_other; [reflexivity|congruence]. }
    rewrite T, lookup_upd by reflexivity. rewrite L. cbn [option_map]. eexists. split; [reflexivity|]. right. exists P. split; [reflexivity|].
    left. split; [exact F|]. rewrite <- D. f_equal. lia.
  - unfold parse_rres in H. cbv zeta in H. apply obind_inv in H. destruct H as (r & Er & H). apply (response_inv _ _ _ 13) in Er; [|exact R].
    destruct Er as [->|(P & -> & L & F & D)]; [left; apply Some_inj in H; inversion H; auto|].
    apply obind_inv in H. destruct H as (ts & _ & H). apply Some_inj in H. inversion H; subst s' o. right. right.
    split; [exists 13, (RRMSG (c_abi c)), (slice buf 8 4); auto|]. split; [reflexivity|]. unfold validated. cbn [s_tab s_now set_tab]. split.
    { intros b Nb. apply lookup_upd_other; [reflexivity|congruence]. }
    rewrite lookup_upd by reflexivity. rewrite L. cbn [option_map]. eexists. split; [reflexivity|]. right. exists P. split; [reflexivity|].
    right. split; [exact F|]. rewrite <- D. f_equal. lia.
  - left. apply Some_inj in H. inversion H. auto.
Qed.

(** check_timestamp never validates *)
Lemma timestamp_valid c e s a t s' o ok b P : check_timestamp c e s a t = Some (s', o, ok) -> lookup_stamp (s_tab s') b = Some P -> p_valid P = true ->
  exists P0, lookup_stamp (s_tab s) b = Some P0 /\ p_valid P0 = true.
Proof.
  unfold check_timestamp. destruct (lookup_stamp (s_tab s) a) as [Q|] eqn:L.
  - destruct (p_valid Q) eqn:V; cbn [negb].
    + destruct (_ || _).
      * intros E. apply Some_inj in E. inversion E; subst. eauto.
      * intros E. apply Some_inj in E. inversion E; subst. cbn [s_tab set_tab].
        destruct (list_eq_dec Z.eq_dec a b) as [->|N].
        -- rewrite lookup_upd by reflexivity. rewrite L. intros _ _. exists Q. auto.
        -- rewrite lookup_upd_other by (reflexivity || assumption). eauto.
    + intros E. apply Some_inj in E. inversion E; subst. eauto.
  - intros E. apply obind_inv in E. destruct E as ([s1 o1] & E & H). apply Some_inj in H. inversion H; subst s1 o1 ok.
    unfold send_challenge in E. cbv zeta in E. apply obind_inv in E. destruct E as ([s2 o2] & E & H2). apply send_tab in E. destruct E as (T & _).
    apply Some_inj in H2. cbn [fst snd] in H2. inversion H2; subst s' o2. cbn [s_tab set_tab]. rewrite T. cbn [s_tab set_seq].
    unfold lookup_stamp. cbn [find p_addr]. destruct (bytes_eqb a b); [|eauto]. intros Q V. apply Some_inj in Q. subst P. discriminate.
Qed.

Lemma validated_inv c e s buf size s' o r a P : cfg_ok c -> secure_preprocessor c e s buf size = Some (s', o, r) ->
  lookup_stamp (s_tab s') a = Some P -> p_valid P = true ->
  (exists P0, lookup_stamp (s_tab s) a = Some P0 /\ (p_valid P0 = true \/ responds c buf a (p_chal P0))) \/
  (lookup_stamp (s_tab s) a = None /\ p_valid (e_junk1 e) = true /\ rd8 buf 4 = Some 11 /\ slice buf 8 4 = a).
Proof.
  intros C H L V. unfold secure_preprocessor in H. apply obind_inv in H. destruct H as ([s1 o1] & E1 & H).
  apply obind_inv in H. destruct H as ([[s2 o2] n] & E2 & H).
  assert (s2 = s') as ->.
  { destruct n; [apply obind_inv in H; destruct H as (? & _ & H)|]; apply Some_inj in H; inversion H; reflexivity. }
  assert (X : exists P1, lookup_stamp (s_tab s1) a = Some P1 /\ p_valid P1 = true).
  { apply validate_inv in E2; [|exact C]. destruct E2 as [(-> & _)|(_ & ok & _ & Ec)]; [eauto|]. eapply timestamp_valid; eassumption. }
  destruct X as (P1 & L1 & V1). apply auth_inv in E1.
  destruct E1 as [(-> & _)|[(-> & _ & N & R & _)|(_ & _ & O & P' & L' & D)]].
  - left. exists P1. auto.
  - unfold lookup_stamp in L1. cbn [added s_tab set_tab find p_addr] in L1. destruct (bytes_eqb (slice buf 8 4) a) eqn:Q.
    + apply bytes_eqb_spec in Q. right. apply Some_inj in L1. subst P1. cbn in V1. subst a. auto.
    + left. exists P1. split; [exact L1|auto].
  - destruct (list_eq_dec Z.eq_dec a (slice buf 8 4)) as [->|Na].
    + rewrite L' in L1. apply Some_inj in L1. subst P'. destruct D as [D|(P0 & L0 & Rp)]; [congruence|]. left. exists P0. auto.
    + left. exists P1. rewrite O in L1 by assumption. auto.
Qed.

Lemma unsigned_inv c e s buf size s' o r : cfg_ok c -> secure_preprocessor c e s buf size = Some (s', o, r) ->
  ~ mac_ok c buf size -> ~ hs_signed c buf ->
  o = [] /\ r = None /\ (s' = s \/ s' = added s (e_junk1 e) (slice buf 8 4) /\ lookup_stamp (s_tab s) (slice buf 8 4) = None /\ rd8 buf 4 = Some 11 /\ In (slice buf 16 4) (c_ifs c)).
Proof.
  intros C H Nm Ns. unfold secure_preprocessor in H. apply obind_inv in H. destruct H as ([s1 o1] & E1 & H).
  apply obind_inv in H. destruct H as ([[s2 o2] n] & E2 & H).
  apply validate_inv in E2; [|exact C]. destruct E2 as [(-> & -> & ->)|(M & _)]; [|contradiction].
  apply Some_inj in H. inversion H; subst s1 o r. apply auth_inv in E1.
  destruct E1 as [(-> & ->)|[(-> & -> & X)|(Hs & _)]]; [auto| |contradiction].
  split; [reflexivity|]. split; [reflexivity|]. right. split; [reflexivity|exact X].
Qed.

(** once there is an entry that is not validated, packets of that node are dropped
    silently *)
Lemma locked_out c c' e s now seq q w p rest P :
  cfg_ok c -> peers c c' -> ~ padded (c_abi c) -> signed c now seq q w p -> w <> [] -> ~ handshake_type w ->
  4 + blen w + SMSG (c_abi c) - ssz (c_abi c) <= 1512 ->
  lookup_stamp (s_tab s) (c_main c) = Some P -> p_valid P = false ->
  secure_preprocessor c' e s (p ++ rest) (blen p) = Some (s, [], None).
Proof.
  intros C Pe Np Sg Nw Nh Hl L V. destruct w as [|t w']; [congruence|].
  unfold secure_preprocessor.
  rewrite (no_auth c' e s (p ++ rest) t); [|eapply signed_first; eassumption|..]; try (intros ->; apply Nh; do 2 eexists; eauto; fail).
  cbn [obind]. rewrite (validate_signed c c' e s now seq q (t :: w') p rest) by assumption.
  unfold check_timestamp. rewrite L, V. reflexivity.
Qed.

(** the output buffer *)
Lemma add_signature_inv c now seq pck size x : add_signature c now seq pck size = Some x -> cfg_ok c ->
  size + SMSG (c_abi c) <= blen pck /\ size + SMSG (c_abi c) - ssz (c_abi c) <= 1512.
Proof.
  intros H (_ & _ & Hh). unfold add_signature in H. cbv zeta in H.
  apply obind_inv in H. destruct H as (p1 & E1 & H). apply wr_inv in E1. destruct E1 as (_ & _ & E1).
  apply obind_inv in H. destruct H as (p2 & E2 & H). apply wr_inv in E2. destruct E2 as (_ & _ & E2).
  apply obind_inv in H. destruct H as (p3 & E3 & H). apply wr_inv in E3. destruct E3 as (_ & _ & E3).
  apply obind_inv in H. destruct H as (p4 & E4 & H). apply wr_inv in E4. destruct E4 as (_ & _ & E4).
  apply obind_inv in H. destruct H as (h & E5 & H). unfold packet_hash in E5. destruct (_ <=? 1512) eqn:Q; [|discriminate].
  apply obind_inv in E5. destruct E5 as (d & _ & E5). apply Some_inj in E5. subst h.
  apply obind_inv in H. destruct H as (p5 & E6 & _). apply wr_inv in E6. destruct E6 as (_ & E6 & _). rewrite Hh in E6. lia.
Qed.
Lemma output_exact c now seq ok b : cfg_ok c -> whole b -> 0 < nb_pend b -> 4 <= nb_size b -> 0 <= nb_seq b < 65536 ->
  net_output [add_signature c now seq] ok b <> None <-> room (c_abi c) b.
Proof.
  intros C W Np H4 Hq. split.
  - intros N. unfold net_output in N. replace (nb_pend b =? 0) with false in N by lia. destruct W as ((m & Em & Lm) & _). rewrite Em in N.
    destruct (wr m 2 (net16 (nb_seq b))) as [b1|] eqn:E1; [|congruence]. destruct (wr b1 0 (net16 (nb_pend b + HDR))) as [b2|] eqn:E2; [|congruence].
    apply wr_inv in E1. apply wr_inv in E2. cbn [run_ptfs] in N. destruct (add_signature c now seq b2 (nb_pend b + HDR)) as [[b3 p3]|] eqn:E3; [|congruence].
    apply add_signature_inv in E3; [|exact C]. unfold HDR in *. split; lia.
  - intros R. destruct (output_signed c now seq ok b (waiting b) C W R eq_refl ltac:(lia) Hq) as (b' & r & p & E & _). congruence.
Qed.

(** packets that a node sends *)
Lemma sends_signed c now q w p : cfg_ok c -> sends c now q w p ->
  exists seq, signed c now seq q w p /\ w <> [] /\ 0 <= q < 65536 /\ 4 + blen w + SMSG (c_abi c) - ssz (c_abi c) <= 1512.
Proof.
  intros C (seq & ok & b & b' & r & W & R & Np & Ew & Eq & Hq & E). exists seq.
  destruct (output_signed c now seq ok b w C W R Ew Np ltac:(lia)) as (b2 & r2 & p2 & E2 & Sg & _).
  rewrite E in E2. apply Some_inj in E2. inversion E2; subst p2. subst q.
  assert (Lw : blen w = nb_pend b).
  { destruct W as ((m & Em & Lm) & Hp). unfold waiting in Ew. rewrite Em in Ew. subst w. destruct R as (R & _). apply slice_length; try lia.
    destruct C as (A & _). pose proof (layouts _ A) as L. destruct A as [_ [G|G]], L; destruct (ssz (c_abi c) =? 20); lia. }
  split; [exact Sg|]. split; [|split; [exact Hq|]].
  - intros ->. change (blen []) with 0 in Lw. lia.
  - destruct R as (_ & R). lia.
Qed.
Lemma output_plain ok b : whole b -> nb_pend b <> 0 -> nb_pend b + 4 <= nb_size b -> nb_pend b + 4 < 65536 -> 0 <= nb_seq b < 65536 ->
  exists b' r, net_output [] ok b = Some (b', r, Some (packet_of (nb_seq b) [waiting b])).
Proof.
  intros ((m & Em & Lm) & Pn) Np Hs Hl Hq. unfold waiting. rewrite Em.
  destruct (split_exact m 4) as (h & t & -> & Lh & Lt); [lia|]. rewrite blen_app in *.
  destruct (split_exact t (nb_pend b)) as (w' & rest & -> & Lw & Lr); [lia|].
  rewrite (slice_is _ h w' rest 4 (nb_pend b)) by (reflexivity || lia).
  destruct (split_exact h 2) as (h1 & h2 & -> & L1 & L2); [lia|]. rewrite blen_app in *.
  unfold net_output. replace (nb_pend b =? 0) with false by lia. rewrite Em. unfold HDR.
  rewrite (wr_is _ h1 h2 (w' ++ rest)); [|asc|lia|rewrite blen_net16; lia].
  rewrite (wr_is _ [] h1 (net16 (nb_seq b) ++ w' ++ rest)); [|asc|reflexivity|rewrite blen_net16; lia].
  cbn [run_ptfs]. rewrite (rdn_is _ [] (net16 (nb_pend b + 4) ++ net16 (nb_seq b) ++ w') rest); [|asc|reflexivity|rewrite !blen_app, !blen_net16; lia].
  eexists _, _. f_equal. f_equal. f_equal. unfold packet_of. cbn [concat]. rewrite app_nil_r, !enc_net16 by lia.
  replace (4 + blen w') with (nb_pend b + 4) by lia. reflexivity.
Qed.

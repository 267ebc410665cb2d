(** Proofs about the handlers of the BMF plugin. *)
From Verif Require Import Base BmfPacket BmfHistory BmfForward BmfPacketSpec BmfHistorySpec BmfForwardSpec BmfPacketProofs BmfSumProofs BmfHistoryProofs BmfForwardProofs.

(** * Reading *)
Lemma get_nth : forall m k i, i = Z.of_nat k -> (k < length m)%nat -> get i m = Done (nth k m 0).
Proof. intros m k i -> L. unfold get. rewrite Nat2Z.id, (nth_error_nth' m 0 L). reflexivity. Qed.
Lemma get16_nth : forall m k i, i = Z.of_nat k -> (S k < length m)%nat -> get16 i m = Done (nth k m 0 * 256 + nth (S k) m 0).
Proof. intros m k i E L. unfold get16. rewrite (get_nth m k i E), (get_nth m (S k) (i + 1)) by lia. reflexivity. Qed.
Lemma get32_nth : forall m k i, i = Z.of_nat k -> (k + 3 < length m)%nat -> get32 i m = Done ((nth k m 0 * 256 + nth (S k) m 0) * 65536 + (nth (S (S k)) m 0 * 256 + nth (S (S (S k))) m 0)).
Proof. intros m k i E L. unfold get32. rewrite (get16_nth m k i E), (get16_nth m (S (S k)) (i + 2)) by lia. reflexivity. Qed.
Lemma address_nth : forall m, (20 <= length m)%nat -> address m = (nth 16 m 0 * 256 + nth 17 m 0) * 65536 + (nth 18 m 0 * 256 + nth 19 m 0).
Proof. intros m L. do 20 (destruct m as [|? m]; [cbn in L; lia|]). unfold address, dest. cbn [skipn firstn fold_left nth]. lia. Qed.
Lemma source_nth : forall m, (20 <= length m)%nat -> source m = (nth 12 m 0 * 256 + nth 13 m 0) * 65536 + (nth 14 m 0 * 256 + nth 15 m 0).
Proof. intros m L. do 20 (destruct m as [|? m]; [cbn in L; lia|]). unfold source. cbn [skipn firstn fold_left nth]. lia. Qed.
Lemma get_address : forall m, (20 <= length m)%nat -> get32 16 m = Done (address m).
Proof. intros m L. rewrite (get32_nth m 16 16 eq_refl) by lia. now rewrite address_nth. Qed.
Lemma get_source : forall m, (20 <= length m)%nat -> get32 12 m = Done (source m).
Proof. intros m L. rewrite (get32_nth m 12 12 eq_refl) by lia. now rewrite source_nth. Qed.
Lemma byte_nth : forall m k, Forall byte m -> byte (nth k m 0).
Proof.
  intros m k F. destruct (le_lt_dec (length m) k); [rewrite nth_overflow by lia; unfold byte; lia|]. rewrite Forall_forall in F. apply F. now apply nth_In.
Qed.
Lemma get_total : forall m, (20 <= length m)%nat -> Forall byte m -> ip_total_length m = Done (Z.of_nat (total m)).
Proof.
  intros m L F. unfold ip_total_length. rewrite (get16_nth m 2 2 eq_refl) by lia. unfold total. rewrite Z2Nat.id; [reflexivity|].
  pose proof (byte_nth m 2 F). pose proof (byte_nth m 3 F). unfold byte in *. lia.
Qed.
Lemma get_ihl : forall m, (20 <= length m)%nat -> Forall byte m -> ip_header_length m = Done (Z.of_nat (ihl m)).
Proof.
  intros m L F. unfold ip_header_length. rewrite (get_nth m 0 0 eq_refl) by lia. cbn [obind]. f_equal. unfold ihl. pose proof (byte_nth m 0 F). unfold byte in *. lia.
Qed.
Lemma multicast_iff : forall a, is_multicast a = true <-> multicast a.
Proof. intros a. unfold is_multicast, multicast. lia. Qed.

(** * The packet on its way *)
Record J (m0 m : list Z) : Prop := { j_len : length m = length m0; j_bytes : Forall byte m; j_same : untouched m0 m;
  j_multi : multicast (address m0) -> m = m0; j_uni : ~ multicast (address m0) -> ~ multicast (address m) }.
Lemma J_refl : forall m, Forall byte m -> J m m.
Proof. intros m F. constructor; auto. unfold untouched. intros i _ _. reflexivity. Qed.
Lemma untouched_nth : forall m0 m k, untouched m0 m -> length m = length m0 -> (20 <= ihl m0)%nat -> (k < 20)%nat -> ~ (10 <= k < 12 \/ 16 <= k < 20)%nat -> nth k m 0 = nth k m0 0.
Proof. intros m0 m k U L I K N. specialize (U k N). assert (H : nth_error m k = nth_error m0 k) by (apply U; lia). rewrite <- !nth_default_eq. unfold nth_default. now rewrite H. Qed.
Lemma J_ihl : forall m0 m, J m0 m -> (20 <= ihl m0)%nat -> ihl m = ihl m0.
Proof. intros m0 m K I. unfold ihl. rewrite (untouched_nth m0 m 0 (j_same _ _ K) (j_len _ _ K) I) by lia. reflexivity. Qed.
Lemma J_total : forall m0 m, J m0 m -> (20 <= ihl m0)%nat -> total m = total m0.
Proof.
  intros m0 m K I. unfold total. rewrite (untouched_nth m0 m 2 (j_same _ _ K) (j_len _ _ K) I), (untouched_nth m0 m 3 (j_same _ _ K) (j_len _ _ K) I) by lia. reflexivity.
Qed.
Lemma multi_dec : forall a, multicast a \/ ~ multicast a.
Proof. intros a. unfold multicast. lia. Qed.
Lemma dest_address : forall m b, dest m = bytes_of b -> 0 <= b < 4294967296 -> address m = b.
Proof. intros m b D B. unfold address. rewrite D. unfold bytes_of. cbn [fold_left]. lia. Qed.
Lemma J_update : forall m0 m broad, J m0 m -> (68 <= length m0)%nat -> (20 <= ihl m0)%nat -> 0 <= broad < 4294967296 -> ~ multicast broad ->
  exists m', update_broadcast m broad = Done m' /\ J m0 m' /\ fresh_broadcast m0 m' broad.
Proof.
  intros m0 m broad K L I B NM. destruct (multi_dec (address m0)) as [M|M].
  - pose proof (j_multi _ _ K M). subst m. exists m0. split; [|split; [exact K|intros N; contradiction]]. apply multicast_same; [exact L|apply (j_bytes _ _ K)|exact M].
  - pose proof (j_len _ _ K) as Lm. destruct (update_ok m broad) as (m' & E & A1 & A2 & A3 & A4 & _); [lia|apply (j_bytes _ _ K)|exact B|rewrite (J_ihl _ _ K I); exact I|apply (j_uni _ _ K M)|].
    exists m'. split; [exact E|]. split; [|intros _; exact A3]. constructor.
    + congruence.
    + exact A2.
    + unfold untouched. intros i N1 N2. rewrite A4; [apply (j_same _ _ K); auto|exact N1|]. rewrite (J_ihl _ _ K I). rewrite (untouched_nth m0 m 9); [exact N2|apply (j_same _ _ K)|exact Lm|exact I|lia|lia].
    + intros; contradiction.
    + intros _. rewrite (dest_address m' broad A3 B). exact NM.
Qed.

(** the memory begins with what was received *)
Record mem_ok (data m0 : list Z) : Prop := { o_pre : exists rest, m0 = data ++ rest; o_valid : valid data; o_bytes : Forall byte m0; o_len : (68 <= length m0)%nat }.
Lemma mem_nth : forall data m0 k, mem_ok data m0 -> (k < length data)%nat -> nth k m0 0 = nth k data 0.
Proof. intros data m0 k O K. destruct (o_pre _ _ O) as (rest & ->). now apply app_nth1. Qed.
Lemma mem_ihl : forall data m0, mem_ok data m0 -> ihl m0 = ihl data.
Proof. intros data m0 O. pose proof (o_valid _ _ O) as (_ & L & _). unfold ihl. rewrite (mem_nth data m0 0 O) by lia. reflexivity. Qed.
Lemma mem_total : forall data m0, mem_ok data m0 -> total m0 = total data.
Proof. intros data m0 O. pose proof (o_valid _ _ O) as (_ & L & _). unfold total. rewrite (mem_nth data m0 2 O), (mem_nth data m0 3 O) by lia. reflexivity. Qed.
Lemma mem_address : forall data m0, mem_ok data m0 -> address m0 = address data.
Proof. intros data m0 O. pose proof (o_valid _ _ O) as (_ & L & _). pose proof (o_len _ _ O). rewrite !address_nth by lia. now rewrite !(mem_nth data m0 _ O) by lia. Qed.
Lemma mem_source : forall data m0, mem_ok data m0 -> source m0 = source data.
Proof. intros data m0 O. pose proof (o_valid _ _ O) as (_ & L & _). pose proof (o_len _ _ O). rewrite !source_nth by lia. now rewrite !(mem_nth data m0 _ O) by lia. Qed.
Lemma cut : forall data m0 m, mem_ok data m0 -> J m0 m -> exists d, same_packet data d /\ firstn (total data) m = firstn (total data) d /\ forall b, fresh_broadcast m0 m b -> fresh_broadcast data d b.
Proof.
  intros data m0 m O K. pose proof (o_valid _ _ O) as (_ & Ld & I & T). pose proof (j_len _ _ K) as Lm.
  assert (Lp : (length data <= length m0)%nat) by (destruct (o_pre _ _ O) as (rest & ->); rewrite app_length; lia).
  exists (firstn (length data) m). split; [split; [|split; [|split]]|split].
  - rewrite firstn_length. lia.
  - apply forall_take. apply (j_bytes _ _ K).
  - intros i N1 N2. destruct (le_lt_dec (length data) i) as [G|G].
    + rewrite !(proj2 (nth_error_None _ _)); [reflexivity|lia|rewrite firstn_length; lia].
    + rewrite nth_firstn by lia. rewrite (j_same _ _ K i N1).
      * destruct (o_pre _ _ O) as (rest & ->). now apply nth_error_app1.
      * rewrite (mem_ihl _ _ O), (mem_nth data m0 9 O) by lia. exact N2.
  - intros M. rewrite <- (mem_address _ _ O) in M. rewrite (j_multi _ _ K M). destruct (o_pre _ _ O) as (rest & ->). rewrite firstn_app, Nat.sub_diag, firstn_all. cbn [firstn]. apply app_nil_r.
  - rewrite firstn_firstn. f_equal. lia.
  - intros b F N. rewrite <- (mem_address _ _ O) in N. rewrite <- (F N). unfold dest. rewrite skipn_firstn_comm, firstn_firstn. f_equal. lia.
Qed.
Lemma take_ok : forall n m, (n <= length m)%nat -> take (Z.of_nat n) m = Done (firstn n m).
Proof. intros n m L. unfold take. replace (Z.of_nat n <=? Z.of_nat (length m)) with true by lia. now rewrite Nat2Z.id. Qed.

Section steps.
Variables (e : env) (data m0 : list Z).
Hypothesis Sa : sane e.
Hypothesis O : mem_ok data m0.
Lemma long : (total data <= length m0)%nat /\ (total data <= 2040)%nat.
Proof. pose proof (o_valid _ _ O) as (_ & L & _ & T). destruct (o_pre _ _ O) as (rest & ->). rewrite app_length. lia. Qed.
Lemma tot_m : forall m, J m0 m -> ip_total_length m = Done (Z.of_nat (total data)).
Proof.
  intros m K. pose proof (o_valid _ _ O) as (_ & _ & I & _). pose proof (o_len _ _ O). rewrite get_total; [|rewrite (j_len _ _ K); lia|apply (j_bytes _ _ K)].
  rewrite (J_total _ _ K), (mem_total _ _ O); [reflexivity|]. now rewrite (mem_ihl _ _ O).
Qed.
Lemma forward_ok : forall i m, In i (e_intfs e) -> J m0 m -> exists part m', forward e i m (Z.of_nat (total data)) = Done (part, m') /\ J m0 m' /\ raw_part e i data (total data) part.
Proof.
  intros i m Ii K. pose proof Sa as (_ & _ & _ & Br & _). destruct (Br i Ii) as (B1 & B2). pose proof (o_valid _ _ O) as (_ & _ & I & _).
  destruct (J_update m0 m (i_broad i) K (o_len _ _ O)) as (m' & E & K' & F); [rewrite (mem_ihl _ _ O); exact I|exact B1|exact B2|].
  unfold forward. rewrite E. cbn [obind]. destruct (cut data m0 m' O K') as (d & S1 & S2 & S3). destruct long as (L1 & L2). destruct (e_ready e (i_id i) 0) eqn:R.
  - rewrite take_ok by (rewrite (j_len _ _ K'); exact L1). cbn [obind]. eexists _, m'. split; [reflexivity|]. split; [exact K'|]. split; [congruence|]. intros _. exists d. split; [exact S1|]. split; [auto|]. now rewrite S2.
  - eexists _, m'. split; [reflexivity|]. split; [exact K'|]. split; [reflexivity|congruence].
Qed.
Lemma encap_part_ok : forall i hdr m src by_ to, length hdr = 8%nat -> J m0 m -> exists part, encap_forward e i hdr m src by_ to = Done part /\ encap_part e i hdr data (total data) src by_ to part.
Proof.
  intros i hdr m src by_ to H K. destruct long as (L1 & L2). destruct (cut data m0 m O K) as (d & S1 & S2 & _).
  destruct (encap_ok e i hdr m src by_ to (Z.of_nat (total data)) (hdr ++ firstn (total data) m) Sa (tot_m m K)) as (p & r & P & R & E).
  - unfold u16. apply Z.mod_small. lia.
  - replace (Z.of_nat (total data) + 8) with (Z.of_nat (8 + total data)) by lia. rewrite take_ok; [|rewrite app_length, (j_len _ _ K); lia]. f_equal.
    rewrite <- H. apply firstn_app_2.
  - exists (map (fun a => Encap (i_id i) a (hdr ++ firstn (total data) m)) (firstn r p)). split; [exact E|]. exists p, r, d. split; [exact P|]. split; [exact R|]. split; [exact S1|]. now rewrite S2.
Qed.
Lemma deliver_ok : exists part m', deliver e m0 (Z.of_nat (total data)) = Done (part, m') /\ J m0 m' /\ local_part e data (total data) part.
Proof.
  unfold deliver, local_part. pose proof (o_valid _ _ O) as (_ & _ & I & _). assert (K : J m0 m0) by (apply J_refl; apply (o_bytes _ _ O)). destruct (e_tun e) as [b|] eqn:T.
  - pose proof Sa as (_ & _ & _ & _ & Bt). destruct (Bt b T) as (B1 & B2).
    destruct (J_update m0 m0 b K (o_len _ _ O)) as (m' & E & K' & F); [rewrite (mem_ihl _ _ O); exact I|exact B1|exact B2|].
    destruct (cut data m0 m' O K') as (d & S1 & S2 & S3). destruct long as (L1 & L2). rewrite E. cbn [obind]. rewrite take_ok by (rewrite (j_len _ _ K'); exact L1). cbn [obind].
    eexists _, m'. split; [reflexivity|]. split; [exact K'|]. exists d. split; [exact S1|]. split; [auto|]. now rewrite S2.
  - eexists _, m0. split; [reflexivity|]. split; [exact K|reflexivity].
Qed.
Lemma walk_ok : forall step D is m, (forall i m, In i is -> J m0 m -> exists part m', step i m = Done (part, m') /\ J m0 m' /\ D i part) -> J m0 m ->
  exists parts, walk step is m = Done (concat parts) /\ Forall2 D is parts.
Proof.
  intros step D. induction is as [|i is IH]; intros m H K; [exists []; split; [reflexivity|constructor]|].
  destruct (H i m (or_introl eq_refl) K) as (part & m' & E & K' & Di). destruct (IH m') as (parts & E' & F); [intros; apply H; [now right|assumption]|exact K'|].
  exists (part :: parts). split; [|constructor; assumption]. cbn [walk concat]. rewrite E. cbn [obind]. rewrite E'. reflexivity.
Qed.
Lemma keep_ok : forall (D : list action -> Prop) m a, J m0 m -> (exists part, a = Done part /\ D part) -> exists part m', keep m a = Done (part, m') /\ J m0 m' /\ D part.
Proof. intros D m a K (part & -> & H). exists part, m. split; [reflexivity|]. auto. Qed.
Lemma captured_on_ok : forall from outgoing hdr i m, length hdr = 8%nat -> In i (e_intfs e) -> J m0 m ->
  exists part m', captured_on e from outgoing (i_olsr from && match e_best e (e_main e (source data)) with Some _ => true | None => false end) (e_mpr e (e_main e (source data))) hdr (Z.of_nat (total data)) i m = Done (part, m') /\
    J m0 m' /\ captured_part e from outgoing hdr data i part.
Proof.
  intros from outgoing hdr i m H Ii K. unfold captured_on, captured_part. cbv zeta.
  set (sel := e_best e (e_main e (source data)) = None \/ e_mpr e (e_main e (source data)) = true).
  destruct (i_olsr from) eqn:Of, (i_olsr i) eqn:Oi; cbn [andb negb].
  - assert (S : (match e_best e (e_main e (source data)) with Some _ => true | None => false end && negb (e_mpr e (e_main e (source data)))) = true <-> ~ sel).
    { unfold sel. destruct (e_best e (e_main e (source data))), (e_mpr e (e_main e (source data))); cbn; split; intros; try discriminate; try tauto; try (intros [A|A]; discriminate); try (exfalso; tauto). }
    destruct (match e_best e (e_main e (source data)) with Some _ => true | None => false end && negb (e_mpr e (e_main e (source data)))) eqn:Sb.
    + exists [], m. split; [reflexivity|]. split; [exact K|]. assert (N : ~ sel) by now apply S. split; [intros _; split|discriminate]; [|auto]. intros [A|(A & _)]; [discriminate|contradiction].
    + assert (Y : sel) by (unfold sel; destruct (e_best e (e_main e (source data))), (e_mpr e (e_main e (source data))); auto; discriminate).
      destruct outgoing; cbn [andb].
      * destruct (Z.eqb_spec (i_id from) (i_id i)) as [Id|Id].
        -- exists [], m. split; [reflexivity|]. split; [exact K|]. split; [intros _; split|discriminate]; [|auto]. intros [A|(_ & A)]; [discriminate|]. destruct A. auto.
        -- apply keep_ok; [exact K|]. destruct (encap_part_ok i hdr m None None None H K) as (part & E & P). exists part. split; [exact E|]. split; [intros _; split|discriminate]; [auto|]. intros _ [A|(_ & A)]; contradiction.
      * apply keep_ok; [exact K|]. destruct (encap_part_ok i hdr m None None None H K) as (part & E & P). exists part. split; [exact E|]. split; [intros _; split|discriminate]; [auto|]. intros _ [A|(A & _)]; [contradiction|discriminate].
  - destruct (forward_ok i m Ii K) as (part & m' & E & K' & P). exists part, m'. split; [exact E|]. split; [exact K'|]. split; [discriminate|]. intros _. split; [auto|discriminate].
  - apply keep_ok; [exact K|]. destruct (encap_part_ok i hdr m None None None H K) as (part & E & P). exists part. split; [exact E|]. split; [intros _; split|discriminate]; [auto|discriminate].
  - destruct (Z.eqb_spec (i_id from) (i_id i)) as [Id|Id].
    + exists [], m. split; [reflexivity|]. split; [exact K|]. split; [discriminate|]. intros _. split; [|auto]. intros [A|A]; [discriminate|contradiction].
    + destruct (forward_ok i m Ii K) as (part & m' & E & K' & P). exists part, m'. split; [exact E|]. split; [exact K'|]. split; [discriminate|]. intros _. split; [auto|]. intros _ A. contradiction.
Qed.
Lemma tun_on_ok : forall hdr i m, length hdr = 8%nat -> In i (e_intfs e) -> J m0 m -> exists part m', tun_on e hdr (Z.of_nat (total data)) i m = Done (part, m') /\ J m0 m' /\ tun_part e hdr data i part.
Proof.
  intros hdr i m H Ii K. unfold tun_on, tun_part. destruct (i_olsr i).
  - apply keep_ok; [exact K|]. destruct (encap_part_ok i hdr m None None None H K) as (part & E & P). exists part. split; [exact E|]. split; [auto|discriminate].
  - destruct (forward_ok i m Ii K) as (part & m' & E & K' & P). exists part, m'. split; [exact E|]. split; [exact K'|]. split; [discriminate|auto].
Qed.
Lemma received_on_ok : forall by_ to hdr i m, length hdr = 8%nat -> In i (e_intfs e) -> J m0 m ->
  exists part m', received_on e (e_mpr e (e_main e by_)) hdr (Z.of_nat (total data)) (source data) by_ to i m = Done (part, m') /\ J m0 m' /\ received_part e by_ to hdr data i part.
Proof.
  intros by_ to hdr i m H Ii K. unfold received_on, received_part. destruct (i_olsr i); cbn [negb].
  - destruct (e_mpr e (e_main e by_)).
    + apply keep_ok; [exact K|]. destruct (encap_part_ok i hdr m (Some (source data)) (Some by_) to H K) as (part & E & P). exists part. split; [exact E|]. split; [|discriminate]. intros _. split; [auto|discriminate].
    + exists [], m. split; [reflexivity|]. split; [exact K|]. split; [|discriminate]. intros _. split; [discriminate|auto].
  - destruct (forward_ok i m Ii K) as (part & m' & E & K' & P). exists part, m'. split; [exact E|]. split; [exact K'|]. split; [discriminate|auto].
Qed.
End steps.

(** * The handlers *)
Lemma crc_word : forall l, Forall byte l -> 0 <= crc32 l < 4294967296.
Proof. intros l F. unfold crc32. apply lxor32; [apply fold32; [exact F|unfold word32; lia]|unfold word32; lia]. Qed.
Lemma normal_cut : forall data m0 n, mem_ok data m0 -> normal m0 n -> normal data (firstn (length data) n).
Proof.
  intros data m0 n O (A & B & C). pose proof (o_valid _ _ O) as (_ & L & _). destruct (o_pre _ _ O) as (rest & E). subst m0. rewrite app_length in A.
  split; [rewrite firstn_length; lia|]. split.
  - intros i V. destruct (le_lt_dec (length data) i) as [G|G].
    + rewrite !(proj2 (nth_error_None _ _)); [reflexivity|lia|rewrite firstn_length; lia].
    + rewrite nth_firstn, (B i V) by lia. now apply nth_error_app1.
  - rewrite !nth_firstn by lia. exact C.
Qed.
Lemma crc_mem : forall data m0, mem_ok data m0 -> exists c, packet_crc32 m0 (Z.of_nat (total data)) = Done (c, m0) /\ fingerprint_of data c /\ 0 <= c < 4294967296.
Proof.
  intros data m0 O. pose proof (o_valid _ _ O) as (_ & L & _ & T). pose proof (o_len _ _ O) as Lm.
  assert (Lp : (length data <= length m0)%nat) by (destruct (o_pre _ _ O) as (rest & ->); rewrite app_length; lia).
  destruct (fingerprint m0 (Z.of_nat (total data))) as (n & N & F & E); [lia|apply (o_bytes _ _ O)|lia|]. eexists. split; [exact E|]. split.
  - exists (firstn (length data) n). split; [now apply (normal_cut data m0)|]. f_equal. rewrite firstn_firstn. f_equal. lia.
  - apply crc_word. now apply forall_take.
Qed.
Lemma fingerprint_fun : forall data c c', fingerprint_of data c -> fingerprint_of data c' -> c = c'.
Proof.
  intros data c c' (n & N & ->) (n' & N' & ->). assert (A : alike data data) by (split; auto). now rewrite (normal_alike data data n n' A N N').
Qed.
Lemma header_bytes : forall c, 0 <= c < 4294967296 -> header c = bmf_header c.
Proof. intros c C. unfold header, bmf_header, bytes_of. cbn [app]. replace (c / 16777216 mod 256) with (c / 16777216) by lia. reflexivity. Qed.
Lemma mark_run : forall l t c, run (l ++ [Seen t c]) = snd (check_and_mark (u32 t) c (run l)).
Proof. intros l t c. unfold run. rewrite fold_left_app. reflexivity. Qed.
Lemma mark_pair : forall l t c, check_and_mark (u32 t) c (run l) = (answer l t c, run (l ++ [Seen t c])).
Proof. intros l t c. rewrite mark_run. unfold answer. apply surjective_pairing. Qed.
Lemma wanted_dec : forall e broad data, (is_multicast (address data) || (e_local e && (address data =? broad))) = true <-> wanted e broad data.
Proof.
  intros e broad data. unfold wanted. rewrite orb_true_iff, andb_true_iff, multicast_iff, Z.eqb_eq. tauto.
Qed.
Lemma fragment_ok : forall data m0, mem_ok data m0 -> exists b, is_fragment m0 = Done b /\ (b = true <-> later_fragment data).
Proof.
  intros data m0 O. pose proof (o_valid _ _ O) as (_ & L & _). pose proof (o_len _ _ O). unfold is_fragment. rewrite (get16_nth m0 6 6 eq_refl) by lia. cbn [obind].
  rewrite (mem_nth data m0 6 O), (mem_nth data m0 7 O) by lia. eexists. split; [reflexivity|]. unfold later_fragment. destruct (Z.eqb_spec ((nth 6 data 0 * 256 + nth 7 data 0) mod 8192) 0); cbn; split; congruence.
Qed.
Lemma control_ok : forall e data m0, mem_ok data m0 -> exists b, is_olsr_or_bmf e m0 = Done b /\ (b = true <-> control e data).
Proof.
  intros e data m0 O. pose proof (o_valid _ _ O) as (_ & L & I & T). pose proof (o_len _ _ O).
  assert (Lp : (length data <= length m0)%nat) by (destruct (o_pre _ _ O) as (rest & ->); rewrite app_length; lia).
  unfold is_olsr_or_bmf, control. rewrite (get_nth m0 9 9 eq_refl), (mem_nth data m0 9 O) by lia. cbn [obind].
  destruct (Z.eqb_spec (nth 9 data 0) 17) as [P|P]; cbn [negb]; [|exists false; split; [reflexivity|split; [discriminate|tauto]]].
  rewrite get_ihl, get_total by (try lia; apply (o_bytes _ _ O)). cbn [obind]. rewrite (mem_ihl _ _ O), (mem_total _ _ O).
  destruct (Z.ltb_spec (Z.of_nat (total data)) (Z.of_nat (ihl data) + 8)) as [G|G]; [exists false; split; [reflexivity|split; [discriminate|lia]]|].
  rewrite (get16_nth m0 (ihl data + 2)) by lia. cbn [obind]. eexists. split; [reflexivity|]. rewrite !(mem_nth data m0 _ O) by lia. unfold port.
  replace (S (ihl data + 2)) with (ihl data + 3)%nat by lia. set (d := nth (ihl data + 2) data 0 * 256 + nth (ihl data + 3) data 0). clearbody d. rewrite !orb_true_iff, !Z.eqb_eq. split; [intros [[D|D]|D]; (split; [exact P|split; [lia|auto]])|tauto].
Qed.
Lemma buffer_skip : forall old data n, length old = 2048%nat -> (length data <= 2048 - n)%nat -> (n <= 2048)%nat -> skipn n (buffer old data n) = data ++ skipn (n + length data) old.
Proof.
  intros old data n L D N. unfold buffer. rewrite (firstn_all2 data) by lia. rewrite skipn_app, skipn_all2, app_nil_l by (rewrite firstn_length; lia). rewrite firstn_length.
  replace (n - Nat.min n (length old))%nat with 0%nat by lia. reflexivity.
Qed.
Lemma skip_bytes : forall n l, Forall byte l -> Forall byte (skipn n l).
Proof. intros n l F. rewrite <- (firstn_skipn n l) in F. now apply Forall_app in F. Qed.
Lemma mem_make : forall data old k, valid data -> Forall byte old -> (k <= length old)%nat -> (68 <= length data + (length old - k))%nat -> mem_ok data (data ++ skipn k old).
Proof.
  intros data old k V F K L. constructor; [eauto|exact V| |].
  - apply Forall_app. split; [apply V|now apply skip_bytes].
  - rewrite app_length, skipn_length. exact L.
Qed.

Lemma captured_ok : forall e l t from outgoing data m0 c, sane e -> mem_ok data m0 -> wanted e (i_broad from) data -> ~ later_fragment data -> ~ control e data -> fingerprint_of data c ->
  (answer l t c = true -> captured e (u32 t) from outgoing m0 (run l) = Done ([], run (l ++ [Seen t c]))) /\
  (answer l t c = false -> exists parts, captured e (u32 t) from outgoing m0 (run l) = Done (concat parts, run (l ++ [Seen t c])) /\
    Forall2 (captured_part e from outgoing (bmf_header c) data) (e_intfs e) parts).
Proof.
  intros e l t from outgoing data m0 c S O W NF NC Fp. pose proof (o_len _ _ O) as Lm. unfold captured.
  rewrite get_address by lia. cbn [obind]. rewrite (mem_address _ _ O). rewrite (proj2 (wanted_dec e (i_broad from) data) W). cbn [negb].
  destruct (fragment_ok data m0 O) as (b1 & -> & B1). cbn [obind]. destruct b1; [destruct NF; now apply B1|].
  destruct (control_ok e data m0 O) as (b2 & -> & B2). cbn [obind]. destruct b2; [destruct NC; now apply B2|].
  rewrite get_total by (try lia; apply (o_bytes _ _ O)). cbn [obind]. rewrite get_source by lia. cbn [obind]. rewrite (mem_total _ _ O), (mem_source _ _ O).
  destruct (crc_mem data m0 O) as (c' & -> & F' & C). rewrite (fingerprint_fun _ _ _ F' Fp) in *. cbn [obind]. rewrite mark_pair. split; intros A; rewrite A; [reflexivity|].
  rewrite header_bytes by exact C.
  destruct (walk_ok m0 (captured_on e from outgoing (i_olsr from && match e_best e (e_main e (source data)) with Some _ => true | None => false end) (e_mpr e (e_main e (source data))) (bmf_header c) (Z.of_nat (total data)))
    (captured_part e from outgoing (bmf_header c) data) (e_intfs e) m0) as (parts & E & F).
  - intros i m I K. apply (captured_on_ok e data m0 S O); auto.
  - apply J_refl. apply (o_bytes _ _ O).
  - exists parts. rewrite E. cbn [obind]. auto.
Qed.
Lemma captured_not : forall e now from outgoing data m0 h, mem_ok data m0 -> ~ wanted e (i_broad from) data \/ later_fragment data \/ control e data -> captured e now from outgoing m0 h = Done ([], h).
Proof.
  intros e now from outgoing data m0 h O W. pose proof (o_len _ _ O) as Lm. unfold captured. rewrite get_address by lia. cbn [obind]. rewrite (mem_address _ _ O).
  destruct (is_multicast (address data) || (e_local e && (address data =? i_broad from))) eqn:Wb; cbn [negb]; [|reflexivity]. apply wanted_dec in Wb.
  destruct (fragment_ok data m0 O) as (b1 & -> & B1). cbn [obind]. destruct b1; [reflexivity|].
  destruct (control_ok e data m0 O) as (b2 & -> & B2). cbn [obind]. destruct b2; [reflexivity|].
  destruct W as [W|[W|W]]; [contradiction|apply B1 in W; discriminate|apply B2 in W; discriminate].
Qed.
Lemma tun_ok : forall e l t broad data m0 c, sane e -> mem_ok data m0 -> wanted e broad data -> fingerprint_of data c ->
  (answer l t c = true -> tun_captured e (u32 t) broad m0 (run l) = Done ([], run (l ++ [Seen t c]))) /\
  (answer l t c = false -> exists parts, tun_captured e (u32 t) broad m0 (run l) = Done (concat parts, run (l ++ [Seen t c])) /\ Forall2 (tun_part e (bmf_header c) data) (e_intfs e) parts).
Proof.
  intros e l t broad data m0 c S O W Fp. pose proof (o_len _ _ O) as Lm. unfold tun_captured.
  rewrite get_total by (try lia; apply (o_bytes _ _ O)). cbn [obind]. rewrite get_address by lia. cbn [obind]. rewrite (mem_address _ _ O), (mem_total _ _ O). rewrite (proj2 (wanted_dec e broad data) W). cbn [negb].
  destruct (crc_mem data m0 O) as (c' & -> & F' & C). rewrite (fingerprint_fun _ _ _ F' Fp) in *. cbn [obind]. rewrite mark_pair. split; intros A; rewrite A; [reflexivity|].
  rewrite header_bytes by exact C.
  destruct (walk_ok m0 (tun_on e (bmf_header c) (Z.of_nat (total data))) (tun_part e (bmf_header c) data) (e_intfs e) m0) as (parts & E & F).
  - intros i m I K. apply (tun_on_ok e data m0 S O); auto.
  - apply J_refl. apply (o_bytes _ _ O).
  - exists parts. rewrite E. cbn [obind]. auto.
Qed.
Lemma tun_not : forall e now broad data m0 h, mem_ok data m0 -> ~ wanted e broad data -> tun_captured e now broad m0 h = Done ([], h).
Proof.
  intros e now broad data m0 h O W. pose proof (o_len _ _ O) as Lm. unfold tun_captured. rewrite get_total by (try lia; apply (o_bytes _ _ O)). cbn [obind]. rewrite get_address by lia. cbn [obind]. rewrite (mem_address _ _ O).
  destruct (is_multicast (address data) || (e_local e && (address data =? broad))) eqn:Wb; cbn [negb]; [|reflexivity]. apply wanted_dec in Wb. contradiction.
Qed.
Lemma bmf_crc : forall c, 0 <= c < 4294967296 -> get32 4 (bmf_header c) = Done c.
Proof. intros c C. rewrite (get32_nth (bmf_header c) 4 4 eq_refl) by (cbn; lia). f_equal. unfold bmf_header, bytes_of. cbn [nth app]. lia. Qed.
Lemma received_ok : forall e l t from by_ to data m0 c, sane e -> mem_ok data m0 -> 0 <= c < 4294967296 -> e_own e by_ = false -> i_olsr from = true ->
  (answer l t c = true -> received e (u32 t) from by_ to (bmf_header c) m0 (run l) = Done ([], run (l ++ [Seen t c]))) /\
  (answer l t c = false -> exists here parts, received e (u32 t) from by_ to (bmf_header c) m0 (run l) = Done (here ++ concat parts, run (l ++ [Seen t c])) /\
    local_part e data (total data) here /\ Forall2 (received_part e by_ to (bmf_header c) data) (e_intfs e) parts).
Proof.
  intros e l t from by_ to data m0 c S O C Own Ol. pose proof (o_len _ _ O) as Lm. unfold received. rewrite Own, Ol. cbn [negb].
  rewrite get_total by (try lia; apply (o_bytes _ _ O)). cbn [obind]. rewrite get_source, get_address by lia. cbn [obind].
  change (get 0 (bmf_header c)) with (Done 1). change (get 1 (bmf_header c)) with (Done 6). change (get16 2 (bmf_header c)) with (Done 0). cbn [obind]. cbn [Z.eqb Pos.eqb negb orb].
  rewrite bmf_crc by exact C. cbn [obind]. rewrite mark_pair. split; intros A; rewrite A; [reflexivity|]. rewrite (mem_total _ _ O), (mem_source _ _ O).
  destruct (deliver_ok e data m0 S O) as (here & m' & -> & K & Lp). cbn [obind].
  destruct (walk_ok m0 (received_on e (e_mpr e (e_main e by_)) (bmf_header c) (Z.of_nat (total data)) (source data) by_ to) (received_part e by_ to (bmf_header c) data) (e_intfs e) m') as (parts & E & F).
  - intros i m I K'. apply (received_on_ok e data m0 S O); auto.
  - exact K.
  - exists here, parts. rewrite E. cbn [obind]. auto.
Qed.
Lemma received_not : forall e now from by_ to hdr data m0 h, mem_ok data m0 -> length hdr = 8%nat ->
  e_own e by_ = true \/ i_olsr from = false \/ nth 0 hdr 0 <> 1 \/ nth 1 hdr 0 <> 6 \/ nth 2 hdr 0 * 256 + nth 3 hdr 0 <> 0 -> received e now from by_ to hdr m0 h = Done ([], h).
Proof.
  intros e now from by_ to hdr data m0 h O Lh W. pose proof (o_len _ _ O) as Lm. unfold received. destruct (e_own e by_); [reflexivity|]. destruct (i_olsr from); [|reflexivity]. cbn [negb].
  rewrite get_total by (try lia; apply (o_bytes _ _ O)). cbn [obind]. rewrite get_source, get_address by lia. cbn [obind].
  rewrite (get_nth hdr 0 0 eq_refl), (get_nth hdr 1 1 eq_refl), (get16_nth hdr 2 2 eq_refl) by lia. cbn [obind].
  destruct (Z.eqb_spec (nth 0 hdr 0) 1), (Z.eqb_spec (nth 1 hdr 0) 6), (Z.eqb_spec (nth 2 hdr 0 * 256 + nth 3 hdr 0) 0); cbn [negb orb]; try reflexivity.
  destruct W as [W|[W|[W|[W|W]]]]; congruence.
Qed.

(** * From the sockets *)
Lemma capture_mem : forall old data, length old = 2048%nat -> Forall byte old -> valid data -> mem_ok data (skipn 8 (buffer old data 8)).
Proof.
  intros old data L F V. pose proof V as (_ & Ld & _). rewrite buffer_skip by lia. apply mem_make; auto; lia.
Qed.
Lemma encap_mem : forall old data, length old = 2048%nat -> Forall byte old -> (8 <= length data)%nat -> valid (body data) ->
  firstn 8 (buffer old data 0) = head data /\ mem_ok (body data) (skipn 8 (buffer old data 0)).
Proof.
  intros old data L F Lh V. pose proof V as (_ & Ld & _). unfold body in Ld. rewrite skipn_length in Ld.
  pose proof (buffer_skip old data 0 L ltac:(lia) ltac:(lia)) as B. change (skipn 0 ?x) with x in B. rewrite B. cbn [Nat.add]. split.
  - rewrite firstn_app. replace (8 - length data)%nat with 0%nat by lia. cbn [firstn]. apply app_nil_r.
  - rewrite skipn_app. replace (8 - length data)%nat with 0%nat by lia. change (skipn 0 ?x) with x. apply mem_make; auto; [lia|]. unfold body. rewrite skipn_length. lia.
Qed.
Lemma listen_mem : forall old outer d, length old = 2048%nat -> Forall byte old -> (length outer <= 2048)%nat -> carrier outer d -> (8 <= length d)%nat -> valid (body d) ->
  exists m0, mem_ok (body d) m0 /\ length (head d) = 8%nat /\ forall e now from h, on_listening e now from KOther old outer h = received e now from (source outer) (Some (address outer)) (head d) m0 h.
Proof.
  intros old outer d L F Lo (B & I & Lb & P9 & Pt & D) Ld V. pose proof V as (_ & Lv & _). unfold body in Lv. rewrite skipn_length in Lv.
  assert (Ld' : length d = (length outer - (ihl outer + 8))%nat) by (rewrite D; apply skipn_length).
  assert (Hi : (ihl outer <= 60)%nat) by (unfold ihl; pose proof (byte_nth outer 0 B); unfold byte in *; lia).
  pose proof (buffer_skip old outer 0 L ltac:(lia) ltac:(lia)) as Bu. change (skipn 0 ?x) with x in Bu. cbn [Nat.add] in Bu.
  set (rest := skipn (length outer) old) in *. assert (Lr : length rest = (2048 - length outer)%nat) by (unfold rest; rewrite skipn_length; lia).
  assert (Fr : Forall byte rest) by (apply skip_bytes; exact F).
  exists (body d ++ rest). split; [|split].
  - unfold rest. apply mem_make; auto; [lia|]. unfold body. rewrite skipn_length. lia.
  - unfold head. rewrite firstn_length. lia.
  - intros e now from h. unfold on_listening. rewrite Bu. rewrite (firstn_all2 outer) by lia.
    assert (Fb : Forall byte (outer ++ rest)) by (apply Forall_app; auto). assert (Lbu : (20 <= length (outer ++ rest))%nat) by (rewrite app_length; lia).
    rewrite (get_nth (outer ++ rest) 9 9 eq_refl) by lia. rewrite app_nth1 by lia. rewrite P9. cbn [obind]. cbn [Z.eqb Pos.eqb negb].
    rewrite get_ihl by auto. cbn [obind]. replace (ihl (outer ++ rest)) with (ihl outer) by (unfold ihl; rewrite app_nth1 by lia; reflexivity).
    replace (Z.of_nat (ihl outer) + 8 + 8 + 20 >? 2048) with false by lia. replace (Z.of_nat (length outer) <? Z.of_nat (ihl outer) + 8 + 8 + 20) with false by lia.
    rewrite (get16_nth (outer ++ rest) (ihl outer + 2)) by (rewrite ?app_length; lia). rewrite !app_nth1 by lia. cbn [obind].
    unfold port in Pt. replace (S (ihl outer + 2)) with (ihl outer + 3)%nat by lia. rewrite Pt. cbn [Z.eqb Pos.eqb negb].
    rewrite get_source, get_address by exact Lbu. cbn [obind]. rewrite !source_nth, !address_nth by lia. rewrite !app_nth1 by lia.
    replace (Z.to_nat (Z.of_nat (ihl outer) + 8)) with (ihl outer + 8)%nat by lia.
    assert (Sd : skipn (ihl outer + 8) (outer ++ rest) = d ++ rest) by (rewrite skipn_app, <- D; replace (ihl outer + 8 - length outer)%nat with 0%nat by lia; reflexivity).
    rewrite Sd. rewrite firstn_app, skipn_app. replace (8 - length d)%nat with 0%nat by lia. cbn [firstn]. rewrite app_nil_r. reflexivity.
Qed.
Lemma fingerprint_run : forall data c, valid data -> packet_crc32 data (Z.of_nat (total data)) = Done (c, data) -> fingerprint_of data c.
Proof.
  intros data c (B & L & _ & T) E. destruct (fingerprint data (Z.of_nat (total data))) as (n & N & _ & E'); [lia|exact B|lia|]. rewrite E in E'. inversion E'. exists n. split; [exact N|]. f_equal. f_equal. lia.
Qed.

(** * Copies that come back *)
Lemma concat_in : forall (D : intf -> list action -> Prop) is parts a, Forall2 D is parts -> In a (concat parts) -> exists i part, In i is /\ D i part /\ In a part.
Proof.
  intros D is parts a F. induction F as [|i part is parts H F IH]; intros I; [destruct I|]. cbn [concat] in I. apply in_app_or in I. destruct I as [I|I].
  - exists i, part. split; [now left|]. auto.
  - destruct (IH I) as (i' & p' & A & B & C). exists i', p'. split; [now right|]. auto.
Qed.
(** what a packet that goes out can look like *)
Definition shape (hdr data : list Z) (a : action) : Prop :=
  match a with
  | Encap _ _ b => exists m, same_packet data m /\ b = hdr ++ firstn (total data) m
  | Raw _ b | Local b => exists m, same_packet data m /\ b = firstn (total data) m
  end.
Lemma raw_shape : forall e i hdr data part a, raw_part e i data (total data) part -> In a part -> shape hdr data a.
Proof.
  intros e i hdr data part a (R0 & R1) I. destruct (e_ready e (i_id i) 0); [|rewrite R0 in I by reflexivity; destruct I].
  destruct (R1 eq_refl) as (m & S & _ & ->). destruct I as [<-|[]]. exists m. auto.
Qed.
Lemma encap_shape : forall e i hdr data src by_ to part a, encap_part e i hdr data (total data) src by_ to part -> In a part -> shape hdr data a.
Proof.
  intros e i hdr data src by_ to part a (p & r & m & _ & _ & S & ->) I. apply in_map_iff in I. destruct I as (x & <- & _). exists m. auto.
Qed.
Lemma captured_shape : forall e from outgoing hdr data i part a, captured_part e from outgoing hdr data i part -> In a part -> shape hdr data a.
Proof.
  intros e from outgoing hdr data i part a (P1 & P2) I. destruct (i_olsr i).
  - destruct (P1 eq_refl) as (A & B). destruct (i_olsr from) eqn:Of; [|eapply encap_shape; [apply A; auto|exact I]].
    destruct (e_best e (e_main e (source data))) eqn:Eb.
    + destruct (e_mpr e (e_main e (source data))) eqn:Em.
      * destruct (bool_dec outgoing true) as [Og|Og].
        -- destruct (Z.eq_dec (i_id from) (i_id i)) as [Id|Id]; [rewrite B in I by auto; destruct I|]. eapply encap_shape; [apply A; right; split; [auto|tauto]|exact I].
        -- eapply encap_shape; [apply A; right; split; [auto|tauto]|exact I].
      * rewrite B in I; [destruct I|reflexivity|]. left. intros [H|H]; discriminate.
    + destruct (bool_dec outgoing true) as [Og|Og].
      * destruct (Z.eq_dec (i_id from) (i_id i)) as [Id|Id]; [rewrite B in I by auto; destruct I|]. eapply encap_shape; [apply A; right; split; [auto|tauto]|exact I].
      * eapply encap_shape; [apply A; right; split; [auto|tauto]|exact I].
  - destruct (P2 eq_refl) as (A & B). destruct (i_olsr from) eqn:Of; [eapply raw_shape; [apply A; auto|exact I]|].
    destruct (Z.eq_dec (i_id from) (i_id i)) as [Id|Id]; [rewrite B in I by auto; destruct I|]. eapply raw_shape; [apply A; auto|exact I].
Qed.
Lemma tun_shape : forall e hdr data i part a, tun_part e hdr data i part -> In a part -> shape hdr data a.
Proof.
  intros e hdr data i part a (P1 & P2) I. destruct (i_olsr i); [eapply encap_shape; [apply P1; reflexivity|exact I]|eapply raw_shape; [apply P2; reflexivity|exact I]].
Qed.
Lemma received_shape : forall e by_ to hdr data i part a, received_part e by_ to hdr data i part -> In a part -> shape hdr data a.
Proof.
  intros e by_ to hdr data i part a (P1 & P2) I. destruct (i_olsr i); [|eapply raw_shape; [apply P2; reflexivity|exact I]].
  destruct (P1 eq_refl) as (A & B). destruct (e_mpr e (e_main e by_)); [eapply encap_shape; [apply A; reflexivity|exact I]|rewrite B in I by reflexivity; destruct I].
Qed.
Lemma local_shape : forall e hdr data part a, local_part e data (total data) part -> In a part -> shape hdr data a.
Proof.
  intros e hdr data part a L I. unfold local_part in L. destruct (e_tun e); [|subst; destruct I]. destruct L as (m & S & _ & ->). destruct I as [<-|[]]. exists m. auto.
Qed.
(** a copy is a valid packet *)
Lemma copy_valid : forall data m, valid data -> (20 <= total data)%nat -> same_packet data m -> valid (firstn (total data) m) /\ ihl (firstn (total data) m) = ihl data /\ total (firstn (total data) m) = total data /\ length (firstn (total data) m) = total data.
Proof.
  intros data m (B & L & I & T) T20 (Lm & Bm & U & _). assert (Len : length (firstn (total data) m) = total data) by (rewrite firstn_length; lia).
  assert (N : forall k, (k < 20)%nat -> nth k (firstn (total data) m) 0 = nth k m 0).
  { intros k K. rewrite <- !nth_default_eq. unfold nth_default. now rewrite nth_firstn by lia. }
  assert (Ih : ihl (firstn (total data) m) = ihl data) by (unfold ihl; rewrite N by lia; rewrite (untouched_nth data m 0 U Lm I) by lia; reflexivity).
  assert (To : total (firstn (total data) m) = total data) by (unfold total at 1; rewrite !N by lia; rewrite (untouched_nth data m 2 U Lm I), (untouched_nth data m 3 U Lm I) by lia; reflexivity).
  split; [|auto]. split; [now apply forall_take|]. rewrite Ih, To, Len. split; [lia|]. split; [exact I|lia].
Qed.
Lemma wanted_or_not : forall e broad data m0, mem_ok data m0 -> (~ wanted e broad data \/ later_fragment data \/ control e data) \/ (wanted e broad data /\ ~ later_fragment data /\ ~ control e data).
Proof.
  intros e broad data m0 O. destruct (fragment_ok data m0 O) as (b1 & _ & B1). destruct (control_ok e data m0 O) as (b2 & _ & B2). pose proof (wanted_dec e broad data) as B3.
  destruct (is_multicast (address data) || (e_local e && (address data =? broad))), b1, b2; intuition discriminate.
Qed.
Lemma received_done : forall e l t from by_ to hdr data m0, sane e -> mem_ok data m0 -> length hdr = 8%nat -> Forall byte hdr -> exists r, received e (u32 t) from by_ to hdr m0 (run l) = Done r.
Proof.
  intros e l t from by_ to hdr data m0 S O L F. destruct (e_own e by_) eqn:Own; [rewrite (received_not e (u32 t) from by_ to hdr data m0 (run l) O L) by auto; eauto|].
  destruct (i_olsr from) eqn:Ol; [|rewrite (received_not e (u32 t) from by_ to hdr data m0 (run l) O L) by auto; eauto].
  destruct (Z.eq_dec (nth 0 hdr 0) 1) as [H0|H0]; [|rewrite (received_not e (u32 t) from by_ to hdr data m0 (run l) O L) by auto; eauto].
  destruct (Z.eq_dec (nth 1 hdr 0) 6) as [H1|H1]; [|rewrite (received_not e (u32 t) from by_ to hdr data m0 (run l) O L) by auto; eauto].
  destruct (Z.eq_dec (nth 2 hdr 0 * 256 + nth 3 hdr 0) 0) as [H2|H2]; [|rewrite (received_not e (u32 t) from by_ to hdr data m0 (run l) O L) by auto; eauto].
  do 9 (destruct hdr as [|? hdr]; [try discriminate|]); [|discriminate]. cbn [nth] in *.
  repeat match goal with H : Forall byte (_ :: _) |- _ => let B := fresh "B" in apply bytes_inv in H; destruct H as (B & H) end.
  set (c := ((z3 * 256 + z4) * 256 + z5) * 256 + z6). assert (C : 0 <= c < 4294967296) by (unfold c; lia).
  assert (E : [z; z0; z1; z2; z3; z4; z5; z6] = bmf_header c).
  { unfold bmf_header, bytes_of. cbn [app]. replace z1 with 0 by lia. replace z2 with 0 by lia. subst z z0. replace (c / 16777216) with z3 by (unfold c; lia). replace (c / 65536 mod 256) with z4 by (unfold c; lia).
    replace (c / 256 mod 256) with z5 by (unfold c; lia). replace (c mod 256) with z6 by (unfold c; lia). reflexivity. }
  rewrite E. destruct (received_ok e l t from by_ to data m0 c S O C Own Ol) as (RA & RB). destruct (answer l t c); [rewrite (RA eq_refl); eauto|]. destruct (RB eq_refl) as (here & parts & -> & _). eauto.
Qed.
Lemma seen_again : forall s l l' T t c, paced s s ((l ++ [Seen T c]) ++ l' ++ [Seen t c]) -> t < T + 3000 -> answer ((l ++ [Seen T c]) ++ l') t c = true.
Proof.
  intros s l l' T t c P L. rewrite app_assoc in P. pose proof (paced_pre _ _ _ _ P) as Q. apply (answer_ok s _ t c Q).
  assert (H : exists U after, last_seen ((l ++ [Seen T c]) ++ l') U c after /\ T <= U).
  { destruct (paced_app _ _ _ _ Q) as (cur & last & _ & Q' & F). apply Forall_app in F. destruct F as (_ & F). inversion F as [|? ? Hw _]; subst. cbn in Hw.
    clear P L Q F. revert cur last Q' Hw. induction l' as [|x l' IH] using rev_ind; intros cur last Q' Hw.
    - exists T, []. rewrite app_nil_r. split; [apply ls_same; auto|lia].
    - pose proof (paced_pre _ _ _ _ Q') as Q1. destruct (IH cur last Q1 Hw) as (U & after & S & Tu). rewrite app_assoc.
      assert (Dx : (exists u, x = Seen u c) \/ forall u, x <> Seen u c).
      { destruct x as [u d|u]; [|right; discriminate]. destruct (Z.eq_dec d c) as [->|N]; [left; eauto|right; congruence]. }
      destruct Dx as [(u & ->)|N].
      + exists u, []. split; [apply ls_same; auto|]. destruct (paced_app _ _ _ _ Q') as (cur' & last' & Cc & (C1 & _) & _). lia.
      + exists U, (after ++ [x]). split; [apply (ls_other _ _ _ _ _ N); eauto|exact Tu]. }
  destruct H as (U & after & S & Tu). eapply recent; [exact P|exact S|lia].
Qed.
Lemma alike_nth : forall b d k, alike b d -> ~ volatile k -> nth k d 0 = nth k b 0.
Proof. intros b d k (_ & A) V. rewrite <- !nth_default_eq. unfold nth_default. now rewrite (A k V). Qed.
Lemma alike_valid : forall b d, valid b -> alike b d -> Forall byte d -> valid d /\ total d = total b.
Proof.
  intros b d (B & L & I & T) A F. assert (V : forall k, (k < 4)%nat -> ~ volatile k) by (unfold volatile; lia).
  assert (Ih : ihl d = ihl b) by (unfold ihl; rewrite (alike_nth b d 0 A) by (apply V; lia); reflexivity).
  assert (To : total d = total b) by (unfold total; rewrite (alike_nth b d 2 A), (alike_nth b d 3 A) by (apply V; lia); reflexivity).
  split; [|exact To]. destruct A as (Le & _). split; [exact F|]. rewrite <- Le, Ih, To. auto.
Qed.
Lemma alike_fingerprint : forall b d c, valid b -> alike b d -> fingerprint_of b c -> fingerprint_of d c.
Proof.
  intros b d c V A (n & N & ->). pose proof A as (Le & An). exists n. assert (V4 : forall k, (k < 4)%nat -> ~ volatile k) by (unfold volatile; lia). split.
  - destruct N as (N1 & N2 & N3). split; [congruence|]. split; [|exact N3]. intros i Vi. rewrite (N2 i Vi). now apply An.
  - replace (total d) with (total b); [reflexivity|]. unfold total. rewrite (alike_nth b d 2 A), (alike_nth b d 3 A) by (apply V4; lia). reflexivity.
Qed.
Lemma prefix_fingerprint : forall data c, valid data -> (20 <= total data)%nat -> fingerprint_of data c -> fingerprint_of (firstn (total data) data) c.
Proof.
  intros data c V T20 (n & (N1 & N2 & N3) & ->). pose proof V as (B & L & I & T). assert (Ld : length (firstn (total data) data) = total data) by (rewrite firstn_length; lia).
  exists (firstn (total data) n). split.
  - split; [rewrite !firstn_length; lia|]. split.
    + intros i Vi. destruct (le_lt_dec (total data) i) as [G|G].
      * rewrite !(proj2 (nth_error_None _ _)); [reflexivity|lia|rewrite firstn_length; lia].
      * rewrite !nth_firstn by lia. auto.
    + rewrite !nth_firstn by lia. exact N3.
  - assert (To : total (firstn (total data) data) = total data).
    { unfold total at 1. assert (Nk : forall k, (k < 20)%nat -> nth k (firstn (total data) data) 0 = nth k data 0) by (intros k K; rewrite <- !nth_default_eq; unfold nth_default; now rewrite nth_firstn by lia).
      rewrite !Nk by lia. reflexivity. }
    rewrite To. f_equal. rewrite firstn_firstn. f_equal. lia.
Qed.

(** Proofs about the P2PD plugin: packets out of the OLSR network. *)
From Verif Require Import Base Bytes Parser Mantissa SchedTime BmfPacket BmfPacketSpec BmfPacketProofs BmfSumProofs BmfHistory NetBuf P2pd P2pdSpec P2pdProofs.

(** * Frames on the LAN *)
Lemma nth_slice (p : list Z) i n j : (j < n)%nat -> nth j (P2pdSpec.slice p i n) 0 = nth (i + j) p 0.
Proof.
  intros J. unfold P2pdSpec.slice. rewrite <- (firstn_skipn i p) at 2. destruct (Nat.lt_ge_cases (i + j) (length p)) as [A|A].
  - rewrite app_nth2 by (rewrite firstn_length; lia). rewrite firstn_length. replace (i + j - Nat.min i (length p))%nat with j by lia.
    rewrite <- (firstn_skipn n (skipn i p)) at 2. rewrite app_nth1 by (rewrite firstn_length, skipn_length; lia). reflexivity.
  - rewrite firstn_skipn. rewrite (nth_overflow p) by lia. apply nth_overflow. rewrite firstn_length, skipn_length. lia.
Qed.
Lemma mac4_ok c p dst r : c_v6 c = false -> Forall byte p -> (20 <= length p)%nat -> dst = P2pdSpec.slice p 16 4 -> mac c (p ++ r) = Done (group_mac4 dst).
Proof.
  intros V F L ->. unfold mac. rewrite V. cbn [negb]. unfold get32. rewrite !get16_nth by lia. cbn [obind]. change (Z.to_nat 16) with 16%nat. change (Z.to_nat (16 + 2)) with 18%nat. f_equal.
  unfold group_mac4. rewrite !nth_slice by lia. unfold be16. cbn [Nat.add].
  pose proof (nth_byte p 16 F) as A. pose proof (nth_byte p 17 F) as B. pose proof (nth_byte p 18 F) as C. pose proof (nth_byte p 19 F) as D. unfold byte in *.
  set (a := nth 16 p 0) in *. set (b := nth 17 p 0) in *. set (d := nth 18 p 0) in *. set (e := nth 19 p 0) in *. clearbody a b d e. clear F L.
  set (v := (a * 256 + b) * 65536 + (d * 256 + e)).
  assert (V1 : v / 268435456 = a / 16) by (unfold v; lia). assert (V2 : v / 65536 mod 128 = b mod 128) by (unfold v; lia).
  assert (V3 : v / 256 mod 256 = d) by (unfold v; lia). assert (V4 : v mod 256 = e) by (unfold v; lia).
  unfold is_multicast. rewrite V1, V2, V3, V4. replace (a / 16 =? 14) with ((224 <=? a) && (a <=? 239)) by (clear - A; lia). reflexivity.
Qed.
Lemma listed4 c p dst port r known : c_v6 c = false -> udp4 p dst port -> listed c (p ++ r) known = Done (in_list c false dst port).
Proof.
  intros V (F & V4 & I & T & O & U & L & D & P). pose proof (nth_byte p 0 F) as B0. unfold byte in B0. assert (L2 : 4 * (nth 0 p 0 mod 16) + 8 <= Z.of_nat (length p)) by (unfold hlen in L; lia).
  unfold listed. rewrite V. cbn [negb]. rewrite get_nth by lia. cbn [obind]. change (Z.to_nat 9) with 9%nat. rewrite U. change (17 =? 17) with true. cbn [negb].
  rewrite get16_nth by lia. cbn [obind]. change (Z.to_nat 6) with 6%nat. rewrite O. change (0 =? 0) with true. cbn [negb].
  unfold ip_header_length. rewrite get_nth by lia. cbn [obind]. change (Z.to_nat 0) with 0%nat. rewrite (gets_slice p r 16 4) by lia. cbn [obind].
  rewrite get16_nth by lia. cbn [obind]. change (Z.to_nat 16) with 16%nat. change (Z.to_nat 4) with 4%nat. rewrite <- D.
  replace (Z.to_nat (nth 0 p 0 mod 16 * 4 + 2)) with (hlen p + 2)%nat by (unfold hlen; lia). now rewrite <- P.
Qed.
Lemma listed6 c p dst port r known : c_v6 c = true -> udp6 p dst port -> listed c (p ++ r) known = Done (in_list c true dst port).
Proof.
  intros V (F & V4 & T & U & L & D & G & P). unfold listed. rewrite V. cbn [negb]. rewrite get_nth by lia. cbn [obind]. change (Z.to_nat 6) with 6%nat. rewrite U. change (17 =? 17) with true. cbn [negb].
  rewrite (gets_slice p r 24 16) by lia. cbn [obind]. rewrite get16_nth by lia. cbn [obind]. change (Z.to_nat 24) with 24%nat. change (Z.to_nat 16) with 16%nat. rewrite <- D.
  change (Z.to_nat 42) with 42%nat. now rewrite <- P.
Qed.
(** the frame for a packet *)
Definition frame_of (v6 : bool) (dst p : list Z) : frame :=
  {| f_proto := if v6 then 34525 else 2048; f_mac := if v6 then [0; 0; 0; 0; 0; 0] else group_mac4 dst; f_bytes := p |}.
Lemma to_lan_ok c p dst port r : udp (c_v6 c) p dst port -> forall ifs len known,
  to_lan c (p ++ r) len known ifs = Done (if in_list c (c_v6 c) dst port then on_lans (frame_of (c_v6 c) dst p) ifs else on_none ifs).
Proof.
  intros U. pose proof (udp_length _ _ _ _ U) as L. induction ifs as [|lan ifs IH]; intros len known.
  - cbn. destruct (in_list _ _ _ _); reflexivity.
  - assert (K : forall l, kind (p ++ r) l = Done (if c_v6 c then 34525 else 2048, Z.of_nat (length p))).
    { intros l. unfold kind. rewrite get_nth by lia. cbn [obind]. change (Z.to_nat 0) with 0%nat. destruct (c_v6 c); cbn [udp] in U.
      - destruct U as (F & V & T & _). rewrite V. change (6 =? 4) with false. change (6 =? 6) with true. cbn iota. rewrite get16_nth by lia. cbn [obind]. change (Z.to_nat 4) with 4%nat. do 2 f_equal. lia.
      - destruct U as (F & V & I & T & _). rewrite V. change (4 =? 4) with true. cbn iota. rewrite get16_nth by lia. cbn [obind]. change (Z.to_nat 2) with 2%nat. rewrite T. reflexivity. }
    assert (M : mac c (p ++ r) = Done (if c_v6 c then [0; 0; 0; 0; 0; 0] else group_mac4 dst)).
    { destruct (c_v6 c) eqn:V; cbn [udp] in U; [unfold mac; rewrite V; reflexivity|]. destruct U as (F & _ & _ & _ & _ & _ & _ & D & _). apply mac4_ok; try assumption. lia. }
    assert (I : forall k, listed c (p ++ r) k = Done (in_list c (c_v6 c) dst port)).
    { intros k. destruct (c_v6 c) eqn:V; cbn [udp] in U; [now apply listed6|now apply listed4]. }
    cbn [to_lan]. destruct lan; cbn [negb].
    + rewrite K. cbn [obind]. replace (Z.of_nat (length p) =? 0) with false by lia. rewrite M. cbn [obind]. rewrite I. cbn [obind].
      destruct (in_list c (c_v6 c) dst port) eqn:E; cbn [negb].
      * rewrite gets_slice by lia. cbn [obind]. change (Z.to_nat 0) with 0%nat. rewrite slice_whole by reflexivity. rewrite IH. reflexivity.
      * rewrite IH. reflexivity.
    + rewrite IH. cbn [obind]. destruct (in_list c (c_v6 c) dst port); reflexivity.
Qed.
Theorem deliver_ok c now h p r dst port ifs : c_hash c = false -> udp (c_v6 c) p dst port ->
  exists fs, packet_from_olsr c now h (p ++ r) ifs = Done (h, fs) /\ (wanted c (c_v6 c) dst port -> fs = on_lans (frame_of (c_v6 c) dst p) ifs) /\ (~ wanted c (c_v6 c) dst port -> fs = on_none ifs).
Proof.
  intros H U. unfold packet_from_olsr, check_recent. rewrite H. cbn [negb obind]. rewrite (to_lan_ok c p dst port r U). cbn [obind]. eexists. split; [reflexivity|].
  destruct (in_list c (c_v6 c) dst port) eqn:E; split; intros W; try reflexivity.
  - exfalso. apply W. now apply in_list_ok.
  - apply in_list_ok in W. congruence.
Qed.

(** * Messages *)
Lemma ident_eqb_ok a b : ident_eqb a b = true <-> a = b.
Proof.
  unfold ident_eqb. destruct a as ((a1 & a2) & a3), b as ((b1 & b2) & b3). cbn [fst snd]. split.
  - intros E. apply andb_prop in E. destruct E as (E & C). apply andb_prop in E. destruct E as (A & B). apply bytes_eqb_ok in A, C. apply Z.eqb_eq in B. congruence.
  - intros E. inversion E. subst. rewrite Z.eqb_refl. assert (R : forall l, bytes_eqb l l = true) by (intros l; now apply bytes_eqb_ok). now rewrite !R.
Qed.
Lemma seen_ok c now l k : fst (message_seen c now l k) = true <-> exists t, In (k, t) l /\ now <= t + c_timeout c.
Proof.
  unfold message_seen. cbn [fst]. rewrite existsb_exists. split.
  - intros ((k' & t) & I & E). cbn [fst] in E. apply ident_eqb_ok in E. subst k'. apply filter_In in I. destruct I as (I & X). cbn [snd] in X. exists t. split; [exact I|lia].
  - intros (t & I & X). exists (k, t). split; [|now apply ident_eqb_ok]. apply filter_In. cbn [snd]. split; [exact I|lia].
Qed.
(** the list has what was let through and may still count *)
Lemma dup_inv c : forall ms l old cur,
  (forall k t, In (k, t) l -> In (k, t) old) -> (forall k t, In (k, t) old -> In (k, t) l \/ t + c_timeout c < cur) ->
  (forall k t, In (k, t) old -> t <= cur) ->
  forwards ms -> (forall k t, nth_error ms 0 = Some (k, t) -> cur <= t) ->
  length (duplicates c l ms) = length ms /\
  forall j k t, nth_error ms j = Some (k, t) ->
    (nth_error (duplicates c l ms) j = Some true <->
     (exists t0, In (k, t0) old /\ t <= t0 + c_timeout c) \/
     exists i t0, (i < j)%nat /\ nth_error ms i = Some (k, t0) /\ nth_error (duplicates c l ms) i = Some false /\ t <= t0 + c_timeout c).
Proof.
  induction ms as [|(k0 & t0) ms IH]; intros l old cur A B C FW ST.
  - split; [reflexivity|]. intros [|j] k t E; discriminate.
  - assert (CT : cur <= t0) by (apply (ST k0 t0); reflexivity).
    pose proof (seen_ok c t0 l k0) as SE. cbn [duplicates]. unfold is_duplicate. destruct (message_seen c t0 l k0) as (b & l1) eqn:ME. cbn [fst] in SE.
    assert (L1 : l1 = filter (fun e => negb (snd e + c_timeout c <? t0)) l) by (unfold message_seen in ME; congruence).
    assert (FW' : forwards ms) by (intros i j k t k' t' IJ X Y; apply (FW (S i) (S j) k t k' t'); [lia|exact X|exact Y]).
    assert (ST' : forall k t, nth_error ms 0 = Some (k, t) -> t0 <= t) by (intros k t X; apply (FW 0%nat 1%nat k0 t0 k t); [lia|reflexivity|exact X]).
    assert (IN1 : forall k t, In (k, t) l1 <-> In (k, t) l /\ t0 <= t + c_timeout c) by (intros k t; rewrite L1, filter_In; cbn [snd]; split; intros (X & Y); (split; [exact X|lia])).
    destruct b.
    + destruct (IH l1 old t0) as (LE & IHj); [intros k t X; apply A; now apply IN1|intros k t X; destruct (B k t X) as [Y|Y]; [destruct (Z_le_gt_dec t0 (t + c_timeout c)) as [G|G]; [left; now apply IN1|right; lia]|right; lia]|intros k t X; specialize (C k t X); lia|exact FW'|exact ST'|].
      split; [cbn [length]; lia|]. intros [|j] k t E.
      * cbn in E. apply Some_inj in E. assert (k = k0 /\ t = t0) as (-> & ->) by (split; congruence). cbn. split; [|reflexivity]. intros _. left. destruct (proj1 SE eq_refl) as (t1 & X & Y). exists t1. split; [now apply A|exact Y].
      * cbn [nth_error] in *. rewrite (IHj j k t E). split; (intros [X|(i & t1 & X & Y & Z0 & W)]; [now left|right]).
        -- exists (S i), t1. split; [lia|]. split; [exact Y|]. split; [exact Z0|exact W].
        -- destruct i as [|i]; [cbn in Z0; discriminate|]. exists i, t1. split; [lia|]. split; [exact Y|]. split; [exact Z0|exact W].
    + destruct (IH (l1 ++ [(k0, t0)]) ((k0, t0) :: old) t0) as (LE & IHj).
      * intros k t X. apply in_app_or in X. destruct X as [X|[X|[]]]; [right; apply A; now apply IN1|left; exact X].
      * intros k t [X|X]; [left; apply in_or_app; right; left; exact X|]. destruct (B k t X) as [Y|Y]; [destruct (Z_le_gt_dec t0 (t + c_timeout c)) as [G|G]; [left; apply in_or_app; left; now apply IN1|right; lia]|right; lia].
      * intros k t [X|X]; [inversion X; lia|specialize (C k t X); lia].
      * exact FW'.
      * exact ST'.
      * split; [cbn [length]; lia|]. intros [|j] k t E.
        -- cbn in E. apply Some_inj in E. assert (k = k0 /\ t = t0) as (-> & ->) by (split; congruence). cbn. split; [discriminate|]. intros [(t1 & X & Y)|(i & t1 & X & _)]; [|lia]. exfalso.
           destruct (B k0 t1 X) as [Z0|Z0]; [|lia]. assert (Q : false = true) by (apply SE; exists t1; split; assumption). discriminate.
        -- cbn [nth_error] in *. rewrite (IHj j k t E). split.
           ++ intros [(t1 & [X|X] & Y)|(i & t1 & X & Y & Z0 & W)].
              ** inversion X. subst. right. exists 0%nat, t1. split; [lia|]. split; [reflexivity|]. split; [reflexivity|exact Y].
              ** left. exists t1. split; assumption.
              ** right. exists (S i), t1. split; [lia|]. split; [exact Y|]. split; [exact Z0|exact W].
           ++ intros [(t1 & X & Y)|(i & t1 & X & Y & Z0 & W)].
              ** left. exists t1. split; [now right|exact Y].
              ** destruct i as [|i]; [cbn in Y; inversion Y; subst; left; exists t1; split; [now left|exact W]|].
                 right. exists i, t1. split; [lia|]. split; [exact Y|]. split; [exact Z0|exact W].
Qed.
Theorem once_ok c ms : forwards ms -> length (duplicates c [] ms) = length ms /\
  forall j k t, nth_error ms j = Some (k, t) ->
    (nth_error (duplicates c [] ms) j = Some true <->
     exists i t0, (i < j)%nat /\ nth_error ms i = Some (k, t0) /\ nth_error (duplicates c [] ms) i = Some false /\ t <= t0 + c_timeout c).
Proof.
  intros F. destruct ms as [|(k0 & t0) ms]; [split; [reflexivity|]; intros [|j] k t E; discriminate|].
  destruct (dup_inv c ((k0, t0) :: ms) [] [] t0) as (L & J); [intros ? ? []|intros ? ? []|intros ? ? []|exact F|intros k t E; cbn in E; inversion E; lia|].
  split; [exact L|]. intros j k t E. rewrite (J j k t E). split; [intros [(? & [] & _)|X]; exact X|intros X; right; exact X].
Qed.

(** * From node to node *)
Lemma ident_message c seq body m : sane c -> message c seq body m ->
  ident_of (c_v6 c) m = Done (c_main c, 132, [seq / 256; seq mod 256]) /\ skipn (Z.to_nat (P2pd.hdr (c_v6 c))) m = body.
Proof.
  intros (LM & _) (vt & s1 & s2 & ttl & E & _). set (n := if c_v6 c then 16%nat else 4%nat) in *.
  assert (LH : length ([132; vt; s1; s2] ++ c_main c ++ [ttl; 0; seq / 256; seq mod 256]) = (8 + n)%nat) by (rewrite !app_length, LM; cbn [length]; lia).
  split.
  - unfold ident_of. replace (if c_v6 c then 16 else 4) with (Z.of_nat n) by (unfold n; destruct (c_v6 c); reflexivity).
    assert (G1 : gets 4 (Z.of_nat n) m = Done (c_main c)).
    { rewrite E. rewrite app_assoc. rewrite (gets_slice ([132; vt; s1; s2] ++ c_main c)) by (rewrite ?app_length, ?LM; cbn [length]; lia). f_equal.
      unfold P2pdSpec.slice. change (Z.to_nat 4) with 4%nat. cbn [app skipn]. apply firstn_all2. lia. }
    rewrite G1. cbn [obind].
    assert (G2 : get 0 m = Done 132) by (rewrite E; apply (get_at [] 132); reflexivity). rewrite G2. cbn [obind].
    assert (G3 : gets (6 + Z.of_nat n) 2 m = Done [seq / 256; seq mod 256]).
    { rewrite E. replace ([132; vt; s1; s2] ++ c_main c ++ [ttl; 0; seq / 256; seq mod 256] ++ body) with (([132; vt; s1; s2] ++ c_main c ++ [ttl; 0; seq / 256; seq mod 256]) ++ body) by (now rewrite <- !app_assoc).
      rewrite gets_slice by lia. f_equal. unfold P2pdSpec.slice.
      replace ([132; vt; s1; s2] ++ c_main c ++ [ttl; 0; seq / 256; seq mod 256]) with (([132; vt; s1; s2] ++ c_main c ++ [ttl; 0]) ++ [seq / 256; seq mod 256]) by (rewrite <- !app_assoc; reflexivity).
      rewrite drop_app by (rewrite !app_length, LM; cbn [length]; lia). reflexivity. }
    rewrite G3. reflexivity.
  - rewrite E. replace ([132; vt; s1; s2] ++ c_main c ++ [ttl; 0; seq / 256; seq mod 256] ++ body) with (([132; vt; s1; s2] ++ c_main c ++ [ttl; 0; seq / 256; seq mod 256]) ++ body) by (now rewrite <- !app_assoc).
    apply drop_app. rewrite LH. unfold P2pd.hdr, n. destruct (c_v6 c); reflexivity.
Qed.
Theorem parse_ok c c1 secs now st seq p r m dst port ifs : c_hash c = false -> c_v6 c1 = c_v6 c -> sane c1 -> message c1 seq (p ++ r) m ->
  udp (c_v6 c) p dst port -> wanted c (c_v6 c) dst port -> c_main c1 <> c_main c ->
  (forall t, In ((c_main c1, 132, [seq / 256; seq mod 256]), t) (fst st) -> t + c_timeout c < secs) ->
  exists st', olsr_parser c secs now st m ifs = Done (st', true, on_lans (frame_of (c_v6 c) dst p) ifs).
Proof.
  intros H V S1 M U W N D. destruct st as (sl & sh). cbn [fst] in D. destruct (ident_message c1 seq (p ++ r) m S1 M) as (I & B). rewrite V in *. unfold olsr_parser. rewrite I. cbn [obind fst snd].
  destruct (bytes_eqb (c_main c1) (c_main c)) eqn:E; [apply bytes_eqb_ok in E; contradiction|].
  unfold is_duplicate. match goal with |- context [message_seen ?x ?y ?z ?k] => pose proof (seen_ok x y z k) as SE; destruct (message_seen x y z k) as (b & l) end. cbn [fst] in SE. destruct b.
  - destruct (proj1 SE eq_refl) as (t & X & Y). specialize (D t X). lia.
  - cbn iota. cbn [fst snd]. rewrite B. destruct (deliver_ok c now sh p r dst port ifs H U) as (fs & PE & Y & _). rewrite PE. cbn [obind]. rewrite (Y W). eexists. reflexivity.
Qed.
Theorem own_ok c secs now st seq body m ifs : sane c -> message c seq body m -> olsr_parser c secs now st m ifs = Done (st, false, []).
Proof.
  intros S1 M. destruct (ident_message c seq body m S1 M) as (I & _). unfold olsr_parser. rewrite I. cbn [obind fst]. replace (bytes_eqb (c_main c) (c_main c)) with true by (symmetry; now apply bytes_eqb_ok). reflexivity.
Qed.

(** * The filter with fingerprints *)
Lemma refresh_finds now c t : forall h, In (c, t) h -> exists h', refresh now c h = Some h'.
Proof.
  induction h as [|(d & u) h IH]; intros I; [destruct I|]. cbn [refresh]. destruct (d =? c) eqn:E; [eexists; reflexivity|].
  destruct I as [I|I]; [inversion I; lia|]. destruct (IH I) as (h' & R). rewrite R. eexists. reflexivity.
Qed.
Lemma refresh_in now c : forall h h', refresh now c h = Some h' -> In (c, getTimestamp now 3000) h'.
Proof.
  induction h as [|(d & u) h IH]; intros h' E; cbn [refresh] in E; [discriminate|]. destruct (d =? c) eqn:D.
  - apply Some_inj in E. subst h'. left. f_equal. lia.
  - destruct (refresh now c h) as [x|]; [|discriminate]. apply Some_inj in E. subst h'. right. now apply IH.
Qed.
Theorem copy_ok c t1 t2 h m b h1 m1 : c_hash c = true -> 0 <= t1 -> t1 <= t2 < t1 + 3000 ->
  check_recent c (u32 t1) h m = Done (b, h1, m1) -> exists h2, check_recent c (u32 t2) h1 m = Done (true, h2, m1).
Proof.
  intros H T1 T2. unfold check_recent. rewrite H. cbn [negb]. destruct (fingerprint c m) as [(crc & m')| |]; cbn [obind]; try discriminate.
  set (g := filter _ h). intros E.
  assert (I : In (crc, getTimestamp (u32 t1) 3000) h1 /\ m1 = m').
  { destruct (refresh (u32 t1) crc g) as [g'|] eqn:R; inversion E; subst; (split; [|reflexivity]); [eapply refresh_in; exact R|now left]. }
  destruct I as (I & ->).
  assert (K : isTimedOut (u32 t2) (getTimestamp (u32 t1) 3000) = false).
  { unfold isTimedOut, getTimestamp, u32. clear - T1 T2. assert (Q : (t1 mod 4294967296 + 3000) mod 4294967296 = (t1 + 3000) mod 4294967296) by lia. rewrite Q. clear Q.
    set (d := t1 + 3000 - t2). replace (t1 + 3000) with (t2 + d) by (unfold d; lia). assert (D : 0 < d <= 3000) by (unfold d; lia). clearbody d. clear T1 T2.
    destruct ((t2 + d) mod 4294967296 >? t2 mod 4294967296) eqn:G; lia. }
  destruct (refresh_finds (u32 t2) crc (getTimestamp (u32 t1) 3000) (filter (fun e => negb (isTimedOut (u32 t2) (snd e))) h1)) as (h2 & R2).
  { apply filter_In. cbn [snd]. split; [exact I|]. now rewrite K. }
  rewrite R2. eexists. reflexivity.
Qed.
(** a second copy of a packet goes nowhere *)
Theorem again_ok c t1 t2 h m n b h1 m1 : c_hash c = true -> 0 <= t1 -> t1 <= t2 < t1 + 3000 ->
  check_recent c (u32 t1) h m = Done (b, h1, m1) -> forall dst port p r, m = p ++ r -> udp4 p dst port ->
  exists h2, captured c (u32 t2) h1 m n = Done (h2, None).
Proof.
  intros H T1 T2 E dst port p r ME (F & V & I & T & O & U & L & D & P). assert (L28 : (28 <= length p)%nat) by (unfold hlen in L; lia).
  destruct (copy_ok c t1 t2 h m b h1 m1 H T1 T2 E) as (h2 & R). exists h2. unfold captured. rewrite R. rewrite ME. rewrite get_nth by lia. cbn [obind]. change (Z.to_nat 0) with 0%nat. rewrite V. change (4 =? 4) with true. cbn iota.
  rewrite (gets_slice p r 16 4) by lia. cbn [obind]. rewrite get_nth by lia. cbn [obind]. change (Z.to_nat 9) with 9%nat. rewrite U. change (17 =? 17) with true. cbn [negb].
  rewrite get16_nth by lia. cbn [obind]. change (Z.to_nat 6) with 6%nat. rewrite O. change (0 =? 0) with true. cbn [negb]. reflexivity.
Qed.
Lemma captured_marks c now h p r dst port n h1 q : udp4 p dst port -> captured c now h (p ++ r) n = Done (h1, q) ->
  exists b m1, check_recent c now h (p ++ r) = Done (b, h1, m1).
Proof.
  intros (F & V & I & T & O & U & L & D & P) E. assert (L28 : (28 <= length p)%nat) by (unfold hlen in L; lia).
  unfold captured in E. rewrite get_nth in E by lia. cbn [obind] in E. change (Z.to_nat 0) with 0%nat in E. rewrite V in E. change (4 =? 4) with true in E. cbn iota in E.
  rewrite (gets_slice p r 16 4) in E by lia. cbn [obind] in E. rewrite get_nth in E by lia. cbn [obind] in E. change (Z.to_nat 9) with 9%nat in E. rewrite U in E. change (17 =? 17) with true in E. cbn [negb] in E.
  rewrite get16_nth in E by lia. cbn [obind] in E. change (Z.to_nat 6) with 6%nat in E. rewrite O in E. change (0 =? 0) with true in E. cbn [negb] in E.
  destruct (check_recent c now h (p ++ r)) as [((b & h') & m')| |]; cbn [obind] in E; try discriminate.
  exists b, m'. do 2 f_equal. destruct b; [congruence|].
  destruct (ip_header_length m'); cbn [obind] in E; try discriminate. destruct (get16 _ m'); cbn [obind] in E; try discriminate.
  destruct (in_list _ _ _ _); cbn [negb] in E; [|congruence]. destruct (decrement _ _ _ _) as [[x|]| |]; cbn [obind] in E; try discriminate; [|congruence].
  destruct (gets _ _ x); cbn [obind] in E; try discriminate. congruence.
Qed.
Theorem twice_ok c t1 t2 h rx p extra dst port ty h1 q : c_hash c = true -> 0 <= t1 -> t1 <= t2 < t1 + 3000 -> udp4 p dst port ->
  Z.of_nat (length (p ++ extra)) <= 2040 -> taken ty ->
  do_p2pd c (u32 t1) h rx (p ++ extra) ty = Done (h1, q) -> exists h2, do_p2pd c (u32 t2) h1 rx (p ++ extra) ty = Done (h2, None).
Proof.
  intros H T1 T2 U L TY. pose proof (udp_length false _ _ _ U) as LP. unfold do_p2pd, RXBUF, ENCAP. rewrite firstn_all2 by lia.
  replace (_ >? 2048) with false by lia. rewrite app_length in *. replace (_ <? 20) with false by lia.
  replace (group ty) with true by (unfold group, taken in *; lia). rewrite <- !app_assoc. intros E.
  destruct (captured_marks _ _ _ _ _ _ _ _ _ _ U E) as (b & m1 & C). eapply again_ok; try eassumption. reflexivity.
Qed.

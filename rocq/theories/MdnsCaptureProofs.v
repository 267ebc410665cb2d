(** Proofs about captured packets of the mDNS plugin. *)
From Verif Require Import Base BmfPacket BmfPacketSpec BmfPacketProofs BmfSumProofs MdnsElect MdnsElectProofs MdnsRelay MdnsRelaySpec MdnsRelayProofs.

Lemma get_pre : forall k (a r : list Z), 0 <= k < Z.of_nat (length a) -> get k (a ++ r) = Done (nth (Z.to_nat k) a 0).
Proof. intros k a r K. unfold get. rewrite nth_error_app1 by lia. rewrite (nth_error_nth' a 0) by lia. reflexivity. Qed.
Lemma get16_pre : forall k (a r : list Z), 0 <= k -> k + 1 < Z.of_nat (length a) -> get16 k (a ++ r) = Done (nth (Z.to_nat k) a 0 * 256 + nth (S (Z.to_nat k)) a 0).
Proof. intros k a r K L. unfold get16. rewrite !get_pre by lia. cbn [obind]. now replace (Z.to_nat (k + 1)) with (S (Z.to_nat k)) by lia. Qed.
Lemma nth_byte : forall k a, Forall byte a -> byte (nth k a 0).
Proof. intros k a F. destruct (le_lt_dec (length a) k); [rewrite nth_overflow by lia; unfold byte; lia|]. rewrite Forall_forall in F. apply F, nth_In. lia. Qed.
Lemma class_d : forall d, byte d -> (Z.land d 0xf0 =? 0xe0) = true <-> 224 <= d < 240.
Proof.
  intros d B. assert (H : forallb (fun k => Bool.eqb (Z.land (Z.of_nat k) 0xf0 =? 0xe0) ((224 <=? Z.of_nat k) && (Z.of_nat k <? 240))) (seq 0 256) = true) by (vm_compute; reflexivity).
  rewrite forallb_forall in H. specialize (H (Z.to_nat d)). rewrite in_seq in H. unfold byte in B. specialize (H ltac:(lia)). rewrite Z2Nat.id in H by lia. apply Bool.eqb_prop in H. rewrite H. lia.
Qed.
Lemma filtered_ok : forall c x junk, c_v6 c = false -> length x = 4%nat -> (in_filtered c (x ++ junk) = true <-> exists h, In h (c_hosts c) /\ firstn 4 h = x).
Proof.
  intros c x junk V L. unfold in_filtered. rewrite V. rewrite existsb_exists. rewrite (firstn_all' x junk 4) by lia. split; intros (h & I & E); exists h; (split; [exact I|]); now apply memsame_ok.
Qed.
Lemma wanted_ok : forall c junk data rest, c_v6 c = false -> whole data -> (ihl data + 8 <= total data)%nat ->
  exists b, mdns_wanted c junk (data ++ rest) = Done b /\ (b = true <-> mdns4 data /\ allowed c data).
Proof.
  intros c junk data rest V6 (F & V & Ih & To) U. unfold mdns_wanted. assert (L : (28 <= length data)%nat) by lia.
  pose proof (nth_byte 0 data F) as B0. destruct (four _ B0 V) as (Q1 & Q2 & Q3). pose proof (nth_byte 16 data F) as B16. pose proof (nth_byte 8 data F) as B8.
  rewrite get_pre by lia. change (Z.to_nat 0) with 0%nat. cbn [obind]. rewrite Q1. rewrite get_pre by lia. change (Z.to_nat 16) with 16%nat. cbn [obind].
  pose proof (class_d _ B16) as Cd. unfold mdns4, allowed. destruct (Z.land (nth 16 data 0) 0xf0 =? 0xe0) eqn:C; cbn [negb].
  2: { exists false. split; [reflexivity|]. split; [discriminate|]. intros ((_ & D & _) & _). apply Cd in D. discriminate. }
  rewrite get_pre by lia. change (Z.to_nat 9) with 9%nat. cbn [obind]. destruct (Z.eqb_spec (nth 9 data 0) 17) as [P|P]; cbn [negb].
  2: { exists false. split; [reflexivity|]. split; [discriminate|]. tauto. }
  rewrite Q3. unfold ihl in *. set (w := Z.to_nat (nth 0 data 0 mod 16)) in *. assert (Hw : nth 0 data 0 mod 16 = Z.of_nat w) by (unfold w; lia). rewrite Hw. clearbody w.
  rewrite get16_pre by lia. replace (Z.to_nat (4 * Z.of_nat w + 2)) with (4 * w + 2)%nat by lia. cbn [obind]. replace (S (4 * w + 2)) with (4 * w + 3)%nat by lia.
  match goal with |- context [negb (?x =? 5353)] => destruct (Z.eqb_spec x 5353) as [O|O] end; cbn [negb].
  2: { exists false. split; [reflexivity|]. split; [discriminate|]. tauto. }
  rewrite get_pre by lia. change (Z.to_nat 8) with 8%nat. cbn [obind]. destruct (c_check c && (nth 8 data 0 <=? 1)) eqn:T.
  { exists false. split; [reflexivity|]. split; [discriminate|]. intros (_ & (H & _)). destruct (c_check c); [|discriminate]. specialize (H eq_refl). lia. }
  eexists. split; [reflexivity|]. replace (firstn 4 (skipn 12 (data ++ rest))) with (firstn 4 (skipn 12 data)).
  2: { rewrite skipn_app. rewrite firstn_le by (rewrite skipn_length; lia). reflexivity. }
  rewrite negb_true_iff. pose proof (filtered_ok c (firstn 4 (skipn 12 data)) (skipn 4 junk) V6 ltac:(rewrite firstn_length, skipn_length; lia)) as Fi.
  destruct (in_filtered c (firstn 4 (skipn 12 data) ++ skipn 4 junk)).
  - split; [discriminate|]. intros (_ & _ & H). destruct (proj1 Fi eq_refl) as (h & I & E). now apply H in I.
  - split; [intros _|reflexivity]. split; [split; [exact V|]; split; [now apply Cd|]; split; [exact P|exact O]|]. split.
    + intros Ck. rewrite Ck in T. cbn [andb] in T. unfold byte in B8. lia.
    + intros h I E. assert (false = true) by (apply Fi; eauto). discriminate.
Qed.
Lemma gen_ok : forall c vtime seqno stack data, c_v6 c = false -> length (c_main c) = 4%nat -> 0 <= c_ttl c < 256 -> Z.of_nat (length stack) = 10240 -> (length data <= 2040)%nat ->
  exists msg, mdns_gen c vtime seqno stack data = Done msg /\ message c vtime seqno data msg.
Proof.
  intros c vtime seqno stack data V M T Ls Ld. unfold mdns_gen. rewrite V. set (len := Z.of_nat (length data)). set (al := if len mod 4 =? 0 then len else len - len mod 4 + 4).
  assert (Al : len <= al < len + 4 /\ al mod 4 = 0) by (unfold al; destruct (Z.eqb_spec (len mod 4) 0); lia). destruct Al as (Al & A4). clearbody al. cbv zeta.
  replace (al + 12 >? Z.of_nat (length stack)) with false by lia. replace (12 + al >? Z.of_nat (length stack)) with false by lia. cbn [orb].
  set (pad := repeat 0 (Z.to_nat (al - len))). assert (Lp : length pad = Z.to_nat (al - len)) by (unfold pad; apply repeat_length).
  set (h := [132; vtime; u16 (al + 12) / 256; u16 (al + 12) mod 256] ++ c_main c ++ [if c_ttl c =? 0 then 255 else u8 (c_ttl c); 0; seqno / 256; seqno mod 256] ++ data ++ pad).
  assert (Lh : length h = Z.to_nat (al + 12)) by (unfold h; rewrite !app_length; cbn [length]; lia).
  exists h. split.
  - f_equal. transitivity (firstn (Z.to_nat (al + 12)) (h ++ skipn (Z.to_nat (12 + al)) stack)); [f_equal; unfold h; rewrite <- !app_assoc; reflexivity|]. apply firstn_all'. lia.
  - exists pad. split; [lia|]. split; [|split; [|]].
    + apply Nat2Z.inj. rewrite Nat2Z.inj_mod, Nat2Z.inj_add. change (Z.of_nat 4) with 4. rewrite Lp, Z2Nat.id by lia. fold len. replace (len + (al - len)) with al by lia. exact A4.
    + unfold pad. apply Forall_forall. intros x I. now apply repeat_spec in I.
    + cbv zeta. rewrite Lh, Z2Nat.id by lia. unfold h. replace (u16 (al + 12)) with (al + 12) by (unfold u16; symmetry; apply Z.mod_small; lia). replace (u8 (c_ttl c)) with (c_ttl c) by (unfold u8; symmetry; apply Z.mod_small; lia). reflexivity.
Qed.
Lemma capture_ok : forall c ifs fd vtime seqno taken old junk stack data, c_v6 c = false -> length (c_main c) = 4%nat -> 0 <= c_ttl c < 256 -> Z.of_nat (length stack) = 10240 ->
  whole data -> (ihl data + 8 <= total data)%nat -> (length data <= 2040)%nat ->
  (taken = true /\ master_on fd ifs /\ mdns4 data /\ allowed c data -> exists msg, do_mdns c ifs fd vtime seqno taken old junk stack data = Done (Some msg) /\ message c vtime seqno data msg) /\
  (~ (taken = true /\ master_on fd ifs /\ mdns4 data /\ allowed c data) -> do_mdns c ifs fd vtime seqno taken old junk stack data = Done None).
Proof.
  intros c ifs fd vtime seqno taken old junk stack data V M T Ls W U Ld. pose proof W as (_ & _ & Ih & To). unfold do_mdns. rewrite firstn_all2 by lia.
  replace (Z.of_nat (length data) >? 2040) with false by lia. replace (Z.of_nat (length data) <? 20) with false by lia.
  assert (Ma : existsb (fun i => (fd =? if_capture i) && negb (if_active i)) ifs = false <-> master_on fd ifs).
  { split.
    - intros H i I E. destruct (if_active i) eqn:A; [reflexivity|]. assert (X : existsb (fun i => (fd =? if_capture i) && negb (if_active i)) ifs = true) by (apply existsb_exists; exists i; rewrite A, E, Z.eqb_refl; auto). congruence.
    - intros H. destruct (existsb _ ifs) eqn:X; [|reflexivity]. apply existsb_exists in X. destruct X as (i & I & E). apply andb_true_iff in E. destruct E as (E1 & E2). apply Z.eqb_eq in E1. rewrite (H i I) in E2 by auto. discriminate. }
  destruct (existsb (fun i => (fd =? if_capture i) && negb (if_active i)) ifs).
  { split; [intros (_ & H & _); apply Ma in H; discriminate|reflexivity]. }
  destruct taken; cbn [negb]; [|split; [intros (H & _); discriminate|reflexivity]].
  destruct (wanted_ok c junk data (skipn (8 + length data) old) V W U) as (b & -> & B). cbn [obind]. destruct b.
  - destruct (gen_ok c vtime seqno stack data V M T Ls Ld) as (msg & -> & Hm). cbn [obind]. split; [intros _; exists msg; auto|]. intros H. exfalso. apply H. split; [reflexivity|]. split; [now apply Ma|]. now apply B.
  - split; [|reflexivity]. intros (_ & _ & H). apply B in H. discriminate.
Qed.
(** * The way through *)
Lemma whole_app : forall data rest, whole data -> Forall byte rest -> whole (data ++ rest) /\ total (data ++ rest) = total data /\ ihl (data ++ rest) = ihl data.
Proof.
  intros data rest (F & V & Ih & To) Fr. assert (N : forall k, (k < 20)%nat -> nth k (data ++ rest) 0 = nth k data 0) by (intros k K; apply app_nth1; lia).
  assert (T : total (data ++ rest) = total data) by (unfold total; rewrite !N by lia; reflexivity). assert (I : ihl (data ++ rest) = ihl data) by (unfold ihl; rewrite N by lia; reflexivity).
  split; [|auto]. split; [apply Forall_app; auto|]. rewrite N, T, I by lia. split; [exact V|]. split; [exact Ih|]. rewrite app_length. lia.
Qed.
Lemma copy_app : forall check data rest p, whole data -> copy_of check (data ++ rest) p -> total (data ++ rest) = total data -> ihl (data ++ rest) = ihl data -> copy_of check data p.
Proof.
  intros check data rest p (_ & _ & Ih & To) (C1 & C2 & C3 & C4) T I. unfold copy_of. rewrite T in *. rewrite I in *. split; [exact C1|]. split; [|split; [|exact C4]].
  - intros k K Vk. rewrite C2 by assumption. apply nth_error_app1. lia.
  - rewrite C3. destruct check; [reflexivity|]. apply nth_error_app1. lia.
Qed.
Lemma through : forall c c' vtime seqno data msg after ifs, c_v6 c' = false -> length (c_main c) = 4%nat -> c_main c <> c_main c' -> ifs <> [] ->
  whole data -> message c vtime seqno data msg -> Forall byte after ->
  exists p m', mdns_parse c' true ifs (msg ++ after) = Done (map (fun i => (if_capture i, p)) (upto ifs), m', true) /\ copy_of (c_check c') data p /\ length m' = length (msg ++ after).
Proof.
  intros c c' vtime seqno data msg after ifs V M Ne Ni W (pad & Lp & _ & Fp & E) Fa. unfold mdns_parse. rewrite V. pose proof W as (_ & _ & Ih & To).
  assert (Lm : (12 + length data + length pad = length msg)%nat) by (rewrite E at 1; rewrite !app_length; cbn [length]; lia).
  cbv zeta in E. set (size := Z.of_nat (length msg)) in E. set (ttl := if c_ttl c =? 0 then 255 else c_ttl c) in E.
  replace (Z.of_nat (length (msg ++ after)) <? Z.of_nat 12) with false by (rewrite app_length; lia).
  destruct (c_main c) as [|a0 [|a1 [|a2 [|a3 [|]]]]] eqn:Ec; try discriminate M.
  assert (E' : msg ++ after = [132; vtime; size / 256; size mod 256; a0; a1; a2; a3; ttl; 0; seqno / 256; seqno mod 256] ++ (data ++ (pad ++ after))) by (rewrite E; cbn [app]; rewrite <- !app_assoc; reflexivity).
  rewrite E'. clear E. set (h := [132; vtime; size / 256; size mod 256; a0; a1; a2; a3; ttl; 0; seqno / 256; seqno mod 256]) in *.
  change (firstn 4 (skipn 4 (h ++ data ++ pad ++ after))) with [a0; a1; a2; a3]. rewrite (drop_app h (data ++ pad ++ after) 12 eq_refl), (take_app h (data ++ pad ++ after) 12 eq_refl).
  destruct (memsame [a0; a1; a2; a3] (c_main c')) eqn:S; [apply memsame_ok in S; congruence|]. cbn [negb].
  assert (Fr : Forall byte (pad ++ after)) by (apply Forall_app; split; [|exact Fa]; eapply Forall_impl; [|exact Fp]; intros x ->; unfold byte; lia).
  destruct (whole_app data (pad ++ after) W Fr) as (W' & T & I). destruct (unpack_ok (c_check c') _ ifs 0 W' Ni) as (m1 & -> & C & L1 & _). cbn [obind].
  eexists. eexists. split; [reflexivity|]. split; [exact (copy_app _ _ _ _ W C T I)|]. rewrite !app_length in *. lia.
Qed.

(** C133: who gets a packet from the BMF plugin. C134: and from which memory. C135: copies
    that come back. *)
From Verif Require Import Base BmfPacket BmfHistory BmfForward BmfPacketSpec BmfHistorySpec BmfForwardSpec BmfPacketProofs BmfHistoryProofs BmfForwardProofs BmfHandleProofs.

(** a node with an OLSR interface 10.0.0.1 and a LAN 192.168.1.0/24; neighbors 10.0.0.2 (which
    selected this node as MPR) and 10.0.0.3 *)
Definition ex_i1 : intf := mkIntf 1 true 167772161 167772415.
Definition ex_i2 : intf := mkIntf 2 false 3232235777 3232236031.
Definition ex_env (fan : Z) : env :=
  mkEnv [mkLink 167772161 167772162 1024; mkLink 167772161 167772163 2048] (fun a => a)
    (fun a => if a =? 167772162 then Some 0%nat else if a =? 167772163 then Some 1%nat else None)
    (fun a => a =? 167772162) (fun _ _ => None) (fun a => a =? 167772161) [ex_i1; ex_i2] (fun _ _ => true) 2 698 fan 1 false true (Some 3232236543).
(** a UDP packet of 36 bytes *)
Definition ex_data (src dst : list Z) (flags : Z) : list Z :=
  [69; 0; 0; 36; 18; 52; flags; 0; 64; 17; 1; 2] ++ src ++ dst ++ [19; 136; 19; 137; 0; 16; 0; 0; 1; 2; 3; 4; 5; 6; 7; 8].
Definition ex_old : list Z := repeat 0 2048.
(** 192.168.1.7 to 224.0.0.9 *)
Definition ex_multi : list Z := ex_data [192; 168; 1; 7] [224; 0; 0; 9] 0.
Definition ex_crc : Z := match packet_crc32 ex_multi 36 with Done (c, _) => c | _ => 0 end.
Definition all_bytes (m : list Z) : bool := forallb (fun x => (0 <=? x) && (x <? 256)) m.
Lemma all_bytes_ok : forall m, all_bytes m = true -> Forall byte m.
Proof. intros m H. apply Forall_forall. intros x I. unfold all_bytes in H. rewrite forallb_forall in H. specialize (H x I). unfold byte. lia. Qed.
Lemma ex_sane : forall fan, 0 <= fan <= 10 -> sane (ex_env fan).
Proof.
  intros fan F. split; [exact F|]. split; [|split; [|split]].
  - intros [|[|[|k]]] l H; inversion H; subst; cbn; lia.
  - intros a k H. cbn in H. destruct (a =? 167772162); [inversion H; eexists; reflexivity|]. destruct (a =? 167772163); [inversion H; eexists; reflexivity|discriminate].
  - intros i [<-|[<-|[]]]; cbn; unfold multicast; lia.
  - intros b H. inversion H. unfold multicast. lia.
Qed.
Lemma ex_old_ok : length ex_old = 2048%nat /\ Forall byte ex_old.
Proof. split; [reflexivity|apply all_bytes_ok; vm_compute; reflexivity]. Qed.
Lemma ex_valid : valid ex_multi.
Proof.
  split; [apply all_bytes_ok; reflexivity|]. split; [split; apply Nat.leb_le; vm_compute; reflexivity|]. split; [apply Nat.leb_le; vm_compute; reflexivity|]. split; [apply Nat.ltb_lt|apply Nat.leb_le]; vm_compute; reflexivity.
Qed.
Lemma ex_fingerprint : fingerprint_of ex_multi ex_crc.
Proof. apply fingerprint_run; [exact ex_valid|]. vm_compute. reflexivity. Qed.

(** a packet captured on an interface that is new is done on each interface what is to be
    done; one that is a copy is dropped, and marked again *)
Theorem C133_captured : forall e l t from k outgoing old data c,
  sane e -> length old = 2048%nat -> Forall byte old -> valid data ->
  (outgoing = true /\ k = KOutgoing \/ outgoing = false /\ (k = KMulticast \/ k = KBroadcast)) ->
  wanted e (i_broad from) data -> ~ later_fragment data -> ~ control e data -> fingerprint_of data c ->
  (answer l t c = true -> on_capture e (u32 t) from k old data (run l) = Done ([], run (l ++ [Seen t c]))) /\
  (answer l t c = false -> exists parts,
     on_capture e (u32 t) from k old data (run l) = Done (concat parts, run (l ++ [Seen t c])) /\
     Forall2 (captured_part e from outgoing (bmf_header c) data) (e_intfs e) parts).
Proof.
  intros e l t from k outgoing old data c S Lo Fo V K W NF NC Fp.
  pose proof (captured_ok e l t from outgoing data _ c S (capture_mem old data Lo Fo V) W NF NC Fp) as H.
  assert (E : on_capture e (u32 t) from k old data (run l) = captured e (u32 t) from outgoing (skipn 8 (buffer old data 8)) (run l)).
  { unfold on_capture. pose proof V as (_ & L & _). rewrite firstn_all2 by lia. replace (Z.of_nat (length data) <? 20) with false by lia. destruct K as [(-> & ->)|(-> & [->| ->])]; reflexivity. }
  now rewrite E.
Qed.
Print Assumptions C133_captured.
(** from the LAN to both neighbors *)
Example C133_captured_ex : sane (ex_env 2) /\ valid ex_multi /\ wanted (ex_env 2) (i_broad ex_i2) ex_multi /\ ~ later_fragment ex_multi /\ ~ control (ex_env 2) ex_multi /\
  fingerprint_of ex_multi ex_crc /\ answer [] 5000 ex_crc = false /\
  on_capture (ex_env 2) 5000 ex_i2 KMulticast ex_old ex_multi (run []) =
    Done ([Encap 1 167772162 (bmf_header ex_crc ++ ex_multi); Encap 1 167772163 (bmf_header ex_crc ++ ex_multi)], run [Seen 5000 ex_crc]).
Proof.
  split; [apply ex_sane; lia|]. split; [exact ex_valid|]. split; [left; vm_compute; split; congruence|]. split; [intros H; vm_compute in H; congruence|].
  split; [intros (_ & _ & [H|[H|H]]); vm_compute in H; discriminate|]. split; [exact ex_fingerprint|]. split; vm_compute; reflexivity.
Qed.

(** nothing is done with other packets *)
Theorem C133_ignored : forall e now from k old data h, length old = 2048%nat -> Forall byte old -> valid data ->
  k = KHost \/ k = KOther \/ ~ wanted e (i_broad from) data \/ later_fragment data \/ control e data ->
  on_capture e now from k old data h = Done ([], h).
Proof.
  intros e now from k old data h Lo Fo V W. pose proof V as (_ & L & _). unfold on_capture. rewrite firstn_all2 by lia. replace (Z.of_nat (length data) <? 20) with false by lia.
  destruct k; try reflexivity; apply (captured_not e now from _ data _ h (capture_mem old data Lo Fo V)); destruct W as [W|[W|W]]; try discriminate; exact W.
Qed.
Print Assumptions C133_ignored.
Example C133_ignored_ex : later_fragment (ex_data [192; 168; 1; 7] [224; 0; 0; 9] 1) /\ on_capture (ex_env 2) 5000 ex_i2 KMulticast ex_old (ex_data [192; 168; 1; 7] [224; 0; 0; 9] 1) (run []) = Done ([], run []).
Proof. split; [vm_compute; discriminate|vm_compute; reflexivity]. Qed.

(** a packet from the local stack *)
Theorem C133_tun : forall e l t broad old data c,
  sane e -> length old = 2048%nat -> Forall byte old -> valid data -> wanted e broad data -> fingerprint_of data c ->
  (answer l t c = true -> on_tuntap e (u32 t) broad old data (run l) = Done ([], run (l ++ [Seen t c]))) /\
  (answer l t c = false -> exists parts,
     on_tuntap e (u32 t) broad old data (run l) = Done (concat parts, run (l ++ [Seen t c])) /\ Forall2 (tun_part e (bmf_header c) data) (e_intfs e) parts).
Proof.
  intros e l t broad old data c S Lo Fo V W Fp. pose proof (tun_ok e l t broad data _ c S (capture_mem old data Lo Fo V) W Fp) as H.
  assert (E : on_tuntap e (u32 t) broad old data (run l) = tun_captured e (u32 t) broad (skipn 8 (buffer old data 8)) (run l)).
  { unfold on_tuntap. pose proof V as (_ & L & _). rewrite firstn_all2 by lia. replace (Z.of_nat (length data) <? 20) with false by lia. reflexivity. }
  now rewrite E.
Qed.
Print Assumptions C133_tun.
(** with more neighbors than the limit it is one broadcast *)
Example C133_tun_ex : sane (ex_env 1) /\ on_tuntap (ex_env 1) 5000 3232236543 ex_old ex_multi (run []) =
  Done ([Encap 1 167772415 (bmf_header ex_crc ++ ex_multi); Raw 2 ex_multi], run [Seen 5000 ex_crc]).
Proof. split; [apply ex_sane; lia|vm_compute; reflexivity]. Qed.

(** an encapsulated packet goes to the local stack, to the other networks, and on if the node
    it came from has selected this one; not to that node, the source or the one it was for *)
Theorem C133_received : forall e l t from by_ old data c,
  sane e -> length old = 2048%nat -> Forall byte old -> valid (body data) -> 0 <= c < 4294967296 -> head data = bmf_header c ->
  e_own e by_ = false -> i_olsr from = true ->
  (answer l t c = true -> on_encapsulating e (u32 t) from by_ old data (run l) = Done ([], run (l ++ [Seen t c]))) /\
  (answer l t c = false -> exists here parts,
     on_encapsulating e (u32 t) from by_ old data (run l) = Done (here ++ concat parts, run (l ++ [Seen t c])) /\
     local_part e (body data) (total (body data)) here /\ Forall2 (received_part e by_ None (bmf_header c) (body data)) (e_intfs e) parts).
Proof.
  intros e l t from by_ old data c S Lo Fo V C H Own Ol. pose proof V as (_ & L & _). unfold body in L. rewrite skipn_length in L.
  destruct (encap_mem old data Lo Fo ltac:(lia) V) as (E & O). pose proof (received_ok e l t from by_ None (body data) _ c S O C Own Ol) as R.
  unfold on_encapsulating. rewrite firstn_all2 by lia. replace (Z.of_nat (length data) <? 28) with false by lia. now rewrite E, H.
Qed.
Print Assumptions C133_received.
Example C133_received_ex : let data := bmf_header 77 ++ ex_multi in valid (body data) /\ head data = bmf_header 77 /\
  on_encapsulating (ex_env 2) 5000 ex_i1 167772162 ex_old data (run []) = Done ([Local ex_multi; Encap 1 167772163 data; Raw 2 ex_multi], run [Seen 5000 77]) /\
  on_encapsulating (ex_env 2) 5000 ex_i1 167772163 ex_old data (run []) = Done ([Local ex_multi; Raw 2 ex_multi], run [Seen 5000 77]).
Proof. cbv zeta. split; [exact ex_valid|]. split; [reflexivity|]. split; vm_compute; reflexivity. Qed.

(** the same for one that was for another node *)
Theorem C133_overheard : forall e l t from old outer data c,
  sane e -> length old = 2048%nat -> Forall byte old -> (length outer <= 2048)%nat -> carrier outer data -> valid (body data) -> 0 <= c < 4294967296 -> head data = bmf_header c ->
  e_own e (source outer) = false -> i_olsr from = true ->
  (answer l t c = true -> on_listening e (u32 t) from KOther old outer (run l) = Done ([], run (l ++ [Seen t c]))) /\
  (answer l t c = false -> exists here parts,
     on_listening e (u32 t) from KOther old outer (run l) = Done (here ++ concat parts, run (l ++ [Seen t c])) /\
     local_part e (body data) (total (body data)) here /\ Forall2 (received_part e (source outer) (Some (address outer)) (bmf_header c) (body data)) (e_intfs e) parts).
Proof.
  intros e l t from old outer data c S Lo Fo Lu Ca V C H Own Ol. pose proof V as (_ & L & _). unfold body in L. rewrite skipn_length in L.
  destruct (listen_mem old outer data Lo Fo Lu Ca ltac:(lia) V) as (m0 & O & _ & E). rewrite E, H. exact (received_ok e l t from (source outer) (Some (address outer)) (body data) m0 c S O C Own Ol).
Qed.
Print Assumptions C133_overheard.
(** from 10.0.0.2 to 10.0.0.3: no one is left *)
Example C133_overheard_ex :
  let data := bmf_header 77 ++ ex_multi in
  let outer := [69; 0; 0; 72; 0; 1; 0; 0; 64; 17; 0; 0; 10; 0; 0; 2; 10; 0; 0; 3; 198; 10; 198; 10; 0; 52; 0; 0] ++ data in
  carrier outer data /\ on_listening (ex_env 2) 5000 ex_i1 KOther ex_old outer (run []) = Done ([Local ex_multi; Raw 2 ex_multi], run [Seen 5000 77]).
Proof.
  cbv zeta. split; [|vm_compute; reflexivity]. split; [apply all_bytes_ok; vm_compute; reflexivity|]. split; [apply Nat.leb_le; vm_compute; reflexivity|].
  split; [apply Nat.leb_le; vm_compute; reflexivity|]. split; [reflexivity|]. split; vm_compute; reflexivity.
Qed.

(** encapsulated packets that are not taken *)
Theorem C133_refused : forall e now from by_ old data h, length old = 2048%nat -> Forall byte old -> valid (body data) ->
  e_own e by_ = true \/ i_olsr from = false \/ nth 0 data 0 <> 1 \/ nth 1 data 0 <> 6 \/ nth 2 data 0 * 256 + nth 3 data 0 <> 0 ->
  on_encapsulating e now from by_ old data h = Done ([], h).
Proof.
  intros e now from by_ old data h Lo Fo V W. pose proof V as (_ & L & _). unfold body in L. rewrite skipn_length in L.
  destruct (encap_mem old data Lo Fo ltac:(lia) V) as (E & O). unfold on_encapsulating. rewrite firstn_all2 by lia. replace (Z.of_nat (length data) <? 28) with false by lia. rewrite E.
  apply (received_not e now from by_ None (head data) (body data) _ h O); [unfold head; rewrite firstn_length; lia|].
  assert (N : forall k, (k < 8)%nat -> nth k (head data) 0 = nth k data 0) by (intros k K; unfold head; rewrite <- !nth_default_eq; unfold nth_default; now rewrite nth_firstn by lia).
  now rewrite !N by lia.
Qed.
Print Assumptions C133_refused.
Example C133_refused_ex : on_encapsulating (ex_env 2) 5000 ex_i1 167772162 ex_old ([1; 6; 0; 1] ++ bytes_of 77 ++ ex_multi) (run []) = Done ([], run []).
Proof. vm_compute. reflexivity. Qed.

(** false of a captured packet: it goes back to the neighbor whose packet it is *)
Theorem C133_source_refuted : exists e from data r nb b, sane e /\ valid data /\ wanted e (i_broad from) data /\
  on_capture e 5000 from KMulticast ex_old data (run []) = Done r /\ In (Encap (i_id from) nb b) (fst r) /\ e_main e nb = e_main e (source data).
Proof.
  set (data := ex_data [10; 0; 0; 2] [224; 0; 0; 9] 0).
  exists (ex_env 2), ex_i1, data. eexists. exists 167772162. eexists. split; [apply ex_sane; lia|].
  split; [split; [apply all_bytes_ok; reflexivity|]; split; [split; apply Nat.leb_le; vm_compute; reflexivity|]; split; [apply Nat.leb_le; vm_compute; reflexivity|]; split; [apply Nat.ltb_lt|apply Nat.leb_le]; vm_compute; reflexivity|].
  split; [left; vm_compute; split; congruence|]. split; [vm_compute; reflexivity|]. split; [left; reflexivity|reflexivity].
Qed.
Print Assumptions C133_source_refuted.
(** false of fragments: the first one is forwarded, the others are not *)
Theorem C133_fragment_refuted : exists data r, valid data /\ Z.testbit (nth 6 data 0) 5 = true /\
  on_capture (ex_env 2) 5000 ex_i2 KMulticast ex_old data (run []) = Done r /\ fst r <> [].
Proof.
  set (data := ex_data [192; 168; 1; 7] [224; 0; 0; 9] 32).
  exists data. eexists. split; [split; [apply all_bytes_ok; reflexivity|]; split; [split; apply Nat.leb_le; vm_compute; reflexivity|]; split; [apply Nat.leb_le; vm_compute; reflexivity|]; split; [apply Nat.ltb_lt|apply Nat.leb_le]; vm_compute; reflexivity|].
  split; [reflexivity|]. split; [vm_compute; reflexivity|discriminate].
Qed.
Print Assumptions C133_fragment_refuted.

(** with a total length that is not more than what was received, nothing is read or written
    outside the buffer and no assertion fails *)
Theorem C134_memory_partial : forall e l t from k broad by_ old data,
  sane e -> length old = 2048%nat -> Forall byte old ->
  (valid data -> exists r, on_capture e (u32 t) from k old data (run l) = Done r) /\
  (valid data -> exists r, on_tuntap e (u32 t) broad old data (run l) = Done r) /\
  (valid (body data) -> Forall byte data -> exists r, on_encapsulating e (u32 t) from by_ old data (run l) = Done r) /\
  (forall outer, carrier outer data -> (length outer <= 2048)%nat -> valid (body data) -> exists r, on_listening e (u32 t) from k old outer (run l) = Done r).
Proof.
  intros e l t from k broad by_ old data S Lo Fo. split; [|split; [|split]].
  - intros V. pose proof V as (_ & L & _). pose proof (capture_mem old data Lo Fo V) as O. unfold on_capture. rewrite firstn_all2 by lia. replace (Z.of_nat (length data) <? 20) with false by lia.
    assert (H : forall outgoing, exists r, captured e (u32 t) from outgoing (skipn 8 (buffer old data 8)) (run l) = Done r).
    { intros outgoing. destruct (crc_mem data _ O) as (c & _ & Fp & _).
      destruct (wanted_or_not e (i_broad from) data _ O) as [W|(W & NF & NC)]; [rewrite (captured_not _ _ _ _ _ _ _ O W); eauto|].
      destruct (captured_ok e l t from outgoing data _ c S O W NF NC Fp) as (A & B). destruct (answer l t c); [rewrite (A eq_refl); eauto|]. destruct (B eq_refl) as (parts & -> & _). eauto. }
    destruct k; eauto.
  - intros V. pose proof V as (_ & L & _). pose proof (capture_mem old data Lo Fo V) as O. unfold on_tuntap. rewrite firstn_all2 by lia. replace (Z.of_nat (length data) <? 20) with false by lia.
    destruct (crc_mem data _ O) as (c & _ & Fp & _). destruct (is_multicast (address data) || (e_local e && (address data =? broad))) eqn:Wb.
    + apply wanted_dec in Wb. destruct (tun_ok e l t broad data _ c S O Wb Fp) as (A & B). destruct (answer l t c); [rewrite (A eq_refl); eauto|]. destruct (B eq_refl) as (parts & -> & _). eauto.
    + rewrite (tun_not e _ broad data _ _ O); [eauto|]. intros W. apply wanted_dec in W. congruence.
  - intros V Fd. pose proof V as (_ & L & _). unfold body in L. rewrite skipn_length in L. destruct (encap_mem old data Lo Fo ltac:(lia) V) as (E & O).
    unfold on_encapsulating. rewrite firstn_all2 by lia. replace (Z.of_nat (length data) <? 28) with false by lia. rewrite E. apply (received_done e l t from by_ None (head data) (body data) _ S O).
    + unfold head. rewrite firstn_length. lia.
    + now apply BmfSumProofs.forall_take.
  - intros outer Ca Lu V. destruct k; try (eexists; reflexivity). pose proof V as (_ & L & _). unfold body in L. rewrite skipn_length in L.
    destruct (listen_mem old outer data Lo Fo Lu Ca ltac:(lia) V) as (m0 & O & Lh & E). rewrite E. apply (received_done e l t from _ _ (head data) (body data) m0 S O Lh).
    destruct Ca as (Fb & _ & _ & _ & _ & ->). unfold head. apply BmfSumProofs.forall_take. now apply skip_bytes.
Qed.
Print Assumptions C134_memory_partial.
Example C134_memory_ex : valid (body (bmf_header 77 ++ ex_multi)) /\ Forall byte (bmf_header 77 ++ ex_multi).
Proof. split; [exact ex_valid|apply all_bytes_ok; reflexivity]. Qed.

(** whatever is received, the buffer keeps its 2048 bytes, and the data starts at its place *)
Theorem C134_bounded : forall old data off, length old = 2048%nat -> (off <= 2048)%nat ->
  length (buffer old data off) = 2048%nat /\ firstn off (buffer old data off) = firstn off old /\
  forall i, (i < length data)%nat -> (off + i < 2048)%nat -> nth (off + i) (buffer old data off) 0 = nth i data 0.
Proof.
  intros old data off L O. unfold buffer. set (d := firstn (2048 - off) data).
  assert (Ld : (length d <= 2048 - off)%nat) by (unfold d; rewrite firstn_length; lia).
  assert (Lf : length (firstn off old) = off) by (rewrite firstn_length; lia).
  split; [|split].
  - rewrite !app_length, skipn_length, Lf. lia.
  - rewrite firstn_app, Lf, Nat.sub_diag, firstn_O, app_nil_r, firstn_firstn, Nat.min_id. reflexivity.
  - intros i Hi Hb. rewrite app_nth2 by lia. rewrite Lf. replace (off + i - off)%nat with i by lia.
    assert (Hd : (i < length d)%nat) by (unfold d; rewrite firstn_length; lia). rewrite app_nth1 by exact Hd.
    unfold d. rewrite <- (firstn_skipn (2048 - off) data) at 2. rewrite app_nth1 by exact Hd. reflexivity.
Qed.
Print Assumptions C134_bounded.
Example C134_bounded_ex : length (buffer (repeat 7 2048) (repeat 1 3000) 8) = 2048%nat.
Proof. vm_compute. reflexivity. Qed.

(** a packet of 28 bytes with total length 1000: what is forwarded is, from byte 28 on, what was
    on the stack *)
Theorem C134_leak_refuted : exists data old old' r r', length data = 28%nat /\ Forall byte data /\ length old = 2048%nat /\ length old' = 2048%nat /\
  on_encapsulating (ex_env 2) 5000 ex_i1 167772162 old data (run []) = Done r /\
  on_encapsulating (ex_env 2) 5000 ex_i1 167772162 old' data (run []) = Done r' /\
  exists b, In (Encap 1 167772163 b) (fst r) /\ length b = 1008%nat /\ ~ In (Encap 1 167772163 b) (fst r') /\ skipn 28 b = firstn 980 (skipn 28 old).
Proof.
  exists (bmf_header 77 ++ [69; 0; 3; 232; 0; 1; 0; 0; 64; 17; 0; 0; 10; 0; 0; 9; 224; 0; 0; 9]), (repeat 42 2048), (repeat 43 2048).
  eexists. eexists. split; [reflexivity|]. split; [apply all_bytes_ok; reflexivity|]. split; [reflexivity|]. split; [reflexivity|]. split; [vm_compute; reflexivity|]. split; [vm_compute; reflexivity|].
  eexists. split; [right; left; reflexivity|]. split; [vm_compute; reflexivity|]. split; [|vm_compute; reflexivity].
  intros [H|[H|[H|[]]]]; discriminate.
Qed.
Print Assumptions C134_leak_refuted.
(** with total length 3000 the read goes past the end of the buffer *)
Theorem C134_outside_refuted : exists data, length data = 28%nat /\ Forall byte data /\ on_encapsulating (ex_env 2) 5000 ex_i1 167772162 ex_old data (run []) = Outside.
Proof.
  exists (bmf_header 77 ++ [69; 0; 11; 184; 0; 1; 0; 0; 64; 17; 0; 0; 10; 0; 0; 9; 224; 0; 0; 9]). split; [reflexivity|]. split; [apply all_bytes_ok; reflexivity|]. vm_compute. reflexivity.
Qed.
Print Assumptions C134_outside_refuted.
(** and with total length 0 a captured packet ends the daemon *)
Theorem C134_abort_refuted : exists data, length data = 20%nat /\ Forall byte data /\ on_capture (ex_env 2) 5000 ex_i2 KMulticast ex_old data (run []) = Aborts.
Proof.
  exists [69; 0; 0; 0; 0; 1; 0; 0; 64; 2; 0; 0; 10; 0; 0; 9; 224; 0; 0; 9]. split; [reflexivity|]. split; [apply all_bytes_ok; reflexivity|]. vm_compute. reflexivity.
Qed.
Print Assumptions C134_abort_refuted.

(** what was sent encapsulated and comes back within three seconds, from whomever, is dropped *)
Theorem C135_encapsulated : forall e e' s l l' T t from k outgoing old data c acts h i a b from' by_ old',
  sane e -> sane e' -> length old = 2048%nat -> Forall byte old -> length old' = 2048%nat -> Forall byte old' -> valid data -> (20 <= total data)%nat ->
  (outgoing = true /\ k = KOutgoing \/ outgoing = false /\ (k = KMulticast \/ k = KBroadcast)) ->
  wanted e (i_broad from) data -> ~ later_fragment data -> ~ control e data -> fingerprint_of data c ->
  on_capture e (u32 T) from k old data (run l) = Done (acts, h) -> In (Encap i a b) acts ->
  paced s s ((l ++ [Seen T c]) ++ l' ++ [Seen t c]) -> t < T + 3000 ->
  exists h', on_encapsulating e' (u32 t) from' by_ old' b (run ((l ++ [Seen T c]) ++ l')) = Done ([], h').
Proof.
  intros e e' s l l' T t from k outgoing old data c acts h i a b from' by_ old' S S' Lo Fo Lo' Fo' V T20 K W NF NC Fp E I P L.
  destruct (C133_captured e l T from k outgoing old data c S Lo Fo V K W NF NC Fp) as (A1 & A2). destruct (answer l T c); [rewrite A1 in E by reflexivity; inversion E; subst; destruct I|].
  destruct (A2 eq_refl) as (parts & E2 & F). rewrite E2 in E. inversion E; subst acts h. destruct (concat_in _ _ _ _ F I) as (i0 & part & _ & D & Ip).
  pose proof (captured_shape _ _ _ _ _ _ _ _ D Ip) as (m & Sm & ->). destruct (copy_valid data m V T20 Sm) as (Vc & _ & _ & Len).
  destruct (e_own e' by_) eqn:Own; [eexists; apply C133_refused; auto|]. destruct (i_olsr from') eqn:Ol; [|eexists; apply C133_refused; auto].
  assert (C : 0 <= c < 4294967296). { destruct (crc_mem data _ (capture_mem old data Lo Fo V)) as (c' & _ & F' & C). now rewrite (fingerprint_fun _ _ _ Fp F'). }
  destruct (C133_received e' ((l ++ [Seen T c]) ++ l') t from' by_ old' (bmf_header c ++ firstn (total data) m) c S' Lo' Fo' Vc C eq_refl Own Ol) as (B & _).
  eexists. apply B. apply (seen_again s l l' T t c P L).
Qed.
Print Assumptions C135_encapsulated.
Example C135_encapsulated_ex :
  paced 0 0 (([] ++ [Seen 5000 ex_crc]) ++ [Prune 6000] ++ [Seen 7999 ex_crc]) /\
  on_encapsulating (ex_env 2) 7999 ex_i1 167772163 ex_old (bmf_header ex_crc ++ ex_multi) (run ([Seen 5000 ex_crc] ++ [Prune 6000])) = Done ([], run [Seen 5000 ex_crc; Prune 6000; Seen 7999 ex_crc]).
Proof. split; [cbn; vm_compute; repeat split; congruence|vm_compute; reflexivity]. Qed.

(** also what was relayed *)
Theorem C135_relayed : forall e e' s l l' T t from by_ old data c acts h i a b from' by' old',
  sane e -> sane e' -> length old = 2048%nat -> Forall byte old -> length old' = 2048%nat -> Forall byte old' -> valid (body data) -> (20 <= total (body data))%nat ->
  0 <= c < 4294967296 -> head data = bmf_header c -> e_own e by_ = false -> i_olsr from = true ->
  on_encapsulating e (u32 T) from by_ old data (run l) = Done (acts, h) -> In (Encap i a b) acts ->
  paced s s ((l ++ [Seen T c]) ++ l' ++ [Seen t c]) -> t < T + 3000 ->
  exists h', on_encapsulating e' (u32 t) from' by' old' b (run ((l ++ [Seen T c]) ++ l')) = Done ([], h').
Proof.
  intros e e' s l l' T t from by_ old data c acts h i a b from' by' old' S S' Lo Fo Lo' Fo' V T20 C Hd Own0 Ol0 E I P L.
  destruct (C133_received e l T from by_ old data c S Lo Fo V C Hd Own0 Ol0) as (A1 & A2). destruct (answer l T c); [rewrite A1 in E by reflexivity; inversion E; subst; destruct I|].
  destruct (A2 eq_refl) as (here & parts & E2 & Lp & F). rewrite E2 in E. inversion E; subst acts h.
  assert (Sh : shape (bmf_header c) (body data) (Encap i a b)).
  { apply in_app_or in I. destruct I as [I|I]; [exact (local_shape _ _ _ _ _ Lp I)|]. destruct (concat_in _ _ _ _ F I) as (i0 & part & _ & D & Ip). exact (received_shape _ _ _ _ _ _ _ _ D Ip). }
  destruct Sh as (m & Sm & ->). destruct (copy_valid (body data) m V T20 Sm) as (Vc & _ & _ & Len).
  destruct (e_own e' by') eqn:Own; [eexists; apply C133_refused; auto|]. destruct (i_olsr from') eqn:Ol; [|eexists; apply C133_refused; auto].
  destruct (C133_received e' ((l ++ [Seen T c]) ++ l') t from' by' old' (bmf_header c ++ firstn (total (body data)) m) c S' Lo' Fo' Vc C eq_refl Own Ol) as (B & _).
  eexists. apply B. apply (seen_again s l l' T t c P L).
Qed.
Print Assumptions C135_relayed.
Example C135_relayed_ex :
  on_encapsulating (ex_env 2) 5000 ex_i1 167772162 ex_old (bmf_header 77 ++ ex_multi) (run []) = Done ([Local ex_multi; Encap 1 167772163 (bmf_header 77 ++ ex_multi); Raw 2 ex_multi], run [Seen 5000 77]) /\
  on_encapsulating (ex_env 2) 5200 ex_i1 167772163 ex_old (bmf_header 77 ++ ex_multi) (run [Seen 5000 77]) = Done ([], run [Seen 5000 77; Seen 5200 77]).
Proof. split; vm_compute; reflexivity. Qed.

(** so is a multicast packet that was sent on a network without OLSR, also if other nodes have
    changed the time to live and the header checksum *)
Theorem C135_raw : forall e e' s l l' T t from k outgoing old data c acts h i b data' from' k' old',
  sane e -> sane e' -> length old = 2048%nat -> Forall byte old -> length old' = 2048%nat -> Forall byte old' -> valid data -> (20 <= total data)%nat -> multicast (address data) ->
  (outgoing = true /\ k = KOutgoing \/ outgoing = false /\ (k = KMulticast \/ k = KBroadcast)) ->
  ~ later_fragment data -> ~ control e data -> fingerprint_of data c ->
  on_capture e (u32 T) from k old data (run l) = Done (acts, h) -> In (Raw i b) acts -> alike b data' -> Forall byte data' ->
  paced s s ((l ++ [Seen T c]) ++ l' ++ [Seen t c]) -> t < T + 3000 ->
  exists h', on_capture e' (u32 t) from' k' old' data' (run ((l ++ [Seen T c]) ++ l')) = Done ([], h').
Proof.
  intros e e' s l l' T t from k outgoing old data c acts h i b data' from' k' old' S S' Lo Fo Lo' Fo' V T20 M K NF NC Fp E I Al Fd P L.
  destruct (C133_captured e l T from k outgoing old data c S Lo Fo V K (or_introl M) NF NC Fp) as (A1 & A2). destruct (answer l T c); [rewrite A1 in E by reflexivity; inversion E; subst; destruct I|].
  destruct (A2 eq_refl) as (parts & E2 & F). rewrite E2 in E. inversion E; subst acts h. destruct (concat_in _ _ _ _ F I) as (i0 & part & _ & D & Ip).
  pose proof (captured_shape _ _ _ _ _ _ _ _ D Ip) as (m & Sm & Eb). pose proof Sm as (_ & _ & _ & Mm). pose proof (Mm M) as Em. subst m. subst b.
  destruct (copy_valid data data V T20 Sm) as (Vc & _ & Tc & Len).
  destruct (alike_valid (firstn (total data) data) data' Vc Al Fd) as (Vd & Td).
  assert (Fp' : fingerprint_of data' c) by (eapply alike_fingerprint; [exact Vc|exact Al|]; apply prefix_fingerprint; assumption).
  destruct (wanted_or_not e' (i_broad from') data' _ (capture_mem old' data' Lo' Fo' Vd)) as [W|(W & NF' & NC')]; [eexists; apply C133_ignored; auto|].
  assert (An := seen_again s l l' T t c P L).
  destruct k'; try (eexists; apply C133_ignored; auto; fail).
  - eexists. apply (proj1 (C133_captured e' ((l ++ [Seen T c]) ++ l') t from' KBroadcast false old' data' c S' Lo' Fo' Vd ltac:(auto) W NF' NC' Fp') An).
  - eexists. apply (proj1 (C133_captured e' ((l ++ [Seen T c]) ++ l') t from' KMulticast false old' data' c S' Lo' Fo' Vd ltac:(auto) W NF' NC' Fp') An).
  - eexists. apply (proj1 (C133_captured e' ((l ++ [Seen T c]) ++ l') t from' KOutgoing true old' data' c S' Lo' Fo' Vd ltac:(auto) W NF' NC' Fp') An).
Qed.
Print Assumptions C135_raw.
Definition ex_multi2 : list Z := ex_data [10; 0; 0; 2] [224; 0; 0; 9] 0.
Definition ex_crc2 : Z := match packet_crc32 ex_multi2 36 with Done (c, _) => c | _ => 0 end.
Example C135_raw_ex :
  on_capture (ex_env 2) 5000 ex_i1 KMulticast ex_old ex_multi2 (run []) =
    Done ([Encap 1 167772162 (bmf_header ex_crc2 ++ ex_multi2); Encap 1 167772163 (bmf_header ex_crc2 ++ ex_multi2); Raw 2 ex_multi2], run [Seen 5000 ex_crc2]) /\
  on_capture (ex_env 2) 5100 ex_i2 KMulticast ex_old (firstn 8 ex_multi2 ++ [63; 17; 2; 2] ++ skipn 12 ex_multi2) (run [Seen 5000 ex_crc2]) = Done ([], run [Seen 5000 ex_crc2; Seen 5100 ex_crc2]).
Proof. split; vm_compute; reflexivity. Qed.

(** false of broadcasts: with the new address it is another packet; a copy that another node
    sends back goes round once more *)
Theorem C135_rewritten_refuted : exists data acts h i b r, valid data /\ wanted (ex_env 2) (i_broad ex_i1) data /\
  on_capture (ex_env 2) 5000 ex_i1 KBroadcast ex_old data (run []) = Done (acts, h) /\ In (Raw i b) acts /\
  on_capture (ex_env 2) 5001 ex_i2 KBroadcast ex_old b h = Done r /\ fst r <> [].
Proof.
  set (data := ex_data [10; 0; 0; 2] [10; 0; 0; 255] 0).
  destruct (on_capture (ex_env 2) 5000 ex_i1 KBroadcast ex_old data (run [])) as [(acts, h)| |] eqn:E; [|vm_compute in E; discriminate|vm_compute in E; discriminate].
  set (b := firstn 36 (nth 0 (concat (map (fun x => match x with Raw _ b => [b] | _ => [] end) acts)) [])).
  assert (R : exists r, on_capture (ex_env 2) 5001 ex_i2 KBroadcast ex_old b h = Done r /\ fst r <> []).
  { unfold b. vm_compute in E. inversion E; subst. eexists. split; [vm_compute; reflexivity|discriminate]. }
  destruct R as (r & R1 & R2).
  exists data, acts, h, 2, b, r. split; [split; [apply all_bytes_ok; reflexivity|]; split; [split; apply Nat.leb_le; vm_compute; reflexivity|]; split; [apply Nat.leb_le; vm_compute; reflexivity|]; split; [apply Nat.ltb_lt|apply Nat.leb_le]; vm_compute; reflexivity|].
  split; [right; split; reflexivity|]. split; [exact E|]. split; [|auto]. unfold b. vm_compute in E. inversion E; subst. right. right. left. reflexivity.
Qed.
Print Assumptions C135_rewritten_refuted.

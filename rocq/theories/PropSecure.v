(** C89-C93: the secure plugin. *)
From Verif Require Import Base Bytes NetBuf NetBufSpec Parser SchedTime BuildMsgSpec Secure SecureSpec SecureProofs SecureRunProofs SecureHandProofs SecureDbProofs.

(** a small hash function and two nodes for the examples *)
Definition ex_hash (n : nat) (x : list Z) : list Z := repeat (fold_left (fun a b => (a * 3 + b) mod 251) x 1) n.
Definition ex_abi := mkABI 8 16 true.
Definition nodeA := mkSCfg ex_abi (ex_hash 16) (repeat 7 16) [10; 0; 0; 1] [[10; 0; 0; 1]].
Definition nodeB := mkSCfg ex_abi (ex_hash 16) (repeat 7 16) [10; 0; 0; 2] [[10; 0; 0; 9]; [10; 0; 0; 2]].
Definition ex_env (ms : Z) := mkEnv ms true 77 99 (mkStamp [] 5 6 false 7 8) 9.
Definition ex_nb (w : list Z) : nb :=
  let b := net_add_buffer 1500 (nb_zero 5) in
  match net_outbuffer_push b w with Some (b', _) => b' | None => b end.
Definition ex_pkt (c : scfg) (now : Z) (w : list Z) : list Z :=
  match net_output [add_signature c now 300] true (ex_nb w) with Some (_, _, Some p) => p | _ => [] end.
Definition ex_w : list Z := [1; 134; 0; 16; 10; 0; 0; 2; 1; 0; 0; 1; 0; 0; 5; 3].
Definition ex_state (tab : list stamp) (now : Z) : sec := mkSec tab (ex_nb []) 40 now.

Lemma ex_hash_len n x : blen (ex_hash n x) = Z.of_nat n. Proof. unfold ex_hash, blen. now rewrite repeat_length. Qed.
Lemma nodes_ok : cfg_ok nodeA /\ cfg_ok nodeB /\ peers nodeA nodeB /\ ~ padded ex_abi.
Proof.
  split; [|split; [|split]].
  - split; [cbn; repeat split; auto|]. split; [reflexivity|]. intros x. apply (ex_hash_len 16).
  - split; [cbn; repeat split; auto|]. split; [reflexivity|]. intros x. apply (ex_hash_len 16).
  - repeat split.
  - intros [_ H]. discriminate H.
Qed.
Lemma ex_whole : forall w, blen w <= 1496 -> whole (ex_nb w) /\ nb_pend (ex_nb w) = blen w /\ nb_size (ex_nb w) = 1500 /\ nb_seq (ex_nb w) = 5 /\ nb_max (ex_nb w) = 1496 /\ waiting (ex_nb w) = w.
Proof.
  intros w L. unfold ex_nb, net_outbuffer_push. pose proof (blen_nonneg w). set (b := net_add_buffer 1500 (nb_zero 5)).
  change (nb_pend b) with 0. change (nb_max b) with 1496. replace (0 + blen w >? 1496) with false by lia. unfold append. change (nb_pend b + HDR) with 4. change (nb_pend b) with 0.
  change (nb_buf b) with (Some (repeat 0 1500)). assert (Lr : blen (repeat 0 1500) = 1500) by reflexivity.
  destruct (split_exact (repeat 0 1500) 4) as (h & t & Er & Lh & Lt); [lia|]. rewrite Er in *. rewrite blen_app in Lr.
  destruct (split_exact t (blen w)) as (x & t' & -> & Lx & Lt'); [lia|]. rewrite blen_app in *.
  rewrite (wr_is _ h x t'); [|reflexivity|lia|lia]. cbn [option_map nb_pend nb_size nb_seq nb_max waiting nb_buf]. repeat split; try reflexivity; try (cbn; lia).
  - exists (h ++ w ++ t'). split; [reflexivity|]. cbn. rewrite !blen_app. lia.
  - unfold waiting. cbn. apply slice_is with (pre := h) (post := t'); [reflexivity|lia|lia].
Qed.
Lemma ex_sends c now w : cfg_ok c -> c_abi c = ex_abi -> 0 < blen w <= 1000 -> sends c now 5 w (ex_pkt c now w).
Proof.
  intros C A L. destruct (ex_whole w ltac:(lia)) as (W & P & S & Q & M & Wt).
  assert (R : room (c_abi c) (ex_nb w)). { rewrite A. unfold room. rewrite P, S. change (SMSG ex_abi) with 48. change (ssz ex_abi) with 16. lia. }
  destruct (output_signed c now 300 true (ex_nb w) w C W R Wt ltac:(lia) ltac:(lia)) as (b' & r & p & E & _).
  unfold sends, ex_pkt. rewrite E. exists 300, true, (ex_nb w), b', r. repeat split; try assumption; try lia; apply W || apply R.
Qed.
Lemma ex_plain : ~ handshake_type ex_w. Proof. intros (t & w & E & H). inversion E. lia. Qed.

(** C89.  A packet signed by a node is accepted by every node with the same key and the same
    build that knows its clock, and what is left of it is the packet that would have been
    sent without the plugin.  Partial: not for SHA1 with a time_t of 8 bytes, and only if
    the signature fits the buffers. *)
Theorem C89_restored_partial : forall c c' e s now seq ok b rest d,
  cfg_ok c -> peers c c' -> ~ padded (c_abi c) -> whole b -> room (c_abi c) b -> nb_pend b <> 0 -> 0 <= nb_seq b < 65536 ->
  ~ handshake_type (waiting b) -> knows s (c_main c) d -> -3 <= d - (s_now s - u32 now) <= 3 ->
  exists b' r p s' buf' n b0 r0,
    net_output [add_signature c now seq] ok b = Some (b', r, Some p) /\
    secure_preprocessor c' e s (p ++ rest) (blen p) = Some (s', [], Some (buf', n)) /\
    net_output [] ok b = Some (b0, r0, Some (slice buf' 0 n)).
Proof.
  intros c c' e s now seq ok b rest d C Pe Np W R Nz Hq Nh K Win.
  destruct (output_signed c now seq ok b (waiting b) C W R eq_refl Nz Hq) as (b' & r & p & E & Sg & _).
  assert (Sd : sends c now (nb_seq b) (waiting b) p).
  { exists seq, ok, b, b', r. repeat split; try assumption; apply W || apply R || lia. }
  destruct (sends_signed _ _ _ _ _ C Sd) as (seq2 & _ & Nw & _ & Hl).
  destruct (accept_signed c c' e s now seq (nb_seq b) (waiting b) p rest d C Pe Np Sg Nw Nh Hl Hq K Win) as (buf' & E2 & Es).
  assert (Sz : 16 <= SMSG (c_abi c) /\ ssz (c_abi c) <= SMSG (c_abi c)).
  { destruct C as (A & _). pose proof (layouts _ A) as L. destruct A as [_ [G|G]], L; destruct (ssz (c_abi c) =? 20); lia. }
  destruct R as (R1 & R2).
  destruct (output_plain ok b W Nz ltac:(lia) ltac:(lia) Hq) as (b0 & r0 & E0).
  exists b', r, p, (refreshed s e (c_main c) (u32 now)), buf', (4 + blen (waiting b)), b0, r0. split; [exact E|]. split; [exact E2|]. rewrite Es. exact E0.
Qed.
Print Assumptions C89_restored_partial.
Example C89_restored_ex :
  let s := ex_state [mkStamp [10; 0; 0; 2] 100 0 true 30000 9000] 1700000103 in
  let p := ex_pkt nodeB 1700000001 ex_w in
  blen p = 68 /\ whole (ex_nb ex_w) /\ room ex_abi (ex_nb ex_w) /\ ~ handshake_type (waiting (ex_nb ex_w)) /\ knows s [10; 0; 0; 2] 100 /\
  exists s' buf', secure_preprocessor nodeA (ex_env 5000) s (p ++ repeat 255 10) 68 = Some (s', [], Some (buf', 20)) /\
    slice buf' 0 20 = [0; 20; 0; 5] ++ ex_w /\ knows s' [10; 0; 0; 2] 101.
Proof.
  destruct (ex_whole ex_w ltac:(vm_compute; discriminate)) as (W & P & S & Q & M & Wt).
  split; [vm_compute; reflexivity|]. split; [exact W|]. split; [unfold room; rewrite P, S; vm_compute; split; discriminate|].
  split; [rewrite Wt; exact ex_plain|]. split; [eexists; split; [reflexivity|]; split; reflexivity|].
  eexists _, _. split; [vm_compute; reflexivity|]. split; [reflexivity|]. eexists. split; [reflexivity|]. split; reflexivity.
Qed.

(** Whatever is accepted ends with the code of all the rest of the packet, and all that
    changes is that the signature message is gone and the length is adjusted. *)
Theorem C89_integrity_partial : forall c e s buf size s' o buf' n,
  cfg_ok c -> ~ padded (c_abi c) -> secure_preprocessor c e s buf size = Some (s', o, Some (buf', n)) ->
  authentic c (slice buf 0 size) /\ n = size - SMSG (c_abi c) /\ slice buf' 0 n = net16 n ++ slice buf 2 (n - 2).
Proof.
  intros c e s buf size s' o buf' n C Np H. destruct (accepted_inv _ _ _ _ _ _ _ _ _ C H) as (M & E & B & _).
  split; [apply mac_authentic; assumption|]. auto.
Qed.
Print Assumptions C89_integrity_partial.
Example C89_integrity_ex :
  let s := ex_state [mkStamp [10; 0; 0; 2] 100 0 true 30000 9000] 1700000103 in
  exists s' x, secure_preprocessor nodeA (ex_env 5000) s (ex_pkt nodeB 1700000001 ex_w) 68 = Some (s', [], Some x).
Proof. eexists _, _. vm_compute. reflexivity. Qed.

(** Who gets a packet accepted that differs from one sent by a node, but has the same length
    and the same code, has found a collision of the hash function. *)
Theorem C89_altered_partial : forall c c' e s buf now q w p s' o buf' n,
  cfg_ok c -> cfg_ok c' -> peers c c' -> ~ padded (c_abi c) -> sends c now q w p ->
  secure_preprocessor c' e s buf (blen p) = Some (s', o, Some (buf', n)) ->
  slice buf 0 (blen p) <> p -> slice buf (blen p - ssz (c_abi c)) (ssz (c_abi c)) = slice p (blen p - ssz (c_abi c)) (ssz (c_abi c)) ->
  exists x y, x <> y /\ c_hash c x = c_hash c y.
Proof.
  intros c c' e s buf now q w p s' o buf' n C C' Pe Np Sd H Ne Et.
  destruct (sends_signed _ _ _ _ _ C Sd) as (seq & (g1 & g2 & g3 & P & Ep) & _). pose proof Pe as (Ea & Eh & Ek).
  set (u := unsigned_part c now seq q w g1 g2 g3) in *.
  assert (Lu : blen p = blen u + ssz (c_abi c)). { rewrite Ep, blen_app. destruct C as (_ & _ & Hh). now rewrite Hh. }
  assert (Ls : 0 <= ssz (c_abi c)) by (destruct C as ((_ & [G|G]) & _); lia). pose proof (blen_nonneg u) as Un.
  assert (Tp : slice p (blen p - ssz (c_abi c)) (ssz (c_abi c)) = c_hash c (u ++ c_key c)).
  { apply slice_is with (pre := u) (post := []); [rewrite app_nil_r; exact Ep|lia|]. destruct C as (_ & _ & Hh). now rewrite Hh. }
  destruct (accepted_inv _ _ _ _ _ _ _ _ _ C' H) as (M & _).
  destruct M as (M1 & M2 & M3). rewrite <- Ea, <- Eh, <- Ek in *. destruct (unpadded (c_abi c) (proj1 C) Np) as (U1 & U2 & U3).
  replace (blen p - SMSG (c_abi c) + sg_off (c_abi c)) with (blen p - ssz (c_abi c)) in M3 by lia.
  exists (slice buf 0 (blen p - ssz (c_abi c)) ++ c_key c), (u ++ c_key c). split; [|congruence].
  intros Eq. apply app_inv_tail in Eq. apply Ne.
  replace (blen p) with (blen p - ssz (c_abi c) + ssz (c_abi c)) at 1 by lia. rewrite slice_split by lia. rewrite Eq. rewrite Z.add_0_l, Et, Tp. now symmetry.
Qed.
Print Assumptions C89_altered_partial.
Example C89_altered_ex :
  let s := ex_state [mkStamp [10; 0; 0; 2] 100 0 true 30000 9000] 1700000103 in
  let p := ex_pkt nodeB 1700000001 ex_w in
  sends nodeB 1700000001 5 ex_w p /\
  exists buf s' x, secure_preprocessor nodeA (ex_env 5000) s buf (blen p) = Some (s', [], Some x) /\ slice buf 0 (blen p) <> p /\
    slice buf 52 16 = slice p 52 16.
Proof.
  cbv zeta. destruct nodes_ok as (CA & CB & _). split; [apply ex_sends; [exact CB|reflexivity|vm_compute; split; [reflexivity|discriminate]]|].
  (* the example hash is weak: adding 1 to a byte and taking 3 from the next one *)
  exists (firstn 18 (ex_pkt nodeB 1700000001 ex_w) ++ [6; 0] ++ skipn 20 (ex_pkt nodeB 1700000001 ex_w)).
  eexists _, _. split; [vm_compute; reflexivity|]. split; [vm_compute; discriminate|vm_compute; reflexivity].
Qed.

(** With SHA1 and a time_t of 8 bytes the code is written behind the place where it is
    looked for: the node that sends and the node that receives use the same build and key,
    the clock is known, and the packet is rejected. *)
Theorem C89_sha_refuted : exists c c' e s now seq ok b b' r p d,
  cfg_ok c /\ peers c c' /\ whole b /\ room (c_abi c) b /\ nb_pend b <> 0 /\ 0 <= nb_seq b < 65536 /\
  ~ handshake_type (waiting b) /\ knows s (c_main c) d /\ d = s_now s - now /\ 0 <= now < 2 ^ 32 /\
  net_output [add_signature c now seq] ok b = Some (b', r, Some p) /\
  secure_preprocessor c' e s p (blen p) = Some (s, [], None).
Proof.
  pose (a := mkABI 8 20 true).
  exists (mkSCfg a (ex_hash 20) (repeat 7 16) [10; 0; 0; 2] [[10; 0; 0; 2]]), (mkSCfg a (ex_hash 20) (repeat 7 16) [10; 0; 0; 1] [[10; 0; 0; 1]]).
  exists (ex_env 5000), (ex_state [mkStamp [10; 0; 0; 2] 100 0 true 30000 9000] 1700000101), 1700000001, 300, true, (ex_nb ex_w).
  destruct (ex_whole ex_w ltac:(vm_compute; discriminate)) as (W & P & S & Q & M & Wt).
  eexists _, _, _, 100.
  split. { split; [cbn; repeat split; auto|]. split; [reflexivity|]. intros x. apply (ex_hash_len 20). }
  split; [repeat split|]. split; [exact W|]. split; [unfold room; rewrite P, S; vm_compute; split; discriminate|]. split; [rewrite P; vm_compute; discriminate|].
  split; [rewrite Q; lia|]. split; [rewrite Wt; exact ex_plain|]. split; [eexists; split; [reflexivity|]; split; reflexivity|]. split; [reflexivity|]. split; [lia|].
  split; [vm_compute; reflexivity|]. vm_compute. reflexivity.
Qed.
Print Assumptions C89_sha_refuted.

(** Nodes with time_t of 4 and of 8 bytes reject each other's packets. *)
Theorem C89_mixed_refuted : exists c c' e s now seq ok b b' r p d,
  cfg_ok c /\ cfg_ok c' /\ c_hash c = c_hash c' /\ c_key c = c_key c' /\ ssz (c_abi c) = ssz (c_abi c') /\ little (c_abi c) = little (c_abi c') /\
  ~ handshake_type (waiting b) /\ knows s (c_main c) d /\ d = s_now s - now /\ 0 <= now < 2 ^ 32 /\
  net_output [add_signature c now seq] ok b = Some (b', r, Some p) /\
  secure_preprocessor c' e s p (blen p) = Some (s, [], None).
Proof.
  exists (mkSCfg (mkABI 4 16 true) (ex_hash 16) (repeat 7 16) [10; 0; 0; 2] [[10; 0; 0; 2]]), nodeA.
  exists (ex_env 5000), (ex_state [mkStamp [10; 0; 0; 2] 100 0 true 30000 9000] 1700000101), 1700000001, 300, true, (ex_nb ex_w).
  destruct (ex_whole ex_w ltac:(vm_compute; discriminate)) as (W & P & S & Q & M & Wt).
  eexists _, _, _, 100.
  split. { split; [cbn; repeat split; auto|]. split; [reflexivity|]. intros x. apply (ex_hash_len 16). }
  split; [apply nodes_ok|]. do 4 (split; [reflexivity|]).
  split; [rewrite Wt; exact ex_plain|]. split; [eexists; split; [reflexivity|]; split; reflexivity|]. split; [reflexivity|]. split; [lia|].
  split; [vm_compute; reflexivity|]. vm_compute. reflexivity.
Qed.
Print Assumptions C89_mixed_refuted.

(** C90.  A packet is accepted only if its time stamp differs by at most three seconds from
    what the known difference of the clocks lets expect; the new difference is the mean of
    the two.  Partial: says nothing about the same packet coming again. *)
Theorem C90_window_partial : forall c e s buf size s' o buf' n t,
  cfg_ok c -> secure_preprocessor c e s buf size = Some (s', o, Some (buf', n)) ->
  rd8 buf 4 = Some t -> t <> 11 -> t <> 12 -> t <> 13 ->
  let a := slice buf (n + 4) 4 in
  let stamp := dec_ts (c_abi c) (slice buf (n + ts_off (c_abi c)) (tsz (c_abi c))) in
  exists d, knows s a d /\ d - 3 <= s_now s - stamp <= d + 3 /\ knows s' a (Z.quot (s_now s - stamp + d) 2) /\ o = [].
Proof.
  intros c e s buf size s' o buf' n t C H R T1 T2 T3 a st. destruct (accepted_inv _ _ _ _ _ _ _ _ _ C H) as (_ & _ & _ & s1 & o1 & o2 & Ea & Eo & Ec).
  rewrite (no_auth c e s buf t R T1 T2 T3) in Ea. apply Some_inj in Ea. inversion Ea; subst s1 o1. fold a st in Ec. cbn [app] in Eo. subst o2.
  unfold check_timestamp in Ec. destruct (lookup_stamp (s_tab s) a) as [P|] eqn:L.
  - destruct (p_valid P) eqn:V; cbn [negb] in Ec; [|discriminate].
    destruct ((p_diff P - (s_now s - st) >? 3) || (p_diff P - (s_now s - st) <? -3)) eqn:W; [discriminate|].
    apply Some_inj in Ec. inversion Ec; subst s' o. exists (p_diff P). split; [exists P; auto|]. split; [lia|]. split; [|reflexivity].
    unfold knows. cbn [s_tab set_tab]. rewrite lookup_upd by reflexivity. rewrite L. cbn [option_map]. eexists. split; [reflexivity|]. split; [exact V|reflexivity].
  - apply obind_inv in Ec. destruct Ec as (x & _ & Ec). discriminate.
Qed.
Print Assumptions C90_window_partial.
Example C90_window_ex :
  let s := ex_state [mkStamp [10; 0; 0; 2] 100 0 true 30000 9000] 1700000104 in
  let p := ex_pkt nodeB 1700000001 ex_w in
  (exists s' x, secure_preprocessor nodeA (ex_env 5000) s p 68 = Some (s', [], Some x) /\ knows s' [10; 0; 0; 2] 101) /\
  secure_preprocessor nodeA (ex_env 5000) (ex_state (s_tab s) 1700000105) p 68 = Some (ex_state (s_tab s) 1700000105, [], None).
Proof. split; [|vm_compute; reflexivity]. eexists _, _. split; [vm_compute; reflexivity|]. eexists. split; [reflexivity|]. split; reflexivity. Qed.

(** Fresh packets only: refuted.  The same packet, received twice after every run of the
    timer, is accepted for ever. *)
Theorem C90_replay_refuted : exists c c' e ms s now q w p,
  cfg_ok c /\ peers c c' /\ ~ padded (c_abi c) /\ sends c now q w p /\ knows s (c_main c) (s_now s - now) /\
  forall n, exists s', replay c' e n ms s p (blen p) = Some s' /\ s_now s' = s_now s + 2 * Z.of_nat n.
Proof.
  destruct nodes_ok as (CA & CB & Pe & Np). exists nodeB, nodeA, (ex_env 0), 5000, (ex_state [mkStamp [10; 0; 0; 2] 100 0 true 35000 9000] 1700000101), 1700000001, 5, ex_w, (ex_pkt nodeB 1700000001 ex_w).
  assert (Sd : sends nodeB 1700000001 5 ex_w (ex_pkt nodeB 1700000001 ex_w)) by (apply ex_sends; [exact CB|reflexivity|vm_compute; split; [reflexivity|discriminate]]).
  split; [exact CB|]. split; [apply peers_sym, Pe|]. split; [exact Np|]. split; [exact Sd|]. split; [eexists; split; [reflexivity|]; split; reflexivity|].
  revert Sd. generalize (ex_pkt nodeB 1700000001 ex_w) as p. intros p Sd n. destruct (sends_signed _ _ _ _ _ CB Sd) as (seq & Sg & Nw & Hq & Hl).
  destruct (replay_forever nodeB nodeA 1700000001 seq 5 ex_w p [] CB (peers_sym _ _ Pe) Np Sg Nw ex_plain Hl Hq
    n (ex_env 0) 5000 (ex_state [mkStamp [10; 0; 0; 2] 100 0 true 35000 9000] 1700000101) (mkStamp [10; 0; 0; 2] 100 0 true 35000 9000)) as (s' & E & N).
  { reflexivity. }
  { reflexivity. }
  { reflexivity. }
  { cbn. lia. }
  { cbn [s_now ex_state p_diff]. unfold u32. rewrite Z.mod_small; lia. }
  rewrite app_nil_r in E. exists s'. auto.
Qed.
Print Assumptions C90_replay_refuted.

(** C91.  A node becomes validated only through a signed answer to the challenge that it was
    sent.  Partial: unless malloc returns memory that says so, in the entry that a
    challenge makes. *)
Theorem C91_validated_partial : forall c e s buf size s' o r a d,
  cfg_ok c -> secure_preprocessor c e s buf size = Some (s', o, r) -> knows s' a d ->
  (exists d0, knows s a d0) \/
  (exists P, lookup_stamp (s_tab s) a = Some P /\ responds c buf a (p_chal P)) \/
  (lookup_stamp (s_tab s) a = None /\ p_valid (e_junk1 e) = true /\ rd8 buf 4 = Some 11 /\ slice buf 8 4 = a).
Proof.
  intros c e s buf size s' o r a d C H (P & L & V & _).
  destruct (validated_inv _ _ _ _ _ _ _ _ _ _ C H L V) as [(P0 & L0 & [V0|Rp])|X]; [|right; left; eauto|right; right; exact X].
  left. exists (p_diff P0), P0. auto.
Qed.
Print Assumptions C91_validated_partial.
(** the challenge of A, the answer of B and its acceptance *)
Definition exA0 := ex_state [] 1700000101.
Definition exB0 := ex_state [] 1700000001.
Definition ex_p0 := ex_pkt nodeB 1700000001 ex_w.
Definition step (c : scfg) (e : senv) (s : sec) (p : list Z) : sec * list (list Z) * bool :=
  match secure_preprocessor c e s p (blen p) with Some (s', o, r) => (s', o, match r with Some _ => true | None => false end) | None => (s, [], false) end.
Definition exA1 := step nodeA (ex_env 5000) exA0 ex_p0.
Definition exB1 := step nodeB (ex_env 6000) exB0 (hd [] (snd (fst exA1))).
Definition exA2 := step nodeA (ex_env 7000) (fst (fst exA1)) (hd [] (snd (fst exB1))).
Definition exB2 := step nodeB (ex_env 8000) (fst (fst exB1)) (hd [] (snd (fst exA2))).
Example C91_validated_ex :
  (forall d, ~ knows (fst (fst exA1)) [10; 0; 0; 2] d) /\ snd exA2 = true /\ knows (fst (fst exA2)) [10; 0; 0; 2] 100 /\
  exists x, secure_preprocessor nodeA (ex_env 7000) (fst (fst exA1)) (hd [] (snd (fst exB1))) (blen (hd [] (snd (fst exB1)))) = Some x.
Proof.
  split.
  { intros d (P & L & V & _). vm_compute in L. apply Some_inj in L. subst P. discriminate V. }
  split; [vm_compute; reflexivity|]. split; [eexists; split; [vm_compute; reflexivity|]; split; reflexivity|]. eexists. vm_compute. reflexivity.
Qed.

(** A packet with neither a right code nor a signed handshake message changes nothing and
    causes no answer.  Partial: except that a challenge makes a new entry. *)
Theorem C91_unsigned_partial : forall c e s buf size s' o r,
  cfg_ok c -> ~ padded (c_abi c) -> secure_preprocessor c e s buf size = Some (s', o, r) ->
  ~ authentic c (slice buf 0 size) -> ~ hs_signed c buf ->
  o = [] /\ r = None /\
  (s' = s \/ s' = added s (e_junk1 e) (slice buf 8 4) /\ lookup_stamp (s_tab s) (slice buf 8 4) = None /\ rd8 buf 4 = Some 11 /\ In (slice buf 16 4) (c_ifs c)).
Proof.
  intros c e s buf size s' o r C Np H Na Nh. apply (unsigned_inv c e s buf size); try assumption. intros M. apply Na. now apply mac_authentic.
Qed.
Print Assumptions C91_unsigned_partial.
(** a challenge in the name of B with a signature of zeros *)
Definition ex_forged : list Z := [0; 40; 0; 1] ++ [11; 0; 0; 36; 10; 0; 0; 2; 1; 0; 0; 9; 10; 0; 0; 1; 1; 2; 3; 4] ++ repeat 0 16.
Lemma ex_forged_bad : ~ authentic nodeA (slice ex_forged 0 40) /\ ~ hs_signed nodeA ex_forged.
Proof.
  split.
  - intros (d & E). assert (L : length d = 24%nat).
    { apply (f_equal (@length Z)) in E. rewrite app_length in E. change (length (c_hash nodeA (d ++ c_key nodeA))) with (length (ex_hash 16 (d ++ c_key nodeA))) in E.
      unfold ex_hash in E. rewrite repeat_length in E. change (length (slice ex_forged 0 40)) with 40%nat in E. lia. }
    assert (D : d = firstn 24 (slice ex_forged 0 40)). { rewrite E. rewrite <- L. rewrite firstn_app, firstn_all, Nat.sub_diag. cbn [firstn]. now rewrite app_nil_r. }
    subst d. vm_compute in E. discriminate.
  - intros (t & n & a & (R & _ & _ & Hs) & X). vm_compute in R. apply Some_inj in R. subst t.
    destruct X as [(_ & ->)|[(X & _)|(X & _)]]; [|discriminate|discriminate]. vm_compute in Hs. discriminate.
Qed.
Example C91_unsigned_ex : exists s', secure_preprocessor nodeA (ex_env 5000) exA0 ex_forged 40 = Some (s', [], None) /\
  ~ authentic nodeA (slice ex_forged 0 40) /\ ~ hs_signed nodeA ex_forged.
Proof. eexists. split; [vm_compute; reflexivity|]. exact ex_forged_bad. Qed.

(** Only nodes with the key change the database: refuted.  A forged challenge makes an entry,
    and from then on all signed packets of the node named in it are dropped without a
    challenge. *)
Theorem C91_forged_refuted : exists c' e s buf size s' c,
  cfg_ok c /\ cfg_ok c' /\ peers c c' /\ ~ padded (c_abi c) /\ idle (c_abi c') (s_nb s) /\ 0 <= nb_seq (s_nb s) < 65536 /\
  ~ authentic c' (slice buf 0 size) /\ ~ hs_signed c' buf /\
  secure_preprocessor c' e s buf size = Some (s', [], None) /\ s' <> s /\
  (forall e2 now q w p rest, sends c now q w p -> ~ handshake_type w ->
     secure_preprocessor c' e2 s' (p ++ rest) (blen p) = Some (s', [], None)) /\
  (forall e2 now q w p rest, sends c now q w p -> ~ handshake_type w ->
     exists s2 p2, secure_preprocessor c' e2 s (p ++ rest) (blen p) = Some (s2, [p2], None)).
Proof.
  destruct nodes_ok as (CA & CB & Pe & Np). destruct (ex_whole [] ltac:(vm_compute; discriminate)) as (W & P & S & Q & M & Wt).
  assert (Cm : calm (c_abi nodeA) (s_nb exA0)).
  { unfold exA0, ex_state, calm, idle. cbn [s_nb]. rewrite P, S, Q, M. split; [|lia]. split; [exact W|]. split; [reflexivity|]. vm_compute. split; discriminate. }
  exists nodeA, (ex_env 5000), exA0, ex_forged, 40. eexists. exists nodeB.
  split; [exact CB|]. split; [exact CA|]. split; [apply peers_sym, Pe|]. split; [exact Np|]. split; [apply Cm|]. split; [apply Cm|].
  split; [apply ex_forged_bad|]. split; [apply ex_forged_bad|].
  split; [vm_compute; reflexivity|]. split; [intros E; apply (f_equal (fun x => length (s_tab x))) in E; vm_compute in E; discriminate|]. split.
  - intros e2 now q w p rest Sd Nh. destruct (sends_signed _ _ _ _ _ CB Sd) as (seq & Sg & Nw & Hq & Hl).
    eapply (locked_out nodeB nodeA); try eassumption; [vm_compute; reflexivity|reflexivity].
  - intros e2 now q w p rest Sd Nh. destruct (sends_signed _ _ _ _ _ CB Sd) as (seq & Sg & Nw & Hq & Hl).
    destruct (challenge_ok nodeB nodeA e2 exA0 now seq q w p rest) as (s2 & p2 & E & _); try assumption; [reflexivity|]. eauto.
Qed.
Print Assumptions C91_forged_refuted.

(** Old handshake messages are harmless: refuted.  A challenge recorded long ago makes a node
    forget the clock of the node that once sent it. *)
Theorem C91_recorded_refuted : exists cA cB e s p old d,
  cfg_ok cA /\ cfg_ok cB /\ peers cA cB /\
  (exists e0 s0 p0 s1, secure_preprocessor cA e0 s0 p0 (blen p0) = Some (s1, [p], None) /\ s_now s0 = old) /\
  old + 1000000 < s_now s - d /\ knows s (c_main cA) d /\
  exists s' o, secure_preprocessor cB e s p (blen p) = Some (s', o, None) /\ forall d', ~ knows s' (c_main cA) d'.
Proof.
  exists nodeA, nodeB, (ex_env 100000), (ex_state [mkStamp [10; 0; 0; 1] (-100) 0 true 120000 9000] 1702000000), (hd [] (snd (fst exA1))), 1700000101, (-100).
  destruct nodes_ok as (CA & CB & Pe & Np). split; [exact CA|]. split; [exact CB|]. split; [exact Pe|].
  split. { exists (ex_env 5000), exA0, ex_p0. eexists. split; [vm_compute; reflexivity|reflexivity]. }
  split; [cbn; lia|]. split; [eexists; split; [reflexivity|]; split; reflexivity|].
  eexists _, _. split; [vm_compute; reflexivity|]. intros d' (P & L & V & _). vm_compute in L. apply Some_inj in L. subst P. discriminate V.
Qed.
Print Assumptions C91_recorded_refuted.

(** C92.  Signing works exactly if the signature fits the output buffer and the local buffer
    of add_signature.  Partial: nothing makes sure that it fits. *)
Theorem C92_exact_partial : forall c now seq ok b,
  cfg_ok c -> whole b -> 0 < nb_pend b -> 4 <= nb_size b -> 0 <= nb_seq b < 65536 ->
  net_output [add_signature c now seq] ok b <> None <-> room (c_abi c) b.
Proof. intros. now apply output_exact. Qed.
Print Assumptions C92_exact_partial.
Example C92_exact_ex : whole (ex_nb ex_w) /\ nb_pend (ex_nb ex_w) = 16 /\ room ex_abi (ex_nb ex_w) /\ ~ room ex_abi (ex_nb (repeat 1 1449)).
Proof.
  destruct (ex_whole ex_w ltac:(vm_compute; discriminate)) as (W & P & S & _).
  destruct (ex_whole (repeat 1 1449) ltac:(vm_compute; discriminate)) as (_ & P2 & S2 & _).
  split; [exact W|]. split; [exact P|]. split; [unfold room; rewrite P, S; vm_compute; split; discriminate|].
  unfold room. rewrite P2, S2. intros (X & _). vm_compute in X. now apply X.
Qed.

(** Signing stays within the output buffer: refuted.  The buffer of an interface with an MTU
    of 1500 takes messages until there is no room for the signature. *)
Theorem C92_buffer_refuted : exists c now seq ops b obs,
  cfg_ok c /\ Forall sane ops /\ nbrun [] (net_add_buffer 1500 (nb_zero 0)) ops = Some (b, obs) /\ nb_pend b <= nb_max b /\
  nbrun [add_signature c now seq] (net_add_buffer 1500 (nb_zero 0)) (ops ++ [OOutput true]) = None.
Proof.
  exists nodeA, 1700000001, 300, [OPush (repeat 1 1228); OPush (repeat 2 268)]. eexists _, _. destruct nodes_ok as (CA & _).
  split; [exact CA|]. split; [repeat constructor|]. split; [vm_compute; reflexivity|]. split; [vm_compute; discriminate|]. vm_compute. reflexivity.
Qed.
Print Assumptions C92_buffer_refuted.
(** Nor within checksum_cache, if the MTU is large. *)
Theorem C92_cache_refuted : exists c now seq ops b obs,
  cfg_ok c /\ Forall sane ops /\ nbrun [] (net_add_buffer 9000 (nb_zero 0)) ops = Some (b, obs) /\
  nb_pend b + 4 + SMSG (c_abi c) <= nb_size b /\
  nbrun [add_signature c now seq] (net_add_buffer 9000 (nb_zero 0)) (ops ++ [OOutput true]) = None.
Proof.
  exists nodeA, 1700000001, 300, [OPush (repeat 1 1228); OPush (repeat 2 1228)]. eexists _, _. destruct nodes_ok as (CA & _).
  split; [exact CA|]. split; [repeat constructor|]. split; [vm_compute; reflexivity|]. split; [vm_compute; discriminate|]. vm_compute. reflexivity.
Qed.
Print Assumptions C92_cache_refuted.

(** C93.  Two nodes with the same key get to know each other's clocks: a packet of B makes A
    send a challenge, B answers, A answers again, and then both know the clock of the other
    one.  Partial: not for SHA1 with a time_t of 8 bytes; no message gets lost; nothing is
    waiting in the output buffers; and B has no entry for A that is in use. *)
Theorem C93_handshake_partial : forall cA cB e1 e2 e3 e4 sA sB q0 w0 p0 t0 t1 t2 t3,
  cfg_ok cA -> cfg_ok cB -> peers cA cB -> ~ padded (c_abi cA) ->
  In (c_main cA) (c_ifs cA) -> In (c_main cB) (c_ifs cB) ->
  0 <= s_now sA < 2 ^ 32 -> 0 <= s_now sB < 2 ^ 32 ->
  sends cB (s_now sB) q0 w0 p0 -> ~ handshake_type w0 ->
  idle (c_abi cA) (s_nb sA) -> 0 <= nb_seq (s_nb sA) < 65536 -> idle (c_abi cB) (s_nb sB) -> 0 <= nb_seq (s_nb sB) < 65536 ->
  lookup_stamp (s_tab sA) (c_main cB) = None ->
  (forall P, lookup_stamp (s_tab sB) (c_main cA) = Some P -> isTimedOut (e_ms e2) (p_conf P) = true) ->
  exists sA1 p1 sB1 p2 sA2 p3 sB2 x3 x4,
    secure_preprocessor cA e1 sA (p0 ++ t0) (blen p0) = Some (sA1, [p1], None) /\
    secure_preprocessor cB e2 sB (p1 ++ t1) (blen p1) = Some (sB1, [p2], None) /\
    secure_preprocessor cA e3 sA1 (p2 ++ t2) (blen p2) = Some (sA2, [p3], Some x3) /\
    secure_preprocessor cB e4 sB1 (p3 ++ t3) (blen p3) = Some (sB2, [], Some x4) /\
    knows sA2 (c_main cB) (s_now sA - s_now sB) /\ knows sB2 (c_main cA) (s_now sB - s_now sA).
Proof.
  intros cA cB e1 e2 e3 e4 sA sB q0 w0 p0 t0 t1 t2 t3 CA CB Pe Np MA MB NA NB Sd Nh IA QA IB QB LA LB.
  destruct (sends_signed _ _ _ _ _ CB Sd) as (seq & Sg & Nw & Hq & Hl).
  destruct (handshake cA cB e1 e2 e3 e4 sA sB seq q0 w0 p0 t0 t1 t2 t3) as (sA1 & p1 & sB1 & p2 & sA2 & p3 & sB2 & x3 & x4 & H); try assumption; try (split; assumption).
  exists sA1, p1, sB1, p2, sA2, p3, sB2, x3, x4.
  replace (s_now sA - s_now sB) with (s_now sA - u32 (s_now sB)) by (unfold u32; rewrite Z.mod_small; lia).
  replace (s_now sB - s_now sA) with (s_now sB - u32 (s_now sA)) by (unfold u32; rewrite Z.mod_small; lia). exact H.
Qed.
Print Assumptions C93_handshake_partial.
Example C93_handshake_ex :
  sends nodeB (s_now exB0) 5 ex_w ex_p0 /\ idle ex_abi (s_nb exA0) /\ idle ex_abi (s_nb exB0) /\
  (snd exA1, snd exB1, snd exA2, snd exB2) = (false, false, true, true) /\
  knows (fst (fst exA2)) [10; 0; 0; 2] 100 /\ knows (fst (fst exB2)) [10; 0; 0; 1] (-100).
Proof.
  destruct nodes_ok as (CA & CB & Pe & Np). destruct (ex_whole [] ltac:(vm_compute; discriminate)) as (W & P & S & Q & M & Wt).
  assert (I : idle ex_abi (ex_nb [])). { unfold idle. rewrite P, S, M. split; [exact W|]. split; [reflexivity|]. vm_compute. split; discriminate. }
  split; [apply ex_sends; [exact CB|reflexivity|vm_compute; split; [reflexivity|discriminate]]|]. split; [exact I|]. split; [exact I|].
  split; [vm_compute; reflexivity|]. split; (eexists; split; [vm_compute; reflexivity|]; split; reflexivity).
Qed.

(** With messages waiting in the output buffers the handshake fails: the challenge is not the
    first message of its packet and is not seen, the other node sends a challenge of its
    own, that one is dropped, and both packets after that are dropped silently. *)
Theorem C93_waiting_refuted : exists cA cB e sA sB q0 w0 p0 sA1 p1 sB1 p2 sA2,
  cfg_ok cA /\ cfg_ok cB /\ peers cA cB /\ ~ padded (c_abi cA) /\ In (c_main cA) (c_ifs cA) /\ In (c_main cB) (c_ifs cB) /\
  sends cB (s_now sB) q0 w0 p0 /\ ~ handshake_type w0 /\
  whole (s_nb sA) /\ CRMSG (c_abi cA) + nb_pend (s_nb sA) <= nb_max (s_nb sA) /\ room (c_abi cA) (s_nb sA) /\
  idle (c_abi cB) (s_nb sB) /\ s_tab sA = [] /\ s_tab sB = [] /\
  secure_preprocessor cA e sA p0 (blen p0) = Some (sA1, [p1], None) /\
  secure_preprocessor cB e sB p1 (blen p1) = Some (sB1, [p2], None) /\
  secure_preprocessor cA e sA1 p2 (blen p2) = Some (sA2, [], None) /\
  (forall d, ~ knows sA2 (c_main cB) d) /\ (forall d, ~ knows sB1 (c_main cA) d) /\
  (forall e' now q w p rest, sends cB now q w p -> ~ handshake_type w -> secure_preprocessor cA e' sA2 (p ++ rest) (blen p) = Some (sA2, [], None)) /\
  (forall e' now q w p rest, sends cA now q w p -> ~ handshake_type w -> secure_preprocessor cB e' sB1 (p ++ rest) (blen p) = Some (sB1, [], None)).
Proof.
  destruct nodes_ok as (CA & CB & Pe & Np). destruct (ex_whole [] ltac:(vm_compute; discriminate)) as (W & P & S & Q & M & Wt).
  destruct (ex_whole ex_w ltac:(vm_compute; discriminate)) as (W2 & P2 & S2 & Q2 & M2 & Wt2).
  exists nodeA, nodeB, (ex_env 5000), (mkSec [] (ex_nb ex_w) 40 1700000101), exB0, 5, ex_w, ex_p0. eexists _, _, _, _, _.
  split; [exact CA|]. split; [exact CB|]. split; [exact Pe|]. split; [exact Np|]. split; [cbn; auto|]. split; [cbn; auto|].
  split; [apply ex_sends; [exact CB|reflexivity|vm_compute; split; [reflexivity|discriminate]]|]. split; [exact ex_plain|].
  split; [exact W2|]. split; [cbn [s_nb]; rewrite P2, M2; vm_compute; discriminate|]. split; [unfold room; cbn [s_nb]; rewrite P2, S2; vm_compute; split; discriminate|].
  split. { unfold idle, exB0, ex_state. cbn [s_nb]. rewrite P, S, M. split; [exact W|]. split; [reflexivity|]. vm_compute. split; discriminate. }
  split; [reflexivity|]. split; [reflexivity|].
  split; [vm_compute; reflexivity|]. split; [vm_compute; reflexivity|]. split; [vm_compute; reflexivity|].
  split; [intros d (X & L & V & _); vm_compute in L; apply Some_inj in L; subst X; discriminate V|].
  split; [intros d (X & L & V & _); vm_compute in L; apply Some_inj in L; subst X; discriminate V|]. split.
  - intros e' now q w p rest Sd Nh. destruct (sends_signed _ _ _ _ _ CB Sd) as (seq & Sg & Nw & Hq & Hl).
    eapply (locked_out nodeB nodeA); try eassumption; [vm_compute; reflexivity|reflexivity].
  - intros e' now q w p rest Sd Nh. destruct (sends_signed _ _ _ _ _ CA Sd) as (seq & Sg & Nw & Hq & Hl).
    eapply (locked_out nodeA nodeB); try eassumption; [vm_compute; reflexivity|reflexivity].
Qed.
Print Assumptions C93_waiting_refuted.

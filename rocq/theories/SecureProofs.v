(** Proofs about the secure plugin: signing, checking. *)
From Verif Require Import Base Bytes NetBuf NetBufSpec NetBufProofs Parser ParserProofs SchedTime BuildMsgSpec Secure SecureSpec.

Lemma wr_is b a x t i d : b = a ++ x ++ t -> i = blen a -> blen x = blen d -> wr b i d = Some (a ++ d ++ t).
Proof. intros -> Hi Hl. now apply wr_at. Qed.
Lemma rdn_is b pre mid post i n : b = pre ++ mid ++ post -> i = blen pre -> n = blen mid -> rdn b i n = Some mid.
Proof. intros -> Hi Hn. now apply rdn_at. Qed.
Lemma slice_is b pre mid post i n : b = pre ++ mid ++ post -> i = blen pre -> n = blen mid -> slice b i n = mid.
Proof.
  intros E Hi Hn. pose proof (rdn_is b pre mid post i n E Hi Hn) as R. apply rdn_inv in R. symmetry. apply R.
Qed.
Ltac asc := rewrite <- ?app_assoc; reflexivity.
Ltac bl := rewrite ?blen_app in *; change (blen []) with 0 in *;
  repeat match goal with |- context [blen (?x :: ?l)] => change (blen (x :: l)) with (Z.of_nat (S (length l))); cbn [length] end; lia.

Lemma blen_net16 n : blen (net16 n) = 2. Proof. reflexivity. Qed.
Lemma blen_net32 n : blen (net32 n) = 4. Proof. reflexivity. Qed.
Lemma be_net32 n : be (net32 n) = u32 n.
Proof. unfold net32, be. cbn [fold_left]. set (x := u32 n). assert (0 <= x < 4294967296) by (unfold x, u32; apply Z.mod_pos_bound; lia). clearbody x. lia. Qed.
Lemma bytes_refl x : bytes_eqb x x = true. Proof. now apply bytes_eqb_spec. Qed.

(** layouts *)
Inductive layout (a : abi) : Prop :=
| L32 : tsz a = 4 -> sig_off a = 12 -> ts_off a = 16 -> sg_off a = 20 -> SMSG a = 20 + ssz a -> cts_off a = 20 ->
        CRMSG a = 24 + 2 * ssz a -> RRMSG a = 20 + 2 * ssz a -> layout a
| L64 : tsz a = 8 -> sig_off a = 16 -> ts_off a = 24 -> sg_off a = 32 ->
        SMSG a = (if ssz a =? 20 then 36 else 32) + ssz a -> cts_off a = 24 ->
        CRMSG a = 32 + 2 * ssz a -> RRMSG a = 24 + 2 * ssz a -> layout a.
Lemma layouts a : abi_ok a -> layout a.
Proof.
  destruct a as [t g l]. intros [[T|T] [G|G]]; cbn in T, G; subst; [apply L32|apply L32|apply L64|apply L64]; vm_compute; reflexivity.
Qed.
Lemma blen_enc_ts a t : abi_ok a -> blen (enc_ts a t) = tsz a.
Proof.
  intros [[T|T] _]; unfold enc_ts; rewrite T; cbn [Z.eqb Pos.eqb].
  - reflexivity.
  - destruct (little a); reflexivity.
Qed.
Lemma dec_enc_ts a t : abi_ok a -> dec_ts a (enc_ts a t) = u32 t.
Proof.
  intros [[T|T] _]; unfold dec_ts, enc_ts; rewrite T; cbn [Z.eqb Pos.eqb orb].
  - rewrite firstn_all2 by (cbn; lia). apply be_net32.
  - destruct (little a).
    + rewrite firstn_app. change (4 - length (net32 t))%nat with O. rewrite firstn_all2 by (cbn; lia). cbn [firstn]. rewrite app_nil_r. apply be_net32.
    + cbn [skipn app]. apply be_net32.
Qed.

(** the signature message without the signature; [g1] [g2] [g3] are padding *)
Definition sig_head (c : scfg) (seq : Z) : list Z := [10; 0] ++ net16 (SMSG (c_abi c)) ++ c_main c ++ [1; 0] ++ net16 seq.
Definition sig_msg (c : scfg) (now seq : Z) (g1 g2 g3 : list Z) : list Z :=
  sig_head c seq ++ g1 ++ [1; scheme (c_abi c); 0; 0] ++ g2 ++ enc_ts (c_abi c) now ++ g3.
Definition pads (a : abi) (g1 g2 g3 : list Z) : Prop :=
  blen g1 = sig_off a - 12 /\ blen g2 = ts_off a - sig_off a - 4 /\ blen g3 = SMSG a - ssz a - sg_off a.
Definition hdr4 (a : abi) (w : list Z) (q : Z) : list Z := net16 (4 + blen w + SMSG a) ++ net16 q.
Definition unsigned_part (c : scfg) (now seq q : Z) (w g1 g2 g3 : list Z) : list Z :=
  hdr4 (c_abi c) w q ++ w ++ sig_msg c now seq g1 g2 g3.
Definition signed (c : scfg) (now seq q : Z) (w p : list Z) : Prop :=
  exists g1 g2 g3, pads (c_abi c) g1 g2 g3 /\
    p = unsigned_part c now seq q w g1 g2 g3 ++ c_hash c (unsigned_part c now seq q w g1 g2 g3 ++ c_key c).

Lemma pads_len c now seq g1 g2 g3 : cfg_ok c -> pads (c_abi c) g1 g2 g3 -> blen (sig_msg c now seq g1 g2 g3) = SMSG (c_abi c) - ssz (c_abi c).
Proof.
  intros (A & M & _) (P1 & P2 & P3). unfold sig_msg, sig_head. rewrite !blen_app, !blen_net16, blen_enc_ts by assumption.
  change (blen [10; 0]) with 2. change (blen [1; 0]) with 2. change (blen [1; scheme (c_abi c); 0; 0]) with 4.
  destruct (layouts _ A); destruct (ssz (c_abi c) =? 20); lia.
Qed.
Lemma unsigned_len c now seq q w g1 g2 g3 : cfg_ok c -> pads (c_abi c) g1 g2 g3 ->
  blen (unsigned_part c now seq q w g1 g2 g3) = 4 + blen w + SMSG (c_abi c) - ssz (c_abi c).
Proof.
  intros C P. unfold unsigned_part, hdr4. rewrite !blen_app, (pads_len _ _ _ _ _ _ C P), !blen_net16. lia.
Qed.
Lemma signed_len c now seq q w p : cfg_ok c -> signed c now seq q w p -> blen p = 4 + blen w + SMSG (c_abi c).
Proof.
  intros C (g1 & g2 & g3 & P & ->). rewrite blen_app, (unsigned_len _ _ _ _ _ _ _ _ C P). destruct C as (A & M & Hh). rewrite Hh. lia.
Qed.

Lemma split_exact (t : list Z) n : 0 <= n <= blen t -> exists t1 t2, t = t1 ++ t2 /\ blen t1 = n /\ blen t2 = blen t - n.
Proof. intros Hn. destruct (split_at t n Hn) as (t1 & t2 & -> & L). exists t1, t2. rewrite blen_app. repeat split; lia. Qed.

(** add_signature on a buffer that has room *)
Lemma add_signature_ok c now seq q w h rest :
  cfg_ok c -> blen h = 4 -> h = firstn 2 h ++ net16 q -> SMSG (c_abi c) <= blen rest ->
  blen w + 4 + SMSG (c_abi c) - ssz (c_abi c) <= 1512 ->
  exists p rest', add_signature c now seq (h ++ w ++ rest) (4 + blen w) = Some (p ++ rest', 4 + blen w + SMSG (c_abi c)) /\
    signed c now seq q w p /\ blen rest' = blen rest - SMSG (c_abi c).
Proof.
  intros C Hh Hq Hr Hc. pose proof C as (A & M & Hsh). set (a := c_abi c) in *.
  pose proof (layouts a A) as L.
  assert (S12 : sig_off a >= 12 /\ ts_off a - sig_off a - 4 >= 0 /\ SMSG a - ssz a - sg_off a >= 0 /\ sg_off a = ts_off a + tsz a /\ ssz a >= 0 /\ tsz a >= 0).
  { destruct A as [[T|T] [G|G]], L; destruct (ssz a =? 20) eqn:E20; lia. }
  destruct S12 as (S1 & S2 & S3 & S4 & S5 & S6). clear L.
  pose proof (blen_nonneg w) as Wn.
  destruct (split_exact rest 12) as (r12 & t1 & E1 & L1 & L1'); [lia|].
  destruct (split_exact t1 (sig_off a - 12)) as (g1 & t2 & E2 & L2 & L2'); [lia|].
  destruct (split_exact t2 4) as (r4 & t3 & E3 & L3 & L3'); [lia|].
  destruct (split_exact t3 (ts_off a - sig_off a - 4)) as (g2 & t4 & E4 & L4 & L4'); [lia|].
  destruct (split_exact t4 (tsz a)) as (rt & t5 & E5 & L5 & L5'); [lia|].
  destruct (split_exact t5 (SMSG a - ssz a - sg_off a)) as (g3 & t6 & E6 & L6 & L6'); [lia|].
  destruct (split_exact t6 (ssz a)) as (rs & tl & E7 & L7 & L7'); [lia|].
  subst t6 t5 t4 t3 t2 t1 rest. rewrite !blen_app in *.
  set (h2 := firstn 2 h) in *. assert (Lh2 : blen h2 = 2). { rewrite Hq in Hh. rewrite blen_app, blen_net16 in Hh. lia. }
  rewrite Hq. clearbody h2. clear Hq.
  set (sub := [1; scheme a; 0; 0]). set (ets := enc_ts a now). assert (Lts : blen ets = tsz a) by (apply blen_enc_ts; assumption).
  set (hd := hdr4 a w q). set (sh := sig_head c seq). assert (Lsh : blen sh = 12).
  { unfold sh, sig_head. rewrite !blen_app, !blen_net16, M. reflexivity. }
  exists (unsigned_part c now seq q w g1 g2 g3 ++ c_hash c (unsigned_part c now seq q w g1 g2 g3 ++ c_key c)), tl.
  split.
  - unfold add_signature. cbv zeta. fold a ets sub.
    rewrite (wr_is _ [] h2 (net16 q ++ w ++ r12 ++ g1 ++ r4 ++ g2 ++ rt ++ g3 ++ rs ++ tl)) by (try asc; rewrite ?blen_net16; lia || reflexivity).
    cbn [obind]. change ([] ++ net16 (4 + blen w + SMSG a) ++ net16 q ++ w ++ r12 ++ g1 ++ r4 ++ g2 ++ rt ++ g3 ++ rs ++ tl)
      with (net16 (4 + blen w + SMSG a) ++ net16 q ++ w ++ r12 ++ g1 ++ r4 ++ g2 ++ rt ++ g3 ++ rs ++ tl).
    change ([10; 0] ++ net16 (SMSG a) ++ c_main c ++ [1; 0] ++ net16 seq) with sh.
    rewrite (wr_is _ (hd ++ w) r12 (g1 ++ r4 ++ g2 ++ rt ++ g3 ++ rs ++ tl)).
    2:{ unfold hd, hdr4. asc. }
    2:{ rewrite blen_app. unfold hd, hdr4. rewrite blen_app, !blen_net16. lia. }
    2:{ lia. }
    cbn [obind]. fold sub.
    rewrite (wr_is _ (hd ++ w ++ sh ++ g1) r4 (g2 ++ rt ++ g3 ++ rs ++ tl)).
    2:{ asc. }
    2:{ rewrite !blen_app. unfold hd, hdr4. rewrite blen_app, !blen_net16. lia. }
    2:{ change (blen sub) with 4. lia. }
    cbn [obind].
    rewrite (wr_is _ (hd ++ w ++ sh ++ g1 ++ sub ++ g2) rt (g3 ++ rs ++ tl)).
    2:{ asc. }
    2:{ rewrite !blen_app. unfold hd, hdr4. rewrite blen_app, !blen_net16. change (blen sub) with 4. lia. }
    2:{ lia. }
    cbn [obind]. fold ets.
    assert (Eu : unsigned_part c now seq q w g1 g2 g3 = hd ++ w ++ sh ++ g1 ++ sub ++ g2 ++ ets ++ g3) by (unfold unsigned_part, sig_msg; asc).
    assert (Lu : blen (unsigned_part c now seq q w g1 g2 g3) = 4 + blen w + SMSG a - ssz a).
    { apply unsigned_len; [assumption|]. unfold pads. fold a. lia. }
    unfold packet_hash. replace (4 + blen w + SMSG a - ssz a <=? 1512) with true by lia.
    rewrite (rdn_is _ [] (unsigned_part c now seq q w g1 g2 g3) (rs ++ tl)); [|rewrite Eu; cbn [app]; asc|reflexivity|lia].
    cbn [obind].
    rewrite (wr_is _ (unsigned_part c now seq q w g1 g2 g3) rs tl); [|rewrite Eu; asc|lia|rewrite Hsh; exact L7].
    cbn [obind]. rewrite <- !app_assoc. reflexivity.
  - split; [|lia]. exists g1, g2, g3. split; [unfold pads; fold a; lia|reflexivity].
Qed.

Definition waiting_is (b : nb) (w : list Z) : Prop := waiting b = w /\ nb_pend b = blen w.
(** net_output with the plugin *)
Lemma output_signed c now seq ok b w :
  cfg_ok c -> whole b -> room (c_abi c) b -> waiting b = w -> nb_pend b <> 0 -> 0 <= nb_seq b < 65536 ->
  exists b' r p, net_output [add_signature c now seq] ok b = Some (b', r, Some p) /\ signed c now seq (nb_seq b) w p /\
    whole b' /\ nb_size b' = nb_size b /\ nb_max b' = nb_max b /\ nb_pend b' = 0 /\ 0 <= nb_seq b' < 65536.
Proof.
  intros C ((m & Em & Lm) & Pn) (R1 & R2) Hw Np Hq. unfold waiting in Hw. rewrite Em in Hw.
  assert (Sa : 0 <= SMSG (c_abi c)). { destruct C as (A & _). pose proof (layouts _ A) as L. destruct A as [_ [G|G]], L; destruct (ssz (c_abi c) =? 20); lia. }
  destruct (split_exact m 4) as (h & t & -> & Lh & Lt); [lia|].
  rewrite blen_app in *. destruct (split_exact t (nb_pend b)) as (w' & rest & -> & Lw & Lr); [lia|].
  assert (w = w') as ->. { rewrite <- Hw. apply slice_is with (pre := h) (post := rest); [reflexivity|lia|lia]. }
  clear Hw. rewrite blen_app in *.
  destruct (split_exact h 2) as (h1 & h2 & -> & L1 & L2); [lia|].
  assert (L2' : blen h2 = 2) by lia.
  unfold net_output. replace (nb_pend b =? 0) with false by lia. rewrite Em. unfold HDR.
  rewrite (wr_is _ h1 h2 (w' ++ rest)); [|asc|lia|rewrite blen_net16; lia].
  rewrite (wr_is _ [] h1 (net16 (nb_seq b) ++ w' ++ rest)); [|asc|reflexivity|rewrite blen_net16; lia].
  cbn [app].
  destruct (add_signature_ok c now seq (nb_seq b) w' (net16 (nb_pend b + 4) ++ net16 (nb_seq b)) rest) as (p & rest' & E & Sg & Lr'); try assumption; try lia.
  { reflexivity. }
  { reflexivity. }
  cbn [run_ptfs].
  assert (Eb : net16 (nb_pend b + 4) ++ net16 (nb_seq b) ++ w' ++ rest = (net16 (nb_pend b + 4) ++ net16 (nb_seq b)) ++ w' ++ rest) by asc.
  change (u16 (nb_pend b + 4) / 256 :: u16 (nb_pend b + 4) mod 256 :: u16 (nb_seq b) / 256 :: u16 (nb_seq b) mod 256 :: w' ++ rest) with (net16 (nb_pend b + 4) ++ net16 (nb_seq b) ++ w' ++ rest).
  rewrite Eb. assert (Ep4 : nb_pend b + 4 = 4 + blen w') by lia. rewrite Ep4 in *. rewrite E.
  pose proof (signed_len _ _ _ _ _ _ C Sg) as Lp.
  rewrite (rdn_is _ [] p rest'); [|reflexivity|reflexivity|lia].
  eexists _, _, p. split; [reflexivity|]. split; [exact Sg|]. cbn. split; [|repeat split; try (apply Z.mod_pos_bound; lia)].
  split; [|cbn; lia]. exists (p ++ rest'). split; [reflexivity|]. cbn [nb_size]. rewrite blen_app. lia.
Qed.

(** checking a signed packet *)
Lemma validate_signed c c' e s now seq q w p rest :
  cfg_ok c -> peers c c' -> ~ padded (c_abi c) -> signed c now seq q w p -> 4 + blen w + SMSG (c_abi c) - ssz (c_abi c) <= 1512 ->
  validate_packet c' e s (p ++ rest) (blen p) =
  obind (check_timestamp c' e s (c_main c) (u32 now)) (fun r => let '(s1, o, ok) := r in Some (s1, o, if ok then Some (4 + blen w) else None)).
Proof.
  intros C (Ea & Eh & Ek) Np Sg Hl. pose proof (signed_len _ _ _ _ _ _ C Sg) as Lp.
  pose proof C as (A & M & Hsh). destruct Sg as (g1 & g2 & g3 & P & Ep).
  assert (G3 : g3 = []). { destruct P as (_ & _ & P3). unfold padded in Np. destruct g3; [reflexivity|]. exfalso.
    change (blen (z :: g3)) with (Z.of_nat (S (length g3))) in P3. pose proof (layouts _ A) as L.
    destruct A as [_ [G|G]], L; destruct (ssz (c_abi c) =? 20) eqn:E20; lia. }
  subst g3. destruct P as (P1 & P2 & _). set (a := c_abi c) in *.
  pose proof (unsigned_len c now seq q w g1 g2 [] C) as Lu. unfold pads in Lu. fold a in Lu.
  assert (Sz : SMSG a = sg_off a + ssz a /\ sg_off a = ts_off a + tsz a /\ 0 <= tsz a /\ 0 <= ssz a).
  { pose proof (layouts a A) as L. unfold padded in Np. destruct A as [[T|T] [G|G]], L; destruct (ssz a =? 20) eqn:E20; lia. }
  destruct Sz as (Z1 & Z2 & Z3 & Z4).
  assert (P3 : blen [] = SMSG a - ssz a - sg_off a) by (change (blen []) with 0; lia).
  specialize (Lu (conj P1 (conj P2 P3))).
  set (u := unsigned_part c now seq q w g1 g2 []) in *. set (hs := c_hash c (u ++ c_key c)) in *.
  assert (Lhs : blen hs = ssz a) by apply Hsh.
  assert (Eu : u = hdr4 a w q ++ w ++ sig_head c seq ++ g1 ++ [1] ++ [scheme a; 0; 0] ++ g2 ++ enc_ts a now).
  { unfold u, unsigned_part, sig_msg. rewrite app_nil_r. fold a. asc. }
  assert (Lsh : blen (sig_head c seq) = 12). { unfold sig_head. rewrite !blen_app, !blen_net16, M. reflexivity. }
  assert (Lhd : blen (hdr4 a w q) = 4) by (unfold hdr4; rewrite blen_app, !blen_net16; reflexivity).
  assert (Lts : blen (enc_ts a now) = tsz a) by (apply blen_enc_ts; assumption).
  pose proof (blen_nonneg w) as Wn.
  unfold validate_packet. rewrite <- Ea. fold a. cbv zeta. rewrite Lp.
  replace (4 + blen w + SMSG a - SMSG a) with (4 + blen w) by lia. replace (4 + blen w <? 4) with false by lia.
  rewrite (rdn_is _ (hdr4 a w q ++ w) (sig_head c seq) (g1 ++ [1] ++ [scheme a; 0; 0] ++ g2 ++ enc_ts a now ++ hs ++ rest)).
  2:{ rewrite Ep, Eu. asc. }
  2:{ rewrite blen_app. lia. }
  2:{ lia. }
  cbn [obind].
  assert (F : be (slice (sig_head c seq) 0 1) = 10 /\ be (slice (sig_head c seq) 1 1) = 0 /\ slice (sig_head c seq) 2 2 = net16 (SMSG a) /\
              be (slice (sig_head c seq) 8 1) = 1 /\ be (slice (sig_head c seq) 9 1) = 0 /\ slice (sig_head c seq) 4 4 = c_main c).
  { unfold sig_head. fold a. destruct (c_main c) as [|m0 [|m1 [|m2 [|m3 [|m4 ml]]]]]; try (exfalso; revert M; unfold blen; cbn [length]; lia).
    repeat split; reflexivity. }
  destruct F as (F1 & F2 & F3 & F4 & F5 & F6). rewrite F1, F2, F3, F4, F5, F6, bytes_refl. cbn [negb andb Z.eqb Pos.eqb].
  unfold rd8. rewrite (rdn_is _ (hdr4 a w q ++ w ++ sig_head c seq ++ g1) [1] ([scheme a; 0; 0] ++ g2 ++ enc_ts a now ++ hs ++ rest)).
  2:{ rewrite Ep, Eu. asc. }
  2:{ rewrite !blen_app. lia. }
  2:{ reflexivity. }
  cbn [option_map obind]. change (be [1]) with 1. cbn [negb Z.eqb Pos.eqb].
  unfold packet_hash. replace (4 + blen w + SMSG a - ssz a <=? 1512) with true by lia.
  rewrite (rdn_is _ [] u (hs ++ rest)); [|rewrite Ep; cbn [app]; asc|reflexivity|lia].
  cbn [obind]. rewrite <- Eh, <- Ek. fold hs.
  rewrite (rdn_is _ u hs rest); [|rewrite Ep; asc|lia|lia].
  cbn [obind]. rewrite bytes_refl. cbn [negb].
  rewrite (rdn_is _ (hdr4 a w q ++ w ++ sig_head c seq ++ g1 ++ [1] ++ [scheme a; 0; 0] ++ g2) (enc_ts a now) (hs ++ rest)).
  2:{ rewrite Ep, Eu. asc. }
  2:{ rewrite !blen_app. change (blen [1]) with 1. change (blen [scheme a; 0; 0]) with 3. lia. }
  2:{ lia. }
  cbn [obind]. rewrite dec_enc_ts by assumption. reflexivity.
Qed.

(** Properties of the contents of outgoing messages. *)
From Coq Require Import Permutation.
From Verif Require Import Base Bytes SchedTime Compare Parser Tc TcSpec TcBase TcFrag PropTc Hello HelloSpec NetBuf NetBufSpec BuildMsg BuildMsgSpec BuildMsgProofs BuildMsgOrderProofs LinkSetProofs
  CreateMsg CreateMsgSpec CreateMsgProofs CreateMsgRunProofs PropBuildMsg.

(** C86: a node's topology messages tell every receiver exactly the neighbors that are to be
    advertised, with the quality of the links, however the list is cut into messages and
    however often they were forwarded.  Partial: the messages arrive in order and without loss,
    the first of them is accepted (C18), and what was known before is older. *)
Theorem C86_partial : forall e red fish vt orig ansn now wait l g s, te_lq e > 0 -> is_addr e orig -> 0 <= ansn < 65536 -> table_ok e l -> ready (16 + 2 * ips e) s -> 0 <= g_ttl g <= 8 ->
  (exists n, In n l /\ advertise red n) ->
  exists s' g' ps, output_lq_tc e red fish vt orig ansn now wait l g s = Some (s', Some g') /\ delivers s s' (map enc_tc ps) /\ ps <> [] /\
  forall d ttl hops, let ms := map (fun m => enc_tc (at_hop ttl hops m)) ps in
    reachable e d -> (forall a old q, stored d orig a = Some (old, q) -> newer ansn old = true) ->
    (forall m r, hd_error ms = Some m -> input_tc e true d m = Some r -> r_ret r = true) ->
    exists d', receive e d ms = Some (d', repeat true (length ms)) /\
    (forall n, In n l -> advertise red n -> o_addr n <> repeat 255 (Z.to_nat (ips e)) -> stored d' orig (o_addr n) = Some (ansn, quality n)) /\
    (forall a, is_addr e a -> a <> repeat 255 (Z.to_nat (ips e)) -> (forall n, In n l -> advertise red n -> o_addr n <> a) -> stored d' orig a = None).
Proof.
  intros e red fish vt orig ansn now wait l g s Hlq Ho Ha T Rd Hi Some_n.
  destruct (round_ok e red fish vt orig ansn now wait l g s (proj1 Ho) Ha T Rd Hi) as (s' & g' & E & _ & _ & _ & _ & S). pose proof (something_cons e red l Some_n) as Ne.
  assert (Sn : sends e red now l g = true) by (unfold sends; destruct (create_lq_tc e red l); [congruence|reflexivity]). rewrite Sn in S. destruct S as (frags & D & Cc & Nf & NE & _). specialize (NE Ne).
  exists s', g', (tc_pieces e fish vt orig ansn g (s_seq s) frags). split; [exact E|]. split; [exact D|]. destruct frags as [|f frags]; [congruence|]. split; [discriminate|].
  intros d ttl hops ms Rch Old Acc. destruct (create_bare e red l T) as (_ & As & Wf & In1 & In2).
  set (ps := tc_pieces e fish vt orig ansn g (s_seq s) (f :: frags)) in *. assert (Ems : ms = map enc_tc (map (at_hop ttl hops) ps)) by (unfold ms; now rewrite map_map).
  unfold ps, tc_pieces in Ems. rewrite pieces_at in Ems.
  set (ps' := pieces (calculate_border_flag (ips e)) vt orig ttl hops (s_seq s) ansn 255 (f :: frags)) in *.
  destruct D as (ev & _ & _ & _ & _ & _ & _ & U & Fit).
  assert (Wps : Forall (wf_tmsg e) ps').
  { assert (Mx : nb_max (s_nb s') < 65536) by (destruct (usable_bounds _ U); lia).
    apply (pieces_wf e _ vt orig ttl hops ansn (nb_max (s_nb s'))); auto; [rewrite Cc; exact Wf|apply Rd|]. fold ps'. unfold ps', ps, tc_pieces in *.
    rewrite <- (pieces_at _ vt orig (if fish then nth (Z.to_nat (g_ttl g mod 8)) fisheye 0 else 255) 0). rewrite map_map. apply Forall_forall. intros m Hm. apply in_map_iff in Hm. destruct Hm as (m0 & <- & Hm).
    rewrite Forall_forall in Fit. specialize (Fit (enc_tc m0) (in_map enc_tc _ _ Hm)). replace (blen (enc_tc (at_hop ttl hops m0))) with (blen (enc_tc m0)); [exact Fit|].
    unfold enc_tc, at_hop. cbv zeta. cbn [m_vt m_orig m_ttl m_hops m_seq m_ansn m_lower m_upper m_ents]. rewrite !blen_app. unfold blen. cbn [length]. lia. }
  destruct (C17_pieces_partial e d vt orig ttl hops (s_seq s) ansn f frags Hlq Rch NE) as (d' & R & St).
  { rewrite Cc. exact As. } { exact Wps. } { exact Old. }
  { intros m r Hm. rewrite Ems in Acc. apply Acc. unfold ps' in *. cbn [pieces hd_error map] in *. apply Some_inj in Hm. now rewrite Hm. }
  exists d'. split; [rewrite Ems, map_length; exact R|]. rewrite Cc in St. split.
  - intros n Hn Ad N255. rewrite St; [|destruct T as (_ & F); rewrite Forall_forall in F; apply (F n Hn)|exact N255]. erewrite says_in; [|exact As|apply In1; [exact Hn|exact Ad]]. reflexivity.
  - intros a Aa N255 Nn. rewrite St by auto. rewrite says_notin; [reflexivity|]. intros x Hx. destruct (In2 x Hx) as (n & Hn & Ad & ->). cbn [fst]. now apply Nn.
Qed.
Print Assumptions C86_partial.
Definition ex_nbs : list onb := [mkOnb [10; 0; 0; 7] true false true (Some ([255; 128], 2000)); mkOnb [10; 0; 0; 2] true true false (Some ([200; 100], 3000));
  mkOnb [10; 0; 0; 3] true false false (Some ([200; 0], 5000000)); mkOnb [10; 0; 0; 4] false false false None; mkOnb [10; 0; 0; 5] true false true (Some ([77; 78], 4000))].
Lemma ex_nbs_ok : table_ok ex_e ex_nbs.
Proof.
  split.
  - cbn [map ex_nbs o_addr]. repeat constructor; cbn [In]; intuition discriminate.
  - repeat (apply Forall_cons; [split; [split; [reflexivity|cbn; repeat constructor; lia]|split; [cbn; intuition discriminate|reflexivity]]|]). constructor.
Qed.
Example C86_ex : table_ok ex_e ex_nbs /\ ready 24 (ex_state 40) /\ advertise 1 (hd (mkOnb [] true true true None) ex_nbs) /\
  create_lq_tc ex_e 1 ex_nbs = [([10; 0; 0; 2], [200; 100; 0; 0]); ([10; 0; 0; 5], [77; 78; 0; 0]); ([10; 0; 0; 7], [255; 128; 0; 0])] /\
  match receive ex_e db0 [enc_tc (mkTm 134 [10; 0; 0; 1] 2 0 65535 300 255 2 [([10; 0; 0; 2], [200; 100]); ([10; 0; 0; 5], [77; 78])]); enc_tc (mkTm 134 [10; 0; 0; 1] 2 0 0 300 2 255 [([10; 0; 0; 7], [255; 128])])] with
  | Some (d, v) => v = [true; true] /\ stored d [10; 0; 0; 1] [10; 0; 0; 5] = Some (300, [77; 78]) /\ stored d [10; 0; 0; 1] [10; 0; 0; 3] = None
  | None => False
  end /\
  run (output_lq_tc ex_e 1 true 134 [10; 0; 0; 1] 300 1000 45000 ex_nbs (mkTg true 0 0)) (ex_state 40) =
    Some ([EPush (enc_tc (mkTm 134 [10; 0; 0; 1] 2 0 65535 300 255 2 [([10; 0; 0; 2], [200; 100]); ([10; 0; 0; 5], [77; 78])])) 32;
           EOut (Some ([0; 36; 0; 7] ++ enc_tc (mkTm 134 [10; 0; 0; 1] 2 0 65535 300 255 2 [([10; 0; 0; 2], [200; 100]); ([10; 0; 0; 5], [77; 78])])));
           EPush (enc_tc (mkTm 134 [10; 0; 0; 1] 2 0 0 300 2 255 [([10; 0; 0; 7], [255; 128])])) 24], Some (mkTg false 0 1), 1).
Proof.
  split; [exact ex_nbs_ok|]. split; [apply ready_state; lia|]. split; [cbn; split; [reflexivity|]; split; [auto|]; split; [auto|]; exists [255; 128], 2000; split; [reflexivity|lia]|].
  vm_compute. repeat split.
Qed.

(** C87: the fish-eye sequence: whatever happened in the rounds before, the topology
    messages of the k-th round have the k-th TTL of the cycle (all the pieces the same). *)
Theorem C87_fisheye : forall e red vt orig wait rs ansn t l g s, is_addr e orig -> Forall (fun r => 0 <= fst (fst r) < 65536 /\ table_ok e (snd r)) rs -> ready (16 + 2 * ips e) s -> g_ttl g = 0 ->
  0 <= ansn < 65536 -> table_ok e l -> (exists n, In n l /\ advertise red n) ->
  exists s1 g1 s2 g2 ps, rounds e red true vt orig wait rs g s = Some (s1, g1) /\ output_lq_tc e red true vt orig ansn (t mod 4294967296) wait l g1 s1 = Some (s2, Some g2) /\
    delivers s1 s2 (map enc_tc ps) /\ ps <> [] /\ Forall (fun m => m_ttl m = nth (length rs mod 8) fisheye 0 /\ m_hops m = 0 /\ m_orig m = orig /\ m_ansn m = ansn) ps.
Proof.
  intros e red vt orig wait rs ansn t l g s Ho F Rd G0 Ha T Sn.
  destruct (rounds_ok e red true vt orig wait rs (proj1 Ho) F g s Rd ltac:(lia)) as (s1 & g1 & E1 & R1 & T1 & Q1 & _).
  destruct (round_ok e red true vt orig ansn (t mod 4294967296) wait l g1 s1 (proj1 Ho) Ha T R1 T1) as (s2 & g2 & E2 & _ & _ & _ & _ & S). pose proof (something_cons e red l Sn) as Ne.
  assert (Ss : sends e red (t mod 4294967296) l g1 = true) by (unfold sends; destruct (create_lq_tc e red l); [congruence|reflexivity]). rewrite Ss in S. destruct S as (frags & D & _ & Nf & _).
  exists s1, g1, s2, g2. eexists. split; [exact E1|]. split; [exact E2|]. split; [exact D|]. split; [destruct frags; [congruence|discriminate]|].
  unfold tc_pieces. rewrite Q1, G0, Z.add_0_l. assert (Hz : forall n : nat, Z.to_nat (Z.of_nat n mod 8) = (n mod 8)%nat) by (intros n; change 8 with (Z.of_nat 8); rewrite <- Nat2Z.inj_mod; apply Nat2Z.id). rewrite Hz. clear Hz.
  generalize 255 at 1. generalize (s_seq s1). clear. induction frags as [|f fr IH]; intros q lo; cbn [pieces]; constructor; [repeat split|apply IH].
Qed.
Print Assumptions C87_fisheye.
Example C87_fisheye_ex : table_ok ex_e ex_nbs /\ table_ok ex_e [] /\
  option_map (fun r => (flat_map queued_now (s_log (fst r)), g_ttl (snd r))) (rounds ex_e 0 true 134 [10; 0; 0; 1] 45000 [(1, 0, ex_nbs); (1, 5000, []); (2, 10000, []); (2, 100000, [])] (mkTg true 0 0) (ex_state 1500)) =
  Some ([(enc_tc (mkTm 134 [10; 0; 0; 1] 2 0 65535 1 255 255 [([10; 0; 0; 5], [77; 78]); ([10; 0; 0; 7], [255; 128])]), 32);
         (enc_tc (mkTm 134 [10; 0; 0; 1] 8 0 0 1 255 255 []), 16); (enc_tc (mkTm 134 [10; 0; 0; 1] 2 0 1 2 255 255 []), 16)], 4).
Proof. split; [exact ex_nbs_ok|]. split; [split; constructor|]. vm_compute. reflexivity. Qed.

(** C87: empty topology messages: a node that stops having anything to advertise at time [t1] says so
    once at once, and goes on saying so until [wait] ms later and no longer; partial: for
    the next 2^31 ms. *)
Theorem C87_empty_partial : forall e red fish vt orig wait a1 t1 l1 rs ansn t l g s, is_addr e orig -> 0 <= wait < 2147483648 -> ready (16 + 2 * ips e) s -> 0 <= g_ttl g <= 8 -> g_empty g = false ->
  0 <= a1 < 65536 -> table_ok e l1 -> nothing red l1 -> Forall (fun r => (0 <= fst (fst r) < 65536 /\ table_ok e (snd r)) /\ nothing red (snd r)) rs -> 0 <= ansn < 65536 -> table_ok e l -> nothing red l ->
  t1 <= t < t1 + wait + 2147483648 ->
  exists s1 g1 m1 s2 g2 s3 g3, output_lq_tc e red fish vt orig a1 (t1 mod 4294967296) wait l1 g s = Some (s1, Some g1) /\ delivers s s1 [enc_tc m1] /\ m_ents m1 = [] /\ m_ansn m1 = a1 /\
    rounds e red fish vt orig wait rs g1 s1 = Some (s2, g2) /\ output_lq_tc e red fish vt orig ansn (t mod 4294967296) wait l g2 s2 = Some (s3, Some g3) /\
    if t <? t1 + wait then exists m, delivers s2 s3 [enc_tc m] /\ m_ents m = [] /\ m_ansn m = ansn /\ m_lower m = 255 /\ m_upper m = 255 else s3 = s2.
Proof.
  intros e red fish vt orig wait a1 t1 l1 rs ansn t l g s Ho Hw Rd Hi Ge Ha1 T1 N1 F Ha T N Ht.
  destruct (round_ok e red fish vt orig a1 (t1 mod 4294967296) wait l1 g s (proj1 Ho) Ha1 T1 Rd Hi) as (s1 & g1 & E1 & R1 & I1 & Em1 & Tm1 & S1).
  rewrite (nothing_nil e red l1 N1) in Em1, Tm1, S1. rewrite Ge in Tm1. unfold sends in S1. rewrite (nothing_nil e red l1 N1), Ge in S1. cbn [negb orb] in S1. destruct S1 as (fr1 & D1 & _ & _ & _ & X1). rewrite (X1 eq_refl) in D1.
  assert (I1' : 0 <= g_ttl g1 <= 8) by (rewrite I1; destruct fish; [pose proof (Z.mod_pos_bound (g_ttl g) 8 ltac:(lia)); lia|exact Hi]).
  destruct (rounds_ok e red fish vt orig wait rs (proj1 Ho)) with (g := g1) (s := s1) as (s2 & g2 & E2 & R2 & I2 & _ & W2); auto.
  { eapply Forall_impl; [|exact F]. intros r Hr; apply Hr. }
  destruct (W2 Em1) as (Em2 & Tm2). { eapply Forall_impl; [|exact F]. intros r Hr; apply Hr. }
  destruct (round_ok e red fish vt orig ansn (t mod 4294967296) wait l g2 s2 (proj1 Ho) Ha T R2 I2) as (s3 & g3 & E3 & _ & _ & _ & _ & S3).
  exists s1, g1. eexists. exists s2, g2, s3, g3. split; [exact E1|]. split; [exact D1|]. split; [reflexivity|]. split; [reflexivity|]. split; [exact E2|]. split; [exact E3|].
  unfold sends in S3. rewrite (nothing_nil e red l N) in S3. rewrite Em2 in S3. cbn [negb orb] in S3. rewrite Tm2, Tm1 in S3. unfold getTimestamp in S3.
  replace (u32 (t1 mod 4294967296 + wait)) with (u32 (t1 + wait)) in S3 by (unfold u32; now rewrite Zplus_mod_idemp_l).
  change (t mod 4294967296) with (u32 t) in S3. rewrite due_iff in S3 by lia. replace (negb (t1 + wait <=? t)) with (t <? t1 + wait) in S3 by lia.
  destruct (t <? t1 + wait); [|exact S3]. destruct S3 as (fr3 & D3 & _ & _ & _ & X3). rewrite (X3 eq_refl) in D3. eexists. split; [exact D3|]. cbn. auto.
Qed.
Print Assumptions C87_empty_partial.
Example C87_empty_ex : ready 24 (ex_state 1500) /\ table_ok ex_e [] /\ nothing 2 [] /\
  match rounds ex_e 2 false 134 [10; 0; 0; 1] 45000 [(1, 4294967290, []); (1, 4295000000, []); (1, 4295012290, []); (2, 4295012289, [])] (mkTg false 0 0) (ex_state 1500) with
  | Some (s, g) => map fst (flat_map queued_now (s_log s)) = map (fun x => enc_tc (mkTm 134 [10; 0; 0; 1] 255 0 (fst x) (snd x) 255 255 [])) [(65535, 1); (0, 1); (1, 2)] /\ g = mkTg true 44994 0
  | None => False
  end.
Proof. split; [apply ready_state; lia|]. split; [split; constructor|]. split; [intros n []|]. vm_compute. repeat split. Qed.

(** Not for ever: half a turn of the 32-bit clock later (25 days) a node that never had
    anything to advertise begins to send empty topology messages in every round. *)
Theorem C87_wrap_refuted : exists e vt orig wait rs t s s1 g1 s2 g2, 0 <= t /\ is_addr e orig /\ 0 <= wait < 2147483648 /\ ready (16 + 2 * ips e) s /\
  Forall (fun r => snd r = []) rs /\
  (** the state at start (src/main.c:606) and the rounds so far: nothing sent *)
  rounds e 2 false vt orig wait rs (mkTg true (getTimestamp 0 0) 0) s = Some (s1, g1) /\ s_log s1 = s_log s /\
  output_lq_tc e 2 false vt orig 0 (t mod 4294967296) wait [] g1 s1 = Some (s2, Some g2) /\
  delivers s1 s2 [enc_tc (mkTm vt orig 255 0 (s_seq s1) 0 255 255 [])].
Proof.
  set (rs := [(0, 5000, []); (0, 10000, []); (0, 2147480000, [])] : list round).
  destruct (round_ok ex_e 2 false 134 [10; 0; 0; 1] 0 2147485000 45000 [] (mkTg true 0 0) (ex_state 1500)) as (s2 & g2 & E & _ & _ & _ & _ & S); try reflexivity; try lia.
  { split; constructor. } { apply ready_state; unfold ips, ex_e; cbn; lia. } { cbn; lia. }
  exists ex_e, 134, [10; 0; 0; 1], 45000, rs, 2147485000, (ex_state 1500), (ex_state 1500), (mkTg true 0 0), s2, g2.
  split; [lia|]. split; [split; [reflexivity|repeat constructor; lia]|]. split; [lia|]. split; [apply ready_state; unfold ips, ex_e; cbn; lia|].
  split; [repeat constructor|]. split; [reflexivity|]. split; [reflexivity|]. split; [exact E|].
  change (sends ex_e 2 2147485000 [] (mkTg true 0 0)) with true in S. cbv iota in S. destruct S as (fr & D & _ & _ & _ & X). rewrite (X eq_refl) in D. exact D.
Qed.
Print Assumptions C87_wrap_refuted.

(** C88: HELLO messages with link quality: every neighbor interface is mentioned at most once;
    what is said about it is the type and quality of the link on the interface the
    HELLO is sent on, if there is one that is not hidden, and otherwise, without link type,
    the first link on another interface; nothing else is said. *)
Theorem C88_content : forall v6 vt ht will main out ks s, blen main = ipsz v6 -> links_ok v6 ks -> ready (20 + 2 * ipsz v6) s ->
  exists s' parts, serialize_lq_hello v6 vt ht will main (create_lq_hello out ks) s = Some (s', Some tt) /\
    delivers s s' (numbered (hello_msg true vt ht will 1 main) (s_seq s) parts) /\
    NoDup (map hn_addr (said true (concat parts))) /\
    forall x, In x (said true (concat parts)) <->
      exists t k, hello_of out ks (hn_addr x) = Some (t, k) /\ t <> 4 /\ x = mkHN t (neigh_type k) (k_addr k) (firstn 2 (k_lq k)).
Proof.
  intros v6 vt ht will main out ks s Hm K Rd. destruct (create_hello_ok v6 out ks K) as (Nd & H). set (C := create_lq_hello out ks) in *.
  assert (Hk : forall x, In x C -> exists t k, In k ks /\ hello_of out ks (l_addr x) = Some (t, k) /\ x = entry_for t k /\ 0 <= t <= 4).
  { intros x Hx. apply H in Hx. destruct Hx as (t & k & A & B). exists t, k. destruct (hello_of_addr _ _ _ _ _ A) as (I1 & _ & Q). split; [exact I1|]. split; [exact A|]. split; [exact B|].
    destruct K as (_ & F). rewrite Forall_forall in F. specialize (F k I1). cbn in F. destruct Q as [(_ & ->)| ->]; lia. }
  destruct (C83_lq v6 vt ht will main C s Hm) as (s' & parts & E & D & S); [|exact Rd|].
  { apply Forall_forall. intros x Hx. destruct (Hk x Hx) as (t & k & I1 & _ & -> & _). destruct K as (_ & F). rewrite Forall_forall in F. apply (F k I1). }
  exists s', parts. split; [exact E|]. split; [exact D|]. rewrite S.
  assert (Io : forall x, In x (in_order l_neigh l_link [0; 3; 1; 2] C) <-> In x C /\ l_link x <> 4).
  { intros x. unfold in_order. rewrite in_flat_map. split.
    - intros (i & _ & Hx). apply in_flat_map in Hx. destruct Hx as (j & Hj & Hx). apply filter_In in Hx. destruct Hx as (Hx & B). split; [exact Hx|]. cbn [In] in Hj. lia.
    - intros (Hx & N4). destruct (Hk x Hx) as (t & k & _ & _ & -> & Bt). cbn [l_link entry_for] in N4. exists (neigh_type k). split; [unfold neigh_type; destruct (k_mpr k), (k_sym k); cbn [In]; auto|].
      apply in_flat_map. exists t. split; [cbn [In]; lia|]. apply filter_In. split; [exact Hx|]. cbn [l_neigh l_link entry_for]. lia. }
  split.
  - rewrite map_map. cbn [hn_addr]. fold (map l_addr (in_order l_neigh l_link [0; 3; 1; 2] C)).
    assert (P : forall (l : list lqn), NoDup (map l_addr l) -> forall links, NoDup links -> forall sts, NoDup sts -> NoDup (map l_addr (flat_map (fun i => flat_map (fun j => filter (fun n => (l_neigh n =? i) && (l_link n =? j)) l) links) sts))).
    { clear. intros l N links Nl sts Ns.
      assert (Sub : forall f, NoDup (map l_addr (filter f l))).
      { intros f. clear -N. induction l as [|y l IH]; [constructor|]. cbn [map] in N. inversion N as [|? ? N1 N2]; subst. cbn [filter]. destruct (f y); [|auto]. cbn [map]. constructor; [|auto].
        intros Q. apply N1. apply in_map_iff in Q. destruct Q as (z & Q1 & Q2). apply filter_In in Q2. rewrite <- Q1. apply in_map, Q2. }
      assert (Un : forall x y, In x l -> In y l -> l_addr x = l_addr y -> x = y).
      { intros x y Hx Hy Q. apply In_nth_error in Hx. apply In_nth_error in Hy. destruct Hx as (i & Hx), Hy as (j & Hy). assert (i = j); [|congruence].
        apply (proj1 (NoDup_nth_error _) N); [rewrite map_length; apply nth_error_Some; congruence|]. rewrite (map_nth_error _ _ _ Hx), (map_nth_error _ _ _ Hy). congruence. }
      assert (App : forall a b, NoDup (map l_addr a) -> NoDup (map l_addr b) -> (forall x, In x a -> In x l) -> (forall x, In x b -> In x l) -> (forall x, In x a -> ~ In x b) -> NoDup (map l_addr (a ++ b))).
      { intros a b Na Nb Ia Ib Dj. rewrite map_app. induction a as [|x a IHa]; [exact Nb|]. cbn [map app] in *. inversion Na as [|? ? Na1 Na2]; subst. constructor.
        - rewrite in_app_iff. intros [Q|Q]; [contradiction|]. apply in_map_iff in Q. destruct Q as (y & Q1 & Q2). apply (Dj x (or_introl eq_refl)). rewrite (Un x y); auto. now apply Ia; left.
        - apply IHa; auto; intros z Hz; [apply Ia|apply Dj]; now right. }
      assert (In1 : forall i ls x, In x (flat_map (fun j => filter (fun n => (l_neigh n =? i) && (l_link n =? j)) l) ls) <-> In x l /\ l_neigh x = i /\ In (l_link x) ls).
      { intros i ls x. rewrite in_flat_map. split; [intros (j & J1 & J2); apply filter_In in J2; destruct J2 as (J2 & J3); assert (l_neigh x = i /\ l_link x = j) as (-> & Q) by lia; now rewrite Q|].
        intros (A & B & C). exists (l_link x). split; [exact C|]. apply filter_In. split; [exact A|]. lia. }
      assert (Ni : forall i, NoDup (map l_addr (flat_map (fun j => filter (fun n => (l_neigh n =? i) && (l_link n =? j)) l) links))).
      { intros i. clear Ns sts. induction links as [|j links IH]; [constructor|]. inversion Nl as [|? ? Nl1 Nl2]; subst. cbn [flat_map]. apply App; auto.
        - intros x Hx. apply filter_In in Hx. apply Hx.
        - intros x Hx. apply In1 in Hx. apply Hx.
        - intros x Hx Hy. apply filter_In in Hx. destruct Hx as (_ & Hx). apply In1 in Hy. destruct Hy as (_ & _ & Hy). assert (l_link x = j) by lia. congruence. }
      induction sts as [|i sts IH]; [constructor|]. inversion Ns as [|? ? Ns1 Ns2]; subst. cbn [flat_map]. apply App; auto.
      - intros x Hx. apply In1 in Hx. apply Hx.
      - intros x Hx. apply in_flat_map in Hx. destruct Hx as (i' & _ & Hx). apply In1 in Hx. apply Hx.
      - intros x Hx Hy. apply In1 in Hx. apply in_flat_map in Hy. destruct Hy as (i' & Hi' & Hy). apply In1 in Hy. destruct Hx as (_ & Hx & _), Hy as (_ & Hy & _). congruence. }
    unfold in_order. apply P; [exact Nd| |]; repeat constructor; cbn [In]; lia.
  - intros x. rewrite in_map_iff. split.
    + intros (n & <- & Hn). apply Io in Hn. destruct Hn as (Hn & N4). destruct (Hk n Hn) as (t & k & _ & G & -> & _). exists t, k. cbn [hn_addr l_addr entry_for]. cbn [l_link entry_for] in N4. auto.
    + intros (t & k & G & N4 & ->). cbn [hn_addr] in G. exists (entry_for t k). split; [reflexivity|]. apply Io. split; [|exact N4]. apply H. exists t, k. auto.
Qed.
Print Assumptions C88_content.
Definition ex_links : list olnk := [mkOl [10; 0; 0; 1] [10; 0; 0; 2] 2 true true [1; 2; 0; 0]; mkOl [10; 1; 0; 1] [10; 0; 0; 2] 1 true true [3; 4; 0; 0]; mkOl [10; 1; 0; 1] [10; 1; 0; 3] 2 false true [5; 6; 0; 0];
  mkOl [10; 0; 0; 1] [10; 1; 0; 3] 3 false true [7; 8; 0; 0]; mkOl [10; 1; 0; 1] [10; 1; 0; 9] 2 false false [9; 9; 0; 0]; mkOl [10; 0; 0; 1] [10; 0; 0; 8] 4 false true [8; 8; 0; 0]].
Example C88_content_ex : links_ok false ex_links /\ ready 28 (ex_state 1500) /\
  option_map (fun r => snd (fst r)) (run (serialize_lq_hello false 134 5 3 [10; 0; 0; 1] (create_lq_hello [10; 0; 0; 1] ex_links)) (ex_state 1500)) = Some (Some tt) /\
  create_lq_hello [10; 0; 0; 1] ex_links = [mkLqn 4 1 [10; 0; 0; 8] [8; 8; 0; 0]; mkLqn 0 0 [10; 1; 0; 9] [9; 9; 0; 0]; mkLqn 3 1 [10; 1; 0; 3] [7; 8; 0; 0]; mkLqn 2 2 [10; 0; 0; 2] [1; 2; 0; 0]] /\
  hello_of [10; 0; 0; 1] ex_links [10; 1; 0; 3] = Some (3, mkOl [10; 0; 0; 1] [10; 1; 0; 3] 3 false true [7; 8; 0; 0]).
Proof.
  split; [split; [cbn; repeat constructor; cbn [In]; intuition discriminate|repeat constructor; cbn; lia]|]. split; [apply ready_state; lia|]. vm_compute. repeat split.
Qed.

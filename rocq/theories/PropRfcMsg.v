(** Properties of the contents of outgoing messages without link quality: C119, C120. *)
From Coq Require Import Permutation.
From Verif Require Import Base Bytes SchedTime Compare Parser Tc Hello HelloSpec NetBuf NetBufSpec BuildMsg BuildMsgSpec BuildMsgProofs LinkSetProofs PropBuildMsg RfcMsg RfcMsgSpec RfcMsgProofs.

Definition a16 (x y : Z) : list Z := [10; x; 0; y] ++ repeat 7 12.
Definition ex_n (y : Z) (sym mpr sel : bool) : rnb := mkRnb (a16 0 y) sym mpr sel.
Definition ex_ks : list rlnk := [mkRl (a16 0 1) (a16 0 2) 2 (ex_n 2 true true false); mkRl (a16 1 1) (a16 1 2) 2 (ex_n 2 true true false); mkRl (a16 1 1) (a16 1 3) 2 (ex_n 3 true false true);
  mkRl (a16 0 1) (a16 0 4) 1 (ex_n 4 false false false); mkRl (a16 0 1) (a16 0 5) 4 (ex_n 5 false false false)].
Definition ex_ns : list rnb := [ex_n 2 true true false; ex_n 3 true false true; ex_n 4 false false false; ex_n 5 false false false].
Lemma ex_ks_ok : links_ok ex_ks.
Proof. unfold links_ok, ex_ks. repeat (apply Forall_cons; [cbn; lia|]). constructor. Qed.
Lemma ex_ns_ok : nbrs_ok false ex_ns.
Proof. split; [unfold ex_ns; repeat (apply Forall_cons; [reflexivity|]); constructor|]. cbn. repeat constructor; cbn [In]; intuition discriminate. Qed.

(** C119: the HELLO messages sent on an interface say exactly, and once, the type of each link there that is not
    hidden together with the type of the neighbor, and with several interfaces the type of each other neighbor (IPv4). *)
Theorem C119_v4 : forall several vt ht will main out ks ns s, blen main = 4 -> links_ok ks -> nbrs_ok false ns -> ready 24 s ->
  exists s' parts, rfc_hello false several vt ht will main out ks ns s = Some (s', Some true) /\ delivers s s' (numbered (hello_msg false vt ht will 1 main) (s_seq s) parts) /\
    Permutation (said false (concat parts)) (to_say false several out ks ns).
Proof.
  intros several vt ht will main out ks ns s Hm K N Rd. destruct (C83_v4 vt ht will 1 main (map fst (build_hello false several out ks ns)) s Hm) as (s' & parts & E & D & S); [|exact Rd|].
  { eapply Forall_impl; [|apply (build_ok false several out ks ns K N)]. cbn. tauto. }
  exists s', parts. split; [exact E|]. split; [exact D|]. rewrite S. now apply said_perm.
Qed.
Print Assumptions C119_v4.
Example C119_v4_ex : links_ok ex_ks /\ nbrs_ok false ex_ns /\ ready 24 (ex_state 1500) /\
  to_say false true (a16 0 1) ex_ks ex_ns = [mkHN 2 2 [10; 0; 0; 2] []; mkHN 1 0 [10; 0; 0; 4] []; mkHN 0 1 [10; 0; 0; 3] []] /\
  run (rfc_hello false true 134 5 3 [10; 0; 0; 1] (a16 0 1) ex_ks ex_ns) (ex_state 1500) =
    Some ([EPush [1; 134; 0; 40; 10; 0; 0; 1; 1; 0; 255; 255; 0; 0; 5; 3; 1; 0; 0; 8; 10; 0; 0; 4; 4; 0; 0; 8; 10; 0; 0; 3; 10; 0; 0; 8; 10; 0; 0; 2] 40], Some true, 0).
Proof. split; [exact ex_ks_ok|]. split; [exact ex_ns_ok|]. split; [apply ready_state; lia|]. split; vm_compute; reflexivity. Qed.

(** The same with IPv6; partial: no hidden links on the interface (C83), and what waits in the output
    buffer does not leave between 28 and 47 bytes (C32). *)
Theorem C119_v6_partial : forall several vt ht will main out ks ns s, blen main = 16 -> links_ok ks -> nbrs_ok true ns -> ready 48 s ->
  (nb_max (s_nb s) - nb_pend (s_nb s) < 28 \/ 48 <= nb_max (s_nb s) - nb_pend (s_nb s)) -> (forall k, In k ks -> on true out k = true -> k_stat k <> 4) ->
  exists s' parts, rfc_hello true several vt ht will main out ks ns s = Some (s', Some true) /\ delivers s s' (numbered (hello_msg false vt ht will 1 main) (s_seq s) parts) /\
    Permutation (said false (concat parts)) (to_say true several out ks ns).
Proof.
  intros several vt ht will main out ks ns s Hm K N Rd Rm Hd. pose proof (build_ok true several out ks ns K N) as B. pose proof (no_hide true several out ks ns N Hd) as H.
  set (l := map fst (build_hello true several out ks ns)) in *.
  destruct (C83_v6_partial vt ht will 1 main l s Hm) as (s' & parts & E & D & S); [|exact Rd|exact Rm|].
  { rewrite Forall_forall in *. intros x Hx. split; [apply (B x Hx)|now apply H]. }
  exists s', parts. split; [exact E|]. split; [exact D|]. rewrite S. rewrite (map_ext_in _ (fun n => mkHN (n_link n) (n_status n) (addr true (n_addr n)) [])); [now apply said_perm|].
  intros n Hn. assert (In n l) as Hl. { unfold in_order in Hn. apply in_flat_map in Hn. destruct Hn as (i & _ & Hn). apply in_flat_map in Hn. destruct Hn as (j & _ & Hn). apply filter_In in Hn. apply Hn. }
  rewrite Forall_forall in B. specialize (B n Hl). cbn in B. f_equal. unfold addr. symmetry. apply firstn_all2. unfold blen in B. lia.
Qed.
Print Assumptions C119_v6_partial.
Definition b16 (x y : Z) : list Z := [32; 1; x; y] ++ repeat 7 12.
Example C119_v6_partial_ex : ready 48 (ex_state 1500) /\
  to_say true true (b16 0 1) [mkRl (b16 0 1) (b16 0 2) 2 (mkRnb (b16 0 2) true true false)] [mkRnb (b16 0 2) true true false; mkRnb (b16 0 3) true false false] = [mkHN 2 2 (b16 0 2) []; mkHN 0 1 (b16 0 3) []] /\
  match rfc_hello true true 134 5 3 (b16 0 1) (b16 0 1) [mkRl (b16 0 1) (b16 0 2) 2 (mkRnb (b16 0 2) true true false)] [mkRnb (b16 0 2) true true false; mkRnb (b16 0 3) true false false] (ex_state 1500) with
  | Some (s', Some true) => map (fun e => match e with EPush d _ => (nth 28 d 0, nth 48 d 0, blen d) | _ => (0, 0, 0) end) (s_log s') = [(4, 10, 68)]
  | _ => False
  end.
Proof. split; [apply ready_state; lia|]. split; vm_compute; reflexivity. Qed.

Lemma one_queued (q : list (list Z)) a n : map (fun m => (m, blen m)) q = [(a, n)] -> q = [a].
Proof. destruct q as [|x [|y q]]; cbn [map]; intros H; [discriminate| |discriminate]. injection H as -> _. reflexivity. Qed.

(** A symmetric neighbor that is selected as MPR over its link on another interface is not mentioned at all on an
    interface where the link to it is hidden (RFC 3626 section 6.2 asks for every neighbor to be mentioned). *)
Theorem C119_hidden_refuted : exists vt ht will main out ks ns n s, blen main = 4 /\ links_ok ks /\ nbrs_ok false ns /\ ready 1000 s /\
  In n ns /\ r_sym n = true /\ r_mpr n = true /\ (exists k, In k ks /\ k_nbr k = n /\ k_stat k = 2) /\
  exists s', rfc_hello false true vt ht will main out ks ns s = Some (s', Some true) /\ delivers s s' [hello_msg false vt ht will 1 main (s_seq s) []].
Proof.
  set (n := ex_n 2 true true true). set (ks := [mkRl (a16 0 1) (a16 0 2) 4 n; mkRl (a16 1 1) (a16 1 2) 2 n]).
  assert (K : links_ok ks). { unfold links_ok, ks. repeat (apply Forall_cons; [cbn; lia|]). constructor. }
  assert (N : nbrs_ok false [n]). { split; [repeat constructor|]. cbn. repeat constructor. intros []. }
  exists 134, 5, 3, [10; 0; 0; 1], (a16 0 1), ks, [n], n, (ex_state 1500). split; [reflexivity|]. split; [exact K|]. split; [exact N|]. split; [apply ready_state; lia|].
  split; [now left|]. split; [reflexivity|]. split; [reflexivity|]. split; [exists (mkRl (a16 1 1) (a16 1 2) 2 n); split; [right; now left|split; reflexivity]|].
  assert (Rd : ready 24 (ex_state 1500)) by (apply ready_state; lia).
  destruct (C32_hello4 134 5 3 1 [10; 0; 0; 1] (map fst (build_hello false true (a16 0 1) ks [n])) (ex_state 1500)) as (s' & parts & E & D & Q & _ & _ & _ & _); [reflexivity|repeat constructor|exact Rd|].
  exists s'. split; [exact E|].
  assert (L : s_log s' = [EPush (hello_msg false 134 5 3 1 [10; 0; 0; 1] (s_seq (ex_state 1500)) []) 16]).
  { destruct (serialize_hello false 134 5 3 1 [10; 0; 0; 1] (map fst (build_hello false true (a16 0 1) ks [n])) (ex_state 1500)) as [[s2 [[|]|]]|] eqn:E2; try (vm_compute in E2; discriminate).
    apply Some_inj in E. assert (s2 = s') by congruence. subst s2. clear E D Q. vm_compute in E2. apply Some_inj in E2. inversion E2; subst. vm_compute. reflexivity. }
  destruct D as (ev & D1 & D2 & D3). rewrite L in D1. cbn [s_log ex_state app] in D1. subst ev. cbn [flat_map queued_now app] in D2.
  assert (P : numbered (hello_msg false 134 5 3 1 [10; 0; 0; 1]) (s_seq (ex_state 1500)) parts = [hello_msg false 134 5 3 1 [10; 0; 0; 1] (s_seq (ex_state 1500)) []]).
  { exact (one_queued _ _ _ (eq_sym D2)). }
  exists [EPush (hello_msg false 134 5 3 1 [10; 0; 0; 1] (s_seq (ex_state 1500)) []) 16]. split; [exact L|]. rewrite P in D3. split; [reflexivity|]. exact D3.
Qed.
Print Assumptions C119_hidden_refuted.

(** C120: whatever was sent before, the TC messages list exactly, and once, the neighbors to be advertised, under the number of
    the current set, with the highest TTL, however the list is cut into messages. *)
Theorem C120_content : forall v6 red vt main ansn now wait ns g s, blen main = ipsz v6 -> 0 <= ansn < 65536 -> nbrs_ok v6 ns -> ready (12 + 2 * ipsz v6) s ->
  (exists n, In n ns /\ advertise red n) ->
  exists s' g' parts adv, rfc_tc v6 red vt main ansn now wait ns g s = Some (s', Some g') /\ (forall n, In n adv <-> In n ns /\ advertise red n) /\ NoDup adv /\
    Permutation (concat parts) (map (fun n => addr v6 (r_main n)) adv) /\ parts <> [] /\ Forall (fun p => p <> []) parts /\
    delivers s s' (numbered (fun seq l => message 2 vt main 255 0 seq (enc16 ansn ++ [0; 0] ++ concat l)) (s_seq s) parts).
Proof.
  intros v6 red vt main ansn now wait ns g s Hm Ha N Rd (n & Hn & An).
  destruct (tc_call v6 red vt main ansn now wait ns g s Hm Ha N Rd) as (s' & parts & E & D & Cc & NE & _).
  assert (Ln : rfc_tc_list v6 red ns <> []). { intros Q. apply list_nil in Q. apply (Q n Hn An). }
  exists s'. eexists. exists parts, (filter (rfc_adds red) ns). split; [exact E|]. split; [intros m; rewrite filter_In, adds_spec; tauto|].
  split. { apply NoDup_filter. destruct N as (_ & Nd). clear -Nd. induction ns as [|x l IH]; [constructor|]. cbn [map] in Nd. inversion Nd as [|? ? A B]; subst. constructor; [|auto]. intros I. apply A. now apply (in_map (fun n => addr v6 (r_main n))). }
  split; [rewrite Cc, list_in; symmetry; apply Permutation_rev|]. split; [intros ->; cbn in Cc; congruence|]. split; [now apply NE|]. exact D.
Qed.
Print Assumptions C120_content.
Example C120_content_ex : nbrs_ok false ex_ns /\ advertise 1 (ex_n 2 true true false) /\ advertise 0 (ex_n 3 true false true) /\ ~ advertise 0 (ex_n 2 true true false) /\ ready 20 (ex_state 29) /\
  option_map (fun r => fst (fst r)) (run (rfc_tc false 1 134 [10; 0; 0; 1] 300 1000 45000 ex_ns (rgen0 0)) (ex_state 1500)) =
    Some [EPush [2; 134; 0; 24; 10; 0; 0; 1; 255; 0; 255; 255; 1; 44; 0; 0; 10; 0; 0; 3; 10; 0; 0; 2] 24].
Proof.
  split; [exact ex_ns_ok|]. split; [split; [reflexivity|split; [left; reflexivity|intros; exfalso; lia]]|]. split; [split; [reflexivity|split; [intros; exfalso; lia|reflexivity]]|]. split; [intros (_ & _ & H); specialize (H ltac:(lia) ltac:(lia)); discriminate|]. split; [apply ready_state; lia|]. vm_compute. reflexivity.
Qed.

(** Whatever calls there were on whatever interfaces: once at [t1] a call finds that there is nothing to advertise any
    more, each call on each interface sends one empty TC until [wait] ms later, and none after that; partial: for the next 2^31 ms. *)
Theorem C120_empty_partial : forall v6 red vt main wait g pre x y post c, blen main = ipsz v6 -> 0 <= wait < 2147483648 ->
  Forall (call_ok v6) (pre ++ x :: y :: post ++ [c]) -> (exists n, In n (c_nbrs x) /\ advertise red n) ->
  Forall (fun d => nothing red (c_nbrs d)) (y :: post ++ [c]) -> c_t y <= c_t c < c_t y + wait + 2147483648 ->
  exists g', calls v6 red vt main wait (pre ++ x :: y :: post) g = Some g' /\
  exists s' g'', rfc_tc v6 red vt main (c_ansn c) (c_t c mod 4294967296) wait (c_nbrs c) g' (c_st c) = Some (s', Some g'') /\
    delivers (c_st c) s' (if c_t c <? c_t y + wait then [message 2 vt main 255 0 (s_seq (c_st c)) (enc16 (c_ansn c) ++ [0; 0])] else []).
Proof.
  intros v6 red vt main wait g pre x y post c Hm Hw F (n & Hn & An) Nt Ht.
  apply Forall_app in F. destruct F as (F1 & F). inversion F as [|? ? Fx F2]; subst. inversion F2 as [|? ? Fy F3]; subst. apply Forall_app in F3. destruct F3 as (F3 & F4). inversion F4 as [|? ? Fc _]; subst.
  inversion Nt as [|? ? Ny Nt2]; subst. apply Forall_app in Nt2. destruct Nt2 as (Np & Nc). inversion Nc as [|? ? Nc1 _]; subst. clear F F2 F4 Nc Nt.
  destruct (calls_ok v6 red vt main wait pre Hm F1 g) as (g1 & E1 & _). destruct Fx as (X1 & X2 & X3).
  destruct (tc_call v6 red vt main (c_ansn x) (c_t x mod 4294967296) wait (c_nbrs x) g1 (c_st x) Hm X1 X2 X3) as (sx & px & Ex & _).
  set (g2 := rfc_gen (c_t x mod 4294967296) wait (rfc_tc_list v6 red (c_nbrs x)) g1) in *.
  assert (S2 : g_sending g2 = true). { unfold g2. destruct (rfc_tc_list v6 red (c_nbrs x)) eqn:Q; [apply list_nil in Q; destruct (Q n Hn An)|reflexivity]. }
  destruct Fy as (Y1 & Y2 & Y3).
  destruct (tc_call v6 red vt main (c_ansn y) (c_t y mod 4294967296) wait (c_nbrs y) g2 (c_st y) Hm Y1 Y2 Y3) as (sy & py & Ey & _).
  set (g3 := rfc_gen (c_t y mod 4294967296) wait (rfc_tc_list v6 red (c_nbrs y)) g2) in *.
  assert (S3 : g3 = mkRg false (getTimestamp (c_t y mod 4294967296) wait)). { unfold g3. rewrite (proj2 (list_nil v6 red (c_nbrs y)) Ny). cbn [rfc_gen]. now rewrite S2. }
  destruct (calls_ok v6 red vt main wait post Hm F3 g3) as (g4 & E4 & G4). specialize (G4 Np ltac:(rewrite S3; reflexivity)). subst g4.
  exists g3. split; [rewrite calls_app, E1; cbn [calls]; rewrite Ex, Ey; exact E4|]. destruct Fc as (C1 & C2 & C3).
  destruct (tc_call v6 red vt main (c_ansn c) (c_t c mod 4294967296) wait (c_nbrs c) g3 (c_st c) Hm C1 C2 C3) as (sc & pc & Ec & D & _ & _ & Xc).
  exists sc. eexists. split; [exact Ec|]. rewrite (proj2 (list_nil v6 red (c_nbrs c)) Nc1) in D, Xc. specialize (Xc eq_refl). rewrite S3 in Xc. cbn [rfc_gen g_sending g_timer] in Xc.
  assert (Tm : isTimedOut (c_t c mod 4294967296) (getTimestamp (c_t y mod 4294967296) wait) = (c_t y + wait <=? c_t c)).
  { unfold getTimestamp. replace (u32 (c_t y mod 4294967296 + wait)) with (u32 (c_t y + wait)) by (unfold u32; now rewrite Zplus_mod_idemp_l). change (c_t c mod 4294967296) with (u32 (c_t c)). apply due_iff. lia. }
  rewrite Tm in Xc. destruct (Z.leb_spec (c_t y + wait) (c_t c)) as [L|L], (Z.ltb_spec (c_t c) (c_t y + wait)) as [L'|L']; try lia; subst pc; exact D.
Qed.
Print Assumptions C120_empty_partial.
Example C120_empty_ex : Forall (call_ok false) [mkC 1 1000 ex_ns (ex_state 1500); mkC 2 6000 [] (ex_state 100); mkC 2 50999 [] (ex_state 1500)] /\ nothing 0 [] /\ nothing 0 [ex_n 2 true true false] /\
  match calls false 0 134 [10; 0; 0; 1] 45000 [mkC 1 1000 ex_ns (ex_state 1500); mkC 2 6000 [] (ex_state 100)] (rgen0 0) with
  | Some g => g = mkRg false 51000 /\
      option_map (fun r => fst (fst r)) (run (rfc_tc false 0 134 [10; 0; 0; 1] 2 50999 45000 [] g) (ex_state 1500)) = Some [EPush [2; 134; 0; 16; 10; 0; 0; 1; 255; 0; 255; 255; 0; 2; 0; 0] 16] /\
      option_map (fun r => fst (fst r)) (run (rfc_tc false 0 134 [10; 0; 0; 1] 2 51000 45000 [] g) (ex_state 1500)) = Some []
  | None => False
  end.
Proof.
  split; [repeat (apply Forall_cons; [split; [cbn; lia|split; [cbn; first [exact ex_ns_ok|split; constructor]|cbn; apply ready_state; lia]]|]); constructor|].
  split; [intros n []|]. split; [intros n [<-|[]] (_ & _ & H); specialize (H ltac:(lia) ltac:(lia)); discriminate|]. vm_compute. repeat split.
Qed.

(** A node that never had anything to advertise says nothing; partial: for the first 2^31 ms. *)
Theorem C120_silent_partial : forall v6 red vt main wait t0 cs c, blen main = ipsz v6 -> Forall (call_ok v6) (cs ++ [c]) -> Forall (fun d => nothing red (c_nbrs d)) (cs ++ [c]) -> t0 <= c_t c < t0 + 2147483648 ->
  exists g, calls v6 red vt main wait cs (rgen0 (t0 mod 4294967296)) = Some g /\
  exists s' g', rfc_tc v6 red vt main (c_ansn c) (c_t c mod 4294967296) wait (c_nbrs c) g (c_st c) = Some (s', Some g') /\ delivers (c_st c) s' [].
Proof.
  intros v6 red vt main wait t0 cs c Hm F N Ht. apply Forall_app in F. destruct F as (F1 & F2). inversion F2 as [|? ? (C1 & C2 & C3) _]; subst. apply Forall_app in N. destruct N as (N1 & N2). inversion N2 as [|? ? Nc _]; subst.
  destruct (calls_ok v6 red vt main wait cs Hm F1 (rgen0 (t0 mod 4294967296))) as (g & E & G). specialize (G N1 eq_refl). subst g. eexists. split; [exact E|].
  destruct (tc_call v6 red vt main (c_ansn c) (c_t c mod 4294967296) wait (c_nbrs c) (rgen0 (t0 mod 4294967296)) (c_st c) Hm C1 C2 C3) as (sc & pc & Ec & D & _ & _ & Xc).
  exists sc. eexists. split; [exact Ec|]. rewrite (proj2 (list_nil v6 red (c_nbrs c)) Nc) in D, Xc. specialize (Xc eq_refl). cbn [rfc_gen g_sending g_timer rgen0] in Xc.
  assert (Tm : isTimedOut (c_t c mod 4294967296) (getTimestamp (t0 mod 4294967296) 0) = true).
  { unfold getTimestamp. replace (u32 (t0 mod 4294967296 + 0)) with (u32 t0) by (unfold u32; rewrite Z.add_0_r, Zmod_mod; reflexivity). change (c_t c mod 4294967296) with (u32 (c_t c)). rewrite due_iff by lia. lia. }
  rewrite Tm in Xc. subst pc. exact D.
Qed.
Print Assumptions C120_silent_partial.
Example C120_silent_ex : Forall (call_ok false) ([] ++ [mkC 2 6000 [ex_n 2 true true false] (ex_state 100)]) /\ nothing 0 [ex_n 2 true true false] /\
  option_map (fun r => fst (fst r)) (run (rfc_tc false 0 134 [10; 0; 0; 1] 2 6000 45000 [ex_n 2 true true false] (rgen0 0)) (ex_state 1500)) = Some [].
Proof.
  split; [cbn [app]; apply Forall_cons; [|constructor]; split; [cbn; lia|]; split; [|cbn; apply ready_state; lia]; split; [repeat constructor|]; cbn; repeat constructor; intros []|].
  split; [intros n [<-|[]] (_ & _ & H); specialize (H ltac:(lia) ltac:(lia)); discriminate|]. vm_compute. reflexivity.
Qed.

(** Later than that the node starts to send empty TC messages. *)
Theorem C120_wrap_refuted : exists red vt main wait cs c s' g g', blen main = 4 /\ 0 <= wait < 2147483648 /\ Forall (call_ok false) (cs ++ [c]) /\ Forall (fun d => c_nbrs d = []) (cs ++ [c]) /\
  calls false red vt main wait cs (rgen0 0) = Some g /\ rfc_tc false red vt main (c_ansn c) (c_t c mod 4294967296) wait (c_nbrs c) g (c_st c) = Some (s', Some g') /\
  s_log s' = s_log (c_st c) ++ [EPush (message 2 vt main 255 0 (s_seq (c_st c)) (enc16 (c_ansn c) ++ [0; 0])) 16].
Proof.
  set (c := mkC 7 2147485000 [] (ex_state 1500)). set (cs := [mkC 7 5000 [] (ex_state 1500); mkC 7 2147480000 [] (ex_state 1500)]).
  destruct (rfc_tc false 2 134 [10; 0; 0; 1] (c_ansn c) (c_t c mod 4294967296) 45000 (c_nbrs c) (rgen0 0) (c_st c)) as [[s' [g'|]]|] eqn:E; try (vm_compute in E; discriminate).
  exists 2, 134, [10; 0; 0; 1], 45000, cs, c, s', (rgen0 0), g'. split; [reflexivity|]. split; [lia|].
  split. { unfold cs, c. cbn [app]. repeat (apply Forall_cons; [split; [cbn; lia|split; [split; constructor|cbn; apply ready_state; lia]]|]). constructor. }
  split. { repeat constructor. } split; [vm_compute; reflexivity|]. split; [exact E|]. vm_compute in E. apply Some_inj in E. inversion E; subst. vm_compute. reflexivity.
Qed.
Print Assumptions C120_wrap_refuted.

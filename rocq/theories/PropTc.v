(** C16, C17, C58 - C61: topology messages. *)
From Verif Require Import Base Bytes Compare Parser HelloSpec Tc TcSpec TcBase TcProofs TcFrag.

(** C16: while links of the originator are known, a message is processed exactly
    if it is newer than the last processed one; or if it is among the last ones
    and 32 such messages have been ignored since; or if it is neither and another
    message that is neither has been ignored since. *)
Theorem C16_decision : forall e d0 m0 l d1 m r, te_lq e > 0 -> reachable e d0 ->
  wf_tmsg e m0 -> good_flags e m0 -> m_ents m0 <> [] -> Forall (fun x => wf_tmsg e x /\ m_orig x = m_orig m0) (l ++ [m]) ->
  receive e d0 (map enc_tc (m0 :: l)) = Some (d1, true :: repeat false (length l)) ->
  input_tc e true d1 (enc_tc m) = Some r ->
  let s := m_seq m0 in let a := m_ansn m0 in
  (r_ret r = true <->
     is_newer s a m = true \/
     (is_recent s a m = true /\ m_seq m <> s /\ (32 <= length (filter (fun x => is_recent s a x && negb (Z.eqb s (m_seq x))) l))%nat) \/
     (is_stray s a m = true /\ exists x, In x l /\ is_stray s a x = true /\ m_seq x <> m_seq m)).
Proof.
  intros e d0 m0 l d1 m r Hlq Re W0 G0 N0 F R I s a. pose proof (reach_ok e d0 Re) as K.
  cbn [map receive] in R. destruct (input_tc e true d0 (enc_tc m0)) as [r0|] eqn:I0; [|discriminate].
  destruct (receive e (r_db r0) (map enc_tc l)) as [[d2 v]|] eqn:R2; [|discriminate]. apply Some_inj in R. injection R as -> V0 ->.
  assert (I0' : input_tc e true d0 (enc_tc m0 ++ []) = Some r0) by now rewrite app_nil_r.
  destruct (after_accept e Hlq d0 m0 [] r0 K W0 N0 G0 I0' V0) as (K1 & t & T & Te & Ts & Ta & Ti & Tv).
  pose proof W0 as (_ & Rs & Ra & _ & _). apply Forall_app in F. destruct F as (Fl & Fm). inversion Fm as [|? ? (Wm & Om) _]; subst.
  assert (S0 : st_is t s a 0 None) by (repeat split; auto).
  destruct (run_reject e Hlq (m_orig m0) s a Rs Ra l (r_db r0) t 0 None d1 K1 T S0 ltac:(lia) Fl R2) as (K2 & t' & T' & S' & B' & X').
  rewrite Z.add_0_l in *. assert (I' : input_tc e true d1 (enc_tc m ++ []) = Some r) by now rewrite app_nil_r.
  rewrite <- Om in T'. destruct (input_reject e Hlq d1 m [] t' r K2 Wm T' I') as (V & _).
  pose proof Wm as (_ & Rms & Rma & _ & _).
  destruct (check_is t' s a _ _ m S' Rs Ra Rms Rma ltac:(lia)) as (C & _). cbv zeta in C. rewrite V, C. unfold verdict_of.
  assert (NR : is_newer s a m = true -> is_recent s a m = false) by (unfold is_newer, is_recent, ahead; lia).
  unfold is_stray at 1. fold (recents s a l). destruct (is_recent s a m) eqn:Er.
  - assert (En : is_newer s a m = false) by (destruct (is_newer s a m); [discriminate NR; reflexivity|reflexivity]). rewrite En. cbn [negb andb].
    split.
    + intros Q. right. left. split; [reflexivity|]. split; [lia|]. lia.
    + intros [Q|[(_ & Q1 & Q2)|(Q & _)]]; try discriminate. lia.
  - destruct (is_newer s a m); cbn [negb andb].
    + split; [auto|reflexivity].
    + split.
      * intros Q. right. right. split; [reflexivity|]. unfold stray_of in Q. destruct (filter (is_stray s a) l) as [|x xs] eqn:Ef; [discriminate|].
        exists x. assert (Hx : In x (filter (is_stray s a) l)) by (rewrite Ef; now left). apply filter_In in Hx. split; [tauto|]. split; [tauto|]. lia.
      * intros [Q|[(Q & _)|(_ & x & Hx & Sx & Nx)]]; try discriminate.
        destruct (stray_of s a l) as [y|] eqn:Es.
        -- specialize (X' y eq_refl). rewrite Forall_forall in X'. specialize (X' x Hx Sx). lia.
        -- exfalso. unfold stray_of in Es. destruct (filter (is_stray s a) l) as [|w ws] eqn:Ef; [|discriminate].
           assert (Hf : In x (filter (is_stray s a) l)) by (apply filter_In; auto). rewrite Ef in Hf. contradiction.
Qed.
Print Assumptions C16_decision.

(** C16: an originator is not ignored for ever: of different messages, all
    different from the last processed one, at most 33 are ignored in a row. *)
Theorem C16_bounded : forall e d0 m0 l d1, te_lq e > 0 -> reachable e d0 ->
  wf_tmsg e m0 -> good_flags e m0 -> m_ents m0 <> [] -> Forall (fun x => wf_tmsg e x /\ m_orig x = m_orig m0) l ->
  receive e d0 (map enc_tc (m0 :: l)) = Some (d1, true :: repeat false (length l)) ->
  NoDup (map m_seq l) -> ~ In (m_seq m0) (map m_seq l) -> (length l <= 33)%nat.
Proof.
  intros e d0 m0 l d1 Hlq Re W0 G0 N0 Fl R ND NI. pose proof (reach_ok e d0 Re) as K.
  cbn [map receive] in R. destruct (input_tc e true d0 (enc_tc m0)) as [r0|] eqn:I0; [|discriminate].
  destruct (receive e (r_db r0) (map enc_tc l)) as [[d2 v]|] eqn:R2; [|discriminate]. apply Some_inj in R. injection R as -> V0 ->.
  assert (I0' : input_tc e true d0 (enc_tc m0 ++ []) = Some r0) by now rewrite app_nil_r.
  destruct (after_accept e Hlq d0 m0 [] r0 K W0 N0 G0 I0' V0) as (K1 & t & T & Te & Ts & Ta & Ti & Tv).
  pose proof W0 as (_ & Rs & Ra & _ & _). set (s := m_seq m0) in *. set (a := m_ansn m0) in *.
  assert (S0 : st_is t s a 0 None) by (repeat split; auto).
  destruct (run_reject e Hlq (m_orig m0) s a Rs Ra l (r_db r0) t 0 None d1 K1 T S0 ltac:(lia) Fl R2) as (K2 & t' & T' & S' & B' & X').
  assert (Z1 : length l = (length (recents s a l) + length (filter (is_stray s a) l))%nat \/ exists x, In x l /\ is_newer s a x = true).
  { assert (NI' : forall x, In x l -> m_seq x <> s) by (intros x Hx Q; apply NI; rewrite <- Q; now apply in_map).
    clear - NI'. induction l as [|x l IH]; [now left|]. destruct IH as [IH|(y & Hy & Qy)]; [intros y Hy; apply NI'; now right| |right; exists y; split; [now right|exact Qy]].
    destruct (is_newer s a x) eqn:En; [right; exists x; split; [now left|exact En]|]. left. unfold recents in *. cbn [filter length].
    pose proof (NI' x (or_introl eq_refl)) as Nx. unfold is_stray at 1. rewrite En. cbn [negb andb].
    destruct (is_recent s a x) eqn:Er; cbn [andb negb length]; [replace (s =? m_seq x) with false by lia; cbn [negb length]; lia|lia]. }
  destruct Z1 as [Z1|(x & Hx & Nx)].
  - assert (Z2 : (length (filter (is_stray s a) l) <= 1)%nat).
    { unfold stray_of in X'. destruct (filter (is_stray s a) l) as [|x [|y xs]] eqn:Ef; cbn [length]; try lia. exfalso.
      specialize (X' (m_seq x) eq_refl). rewrite Forall_forall in X'.
      assert (Hy : In y (filter (is_stray s a) l)) by (rewrite Ef; right; now left). apply filter_In in Hy. pose proof (X' y (proj1 Hy) (proj2 Hy)) as Q.
      assert (ND' : NoDup (map m_seq (filter (is_stray s a) l))).
      { clear - ND. induction l as [|z l IH]; cbn [filter map]; [constructor|]. inversion ND as [|? ? N1 N2]; subst. destruct (is_stray s a z); [|auto].
        cbn [map]. constructor; [|auto]. intros H. apply N1. apply in_map_iff in H. destruct H as (w & Q & Hw). apply filter_In in Hw. apply in_map_iff. exists w. tauto. }
      rewrite Ef in ND'. cbn [map] in ND'. inversion ND' as [|? ? N1 _]; subst. apply N1. left. exact Q. }
    rewrite Z1. lia.
  - exfalso. destruct (in_split x l Hx) as (l1 & l2 & ->). rewrite map_app in R2. cbn [map] in R2.
    (* the newer message would have been processed *)
    assert (SP : forall k1 k2 d dd n, receive e d (k1 ++ k2) = Some (dd, repeat false n) -> exists dm, receive e d k1 = Some (dm, repeat false (length k1)) /\ exists n', receive e dm k2 = Some (dd, repeat false n')).
    { clear. induction k1 as [|b k1 IH]; intros k2 d dd n H; cbn [app receive length repeat] in *; [exists d; split; [reflexivity|exists n; exact H]|].
      destruct (input_tc e true d b) as [r|]; [|discriminate]. destruct (receive e (r_db r) (k1 ++ k2)) as [[d3 v]|] eqn:Q; [|discriminate].
      apply Some_inj in H. destruct n as [|n]; [discriminate|]. cbn [repeat] in H. injection H as -> Hr ->.
      destruct (IH k2 (r_db r) dd n Q) as (dm & Q1 & Q2). exists dm. rewrite Q1, Hr. split; [reflexivity|exact Q2]. }
    destruct (SP _ _ _ _ _ R2) as (dm & Q1 & n' & Q2). rewrite map_length in Q1.
    apply Forall_app in Fl. destruct Fl as (F1 & F2). inversion F2 as [|? ? (Wx & Ox) _]; subst.
    destruct (run_reject e Hlq (m_orig m0) s a Rs Ra l1 (r_db r0) t 0 None dm K1 T S0 ltac:(lia) F1 Q1) as (K3 & t3 & T3 & S3 & B3 & _).
    cbn [receive] in Q2. destruct (input_tc e true dm (enc_tc x)) as [rx|] eqn:Ix; [|discriminate].
    destruct (receive e (r_db rx) (map enc_tc l2)) as [[d3 v]|]; [|discriminate]. apply Some_inj in Q2. destruct n' as [|n']; [discriminate|]. cbn [repeat] in Q2. injection Q2 as _ Vx _.
    assert (Ix' : input_tc e true dm (enc_tc x ++ []) = Some rx) by now rewrite app_nil_r. rewrite <- Ox in T3.
    destruct (input_reject e Hlq dm x [] t3 rx K3 Wx T3 Ix') as (V & _). pose proof Wx as (_ & Rms & Rma & _ & _).
    rewrite Z.add_0_l in *. destruct (check_is t3 s a _ _ x S3 Rs Ra Rms Rma ltac:(lia)) as (C & _). cbv zeta in C. rewrite V, C in Vx. unfold verdict_of in Vx. rewrite Nx in Vx.
    replace (is_recent s a x) with false in Vx by (unfold is_newer, is_recent, ahead in *; lia). discriminate.
Qed.
Print Assumptions C16_bounded.

Definition ex_e : tenv := mkTenv false false 2 0 (deny_init false).
Definition ex_le : tenv := mkTenv false true 2 0 (deny_init false).
Definition ex_o : list Z := [10; 0; 0; 9].
Definition tm (seq ansn lo up : Z) (ents : list (list Z)) : tmsg := mkTm 134 ex_o 4 1 seq ansn lo up (map (fun a => (a, [255; 255])) ents).
Definition db0 : tcdb := fun _ => None.
Example C16_ex : forallb (fun x => Bool.eqb (fst x) (snd x)) (combine
  (match receive ex_e db0 (map enc_tc [tm 5000 10 255 255 [[10; 0; 0; 1]]; tm 4999 10 255 255 []; tm 3000 10 255 255 []; tm 3000 10 255 255 [];
     tm 5000 10 255 255 []; tm 5001 11 255 255 [[10; 0; 0; 2]]; tm 3000 11 255 255 [[10; 0; 0; 3]]; tm 3001 11 255 255 [[10; 0; 0; 3]]]) with Some (_, v) => v | None => [] end)
  [true; false; false; false; false; true; false; true]) = true.
Proof. vm_compute. reflexivity. Qed.

(** C16 without the provision that links are known: false.  After a message
    without links an older message is processed at once. *)
Theorem C16_after_empty_refuted : exists m0 m1 m2 d,
  wf_tmsg ex_e m0 /\ wf_tmsg ex_e m1 /\ wf_tmsg ex_e m2 /\
  receive ex_e db0 (map enc_tc [m0; m1; m2]) = Some (d, [true; true; true]) /\
  1 <= ahead (m_seq m2) (m_seq m1) < 32768 /\ 1 <= ahead (m_ansn m2) (m_ansn m1) < 32768 /\ stored d ex_o [10; 0; 0; 3] <> None.
Proof.
  exists (tm 5000 10 255 255 [[10; 0; 0; 1]]), (tm 5001 11 255 255 []), (tm 4990 9 255 255 [[10; 0; 0; 3]]).
  set (o := receive ex_e db0 (map enc_tc [tm 5000 10 255 255 [[10; 0; 0; 1]]; tm 5001 11 255 255 []; tm 4990 9 255 255 [[10; 0; 0; 3]]])).
  assert (W : forall s a l, 0 <= s < 65536 -> 0 <= a < 65536 -> (l = [] \/ l = [[10; 0; 0; 1]] \/ l = [[10; 0; 0; 3]]) -> wf_tmsg ex_e (tm s a 255 255 l)).
  { intros s a l Hs Ha Hl. assert (B : forall k, 0 <= k < 256 -> is_addr ex_e [10; 0; 0; k]) by (intros k Hk; split; [reflexivity|repeat constructor; lia]).
    split; [apply (B 9); lia|]. split; [exact Hs|]. split; [exact Ha|].
    destruct Hl as [->|[->| ->]]; (split; [|vm_compute; reflexivity]); repeat constructor; try (apply B; lia); cbn; intuition discriminate. }
  assert (E : o <> None) by (vm_compute; discriminate). destruct o as [[d v]|] eqn:Eo; [|congruence]. exists d.
  split; [apply W; lia || auto|]. split; [apply W; lia || auto|]. split; [apply W; lia || auto|].
  assert (V : match o with Some (_, v) => v | None => [] end = [true; true; true]) by (vm_compute; reflexivity).
  assert (S : match o with Some (d, _) => stored d ex_o [10; 0; 0; 3] | None => None end <> None) by (vm_compute; discriminate).
  rewrite Eo in V, S. subst v. split; [reflexivity|]. split; [vm_compute; split; discriminate || reflexivity|]. split; [vm_compute; split; discriminate || reflexivity|exact S].
Qed.
Print Assumptions C16_after_empty_refuted.

(** C17: what one message does: the links it names are stored with its number,
    links it does not name are removed exactly if they lie in the range it speaks
    for and were last named under an older number; everything else stays. *)
Theorem C17_message_exact : forall e d m post, te_lq e > 0 -> reachable e d -> wf_tmsg e m -> good_flags e m -> m_ents m <> [] ->
  exists r, input_tc e true d (enc_tc m ++ post) = Some r /\
  (r_ret r = true ->
    (forall a, is_addr e a -> stored (r_db r) (m_orig m) a =
      match says (m_ents m) a with
      | Some q => Some (m_ansn m, q)
      | None => match stored d (m_orig m) a with
                | Some (old, q) => if speaks_for e m a && newer (m_ansn m) old then None else Some (old, q)
                | None => None
                end
      end) /\ forall o, o <> m_orig m -> r_db r o = d o) /\
  (r_ret r = false -> forall o a, stored (r_db r) o a = stored d o a).
Proof.
  intros e d m post Hlq Re W G N. destruct (message_exact e Hlq d m post (reach_ok e d Re) W G N) as (r & I & _ & A & B). exists r. auto.
Qed.
Print Assumptions C17_message_exact.

(** C17: after all pieces of a set of links, numbered newer than what was known,
    have been received in order, the links known are exactly those of the pieces
    - with the exception of a link to the address of all ones, see below. *)
Theorem C17_pieces_partial : forall e d vt orig ttl hops seq ansn f frags, te_lq e > 0 -> reachable e d ->
  let ps := pieces (calculate_border_flag (ips e)) vt orig ttl hops seq ansn 255 (f :: frags) in
  Forall (fun f => f <> []) (f :: frags) -> ascending e (concat (f :: frags)) -> Forall (wf_tmsg e) ps ->
  (forall a old q, stored d orig a = Some (old, q) -> newer ansn old = true) ->
  (forall m r, hd_error ps = Some m -> input_tc e true d (enc_tc m) = Some r -> r_ret r = true) ->
  exists d', receive e d (map enc_tc ps) = Some (d', repeat true (length ps)) /\
  forall a, is_addr e a -> a <> repeat 255 (Z.to_nat (ips e)) -> stored d' orig a = option_map (fun q => (ansn, q)) (says (concat (f :: frags)) a).
Proof.
  intros e d vt orig ttl hops seq ansn f frags Hlq Re ps NE AS WF OLD ACC. pose proof (reach_ok e d Re) as K.
  set (upper := match frags with [] => 255 | g :: _ => calculate_border_flag (ips e) (fst (last f ([], []))) (fst (hd ([], []) g)) end).
  set (m := mkTm vt orig ttl hops seq ansn 255 upper f).
  assert (EP : ps = m :: pieces (calculate_border_flag (ips e)) vt orig ttl hops ((seq + 1) mod 65536) ansn upper frags) by reflexivity.
  assert (Wm : wf_tmsg e m) by (rewrite EP in WF; now inversion WF).
  assert (Nf : f <> []) by now inversion NE.
  assert (G : good_flags e m).
  { right. split; [now left|]. cbn [m_upper m]. unfold upper. destruct frags as [|g frags]; [now left|]. right.
    inversion NE as [|? ? _ N2]; subst. inversion N2 as [|? ? Ng _]; subst.
    assert (Af : is_addr e (fst (last f ([], [])))) by (apply (ents_addr e m Wm); exact Nf).
    assert (Ag : is_addr e (fst (hd ([], []) g))).
    { rewrite EP in WF. inversion WF as [|? ? _ Wr]; subst. cbn [pieces] in Wr. inversion Wr as [|? ? Wg _]; subst. apply (ents_addr e _ Wg). exact Ng. }
    cbn [concat] in AS. destruct (ascending_app e f (g ++ concat frags) AS) as (_ & _ & As3).
    assert (Hg : hd ([], []) (g ++ concat frags) = hd ([], []) g) by (destruct g; [congruence|reflexivity]).
    assert (Lt : akey e (fst (last f ([], []))) < akey e (fst (hd ([], []) g))).
    { rewrite <- Hg. apply As3; [exact Nf|]. destruct g; [congruence|discriminate]. }
    destruct (flag_ok e (fst (last f ([], []))) (fst (hd ([], []) g)) Af Ag) as (F1 & _); [intros Q; rewrite Q in Lt; lia|]. exact F1. }
  destruct (message_exact e Hlq d m [] K Wm G Nf) as (r & I & Vr & _). rewrite app_nil_r in I.
  rewrite (ACC m r) in Vr by (auto; rewrite EP; reflexivity).
  assert (LP : forall fr s lo, length (pieces (calculate_border_flag (ips e)) vt orig ttl hops s ansn lo fr) = length fr) by (induction fr; intros; cbn [pieces length]; auto).
  destruct (pieces_all e Hlq vt orig ttl hops ansn (f :: frags) 255 seq d [] (fun _ => false)) as (d' & R & X); auto.
  - now left.
  - destruct Wm as (_ & W & _). exact W.
  - discriminate.
  - intros a old q _ _ S. split; [now apply (OLD a old q)|reflexivity].
  - intros _ a A _. cbn [pieces hd]. unfold lower_end. cbn [m_lower]. change (255 =? 255) with true. cbv iota. now apply key_zero.
  - discriminate.
  - exists d'. unfold ps. rewrite LP. split; [exact R|exact X].
Qed.
Print Assumptions C17_pieces_partial.

Definition ex_f1 : list (list Z * list Z) := [([10; 0; 0; 1], [255; 200]); ([10; 0; 0; 7], [100; 200])].
Definition ex_f2 : list (list Z * list Z) := [([10; 0; 1; 0], [255; 255])].
Definition ex_ps : list tmsg := pieces (calculate_border_flag 4) 134 ex_o 4 1 65535 11 255 [ex_f1; ex_f2].
Example C17_pieces_ex :
  match receive ex_e db0 (map enc_tc (tm 65534 10 255 255 [[10; 0; 0; 4]; [10; 0; 2; 0]; [10; 0; 0; 7]; [9; 0; 0; 1]] :: ex_ps)) with
  | Some (d, v) => v = [true; true; true] /\ option_map (fun t => map ed_dest (tc_edges t)) (d ex_o) = Some [[10; 0; 0; 1]; [10; 0; 0; 7]; [10; 0; 1; 0]] /\ map m_upper ex_ps = [9; 255]
  | None => False
  end.
Proof. vm_compute. repeat split. Qed.

(** C17: addresses compared in network order: a piece that gets lost does not
    remove links it names: whatever pieces arrive, in any order and any number,
    a link known before that is named by some piece is known after. *)
Theorem C17_lost_pieces_partial : forall e vt orig ttl hops seq ansn frags, te_lq e > 0 -> network_order e ->
  Forall (fun f => f <> []) frags -> ascending e (concat frags) ->
  let ps := pieces (calculate_border_flag (ips e)) vt orig ttl hops seq ansn 255 frags in
  Forall (fun m => wf_tmsg e m /\ Forall (fun b => 0 <= b < 256) (enc_tc m)) ps ->
  forall ms d d' v, reachable e d -> Forall (fun m => In m ps) ms -> receive e d (map enc_tc ms) = Some (d', v) ->
  forall x, In x (concat frags) -> stored d orig (fst x) <> None -> stored d' orig (fst x) <> None.
Proof.
  intros e vt orig ttl hops seq ansn frags Hlq NO NE AS ps WFB.
  assert (WF : Forall (wf_tmsg e) ps) by (eapply Forall_impl; [|exact WFB]; cbn; tauto).
  assert (WE : Forall (wf_ent e) (concat frags)).
  { unfold ps in WF. clear - WF. revert WF. generalize 255 seq. induction frags as [|f fr IH]; intros lo s W; [constructor|]. cbn [pieces] in W. cbn [concat].
    inversion W as [|? ? W1 W2]; subst. apply Forall_app. split; [apply W1|now apply (IH _ _ W2)]. }
  assert (GF := pieces_good e vt orig ttl hops ansn frags seq).
  induction ms as [|m ms IH]; intros d d' v Re F R x Hx St; cbn [map receive] in R.
  - apply Some_inj in R. injection R as <- _. exact St.
  - inversion F as [|? ? Hm F']; subst. destruct (input_tc e true d (enc_tc m)) as [r|] eqn:I; [|discriminate].
    destruct (receive e (r_db r) (map enc_tc ms)) as [[d2 v2]|] eqn:R2; [|discriminate]. apply Some_inj in R. injection R as <- _.
    destruct (GF m NE AS WE Hm) as (G & Nm & O). assert (Wm : wf_tmsg e m) by (rewrite Forall_forall in WF; now apply WF).
    apply (IH (r_db r) d2 v2); auto; [apply (R_input e d true (enc_tc m) r Re); [rewrite Forall_forall in WFB; now apply WFB|exact I]|].
    destruct (message_exact e Hlq d m [] (reach_ok e d Re) Wm G Nm) as (r' & I' & _ & A & B). rewrite app_nil_r in I'.
    assert (r' = r) by congruence. subst r'. destruct (r_ret r) eqn:V.
    + destruct (A eq_refl) as (A1 & _). rewrite O in A1. rewrite A1 by (rewrite Forall_forall in WE; now apply WE).
      destruct (says (m_ents m) (fst x)) eqn:S; [discriminate|]. destruct (stored d orig (fst x)) as [[old q]|]; [|congruence].
      rewrite (not_mine e vt orig ttl hops ansn frags seq m NO NE AS WE Hm x Hx); [discriminate|].
      intros Hi. revert S. clear - Hi. induction (m_ents m) as [|[b q] l IHl]; [contradiction|]. cbn [says]. destruct Hi as [Hi|Hi].
      * subst x. cbn [fst]. destruct (says l b); [discriminate|]. destruct (list_eq_dec Z.eq_dec b b); [discriminate|congruence].
      * intros Q. apply (IHl Hi). destruct (says l (fst x)); [discriminate|reflexivity].
    + rewrite (B eq_refl). exact St.
Qed.
Print Assumptions C17_lost_pieces_partial.


Example C17_lost_pieces_ex :
  match receive ex_e db0 (map enc_tc (tm 65534 10 255 255 [[10; 0; 0; 1]; [10; 0; 0; 7]; [10; 0; 1; 0]] :: rev ex_ps)) with
  | Some (d, v) => option_map (fun t => map ed_dest (tc_edges t)) (d ex_o) = Some [[10; 0; 0; 1]; [10; 0; 0; 7]; [10; 0; 1; 0]]
  | None => False
  end.
Proof. vm_compute. reflexivity. Qed.

Definition db_of (o : option (tcdb * list bool)) : tcdb := match o with Some (d, _) => d | None => db0 end.
Lemma pick o v : option_map snd o = Some v -> o = Some (db_of o, v).
Proof. destruct o as [[d w]|]; cbn; intros H; [now apply Some_inj in H; subst|discriminate]. Qed.
Definition res_of (o : option tcres) : tcres := match o with Some r => r | None => mkRes db0 false false None false false end.
Lemma pickr o : option_map (fun _ => 0) o = Some 0 -> o = Some (res_of o).
Proof. destruct o; [reflexivity|discriminate]. Qed.

(** With addresses compared as little endian numbers (IPv4 on such a machine)
    the statement is false: the second of two pieces, cut as the sender of this
    very program would cut them, takes away a link that the first one names. *)
Definition le_f1 : list (list Z * list Z) := [([10; 0; 0; 1], [255; 255])].
Definition le_f2 : list (list Z * list Z) := [([9; 0; 0; 2], [255; 255])].
Definition le_ps : list tmsg := pieces (calculate_border_flag 4) 134 ex_o 4 1 101 11 255 [le_f1; le_f2].
Theorem C17_little_endian_refuted : exists d r m,
  ascending ex_le (concat [le_f1; le_f2]) /\
  receive ex_le db0 [enc_tc (tm 100 10 255 255 [[10; 0; 0; 1]; [9; 0; 0; 2]])] = Some (d, [true]) /\
  In m le_ps /\ input_tc ex_le true d (enc_tc m) = Some r /\ r_ret r = true /\
  stored d ex_o [10; 0; 0; 1] <> None /\ stored (r_db r) ex_o [10; 0; 0; 1] = None.
Proof.
  pose (o := receive ex_le db0 [enc_tc (tm 100 10 255 255 [[10; 0; 0; 1]; [9; 0; 0; 2]])]). pose (m := nth 1 le_ps (tm 0 0 0 0 [])).
  exists (db_of o), (res_of (input_tc ex_le true (db_of o) (enc_tc m))), m.
  split; [vm_compute; repeat split|]. split; [apply pick; vm_compute; reflexivity|]. split; [right; left; reflexivity|].
  split; [apply pickr; vm_compute; reflexivity|]. vm_compute. repeat split; discriminate.
Qed.
Print Assumptions C17_little_endian_refuted.

(** An originator that starts again with a lower number: even a message that
    speaks for all addresses leaves old links in place. *)
Theorem C17_restart_refuted : exists d m0 m1 m2,
  receive ex_e db0 (map enc_tc [m0; m1; m2]) = Some (d, [true; false; true]) /\
  m_lower m2 = 255 /\ m_upper m2 = 255 /\ m_ents m2 <> [] /\ says (m_ents m2) [10; 0; 0; 1] = None /\ stored d ex_o [10; 0; 0; 1] = Some (300, [255; 255]).
Proof.
  exists (db_of (receive ex_e db0 (map enc_tc [tm 20000 300 255 255 [[10; 0; 0; 1]]; tm 1 1 255 255 [[10; 0; 0; 2]]; tm 2 1 255 255 [[10; 0; 0; 2]]]))),
    (tm 20000 300 255 255 [[10; 0; 0; 1]]), (tm 1 1 255 255 [[10; 0; 0; 2]]), (tm 2 1 255 255 [[10; 0; 0; 2]]).
  split; [apply pick; vm_compute; reflexivity|]. vm_compute. repeat split; discriminate.
Qed.
Print Assumptions C17_restart_refuted.

(** The link to the address of all ones is in no range and so never removed. *)
Theorem C17_ones_refuted : exists d m0 m1,
  wf_tmsg ex_e m0 /\ receive ex_e db0 (map enc_tc [m0; m1]) = Some (d, [true; true]) /\ newer (m_ansn m1) (m_ansn m0) = true /\
  m_lower m1 = 255 /\ m_upper m1 = 255 /\ says (m_ents m1) [255; 255; 255; 255] = None /\ stored d ex_o [255; 255; 255; 255] <> None.
Proof.
  exists (db_of (receive ex_e db0 (map enc_tc [tm 100 10 255 255 [[10; 0; 0; 1]; [255; 255; 255; 255]]; tm 101 11 255 255 [[10; 0; 0; 1]]]))),
    (tm 100 10 255 255 [[10; 0; 0; 1]; [255; 255; 255; 255]]), (tm 101 11 255 255 [[10; 0; 0; 1]]).
  split; [split; [split; [reflexivity|repeat constructor; cbn; lia]|split; [cbn; lia|split; [cbn; lia|split; [|vm_compute; reflexivity]]]];
    repeat constructor; cbn; try lia; intuition discriminate|].
  split; [apply pick; vm_compute; reflexivity|]. vm_compute. repeat split; discriminate.
Qed.
Print Assumptions C17_ones_refuted.

(** C58: the two flag bytes of a topology message are used as an index without
    a check: most pairs of values make the program write beside an address. *)
Theorem C58_flags_refuted : exists m, wf_tmsg ex_e m /\ m_lower m = 255 /\ input_tc ex_e true db0 (enc_tc m ++ repeat 0 1000) = None.
Proof.
  exists (tm 100 10 255 200 [[10; 0; 0; 1]]). split; [|split; vm_compute; reflexivity].
  split; [split; [reflexivity|repeat constructor; cbn; lia]|split; [cbn; lia|split; [cbn; lia|split; [|vm_compute; reflexivity]]]];
    repeat constructor; cbn; try lia; intuition discriminate.
Qed.
Print Assumptions C58_flags_refuted.
Theorem C58_zero_refuted : exists m, wf_tmsg ex_e m /\ m_lower m = 0 /\ m_upper m = 255 /\ input_tc ex_e true db0 (enc_tc m ++ repeat 0 1000) = None.
Proof.
  exists (tm 100 10 0 255 [[10; 0; 0; 1]]). split; [|repeat split; vm_compute; reflexivity].
  split; [split; [reflexivity|repeat constructor; cbn; lia]|split; [cbn; lia|split; [cbn; lia|split; [|vm_compute; reflexivity]]]];
    repeat constructor; cbn; try lia; intuition discriminate.
Qed.
Print Assumptions C58_zero_refuted.

(** C58, C61: what makes the processing of arbitrary bytes safe: flags a sender
    would produce, and room after the end of the message for one more record. *)
Theorem C61_slack_partial : forall e sym d buf size lower upper, rd16 buf 2 = Some size -> rd8 buf (10 + ips e) = Some lower -> rd8 buf (11 + ips e) = Some upper ->
  Z.max size (12 + ips e) + ips e + 2 <= blen buf ->
  (lower = 0 /\ upper = 0) \/ ((lower = 255 \/ 1 <= lower <= 8 * ips e) /\ (upper = 255 \/ 1 <= upper <= 8 * ips e)) ->
  input_tc e sym d buf <> None.
Proof. exact input_some. Qed.
Print Assumptions C61_slack_partial.
Example C61_slack_ex : match input_tc ex_e true db0 ([202; 134; 0; 21; 10; 0; 0; 9; 4; 1; 0; 100; 0; 10; 255; 32; 10; 0; 0; 1; 255] ++ [9; 9; 9; 9; 9; 9]) with Some r => r_ret r = true | None => False end.
Proof. vm_compute. reflexivity. Qed.

(** C61: the size field need not be a whole number of records: the last one is
    read beyond the end of the message and of the packet. *)
Theorem C61_overread_refuted : exists buf, Forall (fun b => 0 <= b < 256) buf /\ rd16 buf 2 = Some (blen buf) /\ 12 + ips ex_e <= blen buf /\
  rd8 buf (10 + ips ex_e) = Some 255 /\ rd8 buf (11 + ips ex_e) = Some 255 /\ input_tc ex_e true db0 buf = None.
Proof.
  exists [202; 134; 0; 21; 10; 0; 0; 9; 4; 1; 0; 100; 0; 10; 255; 255; 10; 0; 0; 1; 255].
  split; [repeat constructor; lia|]. repeat split; vm_compute; congruence.
Qed.
Print Assumptions C61_overread_refuted.

(** C59: an address that the configuration excludes, named in a message, makes
    the program read the rest of the message shifted: a link is stored that no
    record of the message names. *)
Theorem C59_denied_refuted : exists ents post d r, Forall (fun x => is_addr ex_e (fst x) /\ length (snd x) = 2%nat) ents /\
  input_tc ex_e true d (enc_tc (mkTm 134 ex_o 4 1 100 10 255 255 ents) ++ post) = Some r /\
  exists a, says ents a = None /\ stored d ex_o a = None /\ stored (r_db r) ex_o a <> None.
Proof.
  pose (ents := [([127; 0; 0; 1], [255; 255]); ([10; 0; 0; 2], [255; 255]); ([10; 0; 0; 3], [1; 2])]).
  exists ents, (repeat 0 8), db0, (res_of (input_tc ex_e true db0 (enc_tc (mkTm 134 ex_o 4 1 100 10 255 255 ents) ++ repeat 0 8))).
  split; [repeat constructor; cbn; lia|]. split; [apply pickr; vm_compute; reflexivity|]. exists [255; 255; 0; 0]. vm_compute. repeat split; discriminate.
Qed.
Print Assumptions C59_denied_refuted.

(** C60: with link quality switched off, messages of the standard format (no
    quality behind an address) are read with the wrong step: every second address
    is taken for a quality. *)
Definition ex_rfc : tenv := mkTenv false false 0 0 (deny_init false).
Theorem C60_standard_tc_refuted : exists buf r, Forall (fun b => 0 <= b < 256) buf /\ rd8 buf 0 = Some TC_MESSAGE /\
  slice buf 16 8 = [10; 0; 0; 1; 10; 0; 0; 2] /\ rd16 buf 2 = Some 24 /\
  input_tc ex_rfc true db0 buf = Some r /\ r_ret r = true /\ stored (r_db r) ex_o [10; 0; 0; 1] <> None /\ stored (r_db r) ex_o [10; 0; 0; 2] = None.
Proof.
  pose (buf := [2; 134; 0; 24; 10; 0; 0; 9; 4; 1; 0; 100; 0; 10; 0; 0; 10; 0; 0; 1; 10; 0; 0; 2]).
  exists buf, (res_of (input_tc ex_rfc true db0 buf)). split; [repeat constructor; lia|]. split; [reflexivity|]. split; [reflexivity|]. split; [reflexivity|].
  split; [apply pickr; vm_compute; reflexivity|]. vm_compute. repeat split; discriminate.
Qed.
Print Assumptions C60_standard_tc_refuted.

(** Proofs about sequences of topology messages: the verdicts, and the pieces of
    a large set of links. *)
From Verif Require Import Base Bytes Compare CompareProofs Parser HelloSpec HelloProofs Tc TcSpec TcBase TcProofs.

(** * Verdicts *)
Section Verdicts.
Variable e : tenv.
Hypothesis Hlq : te_lq e > 0.

(** the entry of an originator after message ([s], [a]) was processed and [n]
    recent messages and the stray message [es] were rejected *)
Definition st_is (t : tcent) (s a n : Z) (es : option Z) : Prop :=
  tc_edges t <> [] /\ tc_seq t = s /\ tc_ansn t = a /\ tc_ignored t = n /\ tc_errv t = (match es with Some _ => true | None => false end) /\
  match es with Some x => tc_err t = x | None => True end.
Definition verdict_of (s a n : Z) (es : option Z) (m : tmsg) : bool :=
  if is_recent s a m then negb (s =? m_seq m) && (32 <=? n)
  else if is_newer s a m then true else match es with Some x => negb (x =? m_seq m) | None => false end.

Lemma check_is t s a n es m : st_is t s a n es -> 0 <= s < 65536 -> 0 <= a < 65536 -> 0 <= m_seq m < 65536 -> 0 <= m_ansn m < 65536 -> 0 <= n < 60000 ->
  let c := tc_check t (m_seq m) (m_ansn m) in
  snd c = verdict_of s a n es m /\
  (snd c = false -> st_is (fst c) s a (if is_recent s a m && negb (s =? m_seq m) then n + 1 else n)
     (if is_stray s a m then Some (match es with Some x => x | None => m_seq m end) else es)).
Proof.
  intros (E & Hs & Ha & Hn & Hv & He) Rs Ra Rm Rn Rg c. subst c. unfold tc_check. destruct (tc_edges t) as [|ed l] eqn:Ee; [congruence|].
  rewrite Hs, Ha. unfold TC_SEQNO_WINDOW, TC_ANSN_WINDOW, TC_SEQNO_WINDOW_MULT, TC_ANSN_WINDOW_MULT.
  rewrite (high_old s (m_seq m) 1024), (high_old a (m_ansn m) 256), (high_new s (m_seq m) (1024 * 8)), (low_new a (m_ansn m) (256 * 4)) by lia.
  change (1024 * 8) with 8192. change (256 * 4) with 1024.
  unfold verdict_of. unfold is_recent, is_newer, is_stray, is_newer, is_recent.
  destruct ((ahead (m_seq m) s <? 1024) && (ahead (m_ansn m) a <? 256)) eqn:R.
  - cbn [negb andb]. rewrite !andb_false_r. destruct (Z.eqb_spec s (m_seq m)) as [Q|Q]; cbn [negb andb fst snd].
    + split; [reflexivity|]. intros _. unfold st_is. rewrite Ee. auto 10.
    + split; [lia|]. intros _. unfold st_is. cbn [tc_edges tc_seq tc_ansn tc_ignored tc_errv tc_err]. rewrite Hn. unfold u16.
      repeat split; auto; try congruence. lia.
  - cbn [andb negb]. rewrite andb_true_r.
    destruct ((1 <=? ahead s (m_seq m)) && (ahead s (m_seq m) <=? 8192)) eqn:N1, (ahead a (m_ansn m) <? 1024) eqn:N2; cbn [andb orb negb fst snd];
      try (split; [reflexivity|discriminate]);
      (destruct es as [x|]; rewrite Hv; cbn [tc_err]; [rewrite He; split; [reflexivity|]; intros _; unfold st_is; rewrite Ee, Hv; auto 10
        |split; [lia|]; intros _; unfold st_is; cbn [tc_edges tc_seq tc_ansn tc_ignored tc_errv tc_err]; repeat split; auto; congruence]).
Qed.

Definition stray_of (s a : Z) (l : list tmsg) : option Z := match filter (is_stray s a) l with [] => None | m :: _ => Some (m_seq m) end.
Definition recents (s a : Z) (l : list tmsg) : list tmsg := filter (fun m => is_recent s a m && negb (s =? m_seq m)) l.

Lemma input_reject d m post t r : dbok e d -> wf_tmsg e m -> d (m_orig m) = Some t ->
  input_tc e true d (enc_tc m ++ post) = Some r -> r_ret r = snd (tc_check t (m_seq m) (m_ansn m)) /\
  (r_ret r = false -> r_db r (m_orig m) = Some (fst (tc_check t (m_seq m) (m_ansn m)))).
Proof.
  intros K W T. rewrite (input_enc e Hlq d m post W K). unfold outcome, checked. rewrite T. destruct (tc_check t (m_seq m) (m_ansn m)) as [t1 go].
  destruct go; cbn [negb fst snd].
  - destruct (the_border e m) as [[b|]|]; [| |discriminate]; destruct (m_ents m); intros Q; apply Some_inj in Q; subst; cbn [r_ret]; split; auto; discriminate.
  - intros Q. apply Some_inj in Q. subst. cbn [r_ret r_db]. split; [reflexivity|]. intros _. apply db_put_same.
Qed.
Lemma enc16_bytes n : 0 <= n < 65536 -> Forall (fun b => 0 <= b < 256) (enc16 n).
Proof. intros H. unfold enc16. repeat constructor; lia. Qed.

Lemma run_reject orig s a : 0 <= s < 65536 -> 0 <= a < 65536 -> forall l d t n es d',
  dbok e d -> d orig = Some t -> st_is t s a n es -> 0 <= n <= 32 ->
  Forall (fun m => wf_tmsg e m /\ m_orig m = orig) l -> receive e d (map enc_tc l) = Some (d', repeat false (length l)) ->
  dbok e d' /\ exists t', d' orig = Some t' /\
    st_is t' s a (n + Z.of_nat (length (recents s a l))) (match es with Some x => Some x | None => stray_of s a l end) /\
    n + Z.of_nat (length (recents s a l)) <= 32 /\
    (forall x, match es with Some x => Some x | None => stray_of s a l end = Some x -> Forall (fun m => is_stray s a m = true -> m_seq m = x) l).
Proof.
  intros Rs Ra. induction l as [|m l IH]; intros d t n es d' K T S Hn F R.
  - cbn [map receive length repeat] in R. apply Some_inj in R. injection R as <-. split; [exact K|]. exists t. cbn [recents filter length]. rewrite Z.add_0_r.
    split; [exact T|]. split; [destruct es; exact S|]. split; [lia|]. intros x _. constructor.
  - inversion F as [|? ? (W & O) F2]; subst orig. cbn [map receive length repeat] in R.
    destruct (input_tc e true d (enc_tc m)) as [r|] eqn:I; [|discriminate].
    destruct (receive e (r_db r) (map enc_tc l)) as [[d2 v]|] eqn:R2; [|discriminate]. apply Some_inj in R. injection R as -> Q1 ->.
    assert (I' : input_tc e true d (enc_tc m ++ []) = Some r) by now rewrite app_nil_r.
    destruct (input_reject d m [] t r K W T I') as (V & U). specialize (U Q1). rewrite Q1 in V. symmetry in V.
    pose proof W as (Wo & Ws & Wa & _ & _).
    assert (LE : 0 <= n < 60000) by lia.
    destruct (check_is t s a n es m S Rs Ra Ws Wa LE) as (C1 & C2). cbv zeta in *. specialize (C2 V). rewrite V in C1.
    set (n1 := if is_recent s a m && negb (s =? m_seq m) then n + 1 else n) in *.
    set (es1 := if is_stray s a m then Some (match es with Some x => x | None => m_seq m end) else es) in *.
    assert (K1 : dbok e (r_db r)).
    { rewrite (input_enc e Hlq d m [] W K) in I'. unfold outcome in I'. destruct (checked d m) as [t1 go] eqn:Ck.
      destruct go; cbn [negb] in I'.
      - exfalso. destruct (the_border e m) as [[b|]|]; [| |discriminate]; destruct (m_ents m); apply Some_inj in I'; subst r; discriminate.
      - apply Some_inj in I'. subst r. cbn [r_db]. intros o t' Q. destruct (list_eq_dec Z.eq_dec o (m_orig m)) as [->|N].
        + rewrite db_put_same in Q. apply Some_inj in Q. subst t'. unfold checked in Ck. rewrite T in Ck.
          replace t1 with (fst (tc_check t (m_seq m) (m_ansn m))) by now rewrite Ck. apply tc_check_tok. now apply (K (m_orig m)).
        + rewrite db_put_other in Q by exact N. now apply (K o). }
    assert (RL : Z.of_nat (length (recents s a (m :: l))) = (if is_recent s a m && negb (s =? m_seq m) then 1 else 0) + Z.of_nat (length (recents s a l))).
    { unfold recents. cbn [filter]. destruct (is_recent s a m && negb (s =? m_seq m)); cbn [length]; lia. }
    assert (N1 : n1 + Z.of_nat (length (recents s a l)) = n + Z.of_nat (length (recents s a (m :: l)))).
    { rewrite RL. unfold n1. destruct (is_recent s a m && negb (s =? m_seq m)); lia. }
    assert (N32 : 0 <= n1 <= 32).
    { unfold n1. unfold verdict_of in C1. destruct (is_recent s a m); [|cbn [andb]; exact Hn].
      destruct (s =? m_seq m); cbn [negb andb] in *; lia. }
    assert (E1 : match es1 with Some x => Some x | None => stray_of s a l end = match es with Some x => Some x | None => stray_of s a (m :: l) end).
    { unfold es1, stray_of. cbn [filter]. destruct (is_stray s a m), es; reflexivity. }
    destruct (IH (r_db r) _ n1 es1 d' K1 U C2 N32 F2 R2)
      as (K2 & t' & T' & S' & B' & X').
    rewrite N1, E1 in S'. rewrite N1 in B'. split; [exact K2|]. exists t'. split; [exact T'|]. split; [exact S'|]. split.
    + exact B'.
    + intros zz Hx. rewrite E1 in X'. constructor; [|exact (X' zz Hx)]. intros St.
      rewrite <- E1 in Hx. unfold es1 in Hx. rewrite St in Hx. apply Some_inj in Hx.
      unfold verdict_of in C1. unfold is_stray in St. apply andb_true_iff in St. destruct St as (S1 & S2).
      destruct (is_newer s a m); [discriminate|]. destruct (is_recent s a m); [discriminate|]. destruct es as [y|]; [|congruence].
      subst zz. destruct (Z.eqb_spec y (m_seq m)); [congruence|discriminate].
Qed.
End Verdicts.

(** * The pieces of a set of links *)
Section Pieces.
Variable e : tenv.
Hypothesis Hlq : te_lq e > 0.
Variables (vt : Z) (orig : list Z) (ttl hops ansn : Z).
Notation flag := (calculate_border_flag (ips e)).
Notation pcs := (pieces flag vt orig ttl hops).

Lemma says_app l1 l2 a : says (l1 ++ l2) a = match says l2 a with Some q => Some q | None => says l1 a end.
Proof.
  induction l1 as [|[b q] l1 IH]; cbn [app says]; [destruct (says l2 a); reflexivity|]. rewrite IH. destruct (says l2 a); reflexivity.
Qed.
Lemma ascending_app l1 : forall l2, ascending e (l1 ++ l2) -> ascending e l1 /\ ascending e l2 /\
  (l1 <> [] -> l2 <> [] -> akey e (fst (last l1 ([], []))) < akey e (fst (hd ([], []) l2))).
Proof.
  induction l1 as [|x l1 IH]; intros l2 A; cbn [app] in *; [repeat split; auto; congruence|].
  cbn [ascending] in A. destruct A as (A1 & A2). destruct (IH l2 A2) as (B1 & B2 & B3). split; [|split; [exact B2|]].
  - cbn [ascending]. split; [|exact B1]. destruct l1; [exact Logic.I|exact A1].
  - intros _ N2. destruct l1 as [|y l1]; [cbn [app last] in *; destruct l2; [congruence|exact A1]|].
    replace (last (x :: y :: l1) ([], [])) with (last (y :: l1) ([], [])) by reflexivity. apply B3; congruence.
Qed.
Lemma key_ones a : is_addr e a -> a <> repeat 255 (Z.to_nat (ips e)) -> akey e a < akey e (of_val (Z.to_nat (ips e)) (256 ^ ips e - 1)).
Proof.
  intros (L & F) N.
  assert (G : forall b, is_addr e b -> 0 <= akey e b <= 256 ^ ips e - 1).
  { intros b (Lb & Fb). unfold akey. assert (Lb' : Z.of_nat (length b) = ips e) by exact Lb. destruct (te_v6 e || negb (te_little e)).
    - pose proof (val_range b Fb) as R. rewrite Lb' in R. lia.
    - assert (Fr : bytesl (rev b)) by (apply Forall_forall; intros x Hx; apply in_rev in Hx; unfold bytesl in Fb; rewrite Forall_forall in Fb; auto).
      pose proof (val_range (rev b) Fr) as R. rewrite rev_length, Lb' in R. lia. }
  rewrite <- (ips_val e) at 2. rewrite <- repeat_val1.
  assert (O : akey e (repeat 255 (Z.to_nat (ips e))) = 256 ^ ips e - 1).
  { unfold akey. assert (Rv : rev (repeat 255 (Z.to_nat (ips e))) = repeat 255 (Z.to_nat (ips e))) by (unfold ips; destruct (te_v6 e); reflexivity).
    rewrite Rv. assert (V : val (repeat 255 (Z.to_nat (ips e))) = 256 ^ ips e - 1) by (unfold ips; destruct (te_v6 e); reflexivity).
    rewrite V. destruct (te_v6 e || negb (te_little e)); reflexivity. }
  pose proof (G a (conj L F)) as Ga. destruct (Z.eq_dec (akey e a) (256 ^ ips e - 1)) as [Q|Q]; [|lia].
  exfalso. apply N. apply (akey_inj e); [split; auto|apply is_addr_ones|congruence].
Qed.
Lemma key_zero a : is_addr e a -> akey e (of_val (Z.to_nat (ips e)) 0) <= akey e a.
Proof.
  intros (L & F). assert (Z0 : akey e (of_val (Z.to_nat (ips e)) 0) = 0).
  { rewrite <- repeat_val0. unfold akey. unfold ips. destruct (te_v6 e), (te_little e); reflexivity. }
  rewrite Z0. unfold akey. destruct (te_v6 e || negb (te_little e)).
  - pose proof (val_range a F). lia.
  - assert (Fr : bytesl (rev a)) by (apply Forall_forall; intros x Hx; apply in_rev in Hx; unfold bytesl in F; rewrite Forall_forall in F; auto).
    pose proof (val_range (rev a) Fr). lia.
Qed.

(** the verdict about a piece that follows another *)
Lemma next_verdict d t m s : d (m_orig m) = Some t -> tc_edges t <> [] -> tc_seq t = s -> tc_ansn t = m_ansn m -> 0 <= s < 65536 -> 0 <= m_ansn m < 65536 ->
  m_seq m = (s + 1) mod 65536 -> snd (checked d m) = true.
Proof.
  intros T N S A Rs Ra M. unfold checked. rewrite T. unfold tc_check. destruct (tc_edges t); [congruence|].
  rewrite S, A, M. unfold TC_SEQNO_WINDOW, TC_ANSN_WINDOW, TC_SEQNO_WINDOW_MULT, TC_ANSN_WINDOW_MULT.
  rewrite (high_old s ((s + 1) mod 65536) 1024), (high_old (m_ansn m) (m_ansn m) 256), (high_new s ((s + 1) mod 65536) (1024 * 8)), (low_new (m_ansn m) (m_ansn m) (256 * 4)) by lia.
  replace (ahead ((s + 1) mod 65536) s) with 65535 by (unfold ahead; lia). replace (ahead s ((s + 1) mod 65536)) with 1 by (unfold ahead; lia).
  replace (ahead (m_ansn m) (m_ansn m)) with 0 by (unfold ahead; lia). reflexivity.
Qed.
Lemma after_accept d m post r : dbok e d -> wf_tmsg e m -> m_ents m <> [] -> good_flags e m ->
  input_tc e true d (enc_tc m ++ post) = Some r -> r_ret r = true ->
  dbok e (r_db r) /\ exists t, r_db r (m_orig m) = Some t /\ tc_edges t <> [] /\ tc_seq t = m_seq m /\ tc_ansn t = m_ansn m /\ tc_ignored t = 0 /\ tc_errv t = false.
Proof.
  intros K W N G I V. destruct (message_exact e Hlq d m post K W G N) as (r' & I' & _ & X & _). rewrite I in I'. apply Some_inj in I'. subst r'.
  destruct (X V) as (X1 & _). clear X. destruct (ents_addr e m W N) as (A1 & _).
  assert (St : stored (r_db r) (m_orig m) (fst (hd ([], []) (m_ents m))) <> None).
  { rewrite X1 by exact A1. destruct (m_ents m) as [|[b q] xs]; [congruence|]. cbn [hd fst says]. destruct (says xs b); [discriminate|].
    destruct (list_eq_dec Z.eq_dec b b); [discriminate|congruence]. }
  rewrite (input_enc e Hlq d m post W K) in I. unfold outcome in I. destruct (checked d m) as [t1 go] eqn:C. destruct go; cbn [negb] in I; [|apply Some_inj in I; subst r; discriminate].
  rewrite (the_border_ok e m W N G) in I.
  assert (Kl : eok e (fold_left (put_ent e (m_ansn m)) (m_ents m) (old_edges d (m_orig m)))).
  { destruct W as (_ & _ & Wa & We & _). apply puts_ok; auto. now apply old_ok. }
  set (l := fold_left (put_ent e (m_ansn m)) (m_ents m) (old_edges d (m_orig m))) in *. cbv zeta in I.
  set (b := if (m_lower m =? 0) && (m_upper m =? 0) then None else Some (lower_end e m, upper_end e m)) in *.
  set (l' := match b with Some (lo, up) => revoke e (m_ansn m) lo up false l | None => l end) in *.
  assert (Kl' : eok e l').
  { unfold l', b. destruct ((m_lower m =? 0) && (m_upper m =? 0)); [exact Kl|]. apply revoke_ok; [apply lower_addr|apply upper_addr|exact Kl]. }
  assert (D : r_db r = db_put d (m_orig m) (Some (mkTc (m_hops m) (m_seq m) (m_ansn m) 0 (tc_err t1) false l'))).
  { clearbody l'. destruct b as [p|], (m_ents m) as [|x xs]; try congruence; apply Some_inj in I; subst r; reflexivity. }
  split.
  - rewrite D. intros o t Q. destruct (list_eq_dec Z.eq_dec o (m_orig m)) as [->|No].
    + rewrite db_put_same in Q. apply Some_inj in Q. subst t. destruct W as (_ & Ws & Wa & _). split; [exact Kl'|]. cbn; auto.
    + rewrite db_put_other in Q by exact No. now apply (K o).
  - exists (mkTc (m_hops m) (m_seq m) (m_ansn m) 0 (tc_err t1) false l'). rewrite D, db_put_same. repeat split. cbn [tc_edges]. intros Q.
    rewrite D in St. unfold stored in St. rewrite db_put_same in St. cbn [tc_edges] in St. rewrite Q in St. now apply St.
Qed.

Definition good_lower (lower : Z) : Prop := lower = 255 \/ 1 <= lower <= 8 * ips e.
Lemma pieces_all frags : forall lower seq d fin (cov : list Z -> bool),
  Forall (fun f => f <> []) frags -> ascending e (concat frags) -> Forall (wf_tmsg e) (pcs seq ansn lower frags) -> good_lower lower -> 0 <= seq < 65536 ->
  dbok e d ->
  match frags with [] => True | f :: rest => snd (checked d (hd (mkTm 0 [] 0 0 0 0 0 0 []) (pcs seq ansn lower frags))) = true end ->
  (forall a q, is_addr e a -> says fin a = Some q -> stored d orig a = Some (ansn, q)) ->
  (forall a old q, is_addr e a -> says fin a = None -> stored d orig a = Some (old, q) -> newer ansn old = true /\ cov a = false) ->
  (frags <> [] -> forall a, is_addr e a -> cov a = false -> akey e (lower_end e (hd (mkTm 0 [] 0 0 0 0 0 0 []) (pcs seq ansn lower frags))) <= akey e a) ->
  (frags = [] -> forall a, is_addr e a -> cov a = false -> a = repeat 255 (Z.to_nat (ips e))) ->
  exists d', receive e d (map enc_tc (pcs seq ansn lower frags)) = Some (d', repeat true (length frags)) /\
  forall a, is_addr e a -> a <> repeat 255 (Z.to_nat (ips e)) -> stored d' orig a = option_map (fun q => (ansn, q)) (says (fin ++ concat frags) a).
Proof.
  induction frags as [|f rest IH]; intros lower seq d fin cov NE AS WF GL RS K V HD HN HC HE.
  - cbn [pieces map receive length repeat concat]. exists d. split; [reflexivity|]. intros a A No. rewrite app_nil_r.
    destruct (says fin a) as [q|] eqn:S; [now apply HD|]. destruct (stored d orig a) as [[old q]|] eqn:Sd; [|reflexivity].
    destruct (HN a old q A S Sd) as (_ & Cv). exfalso. apply No. now apply (HE eq_refl).
  - inversion NE as [|? ? Nf Nr]; subst. cbn [concat] in AS. destruct (ascending_app f (concat rest) AS) as (As1 & As2 & As3).
    set (upper := match rest with [] => 255 | g :: _ => flag (fst (last f ([], []))) (fst (hd ([], []) g)) end).
    set (m := mkTm vt orig ttl hops seq ansn lower upper f).
    assert (PE : pcs seq ansn lower (f :: rest) = m :: pcs ((seq + 1) mod 65536) ansn upper rest) by reflexivity.
    rewrite PE in *. cbn [hd] in *. inversion WF as [|? ? Wm Wr]; subst.
    assert (GU : good_lower upper /\ (rest <> [] -> border (ips e) upper (fst (last f ([], []))) = border (ips e) upper (fst (hd ([], []) (concat rest))))).
    { unfold upper. destruct rest as [|g rest]; [split; [now left|congruence]|]. inversion Nr as [|? ? Ng _]; subst.
      assert (Hg : hd ([], []) (concat (g :: rest)) = hd ([], []) g) by (destruct g; [congruence|reflexivity]).
      rewrite Hg in *. assert (Af : is_addr e (fst (last f ([], [])))) by (apply (ents_addr e m Wm); exact Nf).
      assert (Ag : is_addr e (fst (hd ([], []) g))).
      { cbn [pieces] in Wr. inversion Wr as [|? ? Wg _]; subst. apply (ents_addr e _ Wg). exact Ng. }
      assert (Lt : akey e (fst (last f ([], []))) < akey e (fst (hd ([], []) g))).
      { apply As3; [exact Nf|]. cbn [concat]. destruct g; [congruence|discriminate]. }
      destruct (flag_ok e (fst (last f ([], []))) (fst (hd ([], []) g)) Af Ag) as (F1 & F2 & _); [intros Q; rewrite Q in Lt; lia|].
      split; [right; exact F1|intros _; exact F2]. }
    destruct GU as (GU & BU).
    assert (GF : good_flags e m) by (right; split; [exact GL|exact GU]).
    destruct (message_exact e Hlq d m [] K Wm GF Nf) as (r & I & Vr & X & _). rewrite V in Vr.
    destruct (X Vr) as (X1 & _). clear X. destruct (after_accept d m [] r K Wm Nf GF I Vr) as (K1 & t & T & Te & Ts & Ta & _).
    rewrite app_nil_r in I. cbn [map receive]. rewrite I. cbn [m_orig m_ents m_ansn m] in X1.
    assert (Z0 : negb ((m_lower m =? 0) && (m_upper m =? 0)) = true) by (cbn [m_lower m]; destruct GL; lia).
    destruct (IH upper ((seq + 1) mod 65536) (r_db r) (fin ++ f) (fun a => cov a || speaks_for e m a)) as (d' & R & Fi); auto.
    + lia.
    + destruct rest as [|g rest]; [exact Logic.I|]. cbn [pieces hd]. apply (next_verdict (r_db r) t _ seq); auto; cbn [m_orig m_ansn m]; auto.
      destruct Wm as (_ & _ & Wa & _). exact Wa.
    + intros a q A S. rewrite says_app in S. rewrite X1 by exact A. destruct (says f a) as [q'|]; [apply Some_inj in S; now subst|].
      rewrite (HD a q A S). replace (newer ansn ansn) with false by (unfold newer, ahead; lia). now rewrite andb_false_r.
    + intros a old q A S St. rewrite says_app in S. rewrite X1 in St by exact A. destruct (says f a) as [q'|]; [discriminate|].
      destruct (stored d orig a) as [[o1 q1]|] eqn:Sd; [|discriminate]. destruct (HN a o1 q1 A S Sd) as (H1 & H2).
      rewrite H1, andb_true_r in St. destruct (speaks_for e m a); [discriminate|]. apply Some_inj in St. injection St as <- <-. rewrite H1, H2. auto.
    + intros Nre a A Cv. apply orb_false_iff in Cv. destruct Cv as (C1 & C2).
      assert (L1 := HC ltac:(discriminate) a A C1). unfold speaks_for in C2. rewrite Z0 in C2. cbn [andb] in C2.
      replace (akey e (lower_end e m) <=? akey e a) with true in C2 by lia. cbn [andb] in C2.
      destruct rest as [|g rest]; [congruence|]. cbn [pieces hd].
      assert (Ue : upper_end e m = lower_end e (hd (mkTm 0 [] 0 0 0 0 0 0 []) (pcs ((seq + 1) mod 65536) ansn upper (g :: rest)))).
      { cbn [pieces hd]. unfold upper_end, lower_end. cbn [m_upper m_lower m_ents m].
        destruct (Z.eqb_spec upper 255) as [Q|Q].
        - exfalso. destruct GU as [GU|GU]; [|unfold ips in GU; destruct (te_v6 e); lia].
          unfold upper in GU. inversion Nr as [|? ? Ng _]; subst.
          assert (Af : is_addr e (fst (last f ([], [])))) by (apply (ents_addr e m Wm); exact Nf).
          assert (Ag : is_addr e (fst (hd ([], []) g))).
          { cbn [pieces] in Wr. inversion Wr as [|? ? Wg _]; subst. apply (ents_addr e _ Wg). exact Ng. }
          assert (Hg : hd ([], []) (concat (g :: rest)) = hd ([], []) g) by (destruct g; [congruence|reflexivity]).
          assert (Lt : akey e (fst (last f ([], []))) < akey e (fst (hd ([], []) g))).
          { rewrite <- Hg. apply As3; [exact Nf|]. cbn [concat]. destruct g; [congruence|discriminate]. }
          destruct (flag_ok e (fst (last f ([], []))) (fst (hd ([], []) g)) Af Ag) as (F1 & F2 & _); [intros Q1; rewrite Q1 in Lt; lia|].
          cbv zeta in F1. assert (I16 : 8 * ips e <= 128) by (unfold ips; destruct (te_v6 e); lia). rewrite GU in F1. lia.
        - rewrite BU by discriminate. inversion Nr as [|? ? Ng _]; subst. cbn [concat]. destruct g; [congruence|reflexivity]. }
      cbn [pieces hd] in Ue. rewrite <- Ue. lia.
    + intros Er a A Cv. apply orb_false_iff in Cv. destruct Cv as (C1 & C2).
      assert (L1 := HC ltac:(discriminate) a A C1). unfold speaks_for in C2. rewrite Z0 in C2. cbn [andb] in C2.
      replace (akey e (lower_end e m) <=? akey e a) with true in C2 by lia. cbn [andb] in C2.
      destruct (list_eq_dec Z.eq_dec a (repeat 255 (Z.to_nat (ips e)))) as [Q|Q]; [exact Q|]. exfalso.
      pose proof (key_ones a A Q) as Ko. subst rest. unfold upper_end in C2. cbn [m_upper m] in C2. unfold upper in C2. cbn [Z.eqb Pos.eqb] in C2. lia.
    + rewrite R. exists d'. split; [|intros a A No; rewrite Fi by auto; cbn [concat]; now rewrite app_assoc]. cbn [length repeat]. now rewrite Vr.
Qed.

(** * A piece leaves the links of the other pieces alone *)
Lemma asc_before l1 : forall x l2 y, ascending e (l1 ++ x :: l2) -> In y l1 -> akey e (fst y) <= akey e (fst (last l1 ([], []))).
Proof.
  induction l1 as [|z l1 IH]; intros x l2 y A Hy; [contradiction|]. cbn [app ascending] in A. destruct A as (A1 & A2).
  destruct l1 as [|w l1]; [destruct Hy as [->|[]]; cbn [last]; lia|].
  change (last (z :: w :: l1) ([], [])) with (last (w :: l1) ([], [])).
  destruct Hy as [->|Hy]; [|apply (IH x l2 y A2 Hy)].
  cbn [app] in A1. specialize (IH x l2 w A2 (or_introl eq_refl)). lia.
Qed.
Lemma asc_after l : forall y, ascending e l -> In y l -> akey e (fst (hd ([], []) l)) <= akey e (fst y).
Proof.
  induction l as [|z l IH]; intros y A Hy; [contradiction|]. cbn [ascending] in A. destruct A as (A1 & A2). destruct Hy as [->|Hy]; [cbn [hd]; lia|].
  specialize (IH y A2 Hy). destruct l as [|w l]; [contradiction|]. cbn [hd] in *. lia.
Qed.
Lemma pieces_in m : forall frags seq lower, In m (pcs seq ansn lower frags) -> exists f1 f2, frags = f1 ++ m_ents m :: f2 /\
  m_lower m = (match f1 with [] => lower | _ => flag (fst (last (last f1 []) ([], []))) (fst (hd ([], []) (m_ents m))) end) /\
  m_upper m = (match f2 with [] => 255 | g :: _ => flag (fst (last (m_ents m) ([], []))) (fst (hd ([], []) g)) end) /\
  m_orig m = orig /\ m_ansn m = ansn.
Proof.
  induction frags as [|f rest IH]; intros seq lower H; [contradiction|]. cbn [pieces] in H. destruct H as [<-|H].
  - exists [], rest. repeat split.
  - destruct (IH _ _ H) as (f1 & f2 & E & L & U & O). exists (f :: f1), f2. split; [cbn [app]; now rewrite E|]. split; [|auto].
    destruct f1 as [|g f1]; [|exact L]. cbn [last]. rewrite L. cbn [app] in E. rewrite E. reflexivity.
Qed.
Lemma last_concat (f1 : list (list (list Z * list Z))) d : f1 <> [] -> Forall (fun f => f <> []) f1 -> last (concat f1) d = last (last f1 []) d.
Proof.
  intros N F. destruct (exists_last N) as (l & f & ->). rewrite last_last, concat_app. cbn [concat]. rewrite app_nil_r.
  apply Forall_app in F. destruct F as (_ & F). inversion F as [|? ? Nf _]; subst. destruct (exists_last Nf) as (k & x & ->).
  rewrite app_assoc, !last_last. reflexivity.
Qed.
Lemma pieces_good frags seq m : Forall (fun f => f <> []) frags -> ascending e (concat frags) -> Forall (wf_ent e) (concat frags) ->
  In m (pcs seq ansn 255 frags) -> good_flags e m /\ m_ents m <> [] /\ m_orig m = orig.
Proof.
  intros NE AS WE Hm. destruct (pieces_in m frags seq 255 Hm) as (f1 & f2 & E & L & U & O & _). subst frags.
  apply Forall_app in NE. destruct NE as (Ne1 & NE). inversion NE as [|? ? Nm Ne2]; subst.
  rewrite concat_app in *. cbn [concat] in *. rewrite Forall_forall in WE.
  assert (Ah : is_addr e (fst (hd ([], []) (m_ents m)))).
  { apply WE. apply in_or_app. right. apply in_or_app. left. destruct (m_ents m); [congruence|now left]. }
  assert (Al : is_addr e (fst (last (m_ents m) ([], [])))).
  { apply WE. apply in_or_app. right. apply in_or_app. left. destruct (exists_last Nm) as (k & y & Q). rewrite Q, last_last. apply in_or_app. right. now left. }
  split; [|auto]. right. split.
  - rewrite L. destruct f1 as [|g f1]; [now left|]. right. set (ff := g :: f1) in *.
    assert (Lc : last (concat ff) ([], []) = last (last ff []) ([], [])) by (apply last_concat; [discriminate|exact Ne1]).
    assert (Nc : concat ff <> []) by (unfold ff; inversion Ne1; subst; destruct g; [congruence|discriminate]).
    assert (Ap : is_addr e (fst (last (concat ff) ([], [])))).
    { apply WE. apply in_or_app. left. destruct (exists_last Nc) as (k & y & Q). rewrite Q, last_last. apply in_or_app. right. now left. }
    destruct (ascending_app (concat ff) (m_ents m ++ concat f2) AS) as (A1 & A2 & A3).
    assert (Lt : akey e (fst (last (concat ff) ([], []))) < akey e (fst (hd ([], []) (m_ents m)))).
    { replace (hd ([], []) (m_ents m)) with (hd ([], []) (m_ents m ++ concat f2)) by (destruct (m_ents m); [congruence|reflexivity]).
      apply A3; [exact Nc|destruct (m_ents m); [congruence|discriminate]]. }
    rewrite <- Lc. destruct (flag_ok e (fst (last (concat ff) ([], []))) (fst (hd ([], []) (m_ents m))) Ap Ah) as (F1 & _); [intros Q; rewrite Q in Lt; lia|]. exact F1.
  - rewrite U. destruct f2 as [|g f2]; [now left|]. right. inversion Ne2 as [|? ? Ng _]; subst.
    assert (Hg : hd ([], []) (concat (g :: f2)) = hd ([], []) g) by (destruct g; [congruence|reflexivity]).
    assert (Ag : is_addr e (fst (hd ([], []) g))).
    { apply WE. apply in_or_app. right. apply in_or_app. right. cbn [concat]. apply in_or_app. left. destruct g; [congruence|now left]. }
    destruct (ascending_app (concat f1) _ AS) as (_ & A2 & _). destruct (ascending_app (m_ents m) _ A2) as (_ & A4 & A3).
    assert (Lt : akey e (fst (last (m_ents m) ([], []))) < akey e (fst (hd ([], []) g))).
    { rewrite <- Hg. apply A3; [exact Nm|cbn [concat]; destruct g; [congruence|discriminate]]. }
    destruct (flag_ok e (fst (last (m_ents m) ([], []))) (fst (hd ([], []) g)) Al Ag) as (F1 & _); [intros Q; rewrite Q in Lt; lia|]. exact F1.
Qed.
Lemma not_mine frags seq m : network_order e -> Forall (fun f => f <> []) frags -> ascending e (concat frags) -> Forall (wf_ent e) (concat frags) ->
  In m (pcs seq ansn 255 frags) -> forall x, In x (concat frags) -> ~ In x (m_ents m) -> speaks_for e m (fst x) = false.
Proof.
  intros NO NE AS WE Hm x Hx Nx. destruct (pieces_in m frags seq 255 Hm) as (f1 & f2 & E & L & U & _). subst frags.
  assert (KV : forall a, akey e a = val a) by (intros a; unfold akey; destruct NO as [Q|Q]; rewrite Q; [reflexivity|now rewrite orb_true_r]).
  apply Forall_app in NE. destruct NE as (Ne1 & NE). inversion NE as [|? ? Nm Ne2]; subst.
  rewrite concat_app in *. cbn [concat] in *. rewrite Forall_forall in WE.
  assert (Ah : is_addr e (fst (hd ([], []) (m_ents m)))).
  { apply WE. apply in_or_app. right. apply in_or_app. left. destruct (m_ents m); [congruence|now left]. }
  assert (Al : is_addr e (fst (last (m_ents m) ([], [])))).
  { apply WE. apply in_or_app. right. apply in_or_app. left. destruct (exists_last Nm) as (k & y & Q). rewrite Q, last_last. apply in_or_app. right. now left. }
  apply in_app_or in Hx. destruct Hx as [Hx|Hx].
  - (* an earlier piece *)
    destruct f1 as [|g f1]; [contradiction|]. set (ff := g :: f1) in *.
    assert (Lc : last (concat ff) ([], []) = last (last ff []) ([], [])) by (apply last_concat; [discriminate|exact Ne1]).
    assert (Ap : is_addr e (fst (last (concat ff) ([], [])))).
    { apply WE. apply in_or_app. left. assert (Nc : concat ff <> []) by (intros Q; rewrite Q in Hx; contradiction).
      destruct (exists_last Nc) as (k & y & Q). rewrite Q, last_last. apply in_or_app. right. now left. }
    destruct (ascending_app (concat ff) (m_ents m ++ concat f2) AS) as (A1 & A2 & A3).
    assert (Lt : akey e (fst (last (concat ff) ([], []))) < akey e (fst (hd ([], []) (m_ents m)))).
    { replace (hd ([], []) (m_ents m)) with (hd ([], []) (m_ents m ++ concat f2)) by (destruct (m_ents m); [congruence|reflexivity]).
      apply A3; [intros Q; rewrite Q in Hx; contradiction|destruct (m_ents m); [congruence|discriminate]]. }
    destruct (flag_ok e (fst (last (concat ff) ([], []))) (fst (hd ([], []) (m_ents m))) Ap Ah) as (F1 & F2 & F3); [intros Q; rewrite Q in Lt; lia|]. cbv zeta in *.
    rewrite !KV in Lt. specialize (F3 Lt).
    assert (Le : akey e (fst x) <= akey e (fst (last (concat ff) ([], [])))).
    { destruct (m_ents m) as [|w ws] eqn:Ew; [congruence|]. cbn [app] in AS. apply (asc_before (concat ff) w (ws ++ concat f2) x AS Hx). }
    unfold speaks_for, lower_end. unfold ff in L at 1. rewrite L. fold ff. rewrite <- Lc.
    assert (I16 : 8 * ips e <= 128) by (unfold ips; destruct (te_v6 e); lia).
    replace (flag (fst (last (concat ff) ([], []))) (fst (hd ([], []) (m_ents m))) =? 255) with false by lia.
    rewrite <- F2. rewrite !KV in *.
    replace (val (border (ips e) (flag (fst (last (concat ff) ([], []))) (fst (hd ([], []) (m_ents m)))) (fst (last (concat ff) ([], [])))) <=? val (fst x)) with false by lia.
    rewrite andb_false_r. reflexivity.
  - apply in_app_or in Hx. destruct Hx as [Hx|Hx]; [contradiction|].
    (* a later piece *)
    destruct f2 as [|g f2]; [contradiction|]. inversion Ne2 as [|? ? Ng _]; subst.
    assert (Hg : hd ([], []) (concat (g :: f2)) = hd ([], []) g) by (destruct g; [congruence|reflexivity]).
    assert (Ag : is_addr e (fst (hd ([], []) g))).
    { apply WE. apply in_or_app. right. apply in_or_app. right. cbn [concat]. apply in_or_app. left. destruct g; [congruence|now left]. }
    destruct (ascending_app (concat f1) _ AS) as (_ & A2 & _). destruct (ascending_app (m_ents m) _ A2) as (_ & A4 & A3).
    assert (Lt : akey e (fst (last (m_ents m) ([], []))) < akey e (fst (hd ([], []) g))).
    { rewrite <- Hg. apply A3; [exact Nm|intros Q; rewrite Q in Hx; contradiction]. }
    destruct (flag_ok e (fst (last (m_ents m) ([], []))) (fst (hd ([], []) g)) Al Ag) as (F1 & F2 & F3); [intros Q; rewrite Q in Lt; lia|]. cbv zeta in *.
    rewrite !KV in Lt. specialize (F3 Lt).
    assert (Le := asc_after _ x A4 Hx). rewrite Hg in Le.
    unfold speaks_for, upper_end. rewrite U.
    assert (I16 : 8 * ips e <= 128) by (unfold ips; destruct (te_v6 e); lia).
    replace (flag (fst (last (m_ents m) ([], []))) (fst (hd ([], []) g)) =? 255) with false by lia.
    rewrite !KV in *.
    replace (val (fst x) <? val (border (ips e) (flag (fst (last (m_ents m) ([], []))) (fst (hd ([], []) g))) (fst (last (m_ents m) ([], []))))) with false by lia.
    rewrite andb_false_r. reflexivity.
Qed.
End Pieces.

(** * Reading is safe if enough bytes follow *)
Section Slack.
Variable e : tenv.
Lemma update_some l ansn buf curr : 0 <= curr -> curr + ips e + 2 <= blen buf ->
  exists l' c a b, update_edge e l ansn buf curr = Some (l', c, a, b) /\ curr + 4 <= c /\ blen a = ips e.
Proof.
  intros H0 H. pose proof (ips_pos e). unfold update_edge. rewrite (rdn_some buf curr (ips e)) by lia. pose proof (slice_length buf curr (ips e) H0 ltac:(lia) ltac:(lia)) as SL.
  assert (I4 : 4 <= ips e) by (unfold ips; destruct (te_v6 e); lia).
  rewrite (rdn_some buf (curr + ips e) 2) by lia.
  destruct (find_edge e l (slice buf curr (ips e))); [destruct (te_lq e >? 0)|destruct (negb (validate (te_deny e) (slice buf curr (ips e))))];
    eexists _, _, _, _; (split; [reflexivity|]); split; auto; lia.
Qed.
Lemma walk_some ansn buf limit : limit + ips e + 2 <= blen buf -> forall fuel l curr b chg, 0 <= curr -> limit - curr <= Z.of_nat fuel ->
  match b with Some (x, y) => blen x = ips e /\ blen y = ips e | None => True end ->
  exists l' b' chg', walk fuel e l ansn buf curr limit b chg = Some (l', b', chg') /\ match b' with Some (x, y) => blen x = ips e /\ blen y = ips e | None => True end.
Proof.
  intros H. induction fuel as [|fuel IH]; intros l curr b chg H0 Hf B; cbn [walk]; destruct (Z.ltb_spec curr limit).
  - lia.
  - eexists _, _, _. split; [reflexivity|exact B].
  - destruct (update_some l ansn buf curr H0 ltac:(lia)) as (l' & c & a & x & U & C & La). rewrite U. apply IH; [lia|lia|]. destruct b as [[u v]|]; tauto.
  - eexists _, _, _. split; [reflexivity|exact B].
Qed.
Lemma border_some f a : blen a = ips e -> 1 <= f <= 8 * ips e -> border_ip (ips e) f a <> None.
Proof.
  intros L Hf. assert (I16 : ips e <= 16) by (unfold ips; destruct (te_v6 e); lia). unfold border_ip. cbv zeta. unfold u8.
  replace ((f - 1) mod 256 / 8 >=? ips e) with false by lia.
  destruct (split_byte a (Z.to_nat (ips e - (f - 1) mod 256 / 8 - 1))) as (x & E & _); [unfold blen in L; lia|]. rewrite E. discriminate.
Qed.
Definition flags_ok (lower upper : Z) : Prop :=
  (lower = 0 /\ upper = 0) \/ ((lower = 255 \/ 1 <= lower <= 8 * ips e) /\ (upper = 255 \/ 1 <= upper <= 8 * ips e)).
Lemma input_some sym d buf size lower upper : rd16 buf 2 = Some size -> rd8 buf (10 + ips e) = Some lower -> rd8 buf (11 + ips e) = Some upper ->
  Z.max size (12 + ips e) + ips e + 2 <= blen buf -> flags_ok lower upper -> input_tc e sym d buf <> None.
Proof.
  intros Rs Rl Ru H FO. pose proof (ips_pos e). unfold input_tc.
  assert (R : forall i n, 0 <= i -> 0 <= n -> i + n <= blen buf -> rdn buf i n = Some (slice buf i n)) by (intros; now apply rdn_some).
  unfold rd8 at 1. rewrite R by lia. cbn [option_map].
  destruct (negb (be (slice buf 0 1) =? LQ_TC_MESSAGE) && negb (be (slice buf 0 1) =? TC_MESSAGE)); [discriminate|].
  destruct (negb sym); [discriminate|]. cbv zeta. rewrite Rs, Rl, Ru. unfold rd8, rd16. rewrite !R by lia. cbn [option_map].
  destruct (match d (slice buf 4 (ips e)) with Some t => tc_check t _ _ | None => (tc_new, true) end) as [t1 go]. destruct (negb go); [discriminate|].
  match goal with |- context [walk ?f ?e0 ?l ?an0 ?b0 ?c0 ?s0 None false] =>
    destruct (walk_some an0 buf size ltac:(lia) f l c0 None false ltac:(lia) ltac:(lia) Logic.I) as (l' & b' & chg' & -> & B) end.
  assert (CB : exists b1, match b' with None => Some None | Some (lo, up) => calculate_tc_border (ips e) lower upper lo up end = Some b1).
  { destruct b' as [[x y]|]; [|now exists None]. destruct B as (Bx & By). unfold calculate_tc_border.
    destruct FO as [(-> & ->)|(FL & FU)]; [cbn; now exists None|]. replace ((lower =? 0) && (upper =? 0)) with false by lia.
    destruct (if lower =? 255 then Some (repeat 0 (Z.to_nat (ips e))) else border_ip (ips e) lower x) as [lo|] eqn:E1.
    2: { exfalso. destruct (Z.eqb_spec lower 255); [discriminate|]. now apply (border_some lower x Bx ltac:(lia)). }
    destruct (if upper =? 255 then Some (repeat 255 (Z.to_nat (ips e))) else border_ip (ips e) upper y) as [up|] eqn:E2.
    2: { exfalso. destruct (Z.eqb_spec upper 255); [discriminate|]. now apply (border_some upper y By ltac:(lia)). }
    now exists (Some (lo, up)). }
  destruct CB as (b1 & ->). match goal with |- (if ?c then _ else _) <> None => destruct c end; discriminate.
Qed.
End Slack.

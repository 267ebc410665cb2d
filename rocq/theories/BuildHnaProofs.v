From Verif Require Import Base Bytes IpCalc Mantissa MantissaProofs GwSpeed GwSpeedProofs GwHna PropGwSpeed PropGwHna NetBuf NetBufSpec NetBufProofs Parser Tc BuildMsg BuildMsgSpec BuildMsgProofs BuildMsgTcProofs BuildHna BuildHnaSpec.

Lemma len4 (l : list Z) : blen l = 4 -> exists a b c d, l = [a; b; c; d].
Proof. unfold blen. intros H. do 4 (destruct l as [|? l]; [cbn in H; lia|]). destruct l; [eauto|cbn [length] in H; lia]. Qed.
Lemma memeq_firstn k : forall x y, memeq k x y = true -> firstn k x = firstn k y.
Proof.
  induction k as [|k IH]; intros x y E; [reflexivity|]. destruct x as [|a x], y as [|b y]; try discriminate. cbn [memeq] in E. apply andb_prop in E. destruct E as (E1 & E2).
  cbn [firstn]. f_equal; [lia|apply IH, E2].
Qed.
Lemma default_iff v6 h : hna_net v6 h -> (v6 = true -> snd h <> 3) -> is_prefix_inetgw v6 h = true <-> default_route v6 h.
Proof.
  intros (L & P & X) N. destruct h as (net, plen). cbn [fst snd] in *. destruct v6; cbn [ipsz] in *.
  - unfold is_prefix_inetgw, ip_prefix_is_v6_inetgw, ip_prefix_is_mappedv4_inetgw, default_route. cbn [fst snd]. replace (plen =? 3) with false by lia. cbn [andb orb]. split.
    + intros E. apply andb_prop in E. destruct E as (E1 & E2). assert (plen = 96) by lia. subst plen. f_equal.
      assert (F : firstn 12 net = [0;0;0;0;0;0;0;0;0;0;255;255]).
      { apply memeq_firstn in E2. exact E2. }
      rewrite <- (firstn_skipn 12 net), F, X by auto. reflexivity.
    + intros E. inversion E; subst. reflexivity.
  - unfold is_prefix_inetgw, ip_prefix_is_v4_inetgw, default_route. cbn [fst snd]. split.
    + intros E. apply andb_prop in E. destruct E as (E1 & E2). assert (plen = 0) by lia. subst plen. f_equal. destruct (len4 net L) as (a & b & c & d & ->).
      apply memeq_firstn in E2. exact E2.
    + intros E. inversion E; subst. reflexivity.
Qed.
Lemma ones_netmask v6 plen : 0 <= plen <= 8 * ipsz v6 -> fst (prefix_to_netmask (if v6 then 16 else 4) plen) = ones (Z.to_nat (ipsz v6)) plen.
Proof.
  intros H. assert (B : forallb (fun k => if list_eq_dec Z.eq_dec (fst (prefix_to_netmask (if v6 then 16 else 4) (Z.of_nat k))) (ones (Z.to_nat (ipsz v6)) (Z.of_nat k)) then true else false) (seq 0 (if v6 then 129 else 33)) = true)
    by (destruct v6; vm_compute; reflexivity).
  rewrite forallb_forall in B. specialize (B (Z.to_nat plen)). rewrite Z2Nat.id in B by lia.
  destruct (list_eq_dec Z.eq_dec _ _) as [E|E] in B; [exact E|]. exfalso. assert (false = true); [|discriminate]. apply B. apply in_seq. destruct v6; cbn [ipsz] in H; lia.
Qed.
Lemma ones_len n plen : blen (ones n plen) = Z.of_nat n.
Proof. unfold blen, ones. now rewrite map_length, seq_length. Qed.
Lemma honest_approx s d : honest s d -> approx s d. Proof. intros H. exact H. Qed.
Lemma learned_tells c zero g : learned c zero g -> tells c zero g. Proof. intros H. exact H. Qed.

Section hna.
Variables (c : hcfg).
Hypothesis Cok : cfg_ok c.
Notation v6 := (a_v6 (c_ann c)).
Notation isz := (2 * ipsz (a_v6 (c_ann c))).
Definition good_net (h : hnet) : Prop := hna_net v6 h /\ not_2000 c h.

Lemma gateway_iff h : good_net h -> as_gateway c h = true <-> a_active (c_ann c) = true /\ default_route v6 h.
Proof.
  intros (W & N). unfold as_gateway. destruct (a_active (c_ann c)) eqn:Ea; cbn [andb]; [|split; [discriminate|intros (X & _); discriminate]].
  rewrite default_iff; auto. tauto.
Qed.
Lemma entry_M zero h : good_net h -> exists e, hna_entry c zero h = Some e /\ hna_says c zero h e /\ blen e = isz.
Proof.
  intros G. pose proof (gateway_iff h G) as Gi. destruct G as ((L & P & X) & N). unfold hna_entry, hna_says. destruct Cok as (Hu & Hd & Hp & Hm & Hj & _).
  destruct (as_gateway c h) eqn:Eg.
  - destruct Gi as (Gi & _). destruct (Gi eq_refl) as (Act & Def). destruct v6 eqn:Ev; unfold default_route in Def; subst h; cbn [fst snd] in *.
    + destruct (c_junk c) eqn:Ej; [|discriminate]. destruct (C68_mapped_partial (c_ann c) (c_z0 c) zero Act Ev Hp Hu Hd) as (m & E & Lm & F). rewrite E. eexists. split; [reflexivity|]. split.
      * exists m. split; [reflexivity|]. split; [unfold blen; rewrite Lm; reflexivity|]. right. split; [exact Act|]. split; [reflexivity|]. intros ext. destruct (F ext) as (g & R & T & _). exists g. auto.
      * rewrite blen_app. unfold blen at 2. rewrite Lm. reflexivity.
    + destruct (C68_v4_partial (c_ann c) (c_z0 c) (c_junk c) zero Act Ev Hj Hu Hd) as (m & E & Lm & F). rewrite E. eexists. split; [reflexivity|]. split.
      * exists m. split; [reflexivity|]. split; [unfold blen; rewrite Lm; reflexivity|]. right. split; [exact Act|]. split; [reflexivity|]. intros ext. destruct (F ext) as (g & R & T & _). exists g. auto.
      * rewrite blen_app. unfold blen at 2. rewrite Lm. reflexivity.
  - rewrite ones_netmask by exact P. eexists. split; [reflexivity|]. pose proof (ipsz_val v6). split.
    + eexists. split; [reflexivity|]. split; [rewrite ones_len; lia|]. left. split; [|reflexivity]. intros Y. apply Gi in Y. discriminate.
    + rewrite blen_app, L, ones_len. lia.
Qed.

Definition kept (zero : bool) (l : list hnet) : list hnet := filter (fun h => negb (left_out c zero h)) l.
Notation I' vt := (Inv v6 4 vt (c_main c) 255 0 []).
Lemma hna_loop_M vt zero l : forall s cur rem sgw, I' vt s cur rem -> Forall (fun e => blen e = isz) cur -> Forall good_net l -> BASE v6 + isz <= Z.min 1228 (nb_max (s_nb s)) ->
  exists s' parts last rem' new, hna_loop c zero l (BASE v6 + blen (concat cur)) rem sgw s = Some (s', Some (BASE v6 + blen (concat last), sgw || existsb (as_gateway c) (kept zero l))) /\
  I' vt s' last rem' /\ delivers s s' (numbered (hna_msg vt (c_main c)) (s_seq s) parts) /\ s_seq s' = plus_seq (s_seq s) (length parts) /\
  concat parts ++ last = cur ++ new /\ Forall2 (hna_says c zero) (kept zero l) new /\ Forall (fun p => p <> []) parts /\ (new <> [] -> last <> []) /\ (new = [] -> parts = []).
Proof.
  induction l as [|h l IH]; intros s cur rem sgw In Fc Fl Cap; cbn [hna_loop kept filter].
  - exists s, [], cur, rem, []. rewrite orb_false_r. split; [reflexivity|]. split; [exact In|]. split; [apply delivers_refl, In|]. split; [symmetry; apply plus_seq_0, In|].
    split; [now rewrite app_nil_r|]. split; [constructor|]. split; [constructor|]. split; [congruence|auto].
  - inversion Fl as [|? ? Gh Fl']; subst. destruct (left_out c zero h) eqn:Em; cbn [negb].
    { destruct (IH s cur rem sgw In Fc Fl' Cap) as (s' & parts & last & rem' & new & X). exists s', parts, last, rem', new. exact X. }
    cbv zeta. pose proof (ipsz_val v6) as Iv. assert (Hi : 0 < isz <= 32) by lia.
    destruct (entry_M zero h Gh) as (e & Ee & Se & Le).
    destruct (item_step v6 4 vt (c_main c) 255 0 [] isz isz Hi ltac:(lia) s cur rem e In Fc Le)
      as (s1 & s2 & out & cur1 & rem1 & E1 & E2 & In2 & D2 & Q2 & Mx & Co & NE & V); [change (blen []) with 0; lia|].
    change (blen []) with 0 in *. rewrite Z.add_0_r in *. rewrite (bind_M _ _ _ _ _ E1). rewrite Ee. rewrite (bind_M _ _ _ _ _ E2). rewrite V.
    assert (F1 : Forall (fun e => blen e = isz) (cur1 ++ [e])) by (apply Forall_app; split; [|constructor; auto]; rewrite <- Co in Fc; now apply Forall_app in Fc).
    destruct (IH s2 (cur1 ++ [e]) rem1 (sgw || as_gateway c h)) as (s' & parts & last & rem' & new & E & In' & D & Q & Cn & Nw & NE' & F2 & F3); auto.
    { now rewrite Mx. }
    exists s', (out ++ parts), last, rem', (e :: new). split; [rewrite E; cbn [existsb]; now rewrite orb_assoc|]. split; [exact In'|]. split.
    { rewrite numbered_app by apply In. rewrite <- Q2. apply (delivers_trans _ _ _ _ _ D2 D). }
    split; [rewrite Q, Q2, plus_seq_app, app_length; reflexivity|].
    split; [rewrite concat_app, <- app_assoc, Cn, <- Co, <- !app_assoc; reflexivity|]. split; [constructor; auto|]. split; [apply Forall_app; auto|].
    split; [|discriminate]. intros _. destruct new as [|b l0].
    + rewrite (F3 eq_refl) in Cn. cbn [concat app] in Cn. rewrite app_nil_r in Cn. rewrite Cn. destruct cur1; discriminate.
    + apply F2. discriminate.
Qed.

Lemma hna_body_M (zero : bool) zt vt l s : ready (BASE v6 + isz) s -> Forall good_net l -> Z.of_nat (length l) < 2000 -> (if zero then reltime_to_me zt = Some vt else vt = c_vt c) ->
  exists s' parts, hna_body c zero zt l s = Some (s', Some (existsb (as_gateway c) (kept zero l))) /\ delivers s s' (numbered (hna_msg vt (c_main c)) (s_seq s) parts) /\
  s_seq s' = plus_seq (s_seq s) (length parts) /\ Forall2 (hna_says c zero) (kept zero l) (concat parts) /\ ok s' /\
  (kept zero l <> [] -> Forall (fun p => p <> []) parts) /\ (kept zero l = [] -> parts = [[]]).
Proof.
  intros Rd Fa Few Ev. pose proof (ready_ok _ _ Rd) as K. destruct Rd as (_ & Cap & _ & K3). pose proof (ipsz_val v6) as Iv. destruct Cok as (_ & _ & _ & Ho & _).
  assert (Cap' : BASE v6 + isz <= Z.min 1228 (nb_max (s_nb s))) by (unfold BASE in *; lia).
  unfold hna_body. cbv zeta. rewrite bind_assoc. set (need := fold_left _ l (BASE v6)).
  assert (Nd : BASE v6 <= need).
  { assert (G : forall l n, 0 <= n -> n + Z.of_nat (length l) * (ipsz v6 * 2) < 65536 -> fold_left (fun n (_ : hnet) => u16 (n + ipsz v6 * 2)) l n = n + Z.of_nat (length l) * (ipsz v6 * 2)).
    { clear - Iv. induction l as [|a l IH]; intros n Hn H; cbn [fold_left length]; [lia|]. cbn [length] in H.
      assert (E : u16 (n + ipsz v6 * 2) = n + ipsz v6 * 2) by (unfold u16; apply Z.mod_small; lia). rewrite E. rewrite IH; lia. }
    unfold need. rewrite G; unfold BASE in *; lia. }
  destruct (start_need s (BASE v6) need K ltac:(lia)) as (s1 & E1 & L1 & K1 & D1 & M1 & Q1). rewrite (bind_M _ _ _ _ _ E1). specialize (L1 Nd).
  unfold check_buffspace. replace (BASE v6 >? room s1) with false by lia. rewrite (bind_M _ _ _ s1 tt) by reflexivity.
  destruct (raw_exists v6 s1 K1) as (a & b & sz & o & c' & d & sq & rest & W0).
  destruct (poke_f_type _ _ _ _ _ _ _ _ _ _ W0 4) as (x1 & P1 & W1). rewrite (bind_M _ _ _ _ _ P1). clear W0 P1.
  destruct (poke_f_vt _ _ _ _ _ _ _ _ _ _ W1 vt) as (x2 & P2 & W2).
  assert (P2' : (if zero then match reltime_to_me zt with Some v => poke 1 [v] | None => stuck end else poke 1 [c_vt c]) (set_msg s1 x1) = Some (set_msg (set_msg s1 x1) x2, Some tt)).
  { destruct zero; [rewrite Ev; exact P2|rewrite <- Ev; exact P2]. }
  rewrite (bind_M _ _ _ _ _ P2'). clear W1 P2 P2'.
  destruct (poke_f_orig _ _ _ _ _ _ _ _ _ _ W2 (c_main c) Ho) as (x3 & P3 & W3). rewrite (bind_M _ _ _ _ _ P3). clear W2 P3.
  destruct (poke_f_ttl _ _ _ _ _ _ _ _ _ _ W3 255) as (x4 & P4 & W4). rewrite (bind_M _ _ _ _ _ P4). clear W3 P4.
  destruct (poke_f_hops _ _ _ _ _ _ _ _ _ _ W4 0) as (x5 & P5 & W5). rewrite (bind_M _ _ _ _ _ P5). clear W4 P5.
  cbn [set_msg s_nb s_seq s_log] in *.
  match type of W5 with raw _ ?S _ _ _ _ _ _ _ _ => set (s5 := S) in * end.
  assert (In5 : I' vt s5 [] (room s1)).
  { split; [apply W5|]. split; [exists rest; now apply raw_shape in W5|]. split; [reflexivity|]. cbn [concat]. change (blen []) with 0. lia. }
  assert (D5 : delivers s s5 []) by (apply (delivers_nb s s1 s s5 [] D1); reflexivity).
  assert (Q5 : s_seq s5 = s_seq s) by exact Q1.
  destruct (hna_loop_M vt zero l s5 [] (room s1) false In5 ltac:(constructor) Fa) as (s8 & parts & last & rem' & new & E8 & In8 & D8 & Q8 & Cn & Nw & NE & F1 & F2).
  { rewrite (delivers_max _ _ _ D5). exact Cap'. }
  cbn [concat] in E8. change (blen []) with 0 in E8. rewrite Z.add_0_r in E8.
  rewrite (bind_M _ _ _ _ _ E8). clear E8. cbn [app orb] in *.
  assert (D9 := delivers_trans _ _ _ _ _ D5 D8). cbn [app] in D9. rewrite Q5 in *.
  destruct In8 as (K8 & (t & Sh8) & Er8 & Le8). cbn [app] in Sh8. change (blen []) with 0 in Le8. rewrite Z.add_0_r in Le8.
  destruct (finish_M v6 4 vt (c_main c) 255 0 s8 (concat last) t (BASE v6 + blen (concat last)) K8 Sh8 eq_refl ltac:(lia)) as (s' & P & D & K' & _ & Q').
  rewrite (bind_M _ _ _ _ _ P). exists s', (parts ++ [last]). split; [reflexivity|].
  split; [rewrite numbered_app by exact K3; apply (delivers_trans _ _ _ _ _ D9); rewrite <- Q8; exact D|].
  split; [rewrite Q', Q8; rewrite app_length; cbn [length]; rewrite <- plus_seq_1, plus_seq_app; reflexivity|].
  assert (Cc : concat (parts ++ [last]) = new) by (rewrite concat_app; cbn [concat]; now rewrite app_nil_r).
  split; [rewrite Cc; exact Nw|]. split; [exact K'|]. split.
  - intros Nk. apply Forall_app. split; [exact NE|]. constructor; [|constructor]. apply F1. intros En. rewrite En in Nw. inversion Nw; congruence.
  - intros Ek. rewrite Ek in Nw. assert (En : new = []) by (inversion Nw; reflexivity). clear Cc Nw. rewrite (F2 En) in *. cbn [concat app] in *. congruence.
Qed.
End hna.

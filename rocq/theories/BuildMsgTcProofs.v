From Verif Require Import Base Bytes NetBuf NetBufSpec NetBufProofs Parser Hello HelloSpec HelloProofs Tc TcSpec BuildMsg BuildMsgSpec BuildMsgProofs.

Lemma delivers_max s s' ms : delivers s s' ms -> nb_max (s_nb s') = nb_max (s_nb s).
Proof. intros (? & _ & _ & _ & _ & _ & X & _). exact X. Qed.
Lemma ready_ok cap s : ready cap s -> ok s. Proof. intros (A & _ & B & C). split; auto. Qed.
Lemma ok_ready cap s : ok s -> cap <= nb_max (s_nb s) -> ready cap s. Proof. intros (A & B & C) L. split; auto. Qed.

(** the beginning: send the packet if there is no room for [need] bytes *)
Lemma start_M s hdr need : ok s -> hdr <= Z.min 1228 (nb_max (s_nb s)) -> hdr <= need ->
  exists s1, (rem <- space16 ;; (if need >? rem then (output ;;; space16) else ret rem)) s = Some (s1, Some (room s1)) /\
  hdr <= room s1 /\ ok s1 /\ delivers s s1 [] /\ s_msg s1 = s_msg s /\ s_seq s1 = s_seq s.
Proof.
  intros K C N. rewrite (bind_M _ _ _ _ _ (space16_ok s K)). destruct (Z.gtb_spec need (room s)) as [G|G].
  - destruct (output_M s K) as (sO & Eo & DO & KO & MO & QO & PO). rewrite (bind_M _ _ _ _ _ Eo). exists sO. split; [apply (space16_ok sO KO)|].
    split; [unfold room; rewrite PO, (delivers_max _ _ _ DO); lia|]. auto.
  - exists s. split; [reflexivity|]. split; [lia|]. split; [exact K|]. split; [apply delivers_refl, K|auto].
Qed.
Lemma bind_assoc {A B C} (m : M A) (f : A -> M B) (g : B -> M C) s : mbind m (fun x => mbind (f x) g) s = mbind (mbind m f) g s.
Proof. unfold mbind. destruct (m s) as [[s' [a|]]|]; reflexivity. Qed.

Section tc.
Variables (v6 : bool) (vt : Z) (m : tcm).
Hypotheses (Ho : blen (t_orig m) = ipsz v6) (Ha : 0 <= t_ansn m < 65536).
Notation pre := (enc16 (t_ansn m) ++ [0; 0]).
Notation hdr := (BASE v6 + 4).
Notation I' := (Inv v6 2 vt (t_orig m) (t_ttl m) (t_hop m) pre).

Lemma tc_loop_M l : forall s cur rem found partial, I' s cur rem -> addrs_ok v6 cur -> addrs_ok v6 l -> hdr + ipsz v6 <= Z.min 1228 (nb_max (s_nb s)) ->
  exists s' parts last rem' found' partial', tc_loop v6 l (hdr + blen (concat cur)) rem found partial s = Some (s', Some (hdr + blen (concat last), found', partial')) /\
  I' s' last rem' /\ delivers s s' (numbered (tc_msg vt m) (s_seq s) parts) /\ s_seq s' = plus_seq (s_seq s) (length parts) /\
  concat parts ++ last = cur ++ l /\ Forall (fun p => p <> []) parts /\
  (l <> [] -> found' = true /\ last <> []) /\ (l = [] -> found' = found /\ partial' = partial /\ parts = []).
Proof.
  induction l as [|a l IH]; intros s cur rem found partial In Fc Fl Cap; cbn [tc_loop].
  - exists s, [], cur, rem, found, partial. split; [reflexivity|]. split; [exact In|]. split; [apply delivers_refl, In|]. split; [symmetry; apply plus_seq_0, In|].
    split; [now rewrite app_nil_r|]. split; [constructor|]. split; [congruence|auto].
  - inversion Fl as [|? ? La Fl']; subst.
    assert (Hi : 0 < ipsz v6 <= 32) by (destruct (ipsz_val v6); lia).
    destruct (item_step v6 2 vt (t_orig m) (t_ttl m) (t_hop m) pre (ipsz v6) (ipsz v6) Hi ltac:(lia) s cur rem a In Fc La Cap)
      as (s1 & s2 & out & cur1 & rem1 & E1 & E2 & In2 & D2 & Q2 & Mx & Co & NE & V).
    change (BASE v6 + blen pre) with hdr in *.
    rewrite (bind_M _ _ _ _ _ E1). cbv zeta. rewrite (bind_M _ _ _ _ _ E2). rewrite V.
    destruct (IH s2 (cur1 ++ [a]) rem1 true (partial || (hdr + blen (concat cur) + ipsz v6 >? rem) && (hdr + blen (concat cur) >? hdr))) as (s' & parts & last & rem' & f' & p' & E & In' & D & Q & Cn & NE' & F1 & F2); auto.
    { apply Forall_app. split; [|constructor; auto]. unfold addrs_ok in Fc. rewrite <- Co in Fc. now apply Forall_app in Fc. }
    { now rewrite Mx. }
    exists s', (out ++ parts), last, rem', f', p'. split; [exact E|]. split; [exact In'|]. split.
    { rewrite numbered_app by apply In. rewrite <- Q2. apply (delivers_trans _ _ _ _ _ D2). apply (delivers_eq _ _ _ _ D). reflexivity. }
    split; [rewrite Q, Q2, plus_seq_app, app_length; reflexivity|].
    split; [rewrite concat_app, <- app_assoc, Cn, <- Co, <- !app_assoc; reflexivity|]. split; [apply Forall_app; auto|].
    split; [|discriminate]. intros _. destruct l as [|b l].
    + destruct (F2 eq_refl) as (-> & _ & ->). split; [reflexivity|]. cbn [concat app] in Cn. rewrite app_nil_r in Cn. rewrite Cn. destruct cur1; discriminate.
    + destruct F1 as (-> & F1); [discriminate|]. auto.
Qed.

Lemma serialize_tc_M idle s : ready (hdr + ipsz v6) s -> addrs_ok v6 (t_addrs m) ->
  exists s' parts r, serialize_tc v6 vt idle m s = Some (s', Some r) /\ delivers s s' (numbered (tc_msg vt m) (s_seq s) parts) /\
  s_seq s' = plus_seq (s_seq s) (length parts) /\ concat parts = t_addrs m /\ ok s' /\
  (t_addrs m <> [] -> Forall (fun p => p <> []) parts /\ r = true) /\ (t_addrs m = [] -> parts = (if idle then [] else [[]]) /\ r = negb idle).
Proof.
  intros Rd Fa. pose proof (ready_ok _ _ Rd) as K. destruct Rd as (_ & Cap & _ & K3). pose proof (ipsz_val v6) as Iv.
  assert (Cap' : hdr + ipsz v6 <= Z.min 1228 (nb_max (s_nb s))) by (unfold BASE in *; lia).
  unfold serialize_tc. cbv zeta. rewrite bind_assoc.
  destruct (start_M s hdr hdr K ltac:(lia) ltac:(lia)) as (s1 & E1 & L1 & K1 & D1 & M1 & Q1). rewrite (bind_M _ _ _ _ _ E1).
  unfold check_buffspace. replace (hdr >? room s1) with false by lia. rewrite (bind_M _ _ _ s1 tt) by reflexivity.
  destruct (raw_exists v6 s1 K1) as (a & b & sz & o & c & d & sq & rest & W0). pose proof (raw_len _ _ _ _ _ _ _ _ _ _ W0) as Ln.
  destruct (poke_f_vt _ _ _ _ _ _ _ _ _ _ W0 vt) as (x1 & P1 & W1). rewrite (bind_M _ _ _ _ _ P1). clear W0 P1.
  destruct (poke_f_type _ _ _ _ _ _ _ _ _ _ W1 2) as (x2 & P2 & W2). rewrite (bind_M _ _ _ _ _ P2). clear W1 P2.
  destruct (poke_f_hops _ _ _ _ _ _ _ _ _ _ W2 (t_hop m)) as (x3 & P3 & W3). rewrite (bind_M _ _ _ _ _ P3). clear W2 P3.
  destruct (poke_f_ttl _ _ _ _ _ _ _ _ _ _ W3 (t_ttl m)) as (x4 & P4 & W4). rewrite (bind_M _ _ _ _ _ P4). clear W3 P4.
  destruct (poke_f_orig _ _ _ _ _ _ _ _ _ _ W4 (t_orig m) Ho) as (x5 & P5 & W5). rewrite (bind_M _ _ _ _ _ P5). clear W4 P5.
  destruct (split_at rest 2 ltac:(unfold BASE in *; lia)) as (r1 & y1 & -> & Lr1). rewrite blen_app in Ln.
  destruct (split_at y1 2 ltac:(unfold BASE in *; lia)) as (r2 & y2 & -> & Lr2). rewrite blen_app in Ln.
  destruct (poke_f_rest _ _ _ _ _ _ _ _ _ _ W5 [] r1 (r2 ++ y2) (net16 (t_ansn m)) (BASE v6) eq_refl) as (x6 & P6 & W6); [change (blen []) with 0; lia|exact Lr1|]. rewrite (bind_M _ _ _ _ _ P6). clear W5 P6.
  destruct (poke_f_rest _ _ _ _ _ _ _ _ _ _ W6 (net16 (t_ansn m)) r2 y2 [0; 0] (BASE v6 + 2) eq_refl) as (x7 & P7 & W7); [reflexivity|exact Lr2|]. rewrite (bind_M _ _ _ _ _ P7). clear W6 P7.
  cbn [set_msg s_nb s_seq s_log] in *.
  match type of W7 with raw _ ?S _ _ _ _ _ _ _ _ => set (s7 := S) in * end.
  assert (In7 : I' s7 [] (room s1)).
  { split; [apply W7|]. split; [exists y2; apply raw_shape in W7; rewrite net16_enc in W7 by exact Ha; cbn [concat]; rewrite app_nil_r; rewrite <- app_assoc; exact W7|].
    split; [reflexivity|]. cbn [concat]. change (blen pre) with 4. change (blen []) with 0. lia. }
  assert (D7 : delivers s s7 []) by (apply (delivers_nb s s1 s s7 [] D1); reflexivity).
  assert (Q7 : s_seq s7 = s_seq s) by exact Q1.
  destruct (tc_loop_M (t_addrs m) s7 [] (room s1) false false In7 ltac:(constructor) Fa) as (s8 & parts & last & rem' & f' & p' & E8 & In8 & D8 & Q8 & Cn & NE & F1 & F2).
  { rewrite (delivers_max _ _ _ D7). exact Cap'. }
  cbn [concat] in E8. change (blen []) with 0 in E8. rewrite Z.add_0_r in E8.
  rewrite (bind_M _ _ _ _ _ E8). clear E8. cbn [app] in Cn.
  assert (D9 := delivers_trans _ _ _ _ _ D7 D8). cbn [app] in D9. rewrite Q7 in *.
  destruct In8 as (K8 & (t & Sh8) & Er8 & Le8).
  assert (Fin : exists s', finish v6 (hdr + blen (concat last)) s8 = Some (s', Some tt) /\ delivers s s' (numbered (tc_msg vt m) (s_seq s) (parts ++ [last])) /\ s_seq s' = plus_seq (s_seq s) (length (parts ++ [last])) /\ ok s').
  { destruct (finish_M v6 2 vt (t_orig m) (t_ttl m) (t_hop m) s8 (pre ++ concat last) t (hdr + blen (concat last)) K8 Sh8) as (s' & P & D & K' & _ & Q').
    - rewrite blen_app. change (blen pre) with 4. lia.
    - change (blen pre) with 4 in Le8. lia.
    - exists s'. split; [exact P|]. split; [|split; [|exact K']].
      + rewrite numbered_app by exact K3. apply (delivers_trans _ _ _ _ _ D9). rewrite <- Q8. apply (delivers_eq _ _ _ _ D). cbn [numbered]. unfold tc_msg. now rewrite <- app_assoc.
      + rewrite Q', Q8. rewrite app_length. cbn [length]. rewrite <- plus_seq_1, plus_seq_app. reflexivity. }
  destruct Fin as (s' & Pf & Df & Qf & Kf).
  destruct (t_addrs m) as [|a0 l0] eqn:El.
  - destruct (F2 eq_refl) as (-> & -> & ->). cbn [concat app] in Cn. subst last. cbn [negb andb]. destruct idle; cbn [negb].
    + exists s8, [], false. split; [reflexivity|]. split; [exact D9|]. split; [exact Q8|]. split; [reflexivity|]. split; [exact K8|]. split; [congruence|auto].
    + rewrite (bind_M _ _ _ _ _ Pf). exists s', [[]], true. split; [reflexivity|]. split; [exact Df|]. split; [exact Qf|]. split; [reflexivity|]. split; [exact Kf|]. split; [congruence|auto].
  - destruct F1 as (-> & F1); [discriminate|]. rewrite (bind_M _ _ _ _ _ Pf). exists s', (parts ++ [last]), true.
    split; [reflexivity|]. split; [exact Df|]. split; [exact Qf|]. split; [rewrite concat_app; cbn [concat]; now rewrite app_nil_r|]. split; [exact Kf|].
    split; [|discriminate]. intros _. split; [apply Forall_app; auto|reflexivity].
Qed.
End tc.

Section mid.
Variables (v6 : bool) (vt : Z) (main : list Z).
Hypothesis Ho : blen main = ipsz v6.
Notation I' := (Inv v6 3 vt main 255 0 []).
Definition others (l : list (list Z)) : list (list Z) := filter (fun a => negb (bytes_eqb main a)) l.

Lemma mid_loop_M l : forall s cur rem, I' s cur rem -> addrs_ok v6 cur -> addrs_ok v6 l -> BASE v6 + ipsz v6 <= Z.min 1228 (nb_max (s_nb s)) ->
  exists s' parts last rem', mid_loop v6 main l (BASE v6 + blen (concat cur)) rem s = Some (s', Some (BASE v6 + blen (concat last))) /\
  I' s' last rem' /\ delivers s s' (numbered (mid_msg vt main) (s_seq s) parts) /\ s_seq s' = plus_seq (s_seq s) (length parts) /\
  concat parts ++ last = cur ++ others l /\ Forall (fun p => p <> []) parts /\ addrs_ok v6 last /\
  (others l <> [] -> last <> []) /\ (others l = [] -> parts = []).
Proof.
  induction l as [|a l IH]; intros s cur rem In Fc Fl Cap; cbn [mid_loop others filter].
  - exists s, [], cur, rem. split; [reflexivity|]. split; [exact In|]. split; [apply delivers_refl, In|]. split; [symmetry; apply plus_seq_0, In|].
    split; [now rewrite app_nil_r|]. split; [constructor|]. split; [exact Fc|]. split; [congruence|auto].
  - inversion Fl as [|? ? La Fl']; subst. destruct (bytes_eqb main a) eqn:Em; cbn [negb].
    { destruct (IH s cur rem In Fc Fl' Cap) as (s' & parts & last & rem' & X). exists s', parts, last, rem'. exact X. }
    assert (Hi : 0 < ipsz v6 <= 32) by (destruct (ipsz_val v6); lia).
    destruct (item_step v6 3 vt main 255 0 [] (ipsz v6) (if v6 then ipsz v6 else 0) Hi ltac:(destruct v6; lia) s cur rem a In Fc La)
      as (s1 & s2 & out & cur1 & rem1 & E1 & E2 & In2 & D2 & Q2 & Mx & Co & NE & V); [change (blen []) with 0; lia|].
    change (blen []) with 0 in *. rewrite Z.add_0_r in *. rewrite (bind_M _ _ _ _ _ E1). rewrite (bind_M _ _ _ _ _ E2). rewrite V.
    assert (F1 : addrs_ok v6 (cur1 ++ [a])) by (apply Forall_app; split; [|constructor; auto]; unfold addrs_ok in Fc; rewrite <- Co in Fc; now apply Forall_app in Fc).
    destruct (IH s2 (cur1 ++ [a]) rem1) as (s' & parts & last & rem' & E & In' & D & Q & Cn & NE' & Fl1 & F2 & F3); auto.
    { now rewrite Mx. }
    exists s', (out ++ parts), last, rem'. split; [exact E|]. split; [exact In'|]. split.
    { rewrite numbered_app by apply In. rewrite <- Q2. apply (delivers_trans _ _ _ _ _ D2 D). }
    split; [rewrite Q, Q2, plus_seq_app, app_length; reflexivity|].
    split; [rewrite concat_app, <- app_assoc, Cn, <- Co, <- !app_assoc; reflexivity|]. split; [apply Forall_app; auto|]. split; [exact Fl1|].
    split; [|discriminate]. intros _. fold (others l) in *. destruct (others l) as [|b l0] eqn:El.
    + rewrite (F3 eq_refl) in Cn. cbn [concat app] in Cn. rewrite app_nil_r in Cn. rewrite Cn. destruct cur1; discriminate.
    + apply F2. discriminate.
Qed.

(** the packet is sent first or there is room for the header *)
Lemma start_need s hdr need : ok s -> hdr <= Z.min 1228 (nb_max (s_nb s)) ->
  exists s1, (rem <- space16 ;; (if need >? rem then (output ;;; space16) else ret rem)) s = Some (s1, Some (room s1)) /\
  (hdr <= need -> hdr <= room s1) /\ ok s1 /\ delivers s s1 [] /\ s_msg s1 = s_msg s /\ s_seq s1 = s_seq s.
Proof.
  intros K C. rewrite (bind_M _ _ _ _ _ (space16_ok s K)). destruct (Z.gtb_spec need (room s)) as [G|G].
  - destruct (output_M s K) as (sO & Eo & DO & KO & MO & QO & PO). rewrite (bind_M _ _ _ _ _ Eo). exists sO. split; [apply (space16_ok sO KO)|].
    split; [intros _; unfold room; rewrite PO, (delivers_max _ _ _ DO); lia|]. auto.
  - exists s. split; [reflexivity|]. split; [lia|]. split; [exact K|]. split; [apply delivers_refl, K|auto].
Qed.

Lemma serialize_mid_M ifs s : ready (BASE v6 + ipsz v6) s -> addrs_ok v6 ifs -> Z.of_nat (length ifs) < 2000 ->
  ~ (ifs = [] \/ ifs = [main]) ->
  exists s' parts, serialize_mid v6 vt main ifs s = Some (s', Some true) /\ delivers s s' (numbered (mid_msg vt main) (s_seq s) parts) /\
  s_seq s' = plus_seq (s_seq s) (match parts with [] => 1 | _ => length parts end) /\ concat parts = others ifs /\ ok s' /\ Forall (fun p => p <> []) parts.
Proof.
  intros Rd Fa Few Nt. pose proof (ready_ok _ _ Rd) as K. destruct Rd as (_ & Cap & _ & K3). pose proof (ipsz_val v6) as Iv.
  assert (Cap' : BASE v6 + ipsz v6 <= Z.min 1228 (nb_max (s_nb s))) by (unfold BASE in *; lia).
  unfold serialize_mid. replace (match ifs with [] => true | [a] => bytes_eqb main a | _ => false end) with false.
  2: { destruct ifs as [|a [|b l]]; [exfalso; auto| |reflexivity]. unfold bytes_eqb. destruct (list_eq_dec Z.eq_dec main a); [exfalso; subst; auto|reflexivity]. }
  cbv zeta. rewrite bind_assoc. set (need := fold_left _ ifs (BASE v6)).
  assert (Nd : BASE v6 <= need).
  { assert (G : forall l n, 0 <= n -> n + Z.of_nat (length l) * (ipsz v6 * 2) < 65536 -> fold_left (fun n (_ : list Z) => u16 (n + ipsz v6 * 2)) l n = n + Z.of_nat (length l) * (ipsz v6 * 2)).
    { clear - Iv. induction l as [|a l IH]; intros n Hn H; cbn [fold_left length]; [lia|]. cbn [length] in H.
      assert (E : u16 (n + ipsz v6 * 2) = n + ipsz v6 * 2) by (unfold u16; apply Z.mod_small; lia). rewrite E. rewrite IH; lia. }
    unfold need. rewrite G; unfold BASE in *; lia. }
  destruct (start_need s (BASE v6) need K ltac:(lia)) as (s1 & E1 & L1 & K1 & D1 & M1 & Q1). rewrite (bind_M _ _ _ _ _ E1). specialize (L1 Nd).
  unfold check_buffspace. replace (BASE v6 >? room s1) with false by lia. rewrite (bind_M _ _ _ s1 tt) by reflexivity.
  destruct (raw_exists v6 s1 K1) as (a & b & sz & o & c & d & sq & rest & W0).
  destruct (poke_f_hops _ _ _ _ _ _ _ _ _ _ W0 0) as (x1 & P1 & W1). rewrite (bind_M _ _ _ _ _ P1). clear W0 P1.
  destruct (poke_f_ttl _ _ _ _ _ _ _ _ _ _ W1 255) as (x2 & P2 & W2). rewrite (bind_M _ _ _ _ _ P2). clear W1 P2.
  destruct (poke_f_orig _ _ _ _ _ _ _ _ _ _ W2 main Ho) as (x3 & P3 & W3). rewrite (bind_M _ _ _ _ _ P3). clear W2 P3.
  destruct (poke_f_type _ _ _ _ _ _ _ _ _ _ W3 3) as (x4 & P4 & W4). rewrite (bind_M _ _ _ _ _ P4). clear W3 P4.
  destruct (poke_f_vt _ _ _ _ _ _ _ _ _ _ W4 vt) as (x5 & P5 & W5). rewrite (bind_M _ _ _ _ _ P5). clear W4 P5.
  cbn [set_msg s_nb s_seq s_log] in *.
  match type of W5 with raw _ ?S _ _ _ _ _ _ _ _ => set (s5 := S) in * end.
  assert (In5 : I' s5 [] (room s1)).
  { split; [apply W5|]. split; [exists rest; now apply raw_shape in W5|]. split; [reflexivity|]. cbn [concat]. change (blen []) with 0. lia. }
  assert (D5 : delivers s s5 []) by (apply (delivers_nb s s1 s s5 [] D1); reflexivity).
  assert (Q5 : s_seq s5 = s_seq s) by exact Q1.
  destruct (mid_loop_M ifs s5 [] (room s1) In5 ltac:(constructor) Fa) as (s8 & parts & last & rem' & E8 & In8 & D8 & Q8 & Cn & NE & Fl & F1 & F2).
  { rewrite (delivers_max _ _ _ D5). exact Cap'. }
  cbn [concat] in E8. change (blen []) with 0 in E8. rewrite Z.add_0_r in E8.
  rewrite (bind_M _ _ _ _ _ E8). clear E8. cbn [app] in Cn.
  assert (D9 := delivers_trans _ _ _ _ _ D5 D8). cbn [app] in D9. rewrite Q5 in *.
  destruct In8 as (K8 & (t & Sh8) & Er8 & Le8). cbn [app] in Sh8.
  rewrite (bind_M _ _ _ _ _ (seqno_M _)). fold (bump s8).
  destruct (shape_raw v6 (bump s8) 3 vt main 255 0 _ (ok_bump _ K8) Sh8) as (sz8 & sq8 & W8).
  destruct (poke_f_seq _ _ _ _ _ _ _ _ _ _ W8 (s_seq s8)) as (x9 & P9 & W9). rewrite (bind_M _ _ _ _ _ P9). clear W8 P9.
  destruct (poke_f_size _ _ _ _ _ _ _ _ _ _ W9 (BASE v6 + blen (concat last))) as (x10 & P10 & W10). rewrite (bind_M _ _ _ _ _ P10). clear W9 P10.
  match type of W10 with raw _ ?S _ _ _ _ _ _ _ _ => set (s10 := S) in * end.
  assert (Q10 : s_seq s10 = plus_seq (s_seq s) (length parts + 1)) by (rewrite <- plus_seq_app, <- Q8; reflexivity).
  assert (Rm : room s10 = room s8) by reflexivity. assert (R1 : room s8 <= 1228) by (unfold room; lia). pose proof (blen_nonneg (concat last)) as Nl.
  destruct (Z.gtb_spec (BASE v6 + blen (concat last)) (BASE v6)) as [G|G].
  - assert (Nl' : last <> []) by (intros ->; cbn [concat] in G; change (blen []) with 0 in G; lia).
    pose proof W10 as [K10 M10 A10 B10 C10].
    destruct (push_M s10 (hdrb 3 vt (net16 (BASE v6 + blen (concat last))) main 255 0 (net16 (s_seq s8)) ++ concat last) t (BASE v6 + blen (concat last)) K10) as (s' & P & D & K' & M' & Q').
    + rewrite M10. now rewrite <- app_assoc.
    + rewrite blen_app, (hdrb_len _ _ _ _ _ _ _ v6); auto.
    + rewrite Rm. change (blen []) with 0 in Le8. lia.
    + rewrite (bind_M _ _ _ _ _ P). exists s', (parts ++ [last]). split; [reflexivity|].
      assert (DD : delivers s s' (numbered (mid_msg vt main) (s_seq s) (parts ++ [last]))).
      { rewrite numbered_app by exact K3. apply (delivers_trans _ _ _ _ _ D9). rewrite <- Q8.
        apply (delivers_nb s10 s' s8 s'); auto. apply (delivers_eq _ _ _ _ D). cbn [numbered]. f_equal. unfold mid_msg. rewrite message_hdrb by apply K8.
        rewrite !net16_enc; [|apply K8|change (blen []) with 0 in Le8; unfold BASE in *; lia]. do 2 f_equal. f_equal. rewrite Ho. unfold BASE. lia. }
      split; [exact DD|]. split; [|split; [rewrite concat_app; cbn [concat]; now rewrite app_nil_r|split; [exact K'|apply Forall_app; auto]]].
      rewrite Q', Q10. f_equal. destruct parts; cbn [app length]; [reflexivity|]. rewrite app_length. cbn [length]. lia.
  - assert (last = []). { destruct last as [|x last]; [reflexivity|]. exfalso. inversion Fl as [|? ? Lx _]; subst. cbn [concat] in G. rewrite blen_app in G. pose proof (blen_nonneg (concat last)). lia. }
    subst last. rewrite app_nil_r in Cn. rewrite (bind_M _ _ _ s10 tt) by reflexivity. exists s10, parts. split; [reflexivity|].
    assert (parts = []). { apply F2. destruct (others ifs) as [|y l] eqn:Eo; [reflexivity|]. exfalso. apply F1; [discriminate|reflexivity]. }
    subst parts. split; [apply (delivers_nb s s8 s s10 _ D9); reflexivity|]. split; [exact Q10|]. split; [exact Cn|]. split; [apply W10|constructor].
Qed.
End mid.

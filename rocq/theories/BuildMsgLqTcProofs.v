From Verif Require Import Base Bytes NetBuf NetBufSpec NetBufProofs Parser Hello HelloSpec HelloProofs Tc TcSpec BuildMsg BuildMsgSpec BuildMsgProofs BuildMsgTcProofs BuildMsgHelloProofs BuildMsgLqProofs.

Section lqtc.
Variables (v6 : bool) (vt : Z) (orig : list Z) (ttl ansn : Z).
Hypotheses (Ho : blen orig = ipsz v6) (Ha : 0 <= ansn < 65536).
Notation off := (BASE v6 + 4).
Notation ents l := (flat_map enc_ent l).
Notation common := (serialize_common v6 202 vt orig ttl 0).
Notation flag := (calculate_border_flag (ipsz v6)).
Notation pcs := (pieces flag vt orig ttl 0).
Definition padded (x : list Z * list Z) : list Z * list Z := (fst x, snd x ++ [0; 0]).
Definition good (l : list (list Z * list Z)) : Prop := Forall (fun x => blen (fst x) = ipsz v6 /\ blen (snd x) = 2) l.
Definition last_addr (cur : list (list Z * list Z)) : option (list Z) := match cur with [] => None | _ => Some (fst (last cur ([], []))) end.

Record TI (s : bst) (size rem : Z) (cur : list (list Z * list Z)) : Prop := mkTI {
  t_raw : exists a b sz o c d sq xy t, blen xy = 2 /\ raw v6 s a b sz o c d sq ((enc16 ansn ++ xy ++ ents cur) ++ t);
  t_rem : rem = room s - off;
  t_size : size = blen (ents cur);
  t_le : size <= rem }.
Lemma TI_ok s size rem cur : TI s size rem cur -> ok s.
Proof. intros [ (? & ? & ? & ? & ? & ? & ? & ? & ? & _ & W) _ _ _]. apply W. Qed.
Lemma last_addr_snoc cur x : last_addr (cur ++ [x]) = Some (fst x).
Proof. unfold last_addr. destruct (cur ++ [x]) eqn:E; [destruct cur; discriminate|]. rewrite <- E, last_last. reflexivity. Qed.

(** borders, header and sending of the piece [cur] *)
Lemma tc_flush s size rem cur lower upper : TI s size rem cur ->
  exists s', (poke (BASE v6 + 2) [lower] ;;; poke (BASE v6 + 3) [upper] ;;; common (size + off) ;;; push (size + off)) s = Some (s', Some tt) /\
    delivers s s' [enc_tc (mkTm vt orig ttl 0 (s_seq s) ansn lower upper cur)] /\ s_seq s' = (s_seq s + 1) mod 65536 /\ ok s' /\
    exists a b sz o c d sq t, raw v6 s' a b sz o c d sq ((enc16 ansn ++ [lower; upper]) ++ t).
Proof.
  intros TIs. pose proof (TI_ok _ _ _ _ TIs) as K. destruct TIs as [ (a & b & sz & o & c & d & sq & xy & t & Lxy & W) Rm Sz Le].
  pose proof (room_max s) as R1. pose proof (ipsz_val v6) as Iv. pose proof (blen_nonneg (ents cur)) as N1.
  destruct xy as [|y0 [|y1 [|? ?]]]; try discriminate Lxy; [|exfalso; rewrite !blen_cons in Lxy; pose proof (blen_nonneg l); lia].
  destruct (poke_f_rest _ _ _ _ _ _ _ _ _ _ W (enc16 ansn) [y0] ([y1] ++ ents cur ++ t) [lower] (BASE v6 + 2)) as (m1 & P1 & W1); [now rewrite <- !app_assoc|reflexivity|reflexivity|]. rewrite (bind_M _ _ _ _ _ P1).
  destruct (poke_f_rest _ _ _ _ _ _ _ _ _ _ W1 (enc16 ansn ++ [lower]) [y1] (ents cur ++ t) [upper] (BASE v6 + 3)) as (m2 & P2 & W2); [now rewrite <- !app_assoc|reflexivity|reflexivity|]. rewrite (bind_M _ _ _ _ _ P2).
  cbn [set_msg s_nb s_seq s_log s_msg] in *. match type of W2 with raw _ ?S _ _ _ _ _ _ _ _ => set (s2 := S) in * end.
  destruct (common_M v6 202 vt orig ttl 0 (size + off) s2 _ _ _ _ _ _ _ _ W2 Ho) as (s3 & E3 & W3 & Sm & Q3). rewrite (bind_M _ _ _ _ _ E3). change (s_seq s2) with (s_seq s) in *.
  pose proof W3 as [K3 M3 A3 B3 C3].
  destruct (push_M s3 (hdrb 202 vt (net16 (size + off)) orig ttl 0 (net16 (s_seq s)) ++ enc16 ansn ++ [lower; upper] ++ ents cur) t (size + off) K3) as (s' & P & D & K' & M' & Q').
  - rewrite M3. now rewrite <- !app_assoc.
  - rewrite blen_app, (hdrb_len _ _ _ _ _ _ _ v6) by auto. rewrite !blen_app. change (blen (enc16 ansn)) with 2. change (blen [lower; upper]) with 2. lia.
  - rewrite (same_room _ _ Sm). change (room s2) with (room s). lia.
  - exists s'. split; [exact P|]. split; [|split; [rewrite Q', Q3; reflexivity|split; [exact K'|]]].
    + assert (S0 : same s s3) by (apply (same_trans s s2 s3); [split; reflexivity|exact Sm]). apply (same_delivers_l _ _ _ _ S0). apply (delivers_eq _ _ _ _ D). f_equal. unfold enc_tc. cbn [m_vt m_orig m_ttl m_hops m_seq m_ansn m_lower m_upper m_ents].
      rewrite !net16_enc; [|apply K|unfold BASE in *; lia]. replace (12 + blen orig + blen (ents cur)) with (size + off) by (rewrite Ho; unfold BASE in *; lia). unfold hdrb. rewrite <- !app_assoc. reflexivity.
    + exists 202, vt, (net16 (size + off)), orig, ttl, 0, (net16 (s_seq s)), (ents cur ++ t). constructor; auto. rewrite M', M3. rewrite <- !app_assoc. reflexivity.
Qed.

Lemma tc_add s size rem cur x : TI s size rem cur -> blen (fst x) = ipsz v6 -> blen (snd x) = 2 -> size + ipsz v6 + 4 <= rem ->
  exists m1 m2, poke (off + size) (fst x) s = Some (set_msg s m1, Some tt) /\ poke (off + size + ipsz v6) (snd x ++ [0; 0]) (set_msg s m1) = Some (set_msg s m2, Some tt) /\
    TI (set_msg s m2) (size + ipsz v6 + 4) rem (cur ++ [x]).
Proof.
  intros [ (a & b & sz & o & c & d & sq & xy & t & Lxy & W) Rm Sz Le] La Lq Ft.
  pose proof (room_max s) as R1. pose proof (ipsz_val v6) as Iv. pose proof (blen_nonneg (ents cur)) as N1.
  destruct (raw_append _ _ _ _ _ _ _ _ _ _ _ (fst x) (off + size) W) as (m1 & t1 & P1 & W1).
  { rewrite !blen_app, Lxy. change (blen (enc16 ansn)) with 2. lia. } { unfold BASE in *; lia. }
  rewrite app_assoc in W1.
  destruct (raw_append _ _ _ _ _ _ _ _ _ _ _ (snd x ++ [0; 0]) (off + size + ipsz v6) W1) as (m2 & t2 & P2 & W2).
  { rewrite !blen_app, Lxy, La. change (blen (enc16 ansn)) with 2. lia. } { rewrite blen_app, Lq. change (blen [0; 0]) with 2. unfold BASE in *; lia. }
  exists m1, m2. split; [exact P1|]. split; [exact P2|].
  assert (Ei : ents (cur ++ [x]) = ents cur ++ fst x ++ snd x ++ [0; 0]) by (rewrite flat_map_app; f_equal; cbn [flat_map]; rewrite app_nil_r; reflexivity).
  constructor; [|exact Rm| |lia].
  - exists a, b, sz, o, c, d, sq, xy, t2. split; [exact Lxy|]. apply (raw_eq _ _ _ _ _ _ _ _ _ _ _ W2). rewrite Ei. now rewrite <- !app_assoc.
  - rewrite Ei, !blen_app, La, Lq. change (blen [0; 0]) with 2. lia.
Qed.

Lemma hd_frag {A} (d : A) (frags : list (list A)) x l : concat frags = x :: l -> Forall (fun f => f <> []) frags -> hd d (hd [] frags) = x.
Proof. intros E F. destruct F as [|f fr N F]; [discriminate|]. destruct f as [|y f]; [congruence|]. cbn in E |- *. congruence. Qed.

Lemma lqt_loop_M l : good l -> forall s size rem lower cur, TI s size rem cur ->
  off + ipsz v6 + 4 <= Z.min 1228 (nb_max (s_nb s)) -> (cur = [] -> l <> [] -> ipsz v6 + 4 <= rem) ->
  exists s' size' rem' lower' outs parts lst, lqt_loop v6 common (map padded l) size rem lower (last_addr cur) s = Some (s', Some (size', lower')) /\ TI s' size' rem' lst /\
  delivers s s' (map enc_tc outs) /\ pcs (s_seq s) ansn lower (parts ++ [lst]) = outs ++ [mkTm vt orig ttl 0 (s_seq s') ansn lower' 255 lst] /\
  s_seq s' = plus_seq (s_seq s) (length parts) /\ concat parts ++ lst = cur ++ l /\ Forall (fun f => f <> []) parts /\ (cur ++ l <> [] -> lst <> []).
Proof.
  intros G. induction G as [|x l (La & Lq) G IH]; intros s size rem lower cur TIs Cap Spc; cbn [map lqt_loop].
  - pose proof (TI_ok _ _ _ _ TIs) as K. exists s, size, rem, lower, [], [], cur. split; [reflexivity|]. split; [exact TIs|]. split; [apply delivers_refl, K|]. split; [reflexivity|].
    split; [symmetry; apply plus_seq_0, K|]. split; [now rewrite app_nil_r|]. split; [constructor|]. now rewrite app_nil_r.
  - pose proof (TI_ok _ _ _ _ TIs) as K. pose proof (ipsz_val v6) as Iv. unfold padded at 1. cbv beta iota.
    destruct (Z.gtb_spec (size + ipsz v6 + 4) rem) as [Gt|Le0].
    + (* the piece is sent *)
      assert (Nc : cur <> []). { intros ->. pose proof TIs as [_ _ Sz _]. change (blen (ents [])) with 0 in Sz. specialize (Spc eq_refl ltac:(discriminate)). lia. }
      set (up := flag (fst (last cur ([], []))) (fst x)).
      assert (El : last_addr cur = Some (fst (last cur ([], [])))) by (destruct cur; [congruence|reflexivity]). rewrite El.
      destruct (tc_flush s size rem cur lower up TIs) as (s1 & E1 & D1 & Q1 & K1 & a & b & sz & o & c & d & sq & t & W1).
      destruct (output_M s1 K1) as (sO & Eo & DO & KO & MO & QO & PO).
      assert (DD := delivers_trans _ _ _ _ _ D1 DO). cbn [app] in DD. pose proof (delivers_max _ _ _ DD) as Mx.
      assert (Ro : room sO = Z.min 1228 (nb_max (s_nb s))) by (unfold room; rewrite PO, Mx; lia).
      assert (E2 : (poke (BASE v6 + 2) [lower] ;;; (let up := flag (fst (last cur ([], []))) (fst x) in poke (BASE v6 + 3) [up] ;;; common (size + off) ;;; push (size + off) ;;; output ;;; r <- space ;; ret (0, r - off, up))) s = Some (sO, Some (0, room sO - off, up))).
      { revert E1. cbv zeta. fold up. unfold mbind, ret. destruct (poke _ [lower] s) as [[? [?|]]|]; try discriminate. destruct (poke _ [up] _) as [[? [?|]]|]; try discriminate.
        destruct (common (size + off) _) as [[? [?|]]|]; try discriminate. intros ->. rewrite Eo, space_ok. reflexivity. }
      rewrite (bind_M _ _ _ _ _ E2). cbv beta iota.
      assert (T0 : TI sO 0 (room sO - off) []).
      { destruct W1 as [_ M1 A1 B1 C1]. constructor; cbn [flat_map]; change (blen []) with 0; try lia. exists a, b, sz, o, c, d, sq, [lower; up], t. split; [reflexivity|]. constructor; auto. now rewrite MO, M1. }
      destruct (tc_add sO 0 (room sO - off) [] x T0 La Lq ltac:(lia)) as (m1 & m2 & P1 & P2 & T1). cbn [app] in T1.
      rewrite (bind_M _ _ _ _ _ P1), (bind_M _ _ _ _ _ P2).
      destruct (IH _ _ _ up _ T1) as (s' & z' & r' & lw & outs & parts & lst & E & T' & D & Pc & Q & Cn & NE & NL).
      { cbn [set_msg s_nb]. rewrite Mx. exact Cap. } { discriminate. }
      cbn [set_msg s_seq] in *. rewrite QO, Q1 in *.
      exists s', z', r', lw, (mkTm vt orig ttl 0 (s_seq s) ansn lower up cur :: outs), (cur :: parts), lst. split; [exact E|]. split; [exact T'|].
      split; [cbn [map]; apply (delivers_trans _ _ _ _ _ DD); apply (delivers_nb (set_msg sO m2) s' sO s' _ D); reflexivity|].
      split. { cbn [app pieces]. rewrite <- Pc. f_equal.
        - f_equal. destruct (parts ++ [lst]) as [|f fr] eqn:Ef; [destruct parts; discriminate|]. unfold up. f_equal.
          assert (hd ([], []) (hd [] (parts ++ [lst])) = x).
          { apply hd_frag with (l := l); [rewrite concat_app; cbn [concat]; rewrite app_nil_r; exact Cn|]. apply Forall_app. split; [exact NE|]. constructor; [apply NL; discriminate|constructor]. }
          rewrite Ef in H. cbn [hd] in H. now rewrite H.
        - f_equal. destruct (parts ++ [lst]) as [|f fr] eqn:Ef; [destruct parts; discriminate|]. unfold up. f_equal.
          assert (hd ([], []) (hd [] (parts ++ [lst])) = x).
          { apply hd_frag with (l := l); [rewrite concat_app; cbn [concat]; rewrite app_nil_r; exact Cn|]. apply Forall_app. split; [exact NE|]. constructor; [apply NL; discriminate|constructor]. }
          rewrite Ef in H. cbn [hd] in H. now rewrite H. }
      split; [rewrite Q, <- plus_seq_1, plus_seq_app; reflexivity|]. split; [cbn [concat]; rewrite <- app_assoc, Cn; reflexivity|]. split; [constructor; auto|].
      intros _. apply NL. discriminate.
    + rewrite (bind_M _ _ _ s (size, rem, lower)) by reflexivity. cbv beta iota.
      destruct (tc_add s size rem cur x TIs La Lq Le0) as (m1 & m2 & P1 & P2 & T1).
      rewrite (bind_M _ _ _ _ _ P1), (bind_M _ _ _ _ _ P2). rewrite <- last_addr_snoc with (cur := cur).
      destruct (IH _ _ _ lower _ T1 Cap) as (s' & z' & r' & lw & outs & parts & lst & E & T' & D & Pc & Q & Cn & NE & NL). { intros X. exfalso. destruct cur; discriminate. }
      exists s', z', r', lw, outs, parts, lst. split; [exact E|]. split; [exact T'|]. split; [apply (delivers_nb (set_msg s m2) s' s s' _ D); reflexivity|]. split; [exact Pc|]. split; [exact Q|].
      rewrite <- app_assoc in Cn, NL. auto.
Qed.

Definition cap_lqtc : Z := off + ipsz v6 + 4.
Lemma serialize_lq_tc_M l s : ready cap_lqtc s -> good l ->
  exists s' frags, serialize_lq_tc v6 vt orig ttl ansn (map padded l) s = Some (s', Some tt) /\ delivers s s' (map enc_tc (pcs (s_seq s) ansn 255 frags)) /\
  s_seq s' = plus_seq (s_seq s) (length frags) /\ ok s' /\ concat frags = l /\ frags <> [] /\ (l <> [] -> Forall (fun f => f <> []) frags) /\ (l = [] -> frags = [[]]).
Proof.
  intros Rd Fa. pose proof (ready_ok _ _ Rd) as K. destruct Rd as (_ & Cap & _ & K3). pose proof (ipsz_val v6) as Iv.
  assert (Cap' : cap_lqtc <= Z.min 1228 (nb_max (s_nb s))) by (unfold cap_lqtc, BASE in *; lia).
  unfold serialize_lq_tc. cbv zeta.
  destruct (raw_exists v6 s K) as (a & b & sz & o & c & d & sq & rest & W5). pose proof (raw_len _ _ _ _ _ _ _ _ _ _ W5) as Ln.
  destruct rest as [|r0 [|r1 [|r2 [|r3 rest]]]]; try (exfalso; rewrite ?blen_cons in Ln; change (blen []) with 0 in Ln; unfold BASE in Ln; lia).
  destruct (poke_f_rest _ _ _ _ _ _ _ _ _ _ W5 [] [r0; r1] (r2 :: r3 :: rest) (net16 ansn) (BASE v6) eq_refl) as (x6 & P6 & W6); [change (blen []) with 0; lia|reflexivity|]. rewrite (bind_M _ _ _ _ _ P6). clear W5 P6.
  destruct (poke_f_rest _ _ _ _ _ _ _ _ _ _ W6 (net16 ansn) [r2] (r3 :: rest) [0] (BASE v6 + 2) eq_refl eq_refl eq_refl) as (x7 & P7 & W7). rewrite (bind_M _ _ _ _ _ P7). clear W6 P7.
  destruct (poke_f_rest _ _ _ _ _ _ _ _ _ _ W7 (net16 ansn ++ [0]) [r3] rest [0] (BASE v6 + 3)) as (x8 & P8 & W8); [now rewrite <- app_assoc|reflexivity|reflexivity|]. rewrite (bind_M _ _ _ _ _ P8). clear W7 P8.
  cbn [set_msg s_nb s_seq s_log s_msg] in *.
  match type of W8 with raw _ ?S _ _ _ _ _ _ _ _ => set (s8 := S) in * end.
  assert (D8 : delivers s s8 []) by (apply (delivers_nb s s s s8 [] (delivers_refl s (proj1 K))); reflexivity). assert (Q8 : s_seq s8 = s_seq s) by reflexivity. assert (K8 : ok s8) by apply W8.
  rewrite (bind_M _ _ _ _ _ (space_ok s8)). rewrite (bind_M _ _ _ s8 (nb_pend (s_nb s))) by (apply (pending_ok s8), K8).
  rewrite map_length.
  set (expected := if 0 <? nb_pend (s_nb s) then Z.of_nat (length l) * (ipsz v6 + 4) else 0).
  assert (St : exists s1, (if room s8 - off <? expected then (output ;;; r' <- space ;; ret (r' - off)) else ret (room s8 - off)) s8 = Some (s1, Some (room s1 - off)) /\
     0 <= room s1 - off /\ (l <> [] -> ipsz v6 + 4 <= room s1 - off) /\ ok s1 /\ delivers s8 s1 [] /\ s_msg s1 = s_msg s8 /\ s_seq s1 = s_seq s8).
  { destruct (Z.ltb_spec (room s8 - off) expected) as [G|G].
    - destruct (output_M s8 K8) as (sO & Eo & DO & KO & MO & QO & PO). rewrite (bind_M _ _ _ _ _ Eo). rewrite (bind_M _ _ _ _ _ (space_ok sO)). exists sO. split; [reflexivity|].
      assert (cap_lqtc <= room sO) by (unfold room; rewrite PO, (delivers_max _ _ _ DO); change (s_nb s8) with (s_nb s); lia). unfold cap_lqtc in *. split; [lia|]. split; [intros _; lia|]. auto.
    - exists s8. split; [reflexivity|]. unfold expected in G. destruct (Z.ltb_spec 0 (nb_pend (s_nb s))) as [H|H].
      + assert (Ep : 0 <= Z.of_nat (length l) * (ipsz v6 + 4)) by nia. split; [lia|]. split; [intros Nl; assert (1 <= Z.of_nat (length l)) by (destruct l; [congruence|cbn [length]; lia]); assert (1 * (ipsz v6 + 4) <= Z.of_nat (length l) * (ipsz v6 + 4)) by (apply Z.mul_le_mono_nonneg_r; lia); lia|].
        split; [exact K8|]. split; [apply delivers_refl, K8|auto].
      + assert (cap_lqtc <= room s8) by (pose proof (usable_bounds _ (proj1 K)); unfold room; change (s_nb s8) with (s_nb s); lia). unfold cap_lqtc in *.
        split; [lia|]. split; [intros _; lia|]. split; [exact K8|]. split; [apply delivers_refl, K8|auto]. }
  destruct St as (s1 & E1 & L1 & L1' & K1 & D1 & M1 & Q1). rewrite (bind_M _ _ _ _ _ E1).
  assert (T1 : TI s1 0 (room s1 - off) []).
  { constructor; cbn [flat_map]; change (blen []) with 0; try lia. destruct W8 as [_ M8 A8 B8 C8]. exists a, b, sz, o, c, d, sq, [0; 0], rest. split; [reflexivity|]. constructor; auto. rewrite M1, M8. f_equal. rewrite net16_enc by exact Ha. rewrite <- !app_assoc. reflexivity. }
  assert (D1s : delivers s s1 []) by (apply (delivers_trans _ _ _ [] [] D8 D1)).
  destruct (lqt_loop_M l Fa s1 0 (room s1 - off) 255 [] T1) as (s9 & z9 & r9 & lw & outs & parts & lst & E9 & T9 & D9 & Pc & Q9 & Cn & NE & NL); auto.
  { rewrite (delivers_max _ _ _ D1s). exact Cap'. }
  change (last_addr []) with (@None (list Z)) in E9. rewrite (bind_M _ _ _ _ _ E9). cbv beta iota. clear E9. rewrite Q1, Q8 in *. assert (D10 := delivers_trans _ _ _ _ _ D1s D9). cbn [app] in *.
  destruct (tc_flush s9 z9 r9 lst lw 255 T9) as (s' & P & D & Q & K' & _). rewrite P.
  exists s', (parts ++ [lst]). split; [reflexivity|]. split; [|split; [|split; [exact K'|]]].
  - rewrite Pc, map_app. apply (delivers_trans _ _ _ _ _ D10). exact D.
  - rewrite Q, Q9, <- plus_seq_1, plus_seq_app, app_length. reflexivity.
  - split; [rewrite concat_app; cbn [concat]; now rewrite app_nil_r|]. split; [destruct parts; discriminate|]. split.
    + intros Nl. apply Forall_app. split; [exact NE|]. constructor; [now apply NL|constructor].
    + intros ->. destruct parts as [|f fr]; [cbn in Cn; now subst|]. inversion NE as [|? ? Nf _]; subst. destruct f; [congruence|discriminate].
Qed.
End lqtc.

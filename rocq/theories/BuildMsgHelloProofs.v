From Verif Require Import Base Bytes NetBuf NetBufSpec NetBufProofs Parser Hello HelloSpec HelloProofs Tc TcSpec BuildMsg BuildMsgSpec BuildMsgProofs BuildMsgTcProofs.

Lemma room_max s : room s <= 1228. Proof. unfold room. lia. Qed.
Lemma raw_eq v6 s a b sz o c d sq r r' : raw v6 s a b sz o c d sq r -> r = r' -> raw v6 s a b sz o c d sq r'. Proof. intros W <-. exact W. Qed.
(** writing behind [A] *)
Lemma raw_append v6 s a b sz o c d sq A t x i : raw v6 s a b sz o c d sq (A ++ t) -> i = BASE v6 + blen A -> i + blen x <= 1500 ->
  exists m t', poke i x s = Some (set_msg s m, Some tt) /\ raw v6 (set_msg s m) a b sz o c d sq (A ++ x ++ t').
Proof.
  intros W -> L. pose proof (raw_len _ _ _ _ _ _ _ _ _ _ W) as Ln. rewrite blen_app in Ln. pose proof (blen_nonneg x).
  destruct (split_at t (blen x) ltac:(lia)) as (t1 & t2 & -> & Lt).
  destruct (poke_f_rest _ _ _ _ _ _ _ _ _ _ W A t1 t2 x (BASE v6 + blen A) eq_refl eq_refl Lt) as (m & P & W'). exists m, t2. auto.
Qed.
Lemma raw_bump v6 s a b sz o c d sq r : raw v6 s a b sz o c d sq r -> raw v6 (bump s) a b sz o c d sq r.
Proof. intros [K M A B C]. constructor; auto. now apply ok_bump. Qed.
Lemma blen4 a b c d : blen [a; b; c; d] = 4. Proof. reflexivity. Qed.
Lemma blen_cons (a : Z) l : blen (a :: l) = 1 + blen l. Proof. unfold blen. cbn [length]. lia. Qed.
Lemma blen1 a : blen [a] = 1. Proof. reflexivity. Qed.
Lemma enc_block_min lq b : 4 <= blen (enc_block lq b).
Proof. unfold enc_block. cbn [app]. rewrite !blen_cons. pose proof (blen_nonneg (flat_map (enc_entry lq) (b_entries b))). unfold enc16. cbn [app]. rewrite !blen_cons. lia. Qed.
Lemma link_code_split i j : 0 <= i <= 2 -> 0 <= j <= 4 -> link_code i j = (if j =? 4 then 4 else 0) + (if (j =? 4) && (i =? 1) then 0 else 4 * i) + (if j =? 4 then 0 else j).
Proof.
  intros Hi Hj. unfold link_code.
  assert (i = 0 \/ i = 1 \/ i = 2) as [-> | [-> | ->]] by lia; assert (j = 0 \/ j = 1 \/ j = 2 \/ j = 3 \/ j = 4) as [-> | [-> | [-> | [-> | ->]]]] by lia; reflexivity.
Qed.

Section hello.
Variables (v6 : bool) (vt ht will ttl : Z) (main : list Z).
Hypothesis Ho : blen main = ipsz v6.
Notation off := (BASE v6 + 4).
Notation bytes_of bs := (flat_map (enc_block false) bs).
Notation items es := (flat_map (enc_entry false) es).
Notation hmsg := (hello_msg false vt ht will ttl main).
Definition pre : list Z := [0; 0; ht; will].
Definition ent (n : hnb) : entry := mkE (firstn (Z.to_nat (ipsz v6)) (n_addr n)) [0; 0] [0; 0].
Definition opened (c : Z) (xy : list Z) (es : list entry) : list Z := match es with [] => [] | _ => [c; 0] ++ xy ++ items es end.
Definition closed (c : Z) (es : list entry) : list block := match es with [] => [] | _ => [mkB c 0 es] end.
Definition empty (es : list entry) : bool := match es with [] => true | _ => false end.

Record HI (c : Z) (s : bst) (h : hst) (first : bool) (bs : list block) (es : list entry) : Prop := mkHI {
  i_raw : exists sz sq xy t, blen xy = 2 /\ raw v6 s 1 vt sz main ttl 0 sq ((pre ++ bytes_of bs ++ opened c xy es) ++ t);
  i_rem : h_rem h = room s;
  i_info : h_info h = off + blen (bytes_of bs);
  i_addr : h_addr h = h_info h + 4 + blen (items es);
  i_curr : h_curr h = if first then h_info h else h_addr h;
  i_le : h_curr h <= room s;
  i_first : first = empty es;
  i_bs : Forall (wf_block (ipsz v6)) bs;
  i_es : Forall (wf_entry (ipsz v6)) es }.

Lemma HI_ok c s h first bs es : HI c s h first bs es -> ok s.
Proof. intros [ (sz & sq & xy & t & _ & W) _ _ _ _ _ _ _ _]. apply W. Qed.
Lemma opened_len c xy es : blen xy = 2 -> blen (opened c xy es) = if empty es then 0 else 4 + blen (items es).
Proof. intros L. destruct es; [reflexivity|]. unfold opened. rewrite !blen_app, L. cbn [empty]. change (blen [c; 0]) with 2. lia. Qed.
Lemma enc_closed c es : 0 <= 4 + blen (items es) < 65536 -> bytes_of (closed c es) = opened c (net16 (4 + blen (items es))) es.
Proof. intros B. destruct es as [|e es]; [reflexivity|]. cbn [closed flat_map]. rewrite app_nil_r. unfold enc_block, opened. cbn [b_entries b_code b_res]. now rewrite net16_enc. Qed.
Lemma hmsg_eq seq bs : 0 <= seq < 65536 -> hmsg seq bs = hdrb 1 vt (enc16 (8 + ipsz v6 + blen (pre ++ bytes_of bs))) main ttl 0 (enc16 seq) ++ pre ++ bytes_of bs.
Proof.
  intros H. unfold hello_msg, enc_hello, hdrb. cbn [x_lq x_hdr x_res x_blocks h_vtime h_src h_ttl h_hops h_seq h_htime h_will].
  rewrite Ho. rewrite blen_app. change (blen pre) with 4. replace (8 + ipsz v6 + (4 + blen (bytes_of bs))) with (12 + ipsz v6 + blen (bytes_of bs)) by lia.
  rewrite <- !app_assoc. reflexivity.
Qed.

(** an address that fits *)
Lemma hello_add c s h first bs es n : 0 <= c < 256 -> HI c s h first bs es -> blen (n_addr n) = 16 -> h_curr h + ipsz v6 + (if first then 4 else 0) <= h_rem h ->
  exists m1 m2, (if first then poke (h_info h + 1) [0] ;;; poke (h_info h) [c] else ret tt) s = Some (set_msg s m1, Some tt) /\
    poke (h_addr h) (n_addr n) (set_msg s m1) = Some (set_msg s m2, Some tt) /\
    HI c (set_msg s m2) (mkH (u16 (u16 (h_curr h + (if first then 4 else 0)) + ipsz v6)) (h_rem h) (h_info h) (h_addr h + ipsz v6)) false bs (es ++ [ent n]).
Proof.
  intros Hc [ (sz & sq & xy & t & Lxy & W) Rm Inf Ad Cu Le Fi Fb Fe] Ln Ft.
  pose proof (room_max s) as R1. pose proof (ipsz_val v6) as Iv. pose proof (blen_nonneg (bytes_of bs)) as N1. pose proof (blen_nonneg (items es)) as N2.
  assert (Bs : 12 <= BASE v6) by (unfold BASE; lia).
  assert (Le16 : blen (e_addr (ent n)) = ipsz v6) by (unfold ent; cbn [e_addr]; unfold blen in *; rewrite firstn_length; lia).
  assert (Sp : n_addr n = e_addr (ent n) ++ skipn (Z.to_nat (ipsz v6)) (n_addr n)) by (cbn [ent e_addr]; symmetry; apply firstn_skipn).
  assert (Wf : wf_entry (ipsz v6) (ent n)) by (split; [exact Le16|split; reflexivity]).
  (* with the head of the block in place *)
  assert (Go : forall m1 xy1 t1, blen xy1 = 2 -> raw v6 (set_msg s m1) 1 vt sz main ttl 0 sq ((pre ++ bytes_of bs ++ [c; 0] ++ xy1 ++ items es) ++ t1) ->
     exists m2, poke (h_addr h) (n_addr n) (set_msg s m1) = Some (set_msg s m2, Some tt) /\
       HI c (set_msg s m2) (mkH (u16 (u16 (h_curr h + (if first then 4 else 0)) + ipsz v6)) (h_rem h) (h_info h) (h_addr h + ipsz v6)) false bs (es ++ [ent n])).
  { intros m1 xy1 t1 L1 W1.
    destruct (raw_append _ _ _ _ _ _ _ _ _ _ _ (n_addr n) (h_addr h) W1) as (m2 & t2 & P2 & W2).
    { rewrite !blen_app, L1. change (blen pre) with 4. change (blen [c; 0]) with 2. lia. }
    { assert (Nf : first = true -> blen (items es) = 0) by (intros ->; destruct es; [reflexivity|discriminate]). rewrite Ln. destruct first; [specialize (Nf eq_refl)|]; lia. }
    exists m2. split; [exact P2|].
    assert (Ei : items (es ++ [ent n]) = items es ++ e_addr (ent n)) by (rewrite flat_map_app; f_equal; unfold flat_map, enc_entry; rewrite !app_nil_r; reflexivity).
    constructor; cbn [h_rem h_info h_addr h_curr].
    - exists sz, sq, xy1, (skipn (Z.to_nat (ipsz v6)) (n_addr n) ++ t2). split; [exact L1|].
      apply (raw_eq _ _ _ _ _ _ _ _ _ _ _ W2).
      assert (Eo : opened c xy1 (es ++ [ent n]) = [c; 0] ++ xy1 ++ items (es ++ [ent n])) by (unfold opened; destruct es; reflexivity).
      rewrite Eo, Ei. rewrite Sp at 1. now rewrite <- !app_assoc.
    - exact Rm.
    - exact Inf.
    - rewrite Ei, blen_app, Le16. lia.
    - rewrite Cu. unfold u16. destruct first; [|rewrite (Z.mod_small (h_addr h + 0)) by lia; rewrite Z.mod_small by lia; lia].
      rewrite (Z.mod_small (h_info h + 4)) by lia. rewrite Z.mod_small by lia. assert (es = []) by (destruct es; [reflexivity|discriminate]). subst es. change (blen (items [])) with 0 in *. lia.
    - rewrite room_set. unfold u16. rewrite (Z.mod_small (h_curr h + _)) by (destruct first; lia). rewrite Z.mod_small by (destruct first; lia). destruct first; lia.
    - destruct es; reflexivity.
    - exact Fb.
    - apply Forall_app. auto. }
  destruct first.
  - assert (es = []) by (destruct es; [reflexivity|discriminate]). subst es. cbn [opened flat_map] in *. rewrite app_nil_r in W. change (blen []) with 0 in *.
    pose proof (raw_len _ _ _ _ _ _ _ _ _ _ W) as Lw. rewrite !blen_app in Lw. change (blen pre) with 4 in Lw.
    destruct t as [|x0 [|x1 [|x2 [|x3 t]]]]; try (exfalso; change (blen []) with 0 in Lw; rewrite ?blen_cons in Lw; change (blen []) with 0 in Lw; lia).
    destruct (poke_f_rest _ _ _ _ _ _ _ _ _ _ W ((pre ++ bytes_of bs) ++ [x0]) [x1] (x2 :: x3 :: t) [0] (h_info h + 1)) as (m1 & P1 & W1).
    { now rewrite <- !app_assoc. } { rewrite !blen_app, blen1. change (blen pre) with 4. lia. } { reflexivity. }
    destruct (poke_f_rest _ _ _ _ _ _ _ _ _ _ W1 (pre ++ bytes_of bs) [x0] ([0] ++ x2 :: x3 :: t) [c] (h_info h)) as (m2 & P2 & W2).
    { now rewrite <- !app_assoc. } { rewrite !blen_app. change (blen pre) with 4. lia. } { reflexivity. }
    rewrite (bind_M _ _ _ _ _ P1). rewrite P2. cbn [set_msg s_nb s_seq s_log s_msg] in *.
    destruct (Go m2 [x2; x3] t) as (m3 & P3 & H3); [reflexivity| |].
    { apply (raw_eq _ _ _ _ _ _ _ _ _ _ _ W2). rewrite <- !app_assoc. reflexivity. }
    exists m2, m3. split; [reflexivity|]. split; [exact P3|exact H3].
  - assert (Eo : opened c xy es = [c; 0] ++ xy ++ items es) by (destruct es; [discriminate|reflexivity]).
    rewrite Eo in W. assert (Es : set_msg s (s_msg s) = s) by (destruct s; reflexivity).
    destruct (Go (s_msg s) xy t Lxy) as (m3 & P3 & H3); [now rewrite Es|]. exists (s_msg s), m3. rewrite Es in *. split; [reflexivity|]. auto.
Qed.

(** the message is queued *)
Lemma hello_flush c s h first bs es : 0 <= c < 256 -> HI c s h first bs es -> h_curr h <= room s ->
  exists s' t', (m <- seqno ;; poke (6 + ipsz v6) (net16 m) ;;; poke 2 (net16 (h_curr h)) ;;; poke (h_info h + 2) (net16 (h_addr h - h_info h)) ;;; push (h_curr h)) s = Some (s', Some tt) /\
    delivers s s' [hmsg (s_seq s) (bs ++ closed c es)] /\ s_seq s' = (s_seq s + 1) mod 65536 /\ ok s' /\
    exists sz sq, raw v6 s' 1 vt sz main ttl 0 sq (pre ++ t').
Proof.
  intros Hc HIs _. pose proof (HI_ok _ _ _ _ _ _ HIs) as K. destruct HIs as [ (sz & sq & xy & t & Lxy & W) Rm Inf Ad Cu Le Fi Fb Fe].
  pose proof (room_max s) as R1. pose proof (ipsz_val v6) as Iv. pose proof (blen_nonneg (bytes_of bs)) as N1. pose proof (blen_nonneg (items es)) as N2.
  assert (Bs : 12 <= BASE v6) by (unfold BASE; lia).
  assert (Lo := opened_len c xy es Lxy). rewrite <- Fi in Lo.
  rewrite (bind_M _ _ _ _ _ (seqno_M _)). fold (bump s). pose proof (raw_bump _ _ _ _ _ _ _ _ _ _ W) as W0.
  destruct (poke_f_seq _ _ _ _ _ _ _ _ _ _ W0 (s_seq s)) as (x1 & P1 & W1). rewrite (bind_M _ _ _ _ _ P1). clear W0 P1.
  destruct (poke_f_size _ _ _ _ _ _ _ _ _ _ W1 (h_curr h)) as (x2 & P2 & W2). rewrite (bind_M _ _ _ _ _ P2). clear W1 P2.
  cbn [set_msg bump s_nb s_seq s_log s_msg] in *. match type of W2 with raw _ ?S _ _ _ _ _ _ _ _ => set (s2 := S) in * end.
  assert (Bk : exists m3 t3, poke (h_info h + 2) (net16 (h_addr h - h_info h)) s2 = Some (set_msg s2 m3, Some tt) /\
     raw v6 (set_msg s2 m3) 1 vt (net16 (h_curr h)) main ttl 0 (net16 (s_seq s)) ((pre ++ bytes_of (bs ++ closed c es)) ++ t3)).
  { rewrite flat_map_app. destruct first.
    - assert (es = []) by (destruct es; [reflexivity|discriminate]). subst es. cbn [closed flat_map opened] in *. rewrite !app_nil_r in *.
      pose proof (raw_len _ _ _ _ _ _ _ _ _ _ W2) as Lw. rewrite !blen_app in Lw. change (blen pre) with 4 in Lw.
      destruct t as [|y0 [|y1 t]]; try (exfalso; change (blen []) with 0 in Lw; rewrite ?blen_cons in Lw; change (blen []) with 0 in Lw; lia).
      destruct (raw_append v6 s2 1 vt (net16 (h_curr h)) main ttl 0 (net16 (s_seq s)) ((pre ++ bytes_of bs) ++ [y0; y1]) t (net16 (h_addr h - h_info h)) (h_info h + 2)) as (m3 & t3 & P3 & W3).
      + apply (raw_eq _ _ _ _ _ _ _ _ _ _ _ W2). now rewrite <- !app_assoc.
      + rewrite !blen_app. change (blen pre) with 4. change (blen [y0; y1]) with 2. lia.
      + rewrite net16_len. lia.
      + exists m3, ([y0; y1] ++ net16 (h_addr h - h_info h) ++ t3). split; [exact P3|]. apply (raw_eq _ _ _ _ _ _ _ _ _ _ _ W3). now rewrite <- !app_assoc.
    - rewrite enc_closed by lia. assert (Eo : forall z, opened c z es = [c; 0] ++ z ++ items es) by (intros z; destruct es; [discriminate|reflexivity]). rewrite Eo in *.
      destruct (poke_f_rest _ _ _ _ _ _ _ _ _ _ W2 (pre ++ bytes_of bs ++ [c; 0]) xy (items es ++ t) (net16 (h_addr h - h_info h)) (h_info h + 2)) as (m3 & P3 & W3).
      { now rewrite <- !app_assoc. } { rewrite !blen_app. change (blen pre) with 4. change (blen [c; 0]) with 2. lia. } { rewrite net16_len. exact Lxy. }
      exists m3, t. split; [exact P3|]. apply (raw_eq _ _ _ _ _ _ _ _ _ _ _ W3). replace (h_addr h - h_info h) with (4 + blen (items es)) by lia. now rewrite <- !app_assoc. }
  destruct Bk as (m3 & t3 & P3 & W3). rewrite (bind_M _ _ _ _ _ P3).
  assert (Lb : blen (bytes_of (bs ++ closed c es)) = blen (bytes_of bs) + (if first then 0 else 4 + blen (items es))).
  { rewrite flat_map_app, blen_app. f_equal. rewrite enc_closed by (destruct first; [replace es with (@nil entry) by (destruct es; [reflexivity|discriminate]); cbn; lia|lia]). rewrite (opened_len c _ es (net16_len _)). now rewrite <- Fi. }
  assert (Cr : h_curr h = BASE v6 + blen (pre ++ bytes_of (bs ++ closed c es))) by (rewrite blen_app, Lb; change (blen pre) with 4; destruct first; lia).
  pose proof W3 as [K3 M3 A3 B3 C3].
  destruct (push_M (set_msg s2 m3) (hdrb 1 vt (net16 (h_curr h)) main ttl 0 (net16 (s_seq s)) ++ pre ++ bytes_of (bs ++ closed c es)) t3 (h_curr h) K3) as (s' & P & D & K' & M' & Q').
  - rewrite M3. now rewrite <- !app_assoc.
  - rewrite blen_app, (hdrb_len _ _ _ _ _ _ _ v6); auto.
  - exact Le.
  - exists s', (bytes_of (bs ++ closed c es) ++ t3). split; [exact P|]. split; [|split; [rewrite Q'; reflexivity|split; [exact K'|]]].
    + apply (delivers_nb (set_msg s2 m3) s' s s'); auto. apply (delivers_eq _ _ _ _ D). f_equal. rewrite hmsg_eq by apply K. rewrite !net16_enc; [|apply K|destruct first; lia].
      do 2 f_equal. f_equal. rewrite Cr. unfold BASE. lia.
    + exists (net16 (h_curr h)), (net16 (s_seq s)). constructor; auto. rewrite M', M3. now rewrite <- !app_assoc.
Qed.

Definition reads (c : Z) (n : hnb) : hneigh := mkHN (c mod 4) (c / 4 mod 4) (firstn (Z.to_nat (ipsz v6)) (n_addr n)) [].
Definition pairs_of (c : Z) (es : list entry) : list hneigh := flat_map (advertised false) (closed c es).
Lemma pairs_app c es n : pairs_of c (es ++ [ent n]) = pairs_of c es ++ [reads c n].
Proof.
  assert (E : forall l, pairs_of c l = map (fun e => mkHN (c mod 4) (c / 4 mod 4) (e_addr e) []) l).
  { intros l. unfold pairs_of. destruct l; [reflexivity|]. cbn [closed flat_map]. rewrite app_nil_r. reflexivity. }
  rewrite !E, map_app. reflexivity.
Qed.
Lemma said_app a b : said false (a ++ b) = said false a ++ said false b. Proof. unfold said. apply flat_map_app. Qed.
Lemma wf_closed c es : 0 <= c < 256 -> Forall (wf_entry (ipsz v6)) es -> Forall (wf_block (ipsz v6)) (closed c es).
Proof. intros Hc F. destruct es as [|e es]; constructor; [|constructor]. split; auto. Qed.

Lemma hello_inner_M i j l : let c := link_code i j in 0 <= c < 256 -> forall s h first bs es, HI c s h first bs es -> Forall (fun n => blen (n_addr n) = 16) l -> off + ipsz v6 + 4 <= Z.min 1228 (nb_max (s_nb s)) ->
  exists s' h' first' parts bs' es', hello_inner v6 i j l h first s = Some (s', Some (h', first')) /\ HI c s' h' first' bs' es' /\
  delivers s s' (numbered hmsg (s_seq s) parts) /\ s_seq s' = plus_seq (s_seq s) (length parts) /\
  said false (concat parts) ++ said false bs' ++ pairs_of c es' = said false bs ++ pairs_of c es ++ map (reads c) (filter (fun n => (n_status n =? i) && (n_link n =? j)) l) /\
  Forall (wf_block (ipsz v6)) (concat parts) /\ Forall (fun p => p <> []) parts.
Proof.
  intros c Hc. induction l as [|n l IH]; intros s h first bs es HIs Fl Cap; cbn [hello_inner filter].
  - exists s, h, first, [], bs, es. pose proof (HI_ok _ _ _ _ _ _ HIs) as K. split; [reflexivity|]. split; [exact HIs|]. split; [apply delivers_refl, K|]. split; [symmetry; apply plus_seq_0, K|].
    split; [cbn [concat map]; rewrite app_nil_r; reflexivity|]. split; constructor.
  - inversion Fl as [|? ? Ln Fl']; subst. rewrite <- negb_andb. destruct ((n_status n =? i) && (n_link n =? j)) eqn:Et; cbn [negb].
    2: { destruct (IH s h first bs es HIs Fl' Cap) as (s' & h' & f' & parts & bs' & es' & X). exists s', h', f', parts, bs', es'. exact X. }
    fold c. cbn [map]. pose proof (HI_ok _ _ _ _ _ _ HIs) as K. pose proof (room_max s) as R1. pose proof (ipsz_val v6) as Iv.
    (* after making room *)
    assert (Mk : exists sM hM fM out bM eM, (if h_curr h + ipsz v6 + (if first then 4 else 0) >? h_rem h
              then y <- (if h_curr h >? off
                         then m <- seqno ;; poke (6 + ipsz v6) (net16 m) ;;; poke 2 (net16 (h_curr h)) ;;;
                              poke (h_info h + 2) (net16 (h_addr h - h_info h)) ;;; push (h_curr h) ;;;
                              ret (mkH off (h_rem h) off (BASE v6 + 8), true)
                         else ret (h, first)) ;;
                   output ;;; rem <- space16 ;;
                   let (h1, f1) := y : hst * bool in
                   check_buffspace (h_curr h1 + ipsz v6 + 4) rem ;;; ret (mkH (h_curr h1) rem (h_info h1) (h_addr h1), f1)
              else ret (h, first)) s = Some (sM, Some (hM, fM)) /\ HI c sM hM fM bM eM /\ h_curr hM + ipsz v6 + (if fM then 4 else 0) <= h_rem hM /\
        delivers s sM (numbered hmsg (s_seq s) out) /\ s_seq sM = plus_seq (s_seq s) (length out) /\
        said false (concat out) ++ said false bM ++ pairs_of c eM = said false bs ++ pairs_of c es /\
        Forall (wf_block (ipsz v6)) (concat out) /\ Forall (fun p => p <> []) out).
    { destruct (Z.gtb_spec (h_curr h + ipsz v6 + (if first then 4 else 0)) (h_rem h)) as [G|G].
      2: { exists s, h, first, [], bs, es. split; [reflexivity|]. split; [exact HIs|]. split; [exact G|]. split; [apply delivers_refl, K|]. split; [symmetry; apply plus_seq_0, K|]. split; [reflexivity|split; constructor]. }
      assert (Fl1 : exists sF hF out tF, (if h_curr h >? off
                         then m <- seqno ;; poke (6 + ipsz v6) (net16 m) ;;; poke 2 (net16 (h_curr h)) ;;;
                              poke (h_info h + 2) (net16 (h_addr h - h_info h)) ;;; push (h_curr h) ;;;
                              ret (mkH off (h_rem h) off (BASE v6 + 8), true)
                         else ret (h, first)) s = Some (sF, Some (hF, true)) /\ ok sF /\ (exists sz sq, raw v6 sF 1 vt sz main ttl 0 sq (pre ++ tF)) /\
                h_curr hF = off /\ h_info hF = off /\ h_addr hF = off + 4 /\ delivers s sF (numbered hmsg (s_seq s) out) /\ s_seq sF = plus_seq (s_seq s) (length out) /\
                said false (concat out) = said false bs ++ pairs_of c es /\ Forall (wf_block (ipsz v6)) (concat out) /\ Forall (fun p => p <> []) out).
      { pose proof HIs as [ (sz & sq & xy & t & Lxy & W) Rm Inf Ad Cu Le Fi Fb Fe]. pose proof (blen_nonneg (bytes_of bs)) as N1. pose proof (blen_nonneg (items es)) as N2.
        destruct (Z.gtb_spec (h_curr h) off) as [G1|G1].
        - destruct (hello_flush c s h first bs es Hc HIs Le) as (s' & t' & P & D & Q & K' & W').
          assert (P' : (m <- seqno ;; poke (6 + ipsz v6) (net16 m) ;;; poke 2 (net16 (h_curr h)) ;;; poke (h_info h + 2) (net16 (h_addr h - h_info h)) ;;; push (h_curr h) ;;; ret (mkH off (h_rem h) off (BASE v6 + 8), true)) s = Some (s', Some (mkH off (h_rem h) off (BASE v6 + 8), true))).
          { revert P. unfold mbind, ret. destruct (seqno s) as [[? [?|]]|]; try discriminate. do 3 (destruct (poke _ _ _) as [[? [?|]]|]; try discriminate). intros P. now rewrite P. }
          exists s', (mkH off (h_rem h) off (BASE v6 + 8)), [bs ++ closed c es], t'. split; [exact P'|]. split; [exact K'|]. split; [exact W'|]. cbn [h_curr h_info h_addr].
          split; [reflexivity|]. split; [reflexivity|]. split; [lia|]. split; [exact D|]. split; [rewrite Q; reflexivity|]. cbn [concat]. rewrite !app_nil_r.
          split; [rewrite said_app; reflexivity|]. split; [apply Forall_app; split; [exact Fb|now apply wf_closed]|]. constructor; [|constructor].
          intros E0. destruct bs; [|discriminate]. destruct es; [|discriminate]. cbn [empty] in Fi. subst first. change (blen (bytes_of [])) with 0 in *. lia.
        - assert (first = true). { destruct first; [reflexivity|]. exfalso. lia. } subst first.
          assert (es = []) by (destruct es; [reflexivity|discriminate]). subst es.
          assert (Nb : forall b k, 4 <= blen (bytes_of (b :: k))) by (intros b k; cbn [flat_map]; rewrite blen_app; pose proof (blen_nonneg (bytes_of k)); pose proof (enc_block_min false b); lia).
          assert (bs = []). { destruct bs as [|b bs]; [reflexivity|]. exfalso. specialize (Nb b bs). cbn [empty] in Cu. lia. }
          subst bs. clear Nb. cbn [flat_map opened] in *. change (blen []) with 0 in *. rewrite !app_nil_r in W.
          exists s, h, [], t. split; [reflexivity|]. split; [exact K|]. split; [now exists sz, sq|]. cbn [empty] in Cu. change (blen []) with 0 in *. split; [lia|]. split; [lia|]. split; [lia|].
          split; [apply delivers_refl, K|]. split; [symmetry; apply plus_seq_0, K|]. split; [reflexivity|split; constructor]. }
      destruct Fl1 as (sF & hF & out & tF & E1 & K1 & (sz & sq & W1) & C1 & C2 & C3 & D1 & Q1 & S1 & W2 & W3). rewrite (bind_M _ _ _ _ _ E1).
      destruct (output_M sF K1) as (sO & Eo & DO & KO & MO & QO & PO). rewrite (bind_M _ _ _ _ _ Eo). rewrite (bind_M _ _ _ _ _ (space16_ok sO KO)).
      assert (DD := delivers_trans _ _ _ _ _ D1 DO). rewrite app_nil_r in DD. pose proof (delivers_max _ _ _ DD) as Mx.
      assert (Ro : room sO = Z.min 1228 (nb_max (s_nb s))) by (unfold room; rewrite PO, Mx; lia).
      cbv beta iota. rewrite C1. unfold check_buffspace. replace (off + ipsz v6 + 4 >? room sO) with false by lia. rewrite (bind_M _ _ _ sO tt) by reflexivity. rewrite C2, C3.
      exists sO, (mkH off (room sO) off (off + 4)), true, out, [], []. split; [reflexivity|]. split.
      { constructor; cbn [h_rem h_info h_addr h_curr flat_map empty]; change (blen []) with 0; try lia; try reflexivity; try constructor.
        exists sz, sq, [0; 0], tF. split; [reflexivity|]. cbn [opened]. rewrite !app_nil_r. pose proof W1 as [KF MF Af Bf Cf]. constructor; auto. now rewrite MO. }
      cbn [h_curr h_rem]. split; [lia|]. split; [exact DD|]. split; [now rewrite QO|]. split; [rewrite !app_nil_r; exact S1|]. auto. }
    destruct Mk as (sM & hM & fM & out & bM & eM & EM & HM & Fit & DM & QM & SM & WM & NM). rewrite (bind_M _ _ _ _ _ EM). clear EM.
    destruct (hello_add c sM hM fM bM eM n Hc HM Ln Fit) as (m1 & m2 & P1 & P2 & H2).
    cbv beta iota. rewrite (bind_M _ _ _ _ _ P1). rewrite (bind_M _ _ _ _ _ P2).
    destruct (IH _ _ _ _ _ H2 Fl') as (s' & h' & f' & parts & bs' & es' & E & HI' & D & Q & S & Wf & Ne).
    { cbn [set_msg s_nb]. rewrite (delivers_max _ _ _ DM). exact Cap. }
    exists s', h', f', (out ++ parts), bs', es'. split; [exact E|]. split; [exact HI'|].
    assert (D2 : delivers sM s' (numbered hmsg (s_seq sM) parts)) by (apply (delivers_nb (set_msg sM m2) s' sM s' _ D); reflexivity).
    split; [rewrite numbered_app by apply K; rewrite <- QM; apply (delivers_trans _ _ _ _ _ DM D2)|].
    split; [rewrite Q; cbn [set_msg s_seq]; rewrite QM, plus_seq_app, app_length; reflexivity|].
    split; [|split; [rewrite concat_app; apply Forall_app; auto|apply Forall_app; auto]].
    rewrite concat_app, said_app, <- app_assoc, S, pairs_app. rewrite !app_assoc. rewrite !app_assoc in SM. rewrite SM. now rewrite <- !app_assoc.
Qed.

Lemma code_range i j : 0 <= i <= 2 -> 0 <= j <= 4 -> 0 <= link_code i j < 256.
Proof.
  intros Hi Hj. assert (i = 0 \/ i = 1 \/ i = 2) as [-> | [-> | ->]] by lia; assert (j = 0 \/ j = 1 \/ j = 2 \/ j = 3 \/ j = 4) as [-> | [-> | [-> | [-> | ->]]]] by lia; cbn; lia.
Qed.
Lemma HI_change c c' s h bs : HI c s h true bs [] -> HI c' s h true bs [].
Proof. intros [A B C D E F G H J]. constructor; auto. Qed.

Lemma hello_outer_M types l : Forall (fun '(i, j) => 0 <= i <= 2 /\ 0 <= j <= 4) types -> Forall (fun n => blen (n_addr n) = 16) l ->
  forall s h bs, HI 0 s h true bs [] -> off + ipsz v6 + 4 <= Z.min 1228 (nb_max (s_nb s)) ->
  exists s' h' parts bs', hello_outer v6 types l h s = Some (s', Some h') /\ HI 0 s' h' true bs' [] /\
  delivers s s' (numbered hmsg (s_seq s) parts) /\ s_seq s' = plus_seq (s_seq s) (length parts) /\
  said false (concat parts) ++ said false bs' = said false bs ++ flat_map (fun '(i, j) => map (reads (link_code i j)) (filter (fun n => (n_status n =? i) && (n_link n =? j)) l)) types /\
  Forall (wf_block (ipsz v6)) (concat parts) /\ Forall (fun p => p <> []) parts.
Proof.
  intros Ft Fl. induction Ft as [|(i, j) types (Hi & Hj) _ IH]; intros s h bs HIs Cap; cbn [hello_outer flat_map].
  - pose proof (HI_ok _ _ _ _ _ _ HIs) as K. exists s, h, [], bs. split; [reflexivity|]. split; [exact HIs|]. split; [apply delivers_refl, K|]. split; [symmetry; apply plus_seq_0, K|].
    split; [rewrite app_nil_r; reflexivity|split; constructor].
  - pose proof (HI_ok _ _ _ _ _ _ HIs) as K. pose proof (code_range i j Hi Hj) as Hc.
    destruct (hello_inner_M i j l Hc s h true bs [] (HI_change 0 (link_code i j) s h bs HIs) Fl Cap) as (s1 & h1 & f1 & parts1 & bs1 & es1 & E1 & H1 & D1 & Q1 & S1 & W1 & N1).
    rewrite (bind_M _ _ _ _ _ E1). cbv beta iota. set (c := link_code i j) in *. pose proof (ipsz_val v6) as Iv.
    assert (Cl : exists s2 h2, (if f1 then ret h1 else poke (h_info h1 + 2) (net16 (h_addr h1 - h_info h1)) ;;; ret (mkH (h_curr h1) (h_rem h1) (h_addr h1) (h_addr h1 + 4))) s1 = Some (s2, Some h2) /\
       HI 0 s2 h2 true (bs1 ++ closed c es1) [] /\ same s1 s2 /\ s_seq s2 = s_seq s1).
    { pose proof H1 as [ (sz & sq & xy & t & Lxy & W) Rm Inf Ad Cu Le Fi Fb Fe]. pose proof (room_max s1) as R1. pose proof (blen_nonneg (bytes_of bs1)) as NN1. pose proof (blen_nonneg (items es1)) as NN2.
      assert (Bs : 12 <= BASE v6) by (unfold BASE; lia).
      destruct f1.
      - assert (es1 = []) by (destruct es1; [reflexivity|discriminate]). subst es1. cbn [closed]. rewrite app_nil_r. exists s1, h1. split; [reflexivity|]. split; [now apply (HI_change c)|]. split; [split; reflexivity|reflexivity].
      - assert (Eo : forall z, opened c z es1 = [c; 0] ++ z ++ items es1) by (intros z; destruct es1; [discriminate|reflexivity]). rewrite Eo in W.
        destruct (poke_f_rest _ _ _ _ _ _ _ _ _ _ W (pre ++ bytes_of bs1 ++ [c; 0]) xy (items es1 ++ t) (net16 (h_addr h1 - h_info h1)) (h_info h1 + 2)) as (m3 & P3 & W3).
        { now rewrite <- !app_assoc. } { rewrite !blen_app. change (blen pre) with 4. change (blen [c; 0]) with 2. lia. } { rewrite net16_len. exact Lxy. }
        rewrite (bind_M _ _ _ _ _ P3). exists (set_msg s1 m3), (mkH (h_curr h1) (h_rem h1) (h_addr h1) (h_addr h1 + 4)). split; [reflexivity|]. split; [|split; [apply same_set|reflexivity]].
        assert (Eb : bytes_of (bs1 ++ closed c es1) = bytes_of bs1 ++ [c; 0] ++ net16 (h_addr h1 - h_info h1) ++ items es1).
        { rewrite flat_map_app. rewrite enc_closed by lia. rewrite Eo. do 3 f_equal. f_equal. lia. }
        constructor; cbn [h_rem h_info h_addr h_curr flat_map empty]; change (blen []) with 0; try lia; auto; try (rewrite room_set; lia).
        + exists sz, sq, [0; 0], t. split; [reflexivity|]. cbn [opened]. rewrite app_nil_r, Eb. apply (raw_eq _ _ _ _ _ _ _ _ _ _ _ W3). now rewrite <- !app_assoc.
        + rewrite Eb. rewrite !blen_app, net16_len. change (blen [c; 0]) with 2. lia.
        + apply Forall_app. split; [exact Fb|]. now apply wf_closed. }
    destruct Cl as (s2 & h2 & E2 & H2 & Sm & Q2). rewrite (bind_M _ _ _ _ _ E2).
    assert (Mx : nb_max (s_nb s2) = nb_max (s_nb s)) by (destruct Sm as (-> & _); apply (delivers_max _ _ _ D1)).
    destruct (IH s2 h2 _ H2) as (s' & h' & parts & bs' & E & H' & D & Q & S & W & N); [now rewrite Mx|].
    exists s', h', (parts1 ++ parts), bs'. split; [exact E|]. split; [exact H'|].
    split. { rewrite numbered_app by apply K. apply (delivers_trans _ _ _ _ _ D1). rewrite <- Q1, <- Q2. apply (same_delivers_l _ _ _ _ Sm D). }
    split; [rewrite Q, Q2, Q1, plus_seq_app, app_length; reflexivity|].
    split; [|split; [rewrite concat_app; apply Forall_app; auto|apply Forall_app; auto]].
    rewrite concat_app, said_app, <- app_assoc, S, said_app. change (said false (closed c es1)) with (pairs_of c es1). rewrite !app_assoc. rewrite !app_assoc in S1. rewrite S1.
    change (pairs_of c []) with (@nil hneigh). rewrite app_nil_r. reflexivity.
Qed.

Definition cap_hello : Z := off + ipsz v6 + 4.
Lemma serialize_hello_M l s : ready cap_hello s -> Forall (fun n => blen (n_addr n) = 16) l ->
  (v6 = true -> room s < off \/ cap_hello <= room s) ->
  exists s' parts, serialize_hello v6 vt ht will ttl main l s = Some (s', Some true) /\ delivers s s' (numbered hmsg (s_seq s) parts) /\ s_seq s' = plus_seq (s_seq s) (length parts) /\ ok s' /\
  said false (concat parts) = flat_map (fun '(i, j) => map (reads (link_code i j)) (filter (fun n => (n_status n =? i) && (n_link n =? j)) l)) (hello_types v6) /\
  Forall (wf_block (ipsz v6)) (concat parts) /\ parts <> [] /\ (length parts > 1 -> Forall (fun p => p <> []) (removelast parts))%nat.
Proof.
  intros Rd Fa H6. pose proof (ready_ok _ _ Rd) as K. destruct Rd as (_ & Cap & _ & K3). pose proof (ipsz_val v6) as Iv.
  assert (Cap' : cap_hello <= Z.min 1228 (nb_max (s_nb s))) by (unfold cap_hello, BASE in *; lia).
  unfold serialize_hello. cbv zeta. rewrite bind_assoc.
  assert (St : exists s1, (rem <- space16 ;; (if off >? rem then (output ;;; space16) else ret rem)) s = Some (s1, Some (room s1)) /\
     off <= room s1 /\ (v6 = true -> cap_hello <= room s1) /\ ok s1 /\ delivers s s1 [] /\ s_msg s1 = s_msg s /\ s_seq s1 = s_seq s).
  { rewrite (bind_M _ _ _ _ _ (space16_ok s K)). destruct (Z.gtb_spec off (room s)) as [G|G].
    - destruct (output_M s K) as (sO & Eo & DO & KO & MO & QO & PO). rewrite (bind_M _ _ _ _ _ Eo). exists sO. split; [apply (space16_ok sO KO)|].
      assert (cap_hello <= room sO) by (unfold room; rewrite PO, (delivers_max _ _ _ DO); lia). split; [unfold cap_hello in *; lia|]. split; [auto|]. auto.
    - exists s. split; [reflexivity|]. split; [lia|]. split; [intros E; destruct (H6 E); lia|]. split; [exact K|]. split; [apply delivers_refl, K|auto]. }
  destruct St as (s1 & E1 & L1 & L1' & K1 & D1 & M1 & Q1). rewrite (bind_M _ _ _ _ _ E1).
  unfold check_buffspace. replace ((if v6 then off + ipsz v6 + 4 else off) >? room s1) with false by (unfold cap_hello in *; destruct v6; [specialize (L1' eq_refl)|]; lia).
  rewrite (bind_M _ _ _ s1 tt) by reflexivity.
  destruct (raw_exists v6 s1 K1) as (a & b & sz & o & c & d & sq & rest & W0). pose proof (raw_len _ _ _ _ _ _ _ _ _ _ W0) as Ln.
  destruct (poke_f_ttl _ _ _ _ _ _ _ _ _ _ W0 ttl) as (x1 & P1 & W1). rewrite (bind_M _ _ _ _ _ P1). clear W0 P1.
  destruct (poke_f_hops _ _ _ _ _ _ _ _ _ _ W1 0) as (x2 & P2 & W2). rewrite (bind_M _ _ _ _ _ P2). clear W1 P2.
  destruct (poke_f_type _ _ _ _ _ _ _ _ _ _ W2 1) as (x3 & P3 & W3). rewrite (bind_M _ _ _ _ _ P3). clear W2 P3.
  destruct (poke_f_orig _ _ _ _ _ _ _ _ _ _ W3 main Ho) as (x4 & P4 & W4). rewrite (bind_M _ _ _ _ _ P4). clear W3 P4.
  destruct (poke_f_vt _ _ _ _ _ _ _ _ _ _ W4 vt) as (x5 & P5 & W5). rewrite (bind_M _ _ _ _ _ P5). clear W4 P5.
  destruct rest as [|r0 [|r1 [|r2 [|r3 rest]]]]; try (exfalso; rewrite ?blen_cons in Ln; change (blen []) with 0 in Ln; unfold BASE in Ln; lia).
  destruct (poke_f_rest _ _ _ _ _ _ _ _ _ _ W5 [r0; r1; r2] [r3] rest [will] (BASE v6 + 3) eq_refl eq_refl eq_refl) as (x6 & P6 & W6). rewrite (bind_M _ _ _ _ _ P6). clear W5 P6.
  destruct (poke_f_rest _ _ _ _ _ _ _ _ _ _ W6 [r0; r1] [r2] (will :: rest) [ht] (BASE v6 + 2) eq_refl eq_refl eq_refl) as (x7 & P7 & W7). rewrite (bind_M _ _ _ _ _ P7). clear W6 P7.
  destruct (poke_f_rest _ _ _ _ _ _ _ _ _ _ W7 [] [r0; r1] (ht :: will :: rest) [0; 0] (BASE v6) eq_refl) as (x8 & P8 & W8); [change (blen []) with 0; lia|reflexivity|]. rewrite (bind_M _ _ _ _ _ P8). clear W7 P8.
  cbn [set_msg s_nb s_seq s_log s_msg] in *.
  match type of W8 with raw _ ?S _ _ _ _ _ _ _ _ => set (s8 := S) in * end.
  assert (H8 : HI 0 s8 (mkH off (room s1) off (BASE v6 + 8)) true [] []).
  { constructor; cbn [h_rem h_info h_addr h_curr flat_map empty]; change (blen []) with 0; try lia; try reflexivity; try constructor; [|exact L1].
    exists sz, sq, [0; 0], rest. split; [reflexivity|]. exact W8. }
  assert (D8 : delivers s s8 []) by (apply (delivers_nb s s1 s s8 [] D1); reflexivity).
  assert (Q8 : s_seq s8 = s_seq s) by exact Q1.
  destruct (hello_outer_M (hello_types v6) l) with (s := s8) (h := mkH off (room s1) off (BASE v6 + 8)) (bs := @nil block) as (s9 & h9 & parts & bs9 & E9 & H9 & D9 & Q9 & S9 & W9 & N9); auto.
  { unfold hello_types. destruct v6; cbn; repeat constructor; lia. }
  { rewrite (delivers_max _ _ _ D8). exact Cap'. }
  rewrite (bind_M _ _ _ _ _ E9). clear E9. rewrite Q8 in *. assert (D10 := delivers_trans _ _ _ _ _ D8 D9). cbn [app] in D10.
  pose proof (HI_ok _ _ _ _ _ _ H9) as K9. destruct H9 as [ (sz9 & sq9 & xy9 & t9 & _ & W90) Rm9 Inf9 Ad9 Cu9 Le9 _ Fb9 _]. cbn [opened] in W90. rewrite app_nil_r in W90.
  rewrite (bind_M _ _ _ _ _ (seqno_M _)). fold (bump s9). pose proof (raw_bump _ _ _ _ _ _ _ _ _ _ W90) as W91.
  destruct (poke_f_seq _ _ _ _ _ _ _ _ _ _ W91 (s_seq s9)) as (y1 & R1 & V1). rewrite (bind_M _ _ _ _ _ R1). clear W91 R1.
  destruct (poke_f_size _ _ _ _ _ _ _ _ _ _ V1 (h_curr h9)) as (y2 & R2 & V2). rewrite (bind_M _ _ _ _ _ R2). clear V1 R2.
  cbn [set_msg bump s_nb s_seq s_log s_msg] in *. match type of V2 with raw _ ?S _ _ _ _ _ _ _ _ => set (s10 := S) in * end.
  pose proof V2 as [K10 M10 A10 B10 C10]. pose proof (room_max s9) as Rx. pose proof (blen_nonneg (bytes_of bs9)).
  assert (Cr : h_curr h9 = BASE v6 + blen (pre ++ bytes_of bs9)) by (rewrite blen_app; change (blen pre) with 4; lia).
  destruct (push_M s10 (hdrb 1 vt (net16 (h_curr h9)) main ttl 0 (net16 (s_seq s9)) ++ pre ++ bytes_of bs9) t9 (h_curr h9) K10) as (s' & P & D & K' & M' & Q').
  - rewrite M10. now rewrite <- !app_assoc.
  - rewrite blen_app, (hdrb_len _ _ _ _ _ _ _ v6); auto.
  - exact Le9.
  - rewrite (bind_M _ _ _ _ _ P). exists s', (parts ++ [bs9]). split; [reflexivity|]. split; [|split; [|split; [exact K'|]]].
    + rewrite numbered_app by exact K3. apply (delivers_trans _ _ _ _ _ D10). rewrite <- Q9. apply (delivers_nb s10 s' s9 s'); auto. apply (delivers_eq _ _ _ _ D). cbn [numbered]. f_equal.
      rewrite hmsg_eq by apply K9. rewrite !net16_enc; [|apply K9|unfold BASE in *; lia]. do 2 f_equal. f_equal. rewrite Cr. unfold BASE. lia.
    + rewrite Q'. change (s_seq s10) with ((s_seq s9 + 1) mod 65536). rewrite Q9, <- plus_seq_1, plus_seq_app, app_length. reflexivity.
    + rewrite concat_app. cbn [concat]. rewrite app_nil_r, said_app. split; [exact S9|]. split; [apply Forall_app; auto|]. split; [destruct parts; discriminate|].
      intros _. rewrite removelast_app by discriminate. cbn [removelast]. rewrite app_nil_r. exact N9.
Qed.
End hello.

From Verif Require Import Base Bytes NetBuf NetBufSpec NetBufProofs Parser Hello HelloSpec HelloProofs Tc TcSpec BuildMsg BuildMsgSpec BuildMsgProofs BuildMsgTcProofs BuildMsgHelloProofs.

Lemma common_M v6 typ vt orig ttl hops n s a b sz o c d sq rest : raw v6 s a b sz o c d sq rest -> blen orig = ipsz v6 ->
  exists s', serialize_common v6 typ vt orig ttl hops n s = Some (s', Some tt) /\ raw v6 s' typ vt (net16 n) orig ttl hops (net16 (s_seq s)) rest /\
    same s s' /\ s_seq s' = (s_seq s + 1) mod 65536.
Proof.
  intros W0 Ho. unfold serialize_common.
  destruct (poke_f_type _ _ _ _ _ _ _ _ _ _ W0 typ) as (x1 & P1 & W1). rewrite (bind_M _ _ _ _ _ P1). clear W0 P1.
  destruct (poke_f_vt _ _ _ _ _ _ _ _ _ _ W1 vt) as (x2 & P2 & W2). rewrite (bind_M _ _ _ _ _ P2). clear W1 P2.
  destruct (poke_f_size _ _ _ _ _ _ _ _ _ _ W2 n) as (x3 & P3 & W3). rewrite (bind_M _ _ _ _ _ P3). clear W2 P3.
  destruct (poke_f_orig _ _ _ _ _ _ _ _ _ _ W3 orig Ho) as (x4 & P4 & W4). rewrite (bind_M _ _ _ _ _ P4). clear W3 P4.
  destruct (poke_f_ttl _ _ _ _ _ _ _ _ _ _ W4 ttl) as (x5 & P5 & W5). rewrite (bind_M _ _ _ _ _ P5). clear W4 P5.
  destruct (poke_f_hops _ _ _ _ _ _ _ _ _ _ W5 hops) as (x6 & P6 & W6). rewrite (bind_M _ _ _ _ _ P6). clear W5 P6.
  rewrite (bind_M _ _ _ _ _ (seqno_M _)). match goal with |- context [mkS (s_nb ?S) _ _ _] => fold (bump S) end. pose proof (raw_bump _ _ _ _ _ _ _ _ _ _ W6) as W7.
  cbn [set_msg s_nb s_seq s_log s_msg] in *.
  destruct (poke_f_seq _ _ _ _ _ _ _ _ _ _ W7 (s_seq s)) as (x8 & P8 & W8). rewrite P8. eexists. split; [reflexivity|]. split; [exact W8|]. split; [split; reflexivity|reflexivity].
Qed.

Lemma pending_ok s : usable (s_nb s) -> pending s = Some (s, Some (nb_pend (s_nb s))).
Proof. intros U. unfold pending, net_output_pending. do 3 f_equal. unfold u16. apply Z.mod_small. destruct (usable_bounds _ U). lia. Qed.

Section lqhello.
Variables (v6 : bool) (vt ht will : Z) (main : list Z).
Hypothesis Ho : blen main = ipsz v6.
Notation off := (BASE v6 + 4).
Notation bytes_of bs := (flat_map (enc_block true) bs).
Notation items es := (flat_map (enc_entry true) es).
Notation hmsg := (hello_msg true vt ht will 1 main).
Notation pre := (pre ht will).
Notation common := (serialize_common v6 201 vt main 1 0).
Definition lent (n : lqn) : entry := mkE (l_addr n) (firstn 2 (l_lq n)) (skipn 2 (l_lq n)).
Definition lopened (c : Z) (xy : list Z) (es : list entry) : list Z := match es with [] => [] | _ => [c; 0] ++ xy ++ items es end.

(** where the last block starts *)
Definition lastp (bs : list block) (es : list entry) : option Z :=
  match es with
  | _ :: _ => Some (off + blen (bytes_of bs))
  | [] => match bs with [] => None | _ => Some (off + blen (bytes_of (removelast bs))) end
  end.

Record LI (c : Z) (s : bst) (size rem : Z) (ih : option Z) (first : bool) (bs : list block) (es : list entry) : Prop := mkLI {
  l_raw : exists a b sz o c' d sq xy t, blen xy = 2 /\ raw v6 s a b sz o c' d sq ((pre ++ bytes_of bs ++ lopened c xy es) ++ t);
  l_rem : rem = room s - off;
  l_size : size = blen (bytes_of bs) + (if first then 0 else 4 + blen (items es));
  l_le : size <= rem;
  l_first : first = empty es;
  l_ih : lastp bs es <> None -> ih = lastp bs es;
  l_bs : Forall (wf_block (ipsz v6)) bs;
  l_es : Forall (wf_entry (ipsz v6)) es }.
Lemma LI_ok c s size rem ih first bs es : LI c s size rem ih first bs es -> ok s.
Proof. intros [ (? & ? & ? & ? & ? & ? & ? & ? & ? & _ & W) _ _ _ _ _ _ _]. apply W. Qed.
Lemma lopened_len c xy es : blen xy = 2 -> blen (lopened c xy es) = if empty es then 0 else 4 + blen (items es).
Proof. intros L. destruct es; [reflexivity|]. unfold lopened. rewrite !blen_app, L. cbn [empty]. change (blen [c; 0]) with 2. lia. Qed.
Lemma lenc_closed c es : 0 <= 4 + blen (items es) < 65536 -> bytes_of (closed c es) = lopened c (net16 (4 + blen (items es))) es.
Proof. intros B. destruct es as [|e es]; [reflexivity|]. cbn [closed flat_map]. rewrite app_nil_r. unfold enc_block, lopened. cbn [b_entries b_code b_res]. now rewrite net16_enc. Qed.
Lemma lhmsg_eq seq bs : 0 <= seq < 65536 -> hmsg seq bs = hdrb 201 vt (enc16 (8 + ipsz v6 + blen (pre ++ bytes_of bs))) main 1 0 (enc16 seq) ++ pre ++ bytes_of bs.
Proof.
  intros H. unfold hello_msg, enc_hello, hdrb. cbn [x_lq x_hdr x_res x_blocks h_vtime h_src h_ttl h_hops h_seq h_htime h_will].
  rewrite Ho. rewrite blen_app. change (blen pre) with 4. replace (8 + ipsz v6 + (4 + blen (bytes_of bs))) with (12 + ipsz v6 + blen (bytes_of bs)) by lia.
  rewrite <- !app_assoc. reflexivity.
Qed.
Lemma wf_lent n : blen (l_addr n) = ipsz v6 -> blen (l_lq n) = 4 -> wf_entry (ipsz v6) (lent n) /\ enc_entry true (lent n) = l_addr n ++ l_lq n.
Proof.
  intros A B. split; [|unfold enc_entry, lent; cbn [e_addr e_lq e_pad]; now rewrite firstn_skipn].
  unfold blen in B. assert (L : length (l_lq n) = 4%nat) by lia. split; [exact A|]. cbn [lent e_lq e_pad]. rewrite firstn_length, skipn_length, L. split; reflexivity.
Qed.

(** the size of the last block, then the message is queued *)
Lemma back_M c s size rem ih first bs es : LI c s size rem ih first bs es -> lastp bs es <> None ->
  exists p, ih = Some p /\ exists m, poke (p + 2) (net16 (off + size - p)) s = Some (set_msg s m, Some tt) /\
  forall a b sz o c' d sq xy t, blen xy = 2 -> raw v6 s a b sz o c' d sq ((pre ++ bytes_of bs ++ lopened c xy es) ++ t) ->
    raw v6 (set_msg s m) a b sz o c' d sq ((pre ++ bytes_of (bs ++ closed c es)) ++ t).
Proof.
  intros [ (a & b & sz & o & c' & d & sq & xy & t & Lxy & W) Rm Sz Le Fi Ih Fb Fe] NN. specialize (Ih NN).
  pose proof (room_max s) as R1. pose proof (ipsz_val v6) as Iv. pose proof (blen_nonneg (bytes_of bs)) as N1. pose proof (blen_nonneg (items es)) as N2.
  assert (Bs : 12 <= BASE v6) by (unfold BASE; lia).
  destruct es as [|e es].
  - cbn [lastp] in *. cbn [empty] in Fi. subst first. destruct (exists_last (l := bs)) as (b0 & bl & Eb); [destruct bs; [congruence|discriminate]|].
    assert (Er : ih = Some (off + blen (bytes_of b0))) by (rewrite Ih, Eb; destruct b0; [reflexivity|]; cbn [app]; now rewrite app_comm_cons, removelast_last).
    exists (off + blen (bytes_of b0)). split; [exact Er|].
    assert (Sb : bytes_of bs = bytes_of b0 ++ [b_code bl; b_res bl] ++ enc16 (4 + blen (items (b_entries bl))) ++ items (b_entries bl)) by (rewrite Eb, flat_map_app; cbn [flat_map]; rewrite app_nil_r; reflexivity).
    assert (Lb : off + size - (off + blen (bytes_of b0)) = 4 + blen (items (b_entries bl))).
    { rewrite Sz. rewrite Sb at 1. rewrite !blen_app. change (blen [b_code bl; b_res bl]) with 2. change (blen (enc16 (4 + blen (items (b_entries bl))))) with 2. lia. }
    rewrite Lb. assert (Lb2 : 0 <= 4 + blen (items (b_entries bl)) < 65536) by (rewrite <- Lb; pose proof (blen_nonneg (bytes_of b0)); pose proof (blen_nonneg (items (b_entries bl))); lia).
    rewrite net16_enc by exact Lb2.
    assert (P : poke (off + blen (bytes_of b0) + 2) (enc16 (4 + blen (items (b_entries bl)))) s = Some (s, Some tt)).
    { destruct (poke_f_rest _ _ _ _ _ _ _ _ _ _ W (pre ++ bytes_of b0 ++ [b_code bl; b_res bl]) (enc16 (4 + blen (items (b_entries bl)))) (items (b_entries bl) ++ lopened c xy [] ++ t) (enc16 (4 + blen (items (b_entries bl)))) (off + blen (bytes_of b0) + 2)) as (m & P & W').
      - rewrite Sb. now rewrite <- !app_assoc.
      - rewrite !blen_app. change (blen [b_code bl; b_res bl]) with 2. change (blen pre) with 4. lia.
      - reflexivity.
      - rewrite P. destruct W as [_ M _ _ _]. destruct W' as [_ M' _ _ _]. cbn [set_msg s_msg] in M'. do 2 f_equal. destruct s as [nb ms q lg]. unfold set_msg. cbn [s_msg s_nb s_seq s_log] in *. f_equal. rewrite M, M', Sb. rewrite <- !app_assoc. reflexivity. }
    exists (s_msg s). assert (Es : set_msg s (s_msg s) = s) by (destruct s; reflexivity). rewrite Es. split; [exact P|].
    intros. cbn [closed lopened] in *. rewrite app_nil_r in *. auto.
  - cbn [lastp empty] in *. subst first. exists (off + blen (bytes_of bs)). split; [exact Ih|]. set (es' := e :: es) in *.
    replace (off + size - (off + blen (bytes_of bs))) with (4 + blen (items es')) by lia.
    destruct (poke_f_rest _ _ _ _ _ _ _ _ _ _ W (pre ++ bytes_of bs ++ [c; 0]) xy (items es' ++ t) (net16 (4 + blen (items es'))) (off + blen (bytes_of bs) + 2)) as (m & P & W').
    { unfold lopened. cbn [es']. fold es'. now rewrite <- !app_assoc. } { rewrite !blen_app. change (blen pre) with 4. change (blen [c; 0]) with 2. lia. } { rewrite net16_len. exact Lxy. }
    exists m. split; [exact P|]. intros a1 b1 sz1 o1 c1 d1 sq1 xy1 t1 L1 W1.
    destruct (poke_f_rest _ _ _ _ _ _ _ _ _ _ W1 (pre ++ bytes_of bs ++ [c; 0]) xy1 (items es' ++ t1) (net16 (4 + blen (items es'))) (off + blen (bytes_of bs) + 2)) as (m1 & P1 & W1').
    { unfold lopened. cbn [es']. fold es'. now rewrite <- !app_assoc. } { rewrite !blen_app. change (blen pre) with 4. change (blen [c; 0]) with 2. lia. } { rewrite net16_len. exact L1. }
    rewrite P in P1. inversion P1; subst m1. apply (raw_eq _ _ _ _ _ _ _ _ _ _ _ W1'). rewrite flat_map_app, lenc_closed by (subst es'; lia). unfold lopened. cbn [es']. fold es'. now rewrite <- !app_assoc.
Qed.

(** the message is queued *)
Lemma push_msg s a t bs : raw v6 s 201 vt (net16 (off + blen (bytes_of bs))) main 1 0 (net16 a) ((pre ++ bytes_of bs) ++ t) -> 0 <= a < 65536 -> off + blen (bytes_of bs) <= room s ->
  exists s', push (blen (bytes_of bs) + off) s = Some (s', Some tt) /\ delivers s s' [hmsg a bs] /\ s_seq s' = s_seq s /\ ok s' /\
    raw v6 s' 201 vt (net16 (off + blen (bytes_of bs))) main 1 0 (net16 a) ((pre ++ bytes_of bs) ++ t).
Proof.
  intros [K M A B C] Ha Le. pose proof (room_max s) as R1. pose proof (blen_nonneg (bytes_of bs)) as N1.
  destruct (push_M s (hdrb 201 vt (net16 (off + blen (bytes_of bs))) main 1 0 (net16 a) ++ pre ++ bytes_of bs) t (blen (bytes_of bs) + off) K) as (s' & P & D & K' & M' & Q').
  - rewrite M. now rewrite <- !app_assoc.
  - rewrite blen_app, (hdrb_len _ _ _ _ _ _ _ v6) by auto. rewrite blen_app. change (blen pre) with 4. lia.
  - lia.
  - exists s'. split; [exact P|]. split; [|split; [exact Q'|split; [exact K'|constructor; auto; now rewrite M']]].
    apply (delivers_eq _ _ _ _ D). f_equal. rewrite lhmsg_eq by exact Ha. pose proof (ipsz_val v6). rewrite !net16_enc by (unfold BASE in *; lia).
    do 2 f_equal. f_equal. rewrite blen_app. change (blen pre) with 4. unfold BASE. lia.
Qed.

Definition lreads (c : Z) (n : lqn) : hneigh := mkHN (c mod 4) (c / 4 mod 4) (l_addr n) (firstn 2 (l_lq n)).
Definition lpairs (c : Z) (es : list entry) : list hneigh := flat_map (advertised true) (closed c es).
Lemma lpairs_app c es n : lpairs c (es ++ [lent n]) = lpairs c es ++ [lreads c n].
Proof.
  assert (E : forall l, lpairs c l = map (fun e => mkHN (c mod 4) (c / 4 mod 4) (e_addr e) (e_lq e)) l).
  { intros l. unfold lpairs. destruct l; [reflexivity|]. cbn [closed flat_map]. rewrite app_nil_r. reflexivity. }
  rewrite !E, map_app. reflexivity.
Qed.
Lemma lsaid_app a b : said true (a ++ b) = said true a ++ said true b. Proof. unfold said. apply flat_map_app. Qed.

(** an address that fits *)
Lemma lq_add c s size rem ih first bs es n : 0 <= c < 256 -> LI c s size rem ih first bs es -> blen (l_addr n) = ipsz v6 -> blen (l_lq n) = 4 ->
  size + (ipsz v6 + 4 + (if first then 4 else 0)) <= rem ->
  exists m1 sz1 ih1 m2 m3, (if first : bool then poke (off + size + 1) [0] ;;; poke (off + size) [c] ;;; ret (size + 4, Some (off + size)) else ret (size, ih)) s = Some (set_msg s m1, Some (sz1, ih1)) /\
    poke (off + sz1) (l_addr n) (set_msg s m1) = Some (set_msg s m2, Some tt) /\ poke (off + sz1 + ipsz v6) (l_lq n) (set_msg s m2) = Some (set_msg s m3, Some tt) /\
    LI c (set_msg s m3) (sz1 + ipsz v6 + 4) rem ih1 false bs (es ++ [lent n]).
Proof.
  intros Hc [ (a & b & sz & o & c' & d & sq & xy & t & Lxy & W) Rm Sz Le Fi Ih Fb Fe] La Ll Ft.
  pose proof (room_max s) as R1. pose proof (ipsz_val v6) as Iv. pose proof (blen_nonneg (bytes_of bs)) as N1. pose proof (blen_nonneg (items es)) as N2.
  assert (Bs : 12 <= BASE v6) by (unfold BASE; lia). destruct (wf_lent n La Ll) as (Wf & En).
  assert (Go : forall m1 ih1 xy1 t1, blen xy1 = 2 -> ih1 = Some (off + blen (bytes_of bs)) -> raw v6 (set_msg s m1) a b sz o c' d sq ((pre ++ bytes_of bs ++ [c; 0] ++ xy1 ++ items es) ++ t1) ->
     exists m2 m3, poke (off + (blen (bytes_of bs) + 4 + blen (items es))) (l_addr n) (set_msg s m1) = Some (set_msg s m2, Some tt) /\
       poke (off + (blen (bytes_of bs) + 4 + blen (items es)) + ipsz v6) (l_lq n) (set_msg s m2) = Some (set_msg s m3, Some tt) /\
       (blen (bytes_of bs) + 4 + blen (items es) + ipsz v6 + 4 <= rem -> LI c (set_msg s m3) (blen (bytes_of bs) + 4 + blen (items es) + ipsz v6 + 4) rem ih1 false bs (es ++ [lent n]))).
  { intros m1 ih1 xy1 t1 L1 I1 W1.
    assert (Ff : blen (bytes_of bs) + 4 + blen (items es) + ipsz v6 + 4 <= rem).
    { destruct first; [|lia]. replace es with (@nil entry) in * by (destruct es; [reflexivity|discriminate]). change (blen (items [])) with 0. lia. }
    destruct (raw_append _ _ _ _ _ _ _ _ _ _ _ (l_addr n) (off + (blen (bytes_of bs) + 4 + blen (items es))) W1) as (m2 & t2 & P2 & W2).
    { rewrite !blen_app, L1. change (blen pre) with 4. change (blen [c; 0]) with 2. lia. } { lia. }
    rewrite app_assoc in W2.
    destruct (raw_append _ _ _ _ _ _ _ _ _ _ _ (l_lq n) (off + (blen (bytes_of bs) + 4 + blen (items es)) + ipsz v6) W2) as (m3 & t3 & P3 & W3).
    { rewrite !blen_app, L1, La. change (blen pre) with 4. change (blen [c; 0]) with 2. lia. } { lia. }
    exists m2, m3. split; [exact P2|]. split; [exact P3|]. intros _.
    assert (Ei : items (es ++ [lent n]) = items es ++ l_addr n ++ l_lq n) by (rewrite flat_map_app; f_equal; cbn [flat_map]; rewrite app_nil_r; exact En).
    assert (Eo : lopened c xy1 (es ++ [lent n]) = [c; 0] ++ xy1 ++ items (es ++ [lent n])) by (unfold lopened; destruct es; reflexivity).
    constructor.
    - exists a, b, sz, o, c', d, sq, xy1, t3. split; [exact L1|]. apply (raw_eq _ _ _ _ _ _ _ _ _ _ _ W3). rewrite Eo, Ei. now rewrite <- !app_assoc.
    - exact Rm.
    - rewrite Ei, !blen_app, La, Ll. lia.
    - exact Ff.
    - destruct es; reflexivity.
    - intros _. rewrite I1. destruct es; reflexivity.
    - exact Fb.
    - apply Forall_app. auto. }
  destruct first.
  - assert (es = []) by (destruct es; [reflexivity|discriminate]). subst es. cbn [lopened flat_map] in *. rewrite app_nil_r in W. change (blen []) with 0 in *.
    pose proof (raw_len _ _ _ _ _ _ _ _ _ _ W) as Lw. rewrite !blen_app in Lw. change (blen pre) with 4 in Lw.
    destruct t as [|x0 [|x1 [|x2 [|x3 t]]]]; try (exfalso; change (blen []) with 0 in Lw; rewrite ?blen_cons in Lw; change (blen []) with 0 in Lw; lia).
    destruct (poke_f_rest _ _ _ _ _ _ _ _ _ _ W ((pre ++ bytes_of bs) ++ [x0]) [x1] (x2 :: x3 :: t) [0] (off + size + 1)) as (m1 & P1 & W1).
    { now rewrite <- !app_assoc. } { rewrite !blen_app, blen1. change (blen pre) with 4. lia. } { reflexivity. }
    destruct (poke_f_rest _ _ _ _ _ _ _ _ _ _ W1 (pre ++ bytes_of bs) [x0] ([0] ++ x2 :: x3 :: t) [c] (off + size)) as (m2 & P2 & W2).
    { now rewrite <- !app_assoc. } { rewrite !blen_app. change (blen pre) with 4. lia. } { reflexivity. }
    rewrite (bind_M _ _ _ _ _ P1). rewrite (bind_M _ _ _ _ _ P2). cbn [set_msg s_nb s_seq s_log s_msg] in *.
    destruct (Go m2 (Some (off + size)) [x2; x3] t) as (m3 & m4 & P3 & P4 & H3); [reflexivity|f_equal; lia| |].
    { apply (raw_eq _ _ _ _ _ _ _ _ _ _ _ W2). rewrite <- !app_assoc. reflexivity. }
    exists m2, (size + 4), (Some (off + size)), m3, m4. split; [reflexivity|]. replace (size + 4) with (blen (bytes_of bs) + 4 + 0) by lia. split; [exact P3|]. split; [exact P4|apply H3; lia].
  - assert (Eo : lopened c xy es = [c; 0] ++ xy ++ items es) by (destruct es; [discriminate|reflexivity]).
    rewrite Eo in W. assert (Es : set_msg s (s_msg s) = s) by (destruct s; reflexivity).
    destruct (Go (s_msg s) ih xy t Lxy) as (m3 & m4 & P3 & P4 & H3); [destruct es; [discriminate|]; apply Ih; discriminate|now rewrite Es|].
    exists (s_msg s), size, ih, m3, m4. rewrite Es in *. split; [reflexivity|]. replace size with (blen (bytes_of bs) + 4 + blen (items es)) by lia. split; [exact P3|]. split; [exact P4|apply H3; lia].
Qed.

Lemma lqh_inner_M i j l : let c := link_code i j in 0 <= c < 256 -> forall s size rem ih first bs es, LI c s size rem ih first bs es -> Forall (fun n => blen (l_addr n) = ipsz v6 /\ blen (l_lq n) = 4) l ->
  off + ipsz v6 + 8 <= Z.min 1228 (nb_max (s_nb s)) -> (bs = [] -> es = [] -> existsb (is_type i j) l = true -> ipsz v6 + 8 <= rem) ->
  exists s' size' rem' ih' first' parts bs' es', lqh_inner v6 common i j l size rem ih first s = Some (s', Some (size', rem', ih', first')) /\ LI c s' size' rem' ih' first' bs' es' /\
  delivers s s' (numbered hmsg (s_seq s) parts) /\ s_seq s' = plus_seq (s_seq s) (length parts) /\
  said true (concat parts) ++ said true bs' ++ lpairs c es' = said true bs ++ lpairs c es ++ map (lreads c) (filter (is_type i j) l) /\
  Forall (wf_block (ipsz v6)) (concat parts) /\ Forall (fun p => p <> []) parts /\
  (existsb (is_type i j) l = false -> bs' = bs /\ es' = es /\ rem' = rem) /\ (existsb (is_type i j) l = true -> es' <> []).
Proof.
  intros c Hc. induction l as [|n l IH]; intros s size rem ih first bs es HIs Fl Cap Spc; cbn [lqh_inner filter existsb] in *.
  - exists s, size, rem, ih, first, [], bs, es. pose proof (LI_ok _ _ _ _ _ _ _ _ HIs) as K. split; [reflexivity|]. split; [exact HIs|]. split; [apply delivers_refl, K|]. split; [symmetry; apply plus_seq_0, K|].
    split; [cbn [concat map]; rewrite app_nil_r; reflexivity|]. split; [constructor|]. split; [constructor|]. split; [auto|discriminate].
  - inversion Fl as [|? ? (La & Ll) Fl']; subst. destruct (is_type i j n) eqn:Et; cbn [negb orb] in *.
    2: { destruct (IH s size rem ih first bs es HIs Fl' Cap Spc) as (s' & si & re & ih' & f' & parts & bs' & es' & X). exists s', si, re, ih', f', parts, bs', es'. exact X. }
    fold c. cbn [map]. pose proof (LI_ok _ _ _ _ _ _ _ _ HIs) as K. pose proof (room_max s) as R1. pose proof (ipsz_val v6) as Iv.
    assert (Mk : exists sM zM rM ihM fM out bM eM, (if size + (ipsz v6 + 4 + (if first then 4 else 0)) >? rem
              then common (size + off) ;;;
                   match ih with None => stuck | Some p => poke (p + 2) (net16 (off + size - p)) end ;;;
                   push (size + off) ;;; output ;;; r <- space ;; ret (0, r - off, true)
              else ret (size, rem, first)) s = Some (sM, Some (zM, rM, fM)) /\ LI c sM zM rM ihM fM bM eM /\ (fM = false -> ihM = ih) /\ zM + (ipsz v6 + 4 + (if fM then 4 else 0)) <= rM /\
        delivers s sM (numbered hmsg (s_seq s) out) /\ s_seq sM = plus_seq (s_seq s) (length out) /\
        said true (concat out) ++ said true bM ++ lpairs c eM = said true bs ++ lpairs c es /\
        Forall (wf_block (ipsz v6)) (concat out) /\ Forall (fun p => p <> []) out).
    { destruct (Z.gtb_spec (size + (ipsz v6 + 4 + (if first then 4 else 0))) rem) as [G|G].
      2: { exists s, size, rem, ih, first, [], bs, es. split; [reflexivity|]. split; [exact HIs|]. split; [auto|]. split; [exact G|]. split; [apply delivers_refl, K|]. split; [symmetry; apply plus_seq_0, K|]. split; [reflexivity|split; constructor]. }
      assert (NN : lastp bs es <> None).
      { unfold lastp. destruct es; [|discriminate]. destruct bs; [|discriminate]. exfalso. destruct HIs as [_ _ Sz _ Fi _ _ _]. cbn [empty] in Fi. subst first. change (blen (bytes_of [])) with 0 in Sz. specialize (Spc eq_refl eq_refl eq_refl). lia. }
      pose proof HIs as [ (a & b & sz & o & c' & d & sq & xy & t & Lxy & W) Rm Sz Le Fi Ih Fb Fe]. pose proof (blen_nonneg (bytes_of bs)) as N1. pose proof (blen_nonneg (items es)) as N2.
      destruct (common_M v6 201 vt main 1 0 (size + off) s _ _ _ _ _ _ _ _ W Ho) as (s1 & E1 & W1 & Sm1 & Q1). rewrite (bind_M _ _ _ _ _ E1).
      assert (HI1 : LI c s1 size rem ih first bs es) by (constructor; auto; [do 9 eexists; split; [exact Lxy|exact W1]|rewrite (same_room _ _ Sm1); exact Rm]).
      destruct (back_M c s1 size rem ih first bs es HI1 NN) as (p & Ep & m & P2 & F2). rewrite Ep. rewrite (bind_M _ _ _ _ _ P2). specialize (F2 _ _ _ _ _ _ _ _ _ Lxy W1).
      assert (Lsz : size = blen (bytes_of (bs ++ closed c es))).
      { rewrite flat_map_app, blen_app, Sz. f_equal. destruct es as [|e es].
        - cbn [empty] in Fi. subst first. reflexivity.
        - rewrite lenc_closed by (cbn [empty] in Fi; subst first; unfold BASE in *; lia). rewrite (lopened_len c _ _ (net16_len _)). cbn [empty] in *. now subst first. }
      clear Sz. subst size. replace (blen (bytes_of (bs ++ closed c es)) + off) with (off + blen (bytes_of (bs ++ closed c es))) in F2 by lia.
      destruct (push_msg (set_msg s1 m) (s_seq s) t (bs ++ closed c es) F2 ltac:(apply K)) as (s2 & P3 & D2 & Q2 & K2 & W2).
      { rewrite room_set, (same_room _ _ Sm1). lia. }
      rewrite (bind_M _ _ _ _ _ P3).
      destruct (output_M s2 K2) as (sO & Eo & DO & KO & MO & QO & PO). rewrite (bind_M _ _ _ _ _ Eo). rewrite (bind_M _ _ _ _ _ (space_ok sO)).
      assert (D1 : delivers s s2 [hmsg (s_seq s) (bs ++ closed c es)]) by (apply (delivers_nb (set_msg s1 m) s2 s s2 _ D2); auto; symmetry; apply Sm1).
      assert (DD := delivers_trans _ _ _ _ _ D1 DO). cbn [app] in DD. pose proof (delivers_max _ _ _ DD) as Mx.
      assert (Ro : room sO = Z.min 1228 (nb_max (s_nb s))) by (unfold room; rewrite PO, Mx; lia).
      exists sO, 0, (room sO - off), ih, true, [bs ++ closed c es], [], []. split; [reflexivity|]. split.
      { constructor; cbn [flat_map empty lastp]; change (blen []) with 0; try lia; try reflexivity; try constructor; [|congruence].
        destruct W2 as [KW MW A2 B2 C2]. do 8 eexists. exists (bytes_of (bs ++ closed c es) ++ t). split; [exact Lxy|]. constructor; [exact KO|rewrite MO, MW; cbn [lopened]; rewrite !app_nil_r; f_equal; rewrite <- app_assoc; reflexivity|auto|auto|auto]. }
      split; [discriminate|]. split; [lia|]. split; [exact DD|]. split; [rewrite QO, Q2; cbn [set_msg s_seq]; rewrite Q1; reflexivity|]. cbn [concat]. rewrite !app_nil_r. change (lpairs c []) with (@nil hneigh). change (said true []) with (@nil hneigh). rewrite ?app_nil_r.
      split; [rewrite lsaid_app; reflexivity|]. split; [apply Forall_app; split; [exact Fb|now apply wf_closed]|]. constructor; [|constructor].
      intros E0. destruct bs; [|discriminate]. destruct es; [|discriminate]. now apply NN. }
    destruct Mk as (sM & zM & rM & ihM & fM & out & bM & eM & EM & HM & Hih & Fit & DM & QM & SM & WM & NM). rewrite (bind_M _ _ _ _ _ EM). clear EM.
    destruct (lq_add c sM zM rM ihM fM bM eM n Hc HM La Ll Fit) as (m1 & z1 & ih1 & m2 & m3 & P1 & P2 & P3 & H2).
    cbv beta iota.
    assert (P1' : (if fM then poke (off + zM + 1) [0] ;;; poke (off + zM) [c] ;;; ret (zM + 4, Some (off + zM)) else ret (zM, ih)) sM = Some (set_msg sM m1, Some (z1, ih1))) by (destruct fM; [exact P1|rewrite <- Hih by reflexivity; exact P1]).
    rewrite (bind_M _ _ _ _ _ P1'). rewrite (bind_M _ _ _ _ _ P2). rewrite (bind_M _ _ _ _ _ P3).
    destruct (IH _ _ _ _ _ _ _ H2 Fl') as (s' & zz & rr & ih' & f' & parts & bs' & es' & E & HI' & D & Q & S & Wf & Ne & X1 & X2).
    { cbn [set_msg s_nb]. rewrite (delivers_max _ _ _ DM). exact Cap. }
    { intros _ X. exfalso. destruct eM; discriminate. }
    exists s', zz, rr, ih', f', (out ++ parts), bs', es'. split; [exact E|]. split; [exact HI'|].
    assert (D2 : delivers sM s' (numbered hmsg (s_seq sM) parts)) by (apply (delivers_nb (set_msg sM m3) s' sM s' _ D); reflexivity).
    split; [rewrite numbered_app by apply K; rewrite <- QM; apply (delivers_trans _ _ _ _ _ DM D2)|].
    split; [rewrite Q; cbn [set_msg s_seq]; rewrite QM, plus_seq_app, app_length; reflexivity|].
    split; [|split; [rewrite concat_app; apply Forall_app; auto|split; [apply Forall_app; auto|split; [discriminate|]]]].
    + rewrite concat_app, lsaid_app, <- app_assoc, S, lpairs_app. rewrite !app_assoc. rewrite !app_assoc in SM. rewrite SM. now rewrite <- !app_assoc.
    + intros _. destruct (existsb (is_type i j) l) eqn:Ex; [now apply X2|]. destruct (X1 eq_refl) as (_ & -> & _). destruct eM; discriminate.
Qed.

Lemma LI_change c c' s size rem ih bs : LI c s size rem ih true bs [] -> LI c' s size rem ih true bs [].
Proof. intros [A B C D E F G H]. constructor; auto. Qed.
Lemma lastp_closed bs c e es : lastp (bs ++ closed c (e :: es)) [] = Some (off + blen (bytes_of bs)).
Proof. cbn [closed lastp]. destruct (bs ++ [mkB c 0 (e :: es)]) eqn:E; [destruct bs; discriminate|]. rewrite <- E, removelast_last. reflexivity. Qed.

Lemma lqh_outer_M types l : Forall (fun '(i, j) => 0 <= i <= 2 /\ 0 <= j <= 4) types -> Forall (fun n => blen (l_addr n) = ipsz v6 /\ blen (l_lq n) = 4) l ->
  forall s size rem ih bs, LI 0 s size rem ih true bs [] -> off + ipsz v6 + 8 <= Z.min 1228 (nb_max (s_nb s)) ->
  (bs = [] -> (exists i j, In (i, j) types /\ existsb (is_type i j) l = true) -> ipsz v6 + 8 <= rem) ->
  exists s' size' rem' ih' parts bs', lqh_outer v6 common types l size rem ih s = Some (s', Some size') /\ LI 0 s' size' rem' ih' true bs' [] /\
  delivers s s' (numbered hmsg (s_seq s) parts) /\ s_seq s' = plus_seq (s_seq s) (length parts) /\
  said true (concat parts) ++ said true bs' = said true bs ++ flat_map (fun '(i, j) => map (lreads (link_code i j)) (filter (is_type i j) l)) types /\
  Forall (wf_block (ipsz v6)) (concat parts) /\ Forall (fun p => p <> []) parts.
Proof.
  intros Ft Fl. induction Ft as [|(i, j) types (Hi & Hj) _ IH]; intros s size rem ih bs HIs Cap Spc; cbn [lqh_outer flat_map].
  - pose proof (LI_ok _ _ _ _ _ _ _ _ HIs) as K. exists s, size, rem, ih, [], bs. split; [reflexivity|]. split; [exact HIs|]. split; [apply delivers_refl, K|]. split; [symmetry; apply plus_seq_0, K|].
    split; [rewrite app_nil_r; reflexivity|split; constructor].
  - pose proof (LI_ok _ _ _ _ _ _ _ _ HIs) as K. pose proof (code_range i j Hi Hj) as Hc.
    destruct (lqh_inner_M i j l Hc s size rem ih true bs [] (LI_change 0 (link_code i j) s size rem ih bs HIs) Fl Cap) as (s1 & z1 & r1 & ih1 & f1 & parts1 & bs1 & es1 & E1 & H1 & D1 & Q1 & S1 & W1 & N1 & X1 & X2).
    { intros E _ Ex. apply Spc; [exact E|]. exists i, j. split; [left; reflexivity|exact Ex]. }
    rewrite (bind_M _ _ _ _ _ E1). cbv beta iota. set (c := link_code i j) in *.
    assert (Cl : exists s2, (if f1 then ret tt else match ih1 with None => stuck | Some p => poke (p + 2) (net16 (off + z1 - p)) end) s1 = Some (s2, Some tt) /\
       LI 0 s2 z1 r1 ih1 true (bs1 ++ closed c es1) [] /\ same s1 s2 /\ s_seq s2 = s_seq s1).
    { pose proof H1 as [ (a & b & sz & o & c' & d & sq & xy & t & Lxy & W) Rm Sz Le Fi Ih Fb Fe]. pose proof (room_max s1) as R1. pose proof (blen_nonneg (bytes_of bs1)) as NN1. pose proof (blen_nonneg (items es1)) as NN2. pose proof (ipsz_val v6) as Iv.
      destruct es1 as [|e es1].
      - cbn [empty] in Fi. subst f1. cbn [closed]. rewrite app_nil_r. exists s1. split; [reflexivity|]. split; [now apply (LI_change c)|]. split; [split; reflexivity|reflexivity].
      - cbn [empty] in Fi. subst f1. destruct (back_M c s1 z1 r1 ih1 false bs1 (e :: es1) H1 ltac:(discriminate)) as (p & Ep & m & P & F). rewrite Ep, P.
        exists (set_msg s1 m). split; [reflexivity|]. split; [|split; [apply same_set|reflexivity]].
        constructor; auto.
        + do 8 eexists. exists t. split; [exact Lxy|]. specialize (F _ _ _ _ _ _ _ _ _ Lxy W). cbn [lopened]. rewrite app_nil_r. exact F.
        + rewrite Sz, flat_map_app, blen_app. rewrite lenc_closed by (unfold BASE in *; lia). rewrite (lopened_len c _ _ (net16_len _)). cbn [empty]. lia.
        + intros _. rewrite lastp_closed. rewrite <- Ep. apply Ih. discriminate.
        + apply Forall_app. split; [exact Fb|]. now apply wf_closed. }
    destruct Cl as (s2 & E2 & H2 & Sm & Q2). rewrite (bind_M _ _ _ _ _ E2).
    assert (Mx : nb_max (s_nb s2) = nb_max (s_nb s)) by (destruct Sm as (-> & _); apply (delivers_max _ _ _ D1)).
    destruct (IH s2 z1 r1 ih1 _ H2) as (s' & z' & r' & ih' & parts & bs' & E & H' & D & Q & S & W & N); [now rewrite Mx| |].
    { intros E0 (i' & j' & Ij & Ex). assert (es1 = []) by (destruct es1; [reflexivity|destruct bs1; discriminate]). subst es1.
      destruct (existsb (is_type i j) l) eqn:Ex1; [exfalso; now apply X2|]. destruct (X1 eq_refl) as (-> & _ & ->). cbn [closed] in E0. rewrite app_nil_r in E0. apply Spc; [exact E0|]. exists i', j'. split; [right; exact Ij|exact Ex]. }
    exists s', z', r', ih', (parts1 ++ parts), bs'. split; [exact E|]. split; [exact H'|].
    split. { rewrite numbered_app by apply K. apply (delivers_trans _ _ _ _ _ D1). rewrite <- Q1, <- Q2. apply (same_delivers_l _ _ _ _ Sm D). }
    split; [rewrite Q, Q2, Q1, plus_seq_app, app_length; reflexivity|].
    split; [|split; [rewrite concat_app; apply Forall_app; auto|apply Forall_app; auto]].
    rewrite concat_app, lsaid_app, <- app_assoc, S, lsaid_app. change (said true (closed c es1)) with (lpairs c es1). rewrite !app_assoc. rewrite !app_assoc in S1. rewrite S1.
    change (lpairs c []) with (@nil hneigh). rewrite app_nil_r. reflexivity.
Qed.

Lemma expected_min l i j : In (i, j) lq_types -> existsb (is_type i j) l = true -> ipsz v6 + 8 <= lq_expected v6 l.
Proof.
  intros Hin Ex. unfold lq_expected. pose proof (ipsz_val v6) as Iv.
  assert (L1 : 1 <= Z.of_nat (length l)) by (destruct l; [discriminate|cbn [length]; lia]).
  assert (G : forall ts n, 0 <= n -> n <= fold_left (fun n '(i, j) => if existsb (is_type i j) l then n + 4 else n) ts n).
  { induction ts as [|(a, b) ts IH]; intros n Hn; cbn [fold_left]; [lia|]. destruct (existsb (is_type a b) l); [specialize (IH (n + 4) ltac:(lia)); lia|apply IH; exact Hn]. }
  assert (G2 : forall ts n, 0 <= n -> In (i, j) ts -> n + 4 <= fold_left (fun n '(i, j) => if existsb (is_type i j) l then n + 4 else n) ts n).
  { induction ts as [|(a, b) ts IH]; intros n Hn E; [destruct E|]. destruct E as [E|E]; cbn [fold_left].
    - inversion E; subst. rewrite Ex. specialize (G ts (n + 4) ltac:(lia)). lia.
    - destruct (existsb (is_type a b) l); [specialize (IH (n + 4) ltac:(lia) E); lia|now apply IH]. }
  specialize (G2 lq_types 0 ltac:(lia) Hin). nia.
Qed.
Lemma expected_pos l : 0 <= lq_expected v6 l.
Proof.
  unfold lq_expected. pose proof (ipsz_val v6) as Iv.
  assert (G : forall ts n, 0 <= n -> n <= fold_left (fun n '(i, j) => if existsb (is_type i j) l then n + 4 else n) ts n).
  { induction ts as [|(a, b) ts IH]; intros n Hn; cbn [fold_left]; [lia|]. destruct (existsb (is_type a b) l); [specialize (IH (n + 4) ltac:(lia)); lia|apply IH; exact Hn]. }
  specialize (G lq_types 0 ltac:(lia)). nia.
Qed.

Definition cap_lq : Z := off + ipsz v6 + 8.
Lemma serialize_lq_hello_M l s : ready cap_lq s -> Forall (fun n => blen (l_addr n) = ipsz v6 /\ blen (l_lq n) = 4) l ->
  exists s' parts, serialize_lq_hello v6 vt ht will main l s = Some (s', Some tt) /\ delivers s s' (numbered hmsg (s_seq s) parts) /\ s_seq s' = plus_seq (s_seq s) (length parts) /\ ok s' /\
  said true (concat parts) = flat_map (fun '(i, j) => map (lreads (link_code i j)) (filter (is_type i j) l)) lq_types /\
  Forall (wf_block (ipsz v6)) (concat parts) /\ parts <> [] /\ Forall (fun p => p <> []) (removelast parts).
Proof.
  intros Rd Fa. pose proof (ready_ok _ _ Rd) as K. destruct Rd as (_ & Cap & _ & K3). pose proof (ipsz_val v6) as Iv.
  assert (Cap' : cap_lq <= Z.min 1228 (nb_max (s_nb s))) by (unfold cap_lq, BASE in *; lia).
  unfold serialize_lq_hello. cbv zeta.
  destruct (raw_exists v6 s K) as (a & b & sz & o & c & d & sq & rest & W5). pose proof (raw_len _ _ _ _ _ _ _ _ _ _ W5) as Ln.
  destruct rest as [|r0 [|r1 [|r2 [|r3 rest]]]]; try (exfalso; rewrite ?blen_cons in Ln; change (blen []) with 0 in Ln; unfold BASE in Ln; lia).
  destruct (poke_f_rest _ _ _ _ _ _ _ _ _ _ W5 [] [r0; r1] (r2 :: r3 :: rest) [0; 0] (BASE v6) eq_refl) as (x6 & P6 & W6); [change (blen []) with 0; lia|reflexivity|]. rewrite (bind_M _ _ _ _ _ P6). clear W5 P6.
  destruct (poke_f_rest _ _ _ _ _ _ _ _ _ _ W6 [0; 0] [r2] (r3 :: rest) [ht] (BASE v6 + 2) eq_refl eq_refl eq_refl) as (x7 & P7 & W7). rewrite (bind_M _ _ _ _ _ P7). clear W6 P7.
  destruct (poke_f_rest _ _ _ _ _ _ _ _ _ _ W7 [0; 0; ht] [r3] rest [will] (BASE v6 + 3) eq_refl eq_refl eq_refl) as (x8 & P8 & W8). rewrite (bind_M _ _ _ _ _ P8). clear W7 P8.
  cbn [set_msg s_nb s_seq s_log s_msg] in *.
  match type of W8 with raw _ ?S _ _ _ _ _ _ _ _ => set (s8 := S) in * end.
  assert (D8 : delivers s s8 []) by (apply (delivers_nb s s s s8 [] (delivers_refl s (proj1 K))); reflexivity). assert (Q8 : s_seq s8 = s_seq s) by reflexivity. assert (K8 : ok s8) by apply W8.
  rewrite (bind_M _ _ _ _ _ (space_ok s8)). rewrite (bind_M _ _ _ s8 (nb_pend (s_nb s))) by (apply (pending_ok s8), K8).
  set (expected := if 0 <? nb_pend (s_nb s) then lq_expected v6 l else 0).
  assert (St : exists s1, (if room s8 - off <? expected then (output ;;; r' <- space ;; ret (r' - off)) else ret (room s8 - off)) s8 = Some (s1, Some (room s1 - off)) /\
     0 <= room s1 - off /\ ((exists i j, In (i, j) lq_types /\ existsb (is_type i j) l = true) -> ipsz v6 + 8 <= room s1 - off) /\ ok s1 /\ delivers s8 s1 [] /\ s_msg s1 = s_msg s8 /\ s_seq s1 = s_seq s8).
  { destruct (Z.ltb_spec (room s8 - off) expected) as [G|G].
    - destruct (output_M s8 K8) as (sO & Eo & DO & KO & MO & QO & PO). rewrite (bind_M _ _ _ _ _ Eo). rewrite (bind_M _ _ _ _ _ (space_ok sO)). exists sO. split; [reflexivity|].
      assert (cap_lq <= room sO) by (unfold room; rewrite PO, (delivers_max _ _ _ DO); change (s_nb s8) with (s_nb s); lia). unfold cap_lq in *. split; [lia|]. split; [intros _; lia|]. auto.
    - exists s8. split; [reflexivity|]. pose proof (expected_pos l) as Ep. unfold expected in G. destruct (Z.ltb_spec 0 (nb_pend (s_nb s))) as [H|H].
      + split; [lia|]. split; [intros (i & j & I1 & I2); pose proof (expected_min l i j I1 I2); lia|]. split; [exact K8|]. split; [apply delivers_refl, K8|auto].
      + assert (cap_lq <= room s8) by (pose proof (usable_bounds _ (proj1 K)); unfold room; change (s_nb s8) with (s_nb s); lia). unfold cap_lq in *.
        split; [lia|]. split; [intros _; lia|]. split; [exact K8|]. split; [apply delivers_refl, K8|auto]. }
  destruct St as (s1 & E1 & L1 & L1' & K1 & D1 & M1 & Q1). rewrite (bind_M _ _ _ _ _ E1).
  assert (H1 : LI 0 s1 0 (room s1 - off) None true [] []).
  { constructor; cbn [flat_map empty lastp]; change (blen []) with 0; try lia; try reflexivity; try constructor.
    destruct W8 as [_ M8 A8 B8 C8]. do 7 eexists. exists [0; 0], rest. split; [reflexivity|]. constructor; [exact K1|rewrite M1; exact M8|exact A8|exact B8|exact C8]. }
  assert (D1s : delivers s s1 []) by (apply (delivers_trans _ _ _ [] [] D8 D1)).
  destruct (lqh_outer_M lq_types l) with (s := s1) (size := 0) (rem := room s1 - off) (ih := @None Z) (bs := @nil block) as (s9 & z9 & r9 & ih9 & parts & bs9 & E9 & H9 & D9 & Q9 & S9 & W9 & N9); auto.
  { repeat constructor; lia. }
  { rewrite (delivers_max _ _ _ D1s). exact Cap'. }
  rewrite (bind_M _ _ _ _ _ E9). clear E9. rewrite Q1, Q8 in *. assert (D10 := delivers_trans _ _ _ _ _ D1s D9). cbn [app] in D10.
  pose proof (LI_ok _ _ _ _ _ _ _ _ H9) as K9. destruct H9 as [ (a9 & b9 & sz9 & o9 & c9 & d9 & sq9 & xy9 & t9 & _ & W90) Rm9 Sz9 Le9 _ _ Fb9 _]. cbn [lopened] in W90. rewrite app_nil_r in W90.
  destruct (common_M v6 201 vt main 1 0 (z9 + off) s9 _ _ _ _ _ _ _ _ W90 Ho) as (s10 & E10 & W10 & Sm & Q10). rewrite (bind_M _ _ _ _ _ E10).
  rewrite Z.add_0_r in Sz9. subst z9. replace (blen (bytes_of bs9) + off) with (off + blen (bytes_of bs9)) in W10 by lia.
  destruct (push_msg s10 (s_seq s9) t9 bs9 W10 ltac:(apply K9)) as (s' & P & D & Q & K' & _). { rewrite (same_room _ _ Sm). lia. }
  exists s', (parts ++ [bs9]). split; [exact P|]. split; [|split; [|split; [exact K'|]]].
  - rewrite numbered_app by exact K3. apply (delivers_trans _ _ _ _ _ D10). rewrite <- Q9. apply (same_delivers_l _ _ _ _ Sm D).
  - rewrite Q, Q10, Q9, <- plus_seq_1, plus_seq_app, app_length. reflexivity.
  - rewrite concat_app. cbn [concat]. rewrite app_nil_r, lsaid_app. split; [exact S9|]. split; [apply Forall_app; auto|]. split; [destruct parts; discriminate|].
    rewrite removelast_app by discriminate. cbn [removelast]. rewrite app_nil_r. exact N9.
Qed.
End lqhello.

From Verif Require Import Base Bytes Parser ParserSpec.

Lemma bytes_eqb_spec a b : bytes_eqb a b = true <-> a = b.
Proof. unfold bytes_eqb. destruct (list_eq_dec Z.eq_dec a b); split; intros; congruence. Qed.

Lemma validate_spec d a : validate d a = true <-> ~ In a d.
Proof.
  induction d as [|x d IH]; cbn [validate In]; [tauto|].
  destruct (bytes_eqb a x) eqn:E.
  - apply bytes_eqb_spec in E. subst. split; [discriminate|intros H; exfalso; apply H; now left].
  - rewrite IH. assert (N : x <> a). { intros ->. assert (Q : bytes_eqb a a = true) by now apply bytes_eqb_spec. congruence. } tauto.
Qed.

Section P.
Variable ret : Z -> Z -> bool.

Lemma call_handlers_eq ty off size : forall h fwd,
  call_handlers ret h ty off size fwd =
  let hs := map fst (filter (fun x => (snd x =? PROMISCUOUS) || (snd x =? ty)) h) in
  map (fun f => EHandler f off size) hs ++ (if fwd && forallb (fun f => ret f off) hs then [EForward off size] else []).
Proof.
  induction h as [|[f t] h IH]; intros fwd; cbn [call_handlers].
  - cbn. now rewrite andb_true_r.
  - cbn [filter snd]. destruct ((t =? PROMISCUOUS) || (t =? ty)); [|apply IH]. cbv zeta in IH |- *. cbn [map fst app forallb].
    rewrite IH. f_equal. f_equal. destruct (ret f off), fwd; reflexivity.
Qed.

Lemma slice_app_skip (p m : list Z) i n : 0 <= i -> 0 <= n -> slice (p ++ m) (blen p + i) n = slice m i n.
Proof.
  intros A B. unfold slice, blen. f_equal. replace (Z.to_nat (Z.of_nat (length p) + i)) with (length p + Z.to_nat i)%nat by lia.
  rewrite skipn_app. rewrite skipn_all2 by lia. cbn [app]. f_equal. lia.
Qed.

Lemma wf_len ips m : wf_msg ips m -> 0 <= ips -> 8 + ips <= blen m.
Proof. intros (A & B & C). lia. Qed.

(** The loop over the messages. *)
Lemma msgs_ok e : 0 < ipsize e -> forall n fuel (pre r tail : list Z), (length r <= n)%nat -> (n <= fuel)%nat -> bytes r -> blen r < 4294967296 ->
  exists ms l, chop (ipsize e) (blen pre) r ms /\ Forall2 (msg_spec ret e) ms l /\
    msgs ret fuel e (pre ++ r ++ tail) (blen pre) (blen r) = PDone (concat l).
Proof.
  intros Hip. induction n as [|n IH]; intros fuel pre r tail Ln Lf Br Sz.
  - destruct r; [|cbn [length] in Ln; lia]. exists [], []. split; [|split; [constructor|]].
    + constructor. intros m r' E (A & B & C). destruct m; [change (blen []) with 0 in B; lia|discriminate].
    + destruct fuel; reflexivity.
  - destruct (Z.eqb_spec (blen r) 0) as [Z0|NZ].
    { exists [], []. split; [|split; [constructor|]].
      - constructor. intros m r' E (A & B & C). assert (blen m <= blen r) by (rewrite E, blen_app; pose proof (blen_nonneg r'); lia). lia.
      - rewrite Z0. destruct fuel; reflexivity. }
    destruct fuel as [|fuel]; [lia|]. cbn [msgs]. replace (blen r =? 0) with false by lia.
    destruct (Z.ltb_spec (blen r) (8 + ipsize e)) as [Short|Long].
    { exists [], []. split; [|split; [constructor|reflexivity]].
      constructor. intros m r' E (A & B & C). assert (blen m <= blen r) by (rewrite E, blen_app; pose proof (blen_nonneg r'); lia). lia. }
    assert (Rd : forall i k, 0 <= i -> 0 <= k -> i + k <= blen r -> rdn (pre ++ r ++ tail) (blen pre + i) k = Some (slice r i k)).
    { intros i k A B C. pose proof (blen_nonneg pre). pose proof (blen_nonneg tail).
      rewrite rdn_some; [|lia|lia|rewrite !blen_app; lia]. f_equal. rewrite slice_app_skip by lia. apply slice_app; lia. }
    unfold rd16, rd8. rewrite <- (Z.add_assoc (blen pre) 6).
    rewrite (Rd 2 2) by lia. rewrite (Rd (6 + ipsize e) 2) by lia. rewrite (Rd 4 (ipsize e)) by lia.
    replace (rdn (pre ++ r ++ tail) (blen pre) 1) with (Some (slice r 0 1)) by (rewrite <- (Rd 0 1) by lia; f_equal; lia).
    cbn [option_map].
    set (sz := be (slice r 2 2)).
    assert (Stop : forall m r', r = m ++ r' -> wf_msg (ipsize e) m -> blen m = sz).
    { intros m r' E (A & B & C). unfold sz. rewrite <- A, E. f_equal. apply eq_sym, slice_app; lia. }
    assert (NoMsg : (sz < 8 + ipsize e \/ sz mod 4 <> 0 \/ blen r < sz) ->
       exists ms l, chop (ipsize e) (blen pre) r ms /\ Forall2 (msg_spec ret e) ms l /\ PDone [] = PDone (concat l)).
    { intros Q. exists [], []. split; [|split; [constructor|reflexivity]]. constructor. intros m r' E W. pose proof (Stop m r' E W) as Em.
      destruct W as (A & B & C). assert (blen m <= blen r) by (rewrite E, blen_app; pose proof (blen_nonneg r'); lia). rewrite Em in *. lia. }
    destruct (Z.ltb_spec sz (8 + ipsize e)) as [C1|C1]; [apply NoMsg; lia|].
    destruct (Z.eqb_spec (sz mod 4) 0) as [C2|C2]; cbn [negb]; [|apply NoMsg; lia].
    destruct (Z.gtb_spec sz (blen r)) as [C3|C3]; [apply NoMsg; lia|].
    clear NoMsg.
    set (m := slice r 0 sz). set (r2 := skipn (Z.to_nat sz) r).
    assert (Er : r = m ++ r2) by (unfold m, r2, slice; cbn [skipn Z.to_nat]; apply eq_sym, firstn_skipn).
    assert (Lm : blen m = sz) by (apply slice_length; lia).
    assert (Sm : forall i k, 0 <= i -> 0 <= k -> i + k <= sz -> slice m i k = slice r i k).
    { intros i k A B C. unfold m. rewrite slice_slice by lia. f_equal. }
    assert (Wm : wf_msg (ipsize e) m).
    { split; [|split; [lia|rewrite Lm; exact C2]]. rewrite Sm by lia. now rewrite Lm. }
    assert (Lr2 : blen r = sz + blen r2) by (rewrite Er at 1; rewrite blen_app; lia).
    destruct (IH fuel (pre ++ m) r2 tail) as (ms & l & Ch & F2 & Em).
    { unfold blen in Lr2. lia. }
    { lia. }
    { unfold bytes in *. rewrite Er in Br. apply Forall_app in Br. tauto. }
    { pose proof (blen_nonneg m). lia. }
    rewrite blen_app, Lm in Em. rewrite Er in Em at 1 || idtac.
    exists ((blen pre, m) :: ms).
    set (evs := if bytes_eqb (slice r 4 (ipsize e)) (mainaddr e) || negb (validate (deny e) (slice r 4 (ipsize e)))
        then if validate (deny e) (slice r 4 (ipsize e)) then [ECollision (be (slice r 0 1)) (be (slice r (6 + ipsize e) 2))] else []
        else call_handlers ret (handlers e) (be (slice r 0 1)) (blen pre) sz true).
    exists (evs :: l). split; [|split].
    + rewrite Er. constructor; [exact Wm|]. rewrite blen_app in Ch. exact Ch.
    + constructor; [|exact F2]. unfold msg_spec, m_orig, m_type, m_seqno, matching, m_type. cbv zeta.
      rewrite !Sm by lia. unfold evs.
      split; [|split].
      * intros I. destruct (validate (deny e) (slice r 4 (ipsize e))) eqn:V; [apply validate_spec in V; tauto|]. now rewrite orb_true_r.
      * intros NI Eo. rewrite Eo in NI |- *. assert (V : validate (deny e) (mainaddr e) = true) by now apply validate_spec. rewrite V.
        replace (bytes_eqb (mainaddr e) (mainaddr e)) with true by (symmetry; now apply bytes_eqb_spec). reflexivity.
      * intros NI NE. assert (V : validate (deny e) (slice r 4 (ipsize e)) = true) by now apply validate_spec. rewrite V.
        destruct (bytes_eqb (slice r 4 (ipsize e)) (mainaddr e)) eqn:B; [apply bytes_eqb_spec in B; tauto|]. cbn [orb negb].
        rewrite call_handlers_eq. cbv zeta. rewrite andb_true_l, Lm. reflexivity.
    + cbn [concat]. cbv zeta. fold evs.
      replace (u32 (blen r - sz)) with (blen r2) by (unfold u32; rewrite Z.mod_small; pose proof (blen_nonneg r2); lia).
      replace (pre ++ r ++ tail) with ((pre ++ m) ++ r2 ++ tail) by (rewrite Er at 1; rewrite <- !app_assoc; reflexivity).
      rewrite Em. reflexivity.
Qed.

Lemma chop_bounds ips : 0 <= ips -> forall off r ms, chop ips off r ms -> forall o m, In (o, m) ms ->
  off <= o /\ o + blen m <= off + blen r /\ wf_msg ips m /\ m = slice r (o - off) (blen m).
Proof.
  intros Hi off r ms C. induction C as [off r N|off m r ms W C IH]; intros o x Hx; [destruct Hx|].
  destruct Hx as [E|Hx].
  - injection E as <- <-. rewrite blen_app. pose proof (blen_nonneg r). repeat split; try lia; try exact (proj1 W); try exact (proj1 (proj2 W)); try exact (proj2 (proj2 W)).
    replace (off - off) with 0 by lia. rewrite slice_app by lia. unfold slice. cbn [Z.to_nat skipn]. unfold blen. rewrite Nat2Z.id. now rewrite firstn_all.
  - destruct (IH o x Hx) as (A & B & W' & S). rewrite blen_app. pose proof (blen_nonneg m). repeat split; try lia; try exact (proj1 W'); try exact (proj1 (proj2 W')); try exact (proj2 (proj2 W')).
    rewrite S at 1. rewrite <- (slice_app_skip m r (o - (off + blen m)) (blen x)) by (pose proof (blen_nonneg x); lia). f_equal. lia.
Qed.

Lemma chop_fun ips : 0 <= ips -> forall off r ms, chop ips off r ms -> forall ms', chop ips off r ms' -> ms = ms'.
Proof.
  assert (Uq : forall m r m' r', wf_msg ips m -> wf_msg ips m' -> m ++ r = m' ++ r' -> 0 <= ips -> m = m' /\ r = r').
  { intros m r m' r' (A & B & C) (A' & B' & C') E Hi.
    assert (L : blen m = blen m').
    { rewrite <- A, <- A'. f_equal. rewrite <- (slice_app m r) by lia. rewrite <- (slice_app m' r') by lia. now rewrite E. }
    assert (L2 : length m = length m') by (unfold blen in L; lia).
    assert (m = m').
    { rewrite <- (firstn_all m), <- (firstn_all m'). rewrite <- L2. 
      replace (firstn (length m) m) with (firstn (length m) (m ++ r)) by (rewrite firstn_app, Nat.sub_diag, firstn_O, app_nil_r; reflexivity).
      rewrite E, L2. rewrite firstn_app, Nat.sub_diag, firstn_O, app_nil_r. reflexivity. }
    subst m'. split; [reflexivity|]. now apply app_inv_head in E. }
  intros Hi off r ms C. induction C as [off r N|off m r ms W C IH]; intros ms' C'.
  - inversion C' as [|o m r' ms2 W2 C2]; subst; [reflexivity|]. exfalso. eapply N; eauto.
  - inversion C' as [o r0 N|o m' r' ms2 W2 C2 Eo E]; subst.
    + exfalso. eapply N; eauto.
    + destruct (Uq _ _ _ _ W W2 (eq_sym E) Hi) as (<- & <-). f_equal. now apply IH.
Qed.

Lemma parse_ok e inbuf dgram fuel : 0 < ipsize e -> blen inbuf = INBUF -> bytes dgram -> 4 <= blen dgram ->
  (Z.to_nat INBUF <= fuel)%nat ->
  let d := slice dgram 0 INBUF in
  let (buf, size) := receive inbuf dgram in
  (~ header_ok d /\ parse_packet ret fuel e buf size = PDone []) \/
  (header_ok d /\ exists ms l, chop (ipsize e) 4 (skipn 4 d) ms /\ Forall2 (msg_spec ret e) ms l /\
     parse_packet ret fuel e buf size = PDone (pkt_events e d ++ concat l)).
Proof.
  intros Hip Li Bd L4 Lf. cbv zeta. unfold receive. change (firstn (Z.to_nat INBUF) dgram) with (slice dgram 0 INBUF).
  set (d := slice dgram 0 INBUF).
  assert (Ld : blen d <= INBUF) by (unfold d, slice, blen; rewrite firstn_length; change INBUF with 1504; lia).
  assert (Ld4 : 4 <= blen d).
  { unfold d, slice, blen in *. rewrite firstn_length. cbn [skipn Z.to_nat]. change INBUF with 1504. lia. }
  assert (Bd' : bytes d).
  { unfold d, slice. cbn [skipn Z.to_nat]. apply Forall_forall. intros x Hx. eapply Forall_forall in Bd; [exact Bd|]. 
    rewrite <- (firstn_skipn (Z.to_nat INBUF) dgram). apply in_or_app. now left. }
  set (tail := skipn (length d) inbuf).
  unfold parse_packet. change INBUF with 1504 in *.
  replace (u32 (blen d - 4)) with (blen d - 4) by (unfold u32; rewrite Z.mod_small; lia).
  destruct (Z.ltb_spec (blen d - 4) 4) as [S4|S4].
  { left. split; [intros (Q & _); lia|reflexivity]. }
  unfold rd16. rewrite !rdn_app by lia. rewrite !rdn_some by lia. cbn [option_map].
  replace (u16 (blen d)) with (blen d) by (unfold u16; rewrite Z.mod_small; lia).
  destruct (Z.eqb_spec (be (slice d 0 2)) (blen d)) as [H|H]; cbn [negb].
  2: { left. split; [intros (_ & Q); congruence|reflexivity]. }
  right. split; [split; [lia|exact H]|].
  set (pre := firstn 4 d). set (r := skipn 4 d).
  assert (Ed : d = pre ++ r) by (unfold pre, r; symmetry; apply firstn_skipn).
  assert (Lp : blen pre = 4) by (unfold pre, blen in *; rewrite firstn_length; lia).
  assert (Lr : blen r = blen d - 4) by (assert (Q : blen d = blen pre + blen r) by (rewrite <- blen_app, <- Ed; reflexivity); lia).
  destruct (msgs_ok e Hip (length r) fuel pre r tail) as (ms & l & C & F & E).
  { lia. } { unfold blen in *. lia. }
  { unfold bytes in *. rewrite Ed in Bd'. apply Forall_app in Bd'. tauto. }
  { lia. }
  exists ms, l. rewrite Lp in C, E. split; [exact C|]. split; [exact F|].
  rewrite <- Lr. replace (d ++ tail) with (pre ++ r ++ tail) by (rewrite app_assoc, <- Ed; reflexivity). rewrite E. reflexivity.
Qed.
End P.

Lemma deny_hist l v6 a : validate (fold_left add_invalid l (deny_init v6)) a = true <-> ~ (In a l \/ In a (deny_init v6)).
Proof.
  rewrite validate_spec. enough (H : In a (fold_left add_invalid l (deny_init v6)) <-> In a l \/ In a (deny_init v6)) by tauto.
  generalize (deny_init v6) as d. induction l as [|x l IH]; intros d; cbn [fold_left In]; [tauto|].
  rewrite IH. unfold add_invalid. cbn [In]. tauto.
Qed.

Lemma c12_bounds ret e inbuf dgram fuel : 0 < ipsize e -> blen inbuf = INBUF -> bytes dgram -> 4 <= blen dgram ->
  (Z.to_nat INBUF <= fuel)%nat ->
  let (buf, size) := receive inbuf dgram in
  exists ms evs, parse_packet ret fuel e buf size = PDone evs /\
    (header_ok (slice dgram 0 INBUF) -> chop (ipsize e) 4 (skipn 4 (slice dgram 0 INBUF)) ms) /\
    (~ header_ok (slice dgram 0 INBUF) -> ms = [] /\ evs = []) /\
    (forall f off n, In (EHandler f off n) evs \/ In (EForward off n) evs ->
       4 <= off /\ off + n <= size /\ In (off, slice dgram off n) ms /\ wf_msg (ipsize e) (slice dgram off n)).
Proof.
  intros Hip Li Bd L4 Lf. pose proof (parse_ok ret e inbuf dgram fuel Hip Li Bd L4 Lf) as H. cbv zeta in H.
  destruct (receive inbuf dgram) as [buf size] eqn:Er.
  assert (Es : size = blen (slice dgram 0 INBUF)) by (unfold receive in Er; injection Er as _ <-; reflexivity).
  destruct H as [(N & E)|(O & ms & l & C & F & E)].
  - exists [], []. split; [exact E|]. split; [tauto|]. split; [auto|]. intros f off n [[]|[]].
  - exists ms. eexists. split; [exact E|]. split; [auto|]. split; [tauto|].
    intros f off n H.
    assert (Q : exists m, In (off, m) ms /\ n = blen m).
    { assert (H' : In (EHandler f off n) (concat l) \/ In (EForward off n) (concat l)).
      { destruct H as [H|H]; apply in_app_or in H; destruct H as [H|H]; auto; exfalso; unfold pkt_events in H; apply in_app_or in H;
          destruct H as [H|H]; try (apply in_map_iff in H; destruct H as (x & Hx & _); discriminate);
          destruct (use_hyst e); cbn [In] in H; try tauto; destruct H as [H|[]]; discriminate. }
      clear -H' F. induction F as [|[o m] evs ms l S F IH]; [cbn in H'; tauto|]. cbn [concat] in H'.
      assert (D : (In (EHandler f off n) evs \/ In (EForward off n) evs) \/ (In (EHandler f off n) (concat l) \/ In (EForward off n) (concat l))).
      { rewrite !in_app_iff in H'. tauto. }
      destruct D as [D|D].
      - exists m. cbn [msg_spec] in S. destruct S as (S1 & S2 & S3).
        destruct (in_dec (list_eq_dec Z.eq_dec) (m_orig (ipsize e) m) (deny e)) as [I|NI]; [rewrite (S1 I) in D; cbn in D; tauto|].
        destruct (list_eq_dec Z.eq_dec (m_orig (ipsize e) m) (mainaddr e)) as [Eq|NE].
        { rewrite (S2 NI Eq) in D. cbn in D. destruct D as [[D|[]]|[D|[]]]; discriminate. }
        specialize (S3 NI NE). cbv zeta in S3. rewrite S3 in D. rewrite !in_app_iff, !in_map_iff in D.
        destruct D as [[(x & Ex & _)|D]|[(x & Ex & _)|D]].
        + injection Ex as _ <- <-. split; [now left|reflexivity].
        + destruct (forallb _ _); cbn [In] in D; [|tauto]. destruct D as [D|[]]. discriminate.
        + discriminate.
        + destruct (forallb _ _); cbn [In] in D; [|tauto]. destruct D as [D|[]]. injection D as <- <-. split; [now left|reflexivity].
      - destruct (IH D) as (m2 & A & B). exists m2. split; [now right|exact B]. }
    destruct Q as (m & I & En). subst n.
    destruct (chop_bounds ret (ipsize e) ltac:(lia) 4 _ ms C off m I) as (A & B & W & Sm).
    set (d := slice dgram 0 INBUF) in *.
    assert (Lsk : blen (skipn 4 d) = blen d - 4).
    { destruct O as (O & _). unfold blen in *. rewrite skipn_length. lia. }
    assert (Sd : m = slice dgram off (blen m)).
    { rewrite Sm at 1. transitivity (slice d off (blen m)).
      - unfold slice. rewrite <- (Nat2Z.id 4) at 1. f_equal. change (skipn (Z.to_nat (Z.of_nat 4)) d) with (skipn 4 d).
        replace (Z.to_nat off) with (Z.to_nat (off - 4) + 4)%nat by lia. generalize (Z.to_nat (off - 4)) as k. intros k.
        clear. do 4 (destruct d as [|? d]; [now rewrite ?skipn_nil|rewrite Nat.add_succ_r; cbn [skipn]]). now rewrite Nat.add_0_r.
      - unfold d. rewrite slice_slice; try lia. + f_equal. + apply blen_nonneg. + assert (blen d <= INBUF) by (unfold d, slice, blen; rewrite firstn_length; change INBUF with 1504; lia). lia. }
    rewrite <- Sd. split; [lia|]. split; [rewrite Es; lia|]. split; [exact I|exact W].
Qed.

(** ** The registry of handlers *)
Definition pair_dec : forall a b : Z * Z, {a = b} + {a <> b}.
Proof. decide equality; apply Z.eq_dec. Defined.
Lemma remove_function_spec h fn ty :
  let (h', b) := remove_function h fn ty in
  (b = true -> exists h1 h2, h = h1 ++ (fn, ty) :: h2 /\ h' = h1 ++ h2 /\ ~ In (fn, ty) h1) /\
  (b = false -> h' = h /\ ~ In (fn, ty) h).
Proof.
  induction h as [|[f t] h IH]; cbn [remove_function].
  - split; [discriminate|]. intros _. split; [reflexivity|tauto].
  - destruct ((f =? fn) && (t =? ty)) eqn:E.
    + assert (f = fn /\ t = ty) as (-> & ->) by lia. split; [|discriminate]. intros _. exists [], h. auto.
    + destruct (remove_function h fn ty) as [r b]. destruct IH as (A & B). split.
      * intros Hb. destruct (A Hb) as (h1 & h2 & -> & -> & N). exists ((f, t) :: h1), h2. split; [reflexivity|]. split; [reflexivity|].
        intros [Q|Q]; [|tauto]. injection Q as -> ->. rewrite !Z.eqb_refl in E. discriminate.
      * intros Hb. destruct (B Hb) as (-> & N). split; [reflexivity|]. intros [Q|Q]; [|tauto]. injection Q as -> ->. rewrite !Z.eqb_refl in E. discriminate.
Qed.

From Verif Require Import Base Json JsonSpec JsonProofs InfoCache InfoCacheSpec.

(** ** Joining members *)
Lemma members_join t l : members t l -> forall t' l', members t' l' -> members (t ++ [44] ++ t') (l ++ l').
Proof.
  intros M. induction M; intros t'0 l' M'.
  - rewrite <- !app_assoc. change ([(s, v)] ++ l') with ((s, v) :: l'). now apply m_more.
  - rewrite <- !app_assoc. change (((s, v) :: l) ++ l') with ((s, v) :: (l ++ l')). apply m_more; auto.
Qed.
(** the text of members that follow others *)
Definition follows (t : list Z) (l : list (list Z * jval)) : Prop := (l = [] /\ t = []) \/ exists t', t = [44] ++ t' /\ members t' l.
Lemma follows_nil : follows [] [].
Proof. now left. Qed.
Lemma members_follows t l u m : members t l -> follows u m -> members (t ++ u) (l ++ m).
Proof. intros M [(-> & ->)|(t' & -> & M')]. { now rewrite !app_nil_r. } now apply members_join. Qed.
Lemma follows_app t l u m : follows t l -> follows u m -> follows (t ++ u) (l ++ m).
Proof.
  intros [(-> & ->)|(t' & -> & M)] F. { now rewrite !app_nil_l. }
  right. exists (t' ++ u). rewrite <- app_assoc. split; [reflexivity|]. now apply members_follows.
Qed.
Lemma denote_members_app a b : denote_members (a ++ b) = denote_members a ++ denote_members b.
Proof. apply map_app. Qed.

(** ** Sessions between sections *)
Definition between (s : jsess) : Prop := j_depth s = 1 /\ 1 <= j_ent s 1.
Lemma mems_good l s : good_members l -> j_depth s = 1 -> 0 <= j_ent s 1 -> exists s' t, jcalls s (calls_members l) = Some (s', t) /\
  nextto s s' (Z.of_nat (length l)) /\ match l with [] => t = [] | _ => exists t', t = comma s ++ t' /\ members t' (denote_members l) end.
Proof.
  intros (FC & FP) D E. apply mems_ok; [|exact FC|rewrite D; unfold maxdepth; lia|now rewrite D| |].
  - clear. induction l; constructor; [apply prints_all|assumption].
  - intros n I. apply in_map_iff in I. destruct I as (m & <- & I). rewrite Forall_forall in FP. destruct (FP m I). rewrite D. unfold maxdepth. lia.
  - apply Forall_forall. intros n I. apply in_map_iff in I. destruct I as (m & <- & I). rewrite Forall_forall in FP. now destruct (FP m I).
Qed.
Lemma section_prints l s : good_members l -> between s -> exists s' t, jcalls s (calls_members l) = Some (s', t) /\ between s' /\ j_pretty s' = j_pretty s /\ follows t (denote_members l).
Proof.
  intros G (D & E). destruct (mems_good l s G D ltac:(lia)) as (s' & t & C & (P & D' & E' & _) & T). exists s', t. split; [exact C|]. rewrite D in *.
  split; [split; [exact D'|lia]|]. split; [exact P|]. destruct l as [|m l].
  - left. now split.
  - destruct T as (t' & -> & M). right. exists t'. split; [|exact M]. unfold comma. rewrite D. destruct (j_ent s 1 =? 0) eqn:X; [lia|reflexivity].
Qed.

(** ** Masks *)
Lemma land_other w a b : Z.land a b = 0 -> Z.land (Z.land w (Z.lnot a)) b = Z.land w b.
Proof.
  intros H. apply Z.bits_inj'. intros n Hn. rewrite !Z.land_spec, Z.lnot_spec by exact Hn.
  pose proof (f_equal (fun x => Z.testbit x n) H) as B. cbn beta in B. rewrite Z.land_spec, Z.bits_0 in B. destruct (Z.testbit w n), (Z.testbit a n), (Z.testbit b n); cbn in *; congruence.
Qed.

(** ** The cache *)
Definition cached (timeout : Z) (past : list dreq) (c : icache) : Prop := forall siw, fst (c siw) <> 0 ->
  exists y d, In y past /\ wants (d_req y) siw /\ d_data y siw = Some d /\ q_now (d_req y) siw = fst (c siw) /\ follows (snd (c siw)) (denote_members d).
Lemma cached_more timeout past c x : cached timeout past c -> cached timeout (x :: past) c.
Proof. intros H siw N. destruct (H siw N) as (y & d & I & R). exists y, d. split; [now right|exact R]. Qed.

Lemma timeout_spec timeout siw a : 0 < cache_timeout timeout siw -> a < cache_timeout timeout siw -> 0 < timeout /\ (startup siw \/ a < timeout).
Proof.
  unfold cache_timeout. intros H1 H2. destruct (timeout <=? 0) eqn:E; [lia|]. split; [lia|]. destruct (existsb (Z.eqb siw) _); [now right|]. left.
  destruct (existsb (Z.eqb siw) [SIW_VERSION; SIW_CONFIG; SIW_PLUGINS]) eqn:X; [|lia]. apply existsb_exists in X. destruct X as (k & I & Q). apply Z.eqb_eq in Q. subst k.
  cbn [In] in I. unfold startup. intuition.
Qed.
Lemma sections_ok timeout past x : good x -> forall tbl, ForallOrdPairs (fun a b => Z.land a b = 0) tbl ->
  forall c s what, cached timeout (x :: past) c -> between s -> (forall siw, In siw tbl -> Z.land what siw = Z.land (q_what (d_req x)) siw) ->
  exists c' s' t l, send_sections timeout (d_req x) c s what tbl = Some (c', s', t) /\ cached timeout (x :: past) c' /\ between s' /\ j_pretty s' = j_pretty s /\
    shows timeout (x :: past) x tbl l /\ follows t (denote_members l).
Proof.
  intros G. induction tbl as [|siw tbl IH]; intros FO c s what HC B HW; cbn [send_sections].
  { exists c, s, [], []. repeat split; try assumption; try apply B. constructor. apply follows_nil. }
  assert (Hw : Z.land what siw = Z.land (q_what (d_req x)) siw) by (apply HW; now left).
  destruct (what =? 0) eqn:E0.
  { exists c, s, [], []. repeat split; try assumption; try apply B; [|apply follows_nil]. apply Z.eqb_eq in E0. subst what.
    assert (A : forall tbl', (forall k, In k tbl' -> Z.land 0 k = Z.land (q_what (d_req x)) k) -> shows timeout (x :: past) x tbl' []).
    { induction tbl' as [|k tbl' IH']; intros Hk; [constructor|]. constructor; [left|apply IH'; intros; apply Hk; now right]. unfold wants. rewrite <- Hk by now left. now rewrite Z.land_0_l. }
    apply A. exact HW. }
  inversion FO as [|? ? FA FO']; subst.
  assert (HW' : forall k, In k tbl -> Z.land (Z.land what (Z.lnot siw)) k = Z.land (q_what (d_req x)) k).
  { intros k I. rewrite land_other; [apply HW; now right|]. rewrite Forall_forall in FA. now apply FA. }
  specialize (fun c1 s1 H1 H2 => IH FO' c1 s1 (Z.land what (Z.lnot siw)) H1 H2 HW').
  destruct (Z.land what siw =? 0) eqn:E1.
  { destruct (IH c s HC B) as (c' & s' & t & l & -> & R1 & R2 & R3 & R4 & R5). exists c', s', t, l. repeat split; try assumption; try apply R2.
    apply sh_not; [left; unfold wants; rewrite <- Hw; lia|exact R4]. }
  assert (Wt : wants (d_req x) siw) by (unfold wants; rewrite <- Hw; lia).
  rewrite (gr_data _ _ _ G). destruct (d_data x siw) as [d|] eqn:Ed; cbn [option_map].
  2:{ destruct (IH c s HC B) as (c' & s' & t & l & -> & R1 & R2 & R3 & R4 & R5). exists c', s', t, l. repeat split; try assumption; try apply R2.
      apply sh_not; [now right|exact R4]. }
  destruct (section_prints d s (gr_dgood _ _ _ G siw d Ed) B) as (s1 & t1 & C1 & B1 & P1 & F1). rewrite C1.
  assert (Fin : forall c1 s2 t2 d2, cached timeout (x :: past) c1 -> between s2 -> j_pretty s2 = j_pretty s -> follows t2 (denote_members d2) -> recent timeout (x :: past) x siw d2 ->
    exists c' s' t l, match send_sections timeout (d_req x) c1 s2 (Z.land what (Z.lnot siw)) tbl with Some (c3, s3, t3) => Some (c3, s3, t2 ++ t3) | None => None end = Some (c', s', t) /\
    cached timeout (x :: past) c' /\ between s' /\ j_pretty s' = j_pretty s /\ shows timeout (x :: past) x (siw :: tbl) l /\ follows t (denote_members l)).
  { intros c1 s2 t2 d2 H1 H2 H3 H4 H5. destruct (IH c1 s2 H1 H2) as (c' & s' & t & l & -> & R1 & R2 & R3 & R4 & R5). exists c', s', (t2 ++ t), (d2 ++ l).
    repeat split; try assumption; try apply R2; [congruence| |].
    - apply sh_sec; [exact Wt|rewrite Ed; discriminate|exact H5|exact R4].
    - rewrite denote_members_app. now apply follows_app. }
  destruct (cache_timeout timeout siw <=? 0) eqn:E2.
  { apply (Fin c s1 t1 d); auto. now left. }
  destruct (c siw) as [ts buf] eqn:Ec. destruct ((ts =? 0) || (cache_timeout timeout siw <=? Z.abs (q_now (d_req x) siw - ts))) eqn:E3.
  - apply (Fin _ s1 t1 d); auto; [|now left]. intros k N. cbn [fst snd] in *. destruct (k =? siw) eqn:Ek.
    + apply Z.eqb_eq in Ek. subst k. exists x, d. cbn [fst snd]. split; [now left|]. now repeat split.
    + now apply HC.
  - destruct (HC siw ltac:(rewrite Ec; cbn [fst]; lia)) as (y & d' & I & Wy & Dy & Ty & Fy). rewrite Ec in Ty, Fy. cbn [fst snd] in *.
    apply (Fin c s buf d'); auto. right. exists y. destruct (timeout_spec timeout siw (Z.abs (q_now (d_req x) siw - ts))) as (A & Bd); [lia|lia|]. rewrite <- Ty in Bd. now repeat split.
Qed.

Lemma table_disjoint : ForallOrdPairs (fun a b => Z.land a b = 0) table.
Proof. unfold table. repeat (apply FOP_cons; [repeat (apply Forall_cons; [vm_compute; reflexivity|]); apply Forall_nil|]). apply FOP_nil. Qed.

Lemma reply_ok pretty timeout past x c : good x -> cached timeout past c ->
  exists c' t n l, send_info_from_table pretty timeout (d_req x) c = Some (c', t, n) /\ cached timeout (x :: past) c' /\
    shows timeout (x :: past) x table l /\ json_text t (JObj (denote_members (d_start x ++ l))).
Proof.
  intros G HC. unfold send_info_from_table, mark_output. cbn [j_depth j_reset set_depth Z.eqb]. unfold set_ent. cbn [j_depth j_reset set_depth].
  change ((0 <=? 0 + 1) && (0 + 1 <? maxdepth)) with true. cbn iota. set (s1 := mkJ _ _ _).
  destruct (mems_good (d_start x) s1 (gr_good _ _ _ G) eq_refl ltac:(cbn; lia)) as (s2 & t2 & C2 & (P2 & D2 & E2 & _) & T2). rewrite (gr_start _ _ _ G), C2.
  assert (T0 : exists t', t2 = t' /\ members t' (denote_members (d_start x)) /\ between s2).
  { pose proof (gr_some _ _ _ G) as N. destruct (d_start x) as [|m l]; [now elim N|]. destruct T2 as (t' & -> & M). exists t'. split; [reflexivity|]. split; [exact M|].
    change (j_depth s1) with 1 in *. split; [exact D2|]. rewrite E2. cbn [length]. change (j_ent s1 1) with 0. lia. }
  destruct T0 as (t' & -> & M & B). clear T2.
  destruct (sections_ok timeout past x G table table_disjoint c s2 (q_what (d_req x)) (cached_more _ _ _ _ HC) B ltac:(reflexivity)) as (c' & s3 & t3 & l & -> & HC' & (D3 & _) & P3 & SH & F).
  rewrite D3. cbn [Z.eqb Pos.eqb]. change ((0 <=? 1) && (1 <? maxdepth)) with true. cbn iota. cbn [j_depth set_depth].
  eexists c', _, _, l. split; [reflexivity|]. split; [exact HC'|]. split; [exact SH|]. unfold json_text.
  exists [], ([123] ++ (t' ++ t3 ++ (if j_pretty s3 then [10] else [])) ++ [125]), [10]. split; [|split; [|split]].
  - unfold new_indent. cbn [j_depth j_reset set_depth Z.eqb Z.sub Z.add Z.opp Z.pos_sub Pos.pred_double]. cbn [j_pretty set_depth]. rewrite !app_nil_l. rewrite <- !app_assoc. reflexivity.
  - constructor.
  - apply v_obj. rewrite app_assoc, denote_members_app. apply members_ws; [now apply members_follows|]. destruct (j_pretty s3); [constructor; [lia|constructor]|constructor].
  - constructor; [lia|constructor].
Qed.

(** ** All replies *)
Lemma shows_incl timeout p p' x tbl l : incl p p' -> shows timeout p x tbl l -> shows timeout p' x tbl l.
Proof.
  intros I S0. induction S0; [constructor|now apply sh_not|]. apply sh_sec; try assumption. destruct H1 as [H1|(y & Iy & R)]; [now left|]. right. exists y. split; [now apply I|exact R].
Qed.
Lemma serve_ok pretty timeout xs : forall past c, Forall good xs -> cached timeout past c ->
  exists ts, serve pretty timeout c (map d_req xs) = Some ts /\ length ts = length xs /\
    forall i x t, nth_error xs i = Some x -> nth_error ts i = Some t ->
      exists l, shows timeout (rev (firstn (S i) xs) ++ past) x table l /\ json_text t (JObj (denote_members (d_start x ++ l))).
Proof.
  induction xs as [|x xs IH]; intros past c FG HC; cbn [map serve].
  { exists []. split; [reflexivity|]. split; [reflexivity|]. intros [|i] ? ? H; discriminate. }
  inversion FG; subst. destruct (reply_ok pretty timeout past x c H1 HC) as (c' & t & n & l & -> & HC' & SH & J).
  destruct (IH (x :: past) c' H2 HC') as (ts & -> & L & R). exists (t :: ts). split; [reflexivity|]. split; [cbn [length]; now rewrite L|].
  intros [|i] x0 t0 Hx Ht; cbn [nth_error] in *.
  - inversion Hx; inversion Ht; subst. exists l. split; [exact SH|exact J].
  - destruct (R i x0 t0 Hx Ht) as (l0 & S0 & J0). exists l0. split; [|exact J0]. eapply shows_incl; [|exact S0].
    change (firstn (S (S i)) (x :: xs)) with (x :: firstn (S i) xs). generalize (firstn (S i) xs). intros f z Iz. cbn [rev]. rewrite <- app_assoc. exact Iz.
Qed.
Lemma cached_empty timeout : cached timeout [] cache_empty.
Proof. intros siw N. now elim N. Qed.

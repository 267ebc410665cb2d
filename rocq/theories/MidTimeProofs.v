(** Proofs about the MID set: how long a declared alias stays. *)
From Verif Require Import Base SchedTime SchedTimeProofs Bytes Mid MidSpec LinkSetProofs MidProofs.

Definition has (t m a : Z) (V : Z -> Prop) (L : Z) (s : mstate) : Prop :=
  exists e x D, In e (ents s) /\ e_main e = m /\ e_timer e = Some (u32 D) /\ L <= D <= t + 536870912 /\ In x (e_ali e) /\ a_addr x = a /\ V (a_vtime x).
Definition tmQ (t : Z) (m : Z) (d : option Z) : Prop := exists D, d = Some (u32 D) /\ t - 536870912 <= D <= t + 536870912.
Lemma tmQ_set : forall t vt m, 1 <= vt < 536870912 -> settable (tmQ t) (u32 t) vt m.
Proof.
  intros t vt m V. split.
  - intros d (D & -> & B). destruct (stm_spec t vt D V B) as (D' & S1 & S2 & S3 & S4). exists D'. split; [exact S1|lia].
  - exists (t + vt). split; [now apply stm_none|lia].
Qed.

Lemma has_listed : forall t m a V L s, has t m a V L s -> listed s m a.
Proof. intros t m a V L s (e & x & D & I & M & _ & _ & Ix & A & _). exists e. split; [exact I|]. split; [exact M|]. apply in_map_iff. eauto. Qed.
Lemma has_weak : forall t m a (V V' : Z -> Prop) L L' s, (forall v, V v -> V' v) -> L' <= L -> has t m a V L s -> has t m a V' L' s.
Proof. intros t m a V V' L L' s HV HL (e & x & D & H1 & H2 & H3 & H4 & H5 & H6 & H7). exists e, x, D. repeat split; auto; lia. Qed.
Lemma has_later : forall t t' m a V L s, t <= t' -> has t m a V L s -> has t' m a V L s.
Proof. intros t t' m a V L s HT (e & x & D & H1 & H2 & H3 & H4 & H5 & H6 & H7). exists e, x, D. repeat split; auto; lia. Qed.

Lemma has_update : forall t m a V L main vt s, 1 <= vt < 536870912 -> t - 536870912 <= L -> has t m a V L s -> has t m a V L (update_table (u32 t) main vt s).
Proof.
  intros t m a V L main vt s HV HL (e & x & D & H1 & H2 & H3 & H4 & H5 & H6 & H7). unfold update_table.
  destruct (by_main main s) as [e0|]; [|exists e, x, D; auto 9].
  pose proof (upd_ent_in (e_id e0) (set_mid_timer (u32 t) vt) _ _ H1) as I. destruct (e_id e =? e_id e0); [|exists e, x, D; auto 9].
  destruct (set_mid_timer_same (u32 t) vt e) as (F1 & F2 & F3). destruct (stm_spec t vt D HV ltac:(lia)) as (D' & S1 & S2 & S3 & S4).
  exists (set_mid_timer (u32 t) vt e), x, D'. rewrite F2, F3, stm_eq, H3. repeat split; auto; lia.
Qed.
Lemma has_update_raise : forall t m a vt s, wf s -> 1 <= vt < 536870912 -> each (tmQ t) s -> listed s m a ->
  has t m a (fun _ => True) (t + vt) (update_table (u32 t) m vt s).
Proof.
  intros t m a vt s W HV HE (e & I & M & L). apply in_map_iff in L. destruct L as (x & A & L). unfold update_table.
  destruct (by_main m s) as [e0|] eqn:B.
  2:{ exfalso. now apply (by_main_none _ _ B e I). }
  apply by_main_some in B. destruct B as [I0 M0].
  destruct (HE e I) as (D & TD & BD). destruct (stm_spec t vt D HV BD) as (D' & S1 & S2 & S3 & S4).
  assert (e0 = e) as -> by (apply (inj_nodup _ _ e_main (ents s)); [apply (w_main _ W)|auto|auto|congruence]).
  pose proof (upd_ent_in (e_id e) (set_mid_timer (u32 t) vt) _ _ I) as J. rewrite Z.eqb_refl in J.
  destruct (set_mid_timer_same (u32 t) vt e) as (F1 & F2 & F3). exists (set_mid_timer (u32 t) vt e), x, D'. rewrite F2, F3, stm_eq, TD. repeat split; auto; lia.
Qed.
Lemma has_delete : forall t m a V L e s, wf s -> In e (ents s) -> e_main e <> m -> has t m a V L s -> has t m a V L (fst (delete_entry e s)).
Proof.
  intros t m a V L e0 s W I0 N (e & x & D & H1 & H2 & H). exists e, x, D. split; [|auto]. cbn. apply filter_In. split; [exact H1|].
  destruct (e_id e =? e_id e0) eqn:E; [|reflexivity]. exfalso. apply N. rewrite <- H2. f_equal. apply (inj_nodup _ _ e_id (ents s)); [apply (w_eid _ W)|auto|auto|lia].
Qed.
Lemma has_insert : forall t m a V L s main i alias vt s' l, 1 <= vt < 536870912 -> t - 536870912 <= L -> has t m a V L s ->
  insert_tuple (u32 t) s main i alias vt = Some (s', l) -> has t m a V L s'.
Proof.
  intros t m a V L s main i alias vt s' l HV HL (e & x & D & H1 & H2 & H3 & H4 & H5 & H6 & H7) IT. unfold insert_tuple in IT.
  destruct (lookup_main alias s) as [o|]; [|discriminate].
  destruct (match o with Some m => m =? main | None => false end); [inversion IT; subst; exists e, x, D; auto 9|].
  destruct (by_main main s) as [e0|] eqn:B; inversion IT; subst s' l; clear IT.
  - set (f := fun x => set_mid_timer (u32 t) vt (set_ali (mkA i alias 0 :: e_ali x) x)).
    pose proof (upd_ent_in (e_id e0) f _ _ H1) as I. destruct (e_id e =? e_id e0); [|exists e, x, D; auto 9].
    destruct (set_mid_timer_same (u32 t) vt (set_ali (mkA i alias 0 :: e_ali e) e)) as (F1 & F2 & F3). destruct (stm_spec t vt D HV ltac:(lia)) as (D' & S1 & S2 & S3 & S4).
    exists (f e), x, D'. unfold f in *. rewrite F2, F3, stm_eq. cbn [e_timer set_ali e_main e_ali]. rewrite H3. repeat split; auto; try lia. now right.
  - exists e, x, D. cbn. auto 9.
Qed.
Lemma insert_has : forall t s main i alias vt s' l, wf s -> 1 <= vt < 536870912 -> each (tmQ t) s -> (forall m, ~ listed s m alias) ->
  insert_tuple (u32 t) s main i alias vt = Some (s', l) -> has t main alias (fun _ => True) (t + vt) s'.
Proof.
  intros t s main i alias vt s' l W HV HE NL IT. unfold insert_tuple in IT.
  destruct (lookup_main alias s) as [o|] eqn:LM; [|discriminate]. pose proof (lookup_main_eq _ _ _ W LM) as LK.
  destruct o as [m0|]; [exfalso; now apply (NL m0), LK|]. 
  destruct (by_main main s) as [e0|] eqn:B; inversion IT; subst s' l; clear IT.
  - apply by_main_some in B. destruct B as [I0 M0]. destruct (HE e0 I0) as (D & TD & BD). destruct (stm_spec t vt D HV BD) as (D' & S1 & S2 & S3 & S4).
    set (f := fun x => set_mid_timer (u32 t) vt (set_ali (mkA i alias 0 :: e_ali x) x)).
    pose proof (upd_ent_in (e_id e0) f _ _ I0) as J. rewrite Z.eqb_refl in J.
    destruct (set_mid_timer_same (u32 t) vt (set_ali (mkA i alias 0 :: e_ali e0) e0)) as (F1 & F2 & F3).
    exists (f e0), (mkA i alias 0), D'. unfold f in *. rewrite F2, F3, stm_eq. cbn [e_timer set_ali e_main e_ali]. rewrite TD. repeat split; auto; try lia. now left.
  - destruct (set_mid_timer_same (u32 t) vt (mkE (mfresh s) main [mkA i alias 0] None)) as (F1 & F2 & F3).
    exists (set_mid_timer (u32 t) vt (mkE (mfresh s) main [mkA i alias 0] None)), (mkA i alias 0), (t + vt). rewrite F2, F3, stm_eq. cbn [e_timer].
    rewrite stm_none by exact HV. cbn [ents In e_main e_ali]. repeat split; auto; lia.
Qed.
Lemma has_cleared : forall t m a V L nb alias s, wf s -> (alias = m -> nb m = false) -> has t m a V L s -> has t m a V L (fst (cleared nb alias s)).
Proof.
  intros t m a V L nb alias s W N H. unfold cleared. assert (has t m a V L (bump s)) as HB by exact H.
  destruct (if nb alias then by_main alias (bump s) else None) as [e|] eqn:B; [|exact HB]. destruct (nb alias) eqn:NB; [|discriminate].
  apply by_main_some in B. apply has_delete; [now apply wf_bump|tauto| |exact HB]. intro E. destruct B as [_ B]. assert (alias = m) as Q by congruence. pose proof (N Q). congruence.
Qed.
Lemma has_alias : forall t m a V L vd nb s main alias vt s' l, wf s -> 1 <= vt < 536870912 -> t - 536870912 <= L -> (alias = m -> nb m = false) ->
  has t m a V L s -> insert_alias vd nb (u32 t) s main alias vt = Some (s', l) -> has t m a V L s'.
Proof.
  intros t m a V L vd nb s main alias vt s' l W HV HL N H IA. rewrite insert_alias_eq in IA. destruct (vd alias); cbn [negb] in IA; [|inversion IA; now subst].
  destruct (insert_tuple _ _ _ _ _ _) as [[s3 l3]|] eqn:IT; [|discriminate]. inversion IA; subst. eapply has_insert; [exact HV|exact HL| |exact IT]. now apply has_cleared.
Qed.
Lemma alias_has : forall t vd nb s main alias vt s' l, wf s -> 1 <= vt < 536870912 -> each (tmQ t) s -> (forall m, ~ listed s m alias) -> vd alias = true ->
  insert_alias vd nb (u32 t) s main alias vt = Some (s', l) -> has t main alias (fun _ => True) (t + vt) s'.
Proof.
  intros t vd nb s main alias vt s' l W HV HE NL VD IA. rewrite insert_alias_eq, VD in IA. cbn [negb] in IA.
  pose proof (wf_cleared nb alias s W) as (C1 & C2 & C3 & C4 & _).
  destruct (insert_tuple _ _ _ _ _ _) as [[s3 l3]|] eqn:IT; [|discriminate]. inversion IA; subst. eapply insert_has; [exact C1|exact HV| | |exact IT].
  - now apply each_cleared.
  - intros m L. apply (NL m). now apply C4.
Qed.
Lemma has_loop : forall t m a V L own vd nb main vt l s s' l', wf s -> 1 <= vt < 536870912 -> t - 536870912 <= L -> (In m l -> nb m = false) ->
  has t m a V L s -> input_loop own vd nb (u32 t) main vt l s = Some (s', l') -> has t m a V L s'.
Proof.
  intros t m a V L own vd nb main vt l. induction l as [|x r IH]; intros s s' l' W HV HL N H IL; cbn [input_loop] in IL; [inversion IL; now subst|].
  assert (In m r -> nb m = false) as Nr by (intro Q; apply N; now right).
  destruct (own x); [eapply IH; eauto|]. destruct (lookup_listed s x W) as (o & LM & LK). rewrite LM in IL. destruct o as [m0|].
  - destruct (input_loop own vd nb (u32 t) main vt r s) as [[s1 l1]|] eqn:E; inversion IL; subst. eapply IH; eauto.
  - destruct (wf_alias vd nb (u32 t) s main x vt W) as (s1 & l1 & A1 & W1 & _). { intros q L0. apply LK in L0. discriminate. }
    assert (has t m a V L s1) as H1. { eapply has_alias; [exact W|exact HV|exact HL| |exact H|exact A1]. intros ->. apply N. now left. }
    rewrite A1 in IL. destruct (input_loop own vd nb (u32 t) main vt r s1) as [[s2 l2]|] eqn:E; inversion IL; subst. eapply IH; eauto.
Qed.
Lemma loop_has : forall t a own vd nb main vt l s s' l', wf s -> 1 <= vt < 536870912 -> each (tmQ t) s -> (In main l -> nb main = false) ->
  In a l -> ((forall m, ~ listed s m a) /\ own a = false /\ vd a = true) \/ has t main a (fun _ => True) (t + vt) s ->
  input_loop own vd nb (u32 t) main vt l s = Some (s', l') -> has t main a (fun _ => True) (t + vt) s'.
Proof.
  intros t a own vd nb main vt l. induction l as [|x r IH]; intros s s' l' W HV HE N Ia H IL; [easy|].
  destruct H as [(H & HO & VD)|H]; [|eapply has_loop; [exact W|exact HV| |exact N|exact H|exact IL]; lia].
  cbn [input_loop] in IL. assert (In main r -> nb main = false) as Nr by (intro Q; apply N; now right).
  destruct (own x) eqn:OX. { destruct Ia as [->|Ia]; [congruence|]. eapply IH; eauto. }
  destruct (lookup_listed s x W) as (o & LM & LK). rewrite LM in IL. destruct o as [m0|].
  - destruct Ia as [->|Ia]. { exfalso. apply (H m0). now apply LK. }
    destruct (input_loop own vd nb (u32 t) main vt r s) as [[s1 l1]|] eqn:E; inversion IL; subst. eapply IH; eauto.
  - destruct (wf_alias vd nb (u32 t) s main x vt W) as (s1 & l1 & A1 & W1 & _ & _ & L1 & _). { intros q L0. apply LK in L0. discriminate. }
    pose proof (each_alias _ _ _ _ _ _ _ _ _ _ W (tmQ_set t vt main HV) HE A1) as HE1. rewrite A1 in IL.
    destruct (input_loop own vd nb (u32 t) main vt r s1) as [[s2 l2]|] eqn:E; inversion IL; subst.
    destruct (Z.eq_dec x a) as [->|NX].
    + assert (has t main a (fun _ => True) (t + vt) s1) as HA by exact (alias_has _ _ _ _ _ _ _ _ _ W HV HE H VD A1). eapply has_loop; [exact W1|exact HV| |exact Nr|exact HA|exact E]. lia.
    + destruct Ia as [Ia|Ia]; [congruence|]. eapply IH; eauto. left. split; [|auto]. intros q Lq. destruct (L1 _ _ Lq) as [Q|[_ Q]]; [now apply (H q)|congruence].
Qed.
Lemma has_prune : forall t m a V L main vt d s, wf s -> has t m a V L s ->
  (main = m -> ~ In a d -> d <> [] /\ forall v, V v -> isTimedOut (u32 t) v = false) ->
  has t m a (fun v => if (main =? m) && existsb (Z.eqb a) d then v = getTimestamp (u32 t) vt else V v) L (fst (prune (u32 t) main vt d s)).
Proof.
  intros t m a V L main vt d s W (e & x & D & H1 & H2 & H3 & H4 & H5 & H6 & H7) K. unfold prune. destruct (by_main main s) as [e0|] eqn:B.
  - apply by_main_some in B. destruct B as [I0 M0]. destruct (prune_loop (u32 t) vt d (e_ali e0)) as [k g] eqn:PL. pose proof (prune_loop_spec _ _ _ _ _ _ PL) as (PK & _).
    pose proof (upd_ent_in (e_id e0) (set_ali k) _ _ H1) as I. destruct (Z.eq_dec main m) as [->|N].
    + assert (e0 = e) as -> by (apply (inj_nodup _ _ e_main (ents s)); [apply (w_main _ W)|auto|auto|congruence]). rewrite Z.eqb_refl in *. cbn [andb].
      destruct (existsb (Z.eqb a) d) eqn:X.
      * exists (set_ali k e), (mkA (a_id x) (a_addr x) (getTimestamp (u32 t) vt)), D. cbn. repeat split; auto; try lia. apply PK. exists x. split; [exact H5|].
        unfold prune1. now rewrite H6, X.
      * exists (set_ali k e), x, D. cbn. repeat split; auto; try lia. apply PK. exists x. split; [exact H5|]. unfold prune1. rewrite H6, X.
        destruct K as [K1 K2]; [reflexivity|now rewrite <- existsb_in, X|]. rewrite (K2 _ H7). cbn [negb andb]. destruct d; [congruence|reflexivity].
    + replace (main =? m) with false by lia. cbn [andb]. exists e, x, D. replace (e_id e =? e_id e0) with false in I; [cbn; auto 9|].
      symmetry. apply Z.eqb_neq. intro E. apply N. rewrite <- M0, <- H2. f_equal. apply (inj_nodup _ _ e_id (ents s)); [apply (w_eid _ W)|auto..].
  - cbn [fst]. replace (main =? m) with false. { exists e, x, D. auto 9. } symmetry. apply Z.eqb_neq. intros ->. now apply (by_main_none _ _ B e H1).
Qed.
Lemma each_heard_tm : forall slack h t s, 0 <= slack <= 536870912 -> each (heardQ slack h t) s -> each (tmQ t) s.
Proof. intros slack h t s HS H e I. destruct (H e I) as (D & x & tk & vk & E1 & _ & _ & _ & E5). exists D. split; [exact E1|lia]. Qed.

Definition kept (m a : Z) (h : list (Z * mstate * mev)) (t : Z) (s : mstate) : Prop :=
  forall t0 v, declared m a h = Some (t0, v) -> t0 <= t /\ 1 <= v < 536870912 /\ (t < t0 + v -> has t m a (fun x => x = u32 (t0 + v)) (t0 + v) s).

Lemma kept_step : forall slack m a h t0 s t e s' l, 0 <= slack <= 536870912 -> wf s -> each (heardQ slack h t) s -> mevent_ok e ->
  t0 <= t -> mpossible (u32 t) s e = true -> mstep (u32 t) s e = Some (s', l) -> kept m a h t0 s -> kept m a (h ++ [(t, s, e)]) t s'.
Proof.
  intros slack m a h t0 s t e s' l HS W HE OK HT PO ST KP t1 v HD. apply each_heard_tm in HE; [|exact HS].
  unfold declared in HD. rewrite fold_left_app in HD. cbn [fold_left] in HD. fold (declared m a h) in HD.
  (* what an event that leaves the declaration alone has to show *)
  assert (forall u w, declared m a h = Some (u, w) -> u <= t /\ 1 <= w < 536870912 /\ (t < u + w -> has t m a (fun x => x = u32 (u + w)) (u + w) s)) as KT.
  { intros u w E. destruct (KP u w E) as (K1 & K2 & K3). split; [lia|]. split; [exact K2|]. intro Q. eapply has_later; [exact HT|]. apply K3. lia. }
  assert (declared m a h = Some (t1, v) -> (has t m a (fun x => x = u32 (t1 + v)) (t1 + v) s -> t < t1 + v -> t1 + v <= t + 536870912 -> has t m a (fun x => x = u32 (t1 + v)) (t1 + v) s') ->
    t1 <= t /\ 1 <= v < 536870912 /\ (t < t1 + v -> has t m a (fun x => x = u32 (t1 + v)) (t1 + v) s')) as FIN.
  { intros E Q. destruct (KT _ _ E) as (K1 & K2 & K3). split; [exact K1|]. split; [exact K2|]. intro Z0. apply Q; auto. lia. }
  clear KP. destruct e as [own vd nb sym main vt al|vd nb src from vt|i|x|]; cbn [declare1 mstep mevent_ok] in *.
  - unfold input_mid in ST. destruct (vd main) eqn:VM; cbn [negb orb] in *; [|inversion ST; subst s' l; apply FIN; auto].
    destruct sym; cbn [negb] in *; [|inversion ST; subst s' l; apply FIN; auto].
    destruct (existsb (Z.eqb m) al && nb m) eqn:NB; [discriminate|].
    assert (In m al -> nb m = false) as NBM. { intro Q. apply existsb_in in Q. rewrite Q in NB. exact NB. }
    pose proof (wf_update (u32 t) main vt s W) as [W0 L0]. pose proof (each_update _ _ _ _ _ W (tmQ_set t vt main OK) HE) as HE0.
    destruct (wf_loop own vd nb (u32 t) main vt al _ W0) as (s1 & l1 & IL & W1 & _). rewrite IL in ST.
    pose proof (has_prune t m a) as HP. destruct (prune (u32 t) main vt al s1) as [s2 l2] eqn:PR. inversion ST; subst s' l; clear ST.
    assert (declared m a h = Some (t1, v) -> (main = m -> ~ In a al -> al <> []) -> has t m a (fun x => x = u32 (t1 + v)) (t1 + v) s -> t < t1 + v -> t1 + v <= t + 536870912 ->
       has t m a (fun x => if (main =? m) && existsb (Z.eqb a) al then x = u32 (t + vt) else x = u32 (t1 + v)) (t1 + v) s2) as OLD.
    { intros E NE H Q1 Q2. replace s2 with (fst (prune (u32 t) main vt al s1)) by now rewrite PR.
      replace (u32 (t + vt)) with (getTimestamp (u32 t) vt) by (unfold getTimestamp; apply u32_u32_add).
      apply (HP (fun x => x = u32 (t1 + v))); [exact W1| |].
      - eapply has_loop; [exact W0|exact OK| |exact NBM| |exact IL]; [lia|]. apply has_update; [exact OK|lia|exact H].
      - intros E1 E2. split; [now apply NE|]. intros x ->. rewrite due_iff by lia. lia. }
    destruct (main =? m) eqn:MM.
    + assert (main = m) by lia. subst main. destruct al as [|al0 alr] eqn:AL; [discriminate|]. rewrite <- AL in *.
      destruct (existsb (Z.eqb a) al && match lookup_main a s with Some (Some x) => x =? m | Some None => negb (own a) && vd a | None => false end) eqn:G.
      * inversion HD; subst t1 v; clear HD. split; [lia|]. split; [exact OK|]. intros _.
        apply andb_prop in G. destruct G as [GI GL].
        replace s2 with (fst (prune (u32 t) m vt al s1)) by now rewrite PR.
        eapply has_weak; [| |apply (HP (fun _ => True) (t + vt)); [exact W1| |]].
        -- intros x. cbn beta. rewrite Z.eqb_refl, GI. cbn [andb]. unfold getTimestamp. now rewrite u32_u32_add.
        -- lia.
        -- eapply loop_has; [exact W0|exact OK|exact HE0|exact NBM|now apply existsb_in| |exact IL].
           destruct (lookup_main a s) as [[q|]|] eqn:LM; [|left|discriminate].
           ++ right. assert (q = m) as -> by lia. apply has_update_raise; [exact W|exact OK|exact HE|]. now apply (lookup_main_eq _ _ _ W LM).
           ++ apply andb_prop in GL. destruct GL as [G1 G2]. split; [|split; [now apply negb_true_iff|exact G2]].
              intros q Lq. apply L0 in Lq. apply (lookup_main_eq _ _ _ W LM) in Lq. discriminate.
        -- intros _ Q. exfalso. apply Q. now apply existsb_in.
      * apply FIN; [exact HD|]. intros H Q1 Q2. cbn [andb] in OLD. specialize (OLD HD ltac:(subst; discriminate) H Q1 Q2).
        destruct (existsb (Z.eqb a) al) eqn:GI; [|exact OLD].
        exfalso. apply has_listed in H. destruct (lookup_listed s a W) as (o & LM & LK). apply LK in H. subst o. rewrite LM, Z.eqb_refl in G. discriminate.
    + apply FIN; [exact HD|]. intros H Q1 Q2. cbn [andb] in OLD. apply OLD; auto. lia.
  - destruct ((from =? m) && nb m) eqn:NB; [discriminate|]. apply FIN; [exact HD|]. intros H Q1 Q2. unfold hello_alias in ST.
    destruct (_ || _); [inversion ST; now subst|]. destruct (lookup_main from s) as [o|]; [|discriminate].
    destruct (match o with None => true | Some q => src =? q end); [|inversion ST; now subst].
    eapply has_alias; [exact W|exact OK| | |exact H|exact ST]; [lia|]. intros ->. rewrite Z.eqb_refl in NB. exact NB.
  - apply FIN; [exact HD|]. intros H Q1 Q2. cbn [mpossible] in PO. unfold expire_mid in ST. destruct (find _ (ents s)) as [e|] eqn:F; [|discriminate].
    apply find_some in F. destruct F as [Ie Ei]. apply Some_inj in ST. replace s' with (fst (delete_entry e s)) by now rewrite ST.
    apply has_delete; [exact W|exact Ie| |exact H]. intro M. destruct H as (e1 & x & D & H1 & H2 & H3 & H4 & _).
    assert (e1 = e) as -> by (apply (inj_nodup _ _ e_main (ents s)); [apply (w_main _ W)|auto|auto|congruence]). rewrite H3 in PO. rewrite due_iff in PO by lia. lia.
  - destruct (x =? m) eqn:XM; [discriminate|]. apply FIN; [exact HD|]. intros H Q1 Q2. unfold cleanup in ST. destruct (by_main x s) as [e|] eqn:B; [|inversion ST; now subst].
    apply by_main_some in B. apply Some_inj in ST. replace s' with (fst (delete_entry e s)) by now rewrite ST. apply has_delete; [exact W|tauto| |exact H]. lia.
  - discriminate.
Qed.

Lemma trun_kept : forall slack h t s m a, 0 <= slack <= 536870912 -> trun slack h t s -> kept m a h t s.
Proof.
  intros slack h t s m a HS R. induction R as [t T|h t0 s t e s' l R IH T OK PR PO ST]; [intros t0 v HD; discriminate|].
  destruct (trun_heard _ _ _ _ HS R) as [W H]. apply (heard_later _ _ _ _ _ HS T PR) in H.
  apply (kept_step slack m a h t0 s t e s' l); [exact HS|exact W|exact H|exact OK|lia|exact PO|exact ST|exact IH].
Qed.
Lemma alias_lower : forall slack h t s m a t0 v, 0 <= slack <= 536870912 -> tstate slack h t s -> declared m a h = Some (t0, v) -> t < t0 + v ->
  lookup_main a s = Some (Some m).
Proof.
  intros slack h t s m a t0 v HS (t1 & R & T & PR) HD Q. destruct (trun_kept _ _ _ _ m a HS R t0 v HD) as (_ & _ & K). specialize (K ltac:(lia)).
  destruct (trun_heard _ _ _ _ HS R) as [W _]. apply has_listed in K. destruct (lookup_listed s a W) as (o & LM & LK). apply LK in K. now subst.
Qed.

(** ** the aliases a MID message does not list *)
Definition eacha (Q : Z -> Z -> Z -> Prop) (s : mstate) : Prop := forall e x, In e (ents s) -> In x (e_ali e) -> Q (e_main e) (a_addr x) (a_vtime x).
Lemma eacha_delete : forall Q s e, eacha Q s -> eacha Q (fst (delete_entry e s)).
Proof. intros Q s e H x y I. cbn in I. apply filter_In in I. now apply H. Qed.
Lemma eacha_timer : forall Q now vt i s, eacha Q s -> eacha Q (mkM (upd_ent i (set_mid_timer now vt) (ents s)) (revs s) (mfresh s)).
Proof.
  intros Q now vt i s H e x I J. cbn in I. apply in_upd_ent in I. destruct I as (y & I & [[E ->]|[E ->]]); [|now apply H].
  destruct (set_mid_timer_same now vt y) as (F1 & F2 & F3). rewrite F2. rewrite F3 in J. now apply H.
Qed.
Lemma eacha_update : forall Q now main vt s, eacha Q s -> eacha Q (update_table now main vt s).
Proof. intros Q now main vt s H. unfold update_table. destruct (by_main main s); [now apply eacha_timer|exact H]. Qed.
Lemma eacha_insert : forall (Q : Z -> Z -> Z -> Prop) now s main i alias vt s' l, wf s -> Q main alias 0 -> eacha Q s -> insert_tuple now s main i alias vt = Some (s', l) -> eacha Q s'.
Proof.
  intros Q now s main i alias vt s' l W S H IT. unfold insert_tuple in IT. destruct (lookup_main alias s) as [o|]; [|discriminate].
  destruct (match o with Some m => m =? main | None => false end); [inversion IT; now subst|].
  destruct (by_main main s) as [e|] eqn:B; inversion IT; subst; clear IT; intros x z I J; cbn [ents] in I.
  - apply by_main_some in B. apply in_upd_ent in I. destruct I as (y & I & [[E ->]|[E ->]]); [|now apply H].
    destruct (set_mid_timer_same now vt (set_ali (mkA i alias 0 :: e_ali y) y)) as (F1 & F2 & F3). rewrite F2. rewrite F3 in J. cbn [e_main set_ali e_ali] in *.
    assert (y = e) as -> by (apply (inj_nodup _ _ e_id (ents s)); [apply (w_eid _ W)|tauto..]). destruct J as [<-|J]; [cbn; now rewrite (proj2 B)|now apply H].
  - destruct I as [<-|I]; [|now apply H]. destruct (set_mid_timer_same now vt (mkE (mfresh s) main [mkA i alias 0] None)) as (F1 & F2 & F3). rewrite F2. rewrite F3 in J.
    destruct J as [<-|[]]. exact S.
Qed.
Lemma eacha_alias : forall (Q : Z -> Z -> Z -> Prop) vd nb now s main alias vt s' l, wf s -> Q main alias 0 -> eacha Q s -> insert_alias vd nb now s main alias vt = Some (s', l) -> eacha Q s'.
Proof.
  intros Q vd nb now s main alias vt s' l W S H IA. rewrite insert_alias_eq in IA. destruct (vd alias); cbn [negb] in IA; [|inversion IA; now subst].
  destruct (insert_tuple _ _ _ _ _ _) as [[s3 l3]|] eqn:IT; [|discriminate]. inversion IA; subst. eapply eacha_insert; [|exact S| |exact IT].
  - now apply wf_cleared.
  - unfold cleared. destruct (if nb alias then _ else _); [|exact H]. now apply eacha_delete.
Qed.
Lemma eacha_loop : forall (Q : Z -> Z -> Z -> Prop) own vd nb now main vt l s s' l', wf s -> (forall a, Q main a 0) -> eacha Q s -> input_loop own vd nb now main vt l s = Some (s', l') -> eacha Q s'.
Proof.
  intros Q own vd nb now main vt l. induction l as [|x r IH]; intros s s' l' W S H IL; cbn [input_loop] in IL; [inversion IL; now subst|].
  destruct (own x); [eauto|]. destruct (lookup_listed s x W) as (o & LM & LK). rewrite LM in IL. destruct o as [m0|].
  - destruct (input_loop own vd nb now main vt r s) as [[s1 l1]|] eqn:E; inversion IL; subst. eauto.
  - destruct (wf_alias vd nb now s main x vt W) as (s1 & l1 & A1 & W1 & _). { intros m L. apply LK in L. discriminate. }
    pose proof (eacha_alias _ _ _ _ _ _ _ _ _ _ W (S x) H A1) as H1. rewrite A1 in IL.
    destruct (input_loop own vd nb now main vt r s1) as [[s2 l2]|] eqn:E; inversion IL; subst. eauto.
Qed.
(** after pruning, the aliases of the sender were listed or are not timed out *)
Lemma eacha_prune : forall (Q : Z -> Z -> Z -> Prop) now main vt d s, wf s -> eacha Q s -> (forall a, In a d -> Q main a (getTimestamp now vt)) ->
  eacha (fun m a v => Q m a v /\ (m = main -> In a d \/ isTimedOut now v = false)) (fst (prune now main vt d s)).
Proof.
  intros Q now main vt d s W H S. unfold prune. destruct (by_main main s) as [e|] eqn:B.
  - apply by_main_some in B. destruct B as [I0 M0]. destruct (prune_loop now vt d (e_ali e)) as [k g] eqn:PL. pose proof (prune_loop_spec _ _ _ _ _ _ PL) as (PK & _).
    intros x z I J. cbn in I. apply in_upd_ent in I. destruct I as (y & I & [[E ->]|[E ->]]).
    + assert (y = e) as -> by (apply (inj_nodup _ _ e_id (ents s)); [apply (w_eid _ W)|auto..]). cbn in J |- *. apply PK in J. destruct J as (w & Iw & P).
      unfold prune1 in P. destruct (existsb (Z.eqb (a_addr w)) d) eqn:X.
      * inversion P; subst z. cbn. apply existsb_in in X. rewrite M0. auto.
      * destruct (negb (isTimedOut now (a_vtime w)) && _) eqn:G; [|discriminate]. inversion P; subst z. split; [now apply H|]. intros _. right.
        apply andb_prop in G. now apply negb_true_iff.
    + split; [now apply H|]. intro C. exfalso. apply E. f_equal. apply (inj_nodup _ _ e_main (ents s)); [apply (w_main _ W)|auto|auto|congruence].
  - intros x z I J. split; [now apply H|]. intro C. exfalso. now apply (by_main_none _ _ B x I).
Qed.
Lemma eacha_impl : forall (Q R : Z -> Z -> Z -> Prop) s, (forall m a v, Q m a v -> R m a v) -> eacha Q s -> eacha R s.
Proof. intros Q R s HI H e x I J. apply HI. now apply H. Qed.

Definition declQ (h : list (Z * mstate * mev)) (t m a v : Z) : Prop :=
  v = 0 \/ exists x tk vk, In x h /\ declares m a x = Some (tk, vk) /\ 0 <= tk <= t /\ 1 <= vk < 536870912 /\ v = u32 (tk + vk).
Lemma declQ_mono : forall h h' t t' m a v, (forall x, In x h -> In x h') -> t <= t' -> declQ h t m a v -> declQ h' t' m a v.
Proof. intros h h' t t' m a v HI HT [->|(x & tk & vk & H1 & H2 & H3 & H4 & H5)]; [now left|right]. exists x, tk, vk. repeat split; auto; lia. Qed.
Lemma decl_step : forall h t0 t s e s' l, wf s -> mevent_ok e -> 0 <= t0 <= t -> mpossible (u32 t) s e = true -> mstep (u32 t) s e = Some (s', l) ->
  eacha (declQ h t0) s ->
  eacha (declQ (h ++ [(t, s, e)]) t) s' /\
  match e with
  | MMsg own vd nb sym main vt al => vd main = true -> sym = true ->
      eacha (fun m a v => declQ (h ++ [(t, s, e)]) t m a v /\ (m = main -> In a al \/ isTimedOut (u32 t) v = false)) s'
  | _ => True
  end.
Proof.
  intros h t0 t s e s' l W OK HT PO ST H0.
  assert (eacha (declQ (h ++ [(t, s, e)]) t) s) as H.
  { eapply eacha_impl; [|exact H0]. intros m a v. apply declQ_mono; [|lia]. intros x I. apply in_app_iff. now left. }
  clear H0. destruct e as [own vd nb sym main vt al|vd nb src from vt|i|x|]; cbn [mstep mevent_ok] in *.
  - unfold input_mid in ST. destruct (vd main) eqn:VM; cbn [negb] in ST; [|inversion ST; subst; split; [exact H|discriminate]].
    destruct sym; cbn [negb] in ST; [|inversion ST; subst; split; [exact H|discriminate]].
    pose proof (wf_update (u32 t) main vt s W) as [W0 L0].
    destruct (wf_loop own vd nb (u32 t) main vt al _ W0) as (s1 & l1 & IL & W1 & _). rewrite IL in ST.
    pose proof (eacha_loop (declQ (h ++ [(t, s, MMsg own vd nb true main vt al)]) t) own vd nb (u32 t) main vt al _ _ _ W0 ltac:(now left) (eacha_update _ _ _ _ _ H) IL) as H1.
    pose proof (eacha_prune _ (u32 t) main vt al s1 W1 H1) as H2. destruct (prune (u32 t) main vt al s1) as [s2 l2]. inversion ST; subst s' l; clear ST. cbn [fst] in H2.
    assert (eacha (fun m a v => declQ (h ++ [(t, s, MMsg own vd nb true main vt al)]) t m a v /\ (m = main -> In a al \/ isTimedOut (u32 t) v = false)) s2) as H3.
    { apply H2. intros a Ia. right. exists (t, s, MMsg own vd nb true main vt al), t, vt. split; [apply in_app_iff; right; now left|].
      cbn [declares]. rewrite Z.eqb_refl, VM, (proj2 (existsb_in a al) Ia). cbn. repeat split; try lia. unfold getTimestamp. now rewrite u32_u32_add. }
    split; [|intros _ _; exact H3]. eapply eacha_impl; [|exact H3]. cbn beta. tauto.
  - split; [|exact Logic.I]. unfold hello_alias in ST. destruct (_ || _); [inversion ST; now subst|]. destruct (lookup_main from s) as [o|]; [|discriminate].
    destruct (match o with None => true | Some q => src =? q end); [|inversion ST; now subst]. eapply eacha_alias; [exact W|now left|exact H|exact ST].
  - split; [|exact Logic.I]. unfold expire_mid in ST. destruct (find _ (ents s)) as [e|] eqn:F; [|discriminate]. apply Some_inj in ST. replace s' with (fst (delete_entry e s)) by now rewrite ST. now apply eacha_delete.
  - split; [|exact Logic.I]. unfold cleanup in ST. destruct (by_main x s) as [e|] eqn:F; [|inversion ST; now subst]. apply Some_inj in ST. replace s' with (fst (delete_entry e s)) by now rewrite ST. now apply eacha_delete.
  - split; [|exact Logic.I]. unfold delete_all in ST. apply Some_inj in ST. replace s' with (fst (delete_list (ents s) s)) by now rewrite ST. clear ST W PO. set (hh := h ++ _) in *. clearbody hh.
    generalize (ents s) at 1. revert s H. intros s H l0. revert s H. induction l0 as [|e r IH]; intros s H; [exact H|]. cbn [delete_list].
    pose proof (eacha_delete _ s e H) as H1. destruct (delete_entry e s) as [s1 l1]. specialize (IH s1 H1). destruct (delete_list r s1). exact IH.
Qed.
Lemma trun_time : forall slack h t s, trun slack h t s -> 0 <= t.
Proof. intros slack h t s R. induction R; lia. Qed.
Lemma trun_decl : forall slack h t s, 0 <= slack <= 536870912 -> trun slack h t s -> eacha (declQ h t) s.
Proof.
  intros slack h t s HS R. induction R as [t T|h t0 s t e s' l R IH T OK PR PO ST]; [easy|].
  destruct (trun_heard _ _ _ _ HS R) as [W _]. pose proof (trun_time _ _ _ _ R). eapply decl_step; eauto. lia.
Qed.
(** after a MID message of [m] that does not list [a], [a] is taken for its alias only while an
    earlier message declaring it is valid; for the first 24 days the clock runs *)
Lemma alias_pruned : forall slack h t s m a own vd nb vt al s0, 0 <= slack <= 536870912 -> trun slack (h ++ [(t, s0, MMsg own vd nb true m vt al)]) t s ->
  0 < t < 2147483648 -> vd m = true -> ~ In a al -> lookup_main a s = Some (Some m) ->
  exists x tk vk, In x h /\ declares m a x = Some (tk, vk) /\ t < tk + vk.
Proof.
  intros slack h t s m a own vd nb vt al s0 HS R HT VM NI LM. inversion R as [t3 T3 EH0 Et0 Es0|h1 t1 s1 t2 e1 s2 l2 R1 T1 OK1 PR1 PO1 ST1 EH Et Es].
  { apply (f_equal (@length _)) in EH0. rewrite app_length in EH0. cbn in EH0. lia. }
  subst t2 s2. apply app_inj_tail in EH. destruct EH as [-> EX]. inversion EX; subst s1 e1; clear EX.
  destruct (trun_heard _ _ _ _ HS R1) as [W1 _]. pose proof (trun_decl _ _ _ _ HS R1) as HD.
  pose proof (trun_time _ _ _ _ R1). destruct (decl_step h t1 t s0 _ s l2 W1 OK1 ltac:(lia) PO1 ST1 HD) as [_ K]. specialize (K VM eq_refl).
  destruct (trun_heard _ _ _ _ HS R) as [W _]. pose proof (proj1 (lookup_main_eq s a (Some m) W LM m) eq_refl) as (e & I & M & L).
  apply in_map_iff in L. destruct L as (x & A & L). destruct (K e x I L) as [Q1 Q2]. rewrite M, A in *. destruct (Q2 eq_refl) as [Q|Q]; [tauto|].
  destruct Q1 as [Q1|(y & tk & vk & Iy & Dy & B1 & B2 & E)].
  - rewrite Q1 in Q. replace 0 with (u32 0) in Q by reflexivity. rewrite due_iff in Q by lia. lia.
  - apply in_app_iff in Iy. destruct Iy as [Iy|[<-|[]]].
    + exists y, tk, vk. split; [exact Iy|]. split; [exact Dy|]. rewrite E in Q. destruct (Z_lt_dec t (tk + vk)); [assumption|exfalso].
      rewrite due_iff in Q by lia. lia.
    + exfalso. cbn [declares] in Dy. rewrite <- existsb_in in NI. destruct (existsb (Z.eqb a) al); [tauto|]. rewrite andb_false_r in Dy. discriminate.
Qed.

(** Parsing of MID messages; running the MID set on concrete event lists, for witnesses and examples. *)
From Verif Require Import Base SchedTime Bytes Mantissa Mid MidSpec.

(** ** parsing *)
Definition chunk (b : list Z) (off alen : Z) (k : nat) : list Z := slice b (off + alen * Z.of_nat k) alen.
Lemma mid_read_ok : forall alen b n off acc, 0 <= off -> 0 < alen -> off + alen * Z.of_nat n <= blen b ->
  mid_read alen b off n acc = Some (rev (map (chunk b off alen) (seq 0 n)) ++ acc).
Proof.
  intros alen b n. induction n as [|n IH]; intros off acc H1 H2 H3; [reflexivity|]. cbn [mid_read]. rewrite Nat2Z.inj_succ in H3.
  assert (alen * Z.succ (Z.of_nat n) = alen + alen * Z.of_nat n) as E by ring. assert (0 <= alen * Z.of_nat n) as P by (apply Z.mul_nonneg_nonneg; lia).
  rewrite rdn_some by lia. rewrite IH by lia. cbn [seq map rev]. rewrite <- seq_shift, map_map. f_equal. rewrite <- app_assoc. cbn [app]. f_equal.
  - f_equal. apply map_ext. intro k. unfold chunk. f_equal. rewrite Nat2Z.inj_succ. ring.
  - f_equal. unfold chunk. f_equal. cbn. ring.
Qed.
Lemma parse_ok : forall v6 b size, rd16 b 2 = Some size -> header v6 <= size <= blen b ->
  mid_count v6 size = (size - header v6) / addr_len v6 ->
  mid_chgestruct v6 b = Some (slice b 4 (addr_len v6), me_to_reltime (be (slice b 1 1)), rev (body v6 b size)).
Proof.
  intros v6 b size R H C. unfold mid_chgestruct. rewrite R, C. unfold rd8. 
  change (if v6 then 16 else 4) with (addr_len v6). change (if v6 then 24 else 12) with (header v6).
  assert (0 < addr_len v6 /\ 4 + addr_len v6 <= header v6 /\ 2 <= header v6) as (A1 & A2 & A3) by (destruct v6; cbn; lia).
  rewrite rdn_some by lia. cbn [option_map]. rewrite rdn_some by lia.
  rewrite mid_read_ok; [|lia|lia|].
  - rewrite app_nil_r. reflexivity.
  - rewrite Z2Nat.id by (apply Z.div_pos; lia). pose proof (Z.mul_div_le (size - header v6) (addr_len v6) ltac:(lia)). lia.
Qed.

(** ** executors *)
Definition mevent_okb (e : mev) : bool :=
  match e with
  | MMsg own vd nb sym main vt al => (1 <=? vt) && (vt <? 536870912)
  | MHello vd nb src from vt => (1 <=? vt) && (vt <? 536870912)
  | _ => true
  end.
Definition mpromptb (slack t : Z) (s : mstate) : bool :=
  forallb (fun e => match e_timer e with Some x => negb (isTimedOut (u32 t) x) || (u32 (u32 t - x) <=? slack) | None => true end) (ents s).
Fixpoint texec (slack : Z) (h : list (Z * mstate * mev)) (t : Z) (s : mstate) (evs : list (Z * mev)) : option (list (Z * mstate * mev) * Z * mstate) :=
  match evs with
  | [] => Some (h, t, s)
  | (t', e) :: r =>
      if (t <=? t') && (t' <? t + 536870912) && mevent_okb e && mpromptb slack t' s && mpossible (u32 t') s e
      then match mstep (u32 t') s e with Some (s', _) => texec slack (h ++ [(t', s, e)]) t' s' r | None => None end
      else None
  end.
Fixpoint mexec (log : list reff) (s : mstate) (evs : list (Z * mev)) : option (list reff * mstate) :=
  match evs with
  | [] => Some (log, s)
  | (now, e) :: r =>
      if (0 <=? now) && (now <? 4294967296) && mpossible now s e
      then match mstep now s e with Some (s', l) => mexec (log ++ l) s' r | None => None end
      else None
  end.
Lemma mevent_okb_ok : forall e, mevent_okb e = true -> mevent_ok e.
Proof. intros [own vd nb sym main vt al|vd nb src from vt|i|x|] H; cbn in *; auto; lia. Qed.
Lemma mpromptb_ok : forall slack t s, mpromptb slack t s = true -> mprompt slack t s.
Proof.
  intros slack t s H. unfold mpromptb in H. rewrite forallb_forall in H. apply Forall_forall. intros e I. specialize (H e I). cbv beta in H.
  destruct (e_timer e); [|exact Logic.I]. intro T. rewrite T in H. cbn in H. lia.
Qed.
Lemma texec_run : forall slack evs h t s h' t' s', trun slack h t s -> texec slack h t s evs = Some (h', t', s') -> trun slack h' t' s'.
Proof.
  intros slack evs. induction evs as [|[t1 e] r IH]; intros h t s h' t' s' R H; cbn [texec] in H.
  - inversion H; subst. exact R.
  - destruct (_ && mpossible (u32 t1) s e) eqn:Q; [|discriminate].
    repeat (apply andb_true_iff in Q; destruct Q as [Q ?]). destruct (mstep (u32 t1) s e) as [[s1 l1]|] eqn:E; [|discriminate].
    apply IH in H; [exact H|]. eapply trun1; eauto; [lia|now apply mevent_okb_ok|now apply mpromptb_ok].
Qed.
Lemma texec_at : forall slack evs t h t' s' t2, 0 <= t -> texec slack [] t minit evs = Some (h, t', s') ->
  (t' <=? t2) && (t2 <? t' + 536870912) && mpromptb slack t2 s' = true -> tstate slack h t2 s'.
Proof.
  intros slack evs t h t' s' t2 Ht E Q. repeat (apply andb_true_iff in Q; destruct Q as [Q ?]). exists t'.
  split; [eapply texec_run; [apply (trun0 slack t Ht)|exact E]|]. split; [lia|now apply mpromptb_ok].
Qed.
Lemma mexec_run : forall (ok : mev -> Prop) evs log s log' s', Forall (fun x => ok (snd x)) evs -> mrun ok log s -> mexec log s evs = Some (log', s') -> mrun ok log' s'.
Proof.
  intros ok evs. induction evs as [|[now e] r IH]; intros log s log' s' F R H; cbn [mexec] in H.
  - inversion H; subst. exact R.
  - inversion F as [|? ? F1 F2]; subst. destruct (_ && mpossible now s e) eqn:Q; [|discriminate].
    repeat (apply andb_true_iff in Q; destruct Q as [Q ?]). destruct (mstep now s e) as [[s1 l1]|] eqn:E; [|discriminate].
    apply IH in H; [exact H|exact F2|]. eapply mrun1; eauto. lia.
Qed.
Lemma any_forall : forall evs : list (Z * mev), Forall (fun x => any_event (snd x)) evs.
Proof. intro evs. apply Forall_forall. intros x _. exact Logic.I. Qed.

Definition honestb (owner : Z -> Z) (e : mev) : bool :=
  match e with
  | MMsg own vd nb sym main vt al => (owner main =? main) && forallb (fun a => (owner a =? main) && negb (a =? main)) al
  | MHello vd nb src from vt => (owner src =? src) && (owner from =? src)
  | _ => true
  end.
Lemma honestb_ok : forall owner (evs : list (Z * mev)), forallb (fun x => honestb owner (snd x)) evs = true -> Forall (fun x => honest owner (snd x)) evs.
Proof.
  intros owner evs H. rewrite forallb_forall in H. apply Forall_forall. intros x I. specialize (H x I). destruct (snd x); cbn in *; auto; [|lia].
  apply andb_true_iff in H. destruct H as [H1 H2]. rewrite forallb_forall in H2. split; [lia|]. intros a Ia. specialize (H2 a Ia). lia.
Qed.

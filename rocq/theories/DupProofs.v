(** Proofs about duplicate detection. *)
From Verif Require Import Base SchedTime DupSet DupSpec.

Lemma testbit_u32 : forall x k, 0 <= k < 32 -> Z.testbit (u32 x) k = Z.testbit x k.
Proof.
  intros x k Hk. unfold u32. change 4294967296 with (2 ^ 32).
  apply Z.mod_pow2_bits_low. lia.
Qed.

Lemma land_bit_zero : forall a n, 0 <= n ->
  (Z.land a (Z.shiftl 1 n) =? 0) = negb (Z.testbit a n).
Proof.
  intros a n Hn. destruct (Z.testbit a n) eqn:E; simpl.
  - apply Z.eqb_neq. intro H.
    assert (Z.testbit (Z.land a (Z.shiftl 1 n)) n = false) as F by (rewrite H; apply Z.bits_0).
    rewrite Z.land_spec, E, Z.shiftl_spec, Z.sub_diag in F by lia. discriminate.
  - apply Z.eqb_eq. apply Z.bits_inj'. intros m Hm.
    rewrite Z.land_spec, Z.bits_0. rewrite Z.shiftl_1_l.
    destruct (Z.eq_dec m n) as [->|N]; [rewrite E; reflexivity|].
    rewrite Z.pow2_bits_false by lia. apply andb_false_r.
Qed.

Lemma lor_bit : forall a n k, 0 <= n -> 0 <= k ->
  Z.testbit (Z.lor a (Z.shiftl 1 n)) k = (k =? n) || Z.testbit a k.
Proof.
  intros a n k Hn Hk. rewrite Z.lor_spec, Z.shiftl_1_l.
  destruct (Z.eqb_spec k n) as [->|N]; simpl.
  - rewrite Z.pow2_bits_true by lia. apply orb_true_r.
  - rewrite Z.pow2_bits_false by lia. apply orb_false_r.
Qed.

Lemma lor_bit0 : forall a k, 0 <= k -> Z.testbit (Z.lor a 1) k = (k =? 0) || Z.testbit a k.
Proof. intros. change 1 with (Z.shiftl 1 0). apply lor_bit; lia. Qed.

Lemma diff_circ : forall s last head,
  0 <= s < 65536 -> 0 <= last < 65536 -> head mod 65536 = last ->
  (seqno_diff s last = -32768 /\ circ (s - head) = 32768) \/
  (seqno_diff s last = circ (s - head) /\ -32768 < circ (s - head)).
Proof.
  intros s last head Hs Hl Hh.
  assert ((s - head) mod 65536 = (s - last) mod 65536) as E by (rewrite <- Hh; lia).
  unfold seqno_diff, circ. rewrite E. clear E Hh.
  destruct (s - last >? 32768) eqn:E1; destruct (s - last <? -32768) eqn:E2;
  destruct ((s - last) mod 65536 <=? 32768) eqn:E3; lia.
Qed.

(** Relation between a record and the audit trail. *)
Record rel (e : dup_entry) (t : trail) : Prop := mkRel {
  r_seq : tr_head t mod 65536 = seqnr e;
  r_rng : 0 <= seqnr e < 65536;
  r_max : forall p, In p (tr_seen t) -> p <= tr_head t;
  r_bits : forall k, 0 <= k < 32 -> (Z.testbit (array e) k = true <-> In (tr_head t - k) (tr_seen t));
  r_nodup : NoDup (tr_seen t);
  r_low : tr_low t = too_low_counter e /\ 0 <= too_low_counter e <= 16
}.

Lemma rel_check : forall valid e t s, rel e t -> 0 <= s < 65536 ->
  let '(e', dup) := check_entry valid e s in
  rel e' (tr_note t s dup) /\
  (* verdict *)
  (let c := circ (s - tr_head t) in
   (0 < c < 32768 -> dup = false) /\
   (-31 <= c <= 0 -> (dup = true <-> In (tr_pos t s) (tr_seen t))) /\
   (c < -31 -> (dup = true <-> tr_low t < 16))).
Proof.
  intros valid e t s [Hs Hr Hm Hb Hn [Hl1 Hl2]] Hsr.
  unfold check_entry.
  pose proof (diff_circ s (seqnr e) (tr_head t) Hsr Hr Hs) as D.
  assert (-32767 <= circ (s - tr_head t) <= 32768) as HC
    by (unfold circ; destruct ((s - tr_head t) mod 65536 <=? 32768) eqn:E; lia).
  assert ((tr_head t + circ (s - tr_head t)) mod 65536 = s) as HP
    by (unfold circ; destruct ((s - tr_head t) mod 65536 <=? 32768) eqn:E; lia).
  unfold DUP_MAX_TOO_LOW, u16.
  rewrite (Z.mod_small (too_low_counter e + 1)) by lia.
  destruct (seqno_diff s (seqnr e) <? -31) eqn:E1.
  - (* too low *)
    destruct (too_low_counter e + 1 >? 16) eqn:E2; cbv zeta.
    + split.
      * unfold tr_note, tr_pos.
        destruct (tr_head t + circ (s - tr_head t) <? tr_head t - 31) eqn:E3.
        -- constructor; simpl; try lia.
           ++ intros k Hk. split.
              ** intro H. destruct (Z.eq_dec k 0) as [->|N]; [left; lia|].
                 exfalso. rewrite <- (Z.shiftl_1_l 0) in H || idtac.
                 change 1 with (2 ^ 0) in H. rewrite Z.pow2_bits_false in H by lia. discriminate.
              ** intros [H|[]]. replace k with 0 by lia. reflexivity.
           ++ repeat constructor. simpl. tauto.
        -- (* antipodal number *)
           assert (circ (s - tr_head t) = 32768) as C by lia. rewrite C in *.
           constructor; simpl; try lia.
           ++ intros p [<-|Hp]; [lia|]. specialize (Hm p Hp). lia.
           ++ intros k Hk. split.
              ** intro H. destruct (Z.eq_dec k 0) as [->|N]; [left; lia|].
                 exfalso. change 1 with (2 ^ 0) in H. rewrite Z.pow2_bits_false in H by lia. discriminate.
              ** intros [H|H]; [replace k with 0 by lia; reflexivity|].
                 specialize (Hm _ H). lia.
           ++ constructor; [|assumption]. intro H. specialize (Hm _ H). lia.
      * split; [lia|]. split; [lia|]. intro. split; [discriminate|lia].
    + split.
      * unfold tr_note, tr_pos.
        assert ((tr_head t + circ (s - tr_head t) <? tr_head t - 31)
                || (tr_head t + circ (s - tr_head t) =? tr_head t + 32768) = true) as -> by lia.
        constructor; simpl; try assumption; try lia.
      * split; [lia|]. split; [lia|]. intro. split; [lia|auto].
  - assert (seqno_diff s (seqnr e) = circ (s - tr_head t)) as -> by lia.
    set (c := circ (s - tr_head t)) in *.
    destruct (c <=? 0) eqn:E2.
    + rewrite land_bit_zero by lia. rewrite negb_involutive.
      assert (Z.testbit (array e) (- c) = true <-> In (tr_head t + c) (tr_seen t)) as HB.
      { rewrite (Hb (- c)) by lia. replace (tr_head t - - c) with (tr_head t + c) by lia. reflexivity. }
      destruct (Z.testbit (array e) (- c)) eqn:E3; cbv zeta.
      * split.
        -- unfold tr_note, tr_pos. fold c.
           assert ((tr_head t + c <? tr_head t - 31) || (tr_head t + c =? tr_head t + 32768) = false) as -> by lia.
           constructor; simpl; try assumption; try lia.
        -- split; [lia|]. split; [|lia]. intros _. unfold tr_pos. fold c. exact HB.
      * split.
        -- unfold tr_note, tr_pos. fold c.
           assert (tr_head t + c <? tr_head t - 31 = false) as -> by lia.
           rewrite Z.max_l by lia.
           constructor; simpl; try assumption; try lia.
           ++ intros p [<-|Hp]; [lia|]. auto.
           ++ intros k Hk. rewrite lor_bit by lia. rewrite orb_true_iff, (Hb k) by lia.
              rewrite Z.eqb_eq. split; (intros [H|H]; [left; lia|right; assumption]).
           ++ constructor; [|assumption]. intro H. apply HB in H. discriminate.
        -- split; [lia|]. split; [|lia]. intros _. unfold tr_pos. fold c. exact HB.
    + cbv zeta. split.
      * unfold tr_note, tr_pos. fold c.
        assert (tr_head t + c <? tr_head t - 31 = false) as -> by lia.
        rewrite Z.max_r by lia.
        assert (forall p, In p (tr_seen t) -> p < tr_head t + c) as Hm'
          by (intros p Hp; specialize (Hm p Hp); lia).
        constructor; simpl; try assumption; try lia.
        -- intros p [<-|Hp]; [lia|]. specialize (Hm' p Hp). lia.
        -- intros k Hk. rewrite lor_bit0 by lia. rewrite orb_true_iff, Z.eqb_eq.
           assert (Z.testbit (if c <? 32 then u32 (Z.shiftl (array e) c) else 0) k = true
                   <-> In (tr_head t + c - k) (tr_seen t)) as HB.
           { destruct (c <? 32) eqn:E3.
             - rewrite testbit_u32 by lia. rewrite Z.shiftl_spec by lia.
               destruct (Z.ltb_spec k c).
               + rewrite Z.testbit_neg_r by lia. split; [discriminate|].
                 intro H0. specialize (Hm _ H0). lia.
               + rewrite (Hb (k - c)) by lia.
                 replace (tr_head t - (k - c)) with (tr_head t + c - k) by lia. reflexivity.
             - rewrite Z.bits_0. split; [discriminate|].
               intro H0. specialize (Hm _ H0). lia. }
           rewrite HB. split; (intros [H|H]; [left; lia|right; assumption]).
        -- constructor; [|assumption]. intro H. specialize (Hm' _ H). lia.
      * split; [reflexivity|]. split; lia.
Qed.

(** Invariant of the run with the first message not counted. *)
Definition inv (o : Z) (acc : dup_set * option trail) : Prop :=
  match fst acc o, snd acc with
  | None, None => True
  | Some e, Some t => rel e t
  | _, _ => False
  end.

Lemma rel_create : forall s v, 0 <= s < 65536 ->
  rel (create_duplicate_entry s v) (mkTrail s [] 0).
Proof.
  intros s v Hs. constructor; simpl; try lia; try tauto.
  - intros k Hk. rewrite Z.bits_0. split; [discriminate|tauto].
  - constructor.
Qed.

Lemma inv_step : forall o acc op, op_ok op -> inv o acc -> inv o (tr_step false o acc op).
Proof.
  intros o [d t] op Hok Hi. unfold inv in Hi. simpl in Hi.
  destruct op as [now ip s|now|ip]; simpl in Hok; unfold tr_step, dup_step.
  - unfold message_is_duplicate. destruct (d ip) as [e|] eqn:Ed.
    + destruct (check_entry (getTimestamp now DUPLICATE_VTIME) e s) as [e' v] eqn:Ec.
      unfold inv; cbn [fst snd]. unfold dup_put.
      destruct (Z.eqb_spec o ip) as [->|N].
      * rewrite Z.eqb_refl. rewrite Ed in Hi. destruct t as [t|]; [|contradiction].
        pose proof (rel_check (getTimestamp now DUPLICATE_VTIME) e t s Hi Hok) as R.
        rewrite Ec in R. apply R.
      * assert (ip =? o = false) as -> by lia. destruct (d o), t; try contradiction; auto.
    + unfold inv; cbn [fst snd]. unfold dup_put.
      destruct (Z.eqb_spec o ip) as [->|N].
      * rewrite Z.eqb_refl. rewrite Ed in Hi. destruct t as [t|]; [contradiction|].
        apply rel_create. assumption.
      * assert (ip =? o = false) as -> by lia. destruct (d o), t; try contradiction; auto.
  - unfold cleanup_duplicate_entry, inv; cbn [fst snd].
    destruct (d o) as [e|], t as [t|]; try contradiction; [|exact I].
    destruct (isTimedOut now (valid_until e)); [exact I|assumption].
  - unfold cleanup_duplicates, inv; cbn [fst snd].
    destruct (Z.eqb_spec ip o) as [->|N].
    + destruct (d o) as [e|] eqn:Ed.
      * unfold dup_put. rewrite Z.eqb_refl. destruct t as [t|]; [|contradiction]. simpl.
        destruct Hi. unfold DUP_MAX_TOO_LOW. constructor; simpl; try assumption; lia.
      * rewrite Ed. destruct t as [t|]; [contradiction|exact I].
    + destruct (d ip) as [e|] eqn:Ed.
      * unfold dup_put. assert (o =? ip = false) as -> by lia.
        destruct (d o), t; try contradiction; assumption.
      * destruct (d o), t; try contradiction; assumption.
Qed.

Lemma inv_run : forall o ops, Forall op_ok ops -> inv o (tr_run false o ops).
Proof.
  intros o ops. unfold tr_run.
  assert (inv o (dup_init, None)) as H0 by exact I.
  revert H0. generalize (dup_init, @None trail) as acc.
  induction ops as [|op ops IH]; intros acc Hi Hok; [assumption|].
  inversion Hok; subst. simpl. apply IH; [|assumption]. apply inv_step; assumption.
Qed.

Lemma tr_run_state : forall first o ops, fst (tr_run first o ops) = dup_run ops.
Proof.
  intros first o ops. unfold tr_run, dup_run.
  generalize (@None trail) as t. generalize dup_init as d.
  induction ops as [|op ops IH]; intros d t; [reflexivity|].
  simpl. destruct (dup_step d op) as [d' v] eqn:E. simpl. apply IH.
Qed.

Lemma accepted_once : forall o ops d t, Forall op_ok ops ->
  tr_run false o ops = (d, Some t) -> NoDup (tr_seen t).
Proof.
  intros o ops d t Hok H. pose proof (inv_run o ops Hok) as I. rewrite H in I.
  unfold inv in I. simpl in I. destruct (d o); [|contradiction]. apply I.
Qed.

Lemma verdict_spec : forall o ops d t now s, Forall op_ok ops -> 0 <= s < 65536 ->
  tr_run false o ops = (d, Some t) ->
  (0 < circ (s - tr_head t) < 32768 -> verdict d now o s = false) /\
  (-31 <= circ (s - tr_head t) <= 0 ->
     (verdict d now o s = true <-> In (tr_pos t s) (tr_seen t))) /\
  (circ (s - tr_head t) < -31 -> (verdict d now o s = true <-> tr_low t < 16)).
Proof.
  intros o ops d t now s Hok Hs H. pose proof (inv_run o ops Hok) as I. rewrite H in I.
  unfold inv in I. simpl in I. unfold verdict, message_is_duplicate.
  destruct (d o) as [e|]; [|contradiction].
  pose proof (rel_check (getTimestamp now DUPLICATE_VTIME) e t s I Hs) as R.
  destruct (check_entry (getTimestamp now DUPLICATE_VTIME) e s) as [e' v]. simpl.
  apply R.
Qed.

Lemma unknown_accepted : forall o ops d now s, Forall op_ok ops ->
  tr_run false o ops = (d, None) -> verdict d now o s = false.
Proof.
  intros o ops d now s Hok H. pose proof (inv_run o ops Hok) as I. rewrite H in I.
  unfold inv in I. simpl in I. unfold verdict, message_is_duplicate.
  destruct (d o) as [e|]; [contradiction|]. reflexivity.
Qed.

(** Same position twice within an epoch means: the same sequence number, and
    conversely different positions with the same number are 2^16 apart. *)
Lemma pos_mod : forall t s, 0 <= s < 65536 -> tr_pos t s mod 65536 = s.
Proof.
  intros t s Hs. unfold tr_pos, circ.
  destruct ((s - tr_head t) mod 65536 <=? 32768) eqn:E; lia.
Qed.

(** Independence of originators. *)

Lemma step_other : forall o d1 d2 op, d1 o = d2 o ->
  (concerns o op = true -> fst (dup_step d1 op) o = fst (dup_step d2 op) o) /\
  (concerns o op = false -> fst (dup_step d1 op) o = d1 o).
Proof.
  intros o d1 d2 op E. destruct op as [now ip s|now|ip]; simpl.
  - split; intro H.
    + apply Z.eqb_eq in H. subst ip. unfold message_is_duplicate. rewrite E.
      destruct (d2 o) as [e|]; [destruct (check_entry _ e s) as [e' v]|]; simpl;
        unfold dup_put; rewrite Z.eqb_refl; reflexivity.
    + unfold message_is_duplicate.
      destruct (d1 ip) as [e|]; [destruct (check_entry _ e s) as [e' v]|]; simpl;
        unfold dup_put; assert (o =? ip = false) as -> by lia; reflexivity.
  - split; intro H; [|discriminate]. unfold cleanup_duplicate_entry. rewrite E. reflexivity.
  - split; intro H.
    + apply Z.eqb_eq in H. subst ip. unfold cleanup_duplicates. rewrite E.
      destruct (d2 o) as [e|] eqn:E2; [|rewrite E2; assumption].
      unfold dup_put; rewrite Z.eqb_refl; reflexivity.
    + unfold cleanup_duplicates.
      destruct (d1 ip) as [e|]; [|reflexivity].
      unfold dup_put; assert (o =? ip = false) as -> by lia; reflexivity.
Qed.

Lemma run_filter : forall o ops d1 d2, d1 o = d2 o ->
  fold_left (fun d op => fst (dup_step d op)) ops d1 o =
  fold_left (fun d op => fst (dup_step d op)) (filter (concerns o) ops) d2 o.
Proof.
  intros o ops. induction ops as [|op ops IH]; intros d1 d2 E; [assumption|].
  simpl. destruct (step_other o d1 d2 op E) as [H1 H2].
  destruct (concerns o op) eqn:C; simpl.
  - apply IH. apply H1. reflexivity.
  - apply IH. rewrite H2 by reflexivity. assumption.
Qed.

Lemma verdict_independent : forall o ops now s,
  verdict (dup_run ops) now o s = verdict (dup_run (filter (concerns o) ops)) now o s.
Proof.
  intros o ops now s. unfold verdict, message_is_duplicate, dup_run.
  rewrite (run_filter o ops dup_init dup_init eq_refl).
  destruct (fold_left _ (filter (concerns o) ops) dup_init o) as [e|]; [|reflexivity].
  destruct (check_entry _ e s); reflexivity.
Qed.

(** Restart: 17 consecutive too-old numbers include an accepted one. *)

Lemma restart_aux : forall l o d e, d o = Some e ->
  0 <= too_low_counter e <= 16 ->
  Forall (fun ns => seqno_diff (snd ns) (seqnr e) < -31) l ->
  (17 <= Z.of_nat (length l) + too_low_counter e) ->
  In false (checks d o l).
Proof.
  induction l as [|[now s] l IH]; intros o d e Ed Ht Hl Hn; cbn [length] in Hn; [lia|].
  simpl. unfold message_is_duplicate. rewrite Ed.
  inversion Hl; subst. simpl in H1.
  unfold check_entry. assert (seqno_diff s (seqnr e) <? -31 = true) as -> by lia.
  unfold u16. rewrite Z.mod_small by lia. unfold DUP_MAX_TOO_LOW.
  destruct (too_low_counter e + 1 >? 16) eqn:E; [left; reflexivity|].
  right. eapply IH.
  - unfold dup_put. rewrite Z.eqb_refl. reflexivity.
  - simpl. lia.
  - simpl. assumption.
  - simpl. lia.
Qed.

Lemma restart_heard : forall o ops d t l, Forall op_ok ops ->
  tr_run false o ops = (d, Some t) ->
  Forall (fun ns => 0 <= snd ns < 65536 /\ circ (snd ns - tr_head t) < -31) l ->
  length l = 17%nat -> In false (checks d o l).
Proof.
  intros o ops d t l Hok H Hl Hn. pose proof (inv_run o ops Hok) as I. rewrite H in I.
  unfold inv in I. simpl in I. destruct (d o) as [e|] eqn:Ed; [|contradiction].
  destruct I as [Hs Hr Hm Hb Hd [Hl1 Hl2]].
  eapply restart_aux; [exact Ed|lia| |rewrite Hn; lia].
  eapply Forall_impl; [|exact Hl]. intros [n s] [H1 H2]. simpl in *.
  destruct (diff_circ s (seqnr e) (tr_head t) H1 Hr Hs) as [[A B]|[A B]]; lia.
Qed.

(** The first message of an originator is accepted twice. *)
Lemma first_twice : exists o ops d t, Forall op_ok ops /\
  tr_run true o ops = (d, Some t) /\ ~ NoDup (tr_seen t).
Proof.
  exists 7, [OpCheck 0 7 100; OpCheck 5 7 100].
  exists (fst (tr_run true 7 [OpCheck 0 7 100; OpCheck 5 7 100])), (mkTrail 100 [100; 100] 0).
  split; [repeat constructor; simpl; lia|]. split.
  - reflexivity.
  - intro H. inversion H; subst. apply H2. left. reflexivity.
Qed.

(** Lifetime of a record. *)
Definition vu_le (T : Z) (d : dup_set) : Prop :=
  forall ip e, d ip = Some e -> 0 <= valid_until e <= T.

Lemma check_vu : forall valid e s, 0 <= valid ->
  valid_until (fst (check_entry valid e s)) = Z.max valid (valid_until e).
Proof.
  intros valid e s Hv. unfold check_entry.
  assert ((if valid >? valid_until e then valid else valid_until e) = Z.max valid (valid_until e)) as ->
    by (destruct (valid >? valid_until e) eqn:E; lia).
  repeat match goal with |- context [if ?b then _ else _] => destruct b end; reflexivity.
Qed.

Lemma vu_step : forall T d op, 0 <= T -> T + 120000 < 4294967296 ->
  match op_time op with Some n => 0 <= n <= T | None => True end ->
  vu_le (T + 120000) d -> vu_le (T + 120000) (fst (dup_step d op)).
Proof.
  intros T d op HT HT2 Ht Hv ip e He. destruct op as [now ip' s|now|ip']; simpl in *.
  - unfold message_is_duplicate, getTimestamp, DUPLICATE_VTIME, u32 in He.
    rewrite Z.mod_small in He by lia.
    destruct (d ip') as [e0|] eqn:Ed.
    + pose proof (check_vu (now + 120000) e0 s) as C.
      destruct (check_entry (now + 120000) e0 s) as [e' v]. simpl in *.
      unfold dup_put in He. destruct (Z.eqb_spec ip ip') as [->|].
      * injection He as <-. rewrite C by lia. specialize (Hv ip' e0 Ed). lia.
      * apply Hv in He. assumption.
    + simpl in He. unfold dup_put in He. destruct (Z.eqb_spec ip ip') as [->|].
      * injection He as <-. simpl. lia.
      * apply Hv in He. assumption.
  - unfold cleanup_duplicate_entry in He. destruct (d ip) as [e0|] eqn:Ed; [|discriminate].
    destruct (isTimedOut now (valid_until e0)); [discriminate|]. injection He as <-.
    apply Hv in Ed. assumption.
  - unfold cleanup_duplicates in He. destruct (d ip') as [e0|] eqn:Ed.
    + unfold dup_put in He. destruct (Z.eqb_spec ip ip') as [->|].
      * injection He as <-. simpl. apply Hv in Ed. assumption.
      * apply Hv in He. assumption.
    + apply Hv in He. assumption.
Qed.

Lemma vu_run : forall T ops d, 0 <= T -> T + 120000 < 4294967296 ->
  Forall (fun op => match op_time op with Some n => 0 <= n <= T | None => True end) ops ->
  vu_le (T + 120000) d -> vu_le (T + 120000) (fold_left (fun d o => fst (dup_step d o)) ops d).
Proof.
  intros T ops. induction ops as [|op ops IH]; intros d HT HT2 Hf Hv; [assumption|].
  inversion Hf; subst. simpl. apply IH; try assumption. apply vu_step; assumption.
Qed.

Definition live (o lo : Z) (d : dup_set) : Prop :=
  exists e, d o = Some e /\ lo <= valid_until e <= lo + 120000.

Lemma live_step : forall o now d op,
  0 <= now -> now + 240000 < 4294967296 ->
  match op_time op with Some n => now <= n < now + 120000 | None => True end ->
  live o (now + 120000) d -> live o (now + 120000) (fst (dup_step d op)).
Proof.
  intros o now d op H0 H1 Ht (e & Ed & Hv). unfold live.
  destruct op as [n ip s|n|ip]; simpl in *.
  - unfold message_is_duplicate, getTimestamp, DUPLICATE_VTIME, u32.
    rewrite Z.mod_small by lia.
    destruct (Z.eqb_spec o ip) as [<-|N].
    + rewrite Ed. pose proof (check_vu (n + 120000) e s) as C.
      destruct (check_entry (n + 120000) e s) as [e' v]. simpl in *.
      unfold dup_put. rewrite Z.eqb_refl. exists e'. split; [reflexivity|].
      rewrite C by lia. lia.
    + destruct (d ip) as [e0|]; [destruct (check_entry (n + 120000) e0 s)|];
        simpl; unfold dup_put; (assert (o =? ip = false) as -> by lia); exists e; auto.
  - unfold cleanup_duplicate_entry. rewrite Ed.
    assert (isTimedOut n (valid_until e) = false) as ->.
    { unfold isTimedOut. assert (valid_until e >? n = true) as -> by lia.
      unfold u32. rewrite Z.mod_small by lia. 
      lia. }
    exists e. auto.
  - unfold cleanup_duplicates. destruct (d ip) as [e0|] eqn:E0; [|exists e; auto].
    unfold dup_put. destruct (Z.eqb_spec o ip) as [<-|N]; [|exists e; auto].
    rewrite Ed in E0. injection E0 as <-. eexists. split; [reflexivity|assumption].
Qed.

Lemma record_lives : forall o ops1 now s ops2,
  0 <= now -> now + 240000 < 4294967296 ->
  Forall (fun op => match op_time op with Some n => 0 <= n <= now | None => True end) ops1 ->
  Forall (fun op => match op_time op with Some n => now <= n < now + 120000 | None => True end) ops2 ->
  dup_run (ops1 ++ OpCheck now o s :: ops2) o <> None.
Proof.
  intros o ops1 now s ops2 H0 H1 F1 F2. unfold dup_run. rewrite fold_left_app. cbn [fold_left].
  assert (vu_le (now + 120000) (fold_left (fun d o => fst (dup_step d o)) ops1 dup_init)) as Hv.
  { apply vu_run; try assumption; try lia. intros ip e He. discriminate. }
  set (d1 := fold_left (fun d o => fst (dup_step d o)) ops1 dup_init) in *.
  assert (live o (now + 120000) (fst (dup_step d1 (OpCheck now o s)))) as L.
  { simpl. unfold message_is_duplicate, getTimestamp, DUPLICATE_VTIME, u32.
    rewrite Z.mod_small by lia. destruct (d1 o) as [e|] eqn:Ed.
    - pose proof (check_vu (now + 120000) e s) as C.
      destruct (check_entry (now + 120000) e s) as [e' v]. simpl in *.
      unfold live, dup_put. rewrite Z.eqb_refl. exists e'. split; [reflexivity|].
      rewrite C by lia. specialize (Hv o e Ed). lia.
    - simpl. unfold live, dup_put. rewrite Z.eqb_refl. eexists. split; [reflexivity|]. simpl. lia. }
  assert (live o (now + 120000) (fold_left (fun d o => fst (dup_step d o)) ops2
             (fst (dup_step d1 (OpCheck now o s))))) as L2.
  { clear Hv F1. revert L. generalize (fst (dup_step d1 (OpCheck now o s))) as d.
    induction ops2 as [|op ops2 IH]; intros d L; [assumption|].
    inversion F2; subst. simpl. apply IH; [assumption|]. apply live_step; assumption. }
  destruct L2 as (e & E & _). rewrite E. discriminate.
Qed.

(** At the wrap of the 32-bit clock the record dies early. *)
Lemma record_dies : exists o ops1 now s ops2,
  Forall (fun op => match op_time op with
     Some n => 0 <= n <= now | None => True end) ops1 /\
  0 <= now < 4294967296 /\
  Forall (fun op => match op_time op with Some n => now <= n < now + 120000 | None => True end) ops2 /\
  dup_run (ops1 ++ OpCheck now o s :: ops2) o = None.
Proof.
  exists 7, [OpCheck 4294837296 7 100], 4294867296, 101, [OpTick 4294958296].
  split; [repeat constructor; simpl; lia|]. split; [lia|].
  split; [repeat constructor; simpl; lia|]. vm_compute. reflexivity.
Qed.

(** C43, C57: sequence numbers and collision warnings. *)
From Verif Require Import Base SeqNo.

(** C43: reported exactly when the number lies ahead of the own counter: within
    the half circle of 1 to 32767 steps. *)
Theorem C43_collision_exact : forall counter seqno, 0 <= counter < 65536 -> 0 <= seqno < 65536 ->
  is_bad_duplicate counter seqno = true <-> exists k, 1 <= k <= 32767 /\ seqno = (counter + k) mod 65536.
Proof.
  intros c s Hc Hs. unfold is_bad_duplicate. cbv zeta. split.
  - intros H. exists ((s - c) mod 65536). split; [|rewrite Z.add_mod_idemp_r by lia; replace (c + (s - c)) with s by lia; rewrite Z.mod_small; lia].
    destruct (Z.ltb_spec (s - c) (-32768)); [|destruct (Z.gtb_spec (s - c) 32767)]; lia.
  - intros (k & Hk & E). destruct (Z.ltb_spec (s - c) (-32768)); [|destruct (Z.gtb_spec (s - c) 32767)]; lia.
Qed.
Print Assumptions C43_collision_exact.
Example C43_ex : is_bad_duplicate 65530 3 = true /\ is_bad_duplicate 3 65530 = false /\ is_bad_duplicate 5 5 = false.
Proof. vm_compute. auto. Qed.

(** C43: a message this node sent itself, coming back before 32768 more were
    sent, is never reported. *)
Theorem C43_own_echo_silent : forall counter n, 0 <= counter < 65536 -> (1 <= n)%nat -> Z.of_nat n <= 32768 ->
  is_bad_duplicate (advance n counter) (fst (get_msg_seqno counter)) = false.
Proof.
  intros c n Hc Hn Hm.
  assert (A : forall n c, 0 <= c < 65536 -> advance n c = (c + Z.of_nat n) mod 65536).
  { clear. induction n as [|n IH]; intros c Hc; cbn [advance]; [rewrite Z.mod_small; lia|].
    unfold get_msg_seqno, u16. cbn [snd]. rewrite IH by (apply Z.mod_pos_bound; lia). rewrite Z.add_mod_idemp_l by lia. f_equal. lia. }
  rewrite (A n c Hc). unfold get_msg_seqno. cbn [fst].
  destruct (is_bad_duplicate ((c + Z.of_nat n) mod 65536) c) eqn:E; [|reflexivity].
  apply C43_collision_exact in E; [|apply Z.mod_pos_bound; lia|exact Hc]. destruct E as (k & Hk & E). lia.
Qed.
Print Assumptions C43_own_echo_silent.
Example C43_echo_ex : advance 5 65533 = 2 /\ is_bad_duplicate 2 65533 = false. Proof. vm_compute. auto. Qed.

(** C43: the handlers run, all of them with the message type, exactly then *)
Theorem C43_handlers_called : forall counter spam handlers ty seqno, 0 <= counter < 65536 -> 0 <= seqno < 65536 ->
  snd (test_originator_collision counter spam handlers ty seqno) =
  (if (1 <=? (seqno - counter) mod 65536) && ((seqno - counter) mod 65536 <=? 32767) then map (fun h => (h, ty)) handlers else []).
Proof.
  intros c spam hs ty s Hc Hs. unfold test_originator_collision. pose proof (C43_collision_exact c s Hc Hs) as E.
  destruct (is_bad_duplicate c s); cbn [negb].
  - destruct (proj1 E eq_refl) as (k & Hk & Es). replace ((1 <=? (s - c) mod 65536) && ((s - c) mod 65536 <=? 32767)) with true by lia. reflexivity.
  - destruct ((1 <=? (s - c) mod 65536) && ((s - c) mod 65536 <=? 32767)) eqn:Q; [|reflexivity].
    assert (false = true); [|discriminate]. apply E. exists ((s - c) mod 65536). lia.
Qed.
Print Assumptions C43_handlers_called.
Example C43_handlers_ex : test_originator_collision 65530 8 [1; 2] 130 3 = (9, true, [(1, 130); (2, 130)]). Proof. reflexivity. Qed.

(** C57: warnings logged and warnings reported as skipped do not add up to the
    collisions: with exactly 10 one is lost without a trace. *)
Theorem C57_lost_warning_refuted : exists n, let (spam, logged) := collisions n in logged + snd (spam_timer spam) < Z.of_nat n.
Proof. exists 10%nat. vm_compute. reflexivity. Qed.
Print Assumptions C57_lost_warning_refuted.
(** C57, what holds: one too few from 10 collisions on, exact below.  Missing:
    the exact sum. *)
Theorem C57_warning_count_partial : forall n, Z.of_nat n < 4294967296 ->
  let (spam, logged) := collisions n in
  logged + snd (spam_timer spam) = Z.of_nat n - (if Z.of_nat n <? 10 then 0 else 1).
Proof.
  intros n Hn. assert (H : collisions n = (Z.of_nat n, Z.min (Z.of_nat n) 9)).
  { induction n as [|n IH]; [reflexivity|]. cbn [collisions]. rewrite IH by lia. unfold u32, MAX_SYSLOG_EACH_HOUR. cbv zeta. rewrite Z.mod_small by lia.
    destruct (Z.ltb_spec (Z.of_nat n + 1) 10); f_equal; lia. }
  rewrite H. unfold spam_timer, MAX_SYSLOG_EACH_HOUR, u32. cbn [snd]. destruct (Z.gtb_spec (Z.of_nat n) 10); [rewrite Z.mod_small by lia|]; destruct (Z.ltb_spec (Z.of_nat n) 10); lia.
Qed.
Print Assumptions C57_warning_count_partial.
Example C57_ex : collisions 25 = (25, 9) /\ spam_timer 25 = (0, 15). Proof. vm_compute. auto. Qed.

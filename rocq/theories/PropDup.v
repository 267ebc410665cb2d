(** C03, C04, C05, C48: duplicate detection (src/duplicate_set.c). *)
From Verif Require Import Base SchedTime DupSet DupSpec DupProofs.

Definition hist : list dup_op :=
  [OpCheck 0 7 65530; OpCheck 10 9 4; OpCheck 20 7 65534; OpCheck 30 7 65532;
   OpCheck 40 7 65534; OpTick 15000; OpCheck 15010 7 3; OpHint 9; OpCheck 15020 7 65532].

(** C03 is false as stated: the first message of an originator is accepted
    again when it arrives a second time. *)
Theorem C03_accepted_once_refuted : exists o ops d t, Forall op_ok ops /\
  tr_run true o ops = (d, Some t) /\ ~ NoDup (tr_seen t).
Proof. exact first_twice. Qed.
Print Assumptions C03_accepted_once_refuted.

(** C03 for all messages but the one that creates the record: no position on
    the (unwrapped) number line is accepted twice.  Missing: the creating
    message itself, which can be accepted one more time. *)
Theorem C03_accepted_once_partial : forall o ops d t, Forall op_ok ops ->
  tr_run false o ops = (d, Some t) -> NoDup (tr_seen t).
Proof. exact accepted_once. Qed.
Print Assumptions C03_accepted_once_partial.

Example C03_ex : Forall op_ok hist /\
  snd (tr_run false 7 hist) = Some (mkTrail 65539 [65539; 65532; 65534] 0).
Proof. split; [repeat constructor; simpl; lia|]. vm_compute. reflexivity. Qed.

(** The positions of the trail are faithful to the sequence numbers. *)
Theorem C03_position_of_number : forall t s, 0 <= s < 65536 -> tr_pos t s mod 65536 = s.
Proof. exact pos_mod. Qed.
Print Assumptions C03_position_of_number.

Example C03_position_ex : tr_pos (mkTrail 65534 [] 0) 3 = 65539.
Proof. reflexivity. Qed.

(** C04: exact verdict for an originator with a record: newer numbers are
    accepted; numbers up to 31 behind are duplicates exactly if they were
    accepted before; older ones are duplicates unless sixteen too-old ones
    preceded (or the restart hint shortened that wait). *)
Theorem C04_fresh_accepted : forall o ops d t now s, Forall op_ok ops -> 0 <= s < 65536 ->
  tr_run false o ops = (d, Some t) ->
  (0 < circ (s - tr_head t) < 32768 -> verdict d now o s = false) /\
  (-31 <= circ (s - tr_head t) <= 0 ->
     (verdict d now o s = true <-> In (tr_pos t s) (tr_seen t))) /\
  (circ (s - tr_head t) < -31 -> (verdict d now o s = true <-> tr_low t < 16)).
Proof. exact verdict_spec. Qed.
Print Assumptions C04_fresh_accepted.

Example C04_ex : circ (4 - 65539) = 1 /\ verdict (dup_run hist) 16000 7 4 = false /\
  verdict (dup_run hist) 16000 7 65532 = true /\ verdict (dup_run hist) 16000 7 65531 = false /\
  verdict (dup_run hist) 16000 7 65000 = true.
Proof. repeat split; vm_compute; reflexivity. Qed.

(** C04: the first message of an unknown originator is accepted. *)
Theorem C04_unknown_accepted : forall o ops d now s, Forall op_ok ops ->
  tr_run false o ops = (d, None) -> verdict d now o s = false.
Proof. exact unknown_accepted. Qed.
Print Assumptions C04_unknown_accepted.

Example C04_unknown_ex : snd (tr_run false 8 hist) = None.
Proof. vm_compute. reflexivity. Qed.

(** C05: the verdict depends only on the operations that concern this
    originator. *)
Theorem C05_originators_independent : forall o ops now s,
  verdict (dup_run ops) now o s = verdict (dup_run (filter (concerns o) ops)) now o s.
Proof. exact verdict_independent. Qed.
Print Assumptions C05_originators_independent.

Example C05_independent_ex : length (filter (concerns 9) hist) = 3%nat /\ length hist = 9%nat.
Proof. split; reflexivity. Qed.

(** C05: among 17 consecutive too-old messages at least one is accepted. *)
Theorem C05_restart_heard : forall o ops d t l, Forall op_ok ops ->
  tr_run false o ops = (d, Some t) ->
  Forall (fun ns => 0 <= snd ns < 65536 /\ circ (snd ns - tr_head t) < -31) l ->
  length l = 17%nat -> In false (checks d o l).
Proof. exact restart_heard. Qed.
Print Assumptions C05_restart_heard.

Example C05_restart_ex :
  let l := map (fun k => (16000 + Z.of_nat k, 40000 + Z.of_nat k)) (seq 0 17) in
  Forall (fun ns => 0 <= snd ns < 65536 /\ circ (snd ns - 65539) < -31) l /\
  checks (dup_run hist) 7 l = repeat true 16 ++ [false].
Proof. split; [repeat (constructor; [split; [simpl; lia|reflexivity]|]); constructor|vm_compute; reflexivity]. Qed.

(** C48: while the 32-bit clock does not wrap, a record lives for at least
    120 s after the last message of its originator.  Missing: the wrap of the
    clock after 49.7 days, see the refutation below. *)
Theorem C48_record_lifetime_partial : forall o ops1 now s ops2,
  0 <= now -> now + 240000 < 4294967296 ->
  Forall (fun op => match op_time op with Some n => 0 <= n <= now | None => True end) ops1 ->
  Forall (fun op => match op_time op with Some n => now <= n < now + 120000 | None => True end) ops2 ->
  dup_run (ops1 ++ OpCheck now o s :: ops2) o <> None.
Proof. exact record_lives. Qed.
Print Assumptions C48_record_lifetime_partial.

Example C48_ex : dup_run ([OpCheck 0 7 1] ++ OpCheck 100000 7 2 :: [OpTick 219999]) 7 <> None /\
  dup_run ([OpCheck 0 7 1] ++ OpCheck 100000 7 2 :: [OpTick 220000]) 7 = None.
Proof. split; vm_compute; [discriminate|reflexivity]. Qed.

(** C48 is false across the wrap: the record is dropped 91 s after the last
    message. *)
Theorem C48_record_lifetime_refuted : exists o ops1 now s ops2,
  Forall (fun op => match op_time op with
     Some n => 0 <= n <= now | None => True end) ops1 /\
  0 <= now < 4294967296 /\
  Forall (fun op => match op_time op with Some n => now <= n < now + 120000 | None => True end) ops2 /\
  dup_run (ops1 ++ OpCheck now o s :: ops2) o = None.
Proof. exact record_dies. Qed.
Print Assumptions C48_record_lifetime_refuted.

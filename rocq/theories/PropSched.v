(** C09, C10, C49: timestamps, jitter and the clock (src/scheduler.c). *)
From Verif Require Import Base SchedTime SchedSpec SchedTimeProofs.

(** C09: a timestamp t ms ahead expires exactly after t ms, whatever the
    32-bit clock shows. *)
Theorem C09_timeout_exact : forall now t e, 0 <= now < 4294967296 -> 0 <= t < 2147483648 ->
  (0 <= e < t -> isTimedOut (u32 (now + e)) (getTimestamp now t) = false) /\
  (t <= e < t + 2147483648 -> isTimedOut (u32 (now + e)) (getTimestamp now t) = true).
Proof. exact timeout_exact. Qed.
Print Assumptions C09_timeout_exact.

Example C09_timeout_ex : let now := 4294967290 in
  getTimestamp now 100 = 94 /\ isTimedOut (u32 (now + 99)) (getTimestamp now 100) = false /\
  isTimedOut (u32 (now + 100)) (getTimestamp now 100) = true.
Proof. repeat split; vm_compute; reflexivity. Qed.

(** C09: the reported remaining time is off by one across the wrap. *)
Theorem C09_time_due_refuted : exists now t e, 0 <= now < 4294967296 /\ 0 <= t < 2147483648 /\ 0 <= e < t /\
  getTimeDue (u32 (now + e)) (getTimestamp now t) <> t - e.
Proof. exact timedue_wrong. Qed.
Print Assumptions C09_time_due_refuted.

(** C09: it is exact when the clock does not wrap, and never wrong by more
    than one millisecond.  Missing: exactness across the wrap. *)
Theorem C09_time_due_partial :
  (forall now t e, 0 <= now -> now + t < 4294967296 -> now + e < 4294967296 ->
     0 <= t < 2147483648 -> 0 <= e -> e - t < 2147483648 ->
     getTimeDue (u32 (now + e)) (getTimestamp now t) = t - e) /\
  (forall now t e, 0 <= now < 4294967296 -> 0 <= t < 2147483648 ->
     0 <= e -> e - t < 2147483648 ->
     (e <= t -> t - e - 1 <= getTimeDue (u32 (now + e)) (getTimestamp now t) <= t - e) /\
     (t <= e -> t - e <= getTimeDue (u32 (now + e)) (getTimestamp now t) <= t - e + 1)).
Proof. exact (conj timedue_nowrap timedue_approx). Qed.
Print Assumptions C09_time_due_partial.

Example C09_due_ex : getTimeDue (u32 (1000 + 300)) (getTimestamp 1000 500) = 200 /\
  getTimeDue (u32 (1000 + 700)) (getTimestamp 1000 500) = -200.
Proof. split; vm_compute; reflexivity. Qed.

(** C10: jitter only shortens, by at most [pct] percent. *)
Theorem C10_jitter_bounds : forall rmax now rel pct r,
  0 <= rmax < 2147483648 -> 0 <= now < 4294967296 -> 0 <= rel < 2147483648 -> 0 <= pct < 256 ->
  0 <= r <= rmax ->
  exists d, calc_jitter rmax now rel pct r = getTimestamp now d /\
    0 <= d <= rel /\ 100 * (rel - d) <= pct * rel /\ (pct = 0 -> d = rel).
Proof. exact jitter_bounds. Qed.
Print Assumptions C10_jitter_bounds.

Example C10_ex : calc_jitter 2147483647 4294967000 2000 25 1900000000 = getTimestamp 4294967000 1557.
Proof. vm_compute. reflexivity. Qed.

(** C49: whatever the system clock does, two consecutive readings of the
    internal clock never go backward and never jump ahead by more than 61 s
    (modulo 2^32). *)
Theorem C49_clock_monotone : forall tv0 l tv1 tv2, ts_ok tv0 -> Forall ts_ok l -> ts_ok tv1 -> ts_ok tv2 ->
  let c := clk_run tv0 l in
  let '(c1, v1) := olsr_times c tv1 in
  let '(c2, v2) := olsr_times c1 tv2 in
  0 <= u32 (v2 - v1) <= 61001.
Proof. exact clk_monotone. Qed.
Print Assumptions C49_clock_monotone.

Example C49_ex : let c := clk_run (100, 5) [(103, 999999999); (50, 0)] in
  snd (olsr_times c (51, 0)) = 5001 /\ snd (olsr_times (fst (olsr_times c (51, 0))) (5000, 0)) = 5001.
Proof. split; vm_compute; reflexivity. Qed.

(** C49: with an undisturbed system clock the internal clock shows the elapsed
    time to within a millisecond. *)
Theorem C49_clock_accurate : forall tv0 l, ts_ok tv0 -> Forall ts_ok l -> forall tv, ts_ok tv ->
  let c := clk_run tv0 l in
  ns (last_tv c) <= ns tv <= ns (last_tv c) + 60000000000 ->
  exists v, snd (olsr_times c tv) = u32 v /\
    first_tv (fst (olsr_times c tv)) = first_tv c /\
    ns tv - ns (first_tv c) - 1000000 < 1000000 * v < ns tv - ns (first_tv c) + 1000000.
Proof. exact clk_accurate. Qed.
Print Assumptions C49_clock_accurate.

Example C49_accurate_ex : let c := clk_run (100, 5) [(103, 999999999)] in
  ns (last_tv c) <= ns (104, 17) <= ns (last_tv c) + 60000000000 /\ snd (olsr_times c (104, 17)) = 4000.
Proof. split; [vm_compute; split; discriminate|vm_compute; reflexivity]. Qed.

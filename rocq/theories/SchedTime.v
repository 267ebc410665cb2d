(** Model of the 32-bit millisecond clock helpers and the jitter computation
    of src/scheduler.c.  Definitions only. *)
From Verif Require Import Base.

(** src/scheduler.c:177-181 olsr_getTimestamp; [now] is the global
    [now_times] (uint32_t, src/scheduler.c:71). *)
Definition getTimestamp (now s : Z) : Z := u32 (now + s).

(** conversion of a uint32_t to int32_t (two's complement, as gcc does it) *)
Definition to_i32 (x : Z) : Z := if x <? 2147483648 then x else x - 4294967296.

(** src/scheduler.c:187-207 olsr_getTimeDue *)
Definition getTimeDue (now s : Z) : Z :=
  if s >? now then
    let diff := u32 (s - now) in
    if diff >? 2147483648 then - to_i32 (u32 (4294967295 - diff))
    else to_i32 diff
  else
    let diff := u32 (now - s) in
    if diff >? 2147483648 then to_i32 (u32 (4294967295 - diff))
    else - to_i32 diff.

(** src/scheduler.c:209-217 olsr_isTimedOut *)
Definition isTimedOut (now s : Z) : bool :=
  if s >? now then u32 (s - now) >? 2147483648
  else u32 (now - s) <=? 2147483648.

(** src/scheduler.c:600-622 calc_jitter.  [rmax] is OLSR_RANDOM_MAX
    (src/olsr_random.h), [random_val] the cached random number, [now] the
    global [now_times]. *)
Definition calc_jitter (rmax now rel_time jitter_pct random_val : Z) : Z :=
  if (jitter_pct =? 0) || (jitter_pct >? 99) || (rel_time >? 16777216)
  then getTimestamp now rel_time
  else
    let jitter_time := u32 (jitter_pct * rel_time) / 100 in
    let jitter_time := random_val / u32 (1 + rmax / u32 (jitter_time + 1)) in
    getTimestamp now (u32 (rel_time - jitter_time)).

(** A [struct timespec] (seconds, nanoseconds); src/scheduler.c:72-73 *)
Definition timespec : Type := Z * Z.

(** State of the clock: [first_tv] and [last_tv] (src/scheduler.c:72-73). *)
Record clock := mkClock { first_tv : timespec; last_tv : timespec }.

(** src/scheduler.c:133-172 olsr_times; [tv] is the value read from
    clock_gettime.  Returns the new clock state and the uint32_t result.
    C's signed division is [Z.quot].  The uint64_t [nsec] is written without
    its wrap (a run of 584 years). *)
Definition olsr_times (c : clock) (tv : timespec) : clock * Z :=
  let (s, n) := tv in
  let (ls, ln) := last_tv c in
  let (fs, fn) := first_tv c in
  if (s <? ls) || ((s =? ls) && (n <? ln)) || (s - ls >? 60) then
    let nsec := (ls - fs) * 1000000000 + (ln - fn) + 1000000 in
    let fs' := s - nsec / 1000000000 in
    let fn' := n - nsec mod 1000000000 in
    let first' := if fn' <? 0 then (fs' - 1, fn' + 1000000000) else (fs', fn') in
    (mkClock first' tv, u32 (nsec / 1000000))
  else
    (mkClock (fs, fn) tv, u32 ((s - fs) * 1000 + Z.quot (n - fn) 1000000)).

(** src/scheduler.c:634-639: both times start at the first reading. *)
Definition clock_init (tv : timespec) : clock := mkClock tv tv.

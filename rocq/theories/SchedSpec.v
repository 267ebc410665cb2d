(** Vocabulary for the statements about the clock. *)
From Verif Require Import Base SchedTime.

(** A time in nanoseconds, and validity of a timespec. *)
Definition ns (t : timespec) : Z := fst t * 1000000000 + snd t.
Definition ts_ok (t : timespec) : Prop := 0 <= snd t < 1000000000.

(** Clock state after a list of readings. *)
Definition clk_run (tv0 : timespec) (l : list timespec) : clock :=
  fold_left (fun c tv => fst (olsr_times c tv)) l (clock_init tv0).

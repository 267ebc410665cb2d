(** What the numbers in a position update shall mean. *)
From Verif Require Import Base.

(** the durations a mantissa and an exponent of four bits can express *)
Definition expressible (m l : Z) : Z := (16 + l) * 2 ^ m - 16.
(** [d] is expressible, and no expressible duration is nearer to [v] *)
Definition nearest (v d : Z) : Prop :=
  (exists m l, 0 <= m <= 15 /\ 0 <= l <= 15 /\ d = expressible m l) /\
  forall m l, 0 <= m <= 15 -> 0 <= l <= 15 -> Z.abs (d - v) <= Z.abs (expressible m l - v).
(** the durations whose nearest expressible one has the next exponent *)
Definition at_border (v : Z) : Prop :=
  exists m, 1 <= m <= 15 /\ 32 * 2 ^ m - 16 - 2 ^ (m - 1) <= v < 32 * 2 ^ m - 16.
(** seconds since 1970 of a day and a time of that day *)
Definition instant (day h m s : Z) : Z := day * 86400 + h * 3600 + m * 60 + s.
(** a number of 2^-20 rounded to an integer *)
Definition rounded (x r : Z) : Prop := 2 * Z.abs (r * 2 ^ 20 - x) <= 2 ^ 20.

(** Points on the earth, in the numbers of NMEA *)
From Verif Require Import Base Sanitise.

(** [x] is the number [k] *)
Definition is (x k : Z) : Prop := x = k * 2 ^ 1074.
(** [x] is [d] degrees and [m] minutes, written 100 * d + m *)
Definition reading (x d m : Z) : Prop := 0 <= m < 60 /\ is x (100 * d + m).
(** the loop ends *)
Definition ends {A : Type} (f : nat -> option A) (a : A) : Prop := exists n, f n = Some a.
(** latitude and longitude in degrees of the same point: whole turns, or over a pole *)
Definition same_point (d e d' e' : Z) : Prop :=
  ((d' - d) mod 360 = 0 /\ (e' - e) mod 360 = 0) \/ ((d' - (180 - d)) mod 360 = 0 /\ (e' - (e + 180)) mod 360 = 0).
(** a time of day *)
Definition daytime (t : Z * Z * Z * Z) : Prop :=
  let '(h, m, s, f) := t in 0 <= h <= 23 /\ 0 <= m <= 59 /\ 0 <= s <= 60 /\ 0 <= f <= 99.

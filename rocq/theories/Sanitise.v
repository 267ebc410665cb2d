(** Model of nmeaInfoSanitise (lib/pud/nmealib/src/info.c:216-667) for the time, the latitude and the
    longitude of a position whose units are not metric.  A double is its number of units of
    2^-1074, of which every finite double is a multiple; the result of an addition is rounded to 53
    bits, half to even.  Infinities, NaN and overflow are left out, as are speed, track, magnetic
    variation and satellites.  A loop has a number of turns, [None] is that it did not end in
    them.  Definitions only. *)
From Verif Require Import Base.

(** 1.0 in units, as in the constants of lib/pud/nmealib/src/info.c:436-484 *)
Definition one : Z := 2 ^ 1074.
(** the rounding of the additions in lib/pud/nmealib/src/info.c:436-484 *)
Definition rnd (z : Z) : Z :=
  let a := Z.abs z in
  if a <? 2 ^ 53 then z
  else
    let p := 2 ^ (Z.log2 a - 52) in
    let q := a / p in
    let r := a mod p in
    let q := if r <? p / 2 then q else if p / 2 <? r then q + 1 else if Z.even q then q else q + 1 in
    Z.sgn z * (q * p).
(** lib/pud/nmealib/src/info.c:436-439, 476-479, while (x < -18000.0) *)
Fixpoint up (n : nat) (x : Z) : option Z :=
  if x <? - (18000 * one) then match n with O => None | S n => up n (rnd (x + 36000 * one)) end else Some x.
(** lib/pud/nmealib/src/info.c:440-443, 480-483, while (x > 18000.0) *)
Fixpoint down (n : nat) (x : Z) : option Z :=
  if x >? 18000 * one then match n with O => None | S n => down n (rnd (x - 36000 * one)) end else Some x.
(** the two loops, lib/pud/nmealib/src/info.c:436-443, 476-483 *)
Definition turn (n : nat) (x : Z) : option Z := match up n x with Some x => down n x | None => None end.
(** lib/pud/nmealib/src/info.c:431-468, latitude and longitude when the latitude is present *)
Definition fold_lat (n : nat) (lat lon : Z) : option (Z * Z) :=
  match turn n lat with
  | None => None
  | Some lat =>
      let '(lat, lon) := if lat >? 9000 * one then (rnd (18000 * one - lat), rnd (lon + 18000 * one)) else (lat, lon) in
      let '(lat, lon) := if lat <? - (9000 * one) then (rnd (- (18000 * one) - lat), rnd (lon + 18000 * one)) else (lat, lon) in
      Some (lat, lon)
  end.
(** lib/pud/nmealib/src/info.c:431-490, with both present *)
Definition place (n : nat) (lat lon : Z) : option (Z * Z) :=
  match fold_lat n lat lon with
  | None => None
  | Some (lat, lon) => match turn n lon with Some lon => Some (lat, lon) | None => None end
  end.
(** the time in lib/pud/nmealib/include/nmealib/info.h:162-170 NmeaTime, hour, minute, second, hundredths *)
Definition hms : Type := Z * Z * Z * Z.
(** lib/pud/nmealib/src/info.c:249-262, 357-380: [now] is the time of nmeaTimeSet *)
Definition fix_time (hasDate hasTime : bool) (now t : hms) : hms :=
  let t := if negb hasTime then now else t in
  if hasDate then let '(h, m, s, f) := t in (h mod 24, m mod 60, s mod 61, f mod 100) else t.

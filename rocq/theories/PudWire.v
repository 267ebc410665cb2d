(** Model of the numbers in a position update of the PUD plugin
    (lib/pud/wireformat/src/wireFormat.c).  The calendar part of gmtime_r is left out: a
    day is the number of days since 1970.  Doubles are integers that count 2^-20; below
    2^32 in magnitude the sums and comparisons of the code are then exact.  Latitude,
    longitude and HDOP, which need a division, are not modelled.  Definitions only. *)
From Verif Require Import Base.

(** lib/pud/wireformat/src/wireFormat.c:70 PUD_VALIDITY_TIME_FROM_OLSR, an unsigned int *)
Definition from_olsr (msn lsn : Z) : Z := u32 (u32 ((lsn + 16) * u32 (Z.shiftl 1 msn)) - 16).
(** lib/pud/wireformat/src/wireFormat.c:81-83 getValidityTime *)
Definition get_validity (f : Z) : Z := from_olsr (Z.shiftr f 4) (f mod 16).
(** lib/pud/wireformat/src/wireFormat.c:99-102: the loop; [n] bounds the iterations,
    there are at most 15 as msn < 16 *)
Fixpoint find_msn (n : nat) (msn v : Z) : Z :=
  match n with
  | O => msn
  | S n' => if (msn <? 16) && (v >=? from_olsr msn 0) then find_msn n' (msn + 1) v else msn
  end.
(** lib/pud/wireformat/src/wireFormat.c:94-111: msn and lsn before the assertions *)
Definition msn_lsn (v : Z) : Z * Z :=
  let m := find_msn 15 1 v in
  let upper := from_olsr m 0 in
  let msn := m - 1 in
  if v >=? upper then (msn, 15)
  else (msn, (v - from_olsr msn 0 + Z.shiftr (Z.shiftl 1 msn) 1) / Z.shiftl 1 msn).
(** lib/pud/wireformat/src/wireFormat.c:93-117 setValidityTime; None is the abort of an
    assertion, which Makefile.inc:51, 328-335 compile in unless DEBUG=0 ([nd]) *)
Definition set_validity (nd : bool) (v : Z) : option Z :=
  let (msn, lsn) := msn_lsn v in
  if negb nd && negb ((msn <=? 15) && (lsn <=? 15)) then None
  else Some (u8 (Z.lor (Z.shiftl msn 4) lsn)).

(** lib/pud/wireformat/src/wireFormat.c:393-396 setPositionUpdateTime: a field of
    PUD_TIME_BITS = 17 bits (lib/pud/wireformat/include/OlsrdPudWireFormat/wireFormat.h:89) *)
Definition set_time (h m s : Z) : Z := (h * 60 * 60 + m * 60 + s) mod 2 ^ 17.
(** struct tm as day, hour, minute, second, lib/pud/wireformat/src/wireFormat.c:346-347 *)
Record tm := { t_day : Z; t_hour : Z; t_min : Z; t_sec : Z }.
(** gmtime_r, lib/pud/wireformat/src/wireFormat.c:352 *)
Definition gmtime (t : Z) : tm :=
  {| t_day := t / 86400; t_hour := t mod 86400 / 3600; t_min := t mod 3600 / 60; t_sec := t mod 60 |}.
(** lib/pud/wireformat/src/wireFormat.c:346-378 getPositionUpdateTime *)
Definition get_time (olsrTime base : Z) : tm :=
  let n0 := gmtime base in
  let secNow := t_hour n0 * 60 * 60 + t_min n0 * 60 + t_sec n0 in
  let n :=
    if secNow <=? 12 * 60 * 60 then
      if olsrTime >? secNow + 12 * 60 * 60 then gmtime (base - 24 * 60 * 60) else n0
    else
      if olsrTime <? secNow - 12 * 60 * 60 then gmtime (base + 24 * 60 * 60) else n0 in
  {| t_day := t_day n; t_hour := olsrTime mod (24 * 60 * 60) / 3600;
     t_min := olsrTime mod (60 * 60) / 60; t_sec := olsrTime mod 60 |}.

(** the doubles of the plugin, lib/pud/wireformat/src/wireFormat.c:551-626: how many
    2^-20 the number 1 has *)
Definition one : Z := 2 ^ 20.
(** lrint with the default rounding, lib/pud/wireformat/src/wireFormat.c:563, 598, 625 *)
Definition lrint (x : Z) : Z :=
  let q := (x + one / 2) / one in
  if (x mod one =? one / 2) && Z.odd q then q - 1 else q.
(** lib/pud/wireformat/include/OlsrdPudWireFormat/wireFormat.h:127 PUD_ALTITUDE_MIN *)
Definition ALT_MIN : Z := -400.
(** lib/pud/wireformat/include/OlsrdPudWireFormat/wireFormat.h:130 PUD_ALTITUDE_MAX *)
Definition ALT_MAX : Z := 2 ^ 16 - 1 + ALT_MIN.
(** lib/pud/wireformat/src/wireFormat.c:551-564 setPositionUpdateAltitude *)
Definition set_alt (x : Z) : Z :=
  let a := if x >? ALT_MAX * one then ALT_MAX * one else if x <? ALT_MIN * one then ALT_MIN * one else x in
  lrint (a - ALT_MIN * one) mod 2 ^ 16.
(** lib/pud/wireformat/src/wireFormat.c:538-541 getPositionUpdateAltitude *)
Definition get_alt (f : Z) : Z := f + ALT_MIN.
(** lib/pud/wireformat/src/wireFormat.c:588-599 setPositionUpdateSpeed,
    PUD_SPEED_MAX of lib/pud/wireformat/include/OlsrdPudWireFormat/wireFormat.h:140-143 *)
Definition set_speed (x : Z) : Z :=
  let s := if x <? 0 then 0 else if x >? (2 ^ 12 - 1) * one then (2 ^ 12 - 1) * one else x in
  lrint s mod 2 ^ 12.
(** lib/pud/wireformat/src/wireFormat.c:623-626 setPositionUpdateTrack *)
Definition set_track (x : Z) : Z := lrint x mod 2 ^ 9.

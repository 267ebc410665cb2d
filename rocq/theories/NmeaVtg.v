(** Model of the GPVTG sentences of nmealib (lib/pud/nmealib/src/gpvtg.c:28-194): the track and the
    speed.  A double is the number of its units of 2^-1074, with [num] for the number in a text and
    [isnum] if it is one (nmeaStringToDouble); infinities are left out.  [kph] and [knots] are the
    multiplications with NMEALIB_KNOT_TO_KPH and NMEALIB_KPH_TO_KNOT.  A field with its bit of
    [present] is an option; the speed has both of its units, as the parser and nmeaGPVTGFromInfo
    leave it.  Definitions only. *)
From Coq Require Import String.
From Verif Require Import Base Regex NmeaScan NmeaGsv NmeaGga.

(** lib/pud/nmealib/include/nmealib/gpvtg.h:69-79 NmeaGPVTG: track, magnetic track, and the speed in
    knots and in km/h *)
Record vtg := mkVtg { vTrack : option Z; vMtrack : option Z; vSpeed : option (Z * Z) }.
(** the same of NmeaInfo, lib/pud/nmealib/src/gpvtg.c:147-164 *)
Record vinfo := mkVi { viTrack : option Z; viMtrack : option Z; viSpeed : option Z }.
(** lib/pud/nmealib/src/gpvtg.c:50, the format *)
Definition vtg_format : list Z := str "$GPVTG,%f,%C,%f,%C,%f,%C,%f,%C*".
(** a number that needs its unit, lib/pud/nmealib/src/gpvtg.c:69-120 *)
Definition with_unit (x : option Z) (c unit : Z) : option (option Z) :=
  match x with None => Some None | Some v => if c =? unit then Some (Some v) else None end.
(** lib/pud/nmealib/src/gpvtg.c:122-128, the unit of the speed that is not given *)
Definition both (kph knots : Z -> Z) (n k : option Z) : option (Z * Z) :=
  match n, k with
  | Some a, Some b => Some (a, b)
  | Some a, None => Some (a, kph a)
  | None, Some b => Some (knots b, b)
  | None, None => None
  end.
(** lib/pud/nmealib/src/gpvtg.c:60-128, the checks of what was read *)
Definition check_vtg (num : list Z -> Z) (kph knots : Z -> Z) (tokens : nat) (l : list val) : option vtg :=
  if negb (tokens =? 8)%nat then None
  else match with_unit (destD num l 0) (destC l 1) 84, with_unit (destD num l 2) (destC l 3) 77,
             with_unit (destD num l 4) (destC l 5) 78, with_unit (destD num l 6) (destC l 7) 75 with
       | Some t, Some m, Some n, Some k => Some (mkVtg t m (both kph knots n k))
       | _, _, _, _ => None
       end.
(** lib/pud/nmealib/src/gpvtg.c:28-135 nmeaGPVTGParse *)
Definition parse_vtg (num : list Z -> Z) (kph knots : Z -> Z) (isnum : list Z -> bool) (s : list Z) : option vtg :=
  match s with
  | [] => None
  | _ => match nmea_scanf isnum s (Some 0) vtg_format with Some (tokens, l) => check_vtg num kph knots tokens l | None => None end
  end.
(** lib/pud/nmealib/src/gpvtg.c:137-165 nmeaGPVTGToInfo *)
Definition vtg_info (p : vtg) (u : vinfo) : vinfo :=
  mkVi (over (vTrack p) (viTrack u)) (over (vMtrack p) (viMtrack u)) (match vSpeed p with Some (_, k) => Some k | None => viSpeed u end).
(** lib/pud/nmealib/src/gpvtg.c:167-194 nmeaGPVTGFromInfo *)
Definition info_vtg (knots : Z -> Z) (u : vinfo) : vtg :=
  mkVtg (viTrack u) (viMtrack u) (match viSpeed u with Some k => Some (knots k, k) | None => None end).

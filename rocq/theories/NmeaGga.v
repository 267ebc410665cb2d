(** Model of the GPGGA sentences of nmealib (lib/pud/nmealib/src/gpgga.c:30-319).  A double is the
    number of its units of 2^-1074; infinities and the sign of 0 are left out.  [num] is the number
    in a text and [isnum] says if it is one (nmeaStringToDouble).  A field with its bit of
    [present] is an option.  Definitions only. *)
From Coq Require Import String.
From Verif Require Import Base Regex NmeaScan NmeaTime NmeaGsv.

(** lib/pud/nmealib/include/nmealib/gpgga.h:83-99 NmeaGPGGA; the latitude and longitude with their letters.
    See lib/pud/nmealib/src/gpgga.c:82-171 for what is present *)
Record gga := mkGga { gaTime : option (Z * Z * Z * Z); gaLat : option (Z * Z); gaLon : option (Z * Z); gaSig : option Z; gaCnt : option Z;
  gaHdop : option Z; gaElv : option Z; gaHeight : option Z; gaAge : option Z; gaSid : option Z }.
(** the same of NmeaInfo, lib/pud/nmealib/src/gpgga.c:191-246 *)
Record ginfo := mkGi { giTime : option (Z * Z * Z * Z); giLat : option Z; giLon : option Z; giSig : option Z; giCnt : option Z;
  giHdop : option Z; giElv : option Z; giHeight : option Z; giAge : option Z; giSid : option Z }.
(** lib/pud/nmealib/src/gpgga.c:57, the format *)
Definition gga_format : list Z := str "$GPGGA,%16s,%F,%C,%F,%C,%d,%u,%F,%f,%C,%f,%C,%F,%u*".
(** a double that was NaN before, lib/pud/nmealib/src/gpgga.c:45-52 *)
Definition destD (num : list Z -> Z) (l : list val) (i : nat) : option Z :=
  match nth i l VKeep with VDbl a t => Some (if a then Z.abs (num t) else num t) | _ => None end.
(** a character that was 0 before, lib/pud/nmealib/src/gpgga.c:44 *)
Definition destC (l : list val) (i : nat) : Z := match nth i l VKeep with VChar c => c | _ => 0 end.
(** lib/pud/nmealib/src/gpgga.c:93-113, a coordinate with one of two letters; lib/pud/nmealib/src/validate.c:133-161 nmeaValidateNSEW *)
Definition coord (x : option Z) (c a b : Z) : option (option (Z * Z)) :=
  match x with None => Some None | Some v => if (c =? a) || (c =? b) then Some (Some (v, c)) else None end.
(** lib/pud/nmealib/src/gpgga.c:137-159, a number with the unit M *)
Definition metres (x : option Z) (c : Z) : option (option Z) :=
  match x with None => Some None | Some v => if c =? 77 then Some (Some v) else None end.
(** lib/pud/nmealib/src/gpgga.c:74-171, the checks of what was read; the signal
    is unsigned, and nmeaValidateSignal compares it so (lib/pud/nmealib/src/validate.c:174-182) *)
Definition check_gga (num : list Z -> Z) (tokens : nat) (l : list val) : option gga :=
  if negb (tokens =? 14)%nat then None
  else
    let sig := destI l 5 (2 ^ 31 - 1) in
    let cnt := destU l 6 (2 ^ 32 - 1) in
    let sid := destU l 13 (2 ^ 32 - 1) in
    match utc_time (match nth 0 l VKeep with VStr t => t | _ => [] end) with
    | Refused => None
    | tm =>
        match coord (destD num l 1) (destC l 2) 78 83, coord (destD num l 3) (destC l 4) 69 87,
              metres (destD num l 8) (destC l 9), metres (destD num l 10) (destC l 11) with
        | Some lat, Some lon, Some elv, Some hgt =>
            if negb (sig =? 2 ^ 31 - 1) && (u32 sig >? 8) then None
            else Some (mkGga (match tm with Present t => Some t | _ => None end) lat lon
                             (if sig =? 2 ^ 31 - 1 then None else Some (u32 sig)) (if cnt =? 2 ^ 32 - 1 then None else Some cnt)
                             (destD num l 7) elv hgt (destD num l 12) (if sid =? 2 ^ 32 - 1 then None else Some sid))
        | _, _, _, _ => None
        end
    end.
(** lib/pud/nmealib/src/gpgga.c:30-179 nmeaGPGGAParse *)
Definition parse_gga (num : list Z -> Z) (isnum : list Z -> bool) (s : list Z) : option gga :=
  match s with
  | [] => None
  | _ => match nmea_scanf isnum s (Some 0) gga_format with Some (tokens, l) => check_gga num tokens l | None => None end
  end.
(** a field that is present replaces the old one, lib/pud/nmealib/src/gpgga.c:191-246 *)
Definition over {A} (new old : option A) : option A := match new with Some _ => new | None => old end.
(** lib/pud/nmealib/src/gpgga.c:199-211: S and W are negative *)
Definition signed (neg : Z) (x : option (Z * Z)) : option Z := match x with Some (v, c) => Some (if c =? neg then - v else v) | None => None end.
(** lib/pud/nmealib/src/gpgga.c:181-247 nmeaGPGGAToInfo *)
Definition gga_info (p : gga) (u : ginfo) : ginfo :=
  mkGi (over (gaTime p) (giTime u)) (over (signed 83 (gaLat p)) (giLat u)) (over (signed 87 (gaLon p)) (giLon u)) (over (gaSig p) (giSig u)) (over (gaCnt p) (giCnt u))
       (over (gaHdop p) (giHdop u)) (over (gaElv p) (giElv u)) (over (gaHeight p) (giHeight u)) (over (gaAge p) (giAge u)) (over (gaSid p) (giSid u)).
(** lib/pud/nmealib/src/gpgga.c:265-279: the letter for the sign *)
Definition unsigned_ (pos neg : Z) (x : option Z) : option (Z * Z) := match x with Some v => Some (Z.abs v, if v >=? 0 then pos else neg) | None => None end.
(** lib/pud/nmealib/src/gpgga.c:249-319 nmeaGPGGAFromInfo *)
Definition info_gga (u : ginfo) : gga :=
  mkGga (giTime u) (unsigned_ 78 83 (giLat u)) (unsigned_ 69 87 (giLon u)) (giSig u) (giCnt u) (giHdop u) (giElv u) (giHeight u) (giAge u) (giSid u).

(** Model of the GPRMC sentences of nmealib (lib/pud/nmealib/src/gprmc.c:29-336).  A double is the
    number of its units of 2^-1074, with [num] for the number in a text and [isnum] if it is one
    (nmeaStringToDouble); infinities and the sign of 0 are left out.  [kph] and [knots] are the
    multiplications with NMEALIB_KNOT_TO_KPH and NMEALIB_KPH_TO_KNOT.  A field with its bit of
    [present] is an option; a signal that is not present is 0.  Definitions only. *)
From Coq Require Import String.
From Verif Require Import Base Regex NmeaScan NmeaTime NmeaGsv NmeaGga.

(** NmeaGPRMC as lib/pud/nmealib/src/gprmc.c:77-182 leaves it: v23, time, date, status and mode,
    latitude, longitude, speed in knots, track, magnetic variation *)
Record rmc := mkRmc { rV23 : bool; rTime : option (Z * Z * Z * Z); rDate : option (Z * Z * Z); rSig : option (Z * Z);
  rLat : option (Z * Z); rLon : option (Z * Z); rSpeed : option Z; rTrack : option Z; rMag : option (Z * Z) }.
(** the same of NmeaInfo, lib/pud/nmealib/src/gprmc.c:203-267 *)
Record rinfo := mkRi { riTime : option (Z * Z * Z * Z); riDate : option (Z * Z * Z); riSig : option Z; riLat : option Z; riLon : option Z;
  riSpeed : option Z; riTrack : option Z; riMag : option Z }.
(** lib/pud/nmealib/src/gprmc.c:55, the format *)
Definition rmc_format : list Z := str "$GPRMC,%16s,%C,%F,%C,%F,%C,%f,%f,%16s,%F,%C,%C*".
(** lib/pud/nmealib/src/validate.c:184-203 nmeaValidateMode: N A D P R F E M S *)
Definition modes : list Z := [78; 65; 68; 80; 82; 70; 69; 77; 83].
(** lib/pud/nmealib/src/gprmc.c:95-124, the status and the mode *)
Definition status (v23 : bool) (sel mode : Z) : option (option (Z * Z)) :=
  if negb (sel =? 0) && negb (sel =? 65) && negb (sel =? 86) then None
  else if negb v23 then Some (if negb (sel =? 0) then Some (sel, 0) else None)
  else if negb (sel =? 0) && negb (mode =? 0)
  then if existsb (Z.eqb mode) modes then Some (Some (sel, mode)) else None
  else Some None.
(** a text, empty if nothing was stored, lib/pud/nmealib/src/gprmc.c:44-45 *)
Definition destS (l : list val) (i : nat) : list Z := match nth i l VKeep with VStr t => t | _ => [] end.
(** what a time or a date becomes, lib/pud/nmealib/src/gprmc.c:81-93, 160-171 *)
Definition got {A} (x : said_field A) : option (option A) := match x with Absent => Some None | Present a => Some (Some a) | Refused => None end.
(** lib/pud/nmealib/src/gprmc.c:70-184, the checks of what was read *)
Definition check_rmc (num : list Z -> Z) (tokens : nat) (l : list val) : option rmc :=
  if negb (tokens =? 11)%nat && negb (tokens =? 12)%nat then None
  else
    let v23 := (tokens =? 12)%nat in
    match got (utc_time (destS l 0)), status v23 (destC l 1) (destC l 11), coord (destD num l 2) (destC l 3) 78 83, coord (destD num l 4) (destC l 5) 69 87,
          got (utc_date (destS l 8)), coord (destD num l 9) (destC l 10) 69 87 with
    | Some tm, Some sg, Some lat, Some lon, Some dt, Some mag => Some (mkRmc v23 tm dt sg lat lon (destD num l 6) (destD num l 7) mag)
    | _, _, _, _, _, _ => None
    end.
(** lib/pud/nmealib/src/gprmc.c:29-191 nmeaGPRMCParse *)
Definition parse_rmc (num : list Z -> Z) (isnum : list Z -> bool) (s : list Z) : option rmc :=
  match s with
  | [] => None
  | _ => match nmea_scanf isnum s (Some 0) rmc_format with Some (tokens, l) => check_rmc num tokens l | None => None end
  end.
(** lib/pud/nmealib/src/info.c:27-59 nmeaInfoModeToSignal *)
Definition mode_signal (m : Z) : Z :=
  if m =? 65 then 1 else if m =? 68 then 2 else if m =? 80 then 3 else if m =? 82 then 4 else if m =? 70 then 5
  else if m =? 69 then 6 else if m =? 77 then 7 else if m =? 83 then 8 else 0.
(** lib/pud/nmealib/src/info.c:61-93 nmeaInfoSignalToMode *)
Definition signal_mode (g : Z) : Z :=
  if g =? 1 then 65 else if g =? 2 then 68 else if g =? 3 then 80 else if g =? 4 then 82 else if g =? 5 then 70
  else if g =? 6 then 69 else if g =? 7 then 77 else if g =? 8 then 83 else 78.
(** lib/pud/nmealib/src/gprmc.c:211-229, the signal *)
Definition new_signal (v23 : bool) (sg : option (Z * Z)) (old : option Z) : option Z :=
  match sg with
  | None => old
  | Some (sel, mode) =>
      if negb v23
      then if (sel =? 65) && (match old with Some g => g | None => 0 end =? 0) then Some 1 else old
      else if negb (sel =? 65) then Some 0 else Some (mode_signal mode)
  end.
(** lib/pud/nmealib/src/gprmc.c:231-243, 262-267: N and E are positive *)
Definition toward (pos : Z) (x : option (Z * Z)) : option Z := match x with Some (v, c) => Some (if c =? pos then v else - v) | None => None end.
(** lib/pud/nmealib/src/gprmc.c:193-268 nmeaGPRMCToInfo *)
Definition rmc_info (kph : Z -> Z) (p : rmc) (u : rinfo) : rinfo :=
  mkRi (over (rTime p) (riTime u)) (over (rDate p) (riDate u)) (new_signal (rV23 p) (rSig p) (riSig u)) (over (toward 78 (rLat p)) (riLat u)) (over (toward 69 (rLon p)) (riLon u))
       (over (option_map kph (rSpeed p)) (riSpeed u)) (over (rTrack p) (riTrack u)) (over (toward 69 (rMag p)) (riMag u)).
(** lib/pud/nmealib/src/gprmc.c:270-336 nmeaGPRMCFromInfo *)
Definition info_rmc (knots : Z -> Z) (u : rinfo) : rmc :=
  mkRmc true (riTime u) (riDate u) (match riSig u with Some g => Some (if negb (g =? 0) then 65 else 86, signal_mode g) | None => None end)
        (unsigned_ 78 83 (riLat u)) (unsigned_ 69 87 (riLon u)) (option_map knots (riSpeed u)) (riTrack u) (unsigned_ 69 87 (riMag u)).

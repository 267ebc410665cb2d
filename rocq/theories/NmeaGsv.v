(** Model of the GPGSV sentences of nmealib (lib/pud/nmealib/src/gpgsv.c:28-292): the satellites in view, read
    from a sentence, put into the position information and taken out of it.  The bits of
    [present] that belong to them are booleans.  [None] is a write outside of the array.  The
    other fields of the information are left out.  Definitions only. *)
From Coq Require Import String.
From Verif Require Import Base Regex NmeaScan.

(** lib/pud/nmealib/include/nmealib/info.h:204-209 NmeaSatellite *)
Record sat := mkSat { prn : Z; elev : Z; azim : Z; snr : Z }.
(** a satellite after memset, lib/pud/nmealib/src/gpgsv.c:226 *)
Definition no_sat : sat := mkSat 0 0 0 0.
(** lib/pud/nmealib/include/nmealib/gpgsv.h:108-114 NmeaGPGSV *)
Record gsv := mkGsv { hasCount : bool; hasView : bool; sCount : Z; sNum : Z; cnt : Z; sats : list sat }.
(** the satellites in view of NmeaInfo, lib/pud/nmealib/include/nmealib/info.h:217-218, and whether a
    series is in progress *)
Record view := mkView { vHasCount : bool; vHas : bool; vCnt : Z; vSats : list sat; vBusy : bool }.
(** lib/pud/nmealib/include/nmealib/info.h:151 NMEALIB_MAX_SATELLITES *)
Definition maxsat : nat := 72.
(** lib/pud/nmealib/include/nmealib/gpgsv.h:48 NMEALIB_GPGSV_MAX_SENTENCES *)
Definition maxsent : Z := 18.
(** lib/pud/nmealib/src/gpgsv.c:28-42 nmeaGPGSVsatellitesToSentencesCount *)
Definition to_sentences (n : Z) : Z :=
  if n =? 0 then 1 else let c := Z.shiftr n 2 in if negb (Z.land n 3 =? 0) then c + 1 else c.
(** lib/pud/nmealib/src/gpgsv.c:76-80, the format *)
Definition gsv_format : list Z := str "$GPGSV,%u,%u,%u,%u,%d,%u,%u,%u,%d,%u,%u,%u,%d,%u,%u,%u,%d,%u,%u*".
(** the destination of a %u token, with what it held before, lib/pud/nmealib/src/gpgsv.c:60, 70-85 *)
Definition destU (l : list val) (i : nat) (old : Z) : Z := match nth i l VKeep with VUns v => v | _ => old end.
(** the destination of a %d token, lib/pud/nmealib/src/gpgsv.c:60, 82-85 *)
Definition destI (l : list val) (i : nat) (old : Z) : Z := match nth i l VKeep with VInt v => v | _ => old end.
(** lib/pud/nmealib/src/gpgsv.c:82-85, satellite [j] of the sentence *)
Definition sat_at (l : list val) (j : nat) : sat :=
  mkSat (destU l (3 + 4 * j) 0) (destI l (4 + 4 * j) 0) (destU l (5 + 4 * j) 0) (destU l (6 + 4 * j) 0).
(** lib/pud/nmealib/src/validate.c:205-227 nmeaValidateSatellite *)
Definition valid_sat (s : sat) : bool :=
  negb ((elev s <? - 180) || (elev s >? 180)) && negb (azim s >? 359) && negb (snr s >? 99).
(** the checks of the counters, lib/pud/nmealib/src/gpgsv.c:95-131 *)
Definition counters (sc sn n : Z) : bool :=
  negb (n >? 72) && negb (sc =? 0) && negb (sc >? maxsent) && (sc =? to_sentences n) && negb (sn =? 0) && negb (sn >? sc).
(** lib/pud/nmealib/src/gpgsv.c:87-158, the checks of what was read *)
Definition check (tokens : nat) (l : list val) : option gsv :=
  let sc := destU l 0 (2 ^ 32 - 1) in
  let sn := destU l 1 (2 ^ 32 - 1) in
  let n := destU l 2 (2 ^ 32 - 1) in
  if (sc =? 2 ^ 32 - 1) || (sn =? 2 ^ 32 - 1) || (n =? 2 ^ 32 - 1) then None
  else if negb (counters sc sn n) then None
  else
    let here := if negb (sn =? sc) then 4 else n - Z.shiftl (sc - 1) 2 in
    if negb (Z.of_nat tokens =? 3 + 4 * here) && negb (tokens =? 19)%nat then None
    else
      let l := map (sat_at l) [0; 1; 2; 3]%nat in
      if forallb valid_sat l then Some (mkGsv true true sc sn n l) else None.
(** lib/pud/nmealib/src/gpgsv.c:44-170 nmeaGPGSVParse *)
Definition parse (isnum : list Z -> bool) (s : list Z) : option gsv :=
  match s with
  | [] => None
  | _ => match nmea_scanf isnum s (Some 0) gsv_format with
         | None => None
         | Some (tokens, l) => check tokens l
         end
  end.
(** a store to inView[i], lib/pud/nmealib/src/gpgsv.c:235-237 *)
Definition put (i : nat) (x : sat) (v : list sat) : list sat := firstn i v ++ x :: skipn (S i) v.
(** lib/pud/nmealib/src/gpgsv.c:232-239, the loop over the satellites of the sentence *)
Fixpoint copy (ps : list sat) (i : nat) (v : list sat) : list sat :=
  match ps with
  | [] => v
  | x :: r => if (i <? maxsat)%nat then copy r (S i) (put i (if prn x =? 0 then no_sat else x) v) else v
  end.
(** lib/pud/nmealib/src/gpgsv.c:172-249 nmeaGPGSVToInfo *)
Definition to_info (p : gsv) (v : view) : option view :=
  if hasCount p && (cnt p >? 72) then Some v
  else
    let v := if hasCount p then mkView true (vHas v) (cnt p) (vSats v) (vBusy v) else v in
    if hasView p then
      if (sCount p =? 0) || (sCount p >? maxsent) || negb (sCount p =? to_sentences (cnt p)) || (sNum p =? 0) || (sNum p >? sCount p) then Some v
      else
        let start := Z.to_nat (Z.shiftl (sNum p) 2) in
        if (maxsat <? start)%nat then None
        else
          let cleared := firstn start (vSats v) ++ repeat no_sat (maxsat - start) in
          Some (mkView (vHasCount v) true (vCnt v) (copy (sats p) (Z.to_nat (Z.shiftl (sNum p - 1) 2)) cleared) (negb (sNum p =? sCount p)))
    else Some v.
(** lib/pud/nmealib/src/gpgsv.c:286-288, four satellites from [i], as far as the array goes *)
Fixpoint take (n : nat) (i : nat) (v : list sat) : list sat :=
  match n with
  | O => []
  | S n => (if (i <? maxsat)%nat then nth i v no_sat else no_sat) :: take n (S i) v
  end.
(** lib/pud/nmealib/src/gpgsv.c:251-292 nmeaGPGSVFromInfo *)
Definition from_info (v : view) (sentence : Z) : gsv :=
  let none := mkGsv false false 0 0 0 [no_sat; no_sat; no_sat; no_sat] in
  if negb (vHasCount v) || (vCnt v =? 0) then none
  else if sentence >=? to_sentences (vCnt v) then none
  else if vHas v then mkGsv true true (to_sentences (vCnt v)) (sentence + 1) (vCnt v) (take 4 (Z.to_nat (Z.shiftl sentence 2)) (vSats v))
  else mkGsv true false (to_sentences (vCnt v)) 0 (vCnt v) [no_sat; no_sat; no_sat; no_sat].

(** Model of the GPGSA sentences of nmealib (lib/pud/nmealib/src/gpgsa.c:30-238): the selection mode, the kind of
    fix and the satellites in use.  The dilutions of precision are left out; their fields are
    read.  The bits of [present] are booleans.  Definitions only. *)
From Coq Require Import String.
From Verif Require Import Base Regex NmeaScan NmeaGsv.

(** lib/pud/nmealib/include/nmealib/gpgsa.h:91-99 NmeaGPGSA *)
Record gsa := mkGsa { gHasSig : bool; gHasFix : bool; gHasUse : bool; gSig : Z; gFix : Z; gPrn : list Z }.
(** the same of NmeaInfo, lib/pud/nmealib/include/nmealib/info.h:214-216 *)
Record inuse := mkUse { uHasSig : bool; uSig : Z; uHasFix : bool; uFix : Z; uHas : bool; uCnt : Z; uPrn : list Z }.
(** lib/pud/nmealib/src/gpgsa.c:52-54, the format *)
Definition gsa_format : list Z := str "$GPGSA,%C,%d,%u,%u,%u,%u,%u,%u,%u,%u,%u,%u,%u,%u,%F,%F,%F*".
(** lib/pud/nmealib/src/gpgsa.c:73-119, the checks of what was read *)
Definition check_gsa (tokens : nat) (l : list val) : option gsa :=
  if negb (tokens =? 17)%nat then None
  else
    let sig := match nth 0 l VKeep with VChar c => c | _ => 0 end in
    let fix_ := destI l 1 (2 ^ 31 - 1) in
    let prns := map (fun i => destU l i 0) (seq 2 12) in
    if negb (sig =? 0) && negb (sig =? 65) && negb (sig =? 77) then None
    else if negb (fix_ =? 2 ^ 31 - 1) && ((fix_ <? 1) || (fix_ >? 3)) then None
    else
      let hasFix := negb (fix_ =? 2 ^ 31 - 1) in
      Some (mkGsa (negb (sig =? 0)) hasFix (existsb (fun p => negb (p =? 0)) prns) sig (if hasFix then fix_ else 1) prns).
(** lib/pud/nmealib/src/gpgsa.c:30-139 nmeaGPGSAParse *)
Definition parse_gsa (isnum : list Z -> bool) (s : list Z) : option gsa :=
  match s with
  | [] => None
  | _ => match nmea_scanf isnum s (Some 0) gsa_format with Some (tokens, l) => check_gsa tokens l | None => None end
  end.
(** a store to inUse[i], lib/pud/nmealib/src/gpgsa.c:172, 177 *)
Definition setz (i : nat) (x : Z) (v : list Z) : list Z := firstn i v ++ x :: skipn (S i) v.
(** lib/pud/nmealib/src/gpgsa.c:174-180, the loop *)
Fixpoint fill (ps : list Z) (i : nat) (v : list Z) (c : Z) : list Z * Z :=
  match ps with
  | [] => (v, c)
  | p :: r => if (i <? maxsat)%nat then if negb (p =? 0) then fill r (S i) (setz i p v) (c + 1) else fill r i v c else (v, c)
  end.
(** lib/pud/nmealib/src/gpgsa.c:141-199 nmeaGPGSAToInfo; memset clears one element *)
Definition use_sentence (p : gsa) (u : inuse) : inuse :=
  let setSig := gHasSig p && (uSig u =? 0) in
  let '(use, c) := if gHasUse p then fill (gPrn p) 0 (setz 0 0 (uPrn u)) 0 else (uPrn u, uCnt u) in
  mkUse (uHasSig u || setSig) (if setSig then if gSig p =? 77 then 7 else 1 else uSig u)
        (uHasFix u || gHasFix p) (if gHasFix p then gFix p else uFix u)
        (uHas u || gHasUse p) c use.
(** lib/pud/nmealib/src/gpgsa.c:229-234, the first [n] numbers that are not 0 *)
Fixpoint pick (n : nat) (v : list Z) : list Z :=
  match v with
  | [] => []
  | x :: r => match n with O => [] | S m => if negb (x =? 0) then x :: pick m r else pick n r end
  end.
(** lib/pud/nmealib/src/gpgsa.c:201-238 nmeaGPGSAFromInfo *)
Definition make_sentence (u : inuse) : gsa :=
  let l := if uHas u then pick 12 (uPrn u) else [] in
  mkGsa (uHasSig u) (uHasFix u) (uHas u) (if uHasSig u then if uSig u =? 7 then 77 else 65 else 0) (if uHasFix u then uFix u else 1)
        (l ++ repeat 0 (12 - List.length l)).

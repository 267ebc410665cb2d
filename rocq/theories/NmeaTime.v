(** Model of the time and the date of an NMEA sentence: nmeaStringTrim, nmeaTimeParseTime,
    nmeaTimeParseDate, their validation and their use by the parsers.  Characters are numbers from
    0 to 255, a buffer is the list of its characters before the NUL.  What a refused sentence
    leaves in the structure is not modelled: the caller clears it.  Definitions only. *)
From Coq Require Import String.
From Verif Require Import Base Regex NmeaScan.

(** isspace in the C locale, as used in lib/pud/nmealib/src/util.c:75, 81, 97 *)
Definition is_sp (c : Z) : bool := (c =? 32) || ((9 <=? c) && (c <=? 13)).
(** lib/pud/nmealib/src/util.c:75-77 the spaces at the front *)
Fixpoint ltrim (s : list Z) : list Z := match s with c :: r => if is_sp c then ltrim r else s | [] => [] end.
(** lib/pud/nmealib/src/util.c:64-87 nmeaStringTrim; the length shrinks while the last one is a space *)
Definition trim (s : list Z) : list Z := rev (ltrim (rev (ltrim s))).
(** lib/pud/nmealib/src/util.c:89-104 nmeaStringContainsWhitespace *)
Definition has_sp (s : list Z) : bool := existsb is_sp s.
(** what the destination of a %u token holds afterwards; the structure was cleared before,
    lib/pud/nmealib/src/gprmc.c:46 *)
Definition held (v : val) : Z := match v with VUns x => x | _ => 0 end.
(** the tokens that nmeaScanf finds in a trimmed text; a NUL or a space is behind it,
    lib/pud/nmealib/src/info.c:113, 117, 125, 129, 159; no token of these formats asks strtod *)
Definition tokens (s f : list Z) : option (nat * list val) := nmea_scanf (fun _ => false) s (Some 0) f.
(** lib/pud/nmealib/src/info.c:113 and 159, three numbers of two characters *)
Definition three (s : list Z) : option (Z * Z * Z) :=
  match tokens s (str "%2u%2u%2u") with Some (3%nat, [a; b; c]) => Some (held a, held b, held c) | _ => None end.
(** lib/pud/nmealib/src/info.c:117, 125 and 129, with a fraction *)
Definition four (s : list Z) : option (Z * Z * Z * Z) :=
  match tokens s (str "%2u%2u%2u.%u") with Some (4%nat, [a; b; c; d]) => Some (held a, held b, held c, held d) | _ => None end.
(** lib/pud/nmealib/src/info.c:95-137 nmeaTimeParseTime: hour, minute, second, hundredths *)
Definition parse_time (buf : list Z) : option (Z * Z * Z * Z) :=
  let t := trim buf in
  if has_sp t then None
  else if (List.length t =? 6)%nat then match three t with Some (h, m, s) => Some (h, m, s, 0) | None => None end
  else if (List.length t =? 8)%nat then match four t with Some (h, m, s, f) => Some (h, m, s, u32 (f * 10)) | None => None end
  else if (List.length t =? 9)%nat then four t
  else if (List.length t =? 10)%nat then match four t with Some (h, m, s, f) => Some (h, m, s, u32 (f + 5) / 10) | None => None end
  else None.
(** lib/pud/nmealib/src/info.c:139-170 nmeaTimeParseDate: day, month, year *)
Definition parse_date (buf : list Z) : option (Z * Z * Z) :=
  let t := trim buf in
  if has_sp t then None
  else if negb (List.length t =? 6)%nat then None
  else match three t with
       | Some (d, m, y) => Some (d, m, if y >? 90 then u32 (y + 1900) else u32 (y + 2000))
       | None => None
       end.
(** lib/pud/nmealib/src/validate.c:97-112 nmeaValidateTime *)
Definition valid_time (h m s f : Z) : bool := negb ((h >? 23) || (m >? 59) || (s >? 60) || (f >? 99)).
(** lib/pud/nmealib/src/validate.c:114-131 nmeaValidateDate *)
Definition valid_date (d m y : Z) : bool :=
  negb ((y <? 1900) || (y >? 2089) || (m <? 1) || (m >? 12) || (d <? 1) || (d >? 31)).
(** what a field says: nothing because it is empty, a value, or the sentence is refused,
    lib/pud/nmealib/src/gprmc.c:81-94, 160-171 *)
Inductive said_field (A : Type) := Absent | Present (a : A) | Refused.
Arguments Absent {A}. Arguments Present {A} a. Arguments Refused {A}.
(** lib/pud/nmealib/src/gprmc.c:81-93, lib/pud/nmealib/src/gpgga.c:82-91, the time of a sentence *)
Definition utc_time (buf : list Z) : said_field (Z * Z * Z * Z) :=
  match buf with
  | [] => Absent
  | _ => match parse_time buf with
         | Some (h, m, s, f) => if valid_time h m s f then Present (h, m, s, f) else Refused
         | None => Refused
         end
  end.
(** lib/pud/nmealib/src/gprmc.c:160-171, the date of a sentence *)
Definition utc_date (buf : list Z) : said_field (Z * Z * Z) :=
  match buf with
  | [] => Absent
  | _ => match parse_date buf with
         | Some (d, m, y) => if valid_date d m y then Present (d, m, y) else Refused
         | None => Refused
         end
  end.

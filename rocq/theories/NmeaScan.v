(** Model of nmeaScanf and its conversions (lib/pud/nmealib/src/util.c:126-233, 282-481).  Characters
    are numbers from 0 to 255.  The place that strtod gives a number is an argument: [isnum]
    says whether it finds one, and the value is kept as its text.  [None] is a read outside of
    the string.  Definitions only. *)
From Coq Require Import String.
From Verif Require Import Base.

(** isspace before a number, lib/pud/nmealib/src/util.c:166, 195 *)
Fixpoint skip_sp (s : list Z) : list Z := match s with c :: r => if (c =? 32) || ((9 <=? c) && (c <=? 13)) then skip_sp r else s | [] => [] end.
(** the digits, lib/pud/nmealib/src/util.c:166, 195; None if there is none *)
Fixpoint digits (seen : bool) (acc : Z) (s : list Z) : option Z :=
  match s with
  | c :: r => if (48 <=? c) && (c <=? 57) then digits true (10 * acc + (c - 48)) r else if seen then Some acc else None
  | [] => if seen then Some acc else None
  end.
(** the sign and the digits, lib/pud/nmealib/src/util.c:166, 195 *)
Definition number (s : list Z) : option (bool * Z) :=
  let s := skip_sp s in
  let '(neg, s) := match s with c :: r => if c =? 45 then (true, r) else if c =? 43 then (false, r) else (false, s) | [] => (false, []) end in
  match digits false 0 s with Some v => Some (neg, v) | None => None end.
(** lib/pud/nmealib/src/util.c:150-177 nmeaStringToLong with radix 10, of a long with 64 bits *)
Definition to_long (s : list Z) : Z :=
  if (64 <=? List.length s)%nat || (List.length s =? 0)%nat then 0
  else match number s with
       | None => 2 ^ 63 - 1
       | Some (neg, v) => let v := if neg then - v else v in if v >? 2 ^ 63 - 1 then 2 ^ 63 - 1 else if v <? - 2 ^ 63 then - 2 ^ 63 else v
       end.
(** lib/pud/nmealib/src/util.c:126-138 nmeaStringToInteger *)
Definition to_int (s : list Z) : Z :=
  let r := to_long s in if r <? - 2 ^ 31 then - 2 ^ 31 else if r >? 2 ^ 31 - 1 then 2 ^ 31 - 1 else r.
(** lib/pud/nmealib/src/util.c:140-148, 179-206 nmeaStringToUnsignedInteger *)
Definition to_uint (s : list Z) : Z :=
  let r := if (64 <=? List.length s)%nat || (List.length s =? 0)%nat then 0
           else match number s with
                | None => 2 ^ 64 - 1
                | Some (neg, v) => if v >? 2 ^ 64 - 1 then 2 ^ 64 - 1 else if neg then (- v) mod 2 ^ 64 else v
                end in
  if r >? 2 ^ 32 - 1 then 2 ^ 32 - 1 else r.

(** what a token stores, lib/pud/nmealib/src/util.c:374-450; [VKeep] is nothing, and [VDbl]
    has the text of the number (0.0 for an empty one) *)
Inductive val := VKeep | VChar (c : Z) | VStr (s : list Z) | VDbl (abs : bool) (s : list Z) | VInt (v : Z) | VUns (v : Z) | VLong (v : Z).
(** memchr in lib/pud/nmealib/src/util.c:339, 347: the characters before [d], or all *)
Fixpoint upto (d : Z) (s : list Z) : nat := match s with c :: r => if c =? d then O else S (upto d r) | [] => O end.
(** toupper in lib/pud/nmealib/src/util.c:342-343, 382 *)
Definition upper (c : Z) : Z := if (97 <=? c) && (c <=? 122) then c - 32 else c.
(** the result of a token: stored, a conversion that fails (tokens = 0), or a format that is
    not known, lib/pud/nmealib/src/util.c:374-456 *)
Inductive stored := SOk (v : val) | SBad | SUnknown.
(** lib/pud/nmealib/src/util.c:374-456: the text [t] of [w] characters, and widthMax *)
Definition store (isnum : list Z -> bool) (k : Z) (t : list Z) (wmax : nat) : stored :=
  match t with
  | [] => if existsb (Z.eqb k) [99; 67; 115; 102; 70; 100; 117; 108] then SOk VKeep else SUnknown
  | c :: _ =>
      if k =? 99 then SOk (VChar c)
      else if k =? 67 then SOk (VChar (upper c))
      else if k =? 115 then SOk (VStr (if (List.length t <? wmax)%nat then t else firstn (wmax - 1) t))
      else if (k =? 102) || (k =? 70) then
        if (64 <=? List.length t)%nat then SOk (VDbl (k =? 70) []) else if isnum t then SOk (VDbl (k =? 70) t) else SBad
      else if k =? 100 then if to_int t =? 2 ^ 31 - 1 then SBad else SOk (VInt (to_int t))
      else if k =? 117 then if to_uint t =? 2 ^ 32 - 1 then SBad else SOk (VUns (to_uint t))
      else if k =? 108 then if to_long t =? 2 ^ 63 - 1 then SBad else SOk (VLong (to_long t))
      else SUnknown
  end.
(** lib/pud/nmealib/src/util.c:282-481 nmeaScanf: [w] is the width read so far in a token,
    [s] the characters from sCharacter to sEnd, and [term] the one at sEnd; the number of
    tokens and what they store *)
Fixpoint scan (isnum : list Z -> bool) (term : option Z) (f : list Z) (tok : option (list Z)) (s : list Z) (n : nat) : option (nat * list val) :=
  match f with
  | [] => Some (n, [])
  | c :: g =>
      match tok with
      | Some ds =>
          if (48 <=? c) && (c <=? 57) then scan isnum term g (Some (ds ++ [c])) s n
          else
            let w := match ds with [] => 0 | _ => to_uint ds end in
            let wmax := match ds with [] => S (List.length s) | _ => Z.to_nat w end in
            let adv := if (w =? 0) || (upper c =? 83) || (upper c =? 67)
                       then match g with [] => List.length s | d :: _ => upto d s end
                       else Nat.min (Z.to_nat w) (List.length s) in
            let wid := match s with [] => O | x :: _ => if (x =? 42) || (x =? 0) then O else adv end in
            match store isnum c (firstn (Nat.min wid wmax) s) wmax with
            | SBad => Some (O, [])
            | SUnknown => Some (n, [])
            | SOk v => match scan isnum term g None (skipn adv s) (S n) with Some (m, l) => Some (m, v :: l) | None => None end
            end
      | None =>
          if c =? 37 then scan isnum term g (Some []) s n
          else match s with
               | x :: r => if x =? c then scan isnum term g None r n else Some (n, [])
               | [] => match term with Some _ => Some (n, []) | None => None end
               end
      end
  end.
(** lib/pud/nmealib/src/util.c:282-481 nmeaScanf *)
Definition nmea_scanf (isnum : list Z -> bool) (s : list Z) (term : option Z) (f : list Z) : option (nat * list val) := scan isnum term f None s 0.

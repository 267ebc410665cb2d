(** Model of the reader and the printer of NMEA sentences (lib/pud/nmealib/src/parser.c,
    validate.c and util.c).  Characters are numbers from 0 to 255; those from 128 on are
    negative as char, and tolower gives nothing hexadecimal for them.  Buffers are what is in
    them up to their length; [None] is an access outside of one.  Definitions only. *)
From Coq Require Import String.
From Verif Require Import Base.

(** lib/pud/nmealib/src/parser.c:35-56 nmeaParserIsHexCharacter, with the value that strtol
    gives the digit in lib/pud/nmealib/src/util.c:166 *)
Definition hexval (c : Z) : option Z :=
  if (48 <=? c) && (c <=? 57) then Some (c - 48)
  else if (97 <=? c) && (c <=? 102) then Some (c - 87)
  else if (65 <=? c) && (c <=? 70) then Some (c - 55)
  else None.
(** lib/pud/nmealib/src/validate.c:29-58, 60-77 nmeaValidateIsInvalidCharacter *)
Definition invalid (c : Z) : bool :=
  (c <? 32) || (c >? 126) || (c =? 36) || (c =? 42) || (c =? 33) || (c =? 92) || (c =? 94) || (c =? 126).

(** lib/pud/nmealib/include/nmealib/parser.h:34-39 *)
Inductive pstate := Skip | Sent | Ck | Eol.
(** lib/pud/nmealib/include/nmealib/parser.h:44-66: the sentence and the buffer; [p_first] is
    checksumCharacters[0], and [p_size] is bufferSize *)
Record parser := mkP { p_st : pstate; p_count : Z; p_first : Z; p_read : Z; p_calc : Z; p_eol : Z; p_buf : list Z; p_size : Z }.
(** lib/pud/nmealib/src/parser.c:58-71 nmeaParserReset *)
Definition reset (p : parser) (st : pstate) : parser := mkP st 0 0 0 0 0 [] (p_size p).
(** lib/pud/nmealib/src/parser.c:73-87 nmeaParserInit; malloc succeeds *)
Definition init (sz : Z) : parser := mkP Skip 0 0 0 0 0 [] (if sz =? 0 then 4096 else sz).
(** lib/pud/nmealib/src/parser.c:113, 130: one more character in the buffer *)
Definition put (p : parser) (c : Z) : option parser :=
  if Z.of_nat (List.length (p_buf p)) <? p_size p
  then Some (mkP (p_st p) (p_count p) (p_first p) (p_read p) (p_calc p) (p_eol p) (p_buf p ++ [c]) (p_size p))
  else None.
(** lib/pud/nmealib/src/parser.c:103-208 nmeaParserProcessCharacter: the sentence if it returns
    true *)
Definition step (p : parser) (c : Z) : option (parser * option (list Z)) :=
  if c =? 36 then match put (reset p Sent) c with Some p => Some (p, None) | None => None end
  else match p_st p with
  | Skip => Some (p, None)
  | _ =>
      if Z.of_nat (List.length (p_buf p)) >=? p_size p - 1 then Some (reset p Skip, None)
      else match put p c with
      | None => None
      | Some p =>
          match p_st p with
          | Ck =>
              match hexval c with
              | None => Some (reset p Skip, None)
              | Some v =>
                  if p_count p =? 0 then Some (mkP Ck 1 c 0 (p_calc p) (p_eol p) (p_buf p) (p_size p), None)
                  else
                    let hi := match hexval (p_first p) with Some h => h | None => 0 end in
                    Some (mkP Eol 2 (p_first p) (16 * hi + v) (p_calc p) (p_eol p) (p_buf p) (p_size p), None)
              end
          | Eol =>
              if p_eol p =? 0
              then if negb (c =? 13) then Some (reset p Skip, None)
                   else Some (mkP Eol (p_count p) (p_first p) (p_read p) (p_calc p) 1 (p_buf p) (p_size p), None)
              else if negb (c =? 10) then Some (reset p Skip, None)
              else
                let b := firstn (List.length (p_buf p) - 2) (p_buf p) in
                Some (mkP Skip (p_count p) (p_first p) (p_read p) (p_calc p) 2 b (p_size p),
                      if (p_count p =? 0) || (p_read p =? p_calc p) then Some b else None)
          | _ =>
              if c =? 42 then Some (mkP Ck 0 (p_first p) (p_read p) (p_calc p) (p_eol p) (p_buf p) (p_size p), None)
              else if c =? 13 then Some (mkP Eol (p_count p) (p_first p) (p_read p) (p_calc p) 1 (p_buf p) (p_size p), None)
              else if invalid c then Some (reset p Skip, None)
              else Some (mkP Sent (p_count p) (p_first p) (p_read p) (Z.lxor (p_calc p) c) (p_eol p) (p_buf p) (p_size p), None)
          end
      end
  end.
(** lib/pud/nmealib/src/parser.c:210-232 nmeaParserParse: the sentences that are given to
    nmeaSentenceToInfo *)
Fixpoint parse (p : parser) (s : list Z) : option (parser * list (list Z)) :=
  match s with
  | [] => Some (p, [])
  | c :: r =>
      match step p c with
      | None => None
      | Some (p, o) =>
          match parse p r with
          | None => None
          | Some (p, l) => Some (p, match o with Some b => b :: l | None => l end)
          end
      end
  end.

(** ** The printer *)
(** lib/pud/nmealib/src/util.c:119-121: the loop *)
Fixpoint crc (acc : Z) (s : list Z) : Z := match s with c :: r => crc (Z.lxor acc c) r | [] => acc end.
(** lib/pud/nmealib/src/util.c:106-124 nmeaCalculateCRC of the first [len] of [mem] *)
Definition calc_crc (mem : list Z) (len : nat) : option Z :=
  if (len =? 0)%nat then Some 255
  else if (List.length mem <? len)%nat then None
  else let s := firstn len mem in
       Some (Z.land (crc 0 (match s with c :: r => if c =? 36 then r else s | [] => [] end)) 255).
(** %X of a digit, lib/pud/nmealib/src/util.c:245 *)
Definition hexdigit (d : Z) : Z := if d <? 10 then 48 + d else 55 + d.
(** vsnprintf and snprintf in lib/pud/nmealib/src/util.c:245, 267: [text] at [off] of [mem],
    with room for [room] characters, the last for the NUL *)
Definition snprint (mem : list Z) (off room : nat) (text : list Z) : list Z :=
  if (room =? 0)%nat then mem
  else let t := firstn (room - 1) text ++ [0] in
       firstn off mem ++ t ++ skipn (off + List.length t) mem.
(** lib/pud/nmealib/src/util.c:236-250 nmeaAppendChecksum: the buffer, and the characters *)
Definition append_ck (mem : list Z) (len : nat) : option (list Z * Z) :=
  match calc_crc mem len with
  | None => None
  | Some v => Some (snprint mem len (List.length mem - len) [42; hexdigit (v / 16); hexdigit (v mod 16); 13; 10], 5)
  end.
(** lib/pud/nmealib/src/util.c:252-279 nmeaPrintf of what the format gives, [text]; the buffer
    has [sz] characters *)
Definition nmea_printf (mem text : list Z) : option (list Z * Z) :=
  match append_ck (snprint mem 0 (List.length mem) text) (List.length text) with
  | Some (m, n) => Some (m, Z.of_nat (List.length text) + n)
  | None => None
  end.

(** Vocabulary for the node ids of the PUD plugin; digits and numbers are those of
    ConfScanSpec.v. *)
From Verif Require Import Base ConfScanSpec.

(** small letters *)
Definition lower (c : Z) : Z := if (65 <=? c) && (c <=? 70) then c + 32 else c.
(** text of a name as it may be in a sentence: RFC 1123, 2.1 *)
Definition name_char (c : Z) : Prop := 48 <= c <= 57 \/ 65 <= c <= 90 \/ 97 <= c <= 122 \/ c = 45 \/ c = 46.
(** the types of ids that are one number, with their ranges and their numbers of bytes, as
    they are in the documentation of the wire format *)
Definition number_type (ty mn mx : Z) : Prop :=
  (ty = 1 /\ mn = 0 /\ mx = 999999999999999) \/ (ty = 2 /\ mn = 0 /\ mx = 99999999999999999) \/
  (ty = 7 /\ mn = 0 /\ mx = 999999999) \/ (ty = 8 /\ mn = 0 /\ mx = 16777215) \/
  (ty = 192 /\ mn = 0 /\ mx = 9999999) \/ (ty = 193 /\ mn = 0 /\ mx = 999999) \/ (ty = 194 /\ mn = 1 /\ mx = 8191).
(** the header of a message and the 21 bytes before the node id *)
Definition header (v6 : bool) (hd : list Z) : Prop := length hd = (if v6 then 24 else 12)%nat.
Definition fields (fx : list Z) : Prop := length fx = 21%nat.
(** a byte in six pairs of hexadecimal digits *)
Definition pair (b : Z) (t : list Z) : Prop := exists x y, t = [x; y] /\ hexdigit x /\ hexdigit y /\ hexvalue x * 16 + hexvalue y = b /\ lower x = x /\ lower y = y.

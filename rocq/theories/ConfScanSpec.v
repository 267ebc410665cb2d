(** Vocabulary for the scanner of the configuration: the parts of a file as they are
    described in files/olsrd.conf.default.full. *)
From Coq Require Import String.
From Verif Require Import Base Regex ConfScan.

Definition digit (c : Z) : Prop := 48 <= c <= 57.
Definition hexdigit (c : Z) : Prop := digit c \/ 97 <= c <= 102 \/ 65 <= c <= 70.
Definition hexvalue (c : Z) : Z := if c <=? 57 then c - 48 else if c <=? 70 then c - 55 else c - 87.
(** the number that digits stand for *)
Definition number (base : Z) (l : list Z) : Z := fold_left (fun a c => a * base + hexvalue c) l 0.
Definition some_digits (l : list Z) : Prop := l <> [] /\ Forall digit l.
(** a decimal number without needless zeros in front *)
Definition decimal (l : list Z) : Prop := some_digits l /\ (hd 0 l = 48 -> l = [48]).
Definition quad_text (l : list Z) : Prop := (1 <= length l <= 3)%nat /\ Forall digit l.
Definition ip4_text (s : list Z) : Prop := exists a b c d, Forall quad_text [a; b; c; d] /\ s = a ++ 46 :: b ++ 46 :: c ++ 46 :: d.
(** groups of an IPv6 address and the groups with colons between them *)
Definition group (g : list Z) : Prop := (1 <= length g <= 4)%nat /\ Forall hexdigit g.
Fixpoint colons (gs : list (list Z)) : list Z := match gs with [] => [] | [g] => g | g :: r => g ++ 58 :: colons r end.
(** RFC 4291, 2.2, forms 1 and 2 *)
Definition ip6_text (s : list Z) : Prop :=
  (exists gs, length gs = 8%nat /\ Forall group gs /\ s = colons gs) \/
  (exists a b, (length a + length b <= 7)%nat /\ Forall group (a ++ b) /\ s = colons a ++ [58; 58] ++ colons b).

Definition words : list (string * string) := words1 ++ words2.
(** one word of the file *)
Inductive item : list Z -> token -> Prop :=
| I_word w t : In (w, t) words -> item (str w) (TWord t)
| I_yes : item (str "yes") (TBool true)
| I_no : item (str "no") (TBool false)
| I_int l : decimal l -> number 10 l < 2 ^ 32 -> item l (TInt (number 10 l))
| I_hex l : l <> [] -> Forall hexdigit l -> number 16 l < 2 ^ 32 -> item (48 :: 120 :: l) (TInt (number 16 l))
| I_float a b : some_digits a -> some_digits b -> item (a ++ 46 :: b) (TFloat (a ++ 46 :: b))
| I_ip4 s : ip4_text s -> item s (TIp4 s)
| I_ip6 s : ip6_text s -> item s (TIp6 s).
(** ... that needs nothing behind it *)
Inductive closed : list Z -> token -> Prop :=
| C_string s : ~ In 34 s -> closed (34 :: s ++ [34]) (TString s)
| C_slash : closed [47] TSlash
| C_open : closed [123] TOpen
| C_close : closed [125] TClose.
(** what ends a word: blanks, ends of lines, / { } # and the quote *)
Definition ends (c : Z) : Prop := In c [32; 9; 10; 13; 47; 123; 125; 35; 34].

(** a file with its tokens and its number of ends of lines outside of strings *)
Inductive file : list Z -> list token -> Z -> Prop :=
| F_nil : file [] [] 0
| F_blank c s ts n : In c [32; 9] -> file s ts n -> file (c :: s) ts n
| F_nl s ts n : file s ts n -> file (10 :: s) ts (n + 1)
| F_crnl s ts n : file s ts n -> file (13 :: 10 :: s) ts (n + 1)
| F_comment l s ts n : ~ In 10 l -> file s ts n -> file (35 :: l ++ 10 :: s) (TComment :: ts) (n + 1)
| F_closed t k s ts n : closed t k -> file s ts n -> file (t ++ s) (k :: ts) n
| F_item t k s ts n : item t k -> (s = [] \/ exists c r, s = c :: r /\ ends c) -> file s ts n -> file (t ++ s) (k :: ts) n.

(** What an NMEA sentence is *)
From Verif Require Import Base.

(** characters of a sentence: printable, and none of $ * ! \ ^ ~ *)
Definition plain (c : Z) : Prop := 32 <= c <= 126 /\ ~ In c [36; 42; 33; 92; 94; 126].
(** a hexadecimal digit and its value *)
Definition digit (c v : Z) : Prop :=
  48 <= c <= 57 /\ v = c - 48 \/ 65 <= c <= 70 /\ v = c - 65 + 10 \/ 97 <= c <= 102 /\ v = c - 97 + 10.
(** the exclusive or of all *)
Definition parity (s : list Z) : Z := fold_right Z.lxor 0 s.
(** $, the text, and perhaps * and its parity *)
Inductive sentence : list Z -> Prop :=
| s_bare body : Forall plain body -> sentence (36 :: body)
| s_sum body h l vh vl : Forall plain body -> digit h vh -> digit l vl -> 16 * vh + vl = parity body -> sentence (36 :: body ++ [42; h; l]).
(** what was read ends with a sentence, its end of line, and all fits [n] characters and a NUL *)
Definition ends (n : Z) (s b : list Z) : Prop :=
  exists x, s = x ++ b ++ [13; 10] /\ sentence b /\ Z.of_nat (length b) + 2 < n.
(** the sentences of a stream, in their order *)
Inductive sentences (n : Z) : list Z -> list (list Z) -> Prop :=
| ss_nil : sentences n [] []
| ss_one s l c b : sentences n s l -> ends n (s ++ [c]) b -> sentences n (s ++ [c]) (l ++ [b])
| ss_none s l c : sentences n s l -> (forall b, ~ ends n (s ++ [c]) b) -> sentences n (s ++ [c]) l.

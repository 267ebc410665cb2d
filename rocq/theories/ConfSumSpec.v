(** Vocabulary for the checksum of the configuration: the words of a file. *)
From Verif Require Import Base ConfScan ConfScanSpec.

(** a file with the texts of its words, without comments, blanks and line ends *)
Inductive texts : list Z -> list (list Z) -> Prop :=
| X_nil : texts [] []
| X_blank c s xs : In c [32; 9] -> texts s xs -> texts (c :: s) xs
| X_nl s xs : texts s xs -> texts (10 :: s) xs
| X_crnl s xs : texts s xs -> texts (13 :: 10 :: s) xs
| X_comment l s xs : ~ In 10 l -> texts s xs -> texts (35 :: l ++ 10 :: s) xs
| X_closed t k s xs : closed t k -> texts s xs -> texts (t ++ s) (t :: xs)
| X_item t k s xs : item t k -> (s = [] \/ exists c r, s = c :: r /\ ends c) -> texts s xs -> texts (t ++ s) (t :: xs).
(** the last character is ASCII *)
Definition ascii_end (t : list Z) : Prop := 0 <= last t 0 < 128.

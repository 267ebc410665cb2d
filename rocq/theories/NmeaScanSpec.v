(** The fields of a sentence and what they mean *)
From Verif Require Import Base NmeaScan.

(** the kinds of fields: a text of at most 15 characters, a letter, a number with or without its
    sign, an int, an unsigned *)
Inductive kind := KText | KLetter | KNum (abs : bool) | KInt | KUns.
(** how the format says it: %16s, %C, %F, %f, %d and %u *)
Definition said (k : kind) : list Z :=
  match k with KText => [37; 49; 54; 115] | KLetter => [37; 67] | KNum true => [37; 70] | KNum false => [37; 102] | KInt => [37; 100] | KUns => [37; 117] end.
(** a field has no comma, asterisk or NUL in it *)
Definition field (x : list Z) : Prop := Forall (fun c => c <> 44 /\ c <> 42 /\ c <> 0) x.
(** the value of a number in decimal *)
Inductive decimal : list Z -> Z -> Prop :=
| d_one c : 48 <= c <= 57 -> decimal [c] (c - 48)
| d_more s v c : decimal s v -> 48 <= c <= 57 -> decimal (s ++ [c]) (10 * v + (c - 48)).
(** what is stored for a field; [num] are the texts that are numbers *)
Inductive gives (num : list Z -> Prop) : kind -> list Z -> val -> Prop :=
| g_empty k : gives num k [] VKeep
| g_text x : x <> [] -> (length x <= 15)%nat -> gives num KText x (VStr x)
| g_long x y : length x = 15%nat -> y <> [] -> gives num KText (x ++ y) (VStr x)
| g_small c r : 97 <= c <= 122 -> gives num KLetter (c :: r) (VChar (c - 32))
| g_other c r : ~ 97 <= c <= 122 -> gives num KLetter (c :: r) (VChar c)
| g_num a x : x <> [] -> (length x < 64)%nat -> num x -> gives num (KNum a) x (VDbl a x)
| g_int x v : decimal x v -> (length x < 64)%nat -> v < 2 ^ 31 - 1 -> gives num KInt x (VInt v)
| g_neg x v : decimal x v -> (length x < 63)%nat -> v <= 2 ^ 31 -> gives num KInt (45 :: x) (VInt (- v))
| g_uns x v : decimal x v -> (length x < 64)%nat -> v < 2 ^ 32 - 1 -> gives num KUns x (VUns v).
(** all fields of a sentence *)
Inductive all_give (num : list Z -> Prop) : list kind -> list (list Z) -> list val -> Prop :=
| a_nil : all_give num [] [] []
| a_cons k ks x xs v vs : field x -> gives num k x v -> all_give num ks xs vs -> all_give num (k :: ks) (x :: xs) (v :: vs).

(** Satellites in use *)
From Verif Require Import Base NmeaGsa.

(** the satellites that a list of numbers names: 0 is none *)
Inductive names : list Z -> list Z -> Prop :=
| n_nil : names [] []
| n_none l m : names l m -> names (0 :: l) m
| n_one p l m : p <> 0 -> names l m -> names (p :: l) (p :: m).

(** The lines of a file with speeds as its author means them. *)
From Coq Require Import String.
From Verif Require Import Base Regex.

(** a line is a comment or sets a name to a number *)
Inductive line := Comment (t : list Z) | Assign (name before after digits : list Z).
(** its text, with the end of the line *)
Definition text (l : line) : list Z :=
  match l with
  | Comment t => t ++ [10]
  | Assign n a b d => n ++ a ++ [61] ++ b ++ d ++ [10]
  end.
Definition blank (c : Z) : Prop := c = 32 \/ c = 9.
Definition white (c : Z) : Prop := c = 32 \/ 9 <= c <= 13.
Definition digit (c : Z) : Prop := 48 <= c <= 57.
(** the value of decimal digits *)
Definition number (ds : list Z) : Z := fold_left (fun a d => 10 * a + (d - 48)) ds 0.
Definition well_formed (l : line) : Prop :=
  (List.length (text l) <= 255)%nat /\
  match l with
  | Comment t => Forall (fun c => c <> 10 /\ c <> 0) t /\ (Forall white t \/ exists r, t = 35 :: r)
  | Assign n a b d =>
      n <> [] /\ hd 0 n <> 35 /\ Forall (fun c => ~ white c /\ c <> 0 /\ c <> 61) n /\
      Forall blank a /\ Forall blank b /\ d <> [] /\ Forall digit d /\ number d < 2 ^ 32
  end.
(** names do not depend on the case of the letters *)
Definition letter_alike (x y : Z) : Prop := x = y \/ (97 <= x <= 122 /\ y = x - 32).
Definition called (key name : list Z) : Prop := Forall2 letter_alike key name.
(** the value that the last line with this name sets *)
Inductive last_set (key : list Z) : list line -> option Z -> Prop :=
| ls_none : last_set key [] None
| ls_set : forall l n a b d, called key n -> last_set key (l ++ [Assign n a b d]) (Some (number d))
| ls_skip : forall l x o, last_set key l o -> (forall n a b d, x = Assign n a b d -> ~ called key n) -> last_set key (l ++ [x]) o.

(** The lines of a file with a position as its author means them *)
From Coq Require Import String.
From Verif Require Import Base Regex SpeedFileSpec.

(** a comment, or a name that is set to a value, with blanks around *)
Inductive pline := PComment (t : list Z) | PSet (name before after value behind : list Z).
Definition ptext (l : pline) : list Z :=
  match l with
  | PComment t => t ++ [10]
  | PSet n a b v c => n ++ a ++ [61] ++ b ++ v ++ c ++ [10]
  end.
Definition word (w : list Z) : Prop := w <> [] /\ Forall (fun c => ~ white c /\ c <> 0 /\ c <> 61) w.
Definition shaped (l : pline) : Prop :=
  (List.length (ptext l) <= 255)%nat /\
  match l with
  | PComment t => Forall (fun c => c <> 10 /\ c <> 0) t /\ (Forall white t \/ exists r, t = 35 :: r)
  | PSet n a b v c => word n /\ hd 0 n <> 35 /\ word v /\ Forall blank a /\ Forall blank b /\ Forall blank c
  end.
Definition signals : list (list Z * Z) := [(str "bad", 0); (str "low", 1); (str "mid", 2); (str "high", 3)].
Definition fixes : list (list Z * Z) := [(str "bad", 1); (str "2d", 2); (str "3d", 3)].
(** the meaning of a word of a table *)
Definition means (t : list (list Z * Z)) (v : list Z) (x : Z) : Prop := exists k, In (k, x) t /\ called k v.
(** the value of the last line with this name *)
Inductive last_value (key : list Z) : list pline -> option (list Z) -> Prop :=
| lv_none : last_value key [] None
| lv_set : forall l n a b v c, called key n -> last_value key (l ++ [PSet n a b v c]) (Some v)
| lv_skip : forall l x o, last_value key l o -> (forall n a b v c, x = PSet n a b v c -> ~ called key n) -> last_value key (l ++ [x]) o.
(** a line that can be used *)
Definition usable {D} (numbers : list (list Z)) (rd : list Z -> option D) (l : pline) : Prop :=
  match l with
  | PComment _ => True
  | PSet n _ _ v _ =>
      (called (str "sig") n /\ exists x, means signals v x) \/
      (called (str "fix") n /\ exists x, means fixes v x) \/
      (exists k, In k numbers /\ called k n /\ rd v <> None)
  end.

(** Times and dates as the NMEA standard writes them *)
From Verif Require Import Base NmeaTime.

(** a digit and its value *)
Definition dig (c v : Z) : Prop := c = 48 + v /\ 0 <= v <= 9.
(** two digits *)
Definition two (s : list Z) (v : Z) : Prop := exists a b x y, s = [a; b] /\ dig a x /\ dig b y /\ v = 10 * x + y.
(** six digits that give three numbers *)
Definition six (s : list Z) (a b c : Z) : Prop := exists x y z, s = x ++ y ++ z /\ two x a /\ two y b /\ two z c.
(** the fraction of a second, in thousandths: no one, or one to three digits behind a point *)
Inductive fraction : list Z -> Z -> Prop :=
| f_none : fraction [] 0
| f_one a x : dig a x -> fraction [46; a] (100 * x)
| f_two a b x y : dig a x -> dig b y -> fraction [46; a; b] (100 * x + 10 * y)
| f_three a b c x y z : dig a x -> dig b y -> dig c z -> fraction [46; a; b; c] (100 * x + 10 * y + z).
(** a clock reading *)
Definition clock (t : list Z) (h m s ms : Z) : Prop := exists d f, t = d ++ f /\ six d h m s /\ fraction f ms.
(** the nearest number of hundredths, up from the middle *)
Definition nearest (ms hs : Z) : Prop := 10 * hs - 5 <= ms < 10 * hs + 5.
(** characters that isspace accepts *)
Definition blank (s : list Z) : Prop := Forall (fun c => c = 32 \/ 9 <= c <= 13) s.

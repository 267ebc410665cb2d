(** What a best path is, without reference to the selection. *)
From Verif Require Import Base RtBest.

(** order of addresses: the first differing byte decides *)
Inductive lexlt : list Z -> list Z -> Prop :=
| lex_here x y a b : x < y -> lexlt (x :: a) (y :: b)
| lex_next x a b : lexlt a b -> lexlt (x :: a) (x :: b).

(** [p] is preferred to [q] where [c] are the costs that count *)
Definition preferred (c : rpath -> Z) (p q : rpath) : Prop :=
  c p < c q \/
  (c p = c q /\ (rp_hops p < rp_hops q \/ (rp_hops p = rp_hops q /\ lexlt (rp_orig p) (rp_orig q)))).

Definition is_best (c : rpath -> Z) (ps : list rpath) (p : rpath) : Prop :=
  In p ps /\ forall q, In q ps -> ~ preferred c q p.

(** paths of one prefix: one per originator, addresses of one length *)
Definition one_each (n : nat) (ps : list rpath) : Prop :=
  NoDup (map rp_orig ps) /\ Forall (fun p => length (rp_orig p) = n) ps.

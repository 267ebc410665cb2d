(** Paths, their cost and length. *)
From Verif Require Import Base TcGraph TcGraphSpec Spf.

(** links with costs: [L a b c], from [a] to [b] at cost [c] *)
Definition links := list Z -> list Z -> Z -> Prop.

(** a link can be used if it is known in both directions and is not broken *)
Definition usable (L : links) : links := fun a b c => L a b c /\ c < 2 ^ 22 /\ exists c', L b a c'.

(** a path from [a], its cost, its number of links and its second node *)
Inductive path (L : links) (a : list Z) : list Z -> Z -> Z -> option (list Z) -> Prop :=
| p_here : path L a a 0 0 None
| p_link b v d k f c : path L a b d k f -> L b v c -> path L a v (d + c) (k + 1) (match f with None => Some v | Some u => Some u end).

(** the links as recorded in the database *)
Definition links_of (g : gst) (ec : Z -> Z) : links := fun a b c => exists i, link_obj g a b i /\ ec i = c.

(** the links after those of this node have been brought in line with the
    neighbors *)
Definition refreshed (L : links) (main : list Z) (nbrs : list nbr) (lcost : Z -> Z) (newcost : Z) : links := fun a b c =>
  (a <> main /\ L a b c) \/
  (a = main /\ ~ In b (map nb_addr nbrs) /\ L a b c) \/
  (a = main /\ exists l, In (mkNb b true (Some l)) nbrs /\ (((exists c0, L a b c0) /\ c = lcost l) \/ (~ (exists c0, L a b c0) /\ c = newcost))).

(** the entry of an address *)
Definition entry_of (g : gst) (a : list Z) (n : Z) : Prop := node_obj g a n.

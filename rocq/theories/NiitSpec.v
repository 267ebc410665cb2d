(** What the routes for the niit devices should be. *)
From Verif Require Import Base Niit.

(** an IPv6 prefix that stands for an IPv4 prefix: ::ffff:0:0/96 or longer *)
Definition stands_for (p : prefix) (q : prefix) : Prop :=
  fst p = [0; 0; 0; 0; 0; 0; 0; 0; 0; 0; 255; 255] ++ fst q /\ snd p = 96 + snd q /\ 0 <= snd q.
Definition mapped (p : prefix) : Prop := exists q, stands_for p q.
(** both devices are there and up *)
Definition up_dev (d : option (Z * bool)) : Prop := exists i, d = Some (i, true).
Definition both_up (s : nst) : Prop := up_dev (d_4 s) /\ up_dev (d_6 s).

(** the routes: towards niit4to6 one for each entry of the routing table that is in the
    kernel and stands for an IPv4 prefix, and none for what is not in the routing table;
    towards niit6to4 one for each such prefix that is announced; with a device missing or
    down, none *)
Definition right (s : nst) : Prop :=
  (both_up s ->
     (forall p q, In (p, true) (n_tree s) -> stands_for p q -> In q (k_46 s)) /\
     (forall q, In q (k_46 s) -> exists p b, In (p, b) (n_tree s) /\ stands_for p q) /\
     (forall p, In p (k_64 s) <-> In p (n_hna s) /\ mapped p)) /\
  (~ both_up s -> k_46 s = [] /\ k_64 s = []).

(** prefixes of IPv6 *)
Definition v6 (p : prefix) : Prop := length (fst p) = 16%nat /\ 0 <= snd p <= 128.
(** devices keep their index, interfaces are not lost, HNAs stay *)
Definition tame (i4 i6 : Z) (e : event) : Prop :=
  match e with
  | EInsert p => v6 p
  | ELost _ | EHna _ _ => False
  | EDev4 (Some (i, _)) => i = i4
  | EDev6 (Some (i, _)) => i = i6
  | _ => True
  end.

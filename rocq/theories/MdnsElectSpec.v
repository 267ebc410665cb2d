(** Who is master. *)
From Verif Require Import Base BmfPacket BmfPacketSpec MdnsElect.

(** the number of an address *)
Fixpoint number (m : list Z) : Z :=
  match m with [] => 0 | x :: m => x * 256 ^ Z.of_nat (length m) + number m end.
(** a router introduces itself: "$REP", the family, the address in a field of 16 bytes, the
    network *)
Definition introduces (v6 : bool) (data id : list Z) (net : Z) : Prop :=
  exists f0 f1 f2 f3 addr rest, data = [36; 82; 69; 80; f0; f1; f2; f3] ++ addr ++ net :: rest /\
    length addr = 16%nat /\
    (v6 = false /\ [f0; f1; f2; f3] = [2; 0; 0; 0] /\ id = firstn 4 addr \/
     v6 = true /\ [f0; f1; f2; f3] <> [2; 0; 0; 0] /\ id = addr).
(** it was last heard on a socket [a] elections ago *)
Inductive age (v6 : bool) (fd : Z) (id : list Z) (net : Z) : list event -> nat -> Prop :=
| age_now : forall l data, introduces v6 data id net -> age v6 fd id net (l ++ [Got fd data]) 0
| age_other : forall l fd' data a, ~ (fd' = fd /\ introduces v6 data id net) -> age v6 fd id net l a -> age v6 fd id net (l ++ [Got fd' data]) a
| age_elect : forall l a, age v6 fd id net l a -> age v6 fd id net (l ++ [Elect]) (S a).
(** packets are bytes *)
Definition good_event (e : event) : Prop := match e with Got _ data => Forall byte data | Elect => True end.
(** a node after initTimer *)
Definition started (v6 : bool) (main : list Z) (ifs : list iface) (s : mstate) : Prop :=
  length main = 16%nat /\ Forall byte main /\ exists s0, s_ifs s0 = ifs /\ s = init_timer v6 main s0.
Definition address_of (v6 : bool) (main : list Z) : list Z := firstn (if v6 then 16 else 4) main.
(** with [k] interfaces, interface [j] forgets a router that was last heard [a] elections ago *)
Definition remembered (k a j : nat) : Prop := (a * k + j < 10)%nat.

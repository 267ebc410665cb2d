(** Bit level view of addresses, used to state what prefixes mean. *)
From Verif Require Import Base.

(** Bit [i] of an address, counted from the most significant bit of the first
    byte. *)
Definition abit (a : list Z) (i : Z) : bool :=
  Z.testbit (nth (Z.to_nat (i / 8)) a 0) (7 - i mod 8).

Definition is_byte (b : Z) : Prop := 0 <= b < 256.
Definition is_addr (n : nat) (a : list Z) : Prop := length a = n /\ Forall is_byte a.

(** The first [p] bits of two addresses agree. *)
Definition same_prefix (p : Z) (a b : list Z) : Prop :=
  forall i, 0 <= i < p -> abit a i = abit b i.

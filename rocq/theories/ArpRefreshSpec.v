(** Vocabulary for the plugin arprefresh: OLSR frames by RFC 894, 791 and 768.  Nothing here
    calls the model. *)
From Verif Require Import Base ArpRefresh.

Definition two (f : list Z) (o : Z) : Z := nth (Z.to_nat o) f 0 * 256 + nth (Z.to_nat (o + 1)) f 0.
Definition ihl (f : list Z) : Z := nth 14 f 0 mod 16.
(** an unfragmented (or first fragment of a) UDP datagram to port 698 in IPv4 in Ethernet *)
Definition olsr_frame (f : list Z) : Prop :=
  two f 12 = 2048 /\ nth 23 f 0 = 17 /\ two f 20 mod 8192 = 0 /\ 14 + 4 * ihl f + 4 <= Z.of_nat (length f) /\ 24 <= Z.of_nat (length f) /\ two f (14 + 4 * ihl f + 2) = 698.
(** who has sent it *)
Definition sender (dev : Z) (f : list Z) (r : arpreq) : Prop :=
  a_dev r = dev /\ (forall i, (i < 4)%nat -> nth i (a_ip r) 0 = nth (26 + i) f 0) /\ length (a_ip r) = 4%nat /\ (forall i, (i < 6)%nat -> nth i (a_ha r) 0 = nth (6 + i) f 0) /\ length (a_ha r) = 6%nat.
Definition arrived (l : list event) : list (Z * list Z) := flat_map (fun e => match e with Frame d f => [(d, f)] | _ => [] end) l.
(** an OLSR frame with its headers *)
Definition good_frame (x : Z * list Z) : Prop := olsr_frame (snd x) /\ (42 <= length (snd x))%nat.
(** some of the elements in their order *)
Inductive subseq {A} : list A -> list A -> Prop :=
| sub_nil l : subseq [] l
| sub_take x l m : subseq l m -> subseq (x :: l) (x :: m)
| sub_skip x l m : subseq l m -> subseq l (x :: m).

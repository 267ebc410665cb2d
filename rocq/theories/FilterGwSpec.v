(** Vocabulary for the gateway filter: the wire format of an HNA message, which
    announcements are those of a gateway, who is filtered. *)
From Verif Require Import Base FilterGw.

(** what a message has besides its size and its announcements *)
Record hna_head := mkHead { o_vtime : Z; o_orig : list Z; o_ttl : Z; o_hops : Z; o_seq : list Z }.
Definition alen (v6 : bool) : nat := if v6 then 16%nat else 4%nat.
Definition head_ok (v6 : bool) (h : hna_head) : Prop := length (o_orig h) = alen v6 /\ length (o_seq h) = 2%nat.
(** an announcement: network and netmask *)
Definition ann_ok (v6 : bool) (e : list Z * list Z) : Prop := length (fst e) = alen v6 /\ length (snd e) = alen v6.
(** RFC 3626, 12.1: the message on the wire *)
Definition wire_size (v6 : bool) (n : nat) : Z := 8 + Z.of_nat (alen v6) + 2 * Z.of_nat (alen v6) * Z.of_nat n.
Definition hna_wire (v6 : bool) (h : hna_head) (es : list (list Z * list Z)) : list Z :=
  [4; o_vtime h] ++ [wire_size v6 (length es) / 256; wire_size v6 (length es) mod 256] ++ o_orig h ++ [o_ttl h; o_hops h] ++ o_seq h
  ++ flat_map (fun e => fst e ++ snd e) es.

(** The announcements that olsrd takes for those of a gateway.  IPv4: 0.0.0.0
    with a netmask that starts with a zero byte (a smart gateway has its
    bandwidth in the others).  IPv6: any network of length 3, and ::ffff:0:0/96. *)
Definition announces_gateway (v6 : bool) (e : list Z * list Z) : Prop :=
  if v6 then (exists r, snd e = 224 :: r) \/
             ((exists r, fst e = [0;0;0;0;0;0;0;0;0;0;255;255] ++ r) /\
              (exists r, snd e = [255;255;255;255;255;255;255;255;255;255;255;255] ++ 0 :: r))
  else fst e = [0; 0; 0; 0] /\ exists r, snd e = 0 :: r.

(** [l'] is [l] without the members with the property [P], in the same order *)
Inductive without {A} (P : A -> Prop) : list A -> list A -> Prop :=
| w_nil : without P [] []
| w_drop x l l' : P x -> without P l l' -> without P (x :: l) l'
| w_keep x l l' : ~ P x -> without P l l' -> without P (x :: l) (x :: l').

(** the last "allowlist" line decides; without one the list is a deny list *)
Inductive allow_value : list fparam -> Z -> Prop :=
| av_none l : (forall n, ~ In (PAllow n) l) -> allow_value l 0
| av_last l l' n : (forall m, ~ In (PAllow m) l') -> allow_value (l ++ PAllow n :: l') n.
Definition named (l : list fparam) (a : list Z) : Prop := In (POriginator (Some a)) l.
(** whose gateway announcements are to be filtered *)
Definition filtered (l : list fparam) (a : list Z) : Prop :=
  (allow_value l 0 /\ named l a) \/ (exists n, n <> 0 /\ allow_value l n /\ ~ named l a).

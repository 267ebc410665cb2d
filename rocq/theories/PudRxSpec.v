(** What shall happen to position updates that are received. *)
From Verif Require Import Base PudRx.

(** originator, sequence number and version of an update, from the layout of OLSR messages *)
Definition origin (v6 : bool) (m : list Z) : list Z := if v6 then firstn 16 (skipn 4 m) else firstn 4 (skipn 4 m).
Definition seqno (v6 : bool) (m : list Z) : list Z := if v6 then firstn 2 (skipn 22 m) else firstn 2 (skipn 10 m).
Definition ident (v6 : bool) (m : list Z) : list Z * list Z := (seqno v6 m, origin v6 m).
Definition version (v6 : bool) (m : list Z) : Z := if v6 then nth 24 m 0 else nth 12 m 0.
Definition whole (v6 : bool) (m : list Z) : Prop := ((if v6 then 45 else 33) <= length m)%nat.

(** [relays v6 own depth seen ms fs]: of the messages [ms], when [seen] were seen, newest
    first, those with a true in [fs] become sentences; [own] is the address whose messages
    are not handled *)
Inductive relays (v6 : bool) (own : option (list Z)) (depth : nat) : list (list Z * list Z) -> list (list Z) -> list bool -> Prop :=
| R_end seen : relays v6 own depth seen [] []
| R_own seen m ms fs : own = Some (origin v6 m) -> relays v6 own depth seen ms fs ->
    relays v6 own depth seen (m :: ms) (false :: fs)
| R_again seen m ms fs : own <> Some (origin v6 m) -> In (ident v6 m) (firstn depth seen) ->
    relays v6 own depth seen ms fs -> relays v6 own depth seen (m :: ms) (false :: fs)
| R_new seen m ms fs b : own <> Some (origin v6 m) -> ~ In (ident v6 m) (firstn depth seen) ->
    (b = true <-> version v6 m = 3) -> relays v6 own depth (ident v6 m :: seen) ms fs ->
    relays v6 own depth seen (m :: ms) (b :: fs).

(** the messages of a datagram of the downlink: type, flags and contents *)
Record packed := { p_type : Z; p_flags : Z; p_body : list Z }.
Definition pack (p : packed) : list Z :=
  let n := Z.of_nat (length (p_body p)) in p_type p :: n / 256 :: n mod 256 :: p_flags p :: p_body p.
Definition datagram (ps : list packed) : list Z := concat (map pack ps).
(** those that are for a node of an IP version *)
Definition meant (v6 : bool) (p : packed) : bool := (p_type p =? 0) && Bool.eqb (Z.odd (p_flags p)) v6.
(** the event handles the bytes [b] at their place in the memory *)
Definition covers (mem : list Z) (off : Z) (b : list Z) : Prop :=
  0 <= off /\ exists pre post, mem = pre ++ b ++ post /\ off = Z.of_nat (length pre).
(** the events for messages, in their order: to the OLSR network when the node is a gateway,
    and to the LAN *)
Inductive evs (sgw : bool) (mem : list Z) : list packed -> list event -> Prop :=
| V_nil : evs sgw mem [] []
| V_cons p ps ev off : covers mem off (p_body p) -> evs sgw mem ps ev ->
    evs sgw mem (p :: ps) ((if sgw then [EOlsr off (Z.of_nat (length (p_body p)))] else []) ++ ELan off :: ev).

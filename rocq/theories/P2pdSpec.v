(** What the P2PD plugin is expected to do: packets, messages and frames. *)
From Verif Require Import Base BmfPacketSpec P2pd.

Definition be16 (l : list Z) (i : nat) : Z := nth i l 0 * 256 + nth (i + 1) l 0.
Definition slice (l : list Z) (i n : nat) : list Z := firstn n (skipn i l).
(** the length of a header of IPv4, and a whole UDP packet to an address and port: RFC 791, RFC 2460, RFC 768 *)
Definition hlen (p : list Z) : nat := Z.to_nat (4 * (nth 0 p 0 mod 16)).
Definition udp4 (p dst : list Z) (port : Z) : Prop :=
  Forall byte p /\ nth 0 p 0 / 16 = 4 /\ 5 <= nth 0 p 0 mod 16 /\ be16 p 2 = Z.of_nat (length p) /\
  be16 p 6 mod 8192 = 0 /\ nth 9 p 0 = 17 /\ (hlen p + 8 <= length p)%nat /\
  dst = slice p 16 4 /\ port = be16 p (hlen p + 2).
Definition udp6 (p dst : list Z) (port : Z) : Prop :=
  Forall byte p /\ nth 0 p 0 / 16 = 6 /\ be16 p 4 + 40 = Z.of_nat (length p) /\ nth 6 p 0 = 17 /\ (48 <= length p)%nat /\
  dst = slice p 24 16 /\ nth 0 dst 0 = 255 /\ port = be16 p 42.
Definition udp (v6 : bool) := if v6 then udp6 else udp4.
(** the packets to be relayed: address and port were configured *)
Definition wanted (c : cfg) (v6 : bool) (dst : list Z) (port : Z) : Prop :=
  exists d, In d (c_dests c) /\ d_v6 d = v6 /\ d_addr d = dst /\ d_port d = port.
(** frames the plugin looks at: broadcast, multicast, and sent by this host *)
Definition taken (ty : Z) : Prop := ty = 1 \/ ty = 2 \/ ty = 4.
(** a configuration of a node *)
Definition sane (c : cfg) : Prop :=
  length (c_main c) = (if c_v6 c then 16 else 4)%nat /\ Forall byte (c_main c) /\ 0 <= c_ttl c <= 255.
(** RFC 3626: a message of this plugin, of 12 or 24 bytes and a body; its size is in it *)
Definition message (c : cfg) (seq : Z) (body m : list Z) : Prop :=
  exists vt s1 s2 ttl, m = [132; vt; s1; s2] ++ c_main c ++ [ttl; 0; seq / 256; seq mod 256] ++ body /\
    byte vt /\ byte s1 /\ byte s2 /\ s1 * 256 + s2 = Z.of_nat (length m) /\ ttl = (if c_ttl c =? 0 then 255 else c_ttl c).
(** bytes added to fill up a word *)
Definition padding (n : nat) (pad : list Z) : Prop :=
  (length pad < 4)%nat /\ Forall (eq 0) pad /\ Nat.modulo (n + length pad) 4 = 0%nat.
(** the packet after one hop: a smaller time to live and a header checksum *)
Definition hop4 (p q : list Z) : Prop :=
  length q = length p /\ nth 8 q 0 = nth 8 p 0 - 1 /\ forall i, i <> 8%nat -> i <> 10%nat -> i <> 11%nat -> nth i q 0 = nth i p 0.
Definition hop6 (p q : list Z) : Prop :=
  length q = length p /\ nth 7 q 0 = nth 7 p 0 - 1 /\ forall i, i <> 7%nat -> nth i q 0 = nth i p 0.
(** the sum of the words of a header without its checksum *)
Fixpoint words (m : list Z) : Z := match m with a :: b :: m => a * 256 + b + words m | _ => 0 end.
Definition header_sum (q : list Z) : Z := words (firstn (ihl q) q) - header_field q.
(** RFC 1112 and RFC 2464: the hardware address of a group; broadcast otherwise *)
Definition group_mac4 (dst : list Z) : list Z :=
  if (224 <=? nth 0 dst 0) && (nth 0 dst 0 <=? 239) then [1; 0; 94; nth 1 dst 0 mod 128; nth 2 dst 0; nth 3 dst 0] else [255; 255; 255; 255; 255; 255].
Definition group_mac6 (dst : list Z) : list Z := [51; 51; nth 12 dst 0; nth 13 dst 0; nth 14 dst 0; nth 15 dst 0].
(** one frame on each interface outside of OLSR, the same on all *)
Definition on_lans (f : frame) (ifs : list bool) : list (option frame) := map (fun lan : bool => if lan then Some f else None) ifs.
Definition on_none (ifs : list bool) : list (option frame) := map (fun _ => None) ifs.
(** time does not go back *)
Definition forwards (ms : list (ident * Z)) : Prop :=
  forall i j k t k' t', (i <= j)%nat -> nth_error ms i = Some (k, t) -> nth_error ms j = Some (k', t') -> t <= t'.

(** Vocabulary for the plugins dyn_gw and dyn_gw_plain: configurations as the README of the
    plugin gives them, routes and answered pings.  Nothing here calls the model. *)
From Verif Require Import Base DynGw.

(** the netmask of a prefix of [len] bits *)
Definition mask (len : Z) : list Z := map (fun i => 256 - 2 ^ Z.max 0 (Z.min 8 (8 * i + 8 - len))) [0; 1; 2; 3].
(** a section of the configuration: addresses to ping, then networks (address, length) *)
Record section := mkSec { s_pings : list (list Z); s_nets : list (list Z * Z) }.
Definition config (secs : list section) : list param :=
  flat_map (fun s => map PPing (s_pings s) ++ map (fun p => PHna (fst p) (mask (snd p))) (s_nets s)) secs.
Definition length_ok (p : list Z * Z) : Prop := 0 <= snd p <= 32.
(** a section with something to ping and networks *)
Definition full (s : section) : Prop := s_pings s <> [] /\ s_nets s <> [] /\ Forall length_ok (s_nets s).
Definition all_nets (secs : list section) : list (list Z * Z) := flat_map s_nets secs.
(** a route to the network that is up and does not have the metric of the routes of olsrd *)
Definition uplink (dm : Z) (lines : list line) (p : list Z * Z) : Prop :=
  exists x, In x lines /\ r_dst x = fst p /\ r_mask x = mask (snd p) /\ Z.odd (r_flags x) = true /\ r_metric x <> dm.
(** the last ping for group [g] was answered *)
Definition answered (log : list (nat * list Z * bool)) (g : nat) : Prop :=
  exists l1 a l2, log = l1 ++ (g, a, true) :: l2 /\ forall x, In x l2 -> fst (fst x) <> g.
(** the number of the [i]th section: they are counted from the last *)
Definition number (secs : list section) (i : nat) : nat := (length secs - 1 - i)%nat.
(** a default route that is up with metric 0 *)
Definition default_route (lines : list line) : Prop :=
  exists x, In x lines /\ r_dst x = [0; 0; 0; 0] /\ r_mask x = [0; 0; 0; 0] /\ Z.odd (r_flags x) = true /\ r_metric x = 0.

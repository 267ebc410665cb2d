(** What HNA messages should say. *)
From Verif Require Import Base Bytes IpCalc GwSpeed GwHna BuildMsg BuildMsgSpec BuildHna.

(** the bytes of a netmask with [plen] ones *)
Definition ones (n : nat) (plen : Z) : list Z := map (fun k => 256 - 2 ^ (8 - Z.max 0 (Z.min 8 (plen - 8 * Z.of_nat k)))) (seq 0 n).
(** what receivers learn of a gateway, cf. C68 *)
Definition approx (s d : Z) : Prop := (s <> 1 -> d <= s) /\ (s = 1 -> d = 2) /\ 3 * Z.min s 320000000 <= 4 * d /\ (s = 0 <-> d = 0).
Definition tells (c : anncfg) (zero : bool) (g : gwinfo) : Prop :=
  (if zero then gi_up g = 0 /\ gi_down g = 0 else approx (a_uplink c) (gi_up g) /\ approx (a_downlink c) (gi_down g)) /\
  gi_v4 g = a_has4 c /\ gi_nat g = a_has4 c && a_nat c /\ gi_v6 g = a_v6 c && a_has6 c.
(** networks as they are configured; the route 2000::/3 of a smart gateway is left out, cf. C68 *)
Definition hna_net (v6 : bool) (h : hnet) : Prop :=
  blen (fst h) = ipsz v6 /\ 0 <= snd h <= 8 * ipsz v6 /\
  (v6 = true -> snd h = 96 -> firstn 12 (fst h) = [0;0;0;0;0;0;0;0;0;0;255;255] -> skipn 12 (fst h) = [0;0;0;0]).
Definition not_2000 (c : hcfg) (h : hnet) : Prop := a_active (c_ann c) = true -> a_v6 (c_ann c) = true -> snd h <> 3.
(** the routes to the internet *)
Definition default_route (v6 : bool) (h : hnet) : Prop :=
  if v6 then h = ([0;0;0;0;0;0;0;0;0;0;255;255;0;0;0;0], 96) else h = ([0;0;0;0], 0).
(** an entry says: this network; or: I am a gateway with these bandwidths *)
Definition hna_says (c : hcfg) (zero : bool) (h : hnet) (e : list Z) : Prop :=
  exists m, e = fst h ++ m /\ blen m = ipsz (a_v6 (c_ann c)) /\
    ((~ (a_active (c_ann c) = true /\ default_route (a_v6 (c_ann c)) h) /\ m = ones (Z.to_nat (ipsz (a_v6 (c_ann c)))) (snd h)) \/
     (a_active (c_ann c) = true /\ default_route (a_v6 (c_ann c)) h /\
      forall ext, exists g, receive (a_v6 (c_ann c)) ext (fst h) m = Some g /\ tells (c_ann c) zero g)).
(** a gateway without any bandwidth does not announce itself *)
Definition announced (c : hcfg) (l : list hnet) (l' : list hnet) : Prop :=
  exists f, l' = filter f l /\ forall h, In h l -> (f h = false <-> a_active (c_ann c) = true /\ c_bwzero c = true /\ default_route (a_v6 (c_ann c)) h).
(** a configuration *)
Definition cfg_ok (c : hcfg) : Prop :=
  0 <= a_uplink (c_ann c) < 4294967296 /\ 0 <= a_downlink (c_ann c) < 4294967296 /\ length (a_prefix (c_ann c)) = 16%nat /\
  blen (c_main c) = ipsz (a_v6 (c_ann c)) /\ length (c_junk c) = (if a_v6 (c_ann c) then 0 else 12)%nat /\ 0 <= c_valid c < 2 ^ 32 /\ 0 <= c_period c < 2 ^ 32.
(** an HNA message *)
Definition hna_msg (vt : Z) (main : list Z) (seq : Z) (l : list (list Z)) : list Z := message 4 vt main 255 0 seq (concat l).
(** what is left of [zt] at each of [n] calls, while there is something left *)
Fixpoint remaining (n : nat) (zt period : Z) : list Z :=
  match n with O => [] | S n' => if zt <=? 0 then [] else zt :: remaining n' (zt - period) period end.

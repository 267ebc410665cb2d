(** What a binary32 number and an accepted configuration are. *)
From Verif Require Import Base Hyst.
Definition binary32 (x : Z) : Prop := exists k j, 0 <= k < 2 ^ 24 /\ 0 <= j /\ x = k * 2 ^ j.
(** src/cfgparser/olsrd_conf.c:571-591 *)
Definition accepted (p : hparam) : Prop :=
  binary32 (scaling p) /\ binary32 (thr_high p) /\ binary32 (thr_low p) /\
  0 <= scaling p <= ONE /\ thr_low p < thr_high p /\ 0 <= thr_high p <= ONE /\ 0 <= thr_low p <= ONE.
(** [n] packets with consecutive sequence numbers *)
Fixpoint pkts (k : Z) (n : nat) : list hev := match n with O => [] | S n' => HPacket (k mod 65536) :: pkts (k + 1) n' end.

(** C35: the bandwidth a gateway announces.  C36: the cost of a gateway. *)
From Verif Require Import Base GwSpeed GwSpeedProofs.

(** Never more than configured, and at least three quarters of it up to the
    largest value that can be announced.  Missing: monotonicity (refuted below). *)
Theorem C35_honest_partial : forall s, 0 <= s < 4294967296 ->
  let d := deserialize_gw_speed (serialize_gw_speed s) in
  (s <> 1 -> d <= s) /\ (s = 1 -> d = 2) /\ 3 * Z.min s 320000000 <= 4 * d /\ (s = 0 <-> d = 0).
Proof.
  intros s H d. subst d. split; [intros N; apply code_le; lia|].
  split; [intros ->; reflexivity|].
  destruct (Z_lt_le_dec s 2).
  - destruct (Z.eq_dec s 0) as [->|]; [vm_compute; intuition discriminate|].
    assert (s = 1) as -> by lia. vm_compute. intuition discriminate.
  - destruct (Z_lt_le_dec s MAX_SPEED) as [L|L].
    + destruct (code_ok s) as (j & J & _ & Q); [lia|].
      unfold MAX_SPEED in L. rewrite Z.min_l by lia. split; [exact Q|].
      split; lia.
    + rewrite code_max by lia. unfold MAX_SPEED in *. rewrite Z.min_r by lia. lia.
Qed.
Print Assumptions C35_honest_partial.

(** A decoded value is announced as itself. *)
Theorem C35_stable_partial : forall b, 0 <= b < 256 ->
  let d := deserialize_gw_speed b in deserialize_gw_speed (serialize_gw_speed d) = d.
Proof.
  intros b H. cbv zeta.
  assert (T : forallb (fun b => deserialize_gw_speed (serialize_gw_speed (deserialize_gw_speed b)) =? deserialize_gw_speed b)
                      (map Z.of_nat (seq 0 256)) = true) by (vm_compute; reflexivity).
  rewrite forallb_forall in T. apply Z.eqb_eq. apply T.
  apply in_map_iff. exists (Z.to_nat b). split; [lia|]. apply in_seq. lia.
Qed.
Print Assumptions C35_stable_partial.

(** 33 Kbit/s is announced as 30, 32 Kbit/s as 32. *)
Theorem C35_monotone_refuted : exists s t, 0 <= s < t /\ t < 4294967296 /\
  deserialize_gw_speed (serialize_gw_speed t) < deserialize_gw_speed (serialize_gw_speed s).
Proof. exists 32, 33. vm_compute. intuition congruence. Qed.
Print Assumptions C35_monotone_refuted.

Example C35_ex : map (fun s => deserialize_gw_speed (serialize_gw_speed s)) [0; 1; 2; 109; 6000; 123456; 319999999; 4000000000]
                 = [0; 2; 2; 100; 6000; 120000; 310000000; 320000000].
Proof. reflexivity. Qed.

(** A worse path is never cheaper, as long as path cost times weight fits 32 bits
    and the divider does not drown the weight.  (The default weight is 1.) *)
Theorem C36_path_partial : forall c up p1 p2 u d,
  0 <= gc_up c < 256 /\ 0 <= gc_down c < 256 /\ 0 <= gc_etx c < 256 /\ 0 <= gc_div c < 4294967296 /\ 0 <= gc_max c < 4294967296 ->
  0 <= p1 <= p2 -> p2 < 4294967296 -> 0 <= u -> 0 <= d ->
  p2 * gc_etx c < 4294967296 -> gc_div c <= gc_etx c * 8388608 ->
  gw_costs_weigh c up p1 u d <= gw_costs_weigh c up p2 u d.
Proof. intros. apply weigh_path; auto. Qed.
Print Assumptions C36_path_partial.

Theorem C36_bandwidth_partial : forall c up p u1 u2 d1 d2,
  0 <= gc_up c < 256 /\ 0 <= gc_down c < 256 /\ 0 <= gc_etx c < 256 /\ 0 <= gc_div c < 4294967296 /\ 0 <= gc_max c < 4294967296 ->
  0 <= p < 4294967296 -> 0 <= u1 <= u2 -> 0 <= d1 <= d2 ->
  p * gc_etx c < 4294967296 -> gc_div c <= gc_etx c * 8388608 ->
  gw_costs_weigh c up p u2 d2 <= gw_costs_weigh c up p u1 d1.
Proof. intros. apply weigh_bw; auto. Qed.
Print Assumptions C36_bandwidth_partial.

(** No cost is negative or above the infinite one; the latter is the cost of an
    interface that is down, or of a missing bandwidth. *)
Theorem C36_range_partial : forall c up p u d,
  0 <= gc_up c < 256 /\ 0 <= gc_down c < 256 /\ 0 <= gc_etx c < 256 /\ 0 <= gc_div c < 4294967296 /\ 0 <= gc_max c < 4294967296 ->
  0 <= p < 4294967296 -> 0 <= u -> 0 <= d ->
  0 <= gw_costs_weigh c up p u d <= 9223372036854775807 /\
  (gw_costs_weigh c up p u d = 9223372036854775807 <-> up = false \/ (gc_div c <> 0 /\ (u = 0 \/ d = 0))).
Proof.
  intros c up p u d K Hp Hu Hd. split; [apply weigh_range; auto|].
  unfold gw_costs_weigh, INT64_MAX. destruct up; cbn [negb]; [|intuition].
  destruct K as (H1 & H2 & H3 & H4 & H5).
  destruct (Z.eqb_spec (gc_div c) 0).
  { rewrite Z.shiftl_mul_pow2 by lia. change (2 ^ 31) with 2147483648. split; [lia|]. intros [?|[? ?]]; [discriminate|lia]. }
  destruct ((u =? 0) || (d =? 0)) eqn:Z0.
  { split; [|reflexivity]. intros _. right. lia. }
  apply orb_false_iff in Z0. destruct Z0.
  pose proof (term_range (1000 * gc_up c) u 255000 ltac:(lia) ltac:(lia)).
  pose proof (term_range (1000 * gc_down c) d 255000 ltac:(lia) ltac:(lia)).
  pose proof (term_range (u32 (p * gc_etx c)) (gc_div c) 4294967295 ltac:(unfold u32; lia) ltac:(lia)).
  set (a1 := Z.shiftl (1000 * gc_up c) 23 / u) in *. set (b1 := Z.shiftl (1000 * gc_down c) 23 / d) in *.
  set (e := Z.shiftl (u32 (p * gc_etx c)) 23 / gc_div c) in *. clearbody a1 b1 e.
  split; [destruct (_ && _); lia|]. intros [?|[? ?]]; [discriminate|lia].
Qed.
Print Assumptions C36_range_partial.

(** The 32-bit product wraps: with weight 255, a path of five nearly broken links
    looks cheaper than a path of four good ones. *)
Theorem C36_wrap_refuted : exists c p1 p2 u d,
  0 <= gc_up c < 256 /\ 0 <= gc_down c < 256 /\ 0 <= gc_etx c < 256 /\ 0 < gc_div c < 4294967296 /\ 0 <= gc_max c < 4294967296 /\
  0 <= p1 < p2 /\ p2 < 4294967295 /\ 0 < u <= 320000000 /\ 0 < d <= 320000000 /\
  gw_costs_weigh c true p2 u d < gw_costs_weigh c true p1 u d.
Proof. exists (mkGc 1 1 255 4 2560), 4096, 16843010, 10000, 10000. vm_compute. intuition congruence. Qed.
Print Assumptions C36_wrap_refuted.

(** With the weight of the path set to 0, more bandwidth can cost more. *)
Theorem C36_bandwidth_refuted : exists c p u1 u2,
  0 <= gc_up c < 256 /\ 0 <= gc_down c < 256 /\ 0 <= gc_etx c < 256 /\ 0 < gc_div c < 4294967296 /\ 0 <= gc_max c < 4294967296 /\
  0 <= p < 4294967295 /\ 0 < u1 < u2 /\ u2 <= 320000000 /\
  gw_costs_weigh c true p u1 u1 < gw_costs_weigh c true p u2 u2.
Proof. exists (mkGc 1 1 0 4 2560), 2048, 319999999, 320000000. vm_compute. intuition congruence. Qed.
Print Assumptions C36_bandwidth_refuted.

Example C36_ex :
  let c := mkGc 1 1 1 4 2560 in
  gw_costs_weigh c true 1024 10000 1000 = 2156711116 /\ gw_costs_weigh c true 2048 10000 1000 = 4304194764 /\
  gw_costs_weigh c true 1024 5000 1000 = 2157549977.
Proof. repeat split. Qed.

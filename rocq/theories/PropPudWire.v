(** C149: the numbers in a position update. *)
From Verif Require Import Base PudWire PudWireSpec PudWireProofs.

(** Away from the borders of the exponents the duration read is the nearest expressible
    one. *)
Theorem C149_validity_partial : forall nd v, 0 <= v -> ~ at_border v ->
  exists f, set_validity nd v = Some f /\ 0 <= f <= 255 /\ nearest v (get_validity f).
Proof. exact validity_near. Qed.
Print Assumptions C149_validity_partial.
(** the default interval of 180 s *)
Example C149_validity_partial_ex : ~ at_border 180 /\ set_validity false 180 = Some 57 /\ get_validity 57 = 184.
Proof.
  split; [|split; reflexivity]. intros [m [M R]]. revert m M R.
  assert (C : forall m, 0 <= m <= 15 -> 1 <= m -> 32 * 2 ^ m - 16 - 2 ^ (m - 1) <= 180 < 32 * 2 ^ m - 16 -> False).
  { apply (pow_cases (fun m => 1 <= m -> 32 * 2 ^ m - 16 - 2 ^ (m - 1) <= 180 < 32 * 2 ^ m - 16 -> False)); intros A B; cbn in B; lia. }
  intros m M R. exact (C m ltac:(lia) ltac:(lia) R).
Qed.

(** At every border the assertion of the mantissa fails and the daemon aborts, for an
    interval of 47 seconds as for 110; without assertions 47 s are sent as 16 s. *)
Theorem C149_border_refuted :
  (forall v, 0 <= v -> at_border v -> set_validity false v = None) /\
  at_border 47 /\ at_border 110 /\
  exists f, set_validity true 47 = Some f /\ get_validity f = 16.
Proof.
  split; [exact validity_abort|]. split; [exists 1; cbn; lia|]. split; [exists 2; cbn; lia|].
  exists 16. split; reflexivity.
Qed.
Print Assumptions C149_border_refuted.

(** The time of a message that is read less than twelve hours from when it was sent is the
    time it was sent, around midnight too. *)
Theorem C149_time : forall x b, Z.abs (x - b) < 43200 ->
  let f := set_time (x mod 86400 / 3600) (x mod 3600 / 60) (x mod 60) in
  let t := get_time f b in
  instant (t_day t) (t_hour t) (t_min t) (t_sec t) = x /\ 0 <= t_hour t < 24 /\ 0 <= t_min t < 60 /\ 0 <= t_sec t < 60.
Proof. exact time_ok. Qed.
Print Assumptions C149_time.
(** sent ten seconds before midnight, read five seconds after *)
Example C149_time_ex : get_time (set_time 23 59 50) (20000 * 86400 + 5) =
  {| t_day := 19999; t_hour := 23; t_min := 59; t_sec := 50 |}.
Proof. reflexivity. Qed.

(** A leap second is read as the midnight at the start of the day it ends; a field that is
    not a time of the day is accepted, and is read as a time far away. *)
Theorem C149_leap_refuted :
  get_time (set_time 23 59 60) (20000 * 86400) = {| t_day := 19999; t_hour := 0; t_min := 0; t_sec := 0 |} /\
  exists f, 0 <= f < 2 ^ 17 /\ forall t, t = get_time f (20000 * 86400) ->
    Z.abs (instant (t_day t) (t_hour t) (t_min t) (t_sec t) - 20000 * 86400) > 72000.
Proof.
  split; [reflexivity|]. exists 90000. split; [lia|]. intros t ->. vm_compute. reflexivity.
Qed.
Print Assumptions C149_leap_refuted.

(** Altitude, speed and track are read as they were set, rounded and clipped. *)
Theorem C149_rounded : forall x,
  (let a := get_alt (set_alt x) in
   (-400 * 2 ^ 20 <= x <= 65135 * 2 ^ 20 -> rounded x a) /\
   (x < -400 * 2 ^ 20 -> a = -400) /\ (65135 * 2 ^ 20 < x -> a = 65135)) /\
  (let s := set_speed x in
   (0 <= x <= 4095 * 2 ^ 20 -> rounded x s) /\ (x < 0 -> s = 0) /\ (4095 * 2 ^ 20 < x -> s = 4095)) /\
  (0 <= x <= 360 * 2 ^ 20 -> rounded x (set_track x)).
Proof. intros x. split; [exact (alt_ok x)|]. split; [exact (speed_ok x)|exact (track_ok x)]. Qed.
Print Assumptions C149_rounded.
(** 12.25 m, 12.5 km/h and 359.75 degrees *)
Example C149_rounded_ex : get_alt (set_alt (49 * 2 ^ 18)) = 12 /\ set_speed (25 * 2 ^ 19) = 12 /\ set_track (1439 * 2 ^ 18) = 360.
Proof. repeat split; reflexivity. Qed.

(** A track outside of the field wraps instead of being clipped. *)
Theorem C149_track_refuted : exists x, set_track x <> 511 /\ 511 * 2 ^ 20 < x /\ set_track x = 0.
Proof. exists (512 * 2 ^ 20). split; [vm_compute; discriminate|]. split; reflexivity. Qed.
Print Assumptions C149_track_refuted.

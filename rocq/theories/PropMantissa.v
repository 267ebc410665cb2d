(** C01, C02: validity times (src/mantissa.c). *)
From Verif Require Import Base Mantissa MantissaProofs.

(** C01: the advertised byte decodes to a time not longer than the interval
    and shorter by less than 1/8 (in fact by less than 1/16 plus the rounding
    to whole milliseconds). *)
Theorem C01_validity_time_accuracy : forall t, 125 <= t < 4096000 ->
  exists c, reltime_to_me t = Some c /\ 0 <= c < 256 /\
    me_to_reltime c <= t /\ 7 * t < 8 * me_to_reltime c /\
    15 * t < 16 * (me_to_reltime c + 1).
Proof. exact validity_accuracy. Qed.
Print Assumptions C01_validity_time_accuracy.

Example C01_accuracy_ex : (125 <= 7300 < 4096000) /\ reltime_to_me 7300 = Some 214 /\ me_to_reltime 214 = 7250.
Proof. repeat split; try lia; vm_compute; reflexivity. Qed.

(** C01: encoding is defined (no undefined shift) for every 32-bit interval. *)
Theorem C01_validity_time_total : forall t, 0 <= t < 2 ^ 32 ->
  exists c, reltime_to_me t = Some c /\ 0 <= c < 256.
Proof. exact enc_total. Qed.
Print Assumptions C01_validity_time_total.

Example C01_total_ex : reltime_to_me (2 ^ 32 - 1) = Some 255.
Proof. vm_compute. reflexivity. Qed.

(** C01: longer intervals never decode to shorter times. *)
Theorem C01_validity_time_monotone : forall t1 t2 c1 c2, 0 <= t1 <= t2 -> t2 < 2 ^ 32 ->
  reltime_to_me t1 = Some c1 -> reltime_to_me t2 = Some c2 ->
  me_to_reltime c1 <= me_to_reltime c2.
Proof. exact validity_monotone. Qed.
Print Assumptions C01_validity_time_monotone.

Example C01_monotone_ex : reltime_to_me 3000 = Some 133 /\ reltime_to_me 30000 = Some 232 /\
  me_to_reltime 133 = 3000 /\ me_to_reltime 232 = 30000.
Proof. repeat split; vm_compute; reflexivity. Qed.

(** C01: behaviour outside the accurate range. 3968 s is the largest time any
    byte can express. *)
Theorem C01_validity_time_saturates : 
  (forall t, 3968000 <= t < 2 ^ 32 -> reltime_to_me t = Some 255) /\
  me_to_reltime 255 = 3968000 /\
  (forall c, 0 <= c < 256 -> 62 <= me_to_reltime c <= 3968000) /\
  (forall t, 0 <= t < 125 -> reltime_to_me t = Some 16) /\ me_to_reltime 16 = 66.
Proof.
  exact (conj enc_sat (conj eq_refl (conj dec_bounds (conj enc_low eq_refl)))).
Qed.
Print Assumptions C01_validity_time_saturates.

Example C01_saturates_ex : 3968000 <= 5000000 < 2 ^ 32 /\ 0 <= 100 < 125.
Proof. lia. Qed.

(** C02 is false: 17 decodes to 132 ms (132.8 truncated), which is encoded as
    code 1 and decodes to 125 ms. *)
Theorem C02_reencoding_refuted : exists c c', 0 <= c < 256 /\
  reltime_to_me (me_to_reltime c) = Some c' /\ me_to_reltime c' <> me_to_reltime c.
Proof. exact reenc_refuted. Qed.
Print Assumptions C02_reencoding_refuted.

(** C02, what holds: all codes with exponent 5 or more (2 s and above) are
    re-encoded to themselves; the others never grow (from the smallest
    encodable time on).  Missing: stability of the codes below 2 s. *)
Theorem C02_reencoding_stable_partial :
  (forall c, 0 <= c < 256 -> 5 <= c mod 16 -> reltime_to_me (me_to_reltime c) = Some c) /\
  (forall c, 0 <= c < 256 -> 66 <= me_to_reltime c ->
     exists c', reltime_to_me (me_to_reltime c) = Some c' /\ me_to_reltime c' <= me_to_reltime c).
Proof. exact (conj reenc_stable reenc_drift). Qed.
Print Assumptions C02_reencoding_stable_partial.

Example C02_stable_ex : 0 <= 133 < 256 /\ 5 <= 133 mod 16 /\ 66 <= me_to_reltime 17.
Proof. repeat split; try lia; vm_compute; discriminate. Qed.

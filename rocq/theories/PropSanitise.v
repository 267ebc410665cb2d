(** C175: the position and the time of nmeaInfoSanitise *)
From Verif Require Import Base Sanitise SanitiseSpec SanitiseProofs.

(** If the loops end, the position is in range, whatever it was *)
Theorem C175_range : forall n lat lon lat' lon', place n lat lon = Some (lat', lon') ->
  - (9000 * 2 ^ 1074) <= lat' <= 9000 * 2 ^ 1074 /\ - (18000 * 2 ^ 1074) <= lon' <= 18000 * 2 ^ 1074.
Proof.
  intros n lat lon a b H. destruct (place_range _ _ _ _ _ H) as (A & B). change (2 ^ 1074) with one. pose proof one_pos. lia.
Qed.
Print Assumptions C175_range.
Example C175_range_ex : place 3 (-45000 * 2 ^ 1074) (50000 * 2 ^ 1074) = Some (- 9000 * 2 ^ 1074, 14000 * 2 ^ 1074).
Proof. vm_compute. reflexivity. Qed.

(** They end for all positions up to 2^60 *)
Theorem C175_ends_partial : forall lat lon, Z.abs lat <= 2 ^ 60 * 2 ^ 1074 -> Z.abs lon <= 2 ^ 60 * 2 ^ 1074 ->
  exists p, ends (fun n => place n lat lon) p.
Proof.
  intros lat lon A B. destruct (place_ends (Z.to_nat (2 ^ 61)) lat lon) as (p & E); [rewrite Z2Nat.id by lia; reflexivity|exact A|exact B|]. exists p, (Z.to_nat (2 ^ 61)). exact E.
Qed.
Print Assumptions C175_ends_partial.
Example C175_ends_ex : ends (fun n => place n (36000 * 2 ^ 1074 + 2 ^ 1070) (5 * 2 ^ 1074)) (2 ^ 1070, 5 * 2 ^ 1074).
Proof. exists 1%nat. vm_compute. reflexivity. Qed.

(** A latitude of 2^70 is the same after 36000 was subtracted, for ever *)
Theorem C175_ends_refuted : exists lat lon, is lat (2 ^ 70) /\ is lon 0 /\ forall p, ~ ends (fun n => place n lat lon) p.
Proof.
  exists (2 ^ 70 * 2 ^ 1074), 0. split; [reflexivity|]. split; [reflexivity|]. intros p (n & E). change (2 ^ 1074) with one in E. unfold place, fold_lat, turn in E.
  assert (U : up n (2 ^ 70 * one) = Some (2 ^ 70 * one)) by (rewrite up_eq; pose proof one_pos; replace (2 ^ 70 * one <? - (18000 * one)) with false by lia; reflexivity).
  rewrite U, down_stuck in E. discriminate E.
Qed.
Print Assumptions C175_ends_refuted.

(** A position of whole degrees is the same point of the earth afterwards *)
Theorem C175_degrees_partial : forall d e n lat lon lat' lon', Z.abs d <= 2 ^ 40 -> Z.abs e <= 2 ^ 40 -> reading lat d 0 -> reading lon e 0 ->
  place n lat lon = Some (lat', lon') ->
  exists d' e', reading lat' d' 0 /\ reading lon' e' 0 /\ same_point d e d' e' /\ - 90 <= d' <= 90 /\ - 180 <= e' <= 180.
Proof.
  intros d e n lat lon a b D E (_ & ->) (_ & ->) H. pose proof (C175_range _ _ _ _ _ H) as R. change (2 ^ 1074) with one in *. pose proof one_pos as O1.
  destruct (place_int n (100 * d + 0) (100 * e + 0) a b ltac:(lia) ltac:(lia) H) as (t & u & [(-> & ->)|(-> & ->)]).
  - exists (d + 360 * t), (e + 360 * u).
    assert (X : - 9000 <= 100 * d + 0 + 36000 * t <= 9000 /\ - 18000 <= 100 * e + 0 + 36000 * u <= 18000) by (split; split; apply Z.mul_le_mono_pos_r with one; try exact O1; lia).
    split; [split; [lia|unfold is; change (2 ^ 1074) with one; f_equal; lia]|]. split; [split; [lia|unfold is; change (2 ^ 1074) with one; f_equal; lia]|]. split; [left; lia|lia].
  - exists (180 - d + 360 * t), (e + 180 + 360 * u).
    assert (X : - 9000 <= 18000 - (100 * d + 0) + 36000 * t <= 9000 /\ - 18000 <= 100 * e + 0 + 18000 + 36000 * u <= 18000) by (split; split; apply Z.mul_le_mono_pos_r with one; try exact O1; lia).
    split; [split; [lia|unfold is; change (2 ^ 1074) with one; f_equal; lia]|]. split; [split; [lia|unfold is; change (2 ^ 1074) with one; f_equal; lia]|]. split; [right; lia|lia].
Qed.
Print Assumptions C175_degrees_partial.
Example C175_degrees_ex : place 5 (10000 * 2 ^ 1074) (2000 * 2 ^ 1074) = Some (8000 * 2 ^ 1074, - 16000 * 2 ^ 1074).
Proof. vm_compute. reflexivity. Qed.

(** With minutes it is not even a position: 91 degrees 30 minutes become 88 degrees 70 minutes *)
Theorem C175_minutes_refuted : exists lat lon p, reading lat 91 30 /\ reading lon 0 0 /\ ends (fun n => place n lat lon) p /\ is (fst p) 8870 /\ forall d m, ~ reading (fst p) d m.
Proof.
  exists (9130 * 2 ^ 1074), 0, (8870 * 2 ^ 1074, 18000 * 2 ^ 1074). split; [split; [lia|reflexivity]|]. split; [split; [lia|reflexivity]|]. split; [exists 1%nat; vm_compute; reflexivity|]. split; [reflexivity|].
  intros d m (M & E). unfold is in E. cbn [fst] in E. change (2 ^ 1074) with one in E. apply one_inj in E. lia.
Qed.
Print Assumptions C175_minutes_refuted.

(** With a date, the time is a time of day; without one it is left as it came *)
Theorem C175_time_partial : forall hasTime now t, daytime (fix_time true hasTime now t) /\ (daytime t -> fix_time true true now t = t).
Proof.
  intros hasTime now t. unfold fix_time. split.
  - destruct (if negb hasTime then now else t) as [[[h m] s] f]. unfold daytime. lia.
  - destruct t as [[[h m] s] f]. unfold daytime. cbn [negb]. intros (A & B & C & D). rewrite !Z.mod_small by lia. reflexivity.
Qed.
Print Assumptions C175_time_partial.
Example C175_time_ex : fix_time true true (1, 2, 3, 4) (25, 61, 61, 100) = (1, 1, 0, 0).
Proof. reflexivity. Qed.
Theorem C175_time_refuted : exists now t, daytime now /\ ~ daytime (fix_time false true now t).
Proof. exists (0, 0, 0, 0), (25, 61, 61, 100). split; unfold daytime, fix_time; cbn [negb]; lia. Qed.
Print Assumptions C175_time_refuted.

(** Lemmas about GPGGA sentences *)
From Coq Require Import String.
From Verif Require Import Base Regex NmeaScan NmeaScanSpec NmeaScanProofs NmeaTime NmeaTimeProofs NmeaGsv NmeaGsvSpec NmeaGsvProofs NmeaGga NmeaGgaSpec.

Lemma parse_gga_scan num isnum s t l : s <> [] -> nmea_scanf isnum s (Some 0) gga_format = Some (t, l) -> parse_gga num isnum s = check_gga num t l.
Proof. intros N E. unfold parse_gga. destruct s as [|c r]; [congruence|]. rewrite E. reflexivity. Qed.
Definition gga_kinds : list kind := [KText; KNum true; KLetter; KNum true; KLetter; KInt; KUns; KNum true; KNum false; KLetter; KNum false; KLetter; KNum true; KUns].
Lemma gga_format_eq : gga_format = str "$GPGGA" ++ fmt gga_kinds ++ [42].
Proof. vm_compute. reflexivity. Qed.
Lemma coord_ok x c a b r : coord x c a b = Some r -> r = match x with Some v => Some (v, c) | None => None end /\ (x <> None -> c = a \/ c = b).
Proof.
  unfold coord. destruct x as [v|]; [|intros H; apply Some_inj in H; split; [auto|congruence]]. destruct ((c =? a) || (c =? b)) eqn:E; [|discriminate]. intros H. apply Some_inj in H. split; [auto|lia].
Qed.
Lemma utc_valid b h m s f : utc_time b = Present (h, m, s, f) -> valid_time h m s f = true.
Proof.
  unfold utc_time. destruct b as [|c b]; [discriminate|]. destruct (parse_time (c :: b)) as [[[[h' m'] s'] f']|]; [|discriminate]. destruct (valid_time h' m' s' f') eqn:E; [|discriminate]. intros H.
  assert (X : (h', m', s', f') = (h, m, s, f)) by congruence. apply pair_equal_spec in X. destruct X as [X ->]. apply pair_equal_spec in X. destruct X as [X ->]. apply pair_equal_spec in X. destruct X as [-> ->]. exact E.
Qed.
Lemma destD_abs num l i v t : nth i l VKeep = VDbl true t -> destD num l i = Some v -> 0 <= v.
Proof. unfold destD. intros ->. intros H. apply Some_inj in H. lia. Qed.
Lemma gga_ok num t l p : check_gga num t l = Some p ->
  (forall h m s f, gaTime p = Some (h, m, s, f) -> h <= 23 /\ m <= 59 /\ s <= 60 /\ f <= 99) /\
  (forall v c, gaLat p = Some (v, c) -> destD num l 1 = Some v /\ (c = 78 \/ c = 83)) /\
  (forall v c, gaLon p = Some (v, c) -> destD num l 3 = Some v /\ (c = 69 \/ c = 87)) /\
  (forall g, gaSig p = Some g -> 0 <= g <= 8).
Proof.
  unfold check_gga. destruct (negb (t =? 14)%nat); [discriminate|]. cbv zeta.
  destruct (utc_time (match nth 0 l VKeep with VStr t => t | _ => [] end)) as [|tm|] eqn:U; [| |discriminate];
  (destruct (coord (destD num l 1) (destC l 2) 78 83) as [lat|] eqn:C1; [|discriminate]); (destruct (coord (destD num l 3) (destC l 4) 69 87) as [lon|] eqn:C2; [|discriminate]);
  (destruct (metres (destD num l 8) (destC l 9)) as [elv|]; [|discriminate]); (destruct (metres (destD num l 10) (destC l 11)) as [hgt|]; [|discriminate]);
  (destruct (negb (destI l 5 (2 ^ 31 - 1) =? 2 ^ 31 - 1) && (u32 (destI l 5 (2 ^ 31 - 1)) >? 8)) eqn:E; [discriminate|]); intros H; apply Some_inj in H; rewrite <- H; cbn [gaTime gaLat gaLon gaSig];
  apply coord_ok in C1, C2; destruct C1 as [-> C1], C2 as [-> C2].
  all: split; [|split; [|split]].
  all: try (intros v c; destruct (destD num l 1) as [v'|]; [|discriminate]; intros X; apply Some_inj in X; apply pair_equal_spec in X; destruct X as [<- <-]; split; [reflexivity|apply C1; discriminate]).
  all: try (intros v c; destruct (destD num l 3) as [v'|]; [|discriminate]; intros X; apply Some_inj in X; apply pair_equal_spec in X; destruct X as [<- <-]; split; [reflexivity|apply C2; discriminate]).
  all: try (intros g; destruct (destI l 5 (2 ^ 31 - 1) =? 2 ^ 31 - 1); [discriminate|]; intros X; apply Some_inj in X; cbn [negb andb] in E; unfold u32 in *; lia).
  - discriminate.
  - intros h m s f X. apply Some_inj in X. subst tm. apply utc_valid in U. unfold valid_time in U. lia.
Qed.

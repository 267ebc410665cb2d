(** Lemmas about GPRMC sentences *)
From Coq Require Import String.
From Verif Require Import Base Regex NmeaScan NmeaScanSpec NmeaScanProofs NmeaTime NmeaTimeProofs NmeaGsv NmeaGsvSpec NmeaGsvProofs NmeaGga NmeaGgaSpec NmeaGgaProofs NmeaRmc NmeaRmcSpec.

Lemma parse_rmc_scan num isnum s t l : s <> [] -> nmea_scanf isnum s (Some 0) rmc_format = Some (t, l) -> parse_rmc num isnum s = check_rmc num t l.
Proof. intros N E. unfold parse_rmc. destruct s as [|c r]; [congruence|]. rewrite E. reflexivity. Qed.
Definition rmc_kinds : list kind := [KText; KLetter; KNum true; KLetter; KNum true; KLetter; KNum false; KNum false; KText; KNum true; KLetter; KLetter].
Lemma rmc_format_eq : rmc_format = str "$GPRMC" ++ fmt rmc_kinds ++ [42].
Proof. vm_compute. reflexivity. Qed.
Lemma table_ok m g : In (m, g) mode_table -> mode_signal m = g /\ existsb (Z.eqb m) modes = true /\ m <> 0.
Proof. cbn. intros H. repeat (destruct H as [H|H]; [apply pair_equal_spec in H; destruct H as [<- <-]; split; [reflexivity|split; [reflexivity|lia]]|]). destruct H. Qed.
Lemma back_ok g : 0 <= g <= 8 -> mode_signal (signal_mode g) = g.
Proof. intros R. assert (C : g = 0 \/ g = 1 \/ g = 2 \/ g = 3 \/ g = 4 \/ g = 5 \/ g = 6 \/ g = 7 \/ g = 8) by lia. repeat (destruct C as [->|C]; [reflexivity|]). subst g. reflexivity. Qed.
Lemma status_ok v sel mode r : status v sel mode = Some r ->
  match r with
  | None => True
  | Some (a, b) => a = sel /\ (sel = 65 \/ sel = 86) /\ (v = true -> b = mode /\ exists g, In (mode, g) mode_table) /\ (v = false -> b = 0)
  end.
Proof.
  unfold status. destruct (negb (sel =? 0) && negb (sel =? 65) && negb (sel =? 86)) eqn:E; [discriminate|]. destruct v; cbn [negb].
  - destruct (negb (sel =? 0) && negb (mode =? 0)) eqn:F; [|intros H; apply Some_inj in H; subst r; exact I]. destruct (existsb (Z.eqb mode) modes) eqn:M; [|discriminate]. intros H. apply Some_inj in H. subst r.
    split; [reflexivity|]. split; [lia|]. split; [|discriminate]. intros _. split; [reflexivity|]. apply existsb_exists in M. destruct M as (x & I & X). apply Z.eqb_eq in X. subst x. cbn in I.
    repeat (destruct I as [<-|I]; [eexists; cbn; tauto|]). destruct I.
  - destruct (sel =? 0) eqn:F; cbn [negb]; intros H; apply Some_inj in H; subst r; [exact I|]. split; [reflexivity|]. split; [lia|]. split; [discriminate|reflexivity].
Qed.
Lemma rmc_ok num t l p : check_rmc num t l = Some p ->
  match rSig p with
  | None => True
  | Some (a, b) => (a = 65 \/ a = 86) /\ (rV23 p = true -> exists g, In (b, g) mode_table)
  end.
Proof.
  unfold check_rmc. destruct (negb (t =? 11)%nat && negb (t =? 12)%nat); [discriminate|]. cbv zeta.
  destruct (got (utc_time (destS l 0))); [|discriminate]. destruct (status (t =? 12)%nat (destC l 1) (destC l 11)) as [sg|] eqn:S1; [|discriminate].
  destruct (coord (destD num l 2) (destC l 3) 78 83); [|discriminate]. destruct (coord (destD num l 4) (destC l 5) 69 87); [|discriminate]. destruct (got (utc_date (destS l 8))); [|discriminate]. destruct (coord (destD num l 9) (destC l 10) 69 87); [|discriminate].
  intros H. apply Some_inj in H. rewrite <- H. cbn [rSig rV23]. apply status_ok in S1. destruct sg as [[a b]|]; [|exact I]. destruct S1 as (-> & C & V & _). split; [exact C|]. intros E. destruct (V E) as (-> & X). exact X.
Qed.
Lemma oc_eq o : match oc o with VChar c => c | _ => 0 end = match o with Some c => c | None => 0 end.
Proof. destruct o; reflexivity. Qed.
Lemma od_eq (num : list Z -> Z) b o : match od b o with VDbl a t => Some (if a then Z.abs (num t) else num t) | _ => None end = match o with Some t => Some (if b then Z.abs (num t) else num t) | None => None end.
Proof. destruct o; reflexivity. Qed.
Lemma coord_given (num : list Z -> Z) t c a b : match t with Some t => 0 <= num t /\ (c = Some a \/ c = Some b) | None => True end ->
  coord (match t with Some t => Some (Z.abs (num t)) | None => None end) (match c with Some c => c | None => 0 end) a b = Some (match t with Some t => Some (num t, match c with Some c => c | None => 0 end) | None => None end).
Proof. destruct t as [t|]; [|reflexivity]. intros [P [-> | ->]]; cbn; rewrite Z.abs_eq by exact P; rewrite Z.eqb_refl, ?orb_true_r; reflexivity. Qed.
Lemma got_os {A} (f : list Z -> said_field A) (o : option (list Z)) : f [] = Absent -> match o with Some t => exists x, f t = Present x | None => True end ->
  got (f (match os o with VStr t => t | _ => [] end)) = Some (match o with Some t => match f t with Present x => Some x | _ => None end | None => None end).
Proof. intros E. destruct o as [t|]; cbn [os]; [intros [x ->]; reflexivity|]. intros _. rewrite E. reflexivity. Qed.

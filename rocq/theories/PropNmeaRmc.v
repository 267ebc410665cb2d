(** C180: the signal and the position of a GPRMC sentence *)
From Coq Require Import String.
From Verif Require Import Base Regex NmeaScan NmeaScanSpec NmeaScanProofs NmeaTime NmeaTimeProofs NmeaGsv NmeaGsvSpec NmeaGsvProofs NmeaGga NmeaGgaSpec NmeaGgaProofs NmeaRmc NmeaRmcSpec NmeaRmcProofs.

(** Whatever sentence is accepted: a status V with a mode makes the signal invalid, A gives the
    signal of the mode, and without a mode A makes an invalid signal a fix *)
Theorem C180_signal_partial : forall num kph isnum s p u sel mode, parse_rmc num isnum s = Some p -> rSig p = Some (sel, mode) ->
  let g := riSig (rmc_info kph p u) in
  (sel = A_ \/ sel = V_) /\
  (rV23 p = true -> sel = V_ -> g = Some 0) /\
  (rV23 p = true -> sel = A_ -> exists k, In (mode, k) mode_table /\ g = Some k) /\
  (rV23 p = false -> sel = A_ -> (riSig u = None \/ riSig u = Some 0) -> g = Some 1) /\
  (rV23 p = false -> sel = A_ -> forall k, riSig u = Some k -> k <> 0 -> g = Some k).
Proof.
  intros num kph isnum s p u sel mode P E g. unfold parse_rmc in P. destruct s as [|c0 r]; [discriminate|]. destruct (nmea_scanf isnum (c0 :: r) (Some 0) rmc_format) as [[t l]|]; [|discriminate].
  pose proof (rmc_ok num t l p P) as O. rewrite E in O. destruct O as [C M]. subst g. unfold rmc_info. cbn [riSig]. rewrite E. unfold A_, V_, new_signal. split; [exact C|]. split; [|split; [|split]].
  - intros -> ->. reflexivity.
  - intros V ->. destruct (M V) as [k I]. exists k. split; [exact I|]. rewrite V. cbn. rewrite (proj1 (table_ok _ _ I)). reflexivity.
  - intros -> -> [-> | ->]; reflexivity.
  - intros -> -> k -> K. cbn. replace (k =? 0) with false by lia. reflexivity.
Qed.
Print Assumptions C180_signal_partial.
Definition dec (t : list Z) : Z := fold_left (fun a c => if (48 <=? c) && (c <=? 57) then 10 * a + (c - 48) else a) t 0.
Definition rmc1 : list Z := str "$GPRMC,225446,A,4916,N,12311,w,10,054,191194,020,E,D*68".
Example C180_signal_ex : parse_rmc dec (fun _ => true) rmc1 = Some (mkRmc true (Some (22, 54, 46, 0)) (Some (19, 11, 1994)) (Some (65, 68)) (Some (4916, 78)) (Some (12311, 87)) (Some 10) (Some 54) (Some (20, 69))).
Proof. vm_compute. reflexivity. Qed.

(** A sentence of twelve fields is read as they say: those that are empty keep what was known.
    Missing: coordinates that are negative numbers, and sentences without a mode *)
Theorem C180_text_partial : forall num kph isnum xs vs tl tm sel lat ns lon ew sp tr dt mag mew mode u,
  all_give (fun t => isnum t = true) [KText; KLetter; KNum true; KLetter; KNum true; KLetter; KNum false; KNum false; KText; KNum true; KLetter; KLetter] xs vs ->
  vs = [os tm; oc sel; od true lat; oc ns; od true lon; oc ew; od false sp; od false tr; os dt; od true mag; oc mew; oc mode] -> tl = [] \/ (exists ck, tl = 42 :: ck) ->
  match tm with Some t => exists x, utc_time t = Present x | None => True end -> match dt with Some t => exists x, utc_date t = Present x | None => True end ->
  sel = None \/ sel = Some A_ \/ sel = Some V_ -> match mode with Some m => exists k, In (m, k) mode_table | None => True end ->
  match lat with Some t => 0 <= num t /\ (ns = Some 78 \/ ns = Some 83) | None => True end ->
  match lon with Some t => 0 <= num t /\ (ew = Some 69 \/ ew = Some 87) | None => True end ->
  match mag with Some t => 0 <= num t /\ (mew = Some 69 \/ mew = Some 87) | None => True end ->
  exists p, parse_rmc num isnum (str "$GPRMC" ++ flat_map (fun x => 44 :: x) xs ++ tl) = Some p /\
    riTime (rmc_info kph p u) = (match tm with Some t => match utc_time t with Present x => Some x | _ => None end | None => riTime u end) /\
    riDate (rmc_info kph p u) = (match dt with Some t => match utc_date t with Present x => Some x | _ => None end | None => riDate u end) /\
    (sel = Some V_ -> mode <> None -> riSig (rmc_info kph p u) = Some 0) /\
    (sel = Some A_ -> forall m k, mode = Some m -> In (m, k) mode_table -> riSig (rmc_info kph p u) = Some k) /\
    (sel = None \/ mode = None -> riSig (rmc_info kph p u) = riSig u) /\
    riLat (rmc_info kph p u) = (match lat with Some t => Some (match ns with Some 83 => - num t | _ => num t end) | None => riLat u end) /\
    riLon (rmc_info kph p u) = (match lon with Some t => Some (match ew with Some 87 => - num t | _ => num t end) | None => riLon u end) /\
    riSpeed (rmc_info kph p u) = (match sp with Some t => Some (kph (num t)) | None => riSpeed u end) /\
    riTrack (rmc_info kph p u) = (match tr with Some t => Some (num t) | None => riTrack u end) /\
    riMag (rmc_info kph p u) = (match mag with Some t => Some (match mew with Some 87 => - num t | _ => num t end) | None => riMag u end).
Proof.
  intros num kph isnum xs vs tl tm sel lat ns lon ew sp tr dt mag mew mode u A Ev T Ht Hd Hs Hm Hlat Hlon Hmag. rewrite (parse_rmc_scan num isnum _ 12 vs).
  - subst vs. unfold check_rmc, destD, destC, destS. cbn [Nat.eqb negb nth andb]. rewrite !oc_eq, !od_eq.
    rewrite (got_os utc_time tm eq_refl Ht), (got_os utc_date dt eq_refl Hd). rewrite (coord_given num lat ns 78 83 Hlat), (coord_given num lon ew 69 87 Hlon), (coord_given num mag mew 69 87 Hmag).
    assert (Es : status true (match sel with Some c => c | None => 0 end) (match mode with Some c => c | None => 0 end) = Some (match sel, mode with Some a, Some b => Some (a, b) | _, _ => None end)).
    { unfold status, A_, V_ in *. destruct Hs as [-> |[-> | ->]]; [destruct mode; reflexivity| |]; (destruct mode as [m|]; [|reflexivity]; destruct Hm as [k I]; destruct (table_ok _ _ I) as (_ & X & N); rewrite X; replace (m =? 0) with false by lia; reflexivity). }
    rewrite Es. eexists. split; [reflexivity|]. unfold rmc_info. cbn [riTime riDate riSig riLat riLon riSpeed riTrack riMag rV23 rTime rDate rSig rLat rLon rSpeed rTrack rMag].
    split; [destruct tm as [t|]; [destruct Ht as [x ->]|]; reflexivity|]. split; [destruct dt as [t|]; [destruct Hd as [x ->]|]; reflexivity|].
    split; [intros -> N; destruct mode; [reflexivity|congruence]|]. split; [intros -> m k -> I; unfold new_signal, A_; cbn; rewrite (proj1 (table_ok _ _ I)); reflexivity|].
    split; [intros [-> | ->]; [reflexivity|destruct sel; reflexivity]|].
    split; [destruct lat as [t|]; [destruct Hlat as [_ [-> | ->]]|]; reflexivity|]. split; [destruct lon as [t|]; [destruct Hlon as [_ [-> | ->]]|]; reflexivity|].
    split; [destruct sp; reflexivity|]. split; [destruct tr; reflexivity|]. destruct mag as [t|]; [destruct Hmag as [_ [-> | ->]]|]; reflexivity.
  - discriminate.
  - rewrite rmc_format_eq. apply (scanf_fields isnum (str "$GPRMC") rmc_kinds xs); [cbn; intros H; repeat (destruct H as [H|H]; [discriminate H|]); exact H|exact A|exact T].
Qed.
Print Assumptions C180_text_partial.
Definition fresh : rinfo := mkRi None None None None None None None None.
Example C180_text_ex : exists p, parse_rmc dec (fun _ => true) rmc1 = Some p /\ rmc_info (fun x => 2 * x) p fresh = mkRi (Some (22, 54, 46, 0)) (Some (19, 11, 1994)) (Some 2) (Some 4916) (Some (-12311)) (Some 20) (Some 54) (Some 20).
Proof. eexists. split; vm_compute; reflexivity. Qed.

(** Every information with a possible signal comes back from the sentence that is made of it, as
    far as its speed survives the two conversions *)
Theorem C180_again : forall kph knots w, match riSig w with Some g => 0 <= g <= 8 | None => True end -> match riSpeed w with Some k => kph (knots k) = k | None => True end ->
  rmc_info kph (info_rmc knots w) fresh = w.
Proof.
  intros kph knots [t d g lat lon sp tr mag] G K. unfold rmc_info, info_rmc, fresh in *. cbn [riTime riDate riSig riLat riLon riSpeed riTrack riMag rV23 rTime rDate rSig rLat rLon rSpeed rTrack rMag] in *.
  assert (O : forall A (x : option A), over x None = x) by (intros A []; reflexivity). rewrite !O.
  assert (L : forall p n x, p <> n -> toward p (unsigned_ p n x) = x).
  { intros p n [v|] N; [|reflexivity]. cbn. f_equal. destruct (v >=? 0) eqn:E; [rewrite Z.eqb_refl; lia|destruct (n =? p) eqn:F; lia]. }
  rewrite !L by lia. f_equal.
  - destruct g as [g|]; [|reflexivity]. unfold new_signal. cbn [negb]. destruct (g =? 0) eqn:E; cbn [negb Z.eqb Pos.eqb]; [f_equal; lia|]. rewrite back_ok by exact G. reflexivity.
  - destruct sp as [k|]; [cbn; rewrite K|]; reflexivity.
Qed.
Print Assumptions C180_again.
Example C180_again_ex : info_rmc (fun x => x / 2) (mkRi None None (Some 2) (Some (-4916)) None (Some 20) None None) = mkRmc true None None (Some (65, 68)) (Some (4916, 83)) None (Some 10) None None.
Proof. reflexivity. Qed.

(** A sentence that says that its data are not valid leaves the signal as it was if it has no mode,
    or an empty one; its position is stored all the same *)
Theorem C180_void_refuted : exists s1 s2 p1 p2 u, s1 = str "$GPRMC,225446,V,4916,N,12311,W,10,054,191194,020,E*68" /\ s2 = str "$GPRMC,225446,V,4916,N,12311,W,10,054,191194,020,E,*68" /\
  parse_rmc dec (fun _ => true) s1 = Some p1 /\ parse_rmc dec (fun _ => true) s2 = Some p2 /\ riSig u = Some 1 /\
  riSig (rmc_info (fun x => x) p1 u) = Some 1 /\ riSig (rmc_info (fun x => x) p2 u) = Some 1 /\ riLat (rmc_info (fun x => x) p1 u) = Some 4916.
Proof.
  eexists _, _, _, _. exists (mkRi None None (Some 1) None None None None None). split; [reflexivity|]. split; [reflexivity|]. split; [vm_compute; reflexivity|]. split; [vm_compute; reflexivity|]. vm_compute. auto.
Qed.
Print Assumptions C180_void_refuted.
Theorem C180_void_always : forall num kph isnum s p u mode, parse_rmc num isnum s = Some p -> rV23 p = false -> rSig p = Some (V_, mode) -> riSig (rmc_info kph p u) = riSig u.
Proof. intros num kph isnum s p u mode _ V E. unfold rmc_info. cbn [riSig]. rewrite E, V. reflexivity. Qed.
Print Assumptions C180_void_always.

(** The sentence made of an information has the letters of the hemispheres and of the status *)
Theorem C180_letters : forall knots w, let p := info_rmc knots w in
  (forall v, riLat w = Some v -> rLat p = Some (Z.abs v, if v <? 0 then 83 else 78)) /\
  (forall v, riLon w = Some v -> rLon p = Some (Z.abs v, if v <? 0 then 87 else 69)) /\
  (forall v, riMag w = Some v -> rMag p = Some (Z.abs v, if v <? 0 then 87 else 69)) /\
  (riSig w = Some 0 -> rSig p = Some (V_, 78)) /\
  (forall m k, In (m, k) mode_table -> k <> 0 -> riSig w = Some k -> rSig p = Some (A_, m)).
Proof.
  intros knots w p. subst p. unfold info_rmc. cbn [rLat rLon rMag rSig].
  assert (L : forall x v a b, x = Some v -> unsigned_ a b x = Some (Z.abs v, if v <? 0 then b else a)) by (intros x v a b ->; cbn; destruct (v >=? 0) eqn:E1, (v <? 0) eqn:E2; try reflexivity; lia).
  split; [intros v E; exact (L _ v 78 83 E)|]. split; [intros v E; exact (L _ v 69 87 E)|]. split; [intros v E; exact (L _ v 69 87 E)|]. split; [intros ->; reflexivity|].
  intros m k I K ->. cbn in I. repeat (destruct I as [I|I]; [apply pair_equal_spec in I; destruct I as [<- <-]; try reflexivity; congruence|]). destruct I.
Qed.
Print Assumptions C180_letters.
Example C180_letters_ex : riLat (mkRi None None (Some 2) (Some (-4916)) None (Some 20) None None) = Some (-4916) /\ In (68, 2) mode_table.
Proof. cbn. tauto. Qed.

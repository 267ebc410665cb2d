(** C178: the position of a GPGGA sentence *)
From Coq Require Import String.
From Verif Require Import Base Regex NmeaScan NmeaScanSpec NmeaScanProofs NmeaTime NmeaTimeProofs NmeaGsv NmeaGsvSpec NmeaGsvProofs NmeaGga NmeaGgaSpec NmeaGgaProofs.

(** Whatever sentence is accepted, its letters, its signal and its time are possible, and what it
    has not got stays as it was *)
Theorem C178_any : forall num isnum s p u, parse_gga num isnum s = Some p ->
  let w := gga_info p u in
  (forall h m sec f, gaTime p = Some (h, m, sec, f) -> h <= 23 /\ m <= 59 /\ sec <= 60 /\ f <= 99) /\
  (forall v c, gaLat p = Some (v, c) -> (c = 78 /\ giLat w = Some v) \/ (c = 83 /\ giLat w = Some (- v))) /\
  (forall v c, gaLon p = Some (v, c) -> (c = 69 /\ giLon w = Some v) \/ (c = 87 /\ giLon w = Some (- v))) /\
  (forall g, gaSig p = Some g -> 0 <= g <= 8 /\ giSig w = Some g) /\
  (gaLat p = None -> giLat w = giLat u) /\ (gaLon p = None -> giLon w = giLon u) /\ (gaSig p = None -> giSig w = giSig u) /\ (gaTime p = None -> giTime w = giTime u).
Proof.
  intros num isnum s p u P w. unfold parse_gga in P. destruct s as [|c0 r]; [discriminate|]. destruct (nmea_scanf isnum (c0 :: r) (Some 0) gga_format) as [[t l]|]; [|discriminate].
  destruct (gga_ok num t l p P) as (T & A & B & G). subst w. unfold gga_info. cbn [giTime giLat giLon giSig]. split; [exact T|]. split; [|split; [|split; [|split; [|split; [|split]]]]].
  - intros v c E. destruct (A v c E) as [_ [->| ->]]; rewrite E; [left|right]; split; reflexivity.
  - intros v c E. destruct (B v c E) as [_ [->| ->]]; rewrite E; [left|right]; split; reflexivity.
  - intros g E. split; [apply G; exact E|]. rewrite E. reflexivity.
  - intros ->. reflexivity.
  - intros ->. reflexivity.
  - intros ->. reflexivity.
  - intros ->. reflexivity.
Qed.
Print Assumptions C178_any.
Definition dec (t : list Z) : Z := fold_left (fun a c => if (48 <=? c) && (c <=? 57) then 10 * a + (c - 48) else a) t 0.
Definition gga1 : list Z := str "$GPGGA,123519,4807,s,01131,E,1,08,9,545,M,,,,*47".
Example C178_any_ex : parse_gga dec (fun _ => true) gga1 = Some (mkGga (Some (12, 35, 19, 0)) (Some (4807, 83)) (Some (1131, 69)) (Some 1) (Some 8) (Some 9) (Some 545) None None None) /\
  parse_gga dec (fun _ => true) (str "$GPGGA,123519,4807,x,01131,E,1,08,9,545,M,,,,*47") = None.
Proof. vm_compute. split; reflexivity. Qed.

(** Every position information comes back from the sentence that is made of it *)
Theorem C178_again : forall w, gga_info (info_gga w) unknown = w.
Proof.
  intros [t lat lon g c h e y a s]. unfold gga_info, info_gga, unknown. cbn [giTime giLat giLon giSig giCnt giHdop giElv giHeight giAge giSid gaTime gaLat gaLon gaSig gaCnt gaHdop gaElv gaHeight gaAge gaSid].
  assert (O : forall A (x : option A), over x None = x) by (intros A []; reflexivity).
  assert (L : forall p n x, p <> n -> signed n (unsigned_ p n x) = x).
  { intros p n [v|] N; [|reflexivity]. cbn. f_equal. destruct (v >=? 0) eqn:E; [destruct (p =? n) eqn:F; lia|rewrite Z.eqb_refl; lia]. }
  rewrite !O, !L by lia. reflexivity.
Qed.
Print Assumptions C178_again.
Example C178_again_ex : info_gga (mkGi None (Some (-4807)) (Some 1131) (Some 1) None None None None None None) = mkGga None (Some (4807, 83)) (Some (1131, 69)) (Some 1) None None None None None None.
Proof. reflexivity. Qed.

(** A sentence is read as its fields say: those that are empty keep what was known.  Missing: a
    latitude or a longitude that is a negative number *)
Theorem C178_text_partial : forall num isnum xs vs tl tm lat ns lon ew g n h e em y ym a sid u,
  all_give (fun t => isnum t = true) [KText; KNum true; KLetter; KNum true; KLetter; KInt; KUns; KNum true; KNum false; KLetter; KNum false; KLetter; KNum true; KUns] xs vs ->
  vs = [os tm; od true lat; oc ns; od true lon; oc ew; oi g; ou n; od true h; od false e; oc em; od false y; oc ym; od true a; ou sid] ->
  tl = [] \/ (exists ck, tl = 42 :: ck) ->
  match tm with Some t => exists x, utc_time t = Present x | None => True end ->
  match lat with Some t => 0 <= num t /\ (ns = Some 78 \/ ns = Some 83) | None => True end ->
  match lon with Some t => 0 <= num t /\ (ew = Some 69 \/ ew = Some 87) | None => True end ->
  match g with Some v => 0 <= v <= 8 | None => True end ->
  match n with Some v => 0 <= v < 2 ^ 32 - 1 | None => True end -> match sid with Some v => 0 <= v < 2 ^ 32 - 1 | None => True end ->
  (e <> None -> em = Some 77) -> (y <> None -> ym = Some 77) ->
  exists p, parse_gga num isnum (str "$GPGGA" ++ flat_map (fun x => 44 :: x) xs ++ tl) = Some p /\
    giTime (gga_info p u) = (match tm with Some t => match utc_time t with Present x => Some x | _ => None end | None => giTime u end) /\
    giLat (gga_info p u) = (match lat with Some t => Some (match ns with Some 83 => - num t | _ => num t end) | None => giLat u end) /\
    giLon (gga_info p u) = (match lon with Some t => Some (match ew with Some 87 => - num t | _ => num t end) | None => giLon u end) /\
    giSig (gga_info p u) = (match g with Some v => Some v | None => giSig u end) /\
    giCnt (gga_info p u) = (match n with Some v => Some v | None => giCnt u end) /\
    giHdop (gga_info p u) = (match h with Some t => Some (Z.abs (num t)) | None => giHdop u end) /\
    giElv (gga_info p u) = (match e with Some t => Some (num t) | None => giElv u end) /\
    giHeight (gga_info p u) = (match y with Some t => Some (num t) | None => giHeight u end) /\
    giAge (gga_info p u) = (match a with Some t => Some (Z.abs (num t)) | None => giAge u end) /\
    giSid (gga_info p u) = (match sid with Some v => Some v | None => giSid u end).
Proof.
  intros num isnum xs vs tl tm lat ns lon ew g n h e em y ym a sid u A Ev T Ht Hlat Hlon Hg Hn Hs He Hy. rewrite (parse_gga_scan num isnum _ 14 vs).
  - subst vs. unfold check_gga, destI, destU, destD, destC. cbn [Nat.eqb negb nth].
    assert (Gc : forall o, match oc o with VChar c => c | _ => 0 end = match o with Some c => c | None => 0 end) by (intros []; reflexivity). rewrite !Gc.
    assert (Gd : forall b o, match od b o with VDbl a0 t => Some (if a0 then Z.abs (num t) else num t) | _ => None end = match o with Some t => Some (if b then Z.abs (num t) else num t) | None => None end) by (intros b []; reflexivity). rewrite !Gd.
    assert (Gu : forall o d, match ou o with VUns v => v | _ => d end = match o with Some v => v | None => d end) by (intros [] d; reflexivity). rewrite !Gu.
    assert (Gi : forall o d, match oi o with VInt v => v | _ => d end = match o with Some v => v | None => d end) by (intros [] d; reflexivity). rewrite !Gi.
    assert (Gt : exists r, utc_time (match os tm with VStr t => t | _ => [] end) = r /\ match tm with Some t => exists x, r = Present x /\ utc_time t = Present x | None => r = Absent end).
    { destruct tm as [t|]; cbn [os]; [destruct Ht as [x X]; exists (Present x); split; [exact X|exists x; auto]|exists Absent; split; reflexivity]. }
    destruct Gt as (r & -> & Gr).
    assert (El : coord (match lat with Some t => Some (Z.abs (num t)) | None => None end) (match ns with Some c => c | None => 0 end) 78 83 = Some (match lat with Some t => Some (num t, match ns with Some c => c | None => 0 end) | None => None end)).
    { destruct lat as [t|]; [|reflexivity]. destruct Hlat as [P [-> | ->]]; cbn; rewrite Z.abs_eq by exact P; reflexivity. }
    assert (Eo : coord (match lon with Some t => Some (Z.abs (num t)) | None => None end) (match ew with Some c => c | None => 0 end) 69 87 = Some (match lon with Some t => Some (num t, match ew with Some c => c | None => 0 end) | None => None end)).
    { destruct lon as [t|]; [|reflexivity]. destruct Hlon as [P [-> | ->]]; cbn; rewrite Z.abs_eq by exact P; reflexivity. }
    assert (Ee : metres (match e with Some t => Some (num t) | None => None end) (match em with Some c => c | None => 0 end) = Some (match e with Some t => Some (num t) | None => None end)).
    { destruct e as [t|]; [|reflexivity]. rewrite He by discriminate. reflexivity. }
    assert (Ey : metres (match y with Some t => Some (num t) | None => None end) (match ym with Some c => c | None => 0 end) = Some (match y with Some t => Some (num t) | None => None end)).
    { destruct y as [t|]; [|reflexivity]. rewrite Hy by discriminate. reflexivity. }
    rewrite El, Eo, Ee, Ey.
    assert (Es : negb ((match g with Some v => v | None => 2 ^ 31 - 1 end) =? 2 ^ 31 - 1) && (u32 (match g with Some v => v | None => 2 ^ 31 - 1 end) >? 8) = false) by (destruct g as [v|]; [unfold u32; lia|reflexivity]).
    assert (Es2 : (if (match g with Some v => v | None => 2 ^ 31 - 1 end) =? 2 ^ 31 - 1 then None else Some (u32 (match g with Some v => v | None => 2 ^ 31 - 1 end))) = g).
    { destruct g as [v|]; [|reflexivity]. replace (v =? 2 ^ 31 - 1) with false by lia. unfold u32. rewrite Z.mod_small by lia. reflexivity. }
    assert (Ec : forall o, match o with Some v => 0 <= v < 2 ^ 32 - 1 | None => True end -> (if (match o with Some v => v | None => 2 ^ 32 - 1 end) =? 2 ^ 32 - 1 then None else Some (match o with Some v => v | None => 2 ^ 32 - 1 end)) = o).
    { intros [v|] R; [|reflexivity]. replace (v =? 2 ^ 32 - 1) with false by lia. reflexivity. }
    rewrite Es, Es2, (Ec n Hn), (Ec sid Hs). exists (mkGga (match r with Present t => Some t | _ => None end) (match lat with Some t => Some (num t, match ns with Some c => c | None => 0 end) | None => None end) (match lon with Some t => Some (num t, match ew with Some c => c | None => 0 end) | None => None end) g n (match h with Some t => Some (Z.abs (num t)) | None => None end) (match e with Some t => Some (num t) | None => None end) (match y with Some t => Some (num t) | None => None end) (match a with Some t => Some (Z.abs (num t)) | None => None end) sid).
    split; [destruct tm as [t|]; [destruct Gr as (x & -> & _)|rewrite Gr]; reflexivity|].
    unfold gga_info. cbn [giTime giLat giLon giSig giCnt giHdop giElv giHeight giAge giSid gaTime gaLat gaLon gaSig gaCnt gaHdop gaElv gaHeight gaAge gaSid].
    split; [destruct tm as [t|]; [destruct Gr as (x & -> & ->)|rewrite Gr]; reflexivity|].
    split; [destruct lat as [t|]; [destruct Hlat as [_ [-> | ->]]|]; reflexivity|]. split; [destruct lon as [t|]; [destruct Hlon as [_ [-> | ->]]|]; reflexivity|].
    split; [destruct g; reflexivity|]. split; [destruct n; reflexivity|]. split; [destruct h; reflexivity|]. split; [destruct e; reflexivity|]. split; [destruct y; reflexivity|]. split; [destruct a; reflexivity|destruct sid; reflexivity].
  - discriminate.
  - rewrite gga_format_eq. apply (scanf_fields isnum (str "$GPGGA") gga_kinds xs); [cbn; intros H; repeat (destruct H as [H|H]; [discriminate H|]); exact H|exact A|exact T].
Qed.
Print Assumptions C178_text_partial.
Example C178_text_ex : exists p, parse_gga dec (fun _ => true) gga1 = Some p /\ gga_info p (mkGi None None None (Some 3) None None None (Some 7) None (Some 5)) =
  mkGi (Some (12, 35, 19, 0)) (Some (-4807)) (Some 1131) (Some 1) (Some 8) (Some 9) (Some 545) (Some 7) None (Some 5).
Proof. eexists. split; vm_compute; reflexivity. Qed.

(** A minus sign is dropped: the latitude goes to the other half of the earth *)
Theorem C178_sign_refuted : exists s p, s = str "$GPGGA,,-4807,N,01131,E,1,08,9,545,M,,,,*47" /\ parse_gga (fun t => match t with 45 :: r => - dec r | _ => dec t end) (fun _ => true) s = Some p /\ giLat (gga_info p unknown) = Some 4807.
Proof. eexists _, _. split; [reflexivity|]. split; vm_compute; reflexivity. Qed.
Print Assumptions C178_sign_refuted.
(** A latitude behind the pole, and more satellites than a GPGSV sentence may count, are accepted;
    the sentences that the count asks for are then a quarter of it *)
Theorem C178_range_refuted : exists s p, s = str "$GPGGA,,9999,N,01131,E,1,4294967294,9,545,M,,,,*47" /\ parse_gga dec (fun _ => true) s = Some p /\
  giLat (gga_info p unknown) = Some 9999 /\ giCnt (gga_info p unknown) = Some 4294967294 /\ to_sentences 4294967294 = 1073741824 /\ 4294967294 > 72.
Proof. eexists _, _. split; [reflexivity|]. split; [vm_compute; reflexivity|]. split; [vm_compute; reflexivity|]. split; [vm_compute; reflexivity|]. split; [vm_compute; reflexivity|lia]. Qed.
Print Assumptions C178_range_refuted.

(** The sentence made of an information has the letters of the hemispheres *)
Theorem C178_letters : forall w,
  (forall v, giLat w = Some v -> gaLat (info_gga w) = Some (Z.abs v, if v <? 0 then 83 else 78)) /\
  (forall v, giLon w = Some v -> gaLon (info_gga w) = Some (Z.abs v, if v <? 0 then 87 else 69)).
Proof.
  intros w. unfold info_gga. cbn [gaLat gaLon].
  assert (L : forall x v a b, x = Some v -> unsigned_ a b x = Some (Z.abs v, if v <? 0 then b else a)) by (intros x v a b ->; cbn; destruct (v >=? 0) eqn:E1, (v <? 0) eqn:E2; try reflexivity; lia).
  split; [intros v E; exact (L _ v 78 83 E)|intros v E; exact (L _ v 69 87 E)].
Qed.
Print Assumptions C178_letters.
Example C178_letters_ex : gaLat (info_gga (mkGi None (Some (-5)) None None None None None None None None)) = Some (5, 83).
Proof. reflexivity. Qed.
(** A height with another unit than metres is refused *)
Theorem C178_metres : forall num isnum xs vs tl t b c,
  all_give (fun t => isnum t = true) [KText; KNum true; KLetter; KNum true; KLetter; KInt; KUns; KNum true; KNum false; KLetter; KNum false; KLetter; KNum true; KUns] xs vs ->
  tl = [] \/ (exists ck, tl = 42 :: ck) -> c <> 77 ->
  (nth 8 vs VKeep = VDbl b t /\ nth 9 vs VKeep = VChar c) \/ (nth 10 vs VKeep = VDbl b t /\ nth 11 vs VKeep = VChar c) ->
  parse_gga num isnum (str "$GPGGA" ++ flat_map (fun x => 44 :: x) xs ++ tl) = None.
Proof.
  intros num isnum xs vs tl t b c A T C H. rewrite (parse_gga_scan num isnum _ 14 vs).
  - unfold check_gga. cbn [Nat.eqb negb]. cbv zeta.
    assert (M : forall v, metres (Some v) c = None) by (intros v; cbn; replace (c =? 77) with false by lia; reflexivity).
    destruct H as [[E1 E2]|[E1 E2]].
    + assert (X : metres (destD num vs 8) (destC vs 9) = None) by (unfold destD, destC; rewrite E1, E2; apply M). rewrite X.
      repeat match goal with |- (match ?e with _ => _ end) = None => destruct e end; reflexivity.
    + assert (X : metres (destD num vs 10) (destC vs 11) = None) by (unfold destD, destC; rewrite E1, E2; apply M). rewrite X.
      repeat match goal with |- (match ?e with _ => _ end) = None => destruct e end; reflexivity.
  - discriminate.
  - rewrite gga_format_eq. apply (scanf_fields isnum (str "$GPGGA") gga_kinds xs); [cbn; intros X; repeat (destruct X as [X|X]; [discriminate X|]); exact X|exact A|exact T].
Qed.
Print Assumptions C178_metres.
Example C178_metres_ex : parse_gga (fun _ => 1) (fun _ => true) (str "$GPGGA,,,,,,,,,7,F,,,,*68") = None /\ parse_gga (fun _ => 1) (fun _ => true) (str "$GPGGA,,,,,,,,,7,M,,,,*68") <> None.
Proof. split; vm_compute; [reflexivity|discriminate]. Qed.

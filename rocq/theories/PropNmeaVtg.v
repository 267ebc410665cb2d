(** C179: the track and the speed of a GPVTG sentence *)
From Coq Require Import String.
From Verif Require Import Base Regex NmeaScan NmeaScanSpec NmeaScanProofs NmeaTime NmeaTimeProofs NmeaGsv NmeaGsvSpec NmeaGsvProofs NmeaGga NmeaGgaSpec NmeaVtg NmeaVtgProofs.

(** A sentence is refused just if a number has not got its unit; otherwise it is read as its fields
    say: km/h count before knots, and what is empty stays *)
Theorem C179_text : forall num kph knots isnum xs vs tl t tT m mM n nN k kK,
  all_give (fun t => isnum t = true) [KNum false; KLetter; KNum false; KLetter; KNum false; KLetter; KNum false; KLetter] xs vs ->
  vs = [od false t; oc tT; od false m; oc mM; od false n; oc nN; od false k; oc kK] -> tl = [] \/ (exists ck, tl = 42 :: ck) ->
  let s := str "$GPVTG" ++ flat_map (fun x => 44 :: x) xs ++ tl in
  ((t <> None -> tT = Some 84) /\ (m <> None -> mM = Some 77) /\ (n <> None -> nN = Some 78) /\ (k <> None -> kK = Some 75) <-> parse_vtg num kph knots isnum s <> None) /\
  forall p u, parse_vtg num kph knots isnum s = Some p ->
    viTrack (vtg_info p u) = (match t with Some x => Some (num x) | None => viTrack u end) /\
    viMtrack (vtg_info p u) = (match m with Some x => Some (num x) | None => viMtrack u end) /\
    viSpeed (vtg_info p u) = (match k, n with Some x, _ => Some (num x) | None, Some x => Some (kph (num x)) | None, None => viSpeed u end).
Proof.
  intros num kph knots isnum xs vs tl t tT m mM n nN k kK A Ev T s.
  assert (E : parse_vtg num kph knots isnum s = check_vtg num kph knots 8 vs).
  { apply parse_vtg_scan; [discriminate|]. subst s. rewrite vtg_format_eq. apply (scanf_fields isnum (str "$GPVTG") vtg_kinds xs); [cbn; intros H; repeat (destruct H as [H|H]; [discriminate H|]); exact H|exact A|exact T]. }
  rewrite E. subst vs. unfold check_vtg, destD, destC. cbn [Nat.eqb negb nth]. rewrite !od_eq, !oc_eq.
  destruct (unit_cases num t tT 84) as [[U1 W1]|[U1 W1]]; [lia|rewrite W1|rewrite W1; split; [split; [intros (H & _); tauto|tauto]|discriminate]].
  destruct (unit_cases num m mM 77) as [[U2 W2]|[U2 W2]]; [lia|rewrite W2|rewrite W2; split; [split; [intros (_ & H & _); tauto|tauto]|discriminate]].
  destruct (unit_cases num n nN 78) as [[U3 W3]|[U3 W3]]; [lia|rewrite W3|rewrite W3; split; [split; [intros (_ & _ & H & _); tauto|tauto]|discriminate]].
  destruct (unit_cases num k kK 75) as [[U4 W4]|[U4 W4]]; [lia|rewrite W4|rewrite W4; split; [split; [intros (_ & _ & _ & H); tauto|tauto]|discriminate]].
  split; [split; [discriminate|auto]|]. intros p u H. apply Some_inj in H. rewrite <- H. unfold vtg_info. cbn [viTrack viMtrack viSpeed vTrack vMtrack vSpeed].
  split; [destruct t; reflexivity|]. split; [destruct m; reflexivity|]. destruct n, k; reflexivity.
Qed.
Print Assumptions C179_text.
Definition dec (t : list Z) : Z := fold_left (fun a c => if (48 <=? c) && (c <=? 57) then 10 * a + (c - 48) else a) t 0.
Example C179_text_ex : parse_vtg dec (fun x => 2 * x) (fun x => x / 2) (fun _ => true) (str "$GPVTG,054,t,,,005,N,,*48") = Some (mkVtg (Some 54) None (Some (5, 10))) /\
  parse_vtg dec (fun x => 2 * x) (fun x => x / 2) (fun _ => true) (str "$GPVTG,054,,,,005,N,,*48") = None.
Proof. vm_compute. split; reflexivity. Qed.

(** Every information comes back from the sentence that is made of it, into any other one *)
Theorem C179_again : forall knots w u, let v := vtg_info (info_vtg knots w) u in
  (viTrack w <> None -> viTrack v = viTrack w) /\ (viMtrack w <> None -> viMtrack v = viMtrack w) /\ (viSpeed w <> None -> viSpeed v = viSpeed w) /\
  (viTrack w = None -> viTrack v = viTrack u) /\ (viMtrack w = None -> viMtrack v = viMtrack u) /\ (viSpeed w = None -> viSpeed v = viSpeed u).
Proof. intros knots [[t|] [m|] [k|]] u; cbn; repeat split; congruence. Qed.
Print Assumptions C179_again.
Example C179_again_ex : vtg_info (info_vtg (fun x => x / 2) (mkVi (Some 54) None (Some 10))) (mkVi None (Some 3) None) = mkVi (Some 54) (Some 3) (Some 10).
Proof. reflexivity. Qed.

(** Two speeds that are not the same are accepted, and so is a track of 999 degrees *)
Theorem C179_agree_refuted : exists s p, s = str "$GPVTG,999,T,,,5,N,70,K*48" /\ parse_vtg dec (fun x => 2 * x) (fun x => x / 2) (fun _ => true) s = Some p /\
  vSpeed p = Some (5, 70) /\ viTrack (vtg_info p (mkVi None None None)) = Some 999.
Proof. eexists _, _. split; [reflexivity|]. split; [vm_compute; reflexivity|]. split; reflexivity. Qed.
Print Assumptions C179_agree_refuted.

(** Lemmas about GPVTG sentences *)
From Coq Require Import String.
From Verif Require Import Base Regex NmeaScan NmeaScanSpec NmeaScanProofs NmeaTime NmeaTimeProofs NmeaGsv NmeaGsvSpec NmeaGsvProofs NmeaGga NmeaGgaSpec NmeaVtg.

Lemma parse_vtg_scan num kph knots isnum s t l : s <> [] -> nmea_scanf isnum s (Some 0) vtg_format = Some (t, l) -> parse_vtg num kph knots isnum s = check_vtg num kph knots t l.
Proof. intros N E. unfold parse_vtg. destruct s as [|c r]; [congruence|]. rewrite E. reflexivity. Qed.
Definition vtg_kinds : list kind := [KNum false; KLetter; KNum false; KLetter; KNum false; KLetter; KNum false; KLetter].
Lemma vtg_format_eq : vtg_format = str "$GPVTG" ++ fmt vtg_kinds ++ [42].
Proof. vm_compute. reflexivity. Qed.
Lemma oc_eq o : match oc o with VChar c => c | _ => 0 end = match o with Some c => c | None => 0 end.
Proof. destruct o; reflexivity. Qed.
Lemma od_eq (num : list Z -> Z) o : match od false o with VDbl a t => Some (if a then Z.abs (num t) else num t) | _ => None end = match o with Some t => Some (num t) | None => None end.
Proof. destruct o; reflexivity. Qed.
Lemma unit_cases (num : list Z -> Z) t c unit : unit <> 0 ->
  ((t <> None -> c = Some unit) /\ with_unit (match t with Some x => Some (num x) | None => None end) (match c with Some c => c | None => 0 end) unit = Some (match t with Some x => Some (num x) | None => None end)) \/
  (~ (t <> None -> c = Some unit) /\ with_unit (match t with Some x => Some (num x) | None => None end) (match c with Some c => c | None => 0 end) unit = None).
Proof.
  intros N. destruct t as [t|]; [|left; split; [congruence|reflexivity]]. cbn [with_unit]. destruct c as [c|].
  - destruct (c =? unit) eqn:E; [left|right]; (split; [|reflexivity]).
    + intros _. f_equal. lia.
    + intros H. assert (X : Some c = Some unit) by (apply H; discriminate). apply Some_inj in X. lia.
  - right. replace (0 =? unit) with false by lia. split; [|reflexivity]. intros H. assert (X : None = Some unit) by (apply H; discriminate). discriminate X.
Qed.

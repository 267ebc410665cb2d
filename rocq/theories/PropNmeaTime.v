(** C173: the time and the date of an NMEA sentence *)
From Coq Require Import String.
From Verif Require Import Base Regex NmeaScan NmeaScanSpec NmeaScanProofs NmeaTime NmeaTimeSpec NmeaTimeProofs.

(** A clock reading, with spaces around it or not, is stored to the nearest hundredth; one
    that is out of range refuses the sentence.  Missing: the last half of the last hundredth
    of a second, see below *)
Theorem C173_time_partial : forall p q t h m s ms, blank p -> blank q -> clock t h m s ms -> ms < 995 ->
  exists hs, nearest ms hs /\ ((h <= 23 /\ m <= 59 /\ s <= 60) -> utc_time (p ++ t ++ q) = Present (h, m, s, hs)) /\
    (~ (h <= 23 /\ m <= 59 /\ s <= 60) -> utc_time (p ++ t ++ q) = Refused).
Proof.
  intros p q t h m s ms P Q C L. destruct (parse_clock p q t h m s ms P Q C) as (hs & N & E). exists hs. split; [exact N|].
  assert (T : t <> []) by (destruct C as (d & f & -> & S6 & _); destruct (six_sp _ _ _ _ S6) as [_ Ln]; destruct d; [discriminate Ln|discriminate]).
  destruct (app_cons_ne p t q T) as (c & r & Ea). unfold utc_time. rewrite Ea, <- Ea, E. unfold valid_time, nearest in *.
  split; intros R; match goal with |- (if ?b then _ else _) = _ => destruct b eqn:B end; try reflexivity; exfalso; lia.
Qed.
Print Assumptions C173_time_partial.
Lemma dig_ex n : 0 <= n <= 9 -> dig (48 + n) n.
Proof. intros H. split; [reflexivity|exact H]. Qed.
Lemma two_ex a b : 0 <= a <= 9 -> 0 <= b <= 9 -> two [48 + a; 48 + b] (10 * a + b).
Proof. intros A B. exists (48 + a), (48 + b), a, b. split; [reflexivity|]. split; [apply dig_ex, A|]. split; [apply dig_ex, B|reflexivity]. Qed.
Example C173_time_ex : clock (str "235960.994") 23 59 60 994 /\ utc_time (str " 235960.994") = Present (23, 59, 60, 99).
Proof.
  split; [|vm_compute; reflexivity]. exists (str "235960"), (str ".994"). split; [reflexivity|]. split.
  - exists (str "23"), (str "59"), (str "60"). split; [reflexivity|]. split; [exact (two_ex 2 3 ltac:(lia) ltac:(lia))|]. split; [exact (two_ex 5 9 ltac:(lia) ltac:(lia))|exact (two_ex 6 0 ltac:(lia) ltac:(lia))].
  - exact (f_three 57 57 52 9 9 4 (dig_ex 9 ltac:(lia)) (dig_ex 9 ltac:(lia)) (dig_ex 4 ltac:(lia))).
Qed.

(** The last five milliseconds of every second are refused, with the whole sentence *)
Theorem C173_rounding_always : forall p q t h m s ms, blank p -> blank q -> clock t h m s ms -> ms >= 995 -> utc_time (p ++ t ++ q) = Refused.
Proof.
  intros p q t h m s ms P Q C L. destruct (parse_clock p q t h m s ms P Q C) as (hs & N & E).
  assert (T : t <> []) by (destruct C as (d & f & -> & S6 & _); destruct (six_sp _ _ _ _ S6) as [_ Ln]; destruct d; [discriminate Ln|discriminate]).
  destruct (app_cons_ne p t q T) as (c & r & Ea). unfold utc_time. rewrite Ea, <- Ea, E. unfold valid_time, nearest in *.
  match goal with |- (if ?b then _ else _) = _ => destruct b eqn:B end; [exfalso; lia|reflexivity].
Qed.
Print Assumptions C173_rounding_always.
Theorem C173_rounding_refuted : exists t, clock t 12 0 0 995 /\ utc_time t = Refused.
Proof.
  exists (str "120000.995"). split; [|vm_compute; reflexivity]. exists (str "120000"), (str ".995"). split; [reflexivity|]. split.
  - exists (str "12"), (str "00"), (str "00"). split; [reflexivity|]. split; [exact (two_ex 1 2 ltac:(lia) ltac:(lia))|]. split; exact (two_ex 0 0 ltac:(lia) ltac:(lia)).
  - exact (f_three 57 57 53 9 9 5 (dig_ex 9 ltac:(lia)) (dig_ex 9 ltac:(lia)) (dig_ex 5 ltac:(lia))).
Qed.
Print Assumptions C173_rounding_refuted.

(** A date of the years 91 to 99 and 00 to 89 is stored; one out of range refuses the sentence *)
Theorem C173_date_partial : forall p q t d m yy, blank p -> blank q -> six t d m yy -> yy <> 90 ->
  (1 <= d <= 31 /\ 1 <= m <= 12 -> exists y, y mod 100 = yy /\ 1991 <= y <= 2089 /\ utc_date (p ++ t ++ q) = Present (d, m, y)) /\
  (~ (1 <= d <= 31 /\ 1 <= m <= 12) -> utc_date (p ++ t ++ q) = Refused).
Proof.
  intros p q t d m yy P Q S6 N. pose proof (parse_six_date p q t d m yy P Q S6) as E. pose proof (six_range _ _ _ _ S6) as R.
  assert (T : t <> []) by (destruct (six_sp _ _ _ _ S6) as [_ Ln]; destruct t; [discriminate Ln|discriminate]).
  destruct (app_cons_ne p t q T) as (c & r & Ea). unfold utc_date. rewrite Ea, <- Ea, E. unfold valid_date.
  destruct (yy >? 90) eqn:G.
  - split; intros V.
    + exists (yy + 1900). split; [lia|]. split; [lia|]. match goal with |- (if ?b then _ else _) = _ => destruct b eqn:B end; [reflexivity|exfalso; lia].
    + match goal with |- (if ?b then _ else _) = _ => destruct b eqn:B end; [exfalso; lia|reflexivity].
  - split; intros V.
    + exists (yy + 2000). split; [lia|]. split; [lia|]. match goal with |- (if ?b then _ else _) = _ => destruct b eqn:B end; [reflexivity|exfalso; lia].
    + match goal with |- (if ?b then _ else _) = _ => destruct b eqn:B end; [exfalso; lia|reflexivity].
Qed.
Print Assumptions C173_date_partial.
Example C173_date_ex : six (str "311299") 31 12 99 /\ utc_date (str "311299 ") = Present (31, 12, 1999).
Proof.
  split; [|vm_compute; reflexivity]. exists (str "31"), (str "12"), (str "99"). split; [reflexivity|].
  split; [exact (two_ex 3 1 ltac:(lia) ltac:(lia))|]. split; [exact (two_ex 1 2 ltac:(lia) ltac:(lia))|exact (two_ex 9 9 ltac:(lia) ltac:(lia))].
Qed.

(** Every date of a year 90 is refused: it becomes 2090, and 2089 is the last one that is valid *)
Theorem C173_year_always : forall p q t d m, blank p -> blank q -> six t d m 90 -> utc_date (p ++ t ++ q) = Refused.
Proof.
  intros p q t d m P Q S6. pose proof (parse_six_date p q t d m 90 P Q S6) as E.
  assert (T : t <> []) by (destruct (six_sp _ _ _ _ S6) as [_ Ln]; destruct t; [discriminate Ln|discriminate]).
  destruct (app_cons_ne p t q T) as (c & r & Ea). unfold utc_date. rewrite Ea, <- Ea, E. reflexivity.
Qed.
Print Assumptions C173_year_always.
Theorem C173_year_refuted : exists t, six t 1 1 90 /\ utc_date t = Refused.
Proof.
  exists (str "010190"). split; [|vm_compute; reflexivity]. exists (str "01"), (str "01"), (str "90"). split; [reflexivity|].
  split; [exact (two_ex 0 1 ltac:(lia) ltac:(lia))|]. split; [exact (two_ex 0 1 ltac:(lia) ltac:(lia))|exact (two_ex 9 0 ltac:(lia) ltac:(lia))].
Qed.
Print Assumptions C173_year_refuted.

(** Whatever the field holds, a time or a date that is stored is in range *)
Theorem C173_range : forall buf,
  (forall h m s f, utc_time buf = Present (h, m, s, f) -> 0 <= h <= 23 /\ 0 <= m <= 59 /\ 0 <= s <= 60 /\ 0 <= f <= 99) /\
  (forall d m y, utc_date buf = Present (d, m, y) -> 1 <= d <= 31 /\ 1 <= m <= 12 /\ 1991 <= y <= 2089).
Proof.
  intros buf. split.
  - intros h m s f. unfold utc_time. destruct buf as [|c r]; [discriminate|]. destruct (parse_time (c :: r)) as [[[[h' m'] s'] f']|] eqn:E; [|discriminate].
    destruct (valid_time h' m' s' f') eqn:V; [|discriminate]. intros X. inversion X; subst. unfold valid_time in V.
    assert (P : 0 <= h /\ 0 <= m /\ 0 <= s /\ 0 <= f); [|lia]. unfold parse_time in E. destruct (has_sp _); [discriminate|].
    destruct (List.length _ =? 6)%nat; [destruct (three _) as [[[a b] d]|] eqn:T; [|discriminate]; inversion E; subst; pose proof (three_u _ _ _ _ T); lia|].
    destruct (List.length _ =? 8)%nat; [destruct (four _) as [[[[a b] d] e]|] eqn:T; [|discriminate]; inversion E; subst; pose proof (four_u _ _ _ _ _ T); unfold u32; lia|].
    destruct (List.length _ =? 9)%nat; [pose proof (four_u _ _ _ _ _ E); lia|].
    destruct (List.length _ =? 10)%nat; [destruct (four _) as [[[[a b] d] e]|] eqn:T; [|discriminate]; inversion E; subst; pose proof (four_u _ _ _ _ _ T); unfold u32; lia|discriminate].
  - intros d m y. unfold utc_date. destruct buf as [|c r]; [discriminate|]. destruct (parse_date (c :: r)) as [[[d' m'] y']|] eqn:E; [|discriminate].
    destruct (valid_date d' m' y') eqn:V; [|discriminate]. intros X. inversion X; subst. unfold valid_date in V.
    unfold parse_date in E. destruct (has_sp _); [discriminate|]. destruct (negb (List.length _ =? 6)%nat); [discriminate|]. destruct (three _) as [[[a b] z]|] eqn:T; [|discriminate]. pose proof (three_u _ _ _ _ T).
    assert (Y : y = if z >? 90 then u32 (z + 1900) else u32 (z + 2000)) by congruence. assert (d = a /\ m = b) by (split; congruence). unfold u32 in Y. destruct (z >? 90) eqn:G; lia.
Qed.
Print Assumptions C173_range.
Example C173_range_ex : utc_time (str "240000") = Refused /\ utc_time (str "-20000") = Refused /\ utc_date (str "0113-9") = Refused.
Proof. vm_compute. repeat split. Qed.

(** What is accepted is not always a time or a date *)
Theorem C173_junk_refuted : exists t u, utc_time t = Present (1, 2, 3, 40) /\ (forall h m s ms, ~ clock t h m s ms) /\ utc_date u = Present (31, 2, 2026).
Proof.
  exists (str "1x2y3z.4"), (str "310226"). split; [vm_compute; reflexivity|]. split; [|vm_compute; reflexivity].
  intros h m s ms (d & f & E & (x & y & z & -> & (a & b & v & w & -> & _ & [B1 B2] & _) & _) & _). inversion E. lia.
Qed.
Print Assumptions C173_junk_refuted.

(** Lemmas about the time and the date of NMEA sentences *)
From Coq Require Import String.
From Verif Require Import Base Regex NmeaScan NmeaScanSpec NmeaScanProofs NmeaTime NmeaTimeSpec.

Lemma sp_blank c : is_sp c = true <-> c = 32 \/ 9 <= c <= 13.
Proof. unfold is_sp. lia. Qed.
Lemma ltrim_blank p s : blank p -> ltrim (p ++ s) = ltrim s.
Proof. induction 1 as [|c p H _ IH]; [reflexivity|]. cbn [app ltrim]. rewrite (proj2 (sp_blank c) H). exact IH. Qed.
Lemma ltrim_head c r : is_sp c = false -> ltrim (c :: r) = c :: r.
Proof. intros H. cbn [ltrim]. rewrite H. reflexivity. Qed.
Lemma blank_rev p : blank p -> blank (rev p).
Proof. unfold blank. rewrite !Forall_forall. intros H x I. apply H. rewrite in_rev. exact I. Qed.
Lemma trim_body p q t : blank p -> blank q -> t <> [] -> has_sp t = false -> trim (p ++ t ++ q) = t.
Proof.
  intros P Q N S0. unfold trim. rewrite ltrim_blank by exact P.
  assert (F : forall c, In c t -> is_sp c = false) by (intros c I; destruct (is_sp c) eqn:E; [|reflexivity]; unfold has_sp in S0; rewrite <- S0; symmetry; apply existsb_exists; exists c; auto).
  assert (H1 : ltrim (t ++ q) = t ++ q) by (destruct t as [|c r]; [congruence|]; cbn [app]; apply ltrim_head, F; left; reflexivity).
  rewrite H1, rev_app_distr. rewrite ltrim_blank by (apply blank_rev, Q).
  assert (H2 : ltrim (rev t) = rev t) by (destruct (rev t) as [|c r] eqn:E; [reflexivity|]; apply ltrim_head, F; rewrite in_rev, E; left; reflexivity).
  rewrite H2. apply rev_involutive.
Qed.
Lemma dig_dec c v : dig c v -> decimal [c] v.
Proof. intros [-> H]. replace v with (48 + v - 48) at 2 by lia. apply d_one. lia. Qed.
Lemma dig_more s v c x : decimal s v -> dig c x -> decimal (s ++ [c]) (10 * v + x).
Proof. intros D [-> H]. replace (10 * v + x) with (10 * v + (48 + x - 48)) by lia. apply d_more; [exact D|lia]. Qed.
Lemma dig_ns c v : dig c v -> is_sp c = false.
Proof. intros [-> H]. unfold is_sp. lia. Qed.
Lemma pair_step term a b x y rest g n : dig a x -> dig b y ->
  scan (fun _ => false) term (37 :: 50 :: 117 :: g) None (a :: b :: rest) n =
  match scan (fun _ => false) term g None rest (S n) with Some (m, l) => Some (m, VUns (10 * x + y) :: l) | None => None end.
Proof.
  intros A B. assert (U : to_uint [a; b] = 10 * x + y).
  { apply to_uint_dec; [exact (dig_more [a] x b y (dig_dec a x A) B)|cbn; lia|destruct A, B; lia]. }
  assert (E : (a =? 42) || (a =? 0) = false) by (destruct A; lia).
  assert (St : scan (fun _ => false) term (37 :: 50 :: 117 :: g) None (a :: b :: rest) n =
    match store (fun _ => false) 117 (firstn (Nat.min (if (a =? 42) || (a =? 0) then O else 2%nat) 2) (a :: b :: rest)) 2 with
    | SBad => Some (O, []) | SUnknown => Some (n, [])
    | SOk v => match scan (fun _ => false) term g None rest (S n) with Some (m, l) => Some (m, v :: l) | None => None end end) by reflexivity.
  rewrite St, E. cbn [Nat.min firstn]. unfold store. cbn [Z.eqb Pos.eqb orb]. rewrite U.
  replace (10 * x + y =? 2 ^ 32 - 1) with false by (destruct A, B; lia). reflexivity.
Qed.
Lemma last_step term a r v n : 48 <= a <= 57 -> decimal (a :: r) v -> (List.length (a :: r) < 4)%nat -> v < 1000 ->
  scan (fun _ => false) term [46; 37; 117] None (46 :: a :: r) n = Some (S n, [VUns v]).
Proof.
  intros A D L V. assert (U : to_uint (a :: r) = v) by (apply to_uint_dec; [exact D|cbn [List.length] in *; lia|lia]).
  assert (E : (a =? 42) || (a =? 0) = false) by lia.
  assert (St : scan (fun _ => false) term [46; 37; 117] None (46 :: a :: r) n =
    match store (fun _ => false) 117 (firstn (Nat.min (if (a =? 42) || (a =? 0) then O else List.length (a :: r)) (S (List.length (a :: r)))) (a :: r)) (S (List.length (a :: r))) with
    | SBad => Some (O, []) | SUnknown => Some (n, [])
    | SOk w => match scan (fun _ => false) term [] None (skipn (List.length (a :: r)) (a :: r)) (S n) with Some (m, l) => Some (m, w :: l) | None => None end end) by reflexivity.
  rewrite St, E. replace (Nat.min (List.length (a :: r)) (S (List.length (a :: r)))) with (List.length (a :: r)) by lia. rewrite firstn_all.
  unfold store. cbn [Z.eqb Pos.eqb orb]. rewrite U. replace (v =? 2 ^ 32 - 1) with false by lia. reflexivity.
Qed.
Lemma three_six d a b c : six d a b c -> three d = Some (a, b, c).
Proof.
  intros (x & y & z & -> & (x1 & x2 & u1 & u2 & -> & X1 & X2 & ->) & (y1 & y2 & v1 & v2 & -> & Y1 & Y2 & ->) & (z1 & z2 & w1 & w2 & -> & Z1 & Z2 & ->)).
  unfold three, tokens, nmea_scanf. change (str "%2u%2u%2u") with (37 :: 50 :: 117 :: 37 :: 50 :: 117 :: 37 :: 50 :: 117 :: @nil Z). cbn [app].
  rewrite (pair_step _ _ _ u1 u2), (pair_step _ _ _ v1 v2), (pair_step _ _ _ w1 w2) by assumption. reflexivity.
Qed.
Lemma four_six d a b c x r v : six d a b c -> 48 <= x <= 57 -> decimal (x :: r) v -> (List.length (x :: r) < 4)%nat -> v < 1000 ->
  four (d ++ 46 :: x :: r) = Some (a, b, c, v).
Proof.
  intros (x' & y & z & -> & (x1 & x2 & u1 & u2 & -> & X1 & X2 & ->) & (y1 & y2 & v1 & v2 & -> & Y1 & Y2 & ->) & (z1 & z2 & w1 & w2 & -> & Z1 & Z2 & ->)) A D L V.
  unfold four, tokens, nmea_scanf. change (str "%2u%2u%2u.%u") with (37 :: 50 :: 117 :: 37 :: 50 :: 117 :: 37 :: 50 :: 117 :: [46; 37; 117]). cbn [app].
  rewrite (pair_step _ _ _ u1 u2), (pair_step _ _ _ v1 v2), (pair_step _ _ _ w1 w2) by assumption. rewrite (last_step _ _ _ v) by assumption. reflexivity.
Qed.
Lemma six_sp d a b c : six d a b c -> has_sp d = false /\ List.length d = 6%nat.
Proof.
  intros (x & y & z & -> & (x1 & x2 & u1 & u2 & -> & X1 & X2 & _) & (y1 & y2 & v1 & v2 & -> & Y1 & Y2 & _) & (z1 & z2 & w1 & w2 & -> & Z1 & Z2 & _)).
  split; [|reflexivity]. cbn [has_sp existsb app]. repeat match goal with H : dig ?c _ |- _ => rewrite (dig_ns c _ H); clear H end. reflexivity.
Qed.
Lemma fraction_sp f ms : fraction f ms -> has_sp f = false.
Proof. intros F. destruct F; cbn [has_sp existsb]; repeat match goal with H : dig ?c _ |- _ => rewrite (dig_ns c _ H); clear H end; reflexivity. Qed.
Lemma parse_clock p q t h m s ms : blank p -> blank q -> clock t h m s ms ->
  exists hs, nearest ms hs /\ parse_time (p ++ t ++ q) = Some (h, m, s, hs).
Proof.
  intros P Q (d & f & -> & S6 & F). destruct (six_sp _ _ _ _ S6) as [Sp Ln].
  assert (HS : has_sp (d ++ f) = false) by (unfold has_sp in *; rewrite existsb_app, Sp; exact (fraction_sp _ _ F)).
  unfold parse_time. rewrite trim_body by first [assumption|destruct d; [discriminate Ln|discriminate]]. rewrite HS, app_length, Ln.
  destruct F as [|a x A|a b x y A B|a b c x y z A B C]; cbn [List.length Nat.add Nat.eqb].
  - rewrite app_nil_r, (three_six _ _ _ _ S6). exists 0. split; [unfold nearest; lia|reflexivity].
  - rewrite (four_six _ h m s a [] x S6); [|destruct A; lia|apply dig_dec, A|cbn; lia|destruct A; lia].
    exists (x * 10). split; [unfold nearest; lia|]. unfold u32. rewrite Z.mod_small by (destruct A; lia). reflexivity.
  - rewrite (four_six _ h m s a [b] (10 * x + y) S6); [|destruct A; lia|exact (dig_more [a] x b y (dig_dec _ _ A) B)|cbn; lia|destruct A, B; lia].
    exists (10 * x + y). split; [unfold nearest; lia|reflexivity].
  - rewrite (four_six _ h m s a [b; c] (10 * (10 * x + y) + z) S6); [|destruct A; lia|exact (dig_more [a; b] _ c z (dig_more [a] x b y (dig_dec _ _ A) B) C)|cbn; lia|destruct A, B, C; lia].
    exists ((10 * (10 * x + y) + z + 5) / 10). unfold u32. rewrite Z.mod_small by (destruct A, B, C; lia). split; [unfold nearest; lia|reflexivity].
Qed.
Lemma parse_six_date p q t d m y : blank p -> blank q -> six t d m y ->
  parse_date (p ++ t ++ q) = Some (d, m, if y >? 90 then y + 1900 else y + 2000).
Proof.
  intros P Q S6. destruct (six_sp _ _ _ _ S6) as [Sp Ln]. unfold parse_date. rewrite trim_body by first [assumption|destruct t; [discriminate Ln|discriminate]].
  rewrite Sp, Ln, (three_six _ _ _ _ S6). cbn [negb Nat.eqb].
  assert (B : 0 <= y <= 99) by (destruct S6 as (a & b & c & _ & _ & _ & (z1 & z2 & w1 & w2 & _ & [_ ?] & [_ ?] & ->)); lia).
  unfold u32. rewrite !Z.mod_small by lia. reflexivity.
Qed.
Lemma six_range t a b c : six t a b c -> 0 <= a <= 99 /\ 0 <= b <= 99 /\ 0 <= c <= 99.
Proof.
  intros (x & y & z & _ & (x1 & x2 & u1 & u2 & _ & [_ X1] & [_ X2] & ->) & (y1 & y2 & v1 & v2 & _ & [_ Y1] & [_ Y2] & ->) & (z1 & z2 & w1 & w2 & _ & [_ Z1] & [_ Z2] & ->)). lia.
Qed.
Lemma app_cons_ne (p t q : list Z) : t <> [] -> exists c r, p ++ t ++ q = c :: r.
Proof. destruct p; cbn [app]; [destruct t; [congruence|]; intros _|intros _]; eexists _, _; reflexivity. Qed.
(** whatever is stored is a number of 32 bits *)
Definition u_ok (v : val) : Prop := 0 <= held v < 2 ^ 32.
Lemma digits_pos s : forall sn a v, digits sn a s = Some v -> 0 <= a -> 0 <= v.
Proof.
  induction s as [|c s IH]; intros sn a v H A; cbn [digits] in H.
  - destruct sn; [apply Some_inj in H; lia|discriminate].
  - destruct ((48 <=? c) && (c <=? 57)) eqn:E; [apply (IH _ _ _ H); lia|]. destruct sn; [apply Some_inj in H; lia|discriminate].
Qed.
Lemma to_uint_range s : 0 <= to_uint s < 2 ^ 32.
Proof.
  unfold to_uint. destruct ((64 <=? List.length s)%nat || (List.length s =? 0)%nat); [cbn; lia|].
  destruct (number s) as [[neg v]|] eqn:E; [|cbn; lia].
  assert (V : 0 <= v). { unfold number in E. destruct (match skip_sp s with c :: r => _ | [] => _ end) as [ng s']. destruct (digits false 0 s') eqn:D; [|discriminate]. inversion E; subst. apply (digits_pos _ _ _ _ D). lia. }
  assert (M : 0 <= (- v) mod 2 ^ 64) by (apply Z.mod_pos_bound; lia).
  remember ((- v) mod 2 ^ 64) as q eqn:Eq. clear Eq E. destruct (v >? 2 ^ 64 - 1); [cbn; lia|]. destruct neg.
  - destruct (q >? 2 ^ 32 - 1) eqn:G; [lia|]. rewrite Z.gtb_ltb in G. apply Z.ltb_ge in G. lia.
  - destruct (v >? 2 ^ 32 - 1) eqn:G; [lia|]. rewrite Z.gtb_ltb in G. apply Z.ltb_ge in G. lia.
Qed.
Lemma store_u isnum k t w v : store isnum k t w = SOk v -> u_ok v.
Proof.
  unfold store, u_ok. destruct t as [|c t].
  - destruct (existsb (Z.eqb k) _); [|discriminate]. intros H. inversion H. cbn. lia.
  - intros H. repeat match type of H with (if ?b then _ else _) = _ => destruct b eqn:? end; try discriminate; inversion H; subst; try (cbn; lia).
    exact (to_uint_range _).
Qed.
Lemma scan_u isnum term f : forall tok s n m l, scan isnum term f tok s n = Some (m, l) -> Forall u_ok l.
Proof.
  induction f as [|c g IH]; intros tok s n m l; cbn [scan]; [intros H; inversion H; constructor|]. destruct tok as [ds|].
  - destruct ((48 <=? c) && (c <=? 57)); [apply IH|].
    match goal with |- match store ?i ?k ?t ?w with _ => _ end = _ -> _ => destruct (store i k t w) as [v| |] eqn:E; [|intros X; inversion X; constructor|intros X; inversion X; constructor] end.
    match goal with |- match scan ?i ?a ?b ?c ?d ?e with _ => _ end = _ -> _ => destruct (scan i a b c d e) as [[m' l']|] eqn:E2; [|discriminate] end.
    intros X; inversion X; subst. constructor; [exact (store_u _ _ _ _ _ E)|exact (IH _ _ _ _ _ E2)].
  - destruct (c =? 37); [apply IH|]. destruct s as [|x r]; [destruct term; intros X; inversion X; constructor|]. destruct (x =? c); [apply IH|intros X; inversion X; constructor].
Qed.
Lemma three_u t a b c : three t = Some (a, b, c) -> 0 <= a < 2 ^ 32 /\ 0 <= b < 2 ^ 32 /\ 0 <= c < 2 ^ 32.
Proof.
  unfold three. destruct (tokens t (str "%2u%2u%2u")) as [[n l]|] eqn:E; [|discriminate]. pose proof (scan_u _ _ _ _ _ _ _ _ E) as F.
  destruct n as [|[|[|[|n]]]]; try discriminate. destruct l as [|x [|y [|z [|w l]]]]; try discriminate. intros H. inversion H; subst.
  inversion F as [|? ? F1 F']; subst. inversion F' as [|? ? F2 F'']; subst. inversion F'' as [|? ? F3 _]; subst. unfold u_ok in *. auto.
Qed.
Lemma four_u t a b c d : four t = Some (a, b, c, d) -> 0 <= a < 2 ^ 32 /\ 0 <= b < 2 ^ 32 /\ 0 <= c < 2 ^ 32 /\ 0 <= d < 2 ^ 32.
Proof.
  unfold four. destruct (tokens t (str "%2u%2u%2u.%u")) as [[n l]|] eqn:E; [|discriminate]. pose proof (scan_u _ _ _ _ _ _ _ _ E) as F.
  destruct n as [|[|[|[|[|n]]]]]; try discriminate. destruct l as [|x [|y [|z [|w [|w' l]]]]]; try discriminate. intros H. inversion H; subst.
  inversion F as [|? ? F1 F']; subst. inversion F' as [|? ? F2 F'']; subst. inversion F'' as [|? ? F3 F''']; subst. inversion F''' as [|? ? F4 _]; subst. unfold u_ok in *. auto.
Qed.

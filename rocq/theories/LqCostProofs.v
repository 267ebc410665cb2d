(** Proofs about the link quality model. *)
From Verif Require Import Base LqCost LqCostSpec.
Local Open Scope Z_scope.

(** ** Ring buffers *)
Lemma put_len : forall l i v, length (put i v l) = length l.
Proof. induction l as [|x l IH]; intros [|i] v; cbn; auto. Qed.

Lemma put_app : forall A a B v, put (length A) v (A ++ a :: B) = A ++ v :: B.
Proof. induction A as [|x A IH]; intros a B v; cbn; [reflexivity|rewrite IH; reflexivity]. Qed.

Lemma sumz_app l r : sumz (l ++ r) = sumz l + sumz r.
Proof. unfold sumz. induction l as [|x l IH]; cbn; [reflexivity|rewrite IH; lia]. Qed.

Lemma sumz_rev l : sumz (rev l) = sumz l.
Proof. induction l as [|x l IH]; cbn [rev]; [reflexivity|]. rewrite sumz_app, IH. change (sumz (x :: l)) with (x + sumz l). change (sumz [x]) with (x + 0). lia. Qed.

Definition ring (p : nat) (l L : list Z) (pad : Z) : Prop :=
  exists A B, l = A ++ B /\ length A = S p /\
    B ++ A = rev (firstn 32 (L ++ repeat pad 31)).

Lemma ring_len p l c D pad : ring p l (c :: D) pad -> length l = 32%nat.
Proof.
  intros (A & B & -> & _ & E).
  assert (H : length (B ++ A) = 32%nat).
  { rewrite E, rev_length, firstn_length, app_length, repeat_length. cbn [length]. lia. }
  rewrite app_length in *. lia.
Qed.

Lemma ring_put p l c c' D pad : ring p l (c :: D) pad ->
  nth p l 0 = c /\ ring p (put p c' l) (c' :: D) pad.
Proof.
  intros (A & B & -> & HA & E).
  cbn [app firstn rev] in E.
  destruct (exists_last (l := A)) as (A0 & a & EA); [intros ->; discriminate|].
  rewrite EA in E, HA |- *. rewrite app_assoc in E.
  apply app_inj_tail in E. destruct E as (E & ->).
  rewrite app_length in HA. cbn [length] in HA.
  assert (Hp : p = length A0) by lia. subst p.
  rewrite <- !app_assoc. cbn [app]. split.
  - rewrite app_nth2 by lia. rewrite Nat.sub_diag. reflexivity.
  - rewrite put_app. exists (A0 ++ [c']), B. split; [|split].
    + rewrite <- app_assoc. reflexivity.
    + rewrite app_length. cbn [length]. lia.
    + cbn [app firstn rev]. rewrite app_assoc, E. reflexivity.
Qed.

Lemma firstn_S_len {A} : forall n (l : list A), (S n <= length l)%nat ->
  exists x, firstn (S n) l = firstn n l ++ [x].
Proof.
  induction n as [|n IH]; intros [|y l] H; cbn [length] in H; try lia.
  - exists y. reflexivity.
  - destruct (IH l) as (x & E); [lia|]. exists x. cbn [firstn] in E |- *. rewrite E. reflexivity.
Qed.

Lemma ring_tick p l c D pad : (p < 32)%nat -> ring p l (c :: D) pad ->
  ring (Nat.modulo (S p) 32) (put (Nat.modulo (S p) 32) 0 l) (0 :: c :: D) pad.
Proof.
  intros Hp R. pose proof (ring_len _ _ _ _ _ R) as Len.
  destruct R as (A & B & -> & HA & E).
  set (L := c :: D) in *.
  assert (HL : (32 <= length (L ++ repeat pad 31))%nat).
  { rewrite app_length, repeat_length. subst L. cbn [length]. lia. }
  destruct (firstn_S_len 31 _ HL) as (x & EX).
  assert (G : rev (firstn 32 ((0 :: L) ++ repeat pad 31)) = rev (firstn 31 (L ++ repeat pad 31)) ++ [0])
    by reflexivity.
  rewrite EX, rev_app_distr in E. cbn [rev app] in E.
  set (T := rev (firstn 31 (L ++ repeat pad 31))) in *. clearbody T. clear EX HL.
  destruct (Nat.eq_dec p 31) as [->|N].
  - rewrite app_length in Len. assert (HB : B = []) by (destruct B; [reflexivity|cbn [length] in Len; lia]).
    subst B. cbn [app] in E. subst A. rewrite app_nil_r.
    change (Nat.modulo 32 32) with 0%nat. cbn [put].
    exists [0], T. rewrite G. repeat split.
  - rewrite Nat.mod_small by lia.
    destruct B as [|b B]; [rewrite app_nil_r in Len; lia|].
    cbn [app] in E. injection E as -> E.
    rewrite <- HA, put_app. exists (A ++ [0]), B. rewrite G, <- E, <- !app_assoc. cbn [app].
    repeat split. rewrite app_length. cbn [length]. lia.
Qed.

Lemma ring_sum p l L pad : ring p l L pad -> sumz l = sumz (firstn 32 (L ++ repeat pad 31)).
Proof.
  intros (A & B & -> & _ & E). rewrite <- sumz_rev with (l := firstn _ _), <- E, !sumz_app. lia.
Qed.

Lemma repeat_app {A} (x : A) n m : repeat x (n + m) = repeat x n ++ repeat x m.
Proof. induction n as [|n IH]; cbn; [reflexivity|rewrite IH; reflexivity]. Qed.

Lemma firstn_repeat {A} (x : A) : forall n m, (n <= m)%nat -> firstn n (repeat x m) = repeat x n.
Proof. induction n as [|n IH]; intros [|m] H; cbn; try lia; [reflexivity|reflexivity|]. rewrite IH by lia. reflexivity. Qed.

Lemma rev_repeat {A} (x : A) n : rev (repeat x n) = repeat x n.
Proof.
  induction n as [|n IH]; cbn; [reflexivity|]. rewrite IH.
  change [x] with (repeat x 1). rewrite <- repeat_app, Nat.add_comm. reflexivity.
Qed.

Lemma app_len_inj {A} : forall (a b c d : list A), length a = length c -> a ++ b = c ++ d -> a = c /\ b = d.
Proof.
  induction a as [|x a IH]; intros b [|y c] d H E; cbn in *; try discriminate; [auto|].
  injection E as -> E. injection H as H. destruct (IH _ _ _ H E) as (-> & ->). auto.
Qed.

Lemma ring_young p l L pad : ring p l L pad -> length L = S p -> (p <= 27)%nat ->
  firstn (p + 5) l = rev L ++ repeat pad 4.
Proof.
  intros (A & B & -> & HA & E) HL Hp.
  rewrite firstn_app, HL, rev_app_distr, (firstn_all2 L) in E by lia.
  rewrite firstn_repeat, rev_repeat in E by lia.
  assert (LB : length B = (31 - p)%nat).
  { assert (H : length (B ++ A) = length (repeat pad (32 - S p) ++ rev L)) by (rewrite E; reflexivity).
    rewrite !app_length, repeat_length, rev_length in H. lia. }
  assert (LC : length B = length (repeat pad (32 - S p))) by (rewrite repeat_length; lia).
  destruct (app_len_inj _ _ _ _ LC E) as (EB & EA). clear E LC.
  rewrite EA, EB, firstn_app, rev_length, HL, firstn_all2 by (rewrite rev_length; lia).
  f_equal. rewrite firstn_repeat by lia. f_equal. lia.
Qed.

Lemma ring_sum_win p l L pad k : ring p l L pad -> length L = S k -> p = Nat.modulo k 32 ->
  sumz (firstn (Nat.min 32 (5 + k)) l) = sumz (firstn 32 (L ++ repeat pad 4)).
Proof.
  intros R HL Hp. destruct (Nat.le_gt_cases k 26) as [Y|O].
  - rewrite Nat.mod_small in Hp by lia. subst p.
    rewrite Nat.min_r by lia. replace (5 + k)%nat with (k + 5)%nat by lia.
    rewrite (ring_young _ _ _ _ R HL) by lia.
    rewrite firstn_all2 by (rewrite app_length, repeat_length; lia).
    rewrite !sumz_app, sumz_rev. reflexivity.
  - rewrite Nat.min_l by lia.
    assert (Len : length l = 32%nat).
    { destruct L as [|c D]; [discriminate|]. exact (ring_len _ _ _ _ _ R). }
    rewrite firstn_all2 by lia. rewrite (ring_sum _ _ _ _ R).
    rewrite !firstn_app, !firstn_repeat by lia. reflexivity.
Qed.

(** ** The estimate follows the history *)
Definition W (f : interval -> Z) (h : hist) : list Z := map (fun v => u16 (f v)) (h_cur h :: h_old h).

Definition follows (e : est) (h : hist) : Prop :=
  let k := length (h_old h) in
  e_seq e = h_seq h /\ 0 <= h_seq h < 65536 /\ e_miss e = u16 (h_miss h) /\ 0 <= h_miss h /\
  e_ptr e = Z.of_nat (Nat.modulo k 32) /\ e_win e = Z.of_nat (Nat.min 32 (4 + k)) /\
  ring (Nat.modulo k 32) (e_recv e) (W fst h) 0 /\
  ring (Nat.modulo k 32) (e_tot e) (W snd h) 3 /\
  0 <= fst (h_cur h) /\ fst (h_cur h) <= snd (h_cur h) /\
  snd (h_cur h) <= 3 + 256 * fst (h_cur h) /\
  Forall (fun v => 0 <= fst v /\ fst v <= snd v /\ snd v <= 3 + 256 * fst v) (h_old h).

Lemma ring0 pad c : c = pad -> ring 0 (repeat pad 32) [c] pad.
Proof.
  intros ->. exists [pad], (repeat pad 31). repeat split.
Qed.

Lemma follows0 : follows est0 hist0.
Proof.
  unfold follows, est0, hist0. cbn [h_old h_cur h_seq h_miss length e_seq e_miss e_ptr e_win e_recv e_tot fst snd].
  repeat split; try lia; try reflexivity.
  - apply ring0. reflexivity.
  - apply ring0. reflexivity.
  - constructor.
Qed.

Lemma u16_add a b : u16 (u16 a + b) = u16 (a + b).
Proof. unfold u16. rewrite Zplus_mod_idemp_l. reflexivity. Qed.

Lemma follows_saw s e h : 0 <= s < 65536 -> follows e h -> follows (est_packet s e) (saw s h).
Proof.
  intros Hs (F1 & F2 & F3 & F3' & F4 & F5 & F6 & F7 & F8 & F9 & F10 & F11).
  unfold est_packet, saw, ahead. rewrite F1.
  set (L := h_seq h) in *.
  destruct (L =? s) eqn:E1.
  { replace ((s - L) mod 65536 =? 0) with true by (symmetry; apply Z.eqb_eq; replace (s - L) with 0 by lia; reflexivity).
    unfold follows. fold L. repeat split; auto; lia. }
  assert (ED : (s - L) mod 65536 = if L >? s then u32 (s + 65536 - L) else s - L).
  { unfold u32. destruct (L >? s) eqn:E2.
    - rewrite (Z.mod_small (s + 65536 - L)) by lia.
      symmetry. apply Z.mod_unique_pos with (q := -1); lia.
    - apply Z.mod_small. lia. }
  replace ((s - L) mod 65536 =? 0) with false
    by (symmetry; apply Z.eqb_neq; rewrite ED; destruct (L >? s) eqn:E2; unfold u32; try rewrite Z.mod_small by lia; lia).
  rewrite <- ED. set (d0 := (s - L) mod 65536) in *.
  assert (Hd0 : 0 < d0).
  { rewrite ED; destruct (L >? s) eqn:E2; unfold u32; try rewrite Z.mod_small by lia; lia. }
  assert (Hd : 1 <= (if d0 >? 256 then 1 else d0) <= 256) by (destruct (d0 >? 256) eqn:E; lia).
  set (d := if d0 >? 256 then 1 else d0) in *. clearbody d. clear ED Hd0. clearbody d0.
  unfold follows. cbn [h_old h_cur h_seq h_miss e_seq e_miss e_ptr e_win e_recv e_tot fst snd].
  rewrite F4, Nat2Z.id.
  unfold W in F6, F7. cbn [map] in F6, F7.
  repeat split; try lia; auto.
  - destruct (ring_put _ _ _ (u16 (nth (Nat.modulo (length (h_old h)) 32) (e_recv e) 0 + 1)) _ _ F6) as (N & R).
    unfold W. cbn [map h_cur h_old fst]. rewrite N, u16_add in R. rewrite N, u16_add. exact R.
  - destruct (ring_put _ _ _ (u16 (nth (Nat.modulo (length (h_old h)) 32) (e_tot e) 0 + d)) _ _ F7) as (N & R).
    unfold W. cbn [map h_cur h_old snd]. rewrite N, u16_add in R. rewrite N, u16_add. exact R.
Qed.

Lemma follows_lost e h : follows e h ->
  follows (est_lost e) (Hist (h_seq h) (h_miss h + 1) (h_cur h) (h_old h)).
Proof.
  intros (F1 & F2 & F3 & F3' & F4 & F5 & F6 & F7 & F8 & F9 & F10 & F11).
  unfold follows, est_lost. cbn [h_old h_cur h_seq h_miss e_seq e_miss e_ptr e_win e_recv e_tot].
  rewrite F3, u16_add. repeat split; auto; lia.
Qed.

Lemma mod_S k : Nat.modulo (S (Nat.modulo k 32)) 32 = Nat.modulo (S k) 32.
Proof. change (S (k mod 32)) with (1 + k mod 32)%nat. rewrite Nat.add_mod_idemp_r by lia. reflexivity. Qed.

Lemma follows_tick k ether m hi e h : follows e h ->
  follows (est_tick k ether m hi e) (Hist (h_seq h) (h_miss h) (0, 0) (h_cur h :: h_old h)).
Proof.
  intros (F1 & F2 & F3 & F3' & F4 & F5 & F6 & F7 & F8 & F9 & F10 & F11).
  unfold est_tick. set (q := ratio_lq _ _ _ _ _). clearbody q.
  destruct (match k with FF => (e_perf e, q) | FFETH => boost ether (e_perf e) q end) as (p & q').
  unfold follows. cbn [h_old h_cur h_seq h_miss length e_seq e_miss e_ptr e_win e_recv e_tot fst snd].
  set (n := length (h_old h)) in *. clearbody n.
  assert (EP : (e_ptr e + 1) mod LQ_WINDOW = Z.of_nat (Nat.modulo (S n) 32)).
  { rewrite F4, <- mod_S. unfold LQ_WINDOW.
    rewrite Nat2Z.inj_mod. f_equal. lia. }
  rewrite EP, Nat2Z.id, <- mod_S.
  assert (Hm : (n mod 32 < 32)%nat) by (apply Nat.mod_upper_bound; lia).
  repeat split; auto; try lia.
  - rewrite F5. unfold LQ_WINDOW. destruct (Z.of_nat (Nat.min 32 (4 + n)) <? 32) eqn:E; lia.
  - exact (ring_tick _ _ _ _ _ Hm F6).
  - exact (ring_tick _ _ _ _ _ Hm F7).
Qed.

(** The sums the timer takes are the sums over the window. *)
Lemma win_succ n : (if Z.of_nat (Nat.min 32 (4 + n)) <? LQ_WINDOW then Z.of_nat (Nat.min 32 (4 + n)) + 1
                    else Z.of_nat (Nat.min 32 (4 + n))) = Z.of_nat (Nat.min 32 (5 + n)).
Proof. unfold LQ_WINDOW. destruct (_ <? _) eqn:E; lia. Qed.

Lemma map_repeat {A B} (f : A -> B) x n : map f (repeat x n) = repeat (f x) n.
Proof. induction n as [|n IH]; cbn; [reflexivity|rewrite IH; reflexivity]. Qed.

Lemma u16_id x : 0 <= x < 65536 -> u16 x = x.
Proof. intros H. unfold u16. apply Z.mod_small. exact H. Qed.

Lemma tick_sums e h : follows e h -> calm 255 h ->
  let win := if e_win e <? LQ_WINDOW then e_win e + 1 else e_win e in
  sumz (firstn (Z.to_nat win) (e_recv e)) = got (window h) /\
  sumz (firstn (Z.to_nat win) (e_tot e)) = sent (window h).
Proof.
  intros (F1 & F2 & F3 & F3' & F4 & F5 & F6 & F7 & F8 & F9 & F10 & F11) C win.
  assert (EW : Z.to_nat win = Nat.min 32 (5 + length (h_old h))).
  { unfold win. rewrite F5, win_succ, Nat2Z.id. reflexivity. }
  rewrite EW.
  assert (B : forall v, In v (h_cur h :: h_old h) -> 0 <= fst v /\ fst v <= snd v /\ snd v <= 3 + 256 * fst v).
  { intros v [<-|I]; [auto|]. rewrite Forall_forall in F11. exact (F11 v I). }
  assert (LW : forall f, length (W f h) = S (length (h_old h))).
  { intros f. unfold W. rewrite map_length. reflexivity. }
  rewrite (ring_sum_win _ _ _ _ _ F6 (LW fst) eq_refl), (ring_sum_win _ _ _ _ _ F7 (LW snd) eq_refl).
  assert (E1 : W fst h = map fst (h_cur h :: h_old h)).
  { apply map_ext_in. intros v I. apply u16_id. specialize (B v I). specialize (C v I). lia. }
  assert (E2 : W snd h = map snd (h_cur h :: h_old h)).
  { apply map_ext_in. intros v I. apply u16_id. specialize (B v I). specialize (C v I). lia. }
  rewrite E1, E2. unfold window, got, sent, sumz.
  rewrite <- !firstn_map, !map_app, !map_repeat. split; reflexivity.
Qed.

Lemma in_firstn {A} (x : A) : forall n l, In x (firstn n l) -> In x l.
Proof. induction n as [|n IH]; intros [|y l] H; cbn in *; try tauto. destruct H; auto. Qed.

Lemma firstn_len_le {A} n (l : list A) : (length (firstn n l) <= n)%nat.
Proof. rewrite firstn_length. lia. Qed.

Lemma window_bounds e h : follows e h -> calm 255 h ->
  0 <= got (window h) /\ got (window h) <= sent (window h) /\ got (window h) <= 32 * 255 /\
  sent (window h) <= 32 * 65283.
Proof.
  intros (F1 & F2 & F3 & F3' & F4 & F5 & F6 & F7 & F8 & F9 & F10 & F11) C.
  assert (B : forall v, In v (window h) -> 0 <= fst v <= 255 /\ fst v <= snd v <= 65283).
  { intros v I. unfold window in I. apply in_firstn in I. apply in_app_or in I.
    destruct I as [I|I].
    - pose proof (C v I). destruct I as [<-|I]; [lia|]. rewrite Forall_forall in F11. specialize (F11 v I). cbn beta in F11. lia.
    - apply repeat_spec in I. subst v. cbn. lia. }
  assert (L : (length (window h) <= 32)%nat) by apply firstn_len_le.
  unfold got, sent.
  assert (G : forall w, (forall v, In v w -> 0 <= fst v <= 255 /\ fst v <= snd v <= 65283) ->
    0 <= fold_right Z.add 0 (map fst w) /\ fold_right Z.add 0 (map fst w) <= fold_right Z.add 0 (map snd w) /\
    fold_right Z.add 0 (map fst w) <= Z.of_nat (length w) * 255 /\
    fold_right Z.add 0 (map snd w) <= Z.of_nat (length w) * 65283).
  { induction w as [|v w IH]; intros H; cbn [map fold_right length]; [lia|].
    destruct (IH (fun x I => H x (or_intror I))) as (I1 & I2 & I3 & I4).
    pose proof (H v (or_introl eq_refl)). lia. }
  destruct (G _ B) as (G1 & G2 & G3 & G4). unfold interval in *. lia.
Qed.

(** ** Arithmetic of the quality *)
Lemma div_bounds a b : 0 <= a -> 0 < b -> a / b * b <= a < (a / b + 1) * b /\ 0 <= a / b.
Proof. intros H1 H2. pose proof (Z.div_mod a b). pose proof (Z.mod_pos_bound a b H2). pose proof (Z.div_pos a b H1 H2). lia. Qed.

Lemma scaled_bounds m r t : 1 <= m <= 65536 -> 0 <= r <= t -> 0 < t ->
  let q := m * 1024 / 65536 * r / t * 255 / 1024 in
  0 <= q <= 255 /\ q * (t * 65536) <= 255 * (r * m) < (q + 2) * (t * 65536).
Proof.
  intros Hm Hr Ht q.
  destruct (div_bounds (m * 1024) 65536) as ((A1 & A2) & A3); try lia.
  set (a := m * 1024 / 65536) in *. clearbody a.
  assert (Ha : a <= 1024) by lia.
  destruct (div_bounds (a * r) t) as ((B1 & B2) & B3); [apply Z.mul_nonneg_nonneg; lia|lia|].
  set (b := a * r / t) in *. clearbody b.
  destruct (div_bounds (b * 255) 1024) as ((D1 & D2) & D3); try lia.
  set (d := b * 255 / 1024) in *. clearbody d. subst q.
  assert (Hb : b <= 1024).
  { assert (a * r <= 1024 * t) by (apply Z.mul_le_mono_nonneg; lia).
    apply Z.mul_le_mono_pos_r with t; lia. }
  split; [lia|].
  assert (X1 : 64 * (a * r) <= m * r).
  { rewrite Z.mul_assoc. apply Z.mul_le_mono_nonneg_r; lia. }
  assert (X2 : m * r <= 64 * (a * r) + 64 * r).
  { replace (64 * (a * r) + 64 * r) with ((64 * a + 64) * r) by ring. apply Z.mul_le_mono_nonneg_r; lia. }
  assert (X3 : d * 1024 * t <= b * 255 * t) by (apply Z.mul_le_mono_nonneg_r; lia).
  assert (X4 : b * 255 * t < (d + 1) * 1024 * t) by (apply Z.mul_lt_mono_pos_r; lia).
  replace (r * m) with (m * r) by ring.
  split; [lia|].
  assert (X5 : 255 * (m * r) <= 255 * 64 * (a * r) + 255 * 64 * r) by lia.
  lia.
Qed.

Lemma ratio_spec m hi mi r t : 1 <= m <= 65536 -> 0 <= r <= t -> r <= 32 * 255 -> 0 <= mi < 65536 ->
  0 <= hi < 2 ^ 32 ->
  let q := ratio_lq m hi mi r t in
  0 <= q <= 255 /\ q * (t * 65536) <= 255 * (r * m) /\
  (mi <= 1 -> 0 < t -> 255 * (r * m) < (q + 2) * (t * 65536)).
Proof.
  intros Hm Hr Hr2 Hmi Hhi. unfold ratio_lq.
  destruct (t =? 0) eqn:Et.
  { cbn zeta. assert (t = 0) by lia. assert (r = 0) by lia. subst. lia. }
  assert (Ht : 0 < t) by lia. clear Et.
  replace (u32 (m * 1024)) with (m * 1024) by (unfold u32; rewrite Z.mod_small; lia).
  set (r1 := if mi >? 1 then _ else r).
  assert (H1 : 0 <= r1 <= r /\ (mi <= 1 -> r1 = r)).
  { unfold r1. destruct (mi >? 1) eqn:E; [|lia]. split; [|lia].
    unfold LQ_WINDOW.
    assert (Hi : 0 <= u32 (mi * hi) / 1000).
    { apply Z.div_pos; [|lia]. unfold u32. apply Z.mod_pos_bound. lia. }
    set (iv := u32 (mi * hi) / 1000) in *. clearbody iv.
    destruct (iv >? 32) eqn:E2; [lia|].
    assert (P : 0 <= r * (32 - iv) <= r * 32) by (split; [apply Z.mul_nonneg_nonneg; lia|apply Z.mul_le_mono_nonneg_l; lia]).
    unfold u32. rewrite Z.mod_small by lia. split; [apply Z.div_pos; lia|].
    apply Z.div_le_upper_bound; lia. }
  clearbody r1.
  destruct (scaled_bounds m r1 t Hm) as (Q1 & Q2 & Q3); [lia|lia|].
  set (q := m * 1024 / 65536 * r1 / t * 255 / 1024) in *. clearbody q.
  replace (u8 q) with q by (unfold u8; rewrite Z.mod_small; lia).
  cbn zeta. split; [lia|split].
  - assert (r1 * m <= r * m) by (apply Z.mul_le_mono_nonneg_r; lia). lia.
  - intros M _. rewrite (proj2 H1 M) in Q3. lia.
Qed.

(** ** The link set *)
Lemma find_map f ls i : (forall l, l_id (f l) = l_id l) ->
  find_link i (map f ls) = option_map f (find_link i ls).
Proof.
  intros H. unfold find_link. induction ls as [|l ls IH]; cbn; [reflexivity|].
  rewrite H. destruct (l_id l =? i); [reflexivity|exact IH].
Qed.

Lemma find_on j f ls i : (forall l, l_id (f l) = l_id l) ->
  find_link i (on_link j f ls) = if j =? i then option_map f (find_link i ls) else find_link i ls.
Proof.
  intros H. unfold on_link, find_link. induction ls as [|l ls IH]; cbn.
  - destruct (j =? i); reflexivity.
  - destruct (l_id l =? j) eqn:E1.
    + rewrite H. destruct (l_id l =? i) eqn:E2.
      * assert (j =? i = true) as -> by lia. reflexivity.
      * exact IH.
    + destruct (l_id l =? i) eqn:E2; [|exact IH].
      assert (j =? i = false) as -> by lia. reflexivity.
Qed.

Lemma find_del j ls i : find_link i (filter (fun l => negb (l_id l =? j)) ls) =
  if j =? i then None else find_link i ls.
Proof.
  unfold find_link. induction ls as [|l ls IH]; cbn.
  - destruct (j =? i); reflexivity.
  - destruct (l_id l =? j) eqn:E1; cbn.
    + rewrite IH. destruct (j =? i) eqn:E2; [reflexivity|].
      assert (l_id l =? i = false) as -> by lia. reflexivity.
    + destruct (l_id l =? i) eqn:E2; [|exact IH].
      assert (j =? i = false) as -> by lia. reflexivity.
Qed.

Lemma find_exists i ls : existsb (fun l => l_id l =? i) ls = match find_link i ls with Some _ => true | None => false end.
Proof. unfold find_link. induction ls as [|l ls IH]; cbn; [reflexivity|]. destruct (l_id l =? i); auto. Qed.

Definition tick_link (k : lqk) (l : ffl) : ffl :=
  with_est l (est_tick k (l_ether l) (l_mult l) (l_hint l) (l_est l)).

(** what the second half of the timer does to one link *)
Definition settle (k : lqk) (t : bool) (l : ffl) : ffl :=
  let l1 := if relevant k l then publish k l else l in
  if t then refresh k l1 else l1.

Lemma timer_map k ls : exists t, timer k ls = map (fun l => settle k t (tick_link k l)) ls /\
  (t = false -> forall l, In l ls -> relevant k (tick_link k l) = false).
Proof.
  unfold timer, lqchange. cbn [fst].
  set (ls0 := map _ ls). exists (existsb (relevant k) ls0). split.
  - unfold settle, ls0. destruct (existsb _ _); rewrite !map_map; reflexivity.
  - intros E l I. destruct (relevant k (tick_link k l)) eqn:R; [|reflexivity].
    exfalso. assert (existsb (relevant k) ls0 = true); [|congruence].
    apply existsb_exists. exists (tick_link k l). split; [|exact R].
    unfold ls0. apply in_map_iff. exists l. auto.
Qed.

Lemma settle_est k t l : l_est (settle k t l) = l_est l /\ l_id (settle k t l) = l_id l /\
  l_mult (settle k t l) = l_mult l /\ l_hint (settle k t l) = l_hint l /\ l_nlq (settle k t l) = l_nlq l /\
  l_ether (settle k t l) = l_ether l.
Proof.
  unfold settle, refresh, publish.
  destruct (relevant k l); destruct t; cbn;
    try (destruct (top _ _ && top _ _); cbn); try (destruct ((_ =? _) && (_ =? _)); cbn); auto 10.
Qed.

Lemma tick_id k t l : l_id (settle k t (tick_link k l)) = l_id l.
Proof. destruct (settle_est k t (tick_link k l)) as (_ & E & _). rewrite E. reflexivity. Qed.

Lemma find_timer k ls : exists t, forall i, find_link i (timer k ls) =
  option_map (fun l => settle k t (tick_link k l)) (find_link i ls).
Proof.
  destruct (timer_map k ls) as (t & E & _). exists t. intros i. rewrite E.
  apply find_map. intros l. apply tick_id.
Qed.

Definition matches (i : Z) (ls : list ffl) (o : option hist) : Prop :=
  match find_link i ls, o with
  | Some l, Some h => follows (l_est l) h
  | None, None => True
  | _, _ => False
  end.

Lemma matches_step k i ls o e : lev_ok e -> matches i ls o -> matches i (lstep k ls e) (hstep i o e).
Proof.
  unfold matches. intros OK H. destruct e as [j et m hi|j|j s|j|j v|j v|]; cbn [lstep].
  - rewrite find_exists. destruct (find_link j ls) as [lj|] eqn:Fj.
    + cbn [hstep]. destruct o as [h|]; [exact H|].
      destruct (j =? i) eqn:E; [|exact H]. assert (j = i) by lia. subst. rewrite Fj in H. contradiction.
    + unfold find_link. cbn [find l_id]. fold (find_link i ls).
      destruct (j =? i) eqn:E.
      * assert (j = i) by lia. subst. rewrite Fj in H. destruct o as [h|]; [contradiction|].
        cbn [hstep]. rewrite Z.eqb_refl. exact follows0.
      * cbn [hstep]. destruct o as [h|]; [exact H|]. rewrite E. exact H.
  - rewrite find_del. cbn [hstep]. destruct o as [h|].
    + destruct (j =? i); [exact Logic.I|exact H].
    + destruct (j =? i); [exact Logic.I|exact H].
  - rewrite find_on by reflexivity. cbn [hstep].
    destruct (find_link i ls) as [l|]; destruct o as [h|]; try contradiction; destruct (j =? i); cbn; auto.
    apply follows_saw; [exact OK|exact H].
  - rewrite find_on by reflexivity. cbn [hstep].
    destruct (find_link i ls) as [l|]; destruct o as [h|]; try contradiction; destruct (j =? i); cbn; auto.
    apply follows_lost. exact H.
  - rewrite find_on by reflexivity. cbn [hstep].
    destruct (find_link i ls) as [l|]; destruct o as [h|]; try contradiction; destruct (j =? i); cbn; auto.
  - rewrite find_on by reflexivity. cbn [hstep].
    destruct (find_link i ls) as [l|]; destruct o as [h|]; try contradiction; destruct (j =? i); cbn; auto.
  - destruct (find_timer k ls) as (t & E). rewrite E.
    destruct (find_link i ls) as [l|]; destruct o as [h|]; try contradiction; cbn; auto.
    destruct (settle_est k t (tick_link k l)) as (S1 & _). rewrite S1. cbn.
    apply follows_tick. exact H.
Qed.

Lemma run_matches k i : forall evs ls o, Forall lev_ok evs -> matches i ls o ->
  matches i (fold_left (lstep k) evs ls) (fold_left (hstep i) evs o).
Proof.
  induction evs as [|e evs IH]; intros ls o OK H; cbn [fold_left]; [exact H|].
  inversion OK; subst. apply IH; [assumption|]. apply matches_step; assumption.
Qed.

(** *** values in range *)
Definition sane (k : lqk) (l : ffl) : Prop :=
  in8 (e_lq (l_est l)) /\ in8 (l_nlq l) /\ in8 (l_slq l) /\ in8 (l_snlq l) /\
  1 <= l_mult l <= 65536 /\ 0 <= l_hint l < 2 ^ 32 /\
  l_cost l = calc_cost k (l_slq l) (l_snlq l).

Lemma u8_in8 x : in8 (u8 x).
Proof. unfold in8, u8. pose proof (Z.mod_pos_bound x 256). lia. Qed.

Lemma ratio_in8 m hi mi r t : in8 (ratio_lq m hi mi r t).
Proof. unfold ratio_lq. destruct (t =? 0); [unfold in8; lia|]. apply u8_in8. Qed.

Lemma boost_in8 et p q : in8 q -> in8 (snd (boost et p q)).
Proof.
  unfold boost, in8. intros H. destruct et; cbn [snd].
  - destruct (if q >? 242 then true else if q >? 229 then false else p); lia.
  - destruct (q >? 0) eqn:E; lia.
Qed.

Lemma est_tick_in8 k et m hi e : in8 (e_lq (est_tick k et m hi e)).
Proof.
  unfold est_tick. set (q := ratio_lq _ _ _ _ _).
  assert (Q : in8 q) by apply ratio_in8. clearbody q.
  destruct k; cbn [e_lq]; [exact Q|].
  pose proof (boost_in8 et (e_perf e) q Q) as B. destruct (boost et (e_perf e) q) as (p & q'). exact B.
Qed.

Lemma est_packet_lq s e : e_lq (est_packet s e) = e_lq e.
Proof. unfold est_packet. destruct (e_seq e =? s); reflexivity. Qed.

Lemma publish_sane k l : sane k l -> sane k (publish k l).
Proof. intros (H1 & H2 & H3 & H4 & H5 & H6 & H7). unfold sane, publish. cbn. repeat split; auto; first [apply H1 | apply H2 | lia]. Qed.

Lemma refresh_sane k l : sane k l -> sane k (refresh k l).
Proof.
  intros H. unfold refresh. destruct (top _ _ && top _ _); [exact H|].
  destruct ((_ =? _) && (_ =? _)); [exact H|]. apply publish_sane. exact H.
Qed.

Lemma settle_sane k t l : sane k l -> sane k (settle k t l).
Proof.
  intros H. unfold settle. assert (H1 : sane k (if relevant k l then publish k l else l)).
  { destruct (relevant k l); [apply publish_sane|]; exact H. }
  destruct t; [apply refresh_sane|]; exact H1.
Qed.

Lemma sane_step k ls e : lev_ok e -> Forall (sane k) ls -> Forall (sane k) (lstep k ls e).
Proof.
  intros OK H. rewrite Forall_forall in *.
  assert (ON : forall j f, (forall l, sane k l -> sane k (f l)) -> forall l, In l (on_link j f ls) -> sane k l).
  { intros j f Hf l I. unfold on_link in I. apply in_map_iff in I. destruct I as (l0 & <- & I).
    destruct (l_id l0 =? j); [apply Hf|]; apply H; exact I. }
  destruct e as [j et m hi|j|j s|j|j v|j v|]; cbn [lstep lev_ok] in *; intros l I.
  - destruct (existsb _ _); [apply H; exact I|]. destruct I as [<-|I]; [|apply H; exact I].
    unfold sane, in8. cbn. repeat split; try lia. 
  - apply filter_In in I. apply H. tauto.
  - eapply ON; [|exact I]. intros l0 S. unfold sane, with_est in *. cbn. rewrite est_packet_lq. exact S.
  - eapply ON; [|exact I]. intros l0 S. exact S.
  - eapply ON; [|exact I]. intros l0 (S1 & S2 & S3 & S4 & S5 & S6 & S7). unfold sane. cbn. unfold in8 in *. repeat split; auto; lia.
  - eapply ON; [|exact I]. intros l0 (S1 & S2 & S3 & S4 & S5 & S6 & S7). unfold sane. cbn. unfold in8 in *. repeat split; auto; lia.
  - destruct (timer_map k ls) as (t & E & _). rewrite E in I. apply in_map_iff in I.
    destruct I as (l0 & <- & I). apply settle_sane. specialize (H l0 I).
    destruct H as (S1 & S2 & S3 & S4 & S5 & S6 & S7). unfold sane, tick_link, with_est. cbn.
    pose proof (est_tick_in8 k (l_ether l0) (l_mult l0) (l_hint l0) (l_est l0)). tauto.
Qed.

Lemma run_sane k : forall evs ls, Forall lev_ok evs -> Forall (sane k) ls -> Forall (sane k) (fold_left (lstep k) evs ls).
Proof.
  induction evs as [|e evs IH]; intros ls OK H; cbn [fold_left]; [exact H|].
  inversion OK; subst. apply IH; [assumption|]. apply sane_step; assumption.
Qed.

Lemma find_in i ls l : find_link i ls = Some l -> In l ls /\ l_id l = i.
Proof. intros H. apply find_some in H. destruct H as (I & E). split; [exact I|lia]. Qed.

(** *** quality against history *)
Lemma lq_after_tick k evs i l h : Forall lev_ok evs ->
  find_link i (lqrun k (evs ++ [ETick])) = Some l -> history i evs = Some h -> calm 255 h ->
  exists base, 0 <= base <= 255 /\
    base * (sent (window h) * 65536) <= 255 * (got (window h) * l_mult l) /\
    (h_miss h <= 1 -> 0 < sent (window h) ->
      255 * (got (window h) * l_mult l) < (base + 2) * (sent (window h) * 65536)) /\
    e_lq (l_est l) = match k with FF => base
      | FFETH => if l_ether l then (if e_perf (l_est l) then 255 else base)
                 else (if base >? 0 then base - 1 else base) end /\
    (k = FFETH -> l_ether l = true ->
      (base > 242 -> e_perf (l_est l) = true) /\ (229 < base <= 242 -> e_perf (l_est l) = false)).
Proof.
  intros OK F Hh C. unfold lqrun in F. rewrite fold_left_app in F. cbn [fold_left lstep] in F.
  fold (lqrun k evs) in F. destruct (find_timer k (lqrun k evs)) as (t & E). rewrite E in F.
  destruct (find_link i (lqrun k evs)) as [l0|] eqn:F0; [|discriminate].
  cbn [option_map] in F. apply Some_inj in F.
  pose proof (run_matches k i evs [] None OK Logic.I) as M.
  fold (lqrun k evs) in M. fold (history i evs) in M. unfold matches in M. rewrite F0, Hh in M.
  pose proof (run_sane k evs [] OK (Forall_nil _)) as S. fold (lqrun k evs) in S.
  rewrite Forall_forall in S. specialize (S l0 (proj1 (find_in _ _ _ F0))).
  destruct S as (S1 & S2 & S3 & S4 & S5 & S6 & S7).
  destruct (settle_est k t (tick_link k l0)) as (T1 & T2 & T3 & T4 & T5 & T6).
  rewrite F in T1, T3, T6. cbn [tick_link with_est l_est l_mult l_ether] in T1, T3, T6.
  destruct (tick_sums _ _ M C) as (R1 & R2).
  destruct (window_bounds _ _ M C) as (W1 & W2 & W3 & W4).
  destruct M as (_ & _ & M3 & M3' & _).
  set (mi := e_miss (l_est l0)) in *.
  assert (Hmi : 0 <= mi < 65536) by (rewrite M3; unfold u16; apply Z.mod_pos_bound; lia).
  destruct (ratio_spec (l_mult l0) (l_hint l0) mi (got (window h)) (sent (window h)) S5 (conj W1 W2) W3 Hmi S6)
    as (Q1 & Q2 & Q3).
  unfold est_tick in T1. rewrite R1, R2 in T1. fold mi in T1.
  set (q := ratio_lq _ _ _ _ _) in *. exists q. rewrite T3.
  split; [exact Q1|]. split; [exact Q2|]. split.
  { intros A B. apply Q3; [|exact B]. rewrite M3. unfold u16. rewrite Z.mod_small by lia. exact A. }
  clearbody q. destruct k; rewrite T1; cbn [e_lq e_perf].
  - split; [reflexivity|]. discriminate.
  - unfold boost. rewrite T6. destruct (l_ether l0); cbn [e_lq e_perf].
    + set (p := if q >? 242 then true else _).
      split; [reflexivity|]. intros _ _. unfold p. split; intros H.
      * assert (q >? 242 = true) as -> by lia. reflexivity.
      * assert (q >? 242 = false) as -> by lia. assert (q >? 229 = true) as -> by lia. reflexivity.
    + split; [reflexivity|]. discriminate.
Qed.

(** *** cost *)
Lemma div_anti a b c : 0 <= a -> 0 < b <= c -> a / c <= a / b.
Proof. intros H1 H2. apply Z.div_le_compat_l; lia. Qed.

Lemma mul_ge a b c d : 0 <= a <= c -> 0 <= b <= d -> a * b <= c * d.
Proof. intros H1 H2. apply Z.mul_le_mono_nonneg; lia. Qed.


Definition K : Z := 66585600.

Lemma K_bounds a b : 25 <= a <= 255 -> 25 <= b <= 255 -> 1024 <= K / (a * b) <= 106537.
Proof.
  intros H1 H2. unfold K.
  assert (25 * 25 <= a * b) by (apply Z.mul_le_mono_nonneg; lia).
  assert (a * b <= 255 * 255) by (apply Z.mul_le_mono_nonneg; lia).
  split; [apply Z.div_le_lower_bound; lia|]. apply Z.div_le_upper_bound; lia.
Qed.

Lemma K_anti a b c d : 25 <= a <= c -> 25 <= b <= d -> K / (c * d) <= K / (a * b).
Proof.
  intros H1 H2. apply div_anti; [unfold K; lia|].
  assert (25 * 25 <= a * b) by (apply Z.mul_le_mono_nonneg; lia).
  assert (a * b <= c * d) by (apply Z.mul_le_mono_nonneg; lia). lia.
Qed.

Definition bump (k : lqk) (q : Z) : Z := match k with FF => q | FFETH => if q <? 255 then q + 1 else q end.

Definition ether (k : lqk) (a b : Z) : bool := match k with FF => false | FFETH => (a =? 255) && (b =? 255) end.

Lemma calc_cost_eq k a b : in8 a -> in8 b -> calc_cost k a b =
  if (a <? 25) || (b <? 25) then LC_BROKEN
  else if ether k a b then 102 else K / (bump k a * bump k b).
Proof.
  intros H1 H2. unfold calc_cost, LQ_USEFUL, in8 in *.
  destruct (a <? 25) eqn:Ea; cbn [orb]; [reflexivity|].
  destruct (b <? 25) eqn:Eb; [reflexivity|].
  change (255 * 255 * 1024) with K.
  assert (Ba : 25 <= bump k a <= 255) by (destruct k; cbn [bump]; [lia|destruct (a <? 255) eqn:E; lia]).
  assert (Bb : 25 <= bump k b <= 255) by (destruct k; cbn [bump]; [lia|destruct (b <? 255) eqn:E; lia]).
  pose proof (K_bounds _ _ Ba Bb) as KB.
  destruct k.
  - cbn [bump ether] in *. set (c := K / (a * b)) in *. clearbody c.
    unfold LC_BROKEN. destruct (c >=? 2 ^ 22) eqn:E1; [lia|]. destruct (c =? 0) eqn:E2; lia.
  - cbn [bump ether] in *.
    assert (a >? 0 = true) as -> by lia. assert (b >? 0 = true) as -> by lia. cbn [andb].
    destruct ((a =? 255) && (b =? 255)) eqn:E.
    + assert (a = 255) by lia. assert (b = 255) by lia. subst. reflexivity.
    + set (c := K / _) in *. clearbody c.
      unfold LC_BROKEN. destruct (c >=? 2 ^ 22) eqn:E1; [lia|]. destruct (c =? 0) eqn:E2; lia.
Qed.

Lemma cost_range k a b : in8 a -> in8 b ->
  102 <= calc_cost k a b <= LC_BROKEN /\
  (calc_cost k a b = LC_BROKEN <-> a < 25 \/ b < 25).
Proof.
  intros H1 H2. rewrite calc_cost_eq by assumption. unfold in8 in *.
  destruct ((a <? 25) || (b <? 25)) eqn:E; [unfold LC_BROKEN; lia|].
  destruct (ether k a b); [unfold LC_BROKEN; lia|].
  assert (Ba : 25 <= bump k a <= 255) by (destruct k; cbn [bump]; [lia|destruct (a <? 255) eqn:E1; lia]).
  assert (Bb : 25 <= bump k b <= 255) by (destruct k; cbn [bump]; [lia|destruct (b <? 255) eqn:E1; lia]).
  pose proof (K_bounds _ _ Ba Bb) as KB. set (c := K / _) in *. clearbody c. unfold LC_BROKEN. lia.
Qed.

Lemma cost_sym k a b : in8 a -> in8 b -> calc_cost k a b = calc_cost k b a.
Proof.
  intros H1 H2. rewrite !calc_cost_eq by assumption. rewrite orb_comm.
  assert (ether k a b = ether k b a) as -> by (destruct k; cbn; [reflexivity|apply andb_comm]).
  rewrite Z.mul_comm. reflexivity.
Qed.

Lemma cost_mono k a b c d : in8 a -> in8 b -> in8 c -> in8 d -> a <= c -> b <= d ->
  calc_cost k c d <= calc_cost k a b.
Proof.
  intros H1 H2 H3 H4 L1 L2.
  pose proof (cost_range k c d H3 H4) as (R & _).
  pose proof (cost_range k a b H1 H2) as (R2 & _).
  rewrite (calc_cost_eq k a b) in * by assumption. rewrite (calc_cost_eq k c d) in * by assumption.
  unfold in8 in *.
  destruct ((a <? 25) || (b <? 25)) eqn:E; [lia|].
  replace ((c <? 25) || (d <? 25)) with false in * by lia.
  destruct (ether k c d) eqn:T1; [lia|].
  destruct (ether k a b) eqn:T2.
  { destruct k; cbn [ether] in T1, T2; [discriminate|lia]. }
  apply K_anti; destruct k; cbn [bump]; try lia;
    repeat match goal with |- context [?x <? ?y] => destruct (x <? y) eqn:? end; lia.
Qed.

(** *** smoothing *)
Lemma differs_near k s v : in8 s -> differs k s v = false -> near s v.
Proof.
  unfold differs, near, in8. intros H D.
  assert (0 <= s / 10) by (apply Z.div_pos; lia).
  set (t := s / 10) in *. clearbody t.
  destruct (s <? v) eqn:E1; [destruct (top k v); cbn in D; [discriminate|lia]|].
  destruct (s >? v) eqn:E2; lia.
Qed.

Lemma near_refl s : 0 <= s -> near s s.
Proof. intros H. unfold near. assert (0 <= s / 10) by (apply Z.div_pos; lia). lia. Qed.

Lemma settle_near k t l : sane k l -> (t = false -> relevant k l = false) ->
  near (l_slq (settle k t l)) (e_lq (l_est l)) /\ near (l_snlq (settle k t l)) (l_nlq l).
Proof.
  intros (H1 & H2 & H3 & H4 & _) T. unfold in8 in *.
  assert (N : let l1 := if relevant k l then publish k l else l in
    near (l_slq l1) (e_lq (l_est l)) /\ near (l_snlq l1) (l_nlq l)).
  { cbn zeta. destruct (relevant k l) eqn:R.
    - cbn. split; apply near_refl; lia.
    - unfold relevant in R. apply orb_false_elim in R. destruct R as (R1 & R2).
      split; eapply differs_near; eauto; unfold in8; lia. }
  unfold settle. cbn zeta in N. destruct t; [|exact N].
  unfold refresh. destruct (top _ _ && top _ _); [exact N|].
  destruct ((_ =? _) && (_ =? _)); [exact N|].
  cbn. destruct (relevant k l); cbn; split; apply near_refl; lia.
Qed.

(** *** silence *)
Definition zeros (n : nat) (h : hist) : Prop :=
  exists rest, h_cur h :: h_old h = repeat (0, 0) n ++ rest.

Lemma zeros_sum n h p l pad f : (32 <= n)%nat -> zeros n h -> f (0, 0) = 0 ->
  ring p l (W f h) pad -> p = Nat.modulo (length (h_old h)) 32 ->
  sumz (firstn (Nat.min 32 (5 + length (h_old h))) l) = 0.
Proof.
  intros Hn (rest & E) Hf R Hp.
  assert (LW : length (W f h) = S (length (h_old h))) by (unfold W; rewrite map_length; reflexivity).
  rewrite (ring_sum_win _ _ _ _ _ R LW Hp).
  unfold W. rewrite E, map_app, map_repeat, Hf.
  replace n with (32 + (n - 32))%nat by lia. rewrite repeat_app, <- !app_assoc.
  rewrite firstn_app, firstn_all2 by (rewrite repeat_length; lia).
  rewrite repeat_length. cbn [Nat.sub firstn]. rewrite app_nil_r. reflexivity.
Qed.

Lemma tick_zero k et m hi e h n : (k = FF \/ et = false) -> (32 <= n)%nat -> follows e h -> zeros n h ->
  e_lq (est_tick k et m hi e) = 0.
Proof.
  intros K Hn (F1 & F2 & F3 & F3' & F4 & F5 & F6 & F7 & _) Z.
  unfold est_tick. rewrite F5, win_succ, Nat2Z.id.
  rewrite (zeros_sum n h _ _ 3 snd Hn Z eq_refl F7 eq_refl).
  unfold ratio_lq. cbn [Z.eqb]. destruct K as [->| ->]; [reflexivity|].
  destruct k; reflexivity.
Qed.

Lemma settle_zero k t l : sane k l -> e_lq (l_est l) = 0 -> l_slq (settle k t l) = 0.
Proof.
  intros (_ & _ & S & _) E. unfold in8 in S. unfold settle.
  destruct (relevant k l) eqn:R.
  - destruct t; [|exact E]. unfold refresh. cbn.
    destruct (top _ _ && top _ _); [exact E|]. destruct ((_ =? _) && (_ =? _)); exact E.
  - assert (l_slq l = 0) as N.
    { unfold relevant in R. apply orb_false_elim in R. destruct R as (R & _).
      unfold differs in R. rewrite E in R.
      assert (l_slq l <? 0 = false) as X by lia. rewrite X in R.
      destruct (l_slq l >? 0) eqn:G; [|lia].
      assert (l_slq l / 10 < l_slq l) by (apply Z.div_lt; lia). lia. }
    destruct t; [|exact N]. unfold refresh.
    destruct (top _ _ && top _ _); [exact N|]. destruct ((_ =? _) && (_ =? _)); [exact N|exact E].
Qed.

Definition silent_at (k : lqk) (n : nat) (i : Z) (ls : list ffl) (o : option hist) : Prop :=
  exists l h, find_link i ls = Some l /\ o = Some h /\ follows (l_est l) h /\ zeros n h /\
    (k = FF \/ l_ether l = false) /\ ((33 <= n)%nat -> l_slq l = 0).

Lemma silent_step k n i ls o e : lev_ok e -> quiet i e -> Forall (sane k) ls ->
  silent_at k n i ls o ->
  silent_at k (match e with ETick => S n | _ => n end) i (lstep k ls e) (hstep i o e).
Proof.
  intros OK Q SN (l & h & F & -> & FO & Z & K & G).
  assert (M : matches i (lstep k ls e) (hstep i (Some h) e)).
  { apply matches_step; [exact OK|]. unfold matches. rewrite F. exact FO. }
  unfold matches in M. unfold silent_at.
  destruct e as [j et m hi|j|j s|j|j v|j v|]; cbn [lstep quiet] in *.
  - rewrite find_exists in *. destruct (find_link j ls) as [lj|] eqn:Fj.
    + exists l, h. repeat split; auto. all: try apply FO.
    + exists l, h. cbn [hstep].
      assert (j <> i) by (intros ->; congruence).
      unfold find_link. cbn [find l_id]. fold (find_link i ls).
      assert (j =? i = false) as -> by lia. auto 10.
  - exists l, h. rewrite find_del. cbn [hstep]. assert (j =? i = false) as -> by lia. auto 10.
  - exists l, h. rewrite find_on by reflexivity. cbn [hstep]. assert (j =? i = false) as -> by lia. auto 10.
  - rewrite find_on in * by reflexivity. cbn [hstep] in *. rewrite F in *. destruct (j =? i); cbn [option_map] in *.
    + eexists _, _. split; [reflexivity|]. split; [reflexivity|]. split; [exact M|]. split; [exact Z|]. split; [exact K|exact G].
    + exists l, h. auto 10.
  - rewrite find_on in * by reflexivity. cbn [hstep] in *. rewrite F in *. destruct (j =? i); cbn [option_map] in *.
    + eexists _, _. split; [reflexivity|]. split; [reflexivity|]. split; [exact M|]. split; [exact Z|]. split; [exact K|exact G].
    + exists l, h. auto 10.
  - rewrite find_on in * by reflexivity. cbn [hstep] in *. rewrite F in *. destruct (j =? i); cbn [option_map] in *.
    + eexists _, _. split; [reflexivity|]. split; [reflexivity|]. split; [exact M|]. split; [exact Z|]. split; [exact K|exact G].
    + exists l, h. auto 10.
  - destruct (find_timer k ls) as (t & E). rewrite E, F in *. cbn [option_map hstep] in *.
    eexists _, _. split; [reflexivity|]. split; [reflexivity|]. split; [exact M|].
    destruct (settle_est k t (tick_link k l)) as (T1 & T2 & T3 & T4 & T5 & T6).
    split; [|split].
    + destruct Z as (rest & Z). exists rest. cbn [h_cur h_old repeat app]. rewrite Z. reflexivity.
    + rewrite T6. exact K.
    + intros Hn. apply settle_zero.
      * rewrite Forall_forall in SN. specialize (SN l (proj1 (find_in _ _ _ F))).
        destruct SN as (S1 & S2 & S3 & S4 & S5 & S6 & S7). unfold sane, tick_link, with_est. cbn.
        pose proof (est_tick_in8 k (l_ether l) (l_mult l) (l_hint l) (l_est l)). tauto.
      * apply (tick_zero k (l_ether l) _ _ _ h n K); [lia|exact FO|exact Z].
Qed.

Lemma silent_run k i : forall tail n ls o, Forall lev_ok tail -> Forall (quiet i) tail -> Forall (sane k) ls ->
  silent_at k n i ls o ->
  silent_at k (n + Z.to_nat (ticks tail)) i (fold_left (lstep k) tail ls) (fold_left (hstep i) tail o) /\
  Forall (sane k) (fold_left (lstep k) tail ls) /\ 0 <= ticks tail.
Proof.
  induction tail as [|e tail IH]; intros n ls o OK Q SN S; cbn [fold_left ticks].
  - rewrite Nat.add_0_r. repeat split; auto. lia.
  - inversion OK; subst. inversion Q; subst.
    pose proof (silent_step k n i ls o e H1 H3 SN S) as S'.
    pose proof (sane_step k ls e H1 SN) as SN'.
    destruct (IH _ _ _ H2 H4 SN' S') as (R & RS & RT).
    split; [|split; [exact RS|destruct e; lia]].
    destruct e; try exact R.
    replace (n + Z.to_nat (1 + ticks tail))%nat with (Datatypes.S n + Z.to_nat (ticks tail))%nat by lia. exact R.
Qed.

Lemma silent_broken k i evs tail l0 : Forall lev_ok evs -> Forall lev_ok tail -> Forall (quiet i) tail ->
  find_link i (lqrun k evs) = Some l0 -> (k = FF \/ l_ether l0 = false) -> 33 <= ticks tail ->
  exists l, find_link i (lqrun k (evs ++ tail)) = Some l /\ l_cost l = LC_BROKEN.
Proof.
  intros OK1 OK2 Q F K T.
  pose proof (run_matches k i evs [] None OK1 Logic.I) as M.
  pose proof (run_sane k evs [] OK1 (Forall_nil _)) as SN.
  fold (lqrun k evs) in M, SN. unfold matches in M. rewrite F in M.
  destruct (fold_left (hstep i) evs None) as [h|] eqn:Hh; [|contradiction].
  assert (S0 : silent_at k 0 i (lqrun k evs) (Some h)).
  { exists l0, h. repeat split; auto; try apply M.
    - exists (h_cur h :: h_old h). reflexivity.
    - lia. }
  destruct (silent_run k i tail 0 _ _ OK2 Q SN S0) as ((l & h' & F' & _ & _ & _ & _ & G) & SN' & _).
  unfold lqrun. rewrite fold_left_app. fold (lqrun k evs). exists l. split; [exact F'|].
  rewrite Forall_forall in SN'. destruct (SN' l (proj1 (find_in _ _ _ F'))) as (_ & _ & S3 & S4 & _ & _ & C).
  rewrite C, G by lia. unfold calc_cost, LQ_USEFUL. reflexivity.
Qed.

(** *** an Ethernet link that stays perfect *)
Definition stuck (l : ffl) : Prop :=
  l_ether l = true /\ l_mult l = 65536 /\ l_hint l = 2000 /\ l_cost l = 102 /\ l_nlq l = 255 /\
  l_slq l = 255 /\ l_snlq l = 255 /\ e_lq (l_est l) = 255 /\ e_perf (l_est l) = true /\
  e_recv (l_est l) = e_tot (l_est l) /\ Forall (fun x => 0 <= x < 65536) (e_tot (l_est l)) /\
  (length (e_tot (l_est l)) <= 32)%nat /\ 0 <= e_miss (l_est l) < 65536.

Lemma put_forall (P : Z -> Prop) : forall l i v, Forall P l -> P v -> Forall P (put i v l).
Proof.
  induction l as [|x l IH]; intros [|i] v H V; cbn; auto; inversion H; subst; constructor; auto.
Qed.

Lemma sum_pos : forall l, Forall (fun x => 0 <= x < 65536) l -> 0 <= sumz l <= Z.of_nat (length l) * 65536.
Proof.
  induction l as [|x l IH]; intros H; [cbn; lia|]. inversion H; subst.
  change (sumz (x :: l)) with (x + sumz l). specialize (IH H3). cbn [length]. lia.
Qed.

Lemma Forall_firstn {A} (P : A -> Prop) n l : Forall P l -> Forall P (firstn n l).
Proof. rewrite !Forall_forall. intros H x I. apply H. eapply in_firstn. exact I. Qed.

Lemma stuck_ratio mi s : 0 <= s <= 32 * 65536 -> 0 <= mi < 65536 ->
  let q := ratio_lq 65536 2000 mi s s in 0 <= q <= 223 \/ q = 255.
Proof.
  intros Hs Hmi. unfold ratio_lq. destruct (s =? 0) eqn:E; [cbn zeta; lia|].
  change (u32 (65536 * 1024) / 65536) with 1024.
  destruct (mi >? 1) eqn:E1.
  - replace (u32 (mi * 2000)) with (mi * 2000) by (unfold u32; rewrite Z.mod_small; lia).
    replace (mi * 2000 / 1000) with (mi * 2) by lia.
    unfold LQ_WINDOW. destruct (mi * 2 >? 32) eqn:E2.
    { rewrite Z.mul_0_r, Z.div_0_l by lia. cbn. lia. }
    assert (P : 0 <= s * (32 - mi * 2) <= s * 28) by (split; [apply Z.mul_nonneg_nonneg; lia|apply Z.mul_le_mono_nonneg_l; lia]).
    replace (u32 (s * (32 - mi * 2))) with (s * (32 - mi * 2)) by (unfold u32; rewrite Z.mod_small; lia).
    set (x := s * (32 - mi * 2)) in *. clearbody x.
    destruct (div_bounds x 32) as ((A1 & A2) & A3); try lia. set (y := x / 32) in *. clearbody y.
    destruct (div_bounds (1024 * y) s) as ((B1 & B2) & B3); try lia. set (z := 1024 * y / s) in *. clearbody z.
    assert (z <= 896).
    { apply Z.mul_le_mono_pos_r with s; lia. }
    destruct (div_bounds (z * 255) 1024) as ((D1 & D2) & D3); try lia. set (w := z * 255 / 1024) in *. clearbody w.
    unfold u8. rewrite Z.mod_small by lia. cbn zeta. left. lia.
  - rewrite Z.div_mul by lia. right. reflexivity.
Qed.

Lemma stuck_tick t l : stuck l -> stuck (settle FFETH t (tick_link FFETH l)).
Proof.
  intros (H1 & H2 & H3 & H4 & H5 & H6 & H7 & H8 & H9 & H10 & H11 & H12 & H13).
  assert (T : e_lq (l_est (tick_link FFETH l)) = 255 /\ e_perf (l_est (tick_link FFETH l)) = true).
  { unfold tick_link, with_est, est_tick. cbn [l_est]. rewrite H1, H2, H3, H9, H10.
    set (w := if e_win (l_est l) <? LQ_WINDOW then _ else _). clearbody w.
    assert (Hs : 0 <= sumz (firstn (Z.to_nat w) (e_tot (l_est l))) <= 32 * 65536).
    { pose proof (sum_pos _ (Forall_firstn _ (Z.to_nat w) _ H11)).
      assert ((length (firstn (Z.to_nat w) (e_tot (l_est l))) <= 32)%nat) by (rewrite firstn_length; lia). lia. }
    pose proof (stuck_ratio (e_miss (l_est l)) _ Hs H13) as R. cbn zeta in R.
    set (q := ratio_lq _ _ _ _ _) in *. clearbody q. unfold boost.
    assert (E : (if q >? 242 then true else if q >? 229 then false else true) = true).
    { destruct (q >? 242) eqn:X; [reflexivity|]. destruct (q >? 229) eqn:Y; [lia|reflexivity]. }
    rewrite E. split; reflexivity. }
  destruct T as (T1 & T2).
  assert (R : relevant FFETH (tick_link FFETH l) = false).
  { unfold relevant. rewrite T1. cbn [tick_link with_est l_slq l_snlq l_nlq]. rewrite H5, H6, H7. reflexivity. }
  assert (S : settle FFETH t (tick_link FFETH l) = tick_link FFETH l).
  { unfold settle. rewrite R. destruct t; [|reflexivity]. unfold refresh.
    cbn [tick_link with_est l_slq l_snlq]. rewrite H6, H7. reflexivity. }
  rewrite S. unfold stuck. rewrite T1, T2.
  unfold tick_link, with_est. cbn [l_ether l_mult l_hint l_cost l_nlq l_slq l_snlq l_est].
  repeat (split; [assumption || reflexivity|]).
  unfold est_tick. destruct (boost _ _ _) as (p & q). cbn [e_recv e_tot e_miss].
  rewrite H10. split; [reflexivity|]. split; [apply put_forall; [exact H11|lia]|].
  rewrite put_len. auto.
Qed.

Lemma stuck_run i : forall tail l, stuck l -> l_id l = i ->
  Forall (fun e => e = ETick \/ e = ELost i) tail ->
  exists l', fold_left (lstep FFETH) tail [l] = [l'] /\ stuck l' /\ l_id l' = i.
Proof.
  induction tail as [|e tail IH]; intros l S I H; [exists l; auto|].
  inversion H; subst. cbn [fold_left]. destruct H2 as [-> | ->].
  - cbn [lstep]. destruct (timer_map FFETH [l]) as (t & E & _). rewrite E. cbn [map].
    apply IH; [apply stuck_tick; exact S| |exact H3]. apply tick_id.
  - cbn [lstep on_link map]. rewrite Z.eqb_refl. apply IH; [|reflexivity|exact H3].
    destruct S as (S1 & S2 & S3 & S4 & S5 & S6 & S7 & S8 & S9 & S10 & S11 & S12 & S13).
    unfold stuck, with_est, est_lost. cbn. repeat (split; [assumption|]).
    unfold u16. apply Z.mod_pos_bound. lia.
Qed.

(** ** etx_fpm *)
Lemma average_lost a m q : 0 <= a <= FPM_M -> in8 q ->
  fpm_average a (FPM_M - a) m q true = (q * (FPM_M - a) + 65534) / 65535.
Proof.
  unfold FPM_M, in8. intros Ha Hq. unfold fpm_average, FPM_M.
  replace (u32 (q * 65535)) with (q * 65535) by (unfold u32; rewrite Z.mod_small; lia).
  replace (q * 65535 / 255) with (q * 257) by lia.
  assert (P : 0 <= q * (65535 - a) <= 255 * 65535) by (split; [apply Z.mul_nonneg_nonneg|apply Z.mul_le_mono_nonneg]; lia).
  replace (q * 257 * (65535 - a)) with (257 * (q * (65535 - a))) by ring.
  set (x := q * (65535 - a)) in *. clearbody x.
  replace (u32 (257 * x + 65535 - 1)) with (257 * x + 65534) by (unfold u32; rewrite Z.mod_small; lia).
  assert (E1 : (257 * x + 65534) / 65535 = (x + 254) / 255).
  { change 65535 with (257 * 255). rewrite <- Z.div_div by lia.
    f_equal. symmetry. apply Z.div_unique with 256; lia. }
  rewrite E1.
  destruct (div_bounds (x + 254) 255) as ((A1 & A2) & A3); try lia.
  set (v1 := (x + 254) / 255) in *.
  assert (V : v1 <= 65535) by lia.
  replace (u32 (v1 * 255 + 65535 - 1)) with (255 * (v1 + 256) + 254) by (unfold u32; rewrite Z.mod_small; lia).
  assert (E2 : (255 * (v1 + 256) + 254) / 65535 = (v1 + 256) / 257).
  { change 65535 with (255 * 257). rewrite <- Z.div_div by lia.
    f_equal. symmetry. apply Z.div_unique with 254; lia. }
  rewrite E2. unfold v1.
  replace ((x + 254) / 255 + 256) with ((x + 65534) / 255)
    by (replace (x + 65534) with (x + 254 + 256 * 255) by ring; rewrite Z.div_add by lia; reflexivity).
  rewrite Z.div_div by lia. change (255 * 257) with 65535.
  destruct (div_bounds (x + 65534) 65535) as ((B1 & B2) & B3); try lia.
  unfold u8. rewrite Z.mod_small by lia. reflexivity.
Qed.

Lemma average_spec a m q lost : 0 <= a <= 65535 -> 1 <= m <= 65536 -> in8 q ->
  let q' := fpm_average a (FPM_M - a) m q lost in
  in8 q' /\ ema a m q lost <= q' * (65535 * 65536) < ema a m q lost + 2 * (65535 * 65536).
Proof.
  intros Ha Hm Hq. destruct lost.
  - rewrite average_lost by (assumption || (unfold FPM_M; lia)). unfold FPM_M, ema, in8 in *.
    assert (P : 0 <= q * (65535 - a) <= 255 * 65535) by (split; [apply Z.mul_nonneg_nonneg|apply Z.mul_le_mono_nonneg]; lia).
    set (x := q * (65535 - a)) in *. clearbody x.
    destruct (div_bounds (x + 65534) 65535) as ((B1 & B2) & B3); try lia.
  - unfold FPM_M, ema, in8 in *. unfold fpm_average, FPM_M.
    replace (u32 (q * 65535)) with (q * 65535) by (unfold u32; rewrite Z.mod_small; lia).
    replace (q * 65535 / 255) with (q * 257) by lia.
    assert (P : 0 <= q * (65535 - a) <= 255 * (65535 - a)) by (split; [apply Z.mul_nonneg_nonneg|apply Z.mul_le_mono_nonneg]; lia).
    replace (q * 257 * (65535 - a)) with (257 * (q * (65535 - a))) by ring.
    set (x := q * (65535 - a)) in *. clearbody x.
    replace (u32 (257 * x + 65535 - 1)) with (257 * x + 65534) by (unfold u32; rewrite Z.mod_small; lia).
    destruct (div_bounds (257 * x + 65534) 65535) as ((A1 & A2) & A3); try lia.
    set (v1 := (257 * x + 65534) / 65535) in *. clearbody v1.
    assert (V : v1 <= 65535 - a) by lia.
    assert (P2 : 0 <= a * m <= a * 65536) by (split; [apply Z.mul_nonneg_nonneg|apply Z.mul_le_mono_nonneg_l]; lia).
    set (y := a * m) in *. clearbody y.
    replace (u32 (y + 65536 - 1)) with (y + 65535) by (unfold u32; rewrite Z.mod_small; lia).
    destruct (div_bounds (y + 65535) 65536) as ((B1 & B2) & B3); try lia.
    set (r := (y + 65535) / 65536) in *. clearbody r.
    assert (r <= a) by lia.
    replace (u32 (v1 + r)) with (v1 + r) by (unfold u32; rewrite Z.mod_small; lia).
    replace (u32 ((v1 + r) * 255 + 65535 - 1)) with ((v1 + r) * 255 + 65534) by (unfold u32; rewrite Z.mod_small; lia).
    destruct (div_bounds ((v1 + r) * 255 + 65534) 65535) as ((D1 & D2) & D3); try lia.
    set (w := ((v1 + r) * 255 + 65534) / 65535) in *. clearbody w.
    assert (w <= 255) by lia.
    unfold u8. rewrite Z.mod_small by lia. cbn zeta. lia.
Qed.

Lemma fpm_cost_range a b : in8 a -> in8 b -> 1 <= fpm_cost a b <= LC_BROKEN /\
  (a < 25 \/ b < 25 -> fpm_cost a b = LC_BROKEN).
Proof.
  intros H1 H2. unfold fpm_cost, LQ_USEFUL, in8 in *.
  destruct ((a <? 25) || (b <? 25)) eqn:E; [unfold LC_BROKEN; lia|].
  split; [|lia]. set (c := FPM_M * 255 / a * 255 / b).
  assert (0 <= c).
  { unfold c. apply Z.div_pos; [|lia]. apply Z.mul_nonneg_nonneg; [|lia]. apply Z.div_pos; unfold FPM_M; lia. }
  clearbody c. unfold LC_BROKEN. destruct (c >=? 2 ^ 22) eqn:E1; [lia|]. destruct (c =? 0) eqn:E2; lia.
Qed.

Definition fclamp (c : Z) : Z := if c >=? LC_BROKEN then LC_BROKEN else if c =? 0 then 1 else c.

Lemma fclamp_mono c d : 0 <= c <= d -> fclamp c <= fclamp d.
Proof.
  unfold fclamp, LC_BROKEN. intros H.
  destruct (c >=? 2 ^ 22) eqn:E1; destruct (d >=? 2 ^ 22) eqn:E2; destruct (c =? 0) eqn:E3; destruct (d =? 0) eqn:E4; lia.
Qed.

Lemma fpm_cost_mono a b c d : in8 a -> in8 b -> in8 c -> in8 d -> a <= c -> b <= d ->
  fpm_cost c d <= fpm_cost a b.
Proof.
  intros H1 H2 H3 H4 L1 L2.
  pose proof (fpm_cost_range c d H3 H4) as (R & _).
  unfold fpm_cost, LQ_USEFUL, in8 in *.
  destruct ((a <? 25) || (b <? 25)) eqn:E; [lia|].
  replace ((c <? 25) || (d <? 25)) with false by lia.
  fold (fclamp (FPM_M * 255 / c * 255 / d)). fold (fclamp (FPM_M * 255 / a * 255 / b)).
  apply fclamp_mono. unfold FPM_M. clear R.
  assert (B : 0 <= 65535 * 255 / c <= 65535 * 255 / a).
  { split; [apply Z.div_pos; lia|]. apply Z.div_le_compat_l; lia. }
  set (x := 65535 * 255 / c) in *. set (y := 65535 * 255 / a) in *. clearbody x y.
  split; [apply Z.div_pos; lia|].
  transitivity (y * 255 / d); [apply Z.div_le_mono; lia|apply Z.div_le_compat_l; lia].
Qed.

Lemma fclamp_near c d : 0 <= c -> 0 <= d -> d - c <= 11 -> fclamp d - fclamp c <= 11.
Proof.
  unfold fclamp, LC_BROKEN. intros H1 H2 H3.
  destruct (c >=? 2 ^ 22) eqn:E1; destruct (d >=? 2 ^ 22) eqn:E2; destruct (c =? 0) eqn:E3; destruct (d =? 0) eqn:E4; lia.
Qed.

Lemma fpm_cost_near a b : in8 a -> in8 b -> fpm_cost b a - fpm_cost a b <= 11.
Proof.
  intros H1 H2. unfold fpm_cost, LQ_USEFUL, in8 in *. rewrite (orb_comm (b <? 25)).
  destruct ((a <? 25) || (b <? 25)) eqn:E; [lia|].
  fold (fclamp (FPM_M * 255 / a * 255 / b)). fold (fclamp (FPM_M * 255 / b * 255 / a)).
  unfold FPM_M. set (X := 65535 * 255).
  assert (HX : 0 <= X) by (unfold X; lia). clearbody X.
  destruct (div_bounds X a) as ((A1 & A2) & A3); try lia.
  destruct (div_bounds X b) as ((B1 & B2) & B3); try lia.
  set (xa := X / a) in *. set (xb := X / b) in *. clearbody xa xb.
  destruct (div_bounds (xa * 255) b) as ((C1 & C2) & C3); try lia.
  destruct (div_bounds (xb * 255) a) as ((D1 & D2) & D3); try lia.
  set (c := xa * 255 / b) in *. set (d := xb * 255 / a) in *. clearbody c d.
  apply fclamp_near; try assumption.
  destruct (Z.le_gt_cases (d - c) 11) as [G|G]; [exact G|exfalso].
  assert (P1 : d * a * b <= 255 * X).
  { apply Z.le_trans with (xb * 255 * b); [apply Z.mul_le_mono_nonneg_r; lia|lia]. }
  assert (P2 : 255 * X < 255 * ((xa + 1) * a)) by lia.
  assert (P3 : (xa * 255) * a < ((c + 1) * b) * a) by (apply Z.mul_lt_mono_pos_r; lia).
  assert (P4 : d * (a * b) < (c + 1) * (a * b) + 255 * a) by lia.
  assert (P5 : (c + 12) * (a * b) <= d * (a * b)).
  { apply Z.mul_le_mono_nonneg_r; [apply Z.mul_nonneg_nonneg; lia|lia]. }
  assert (P6 : 11 * (a * b) < 255 * a) by lia.
  assert (P7 : 25 * a <= a * b) by (rewrite (Z.mul_comm a b); apply Z.mul_le_mono_nonneg_r; lia).
  lia.
Qed.

Definition fsane (p : fpq) : Prop :=
  in8 (p_lq p) /\ in8 (p_nlq p) /\ 0 <= p_qs p <= 12 /\ 1 <= p_cost p <= LC_BROKEN.

Lemma fsane_step a m p e : 0 <= a <= 65535 -> 1 <= m <= 65536 -> pev_ok e -> fsane p -> fsane (fpm_step a m p e).
Proof.
  intros Ha Hm OK (H1 & H2 & H3 & H4). destruct e as [lost|v]; cbn [fpm_step pev_ok] in *.
  - unfold fpm_worker, QS_STEPS. set (an := if p_qs p <? 12 then QS_NEW else a).
    assert (Han : 0 <= an <= 65535) by (unfold an, QS_NEW; destruct (p_qs p <? 12); lia).
    destruct (average_spec an m (p_lq p) lost Han Hm H1) as (Q & _).
    unfold fsane. cbn [p_lq p_nlq p_qs p_cost]. repeat split; try apply Q; try apply H2.
    + destruct (p_qs p <? 12); lia.
    + destruct (p_qs p <? 12) eqn:E; lia.
    + apply fpm_cost_range; assumption.
    + apply fpm_cost_range; assumption.
  - unfold fsane, fpm_memorize, in8 in *. cbn [p_lq p_nlq p_qs p_cost]. lia.
Qed.

Lemma fsane_run a m : 0 <= a <= 65535 -> 1 <= m <= 65536 -> forall evs p, Forall pev_ok evs -> fsane p ->
  fsane (fold_left (fpm_step a m) evs p).
Proof.
  intros Ha Hm. induction evs as [|e evs IH]; intros p OK H; cbn [fold_left]; [exact H|].
  inversion OK; subst. apply IH; [assumption|]. apply fsane_step; assumption.
Qed.

Lemma fsane0 : fsane fpm0.
Proof. unfold fsane, in8, fpm0, LC_BROKEN. cbn. lia. Qed.

Lemma decay a q : 2622 <= a <= 65535 -> in8 q ->
  let q' := (q * (65535 - a) + 65534) / 65535 in
  0 <= q' /\ (q < 25 -> q' < 25) /\ (25 <= q -> q' <= q - 1).
Proof.
  intros Ha Hq. unfold in8 in Hq. cbn zeta.
  assert (P : 0 <= q * (65535 - a)) by (apply Z.mul_nonneg_nonneg; lia).
  assert (P1 : q * 2622 <= q * a) by (apply Z.mul_le_mono_nonneg_l; lia).
  replace (q * (65535 - a)) with (q * 65535 - q * a) in * by ring.
  set (y := q * a) in *. clearbody y.
  destruct (div_bounds (q * 65535 - y + 65534) 65535) as ((B1 & B2) & B3); [lia|lia|].
  set (q' := (q * 65535 - y + 65534) / 65535) in *. clearbody q'. lia.
Qed.

Definition dead (p : fpq) : Prop := p_lq p < 25 -> p_cost p = LC_BROKEN.

Lemma fpm_dies_run a m : 2622 <= a <= 65535 -> 1 <= m <= 65536 -> forall tail p, Forall pev_ok tail -> Forall lossy tail ->
  fsane p -> let p' := fold_left (fpm_step a m) tail p in
  0 <= losses tail /\ (p_lq p' < 25 \/ p_lq p' <= p_lq p - losses tail) /\ (p_lq p < 25 -> p_lq p' < 25).
Proof.
  intros Ha Hm. induction tail as [|e tail IH]; intros p OK L S; cbn [fold_left losses].
  - cbn zeta. lia.
  - inversion OK; subst. inversion L; subst.
    assert (S' : fsane (fpm_step a m p e)) by (apply fsane_step; auto; lia).
    specialize (IH (fpm_step a m p e) H2 H4 S'). cbn zeta in IH |- *.
    set (p' := fold_left _ tail (fpm_step a m p e)) in *. clearbody p'.
    destruct IH as (I1 & I2 & I3).
    destruct e as [lost|v]; cbn [fpm_step lossy] in *.
    + subst lost. unfold fpm_worker in *. set (quick := p_qs p <? QS_STEPS) in *.
      set (an := if quick then QS_NEW else a) in *.
      assert (Han : 2622 <= an <= 65535) by (unfold an, QS_NEW; destruct quick; lia).
      cbn [p_lq p_nlq p_qs p_cost] in *.
      rewrite average_lost in * by (unfold FPM_M; first [lia|apply S]).
      unfold FPM_M in *.
      destruct (decay an (p_lq p) Han) as (D1 & D2 & D3); [apply S|].
      set (q := (p_lq p * (65535 - an) + 65534) / 65535) in *. clearbody q. lia.
    + cbn [fpm_memorize p_lq p_cost] in *. auto.
Qed.

Lemma dead_run a m : 0 <= a <= 65535 -> 1 <= m <= 65536 -> forall evs p, Forall pev_ok evs -> fsane p -> dead p ->
  dead (fold_left (fpm_step a m) evs p).
Proof.
  intros Ha Hm. induction evs as [|e evs IH]; intros p OK S D; cbn [fold_left]; [exact D|].
  inversion OK; subst.
  assert (S' : fsane (fpm_step a m p e)) by (apply fsane_step; auto; lia).
  apply IH; [assumption|exact S'|].
  destruct e as [lost|v]; cbn [fpm_step] in *; [|exact D].
  unfold dead, fpm_worker in *. cbn [p_lq p_cost] in *. intros L.
  apply fpm_cost_range; [apply S'|apply S|left; exact L].
Qed.

Lemma dead0 : dead fpm0.
Proof. intros _. reflexivity. Qed.

(** slow aging *)
Definition alive (p : fpq) : Prop := 25 <= p_lq p <= 255 /\ p_nlq p = 255 /\ p_qs p = 12 /\ p_cost p = fpm_cost (p_lq p) 255.

Lemma alive_cost q : 25 <= q <= 255 -> fpm_cost q 255 < LC_BROKEN.
Proof.
  intros H. unfold fpm_cost, LQ_USEFUL, FPM_M, LC_BROKEN.
  replace ((q <? 25) || (255 <? 25)) with false by lia.
  assert (B : 0 <= 65535 * 255 / q <= 668457).
  { split; [apply Z.div_pos; lia|]. apply Z.div_le_upper_bound; lia. }
  rewrite Z.div_mul by lia. set (c := 65535 * 255 / q) in *. clearbody c.
  destruct (c >=? 2 ^ 22) eqn:E1; [lia|]. destruct (c =? 0); lia.
Qed.

Lemma alive_step a m p e : 0 <= a <= 2621 -> alive p -> e = PHello true -> alive (fpm_step a m p e).
Proof.
  intros Ha (A1 & A2 & A3 & A4) ->. cbn [fpm_step]. unfold fpm_worker, QS_STEPS. rewrite A3. cbn [Z.ltb Z.compare Pos.compare Pos.compare_cont].
  rewrite average_lost by (unfold FPM_M, in8; lia). unfold FPM_M, alive. cbn [p_lq p_nlq p_qs p_cost]. rewrite A2.
  assert (P : p_lq p * a <= p_lq p * 2621) by (apply Z.mul_le_mono_nonneg_l; lia).
  assert (P0 : 0 <= p_lq p * a) by (apply Z.mul_nonneg_nonneg; lia).
  replace (p_lq p * (65535 - a)) with (p_lq p * 65535 - p_lq p * a) by ring.
  set (y := p_lq p * a) in *. clearbody y.
  destruct (div_bounds (p_lq p * 65535 - y + 65534) 65535) as ((B1 & B2) & B3); [lia|lia|].
  set (q' := (p_lq p * 65535 - y + 65534) / 65535) in *. clearbody q'.
  repeat split; lia.
Qed.

Lemma alive_run a m : 0 <= a <= 2621 -> forall tail p, alive p -> Forall (fun e => e = PHello true) tail ->
  alive (fold_left (fpm_step a m) tail p).
Proof.
  intros Ha. induction tail as [|e tail IH]; intros p A H; cbn [fold_left]; [exact A|].
  inversion H; subst. apply IH; [|assumption]. apply alive_step; auto.
Qed.

Definition warm : list pev := PNlq 255 :: repeat (PHello false) 12.

Lemma warm_alive a : alive (fpm_run a 65536 warm).
Proof. unfold alive. vm_compute. repeat split; discriminate. Qed.

(** C33, C34, C73: link quality, link cost, and what becomes of a silent
    link. *)
From Verif Require Import Base LqCost LqCostSpec LqCostProofs.

(** A steady neighbor: one packet per second with consecutive numbers. *)
Fixpoint steady (i : Z) (n : nat) (s : Z) : list lev :=
  match n with O => [] | S m => EPkt i s :: ETick :: steady i m (s + 1) end.

(** One packet in two gets through. *)
Fixpoint half (i : Z) (n : nat) (s : Z) : list lev :=
  match n with O => [] | S m => EPkt i s :: ETick :: half i m (s + 2) end.

Definition levb (e : lev) : bool :=
  match e with
  | EAdd _ _ m h => (1 <=? m) && (m <=? 65536) && (0 <=? h) && (h <? 2 ^ 32)
  | EPkt _ s => (0 <=? s) && (s <? 65536)
  | ENlq _ v => (0 <=? v) && (v <=? 255)
  | EHint _ h => (0 <=? h) && (h <? 2 ^ 32)
  | _ => true
  end.

Lemma levb_ok evs : forallb levb evs = true -> Forall lev_ok evs.
Proof.
  intros H. rewrite forallb_forall in H. apply Forall_forall. intros e I. specialize (H e I).
  destruct e; cbn [levb lev_ok] in *; lia.
Qed.

Lemma pevb_ok evs : forallb (fun e => match e with PHello _ => true | PNlq v => (0 <=? v) && (v <=? 255) end) evs = true ->
  Forall pev_ok evs.
Proof.
  intros H. rewrite forallb_forall in H. apply Forall_forall. intros e I. specialize (H e I).
  destruct e; cbn [pev_ok] in *; [exact Logic.I|lia].
Qed.

Lemma calmb_ok n h : forallb (fun v => fst v <=? n) (h_cur h :: h_old h) = true -> calm n h.
Proof. intros H v I. rewrite forallb_forall in H. specialize (H v I). cbn beta in H. lia. Qed.

(** With etx_ff the quality measured at a tick is 255 times the proportion of
    the neighbor's packets that arrived in the last thirty-two intervals,
    scaled by the configured multiplier, rounded down by less than two units
    (or lower when HELLOs were missed); it never wraps. *)
Theorem C33_quality : forall evs i l h,
  Forall lev_ok evs ->
  find_link i (lqrun FF (evs ++ [ETick])) = Some l ->
  history i evs = Some h -> calm 255 h ->
  let r := got (window h) in let t := sent (window h) in let q := e_lq (l_est l) in
  0 <= q <= 255 /\
  q * (t * 65536) <= 255 * (r * l_mult l) /\
  (h_miss h <= 1 -> 0 < t -> close_below q (l_mult l) r t).
Proof.
  intros evs i l h OK F H C. destruct (lq_after_tick FF evs i l h OK F H C) as (b & B1 & B2 & B3 & -> & _).
  cbn zeta. split; [exact B1|]. split; [exact B2|]. intros M T. split; [exact B2|apply B3; assumption].
Qed.
Print Assumptions C33_quality.

Definition ex_half : list lev := EAdd 7 false 65536 2000 :: ENlq 7 200 :: half 7 40 2.

Example C33_quality_ex :
  Forall lev_ok ex_half /\
  option_map (fun l => (e_lq (l_est l), l_cost l)) (find_link 7 (lqrun FF (ex_half ++ [ETick]))) = Some (127, 2621) /\
  option_map (fun h => (got (window h), sent (window h), h_miss h)) (history 7 ex_half) = Some (31, 62, 0) /\
  (forall h, history 7 ex_half = Some h -> calm 255 h).
Proof.
  split; [apply levb_ok; vm_compute; reflexivity|]. split; [vm_compute; reflexivity|]. split; [vm_compute; reflexivity|].
  intros h H. apply calmb_ok. vm_compute in H. apply Some_inj in H. subst h. reflexivity.
Qed.

(** The same for etx_ffeth: the proportion minus one on a radio link; on an
    Ethernet link the proportion itself or 255. *)
Theorem C33_quality_ffeth : forall evs i l h,
  Forall lev_ok evs ->
  find_link i (lqrun FFETH (evs ++ [ETick])) = Some l ->
  history i evs = Some h -> calm 255 h ->
  exists base, 0 <= base <= 255 /\
    base * (sent (window h) * 65536) <= 255 * (got (window h) * l_mult l) /\
    (h_miss h <= 1 -> 0 < sent (window h) -> close_below base (l_mult l) (got (window h)) (sent (window h))) /\
    (l_ether l = false -> e_lq (l_est l) = Z.max 0 (base - 1)) /\
    (l_ether l = true -> e_lq (l_est l) = base \/ e_lq (l_est l) = 255) /\
    (l_ether l = true -> base > 242 -> e_lq (l_est l) = 255) /\
    (l_ether l = true -> 229 < base <= 242 -> e_lq (l_est l) = base).
Proof.
  intros evs i l h OK F H C. destruct (lq_after_tick FFETH evs i l h OK F H C) as (b & B1 & B2 & B3 & B4 & B5).
  exists b. split; [exact B1|]. split; [exact B2|]. split; [intros M T; split; [exact B2|apply B3; assumption]|].
  rewrite B4. split; [|split; [|split]]; intros E; rewrite E in *.
  - destruct (b >? 0) eqn:G; lia.
  - destruct (e_perf (l_est l)); auto.
  - intros G. destruct (B5 eq_refl eq_refl) as (P & _). rewrite (P G). reflexivity.
  - intros G. destruct (B5 eq_refl eq_refl) as (_ & P). rewrite (P G). reflexivity.
Qed.
Print Assumptions C33_quality_ffeth.

Definition ex_two : list lev :=
  EAdd 7 false 65536 2000 :: EAdd 8 true 65536 2000 :: steady 7 40 1 ++ steady 8 40 1.

Example C33_quality_ffeth_ex :
  Forall lev_ok ex_two /\
  option_map (fun l => e_lq (l_est l)) (find_link 8 (lqrun FFETH (ex_two ++ [ETick]))) = Some 255 /\
  option_map (fun l => e_lq (l_est l)) (find_link 7 (lqrun FFETH (firstn 82 ex_two ++ [ETick]))) = Some 254 /\
  (forall h, history 8 ex_two = Some h -> calm 255 h).
Proof.
  split; [apply levb_ok; vm_compute; reflexivity|]. split; [vm_compute; reflexivity|]. split; [vm_compute; reflexivity|].
  intros h H. apply calmb_ok. vm_compute in H. apply Some_inj in H. subst h. reflexivity.
Qed.

(** The bound on the packets of an interval is needed: the 16 bit counter of
    sent packets wraps after 65536, and a link over which fewer than one in
    two hundred packets arrive is taken for a perfect one. *)
Fixpoint sparse (i : Z) (n : nat) (s : Z) : list lev :=
  match n with O => [] | S m => EPkt i (s mod 65536) :: sparse i m (s + 256) end.

Definition ex_burst : list lev :=
  EAdd 7 false 65536 2000 :: repeat ETick 33 ++ sparse 7 256 256 ++ [EPkt 7 1].

Theorem C33_burst_refuted : exists evs i l h,
  Forall lev_ok evs /\ find_link i (lqrun FF (evs ++ [ETick])) = Some l /\ history i evs = Some h /\
  h_miss h = 0 /\ e_lq (l_est l) = 255 /\ 200 * got (window h) < sent (window h).
Proof.
  exists ex_burst, 7.
  destruct (find_link 7 (lqrun FF (ex_burst ++ [ETick]))) as [l|] eqn:F; [|vm_compute in F; discriminate].
  destruct (history 7 ex_burst) as [h|] eqn:H; [|vm_compute in H; discriminate].
  exists l, h. vm_compute in F. vm_compute in H. apply Some_inj in F, H. subst l h.
  split; [apply levb_ok; vm_compute; reflexivity|]. repeat split; vm_compute; reflexivity.
Qed.
Print Assumptions C33_burst_refuted.

(** In every run every link's qualities fit their octets, and its cost is the
    cost of the qualities in use, between 1 and the broken value. *)
Theorem C33_range : forall k evs l,
  Forall lev_ok evs -> In l (lqrun k evs) ->
  in8 (e_lq (l_est l)) /\ in8 (l_nlq l) /\ in8 (l_slq l) /\ in8 (l_snlq l) /\
  l_cost l = calc_cost k (l_slq l) (l_snlq l) /\ 1 <= l_cost l <= LC_BROKEN /\
  (l_cost l = LC_BROKEN <-> l_slq l < 25 \/ l_snlq l < 25).
Proof.
  intros k evs l OK I. pose proof (run_sane k evs [] OK (Forall_nil _)) as S. rewrite Forall_forall in S.
  destruct (S l I) as (S1 & S2 & S3 & S4 & S5 & S6 & S7).
  destruct (cost_range k _ _ S3 S4) as (R1 & R2). rewrite S7.
  do 5 (split; [assumption || reflexivity|]). split; [lia|exact R2].
Qed.
Print Assumptions C33_range.

Example C33_range_ex : Forall lev_ok ex_half /\
  map (fun l => (l_slq l, l_snlq l, l_cost l)) (lqrun FF ex_half) = [(127, 200, 2621)].
Proof. split; [apply levb_ok; vm_compute; reflexivity|vm_compute; reflexivity]. Qed.

(** With the packet counting plugins a better quality never costs more, and
    the cost does not depend on the direction. *)
Theorem C33_cost : forall k a b c d, in8 a -> in8 b -> in8 c -> in8 d ->
  calc_cost k a b = calc_cost k b a /\
  (a <= c -> b <= d -> calc_cost k c d <= calc_cost k a b).
Proof.
  intros k a b c d H1 H2 H3 H4. split; [apply cost_sym; assumption|].
  intros L1 L2. apply cost_mono; assumption.
Qed.
Print Assumptions C33_cost.

Example C33_cost_ex : in8 100 /\ in8 255 /\ calc_cost FF 100 255 = 2611 /\ calc_cost FF 255 255 = 1024 /\
  calc_cost FFETH 254 255 = 1024 /\ calc_cost FFETH 255 255 = 102.
Proof. unfold in8. repeat split; try lia; reflexivity. Qed.

(** With etx_fpm, for every run: values in range; and one step is the exact
    exponential average rounded up by less than two units. *)
Theorem C33_fpm : forall a m evs, 0 <= a <= 65535 -> 1 <= m <= 65536 -> Forall pev_ok evs ->
  let p := fpm_run a m evs in
  in8 (p_lq p) /\ in8 (p_nlq p) /\ 1 <= p_cost p <= LC_BROKEN /\
  forall lost, let p' := fpm_worker a m lost p in
    let w := if p_qs p <? 12 then 16383 else a in
    ema w m (p_lq p) lost <= p_lq p' * (65535 * 65536) < ema w m (p_lq p) lost + 2 * (65535 * 65536).
Proof.
  intros a m evs Ha Hm OK. cbn zeta.
  destruct (fsane_run a m Ha Hm evs fpm0 OK fsane0) as (S1 & S2 & S3 & S4).
  fold (fpm_run a m evs) in S1, S2, S3, S4.
  split; [exact S1|]. split; [exact S2|]. split; [exact S4|].
  intros lost. unfold fpm_worker, QS_STEPS, QS_NEW. cbn [p_lq].
  apply average_spec; [|exact Hm|exact S1]. destruct (_ <? _); lia.
Qed.
Print Assumptions C33_fpm.

Example C33_fpm_ex : let evs := PNlq 255 :: repeat (PHello false) 20 ++ [PHello true; PHello false] in
  Forall pev_ok evs /\ p_lq (fpm_run 3276 65536 evs) = 244.
Proof. split; [apply pevb_ok; vm_compute; reflexivity|vm_compute; reflexivity]. Qed.

(** Its cost too never rises with the quality. *)
Theorem C33_fpm_cost : forall a b c d, in8 a -> in8 b -> in8 c -> in8 d ->
  1 <= fpm_cost a b <= LC_BROKEN /\ (a <= c -> b <= d -> fpm_cost c d <= fpm_cost a b).
Proof.
  intros a b c d H1 H2 H3 H4. split; [apply fpm_cost_range; assumption|].
  intros L1 L2. apply fpm_cost_mono; assumption.
Qed.
Print Assumptions C33_fpm_cost.

Example C33_fpm_cost_ex : in8 128 /\ in8 255 /\ fpm_cost 128 255 = 130558 /\ fpm_cost 255 255 = 65535.
Proof. unfold in8. repeat split; try lia; reflexivity. Qed.

(** But two intermediate truncations make it depend on the direction ... *)
Theorem C33_direction_refuted : exists a b, in8 a /\ in8 b /\ fpm_cost a b <> fpm_cost b a.
Proof. exists 25, 53. unfold in8. split; [lia|]. split; [lia|]. vm_compute. discriminate. Qed.
Print Assumptions C33_direction_refuted.

(** ... by at most 11 units of 65535 per perfect hop.  Missing: equality. *)
Theorem C33_direction_partial : forall a b, in8 a -> in8 b -> Z.abs (fpm_cost a b - fpm_cost b a) <= 11.
Proof.
  intros a b H1 H2. pose proof (fpm_cost_near a b H1 H2). pose proof (fpm_cost_near b a H2 H1). lia.
Qed.
Print Assumptions C33_direction_partial.

Example C33_direction_ex : in8 25 /\ in8 53 /\ fpm_cost 25 53 = 3216161 /\ fpm_cost 53 25 = 3216151.
Proof. unfold in8. repeat split; try lia; reflexivity. Qed.

(** C34, packet counting: thirty-three seconds after the last packet the link
    is broken, whatever it was before and whatever happens to other links --
    for etx_ff, and for radio links with etx_ffeth. *)
Theorem C34_silent : forall k i evs tail l0,
  Forall lev_ok evs -> Forall lev_ok tail -> Forall (quiet i) tail ->
  find_link i (lqrun k evs) = Some l0 -> (k = FF \/ l_ether l0 = false) -> 33 <= ticks tail ->
  exists l, find_link i (lqrun k (evs ++ tail)) = Some l /\ l_cost l = LC_BROKEN.
Proof. exact silent_broken. Qed.
Print Assumptions C34_silent.

Example C34_silent_ex : let evs := EAdd 7 false 65536 2000 :: ENlq 7 255 :: steady 7 40 1 in
  let tail := EAdd 9 false 65536 2000 :: steady 9 33 5 in
  Forall lev_ok evs /\ Forall lev_ok tail /\ Forall (quiet 7) tail /\ 33 <= ticks tail /\
  option_map l_cost (find_link 7 (lqrun FF evs)) = Some 1024 /\
  option_map l_cost (find_link 7 (lqrun FF (evs ++ tail))) = Some LC_BROKEN.
Proof.
  cbn zeta. split; [apply levb_ok; vm_compute; reflexivity|]. split; [apply levb_ok; vm_compute; reflexivity|].
  split. { cbn [steady]. repeat (apply Forall_cons; [cbn [quiet]; first [exact Logic.I|lia]|]). apply Forall_nil. }
  split; [vm_compute; discriminate|]. split; vm_compute; reflexivity.
Qed.

(** On an Ethernet link with etx_ffeth and the usual HELLO interval of two
    seconds it never is: two missed HELLOs take the measured quality from 255
    straight to 223, past the band (230 to 242) in which alone the "perfect"
    flag is cleared, and as long as the flag is set the quality is 255. *)
Definition ex_wire : list lev := EAdd 8 true 65536 2000 :: ENlq 8 255 :: steady 8 40 1.

Theorem C34_ethernet_refuted : exists evs i, Forall lev_ok evs /\
  forall tail, Forall (fun e => e = ETick \/ e = ELost i) tail ->
    exists l, find_link i (lqrun FFETH (evs ++ tail)) = Some l /\
      e_lq (l_est l) = 255 /\ l_cost l = 102.
Proof.
  exists ex_wire, 8. split; [apply levb_ok; vm_compute; reflexivity|]. intros tail Q.
  unfold lqrun. rewrite fold_left_app.
  assert (E : exists l, fold_left (lstep FFETH) ex_wire [] = [l] /\ stuck l /\ l_id l = 8).
  { eexists. split; [vm_compute; reflexivity|]. split; [|reflexivity].
    unfold stuck. cbn. repeat split; try reflexivity; try lia. repeat constructor; lia. }
  destruct E as (l & E & S & I). rewrite E.
  destruct (stuck_run 8 tail l S I Q) as (l' & E' & S' & I'). rewrite E'.
  exists l'. unfold find_link. cbn [find]. rewrite I'. split; [reflexivity|].
  destruct S' as (S1 & S2 & S3 & S4 & S5 & S6 & S7 & S8 & _). auto.
Qed.
Print Assumptions C34_ethernet_refuted.

(** C34, etx_fpm: with an aging factor of at least 2622/65535 (just above
    0.04) a link is broken after at most 231 lost HELLOs.  Missing: the smaller
    factors, which are refuted below. *)
Theorem C34_fpm_partial : forall a m evs tail,
  2622 <= a <= 65535 -> 1 <= m <= 65536 -> Forall pev_ok evs ->
  Forall pev_ok tail -> Forall lossy tail -> 231 <= losses tail ->
  p_lq (fpm_run a m (evs ++ tail)) < 25 /\ p_cost (fpm_run a m (evs ++ tail)) = LC_BROKEN.
Proof.
  intros a m evs tail Ha Hm O1 O2 L N.
  assert (Ha' : 0 <= a <= 65535) by lia.
  unfold fpm_run. rewrite fold_left_app.
  pose proof (fsane_run a m Ha' Hm evs fpm0 O1 fsane0) as S.
  pose proof (dead_run a m Ha' Hm evs fpm0 O1 fsane0 dead0) as D.
  set (p := fold_left (fpm_step a m) evs fpm0) in *. clearbody p.
  pose proof (dead_run a m Ha' Hm tail p O2 S D) as D'.
  destruct (fpm_dies_run a m Ha Hm tail p O2 L S) as (_ & X & _).
  destruct S as (S & _). unfold in8 in S.
  assert (Q : p_lq (fold_left (fpm_step a m) tail p) < 25) by lia.
  split; [exact Q|exact (D' Q)].
Qed.
Print Assumptions C34_fpm_partial.

Example C34_fpm_ex : let tail := repeat (PHello true) 231 in
  Forall pev_ok warm /\ Forall pev_ok tail /\ Forall lossy tail /\ 231 <= losses tail /\
  p_lq (fpm_run 3276 65536 warm) = 249 /\ p_lq (fpm_run 3276 65536 (warm ++ tail)) = 20.
Proof.
  cbn zeta. split; [apply pevb_ok; vm_compute; reflexivity|]. split; [apply Forall_forall; intros e I; apply repeat_spec in I; subst; exact Logic.I|].
  split; [apply Forall_forall; intros e I; apply repeat_spec in I; subst; reflexivity|].
  split; [vm_compute; discriminate|]. split; vm_compute; reflexivity.
Qed.

(** For every smaller configurable factor there is a link that is never
    declared broken, however many HELLOs are lost: the rounding up of the
    average leaves its quality where it is. *)
Theorem C34_aging_refuted : exists evs, Forall pev_ok evs /\
  (exists a, aging_ok a /\ a <= 2621) /\
  forall a tail, aging_ok a -> a <= 2621 -> Forall (fun e => e = PHello true) tail ->
    25 <= p_lq (fpm_run a 65536 (evs ++ tail)) /\ p_cost (fpm_run a 65536 (evs ++ tail)) < LC_BROKEN.
Proof.
  exists warm. split; [apply pevb_ok; vm_compute; reflexivity|]. split; [exists 655; unfold aging_ok; lia|].
  intros a tail Ha Hs H. unfold aging_ok in Ha. unfold fpm_run. rewrite fold_left_app.
  fold (fpm_run a 65536 warm).
  destruct (alive_run a 65536 ltac:(lia) tail _ (warm_alive a) H) as (A1 & A2 & A3 & A4).
  split; [lia|]. rewrite A4. apply alive_cost. exact A1.
Qed.
Print Assumptions C34_aging_refuted.

(** C73: after every run of the timer the quality in use is within a tenth of
    the measured one, in both directions and on every link. *)
Theorem C73_smoothing : forall k evs l, Forall lev_ok evs -> In l (lqrun k (evs ++ [ETick])) ->
  near (l_slq l) (e_lq (l_est l)) /\ near (l_snlq l) (l_nlq l).
Proof.
  intros k evs l OK I. unfold lqrun in I. rewrite fold_left_app in I. cbn [fold_left lstep] in I.
  pose proof (run_sane k evs [] OK (Forall_nil _)) as S. fold (lqrun k evs) in I, S.
  destruct (timer_map k (lqrun k evs)) as (t & E & T). rewrite E in I.
  apply in_map_iff in I. destruct I as (l0 & <- & I).
  destruct (settle_est k t (tick_link k l0)) as (T1 & T2 & T3 & T4 & T5 & T6). rewrite T1, T5.
  apply settle_near; [|intros F; apply T; assumption].
  rewrite Forall_forall in S. destruct (S l0 I) as (S1 & S2 & S3 & S4 & S5 & S6 & S7).
  unfold sane, tick_link, with_est. cbn [l_est l_nlq l_slq l_snlq l_mult l_hint l_cost].
  pose proof (est_tick_in8 k (l_ether l0) (l_mult l0) (l_hint l0) (l_est l0)). tauto.
Qed.
Print Assumptions C73_smoothing.

Example C73_smoothing_ex : let evs := ex_half ++ steady 7 5 100 in Forall lev_ok evs /\
  map (fun l => (l_slq l, e_lq (l_est l))) (lqrun FF (evs ++ [ETick])) = [(99, 103)].
Proof. cbn zeta. split; [apply levb_ok; vm_compute; reflexivity|vm_compute; reflexivity]. Qed.

(** The cost in use changes only when the timer runs. *)
Theorem C73_stable : forall k evs e i l l', Forall lev_ok evs -> lev_ok e -> e <> ETick ->
  find_link i (lqrun k evs) = Some l -> find_link i (lqrun k (evs ++ [e])) = Some l' ->
  l_cost l' = l_cost l /\ l_slq l' = l_slq l /\ l_snlq l' = l_snlq l.
Proof.
  intros k evs e i l l' O1 O2 N F F'. unfold lqrun in F'. rewrite fold_left_app in F'. cbn [fold_left] in F'.
  fold (lqrun k evs) in F'. destruct e as [j et m hi|j|j s|j|j v|j v|]; cbn [lstep] in F'; [| | | | | |congruence].
  - rewrite find_exists in F'. destruct (find_link j (lqrun k evs)) eqn:Fj; [rewrite F in F'; apply Some_inj in F'; subst; auto|].
    unfold find_link in F'. cbn [find l_id] in F'. fold (find_link i (lqrun k evs)) in F'.
    destruct (j =? i) eqn:E; [assert (j = i) by lia; subst; congruence|].
    rewrite F in F'. apply Some_inj in F'. subst. auto.
  - rewrite find_del in F'. destruct (j =? i); [discriminate|]. rewrite F in F'. apply Some_inj in F'. subst. auto.
  - rewrite find_on, F in F' by reflexivity. destruct (j =? i); cbn [option_map] in F'; apply Some_inj in F'; subst; cbn; auto.
  - rewrite find_on, F in F' by reflexivity. destruct (j =? i); cbn [option_map] in F'; apply Some_inj in F'; subst; cbn; auto.
  - rewrite find_on, F in F' by reflexivity. destruct (j =? i); cbn [option_map] in F'; apply Some_inj in F'; subst; cbn; auto.
  - rewrite find_on, F in F' by reflexivity. destruct (j =? i); cbn [option_map] in F'; apply Some_inj in F'; subst; cbn; auto.
Qed.
Print Assumptions C73_stable.

Example C73_stable_ex : Forall lev_ok ex_half /\ lev_ok (EPkt 7 500) /\
  option_map l_cost (find_link 7 (lqrun FF (ex_half ++ [EPkt 7 500]))) = Some 2621.
Proof. split; [apply levb_ok; vm_compute; reflexivity|]. split; [cbn; lia|vm_compute; reflexivity]. Qed.

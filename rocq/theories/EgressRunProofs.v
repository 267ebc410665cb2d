(** Proofs about the egress file reader: the values, the lines of the file, and the
    interfaces. *)
From Verif Require Import Base Regex GwSpeed IpCalc IpProofs Egress JsonSpec JsonProofs EgressSpec EgressProofs.

(** ** Numbers *)
Lemma strtoull_ok s : forall a, strtoull a s = fold_left (fun a c => 10 * a + (c - 48)) s a.
Proof. induction s as [|c s IH]; intros a; [reflexivity|]. cbn [strtoull fold_left]. apply IH. Qed.
Lemma value_nonneg s : Forall is_digit s -> 0 <= value_of s.
Proof.
  unfold value_of. enough (H : forall a, 0 <= a -> Forall is_digit s -> 0 <= fold_left (fun a c => 10 * a + (c - 48)) s a) by (apply H; lia).
  induction s as [|c s IH]; intros a Ha F; cbn [fold_left]; [exact Ha|]. inversion F as [|? ? D]; subst. apply IH; [unfold is_digit in D; lia|assumption].
Qed.
Lemma readULL_ok s n : readULL s = Some n <-> n = value_of s /\ n < 2 ^ 64.
Proof.
  unfold readULL. rewrite strtoull_ok. fold (value_of s). change (2 ^ 64) with 18446744073709551616.
  destruct (value_of s >? 18446744073709551615) eqn:E.
  - split; [discriminate|]. intros [-> H]. exfalso. lia.
  - split; [intros H; apply Some_inj in H; lia|]. intros [-> _]. reflexivity.
Qed.
Lemma field_ok d s n : field d s = Some n <-> number d s n.
Proof.
  unfold field, number. destruct s as [|c s].
  - split; [intros H; apply Some_inj in H; left; now split|]. intros [[_ ->]|[N _]]; [reflexivity|congruence].
  - rewrite readULL_ok. split; [intros H; right; split; [discriminate|exact H]|]. intros [[N _]|[_ H]]; [discriminate|exact H].
Qed.

(** ** Addresses *)
(** the rest of an address while the octet [o] is being read *)
Definition opened (o : option Z) (s : list Z) (v : Z) : Prop :=
  match o with
  | None => octet s v
  | Some x => Forall is_digit s /\ v = fold_left (fun a c => 10 * a + (c - 48)) s x /\ v <= 255 /\ (x = 0 -> s = [])
  end.
Fixpoint quad (n : nat) (a : Z) (o : option Z) (s : list Z) (r : Z) : Prop :=
  match n with
  | O => exists v, opened o s v /\ r = 256 * a + v
  | S n' => exists s1 s2 v, s = s1 ++ 46 :: s2 /\ opened o s1 v /\ quad n' (256 * a + v) None s2 r
  end.
Lemma fold_mono s : forall x, 0 <= x -> Forall is_digit s -> x <= fold_left (fun a c => 10 * a + (c - 48)) s x.
Proof.
  induction s as [|c s IH]; intros x Hx F; cbn [fold_left]; [lia|]. inversion F as [|? ? D D2]; subst. unfold is_digit in D.
  assert (Hx2 : 0 <= 10 * x + (c - 48)) by lia. specialize (IH (10 * x + (c - 48)) Hx2 D2). lia.
Qed.
Lemma opened_digit o c s v : is_digit c -> (match o with Some x => 0 <= x | None => True end) ->
  (opened o (c :: s) v <-> match o with None => opened (Some (c - 48)) s v | Some x => x <> 0 /\ 10 * x + (c - 48) <= 255 /\ opened (Some (10 * x + (c - 48))) s v end).
Proof.
  intros D Ho. destruct o as [x|]; cbn [opened].
  - split.
    + intros (F & E & L & Z0). inversion F as [|? ? D1 H2]; subst. cbn [fold_left] in *. assert (Nx : x <> 0) by (intros X; specialize (Z0 X); discriminate).
      pose proof (fold_mono s (10 * x + (c - 48)) ltac:(unfold is_digit in D; lia) H2). unfold is_digit in D. repeat split; try assumption; try lia.
    + intros (Nx & L1 & F & E & L & Z0). cbn [fold_left]. repeat split; try assumption; [constructor; assumption|]. intros X. congruence.
  - unfold octet, value_of. split.
    + intros (F & _ & E & L & Z0). inversion F as [|? ? D1 D2]. cbn [fold_left] in *. split; [exact D2|]. split; [symmetry; exact E|]. split; [exact L|].
      intros X. apply (Z0 s). f_equal. lia.
    + intros (F & E & L & Z0). cbn [fold_left]. split; [now constructor|]. split; [discriminate|]. split; [symmetry; exact E|]. split; [exact L|].
      intros t Et. inversion Et; subst. apply Z0. reflexivity.
Qed.
Lemma opened_nil o v : opened o [] v <-> match o with Some x => v = x /\ v <= 255 | None => False end.
Proof.
  destruct o as [x|]; cbn [opened fold_left].
  - split; [intros (_ & E & L & _); now split|]. intros [E L]. repeat split; [constructor|exact E|exact L].
  - split; [|contradiction]. intros (_ & N & _). congruence.
Qed.
Lemma opened_bad o c s v : ~ is_digit c -> ~ opened o (c :: s) v.
Proof. intros D H. destruct o as [x|]; [destruct H as (F & _)|destruct H as (F & _)]; inversion F; subst; contradiction. Qed.
Lemma pton4_ok s : forall n a o r, (match o with Some x => 0 <= x <= 255 | None => True end) -> (pton4 n a o s = Some r <-> quad n a o s r).
Proof.
  induction s as [|c s IH]; intros n a o r Ho; cbn [pton4].
  - destruct n as [|n]; cbn [quad].
    + destruct o as [x|].
      * split; [intros H; apply Some_inj in H; exists x; split; [apply opened_nil; lia|lia]|].
        intros (v & H & ->). apply opened_nil in H. f_equal. lia.
      * split; [discriminate|]. intros (v & H & _). now apply opened_nil in H.
    + split; [discriminate|]. intros (s1 & s2 & v & E & _). destruct s1; discriminate.
  - destruct (digitc c) eqn:D.
    + apply digitc_ok in D.
      assert (Q : forall m b, quad m b o (c :: s) r <-> match o with None => quad m b (Some (c - 48)) s r | Some x => x <> 0 /\ 10 * x + (c - 48) <= 255 /\ quad m b (Some (10 * x + (c - 48))) s r end).
      { intros m b. destruct m as [|m]; cbn [quad].
        - split.
          + intros (v & H & E). apply opened_digit in H; [|exact D|destruct o; [lia|trivial]]. destruct o as [x|]; [destruct H as (H1 & H2 & H3); repeat split; try assumption; now exists v|now exists v].
          + intros H. assert (X : exists v, opened o (c :: s) v /\ r = 256 * b + v).
            { destruct o as [x|]; [destruct H as (H1 & H2 & v & H3 & E)|destruct H as (v & H3 & E)]; exists v; (split; [|exact E]); apply opened_digit; auto; lia. }
            exact X.
        - split.
          + intros (s1 & s2 & v & E & H & K). destruct s1 as [|c1 s1]; [cbn [app] in E; inversion E; subst; unfold is_digit in D; lia|]. cbn [app] in E. inversion E; subst.
            apply opened_digit in H; [|exact D|destruct o; [lia|trivial]]. destruct o as [x|]; [destruct H as (H1 & H2 & H3); repeat split; try assumption; now exists s1, s2, v|now exists s1, s2, v].
          + intros H. destruct o as [x|]; [destruct H as (H1 & H2 & s1 & s2 & v & -> & H3 & K)|destruct H as (s1 & s2 & v & -> & H3 & K)];
              exists (c :: s1), s2, v; (split; [reflexivity|]); (split; [apply opened_digit; auto; lia|exact K]). }
      rewrite Q. unfold is_digit in D. destruct o as [x|].
      * destruct ((x =? 0) || (10 * x + (c - 48) >? 255)) eqn:B.
        -- split; [discriminate|]. intros (H1 & H2 & _). exfalso. lia.
        -- rewrite IH by lia. split; [intros H; repeat split; [lia|lia|exact H]|]. intros (_ & _ & H). exact H.
      * apply IH. lia.
    + assert (D' : ~ is_digit c) by (intros X; apply digitc_ok in X; congruence). destruct (Z.eqb_spec c 46) as [->|Nc].
      * destruct n as [|n]; cbn [quad].
        -- split; [discriminate|]. intros (v & H & _). exfalso. now apply (opened_bad o 46 s v).
        -- destruct o as [x|].
           ++ rewrite IH by trivial. split.
              ** intros H. exists [], s, x. split; [reflexivity|]. split; [apply opened_nil; lia|exact H].
              ** intros (s1 & s2 & v & E & H & K). destruct s1 as [|c1 s1].
                 { cbn [app] in E. inversion E; subst. apply opened_nil in H. destruct H as [-> _]. exact K. }
                 { cbn [app] in E. inversion E; subst. exfalso. now apply (opened_bad (Some x) 46 s1 v). }
           ++ split; [discriminate|]. intros (s1 & s2 & v & E & H & K). exfalso. destruct s1 as [|c1 s1].
              { now apply opened_nil in H. } { cbn [app] in E. inversion E; subst. now apply (opened_bad None 46 s1 v). }
      * split; [discriminate|]. destruct n as [|n]; cbn [quad].
        -- intros (v & H & _). exfalso. now apply (opened_bad o c s v).
        -- intros (s1 & s2 & v & E & H & K). exfalso. destruct s1 as [|c1 s1]; cbn [app] in E; inversion E; subst; [congruence|]. now apply (opened_bad o c1 s1 v).
Qed.
Lemma dotted_ok s a : pton4 3 0 None s = Some a <-> dotted s a.
Proof.
  rewrite pton4_ok by trivial. cbn [quad opened]. split.
  - intros (s1 & t1 & o1 & -> & H1 & s2 & t2 & o2 & -> & H2 & s3 & t3 & o3 & -> & H3 & o4 & H4 & E).
    exists s1, s2, s3, t3, o1, o2, o3, o4. repeat (split; [first [reflexivity|assumption]|]). lia.
  - intros (s1 & s2 & s3 & s4 & o1 & o2 & o3 & o4 & -> & H1 & H2 & H3 & H4 & E).
    exists s1, (s2 ++ 46 :: s3 ++ 46 :: s4), o1. split; [reflexivity|]. split; [exact H1|].
    exists s2, (s3 ++ 46 :: s4), o2. split; [reflexivity|]. split; [exact H2|].
    exists s3, s4, o3. split; [reflexivity|]. split; [exact H3|]. exists o4. split; [exact H4|]. lia.
Qed.
Lemma octet_range s o : octet s o -> 0 <= o <= 255.
Proof. intros (F & _ & E & L & _). pose proof (value_nonneg s F). lia. Qed.
Lemma dotted_range s a : dotted s a -> 0 <= a < 2 ^ 32.
Proof.
  intros (s1 & s2 & s3 & s4 & o1 & o2 & o3 & o4 & _ & H1 & H2 & H3 & H4 & ->). apply octet_range in H1, H2, H3, H4. change (2 ^ 32) with 4294967296. lia.
Qed.
Lemma masked_ok a len : 0 <= a < 2 ^ 32 -> 0 <= len <= 32 -> masked a len = a - a mod 2 ^ (32 - len).
Proof.
  intros Ha Hl. unfold masked. set (m := if len =? 0 then 0 else u32 (Z.shiftl 4294967295 (32 - len))).
  assert (M : prefix_to_netmask4 len = Some m).
  { unfold prefix_to_netmask4, m. destruct (len =? 0); [reflexivity|]. destruct (len >? 32) eqn:E; [lia|reflexivity]. }
  assert (E : Z.land a m = Z.ldiff a (Z.ones (32 - len))).
  { apply Z.bits_inj'. intros k Hk. rewrite Z.land_spec, Z.ldiff_spec, (mask4_bits len m k Hl M Hk).
    destruct (Z.ltb_spec k 32) as [L|L].
    - rewrite andb_true_r. destruct (Z.leb_spec (32 - len) k) as [G|G]; [rewrite Z.ones_spec_high by lia|rewrite Z.ones_spec_low by lia]; reflexivity.
    - assert (T : Z.testbit a k = false) by (destruct (Z.eq_dec a 0) as [->|]; [apply Z.bits_0|]; apply Z.bits_above_log2; [lia|]; assert (Z.log2 a < 32) by (apply Z.log2_lt_pow2; lia); lia).
      rewrite T. reflexivity. }
  rewrite E, Z.ldiff_ones_r, Z.shiftl_mul_pow2, Z.shiftr_div_pow2 by lia. pose proof (Z.div_mod a (2 ^ (32 - len)) ltac:(lia)). lia.
Qed.

(** ** The fields *)
Lemma net_part_digits g l : egress_line l g -> match g_net g with Some (Some (_, len)) => Forall is_digit len /\ len <> [] | _ => True end.
Proof.
  intros (b & x1 & x2 & x3 & x4 & r & b' & _ & _ & _ & _ & _ & _ & _ & _ & _ & _ & _ & _ & _ & C).
  destruct C as [|s pc n g0 r S Fp N]; [trivial|]. now destruct N.
Qed.
Lemma says_ok p6 g v : match g_net g with Some (Some (_, len)) => Forall is_digit len /\ len <> [] | _ => True end -> (read_vals p6 g = Some v <-> says g v).
Proof.
  intros Dl. unfold read_vals, says. split.
  - destruct (field 1 (g_rn g)) as [rn|] eqn:E1; [|discriminate]. destruct (field 1 (g_rg g)) as [rg|] eqn:E2; [|discriminate].
    destruct (field 0 (g_up g)) as [up|] eqn:E3; [|discriminate]. destruct (field 0 (g_down g)) as [down|] eqn:E4; [|discriminate].
    destruct (field 0 match g_cost g with Some s => s | None => [] end) as [pc|] eqn:E5; [|discriminate].
    destruct (read_net p6 (g_net g)) as [[net len]|] eqn:E6; [|discriminate]. destruct (read_gw p6 (g_gw g)) as [gw|] eqn:E7; [|discriminate].
    apply field_ok in E1, E2, E3, E4, E5.
    assert (N : (match net with Some (inr _) => False | _ => True end -> match g_net g with Some (Some (ip, ln)) => exists n, match net with Some (inl a) => Some (masked a len, len) | _ => None end = Some n /\ network ip ln n
                | _ => match net with Some (inl a) => Some (masked a len, len) | _ => None end = None end)).
    { intros V4. destruct (g_net g) as [[[ip ln]|]|]; cbn [read_net] in E6; try (apply Some_inj in E6; inversion E6; subst; reflexivity).
      unfold readIPAddress in E6. destruct (pton4 3 0 None ip) as [a|] eqn:P.
      - destruct (readULL ln) as [x|] eqn:R; [|discriminate]. destruct (x >? 32) eqn:L; [discriminate|]. apply Some_inj in E6. inversion E6; subst.
        apply readULL_ok in R. destruct R as [-> _]. destruct Dl as [Dl _]. pose proof (value_nonneg ln Dl). assert (U : u8 (value_of ln) = value_of ln) by (unfold u8; lia).
        rewrite U. apply dotted_ok in P. eexists. split; [reflexivity|]. exists a. split; [exact P|]. cbn [fst snd]. split; [reflexivity|]. split; [lia|]. apply masked_ok; [now apply (dotted_range ip)|lia].
      - destruct (p6 ip) as [a6|]; [|discriminate]. cbn [option_map] in E6. destruct (readULL ln) as [x|]; [|discriminate]. destruct (x >? 128); [discriminate|]. apply Some_inj in E6. inversion E6; subst. contradiction. }
    assert (G : (match gw with Some (inr _) => False | _ => True end -> match g_gw g with None | Some [] => match gw with Some (inl a) => Some a | _ => None end = None
                | Some s => exists a, match gw with Some (inl a) => Some a | _ => None end = Some a /\ dotted s a end)).
    { intros V4. destruct (g_gw g) as [[|c s]|]; cbn [read_gw] in E7; try (apply Some_inj in E7; subst; reflexivity).
      unfold readIPAddress in E7. destruct (pton4 3 0 None (c :: s)) as [a|] eqn:P.
      - apply Some_inj in E7. subst gw. exists a. split; [reflexivity|]. now apply dotted_ok.
      - destruct (p6 (c :: s)); [|discriminate]. apply Some_inj in E7. subst gw. contradiction. }
    intros H. assert (V : match net with Some (inr _) => False | _ => True end /\ match gw with Some (inr _) => False | _ => True end).
    { destruct net as [[?|?]|], gw as [[?|?]|]; try discriminate; now split. }
    destruct V as [V1 V2]. specialize (N V1). specialize (G V2).
    assert (Ev : v = mkV (negb (rn =? 0)) (negb (rg =? 0)) (Z.min up MAX_SPEED) (Z.min down MAX_SPEED) (Z.min pc 4294967295)
                  (match net with Some (inl a) => Some (masked a len, len) | _ => None end) (match gw with Some (inl a) => Some a | _ => None end)).
    { destruct net as [[?|?]|], gw as [[?|?]|]; try contradiction; apply Some_inj in H; now symmetry. }
    subst v. cbn [v_rn v_rg v_up v_down v_cost v_net v_gw]. split; [now exists rn|]. split; [now exists rg|]. split; [now exists up|]. split; [now exists down|].
    split; [now exists pc|]. split; [exact N|exact G].
  - intros ((rn & A1 & B1) & (rg & A2 & B2) & (up & A3 & B3) & (down & A4 & B4) & (pc & A5 & B5) & N & G).
    apply field_ok in A1, A2, A3, A4, A5. rewrite A1, A2, A3, A4, A5.
    assert (N' : exists net len, read_net p6 (g_net g) = Some (net, len) /\ match net with Some (inr _) => False | _ => True end /\ match net with Some (inl a) => Some (masked a len, len) | _ => None end = v_net v).
    { destruct (g_net g) as [[[ip ln]|]|]; cbn [read_net]; [|exists None, 0; repeat split; now symmetry|exists None, 0; repeat split; now symmetry].
      destruct N as ([x y] & E & (a & D & L1 & L2 & M)). cbn [fst snd] in *. unfold readIPAddress. pose proof (dotted_range ip a D). apply dotted_ok in D. rewrite D.
      destruct Dl as [Dl _]. pose proof (value_nonneg ln Dl). assert (R : readULL ln = Some y). { apply readULL_ok. split; [exact L1|]. change (2 ^ 64) with 18446744073709551616. lia. }
      rewrite R. exists (Some (inl a)), y. assert (U : u8 y = y) by (unfold u8; lia). split; [destruct (y >? 32) eqn:Q; [exfalso; lia|rewrite U; reflexivity]|]. split; [trivial|].
      rewrite E, M. f_equal. f_equal. apply masked_ok; [assumption|lia]. }
    destruct N' as (net & len & -> & V1 & En).
    assert (G' : exists gw, read_gw p6 (g_gw g) = Some gw /\ match gw with Some (inr _) => False | _ => True end /\ match gw with Some (inl a) => Some a | _ => None end = v_gw v).
    { destruct (g_gw g) as [[|c s]|]; cbn [read_gw]; [exists None; repeat split; now symmetry| |exists None; repeat split; now symmetry].
      destruct G as (a & E & D). unfold readIPAddress. apply dotted_ok in D. rewrite D. exists (Some (inl a)). repeat split. now symmetry. }
    destruct G' as (gw & -> & V2 & Eg).
    destruct v as [vrn vrg vup vdown vcost vnet vgw]. cbn [v_rn v_rg v_up v_down v_cost v_net v_gw] in *. subst vrn vrg vup vdown vcost.
    destruct net as [[?|?]|], gw as [[?|?]|]; try contradiction; cbv iota in *; rewrite <- En, <- Eg; reflexivity.
Qed.

(** ** One line *)
(** what a line gives, computed *)
Definition line_val (p6 : list Z -> option (list Z)) (l : list Z) : option (list Z * vals) :=
  if matches rx_comment l then None
  else match egress_groups (stripEols l) with
       | None => None
       | Some g => if Z.of_nat (length (g_name g)) >? 16 then None else option_map (pair (g_name g)) (read_vals p6 g)
       end.
Lemma leqb_ok a : forall b, leqb a b = true <-> a = b.
Proof.
  induction a as [|x a IH]; intros [|y b]; cbn [leqb]; try (split; [discriminate|congruence]); [split; reflexivity|].
  rewrite andb_true_iff, Z.eqb_eq, IH. split; [intros [-> ->]; reflexivity|]. intros H. inversion H. now split.
Qed.
Definition step (w : gwcfg) (p6 : list Z -> option (list Z)) (l : list Z) (e : eif) : eif :=
  match line_val p6 l with
  | Some (name, v) => if leqb (e_name e) name then take_vals w v e else e
  | None => e
  end.
Lemma on_first_map name f es : NoDup (map e_name es) -> on_first name f es = map (fun e => if leqb (e_name e) name then f e else e) es.
Proof.
  induction es as [|e es IH]; intros N; [reflexivity|]. cbn [on_first map] in *. inversion N as [|? ? Nin N']; subst. destruct (leqb (e_name e) name) eqn:E; [|now rewrite IH].
  f_equal. apply leqb_ok in E. subst name. clear IH N N'. induction es as [|e' es IH]; [reflexivity|]. cbn [map] in *. destruct (leqb (e_name e') (e_name e)) eqn:E'.
  - apply leqb_ok in E'. exfalso. apply Nin. left. exact E'.
  - f_equal. apply IH. intros H. apply Nin. now right.
Qed.
Lemma read_line_map w p6 l es : NoDup (map e_name es) -> fst (read_line w p6 l es) = map (step w p6 l) es.
Proof.
  intros N. unfold read_line, step, line_val. assert (I : es = map (fun e => e) es) by (symmetry; apply map_id).
  destruct (matches rx_comment l); [exact I|]. destruct (egress_groups (stripEols l)) as [g|]; [|exact I].
  destruct (Z.of_nat (length (g_name g)) >? 16); cbn [orb]; [exact I|]. destruct (known (g_name g) es) eqn:K; cbn [negb].
  - destruct (read_vals p6 g) as [v|]; cbn [option_map fst]; [now apply on_first_map|exact I].
  - cbn [fst]. destruct (read_vals p6 g) as [v|]; cbn [option_map]; [|exact I]. rewrite <- (map_id es) at 1. apply map_ext_in. intros e He.
    destruct (leqb (e_name e) (g_name g)) eqn:E; [|reflexivity]. exfalso. assert (X : known (g_name g) es = true) by (unfold known; apply existsb_exists; now exists e). congruence.
Qed.
Lemma step_name w p6 l e : e_name (step w p6 l e) = e_name e.
Proof. unfold step. destruct (line_val p6 l) as [[n v]|]; [|reflexivity]. now destruct (leqb (e_name e) n). Qed.
Lemma read_lines_map w p6 ls : forall es, NoDup (map e_name es) -> fst (read_lines w p6 ls es) = map (fun e => fold_left (fun e l => step w p6 l e) ls e) es.
Proof.
  induction ls as [|l ls IH]; intros es N; cbn [read_lines fold_left]; [symmetry; apply map_id|].
  pose proof (read_line_map w p6 l es N) as R. destruct (read_line w p6 l es) as [es1 e1]. cbn [fst] in R. subst es1.
  specialize (IH (map (step w p6 l) es)). destruct (read_lines w p6 ls (map (step w p6 l) es)) as [es2 e2]. cbn [fst] in *. rewrite IH; [apply map_map|].
  rewrite map_map. erewrite map_ext; [exact N|]. intros e. apply step_name.
Qed.

(** a line of the text, with or without its newline *)
Lemma ignored_dec l : plain l -> ignored l <-> matches rx_comment l = true.
Proof.
  intros (_ & Nz & P). rewrite comment_ok by (eapply Forall_impl; [|exact Nz]; cbn; tauto). unfold ignored. split.
  - intros [F|(b & r & F & ->)]; [now left|]. destruct b as [|c b]; [right; exists 35, r; split; [reflexivity|now right]|].
    right. exists c, (b ++ 35 :: r). split; [reflexivity|]. left. now inversion F.
  - intros [F|(c & r & -> & Hc)]; [now left|]. destruct P as [P|(c' & r' & E & N)]; [exact P|]. inversion E; subst. destruct Hc as [Hc|Hc]; [contradiction|]. subst c'. right. exists [], r'. split; [constructor|reflexivity].
Qed.
Lemma comment_nl l : Forall (fun c => c <> 0 /\ c <> 10) l -> matches rx_comment (l ++ [10]) = matches rx_comment l.
Proof.
  intros F. assert (N1 : Forall (fun c => c <> 0) l) by (eapply Forall_impl; [|exact F]; cbn; tauto).
  assert (N2 : Forall (fun c => c <> 0) (l ++ [10])) by (apply Forall_app; split; [exact N1|repeat constructor; discriminate]).
  assert (B : is_blank 10) by (unfold is_blank; lia).
  pose proof (comment_ok l N1) as A. pose proof (comment_ok (l ++ [10]) N2) as C. destruct (matches rx_comment l) eqn:E1.
  - apply C. destruct (proj1 A eq_refl) as [H|(c & r & -> & Hc)]; [left; apply Forall_app; split; [exact H|now repeat constructor]|right; exists c, (r ++ [10]); now split].
  - destruct (matches rx_comment (l ++ [10])) eqn:E2; [|reflexivity]. enough (false = true) by congruence. apply A. destruct (proj1 C eq_refl) as [H|(c & r & E & Hc)].
    + apply Forall_app in H. left. apply H.
    + destruct l as [|c0 l]; [left; constructor|]. cbn [app] in E. inversion E; subst. right. now exists c, l.
Qed.
Lemma line_val_nl p6 l : Forall (fun c => c <> 0 /\ c <> 10) l -> line_val p6 (l ++ [10]) = line_val p6 l.
Proof.
  intros F. unfold line_val. rewrite comment_nl by exact F. destruct (matches rx_comment l); [reflexivity|]. rewrite !groups_strip.
  rewrite groups_end; [reflexivity|]. apply Forall_cons; [|constructor]. unfold is_blank. lia.
Qed.
Lemma line_val_ok p6 l name v : plain l -> (line_val p6 l = Some (name, v) <-> gives name v l).
Proof.
  intros P. unfold line_val, gives. rewrite groups_strip. pose proof (ignored_dec l P) as I. destruct (matches rx_comment l) eqn:C.
  - split; [discriminate|]. intros [N _]. exfalso. apply N, I. reflexivity.
  - assert (NI : ~ ignored l) by (intros X; apply I in X; discriminate). split.
    + destruct (egress_groups l) as [g|] eqn:G; [|discriminate]. destruct (Z.of_nat (length (g_name g)) >? 16) eqn:L; [discriminate|].
      destruct (read_vals p6 g) as [v'|] eqn:V; [|discriminate]. cbn [option_map]. intros H. apply Some_inj in H. inversion H; subst. split; [exact NI|].
      apply egress_groups_inv in G. exists g. split; [exact G|]. split; [reflexivity|]. split; [lia|]. apply (says_ok p6); [now apply (net_part_digits g l)|exact V].
    + intros (_ & g & G & <- & L & S). pose proof (net_part_digits g l G) as D. apply egress_groups_ok in G. rewrite G. destruct (Z.of_nat (length (g_name g)) >? 16) eqn:Q; [exfalso; lia|].
      apply (says_ok p6) in S; [|exact D]. now rewrite S.
Qed.

(** ** The file *)
Lemma fgets_line n l f : (length l < n)%nat -> Forall (fun c => c <> 10) l -> fgets n (l ++ 10 :: f) = (l ++ [10], f).
Proof.
  revert n. induction l as [|c l IH]; intros n L F; cbn [app length] in *.
  - destruct n as [|n]; [lia|]. reflexivity.
  - destruct n as [|n]; [lia|]. inversion F; subst. cbn [fgets]. destruct (Z.eqb_spec c 10); [congruence|]. rewrite IH; [reflexivity|lia|assumption].
Qed.
Lemma fgets_last n l : (length l <= n)%nat -> Forall (fun c => c <> 10) l -> fgets n l = (l, []).
Proof.
  revert n. induction l as [|c l IH]; intros n L F; cbn [length] in *; [now destruct n|].
  destruct n as [|n]; [lia|]. inversion F; subst. cbn [fgets]. destruct (Z.eqb_spec c 10); [congruence|]. rewrite IH; [reflexivity|lia|assumption].
Qed.
Lemma upto0_id l : Forall (fun c => c <> 0) l -> upto0 l = l.
Proof. induction 1; [reflexivity|]. cbn [upto0]. destruct (Z.eqb_spec x 0); [congruence|]. now f_equal. Qed.
Lemma text_rounds ls f : text ls f -> Forall plain ls -> forall k, (length f <= k)%nat -> forall w p6 e,
  fold_left (fun e l => step w p6 l e) (rounds k f) e = fold_left (fun e l => step w p6 l e) ls e.
Proof.
  induction 1 as [|l Nl|l ls f T IH]; intros P k L w p6 e.
  - now destruct k.
  - destruct l as [|c l]; [congruence|]. destruct k as [|k]; [cbn [length] in L; lia|]. inversion P as [|? ? Pl _]; subst. destruct Pl as (Ll & Nz & _).
    cbn [rounds]. rewrite (fgets_last (LINE_LENGTH - 1) (c :: l)); [|unfold LINE_LENGTH; lia|eapply Forall_impl; [|exact Nz]; cbn; tauto].
    rewrite upto0_id by (eapply Forall_impl; [|exact Nz]; cbn; tauto). destruct k; reflexivity.
  - inversion P as [|? ? Pl Pls]; subst. destruct Pl as (Ll & Nz & _). rewrite app_length in L. cbn [length] in L. destruct k as [|k]; [lia|].
    assert (R : rounds (S k) (l ++ 10 :: f) = upto0 (fst (fgets (LINE_LENGTH - 1) (l ++ 10 :: f))) :: rounds k (snd (fgets (LINE_LENGTH - 1) (l ++ 10 :: f)))).
    { cbn [rounds]. destruct (fgets (LINE_LENGTH - 1) (l ++ 10 :: f)) as [u v] eqn:E. cbn [fst snd]. destruct l; reflexivity. }
    rewrite R, fgets_line; [|unfold LINE_LENGTH; lia|eapply Forall_impl; [|exact Nz]; cbn; tauto]. cbn [fst snd]. rewrite upto0_id.
    + cbn [fold_left]. rewrite IH; [|exact Pls|lia]. f_equal. unfold step. now rewrite line_val_nl.
    + apply Forall_app. split; [eapply Forall_impl; [|exact Nz]; cbn; tauto|repeat constructor; discriminate].
Qed.

(** ** The interface after the file has been read *)
Definition fields_of (e : eif) := (e_name e, e_index e, e_up e, e_prev e).
Lemma step_fields w p6 l e : fields_of (step w p6 l e) = fields_of e.
Proof. unfold step. destruct (line_val p6 l) as [[n v]|]; [|reflexivity]. now destruct (leqb (e_name e) n). Qed.
Lemma steps_fields w p6 ls : forall e, fields_of (fold_left (fun e l => step w p6 l e) ls e) = fields_of e.
Proof. induction ls as [|l ls IH]; intros e; cbn [fold_left]; [reflexivity|]. rewrite IH. apply step_fields. Qed.
Lemma steps_none w p6 ls : Forall plain ls -> forall e, (forall l v, In l ls -> ~ gives (e_name e) v l) -> fold_left (fun e l => step w p6 l e) ls e = e.
Proof.
  induction 1 as [|l ls P F IH]; intros e N; cbn [fold_left]; [reflexivity|].
  assert (E : step w p6 l e = e).
  { unfold step. destruct (line_val p6 l) as [[n v]|] eqn:V; [|reflexivity]. destruct (leqb (e_name e) n) eqn:Q; [|reflexivity]. apply leqb_ok in Q. subst n.
    apply (line_val_ok p6 l _ v P) in V. exfalso. apply (N l v); [now left|exact V]. }
  rewrite E. apply IH. intros l' v H. apply N. now right.
Qed.
Lemma steps_last w p6 ls v : Forall plain ls -> forall e, last_gives (e_name e) v ls ->
  e_in (fold_left (fun e l => step w p6 l e) ls e) = true /\
  e_cur (fold_left (fun e l => step w p6 l e) ls e) = if (v_up v =? 0) || (v_down v =? 0) then bw_clear w (e_up e) else bw_of w (e_up e) v.
Proof.
  intros P e (pre & l & post & -> & G & N). apply Forall_app in P. destruct P as [P1 P2]. inversion P2 as [|? ? Pl P3]; subst.
  rewrite fold_left_app. cbn [fold_left]. set (e1 := fold_left _ pre e). assert (F1 : fields_of e1 = fields_of e) by apply steps_fields. unfold fields_of in F1. inversion F1.
  apply (line_val_ok p6 l _ v Pl) in G. assert (E : step w p6 l e1 = take_vals w v e1).
  { unfold step. rewrite G. assert (Q : leqb (e_name e1) (e_name e) = true) by now apply leqb_ok. now rewrite Q. }
  rewrite E. rewrite steps_none; [|exact P3|].
  - cbn [take_vals e_in e_cur]. split; [reflexivity|]. now rewrite H2.
  - intros l' v' I. cbn [take_vals e_name]. rewrite H0. now apply N.
Qed.
Lemma clear_bandwidth w up v : match v with Some v => (0 <? v_up v) && (0 <? v_down v) = false | None => True end -> bandwidth w up v (bw_clear w up).
Proof.
  intros H. unfold bandwidth. split; [reflexivity|]. destruct v as [v|]; [rewrite H|]; cbn; repeat split.
Qed.
Lemma of_bandwidth w up v : 0 <= v_up v -> 0 <= v_down v -> bandwidth w up (Some v) (if (v_up v =? 0) || (v_down v =? 0) then bw_clear w up else bw_of w up v).
Proof.
  intros H1 H2. destruct ((v_up v =? 0) || (v_down v =? 0)) eqn:E.
  - apply clear_bandwidth. lia.
  - unfold bandwidth. split; [reflexivity|]. assert (X : (0 <? v_up v) && (0 <? v_down v) = true) by lia. rewrite X. cbn. repeat split.
Qed.
Lemma line_digits l g : egress_line l g -> Forall is_digit (g_up g) /\ Forall is_digit (g_down g) /\ Forall is_digit (match g_cost g with Some s => s | None => [] end).
Proof.
  intros (b & x1 & x2 & x3 & x4 & r & b' & _ & _ & _ & _ & _ & _ & _ & _ & _ & _ & _ & D3 & D4 & C). split; [exact D3|]. split; [exact D4|].
  destruct C; [constructor|assumption].
Qed.
Lemma number_nonneg d s n : 0 <= d -> Forall is_digit s -> number d s n -> 0 <= n.
Proof. intros Hd F [[_ ->]|(_ & -> & _)]; [exact Hd|now apply value_nonneg]. Qed.
Lemma says_range l g v : egress_line l g -> says g v -> 0 <= v_up v <= MAX_SPEED /\ 0 <= v_down v <= MAX_SPEED /\ 0 <= v_cost v <= 2 ^ 32 - 1 /\
  match v_net v with Some (a, n) => 0 <= a < 2 ^ 32 /\ 0 <= n <= 32 /\ a mod 2 ^ (32 - n) = 0 | None => True end /\
  match v_gw v with Some a => 0 <= a < 2 ^ 32 | None => True end.
Proof.
  intros G (_ & _ & (up & A3 & B3) & (down & A4 & B4) & (pc & A5 & B5) & N & W). pose proof (line_digits l g G) as (D1 & D2 & D3). pose proof (net_part_digits g l G) as Dn.
  apply number_nonneg in A3; [|lia|exact D1]. apply number_nonneg in A4; [|lia|exact D2]. apply number_nonneg in A5; [|lia|exact D3].
  unfold MAX_SPEED in *. change (2 ^ 32) with 4294967296 in *. split; [lia|]. split; [lia|]. split; [lia|]. split.
  - destruct (g_net g) as [[[ip ln]|]|]; [|now rewrite N|now rewrite N]. destruct N as ([a n] & -> & (x & D & E1 & E2 & E3)). cbn [fst snd] in *.
    destruct Dn as [Dn _]. pose proof (value_nonneg ln Dn). apply dotted_range in D. change (2 ^ 32) with 4294967296 in D. assert (Hp : 0 < 2 ^ (32 - n)) by (apply Z.pow_pos_nonneg; lia).
    pose proof (Z.mod_pos_bound x (2 ^ (32 - n)) Hp). pose proof (Z.mod_le x (2 ^ (32 - n)) ltac:(lia) Hp). split; [lia|]. split; [lia|].
    rewrite E3, Zminus_mod_idemp_r, Z.sub_diag. apply Z.mod_0_l. lia.
  - destruct (g_gw g) as [[|c s]|]; [now rewrite W| |now rewrite W]. destruct W as (a & -> & D). apply dotted_range in D. exact D.
Qed.
Lemma gives_range name v l : gives name v l -> 0 <= v_up v <= MAX_SPEED /\ 0 <= v_down v <= MAX_SPEED.
Proof. intros (_ & g & G & _ & _ & Sv). destruct (says_range l g v G Sv) as (H1 & H2 & _). now split. Qed.
Definition in_range (w : gwcfg) (up : bool) (b : bw) : Prop :=
  b_costs b = gw_costs_weigh w up (b_cost b) (b_up b) (b_down b) /\
  0 <= b_up b <= MAX_SPEED /\ 0 <= b_down b <= MAX_SPEED /\ 0 <= b_cost b <= 2 ^ 32 - 1 /\
  match b_net b with Some (a, n) => 0 <= a < 2 ^ 32 /\ 0 <= n <= 32 /\ a mod 2 ^ (32 - n) = 0 | None => True end /\
  match b_gw b with Some a => 0 <= a < 2 ^ 32 | None => True end.
Lemma clear_range w up : in_range w up (bw_clear w up).
Proof. unfold in_range, MAX_SPEED. cbn. repeat split; lia. Qed.
Lemma on_first_fields name f es : (forall e, fields_of (f e) = fields_of e) -> map fields_of (on_first name f es) = map fields_of es.
Proof. intros H. induction es as [|e es IH]; [reflexivity|]. cbn [on_first map]. destruct (leqb (e_name e) name); cbn [map]; [now rewrite H|now rewrite IH]. Qed.
Lemma read_line_fields w p6 l es : map fields_of (fst (read_line w p6 l es)) = map fields_of es.
Proof.
  unfold read_line. destruct (matches rx_comment l); [reflexivity|]. destruct (egress_groups (stripEols l)) as [g|]; [|reflexivity].
  destruct ((Z.of_nat (length (g_name g)) >? 16) || negb (known (g_name g) es)); [reflexivity|]. destruct (read_vals p6 g) as [v|]; [|reflexivity]. cbn [fst]. now apply on_first_fields.
Qed.
Lemma read_lines_fields w p6 ls : forall es, map fields_of (fst (read_lines w p6 ls es)) = map fields_of es.
Proof.
  induction ls as [|l ls IH]; intros es; cbn [read_lines]; [reflexivity|]. pose proof (read_line_fields w p6 l es) as R. destruct (read_line w p6 l es) as [es1 e1]. cbn [fst] in R.
  specialize (IH es1). destruct (read_lines w p6 ls es1) as [es2 e2]. cbn [fst] in *. now rewrite IH.
Qed.
Lemma on_first_in name f es e : In e (on_first name f es) -> In e es \/ exists e0, In e0 es /\ e = f e0.
Proof.
  induction es as [|e1 es IH]; [intros []|]. cbn [on_first]. destruct (leqb (e_name e1) name).
  - intros [<-|H]; [right; exists e1; split; [now left|reflexivity]|left; now right].
  - intros [<-|H]; [left; now left|]. destruct (IH H) as [K|(e0 & K & ->)]; [left; now right|right; exists e0; split; [now right|reflexivity]].
Qed.
Lemma take_range w l g v e : egress_line l g -> says g v -> in_range w (e_up e) (e_cur (take_vals w v e)).
Proof.
  intros G Sv. unfold take_vals. cbn [e_cur]. destruct ((v_up v =? 0) || (v_down v =? 0)); [apply clear_range|].
  destruct (says_range l g v G Sv) as (H1 & H2 & H3 & H4 & H5). unfold in_range. cbn. split; [reflexivity|]. repeat (split; [assumption|]). assumption.
Qed.
Lemma read_line_range w p6 l es : Forall (fun e => in_range w (e_up e) (e_cur e)) es -> Forall (fun e => in_range w (e_up e) (e_cur e)) (fst (read_line w p6 l es)).
Proof.
  intros F. unfold read_line. destruct (matches rx_comment l); [exact F|]. destruct (egress_groups (stripEols l)) as [g|] eqn:G; [|exact F].
  destruct ((Z.of_nat (length (g_name g)) >? 16) || negb (known (g_name g) es)); [exact F|]. destruct (read_vals p6 g) as [v|] eqn:V; [|exact F]. cbn [fst].
  apply egress_groups_inv in G. apply says_ok in V; [|now apply (net_part_digits g (stripEols l))].
  apply Forall_forall. intros e H. rewrite Forall_forall in F. destruct (on_first_in _ _ _ _ H) as [K|(e0 & K & ->)]; [now apply F|]. change (e_up (take_vals w v e0)) with (e_up e0). now apply (take_range w (stripEols l) g).
Qed.
Lemma read_lines_range w p6 ls : forall es, Forall (fun e => in_range w (e_up e) (e_cur e)) es -> Forall (fun e => in_range w (e_up e) (e_cur e)) (fst (read_lines w p6 ls es)).
Proof.
  induction ls as [|l ls IH]; intros es F; cbn [read_lines]; [exact F|]. pose proof (read_line_range w p6 l es F) as R. destruct (read_line w p6 l es) as [es1 e1]. cbn [fst] in R.
  specialize (IH es1 R). destruct (read_lines w p6 ls es1) as [es2 e2]. exact IH.
Qed.
Lemma finish_range w es : Forall (fun e => in_range w (e_up e) (e_cur e)) es -> Forall (fun e => in_range w (e_up e) (e_cur e)) (map (finish_if w) es).
Proof.
  intros F. apply Forall_forall. intros e H. apply in_map_iff in H. destruct H as (e0 & <- & H). rewrite Forall_forall in F. unfold finish_if. cbn [e_up e_cur].
  destruct (e_in e0); [now apply F|apply clear_range].
Qed.
Lemma poll_range w p6 s f : Forall (fun e => in_range w (e_up e) (e_cur e)) (s_ifs s) -> Forall (fun e => in_range w (e_up e) (e_cur e)) (s_ifs (fst (fst (readEgressFile w p6 s f)))).
Proof.
  intros F. assert (C : Forall (fun e => in_range w (e_up e) (e_cur e)) (map clear_if (s_ifs s))).
  { apply Forall_forall. intros e H. apply in_map_iff in H. destruct H as (e0 & <- & H). rewrite Forall_forall in F. cbn. now apply F. }
  unfold readEgressFile, outerror. destruct f as [| |t|t c]; cbn [fst s_ifs].
  - now apply finish_range.
  - now apply finish_range.
  - exact F.
  - destruct (time_eqb (s_time s) t); [exact F|]. pose proof (read_lines_range w p6 (file_lines c) _ C) as R. destruct (read_lines w p6 (file_lines c) (map clear_if (s_ifs s))) as [es err]. cbn [fst s_ifs] in *.
    now apply finish_range.
Qed.

(** ** Changes *)
Lemma net_eqb_ok a b : net_eqb a b = true <-> a = b.
Proof.
  destruct a as [[x n]|], b as [[y m]|]; cbn [net_eqb]; split; intros H; try discriminate; try reflexivity.
  - f_equal. f_equal; lia.
  - inversion H. lia.
Qed.
Lemma gw_eqb_ok a b : gw_eqb a b = true <-> a = b.
Proof.
  destruct a as [x|], b as [y|]; cbn [gw_eqb]; split; intros H; try discriminate; try reflexivity.
  - f_equal. lia.
  - inversion H. lia.
Qed.
Lemma changed_ok p c : costs_changed p c || net_changed p c || gw_changed p c = true <-> ~ same_link p c.
Proof.
  unfold costs_changed, net_changed, gw_changed, same_link.
  pose proof (net_eqb_ok (b_net p) (b_net c)) as N. pose proof (gw_eqb_ok (b_gw p) (b_gw c)) as G.
  destruct (Z.eqb_spec (b_costs p) (b_costs c)) as [E1|E1]; cbn [negb orb]; [|split; [intros _ (X & _); contradiction|reflexivity]].
  destruct (eqb (b_rn p) (b_rn c)) eqn:E2; cbn [negb orb]; [apply eqb_prop in E2|split; [intros _ (_ & X & _); rewrite X in E2; destruct (b_rn c); discriminate|reflexivity]].
  destruct (net_eqb (b_net p) (b_net c)) eqn:E3; cbn [negb orb]; [|split; [intros _ (_ & _ & X & _); apply N in X; discriminate|reflexivity]].
  destruct (eqb (b_rg p) (b_rg c)) eqn:E4; cbn [negb orb]; [apply eqb_prop in E4|split; [intros _ (_ & _ & _ & X & _); rewrite X in E4; destruct (b_rg c); discriminate|reflexivity]].
  destruct (gw_eqb (b_gw p) (b_gw c)) eqn:E5; cbn [negb]; [|split; [intros _ (_ & _ & _ & _ & X); apply G in X; discriminate|reflexivity]].
  split; [discriminate|]. intros X. exfalso. apply X. repeat split; try assumption; [now apply N|now apply G].
Qed.
Lemma finish_changed w es0 es : map fields_of es = map fields_of (map clear_if es0) ->
  (existsb e_bchg (map (finish_if w) es) = true <-> exists i e e', nth_error es0 i = Some e /\ nth_error (map (finish_if w) es) i = Some e' /\ ~ same_link (e_cur e) (e_cur e')).
Proof.
  intros F. rewrite existsb_exists. split.
  - intros (x & Hx & B). apply In_nth_error in Hx. destruct Hx as (i & Hi). pose proof Hi as Hi'. rewrite nth_error_map in Hi. destruct (nth_error es i) as [y|] eqn:Ey; [|discriminate]. cbn [option_map] in Hi. apply Some_inj in Hi. subst x.
    assert (X : nth_error (map fields_of es) i = Some (fields_of y)) by (rewrite nth_error_map, Ey; reflexivity). rewrite F, map_map, nth_error_map in X.
    destruct (nth_error es0 i) as [e|] eqn:Ee; [|discriminate]. cbn [option_map] in X. apply Some_inj in X. unfold fields_of in X. cbn in X. inversion X as [[X1 X2 X3 X4]].
    exists i, e, (finish_if w y). split; [exact Ee|]. split; [exact Hi'|]. rewrite X4. apply changed_ok. exact B.
  - intros (i & e & e' & Ee & Ei & N). exists e'. split; [now apply (nth_error_In _ i)|]. rewrite nth_error_map in Ei. destruct (nth_error es i) as [y|] eqn:Ey; [|discriminate]. cbn [option_map] in Ei. apply Some_inj in Ei. subst e'.
    assert (X : nth_error (map fields_of es) i = Some (fields_of y)) by (rewrite nth_error_map, Ey; reflexivity). rewrite F, map_map, nth_error_map, Ee in X.
    cbn [option_map] in X. apply Some_inj in X. unfold fields_of in X. cbn in X. inversion X as [[X1 X2 X3 X4]]. rewrite X4 in N. apply changed_ok in N. exact N.
Qed.

(** Proofs about the MPR selection. *)
From Verif Require Import Base Mpr MprSpec.

(** *** generalities *)
Lemma upd_eq {A} (f : nat -> A) i v : upd f i v i = v.
Proof. unfold upd. now rewrite Nat.eqb_refl. Qed.
Lemma upd_neq {A} (f : nat -> A) i v j : j <> i -> upd f i v j = f j.
Proof. intros H. unfold upd. destruct (Nat.eqb_spec j i); congruence. Qed.

Definition sumf (f : nat -> Z) (l : list nat) : Z := fold_right (fun x a => f x + a) 0 l.
Lemma sumf_ext f h l : (forall x, In x l -> f x = h x) -> sumf f l = sumf h l.
Proof. induction l as [|a l IH]; intros H; [reflexivity|]. cbn [sumf fold_right]. fold (sumf f l) (sumf h l). rewrite (H a) by now left. rewrite IH; auto. intros x Hx. apply H. now right. Qed.
Lemma sumf_le f h l : (forall x, In x l -> f x <= h x) -> sumf f l <= sumf h l.
Proof. induction l as [|a l IH]; intros H; [cbn; lia|]. cbn [sumf fold_right]. fold (sumf f l) (sumf h l). specialize (H a (or_introl eq_refl)) as Ha. assert (sumf f l <= sumf h l) by (apply IH; intros x Hx; apply H; now right). lia. Qed.
Lemma sumf_upd f l i v : NoDup l -> In i l -> sumf (upd f i v) l = sumf f l + (v - f i).
Proof.
  induction l as [|a l IH]; intros N Hi; [contradiction|]. inversion N as [|? ? N1 N2]; subst. cbn [sumf fold_right]. fold (sumf f l) (sumf (upd f i v) l).
  destruct Hi as [->|Hi].
  - rewrite upd_eq. rewrite (sumf_ext (upd f i v) f l); [lia|]. intros x Hx. apply upd_neq. intros ->. contradiction.
  - rewrite upd_neq by (intros ->; contradiction). rewrite IH by assumption. lia.
Qed.
Lemma sumf_upd_out f l i v : ~ In i l -> sumf (upd f i v) l = sumf f l.
Proof. intros H. apply sumf_ext. intros x Hx. apply upd_neq. intros ->. contradiction. Qed.
Lemma sumf_zero l : sumf (fun _ => 0) l = 0.
Proof. induction l as [|a l IH]; [reflexivity|]. cbn [sumf fold_right]. fold (sumf (fun _ => 0) l). lia. Qed.
Lemma sumf_nonneg f l : (forall x, In x l -> 0 <= f x) -> 0 <= sumf f l.
Proof. intros H. pose proof (sumf_le (fun _ => 0) f l H) as Q. assert (E : sumf (fun _ => 0) l = 0) by (clear; induction l as [|a l IH]; [reflexivity|]; cbn [sumf fold_right]; fold (sumf (fun _ => 0) l); lia). lia. Qed.
Lemma sumf_app f l1 l2 : sumf f (l1 ++ l2) = sumf f l1 + sumf f l2.
Proof. induction l1 as [|a l IH]; [reflexivity|]. cbn [app sumf fold_right]. fold (sumf f l) (sumf f (l ++ l2)). lia. Qed.

Lemma u8_small z : 0 <= z < 256 -> u8 z = z.
Proof. intros H. unfold u8. apply Z.mod_small. exact H. Qed.
Lemma u16_small z : 0 <= z < 65536 -> u16 z = z.
Proof. intros H. unfold u16. apply Z.mod_small. exact H. Qed.
Lemma u16_le z : 0 <= z -> 0 <= u16 z <= z.
Proof. intros H. unfold u16. split; [apply Z.mod_pos_bound; lia|apply Z.mod_le; lia]. Qed.

(** number of elements with a property *)
Definition cntb (p : nat -> bool) (l : list nat) : Z := sumf (fun x => if p x then 1 else 0) l.
Lemma cntb_range p l : 0 <= cntb p l <= Z.of_nat (length l).
Proof. induction l as [|a l IH]; [cbn; lia|]. cbn [cntb sumf fold_right length]. unfold cntb in IH. fold (sumf (fun x => if p x then 1 else 0) l). destruct (p a); lia. Qed.
Lemma cntb_upd p l i : NoDup l -> In i l -> p i = false -> cntb (upd p i true) l = cntb p l + 1.
Proof.
  intros N Hi F. unfold cntb. rewrite (sumf_ext (fun x => if upd p i true x then 1 else 0) (upd (fun x => if p x then 1 else 0) i 1)).
  - rewrite sumf_upd by assumption. rewrite F. lia.
  - intros x _. unfold upd. destruct (Nat.eqb x i); reflexivity.
Qed.
Lemma cntb_upd_out p l i v : ~ In i l -> cntb (upd p i v) l = cntb p l.
Proof. intros H. apply sumf_ext. intros x Hx. rewrite upd_neq; [reflexivity|]. intros ->. contradiction. Qed.
Lemma cntb_zero p l : cntb p l = 0 -> forall x, In x l -> p x = false.
Proof.
  induction l as [|a l IH]; intros H x Hx; [contradiction|]. cbn [cntb sumf fold_right] in H. fold (sumf (fun x => if p x then 1 else 0) l) in H. fold (cntb p l) in H. pose proof (cntb_range p l).
  destruct Hx as [->|Hx]; [destruct (p x); [lia|reflexivity]|]. apply IH; [destruct (p a); lia|exact Hx].
Qed.
Lemma cntb_full p l : cntb p l = Z.of_nat (length l) -> forall x, In x l -> p x = true.
Proof.
  induction l as [|a l IH]; intros H x Hx; [contradiction|]. cbn [cntb sumf fold_right length] in H. fold (sumf (fun x => if p x then 1 else 0) l) in H. fold (cntb p l) in H. pose proof (cntb_range p l).
  destruct Hx as [->|Hx]; [destruct (p x); [reflexivity|lia]|]. apply IH; [destruct (p a); lia|exact Hx].
Qed.
Lemma cntb_pos p l x : In x l -> p x = true -> 1 <= cntb p l.
Proof. intros Hx P. pose proof (cntb_range p l). destruct (Z.eq_dec (cntb p l) 0) as [E|E]; [|lia]. rewrite (cntb_zero p l E x Hx) in P. discriminate. Qed.

Section Graph.
Variable g : graph.
Hypothesis WF : wf_graph g.
Variable c : Z.
Hypothesis C1 : 1 <= c.
Hypothesis N256 : (length (g_nbrs g) < 256)%nat.
Notation n := (length (g_nbrs g)).
Notation m := (length (g_twos g)).
Notation two b := (b_two (nb g b)).
Notation sym b := (b_sym (nb g b)).

Lemma two_nbl b x : (b < n)%nat -> In x (two b) -> In b (nbl g x).
Proof. intros Hb Hx. destruct WF as (A & B & E). destruct (A b Hb) as (_ & A2). apply E; auto. Qed.
Lemma nbl_two b x : (x < m)%nat -> In b (nbl g x) -> In x (two b) /\ (b < n)%nat.
Proof. intros Hx Hb. destruct WF as (A & B & E). destruct (B x Hx) as (_ & B2). split; [apply E; auto|auto]. Qed.
Lemma two_nodup b : (b < n)%nat -> NoDup (two b).
Proof. intros H. destruct WF as (A & _). now apply A. Qed.
Lemma two_lt b x : (b < n)%nat -> In x (two b) -> (x < m)%nat.
Proof. intros H. destruct WF as (A & _). now apply A. Qed.
Lemma nbl_nodup x : (x < m)%nat -> NoDup (nbl g x).
Proof. intros H. destruct WF as (_ & A & _). now apply A. Qed.
Lemma nodup_bound l k : NoDup l -> (forall x : nat, In x l -> (x < k)%nat) -> (length l <= k)%nat.
Proof. intros N H. rewrite <- (seq_length k 0). apply NoDup_incl_length; [exact N|]. intros x Hx. apply in_seq. specialize (H x Hx). lia. Qed.
Lemma nbl_len x : (x < m)%nat -> (length (nbl g x) <= n)%nat.
Proof. intros H. apply nodup_bound; [now apply nbl_nodup|]. intros b Hb. now apply (nbl_two b x H). Qed.
Lemma two_len b : (b < n)%nat -> (length (two b) <= m)%nat.
Proof. intros H. apply nodup_bound; [now apply two_nodup|]. intros x Hx. now apply (two_lt b). Qed.

(** strict two-hop neighbors behind [b] *)
Definition sdeg (b : nat) : Z := cntb (strict g) (two b).

(** *** olsr_chosen_mpr *)
Definition D (z : Z) : Z := Z.max 0 (z - c + 1).
Definition Ds (cov : nat -> Z) (x : nat) : Z := if strict g x then D (cov x) else 0.

Lemma dec_val l : NoDup l -> forall f b, dec_nocov g l f b = f b - (if existsb (Nat.eqb b) l && sym b then 1 else 0).
Proof.
  intros N. unfold dec_nocov. induction l as [|a l IH]; intros f b; [cbn; lia|]. inversion N as [|? ? N1 N2]; subst. cbn [fold_left existsb]. rewrite IH by assumption.
  destruct (Nat.eqb_spec b a) as [->|Q].
  - assert (X : existsb (Nat.eqb a) l = false) by (apply not_true_is_false; intros X; apply existsb_exists in X; destruct X as (y & Y1 & Y2); apply Nat.eqb_eq in Y2; subst; contradiction).
    rewrite X. cbn [orb andb]. destruct (sym a); [rewrite upd_eq|]; lia.
  - cbn [orb]. destruct (sym a); [rewrite upd_neq by assumption|]; reflexivity.
Qed.

(** the part of the invariant that every single step keeps *)
Definition NC (N0 : nat -> Z) (s : mst) : Prop :=
  forall b, (b < n)%nat -> sym b = true -> m_nocov s b = N0 b - sumf (Ds (m_cov s)) (two b).

Lemma cover1_val a x : (x < m)%nat -> (strict g x = true -> 0 <= m_cov (fst a) x /\ m_cov (fst a) x + 1 < 256) -> 0 <= snd a ->
  let a' := cover1 g c a x in
  m_mpr (fst a') = m_mpr (fst a) /\ m_was (fst a') = m_was (fst a) /\
  (forall y, m_cov (fst a') y = if strict g x && Nat.eqb y x then m_cov (fst a) x + 1 else m_cov (fst a) y) /\
  0 <= snd a' <= snd a + (if strict g x then 1 else 0) /\
  forall N0, NC N0 (fst a) -> NC N0 (fst a').
Proof.
  destruct a as [s cnt]. cbn [fst snd]. intros Hx BP Q. cbv zeta. unfold cover1. destruct (strict g x) eqn:S; [|cbn [fst snd]; repeat split; auto; lia].
  destruct (BP eq_refl) as (P & B). rewrite u8_small by lia. pose proof (u16_le (cnt + 1) ltac:(lia)) as U.
  assert (DD : D (m_cov s x + 1) - D (m_cov s x) = if m_cov s x + 1 >=? c then 1 else 0) by (unfold D; destruct (Z.geb_spec (m_cov s x + 1) c); lia).
  assert (K : forall b, (b < n)%nat -> sumf (Ds (upd (m_cov s) x (m_cov s x + 1))) (two b) = sumf (Ds (m_cov s)) (two b) + (if existsb (Nat.eqb b) (nbl g x) then (if m_cov s x + 1 >=? c then 1 else 0) else 0)).
  { intros b Hb. rewrite (sumf_ext (Ds (upd (m_cov s) x (m_cov s x + 1))) (upd (Ds (m_cov s)) x (D (m_cov s x + 1)))).
    2:{ intros y _. unfold Ds, upd. destruct (Nat.eqb_spec y x) as [->|]; [rewrite S|]; reflexivity. }
    destruct (existsb (Nat.eqb b) (nbl g x)) eqn:E.
    - apply existsb_exists in E. destruct E as (b' & E1 & E2). apply Nat.eqb_eq in E2. subst b'. rewrite sumf_upd by (try apply (two_nodup b Hb); apply (nbl_two b x Hx E1)). unfold Ds at 2. rewrite S. lia.
    - rewrite sumf_upd_out; [lia|]. intros X. apply (two_nbl b x Hb) in X. apply not_true_iff_false in E. apply E. apply existsb_exists. exists b. split; [exact X|apply Nat.eqb_refl]. }
  destruct (m_cov s x + 1 >=? c) eqn:V; cbn [fst snd m_mpr m_was m_cov m_nocov andb].
  - split; [reflexivity|]. split; [reflexivity|]. split; [intros y; unfold upd; reflexivity|]. split; [exact (conj (proj1 U) (proj2 U))|].
    intros N0 H b Hb Sb. cbn [m_nocov m_cov]. rewrite K by exact Hb. rewrite dec_val by now apply nbl_nodup. rewrite Sb, andb_true_r. rewrite (H b Hb Sb). destruct (existsb (Nat.eqb b) (nbl g x)); lia.
  - split; [reflexivity|]. split; [reflexivity|]. split; [intros y; unfold upd; reflexivity|]. split; [lia|].
    intros N0 H b Hb Sb. cbn [m_nocov m_cov]. rewrite K by exact Hb. rewrite (H b Hb Sb). destruct (existsb (Nat.eqb b) (nbl g x)); lia.
Qed.

Lemma cover_fold l : NoDup l -> (forall x, In x l -> (x < m)%nat) -> forall a, (forall x, In x l -> strict g x = true -> 0 <= m_cov (fst a) x /\ m_cov (fst a) x + 1 < 256) -> 0 <= snd a ->
  let a' := fold_left (cover1 g c) l a in
  m_mpr (fst a') = m_mpr (fst a) /\ m_was (fst a') = m_was (fst a) /\
  (forall y, m_cov (fst a') y = m_cov (fst a) y + (if strict g y && existsb (Nat.eqb y) l then 1 else 0)) /\
  0 <= snd a' <= snd a + cntb (strict g) l /\
  forall N0, NC N0 (fst a) -> NC N0 (fst a').
Proof.
  induction l as [|x l IH]; intros N L a HA Q; cbv zeta; [cbn; repeat split; auto; try lia; intros y; rewrite andb_false_r; lia|].
  inversion N as [|? ? N1 N2]; subst. cbn [fold_left].
  destruct (cover1_val a x (L x (or_introl eq_refl)) (HA x (or_introl eq_refl)) Q) as (M1 & W1 & V1 & K1 & I1). set (a1 := cover1 g c a x) in *.
  destruct (IH N2 (fun y Hy => L y (or_intror Hy)) a1) as (M2 & W2 & V2 & K2 & I2); [|lia|].
  { intros y Hy Sy. rewrite V1. destruct (Nat.eqb_spec y x) as [->|_]; [contradiction|]. rewrite andb_false_r. apply HA; [now right|exact Sy]. }
  cbv zeta in *. split; [congruence|]. split; [congruence|]. split.
  - intros y. rewrite V2, V1. cbn [existsb]. destruct (Nat.eqb_spec y x) as [->|Hn]; cbn [orb].
    + assert (X : existsb (Nat.eqb x) l = false) by (apply not_true_is_false; intros X; apply existsb_exists in X; destruct X as (z & Y1 & Y2); apply Nat.eqb_eq in Y2; subst; contradiction).
      rewrite X, andb_false_r, !andb_true_r. destruct (strict g x); lia.
    + rewrite andb_false_r. reflexivity.
  - split; [|auto]. cbn [cntb sumf fold_right]. fold (sumf (fun x => if strict g x then 1 else 0) l). fold (cntb (strict g) l). lia.
Qed.

(** the whole invariant between choices *)
Definition CV (s : mst) : Prop := forall x, distance_two g x -> nbl g x <> [] -> m_cov s x = cntb (m_mpr s) (nbl g x).
Definition CN (a : mst * Z) : Prop := 0 <= snd a <= sumf (fun b => if m_mpr (fst a) b then sdeg b else 0) (all_nbrs g).
Definition J (N0 : nat -> Z) (a : mst * Z) : Prop := CV (fst a) /\ CN a /\ NC N0 (fst a).

Lemma dist_strict x : (x < m)%nat -> strict g x = true -> distance_two g x.
Proof. intros H S. split; [exact H|]. unfold strict in S. now apply negb_true_iff in S. Qed.
Lemma strict_dist x : distance_two g x -> strict g x = true.
Proof. intros (_ & H). unfold strict. now rewrite H. Qed.
Lemma existsb_in x l : existsb (Nat.eqb x) l = true <-> In x l.
Proof. rewrite existsb_exists. split; [intros (y & A & B); apply Nat.eqb_eq in B; now subst|intros H; exists x; split; [exact H|apply Nat.eqb_refl]]. Qed.
Lemma all_in b : In b (all_nbrs g) <-> (b < n)%nat.
Proof. clear. unfold all_nbrs. rewrite in_seq. lia. Qed.
Lemma all_nodup : NoDup (all_nbrs g). Proof. apply seq_NoDup. Qed.
Lemma not_all p l x : In x l -> p x = false -> cntb p l <= Z.of_nat (length l) - 1.
Proof. clear. intros H F. pose proof (cntb_range p l). destruct (Z.eq_dec (cntb p l) (Z.of_nat (length l))) as [E|E]; [|lia]. rewrite (cntb_full p l E x H) in F. discriminate. Qed.

Lemma chosen_val N0 a b : J N0 a -> (b < n)%nat -> m_mpr (fst a) b = false ->
  let a' := chosen_mpr g c a b in J N0 a' /\ m_mpr (fst a') = upd (m_mpr (fst a)) b true /\ m_was (fst a') = m_was (fst a).
Proof.
  destruct a as [s cnt]. intros (JV & JC & JN) Hb F. cbv zeta. unfold chosen_mpr. cbn [fst snd] in *. unfold CN in JC. cbn [fst snd] in JC.
  set (a0 := (mkM (upd (m_mpr s) b true) (m_was s) (m_nocov s) (m_cov s), cnt)).
  destruct (cover_fold (two b) (two_nodup b Hb) (fun x Hx => two_lt b x Hb Hx) a0) as (M & W & V & K & I).
  - intros x Hx Sx. cbn [a0 fst m_cov]. assert (Hm := two_lt b x Hb Hx). assert (Hn := two_nbl b x Hb Hx).
    rewrite (JV x (dist_strict x Hm Sx)) by (intros E; rewrite E in Hn; contradiction). pose proof (cntb_range (m_mpr s) (nbl g x)). pose proof (not_all (m_mpr s) (nbl g x) b Hn F). pose proof (nbl_len x Hm). lia.
  - cbn [a0 snd]. lia.
  - cbv zeta in *. cbn [a0 fst snd m_mpr m_was m_cov] in M, W, V, K. set (a' := fold_left (cover1 g c) (two b) a0) in *. split; [|split; [exact M|exact W]]. split; [|split].
    + intros x Dx Nx. rewrite V, M, (strict_dist x Dx). destruct Dx as (Hm & Dx'). rewrite (JV x (conj Hm Dx') Nx). cbn [andb]. destruct (existsb (Nat.eqb x) (two b)) eqn:E.
      * apply existsb_in in E. rewrite cntb_upd; [lia|now apply nbl_nodup|now apply two_nbl|exact F].
      * rewrite cntb_upd_out; [lia|]. intros X. apply (nbl_two b x Hm) in X. destruct X as (X & _). apply existsb_in in X. congruence.
    + unfold CN. rewrite M. rewrite (sumf_ext _ (upd (fun b0 => if m_mpr s b0 then sdeg b0 else 0) b (sdeg b))).
      2:{ intros y _. unfold upd. destruct (Nat.eqb_spec y b) as [->|]; reflexivity. }
      rewrite sumf_upd by (try apply all_nodup; now apply all_in). rewrite F. fold (sdeg b) in K. lia.
    + apply I. exact JN.
Qed.

Definition grows (s s' : mst) : Prop := (forall b, m_mpr s b = true -> m_mpr s' b = true) /\ m_was s' = m_was s.
Lemma grows_refl s : grows s s. Proof. split; auto. Qed.
Lemma grows_trans s1 s2 s3 : grows s1 s2 -> grows s2 s3 -> grows s1 s3.
Proof. intros (A & B) (E & F). split; [auto|congruence]. Qed.
Lemma upd_grows (f : nat -> bool) b x : f x = true -> upd f b true x = true.
Proof. clear. intros H. unfold upd. destruct (Nat.eqb x b); auto. Qed.

Lemma always_fold N0 l : NoDup l -> (forall b, In b l -> (b < n)%nat) -> forall a, J N0 a -> (forall b, In b l -> m_mpr (fst a) b = false) ->
  let a' := fold_left (fun a b => if negb (sym b) || negb (b_will (nb g b) =? 7) then a else chosen_mpr g c a b) l a in
  J N0 a' /\ m_was (fst a') = m_was (fst a) /\ forall b, m_mpr (fst a') b = m_mpr (fst a) b || (existsb (Nat.eqb b) l && (sym b && (b_will (nb g b) =? 7))).
Proof.
  induction l as [|b l IH]; intros N L a Ja F; cbv zeta; [cbn; repeat split; try apply Ja; intros b; now rewrite orb_false_r|].
  inversion N as [|? ? N1 N2]; subst. cbn [fold_left existsb]. rewrite <- negb_andb. destruct (sym b && (b_will (nb g b) =? 7)) eqn:E; cbn [negb].
  - destruct (chosen_val N0 a b Ja (L b (or_introl eq_refl)) (F b (or_introl eq_refl))) as (J1 & M1 & W1). cbv zeta in *. set (a1 := chosen_mpr g c a b) in *.
    destruct (IH N2 (fun x Hx => L x (or_intror Hx)) a1 J1) as (J2 & W2 & M2); [intros x Hx; rewrite M1, upd_neq by (intros ->; contradiction); apply F; now right|].
    cbv zeta in *. split; [exact J2|]. split; [congruence|]. intros x. rewrite M2, M1. unfold upd. destruct (Nat.eqb_spec x b) as [->|]; cbn [orb andb]; [rewrite E, !orb_true_r; reflexivity|reflexivity].
  - destruct (IH N2 (fun x Hx => L x (or_intror Hx)) a Ja) as (J2 & W2 & M2); [intros x Hx; apply F; now right|]. cbv zeta in *. split; [exact J2|]. split; [exact W2|]. intros x. rewrite M2. destruct (Nat.eqb_spec x b) as [->|]; cbn [orb andb]; [rewrite E, !andb_false_r; reflexivity|reflexivity].
Qed.

Definition wfrom (w : Z) (s s' : mst) : Prop := forall b, m_mpr s' b = true -> m_mpr s b = true \/ b_will (nb g b) = w.
Lemma wfrom_trans w s1 s2 s3 : wfrom w s1 s2 -> wfrom w s2 s3 -> wfrom w s1 s3.
Proof. intros A B b H. destruct (B b H) as [Q|Q]; [apply A; exact Q|now right]. Qed.
Lemma link_fold N0 w l : (forall b, In b l -> (b < n)%nat /\ b_will (nb g b) = w) -> forall a, J N0 a ->
  let a' := fold_left (fun a b => if m_mpr (fst a) b then a else chosen_mpr g c a b) l a in
  J N0 a' /\ grows (fst a) (fst a') /\ wfrom w (fst a) (fst a').
Proof.
  induction l as [|b l IH]; intros L a Ja; cbv zeta; [split; [exact Ja|split; [apply grows_refl|intros b H; now left]]|]. cbn [fold_left]. destruct (L b (or_introl eq_refl)) as (Lb & Wb).
  destruct (m_mpr (fst a) b) eqn:E; [apply IH; auto; intros x Hx; apply L; now right|].
  destruct (chosen_val N0 a b Ja Lb E) as (J1 & M1 & W1). cbv zeta in *. destruct (IH (fun x Hx => L x (or_intror Hx)) _ J1) as (J2 & G2 & F2). cbv zeta in *. split; [exact J2|]. split.
  - refine (grows_trans _ _ _ _ G2). split; [intros x Hx; rewrite M1; now apply upd_grows|exact W1].
  - refine (wfrom_trans _ _ _ _ _ F2). intros x Hx. rewrite M1 in Hx. unfold upd in Hx. destruct (Nat.eqb_spec x b) as [Q|Q]; [right; rewrite Q; assumption|now left].
Qed.

Lemma one_link_in w b : In b (one_link g w) -> (b < n)%nat /\ b_will (nb g b) = w /\ sym b = true.
Proof.
  unfold one_link. rewrite <- in_rev, in_flat_map. intros (x & Hx & Q). unfold all_twos in Hx. rewrite in_seq in Hx. destruct (negb (strict g x)); [contradiction|].
  destruct (nbl g x) as [|b' [|? ?]] eqn:E; try contradiction. destruct ((b_will (nb g b') =? w) && sym b') eqn:W; [|contradiction]. destruct Q as [<-|[]]. apply andb_true_iff in W. destruct W as (W & S). apply Z.eqb_eq in W.
  split; [|auto]. apply (nbl_two b' x); [lia|]. rewrite E. now left.
Qed.

(** *** olsr_find_maximum_covered *)
Lemma find_max_aux s w l : forall a, 0 <= fst a ->
  let r := fold_left (fun (a : Z * option nat) (b : nat) => let (m, r) := a in
    if negb (m_mpr s b) && (b_will (nb g b) =? w) && (m <? m_nocov s b) then (u16 (m_nocov s b), Some b) else a) l a in
  (forall b, snd r = Some b -> snd a = Some b \/ (In b l /\ m_mpr s b = false /\ b_will (nb g b) = w)) /\
  (snd r = None -> snd a = None /\ forall b, In b l -> m_mpr s b = false -> b_will (nb g b) = w -> m_nocov s b <= fst a).
Proof.
  clear. induction l as [|b l IH]; intros a Ha; cbv zeta; [cbn; split; [auto|intros ->; split; [reflexivity|contradiction]]|].
  cbn [fold_left]. destruct a as [mm r]. cbn [fst snd] in Ha. destruct (negb (m_mpr s b) && (b_will (nb g b) =? w) && (mm <? m_nocov s b)) eqn:E.
  - apply andb_true_iff in E. destruct E as (E & E3). apply andb_true_iff in E. destruct E as (E1 & E2). apply negb_true_iff in E1. apply Z.eqb_eq in E2.
    destruct (IH (u16 (m_nocov s b), Some b)) as (A & B); [cbn [fst]; apply u16_le; lia|]. cbv zeta in *. cbn [snd fst] in *. split.
    + intros b' H. destruct (A b' H) as [Q|(Q1 & Q2)]; [right|right; split; [now right|exact Q2]]. apply Some_inj in Q. subst b'. split; [now left|auto].
    + intros H. destruct (B H) as (Q & _). discriminate.
  - destruct (IH (mm, r) Ha) as (A & B). cbv zeta in *. cbn [snd fst] in *. split.
    + intros b' H. destruct (A b' H) as [Q|(Q1 & Q2)]; [now left|right; split; [now right|exact Q2]].
    + intros H. destruct (B H) as (Q1 & Q2). split; [exact Q1|]. intros b' [<-|Hb] F W; [|now apply Q2]. rewrite F in E. cbn [negb andb] in E. rewrite W, Z.eqb_refl in E. cbn [andb] in E. lia.
Qed.
Lemma find_max_some s w b : find_max g s w = Some b -> (b < n)%nat /\ m_mpr s b = false /\ b_will (nb g b) = w.
Proof. clear. intros H. destruct (find_max_aux s w (all_nbrs g) (0, None) ltac:(cbn; lia)) as (A & _). cbv zeta in A. destruct (A b H) as [Q|(Q1 & Q2)]; [discriminate|]. apply all_in in Q1. auto. Qed.
Lemma find_max_none s w : find_max g s w = None -> forall b, (b < n)%nat -> m_mpr s b = false -> b_will (nb g b) = w -> m_nocov s b <= 0.
Proof. clear. intros H b Hb. destruct (find_max_aux s w (all_nbrs g) (0, None) ltac:(cbn; lia)) as (_ & B). cbv zeta in B. destruct (B H) as (_ & Q). apply Q. now apply all_in. Qed.

Definition todo (s : mst) : Z := cntb (fun b => negb (m_mpr s b)) (all_nbrs g).
Lemma todo_upd f b : (b < n)%nat -> f b = false -> cntb (fun x => negb (upd f b true x)) (all_nbrs g) = cntb (fun x => negb (f x)) (all_nbrs g) - 1.
Proof. clear.
  intros Hb F. unfold cntb. rewrite (sumf_ext _ (upd (fun x => if negb (f x) then 1 else 0) b 0)).
  - rewrite sumf_upd by (try apply all_nodup; now apply all_in). rewrite F. cbn [negb]. lia.
  - intros x _. unfold upd. destruct (Nat.eqb x b); reflexivity.
Qed.

Lemma max_loop_val N0 total w k : forall a, J N0 a -> todo (fst a) <= Z.of_nat k ->
  exists a' fl, max_loop g c total w k a = Some (a', fl) /\ J N0 a' /\ grows (fst a) (fst a') /\ wfrom w (fst a) (fst a') /\
    (if fl then snd a' >= total else find_max g (fst a') w = None).
Proof.
  induction k as [|k IH]; intros a Ja T; cbn [max_loop]; destruct (find_max g (fst a) w) as [b|] eqn:F; try (exists a, false; split; [reflexivity|]; split; [exact Ja|]; split; [apply grows_refl|]; split; [intros b H; now left|exact F]).
  - destruct (find_max_some _ _ _ F) as (Hb & M & _). pose proof (cntb_pos (fun b => negb (m_mpr (fst a) b)) (all_nbrs g) b ltac:(now apply all_in) ltac:(cbn; now rewrite M)). unfold todo in T. lia.
  - destruct (find_max_some _ _ _ F) as (Hb & M & W). destruct (chosen_val N0 a b Ja Hb M) as (J1 & M1 & W1). cbv zeta in *. set (a1 := chosen_mpr g c a b) in *.
    assert (G1 : grows (fst a) (fst a1)) by (split; [intros x Hx; rewrite M1; now apply upd_grows|exact W1]).
    assert (F1 : wfrom w (fst a) (fst a1)) by (intros x Hx; rewrite M1 in Hx; unfold upd in Hx; destruct (Nat.eqb_spec x b) as [Q|Q]; [right; rewrite Q; assumption|now left]).
    destruct (snd a1 >=? total) eqn:E; [exists a1, true; split; [reflexivity|]; split; [exact J1|]; split; [exact G1|]; split; [exact F1|lia]|].
    destruct (IH a1 J1) as (a' & fl & E' & J' & G' & F' & R).
    { unfold todo. rewrite M1, todo_upd by assumption. unfold todo in T. lia. }
    exists a', fl. split; [exact E'|]. split; [exact J'|]. split; [now apply (grows_trans _ (fst a1))|]. split; [now apply (wfrom_trans w _ (fst a1))|exact R].
Qed.

(** nothing behind the neighbors of willingness [w] is left *)
Definition served (s : mst) (w : Z) : Prop :=
  forall b x, (b < n)%nat -> sym b = true -> b_will (nb g b) = w -> In x (two b) -> strict g x = true -> exists b', In b' (nbl g x) /\ m_mpr s b' = true.
Lemma served_grows s s' w : grows s s' -> served s w -> served s' w.
Proof. intros (G & _) H b x Hb Sb Wb Hx Sx. destruct (H b x Hb Sb Wb Hx Sx) as (b' & A & B). exists b'. auto. Qed.

Hypothesis DEG : forall x, distance_two g x -> Z.of_nat (length (nbl g x)) <= c + 1.

Lemma none_served N0 a w : J N0 a -> (forall b, (b < n)%nat -> sym b = true -> sdeg b <= N0 b) -> find_max g (fst a) w = None -> served (fst a) w.
Proof.
  intros (JV & _ & JN) HN F b x Hb Sb Wb Hx Sx. assert (Hn := two_nbl b x Hb Hx). assert (Hm := two_lt b x Hb Hx).
  destruct (m_mpr (fst a) b) eqn:M; [exists b; auto|].
  destruct (Z.eq_dec (cntb (m_mpr (fst a)) (nbl g x)) 0) as [Z0|Z0].
  - exfalso. pose proof (find_max_none _ _ F b Hb M Wb) as L. rewrite (JN b Hb Sb) in L. specialize (HN b Hb Sb).
    assert (LE : sumf (Ds (m_cov (fst a))) (two b) <= sumf (upd (fun y => if strict g y then 1 else 0) x 0) (two b)).
    { apply sumf_le. intros y Hy. assert (Hny := two_nbl b y Hb Hy). assert (Hmy := two_lt b y Hb Hy). unfold Ds, upd. destruct (Nat.eqb_spec y x) as [->|_].
      - rewrite Sx. rewrite (JV x (dist_strict x Hm Sx)) by (intros E; rewrite E in Hn; contradiction). rewrite Z0. unfold D. lia.
      - destruct (strict g y) eqn:Sy; [|lia]. rewrite (JV y (dist_strict y Hmy Sy)) by (intros E; rewrite E in Hny; contradiction). pose proof (not_all (m_mpr (fst a)) (nbl g y) b Hny M). specialize (DEG y (dist_strict y Hmy Sy)). unfold D. lia. }
    rewrite sumf_upd in LE by (try apply (two_nodup b Hb); exact Hx). rewrite Sx in LE. unfold sdeg, cntb in HN. lia.
  - destruct (existsb (m_mpr (fst a)) (nbl g x)) eqn:E; [apply existsb_exists in E; exact E|]. exfalso. apply Z0. clear - E. induction (nbl g x) as [|y l IH]; [reflexivity|]. cbn [existsb] in E. apply orb_false_iff in E. destruct E as (E1 & E2). cbn [cntb sumf fold_right]. rewrite E1. unfold cntb, sumf in IH. rewrite IH by exact E2. reflexivity.
Qed.

Lemma will_loop_val N0 total ws : (forall b, (b < n)%nat -> sym b = true -> sdeg b <= N0 b) -> forall a, J N0 a ->
  exists a', will_loop g c total ws a = Some a' /\ J N0 a' /\ grows (fst a) (fst a') /\ (snd a' >= total \/ forall w, In w ws -> served (fst a') w) /\
    (forall b, m_mpr (fst a') b = true -> m_mpr (fst a) b = true \/ In (b_will (nb g b)) ws).
Proof.
  intros HN. induction ws as [|w ws IH]; intros a Ja; cbn [will_loop]; [exists a; split; [reflexivity|]; split; [exact Ja|]; split; [apply grows_refl|]; split; [right; contradiction|auto]|].
  destruct (link_fold N0 w (one_link g w) (fun b Hb => conj (proj1 (one_link_in w b Hb)) (proj1 (proj2 (one_link_in w b Hb)))) a Ja) as (J1 & G1 & F1). cbv zeta in *. set (a1 := fold_left _ (one_link g w) a) in *.
  destruct (snd a1 >=? total) eqn:E.
  { exists a1. split; [reflexivity|]. split; [exact J1|]. split; [exact G1|]. split; [left; lia|]. intros b Hb. destruct (F1 b Hb) as [Q|Q]; [now left|right; now left]. }
  destruct (max_loop_val N0 total w n a1 J1) as (a2 & fl & E2 & J2 & G2 & F2 & R2).
  { unfold todo. pose proof (cntb_range (fun b => negb (m_mpr (fst a1) b)) (all_nbrs g)) as Q. unfold all_nbrs in Q at 3. rewrite seq_length in Q. lia. }
  rewrite E2. destruct fl.
  - exists a2. split; [reflexivity|]. split; [exact J2|]. split; [now apply (grows_trans _ (fst a1))|]. split; [now left|]. intros b Hb. destruct (F2 b Hb) as [Q|Q]; [|right; now left]. destruct (F1 b Q) as [Q'|Q']; [now left|right; now left].
  - destruct (IH a2 J2) as (a' & E' & J' & G' & S' & F'). exists a'. split; [exact E'|]. split; [exact J'|]. split; [apply (grows_trans _ (fst a1)); [exact G1|now apply (grows_trans _ (fst a2))]|]. split.
    + destruct S' as [S'|S']; [now left|right]. intros w' [<-|Hw]; [|now apply S']. apply (served_grows (fst a2)); [exact G'|]. now apply (none_served N0).
    + intros b Hb. destruct (F' b Hb) as [Q|Q]; [|right; now right]. destruct (F2 b Q) as [Q'|Q']; [|right; now left]. destruct (F1 b Q') as [Q''|Q'']; [now left|right; now left].
Qed.


(** *** counting the two-hop neighbors *)
Lemma cntb_filter p l : cntb p l = Z.of_nat (length (filter p l)).
Proof. induction l as [|a l IH]; [reflexivity|]. cbn [cntb sumf fold_right filter]. fold (sumf (fun x => if p x then 1 else 0) l). fold (cntb p l). rewrite IH. destruct (p a); cbn [length]; lia. Qed.
Lemma nodup_filter' (p : nat -> bool) l : NoDup l -> NoDup (filter p l).
Proof. induction 1 as [|a l H N IH]; [constructor|]. cbn [filter]. destruct (p a); [constructor; [rewrite filter_In; tauto|exact IH]|exact IH]. Qed.
Lemma cntb_sub p q l L : NoDup l -> (forall x, In x l -> q x = true -> In x L /\ p x = true) -> cntb q l <= cntb p L.
Proof.
  intros N H. rewrite !cntb_filter. apply inj_le. apply NoDup_incl_length; [now apply nodup_filter'|]. intros x Hx. apply filter_In in Hx. destruct Hx as (Hx & Q). apply filter_In. now apply H.
Qed.

Lemma count_two_val l : NoDup l -> (forall x, In x l -> (x < m)%nat) -> forall cc nn p, cc = cntb p (all_twos g) -> 0 <= nn -> nn + cntb (strict g) l < 65536 -> Z.of_nat m < 65536 ->
  let '(c', n', p') := count_two g l (cc, nn, p) in
  c' = cntb p' (all_twos g) /\ n' = nn + cntb (strict g) l /\ (forall x, p x = true -> p' x = true) /\ (forall x, In x l -> strict g x = true -> p' x = true).
Proof.
  unfold count_two. induction l as [|x l IH]; intros N L cc nn p Hc Hn Hs Hm; [cbn; repeat split; auto; lia|].
  inversion N as [|? ? N1 N2]; subst. cbn [fold_left]. cbn [cntb sumf fold_right] in Hs. fold (sumf (fun x => if strict g x then 1 else 0) l) in Hs. fold (cntb (strict g) l) in Hs.
  pose proof (cntb_range (strict g) l) as R. pose proof (cntb_range p (all_twos g)) as RP. unfold all_twos in RP at 3. rewrite seq_length in RP.
  assert (Hx : In x (all_twos g)) by (unfold all_twos; apply in_seq; specialize (L x (or_introl eq_refl)); lia).
  cbn [cntb sumf fold_right]. fold (sumf (fun x => if strict g x then 1 else 0) l). fold (cntb (strict g) l).
  destruct (strict g x) eqn:S; [destruct (p x) eqn:P|].
  - rewrite (u16_small (nn + 1)) by lia. specialize (IH N2 (fun y Hy => L y (or_intror Hy)) (cntb p (all_twos g)) (nn + 1) p eq_refl ltac:(lia) ltac:(lia) Hm).
    destruct (fold_left _ l _) as [[c' n'] p']. destruct IH as (A & B & E & F). split; [exact A|]. split; [lia|]. split; [exact E|]. intros y [<-|Hy] Sy; [now apply E|now apply F].
  - assert (R2 : cntb (upd p x true) (all_twos g) = cntb p (all_twos g) + 1) by (apply cntb_upd; [apply seq_NoDup|exact Hx|exact P]).
    pose proof (cntb_range (upd p x true) (all_twos g)) as R3. unfold all_twos in R3 at 3. rewrite seq_length in R3.
    rewrite (u16_small (nn + 1)), (u16_small (cntb p (all_twos g) + 1)) by lia. specialize (IH N2 (fun y Hy => L y (or_intror Hy)) (cntb p (all_twos g) + 1) (nn + 1) (upd p x true) ltac:(lia) ltac:(lia) ltac:(lia) Hm).
    destruct (fold_left _ l _) as [[c' n'] p']. destruct IH as (A & B & E & F). split; [exact A|]. split; [lia|]. split; [intros y Hy; apply E; now apply upd_grows|]. intros y [<-|Hy] Sy; [apply E; apply upd_eq|now apply F].
  - specialize (IH N2 (fun y Hy => L y (or_intror Hy)) (cntb p (all_twos g)) nn p eq_refl ltac:(lia) ltac:(lia) Hm).
    destruct (fold_left _ l _) as [[c' n'] p']. destruct IH as (A & B & E & F). split; [exact A|]. split; [lia|]. split; [exact E|]. intros y [<-|Hy] Sy; [congruence|now apply F].
Qed.

Hypothesis SMALL : Z.of_nat n * Z.of_nat m < 65536.
Hypothesis SMALLm : Z.of_nat m < 65536.
Hypothesis QUIET : forall b, (b < n)%nat -> sym b = false -> two b = [].

Lemma sdeg_range b : (b < n)%nat -> 0 <= sdeg b <= Z.of_nat m.
Proof. intros H. unfold sdeg. pose proof (cntb_range (strict g) (two b)). pose proof (two_len b H). lia. Qed.

Definition thc_step (a : mst * Z * Z * (nat -> bool) * Z) (b : nat) : mst * Z * Z * (nat -> bool) * Z :=
  let '(s, c, n, p, sum) := a in
      if negb (b_sym (nb g b)) then (mkM (m_mpr s) (m_was s) (upd (m_nocov s) b c) (m_cov s), c, n, p, sum)
      else let '(c', n', p') := count_two g (b_two (nb g b)) (c, n, p) in
           (mkM (m_mpr s) (m_was s) (upd (m_nocov s) b n') (m_cov s), c', n', p', u16 (sum + c')).
Lemma thc_fold l : NoDup l -> (forall b, In b l -> (b < n)%nat) -> forall s cc nn p sum,
  cc = cntb p (all_twos g) -> 0 <= nn -> nn + Z.of_nat (length l) * Z.of_nat m < 65536 -> 0 <= sum -> sum + Z.of_nat (length l) * Z.of_nat m < 65536 ->
  let '(s', c', n', p', sum') := fold_left thc_step l (s, cc, nn, p, sum) in
  m_mpr s' = m_mpr s /\ m_was s' = m_was s /\ m_cov s' = m_cov s /\
  (forall b, ~ In b l -> m_nocov s' b = m_nocov s b) /\ (forall b, In b l -> sym b = true -> sdeg b <= m_nocov s' b) /\
  sum + sumf (fun b => if sym b then sdeg b else 0) l <= sum'.
Proof.
  induction l as [|b l IH]; intros N L s cc nn p sum Hc Hn Hnn Hs Hss; [cbn; repeat split; auto; try lia; contradiction|].
  inversion N as [|? ? N1 N2]; subst. cbn [fold_left length] in *. cbn [sumf fold_right]. fold (sumf (fun b => if sym b then sdeg b else 0) l).
  assert (Hb : (b < n)%nat) by (apply L; now left). pose proof (sdeg_range b Hb) as SR.
  assert (LM : Z.of_nat (S (length l)) * Z.of_nat m = Z.of_nat (length l) * Z.of_nat m + Z.of_nat m) by (rewrite Nat2Z.inj_succ; ring). assert (LP : 0 <= Z.of_nat (length l) * Z.of_nat m) by (apply Z.mul_nonneg_nonneg; lia).
  unfold thc_step at 2. destruct (sym b) eqn:Sb; cbn [negb].
  - pose proof (count_two_val (two b) (two_nodup b Hb) (fun x Hx => two_lt b x Hb Hx) (cntb p (all_twos g)) nn p eq_refl Hn) as CT. fold (sdeg b) in CT. specialize (CT ltac:(lia) SMALLm).
    destruct (count_two g (two b) (cntb p (all_twos g), nn, p)) as [[c' n'] p']. destruct CT as (C2 & C3 & C4 & C5).
    assert (GE : sdeg b <= c'). { rewrite C2. unfold sdeg. apply cntb_sub; [now apply two_nodup|]. intros x Hx Sx. split; [unfold all_twos; apply in_seq; pose proof (two_lt b x Hb Hx); lia|now apply C5]. }
    assert (LEm : c' <= Z.of_nat m). { rewrite C2. pose proof (cntb_range p' (all_twos g)) as Q. unfold all_twos in Q at 3. rewrite seq_length in Q. lia. }
    rewrite (u16_small (sum + c')) by lia.
    specialize (IH N2 (fun y Hy => L y (or_intror Hy)) (mkM (m_mpr s) (m_was s) (upd (m_nocov s) b n') (m_cov s)) c' n' p' (sum + c') C2 ltac:(lia) ltac:(lia) ltac:(lia) ltac:(lia)).
    destruct (fold_left thc_step l _) as [[[[s' c''] n''] p''] sum']. cbn [m_mpr m_was m_cov m_nocov] in IH. destruct IH as (A1 & A2 & A3 & A4 & A5 & A6). split; [exact A1|]. split; [exact A2|]. split; [exact A3|]. split; [|split].
    + intros y Hy. rewrite A4 by (intros X; apply Hy; now right). apply upd_neq. intros ->. apply Hy. now left.
    + intros y [<-|Hy] Sy; [|now apply A5]. rewrite A4 by assumption. rewrite upd_eq. lia.
    + lia.
  - specialize (IH N2 (fun y Hy => L y (or_intror Hy)) (mkM (m_mpr s) (m_was s) (upd (m_nocov s) b (cntb p (all_twos g))) (m_cov s)) (cntb p (all_twos g)) nn p sum eq_refl Hn ltac:(lia) Hs ltac:(lia)).
    destruct (fold_left thc_step l _) as [[[[s' c''] n''] p''] sum']. cbn [m_mpr m_was m_cov m_nocov] in IH. destruct IH as (A1 & A2 & A3 & A4 & A5 & A6). split; [exact A1|]. split; [exact A2|]. split; [exact A3|]. split; [|split].
    + intros y Hy. rewrite A4 by (intros X; apply Hy; now right). apply upd_neq. intros ->. apply Hy. now left.
    + intros y [<-|Hy] Sy; [congruence|now apply A5].
    + lia.
Qed.
Lemma thc_val s : let (s', total) := two_hop_count g s in
  m_mpr s' = m_mpr s /\ m_was s' = m_was s /\ m_cov s' = m_cov s /\ (forall b, (b < n)%nat -> sym b = true -> sdeg b <= m_nocov s' b) /\ sumf sdeg (all_nbrs g) <= total.
Proof.
  unfold two_hop_count. change (fun (a : mst * Z * Z * (nat -> bool) * Z) (b : nat) => _) with thc_step.
  assert (LA : length (all_nbrs g) = n) by (unfold all_nbrs; apply seq_length).
  pose proof (thc_fold (all_nbrs g) all_nodup (fun b Hb => proj1 (all_in b) Hb) s 0 0 (fun _ => false) 0) as T. rewrite LA in T.
  assert (Z0 : 0 = cntb (fun _ => false) (all_twos g)) by (clear; induction (all_twos g) as [|a l IH]; [reflexivity|]; cbn [cntb sumf fold_right] in *; unfold cntb, sumf in IH; lia).
  specialize (T Z0 ltac:(lia) ltac:(lia) ltac:(lia) ltac:(lia)). destruct (fold_left thc_step (all_nbrs g) (s, 0, 0, fun _ => false, 0)) as [[[[s' c'] n'] p'] sum']. destruct T as (A1 & A2 & A3 & A4 & A5 & A6).
  split; [exact A1|]. split; [exact A2|]. split; [exact A3|]. split; [intros b Hb; apply A5; now apply all_in|].
  rewrite (sumf_ext sdeg (fun b => if sym b then sdeg b else 0)); [lia|]. intros b Hb. apply all_in in Hb. destruct (sym b) eqn:Sb; [reflexivity|]. unfold sdeg. rewrite (QUIET b Hb Sb). reflexivity.
Qed.

(** *** before and after *)
Lemma clear_cov_val l : forall s, let s' := fold_left (fun (s : mst) (x : nat) => mkM (m_mpr s) (m_was s) (m_nocov s) (upd (m_cov s) x 0)) l s in
  m_mpr s' = m_mpr s /\ m_was s' = m_was s /\ (forall x, m_cov s' x = if existsb (Nat.eqb x) l then 0 else m_cov s x).
Proof.
  induction l as [|y l IH]; intros s; cbv zeta; [repeat split; auto|]. cbn [fold_left existsb]. destruct (IH (mkM (m_mpr s) (m_was s) (m_nocov s) (upd (m_cov s) y 0))) as (A & B & E). cbv zeta in *. cbn [m_mpr m_was m_cov] in *. split; [exact A|]. split; [exact B|].
  intros x. rewrite E. unfold upd. destruct (Nat.eqb x y); cbn [orb]; [destruct (existsb (Nat.eqb x) l)|]; reflexivity.
Qed.
Lemma clear_fold l : forall s, let s' := fold_left (fun (s : mst) (b : nat) =>
    let s1 := if m_mpr s b then mkM (upd (m_mpr s) b false) (upd (m_was s) b true) (m_nocov s) (m_cov s) else s in
    fold_left (fun (s : mst) (x : nat) => mkM (m_mpr s) (m_was s) (m_nocov s) (upd (m_cov s) x 0)) (two b) s1) l s in
  (forall b, m_mpr s' b = m_mpr s b && negb (existsb (Nat.eqb b) l)) /\ (forall b, m_was s' b = m_was s b || (m_mpr s b && existsb (Nat.eqb b) l)) /\
  (forall x, m_cov s' x = if existsb (fun b => existsb (Nat.eqb x) (two b)) l then 0 else m_cov s x).
Proof.
  induction l as [|a l IH]; intros s; cbv zeta; [cbn; repeat split; intros; rewrite ?andb_true_r, ?andb_false_r, ?orb_false_r; reflexivity|].
  cbn [fold_left existsb]. set (s1 := if m_mpr s a then _ else s). set (s2 := fold_left _ (two a) s1). destruct (clear_cov_val (two a) s1) as (A & B & E). cbv zeta in *. fold s2 in A, B, E.
  destruct (IH s2) as (A2 & B2 & E2). cbv zeta in *.
  assert (M1 : forall b, m_mpr s1 b = m_mpr s b && negb (Nat.eqb b a)). { intros b. unfold s1. destruct (m_mpr s a) eqn:Q; cbn [m_mpr]; unfold upd; destruct (Nat.eqb_spec b a) as [->|]; cbn [negb]; rewrite ?andb_true_r, ?andb_false_r; auto. }
  assert (W1 : forall b, m_was s1 b = m_was s b || (m_mpr s b && Nat.eqb b a)). { intros b. unfold s1. destruct (m_mpr s a) eqn:Q; cbn [m_was]; unfold upd; destruct (Nat.eqb_spec b a) as [->|]; rewrite ?Q; cbn [andb]; rewrite ?andb_false_r, ?orb_false_r, ?orb_true_r; auto. }
  assert (V1 : m_cov s1 = m_cov s) by (unfold s1; destruct (m_mpr s a); reflexivity).
  split; [|split].
  - intros b. rewrite A2, A, M1, negb_orb, andb_assoc. reflexivity.
  - intros b. rewrite B2, B, A, W1, M1. destruct (m_was s b), (m_mpr s b), (Nat.eqb b a), (existsb (Nat.eqb b) l); reflexivity.
  - intros x. rewrite E2, E, V1. destruct (existsb (Nat.eqb x) (two a)); cbn [orb]; [destruct (existsb _ l)|]; reflexivity.
Qed.
Lemma clear_val s : let s' := clear_mprs g s in
  (forall b, (b < n)%nat -> m_mpr s' b = false) /\ (forall b, (b < n)%nat -> m_was s' b = m_was s b || m_mpr s b) /\
  (forall b x, (b < n)%nat -> In x (two b) -> m_cov s' x = 0).
Proof.
  cbv zeta. unfold clear_mprs. destruct (clear_fold (all_nbrs g) s) as (A & B & E). cbv zeta in *.
  assert (IN : forall b, (b < n)%nat -> existsb (Nat.eqb b) (all_nbrs g) = true) by (intros b Hb; apply existsb_in; now apply all_in).
  split; [|split].
  - intros b Hb. rewrite A, (IN b Hb). apply andb_false_r.
  - intros b Hb. rewrite B, (IN b Hb), andb_true_r. reflexivity.
  - intros b x Hb Hx. rewrite E. replace (existsb _ (all_nbrs g)) with true; [reflexivity|]. symmetry. apply existsb_exists. exists b. split; [now apply all_in|now apply existsb_in].
Qed.

(** the selection before the optimisation *)
Lemma select_val s : exists s', select g c s = Some s' /\ CV s' /\ forall x b, distance_two g x -> In b (nbl g x) -> willing g b -> exists b', In b' (nbl g x) /\ m_mpr s' b' = true.
Proof.
  unfold select. destruct (clear_val s) as (C2 & _ & C4). cbv zeta in *. set (s0 := clear_mprs g s) in *. pose proof (thc_val s0) as T. destruct (two_hop_count g s0) as [s1 total]. destruct T as (T1 & T2 & T3 & T4 & T5).
  assert (J0 : J (m_nocov s1) (s1, 0)).
  { split; [|split].
    - intros x Dx Nx. cbn [fst]. destruct (nbl g x) as [|b l] eqn:E; [congruence|]. destruct (nbl_two b x (proj1 Dx)) as (X & Y); [rewrite E; now left|]. rewrite T3, (C4 b x Y X). symmetry. rewrite <- E.
      assert (Q : forall y, In y (nbl g x) -> m_mpr s1 y = false) by (intros y Hy; rewrite T1; apply C2; apply (nbl_two y x (proj1 Dx) Hy)). clear - Q. induction (nbl g x) as [|y l' IH]; [reflexivity|]. cbn [cntb sumf fold_right]. rewrite (Q y) by now left. unfold cntb, sumf in IH. rewrite IH; [reflexivity|]. intros z Hz. apply Q. now right.
    - unfold CN. cbn [fst snd]. split; [lia|]. apply sumf_nonneg. intros b Hb. apply all_in in Hb. pose proof (sdeg_range b Hb). destruct (m_mpr s1 b); lia.
    - intros b Hb Sb. cbn [fst]. rewrite (sumf_ext _ (fun _ => 0)); [|intros x Hx; unfold Ds; rewrite T3, (C4 b x Hb Hx); unfold D; destruct (strict g x); [apply Z.max_l; lia|reflexivity]]. rewrite sumf_zero, Z.sub_0_r. reflexivity. }
  destruct (always_fold (m_nocov s1) (all_nbrs g) all_nodup (fun b Hb => proj1 (all_in b) Hb) (s1, 0) J0) as (J1 & W1 & M1).
  { intros b Hb. cbn [fst]. rewrite T1. apply C2. now apply all_in. }
  cbv zeta in *. fold (add_always g c s1) in J1, W1, M1. destruct (will_loop_val (m_nocov s1) total [6; 5; 4; 3; 2; 1] T4 (add_always g c s1) J1) as (a' & E & J' & G' & S' & _).
  rewrite E. cbn [option_map]. exists (fst a'). split; [reflexivity|]. split; [apply J'|]. intros x b Dx Hb (Sb & Wb).
  destruct (nbl_two b x (proj1 Dx) Hb) as (X & Hn). assert (Sx := strict_dist x Dx).
  destruct (m_mpr (fst a') b) eqn:M; [exists b; auto|]. destruct S' as [S'|S'].
  - exfalso. destruct J' as (_ & (K1 & K2) & _).
    assert (P : 1 <= sdeg b) by (unfold sdeg; now apply (cntb_pos _ _ x)).
    assert (LE : sumf (fun b0 => if m_mpr (fst a') b0 then sdeg b0 else 0) (all_nbrs g) <= sumf (upd sdeg b 0) (all_nbrs g)).
    { apply sumf_le. intros y Hy. apply all_in in Hy. unfold upd. destruct (Nat.eqb_spec y b) as [->|]; [rewrite M; lia|]. pose proof (sdeg_range y Hy). destruct (m_mpr (fst a') y); lia. }
    rewrite sumf_upd in LE by (try apply all_nodup; now apply all_in). lia.
  - destruct (Z.eq_dec (b_will (nb g b)) 7) as [W7|W7].
    + exfalso. destruct G' as (G' & _). assert (Q : m_mpr (fst (add_always g c s1)) b = true). { rewrite M1, Sb, W7. replace (existsb (Nat.eqb b) (all_nbrs g)) with true by (symmetry; apply existsb_in; now apply all_in). cbn [fst andb Z.eqb Pos.eqb]. apply orb_true_r. } rewrite (G' b Q) in M. discriminate.
    + apply (S' (b_will (nb g b))) with (b := b); auto. cbn [In]. lia.
Qed.

End Graph.

(** *** the optimisation keeps what is needed *)
Section Opt.
Variable g : graph.
Variable c : Z.
Lemma opt_inner w l : forall s, let s' := fold_left (fun (s : mst) (b : nat) =>
    if negb (b_will (nb g b) =? w) then s
    else if m_mpr s b then
      if existsb (fun x => strict g x && (m_cov s x <=? c)) (b_two (nb g b)) then s
      else mkM (upd (m_mpr s) b false) (m_was s) (m_nocov s) (m_cov s)
    else s) l s in
  m_cov s' = m_cov s /\ m_was s' = m_was s /\ (forall b, m_mpr s' b = true -> m_mpr s b = true) /\
  (forall b, m_mpr s b = true -> (b_will (nb g b) <> w \/ existsb (fun x => strict g x && (m_cov s x <=? c)) (b_two (nb g b)) = true) -> m_mpr s' b = true).
Proof.
  induction l as [|a l IH]; intros s; cbv zeta; [repeat split; auto|]. cbn [fold_left].
  set (s1 := if negb (b_will (nb g a) =? w) then s else _).
  assert (Q : m_cov s1 = m_cov s /\ m_was s1 = m_was s /\ (forall b, m_mpr s1 b = true -> m_mpr s b = true) /\
    (forall b, m_mpr s b = true -> (b_will (nb g b) <> w \/ existsb (fun x => strict g x && (m_cov s x <=? c)) (b_two (nb g b)) = true) -> m_mpr s1 b = true)).
  { unfold s1. destruct (Z.eqb_spec (b_will (nb g a)) w) as [W|W]; cbn [negb]; [|repeat split; auto]. destruct (m_mpr s a) eqn:M; [|repeat split; auto]. destruct (existsb _ (b_two (nb g a))) eqn:E; [repeat split; auto|]. cbn [m_cov m_was m_mpr]. split; [reflexivity|]. split; [reflexivity|]. split.
    - intros b. unfold upd. destruct (Nat.eqb b a); [discriminate|auto].
    - intros b Hb [H|H]; rewrite upd_neq; auto; intros X; rewrite X in H; congruence. }
  destruct Q as (Q1 & Q2 & Q3 & Q4). destruct (IH s1) as (A & B & E & F). cbv zeta in *. split; [congruence|]. split; [congruence|]. split; [auto|]. intros b Hb H. apply F; [now apply Q4|]. rewrite Q1. exact H.
Qed.
Lemma opt_val s : let s' := optimize g c s in
  m_cov s' = m_cov s /\ m_was s' = m_was s /\ (forall b, m_mpr s' b = true -> m_mpr s b = true) /\
  (forall b, m_mpr s b = true -> ((b_will (nb g b) < 1 \/ 6 < b_will (nb g b)) \/ exists x, In x (b_two (nb g b)) /\ strict g x = true /\ m_cov s x <= c) -> m_mpr s' b = true).
Proof.
  cbv zeta. unfold optimize.
  assert (G : forall ws, (forall w, In w ws -> 1 <= w <= 6) -> forall s, let s' := fold_left (fun (s : mst) w => fold_left (fun (s : mst) (b : nat) =>
    if negb (b_will (nb g b) =? w) then s
    else if m_mpr s b then
      if existsb (fun x => strict g x && (m_cov s x <=? c)) (b_two (nb g b)) then s
      else mkM (upd (m_mpr s) b false) (m_was s) (m_nocov s) (m_cov s)
    else s) (all_nbrs g) s) ws s in
    m_cov s' = m_cov s /\ m_was s' = m_was s /\ (forall b, m_mpr s' b = true -> m_mpr s b = true) /\
    (forall b, m_mpr s b = true -> ((b_will (nb g b) < 1 \/ 6 < b_will (nb g b)) \/ existsb (fun x => strict g x && (m_cov s x <=? c)) (b_two (nb g b)) = true) -> m_mpr s' b = true)).
  { induction ws as [|w ws IH]; intros HW s0; cbv zeta; [repeat split; auto|]. cbn [fold_left]. destruct (opt_inner w (all_nbrs g) s0) as (A & B & E & F). cbv zeta in *. set (s1 := fold_left _ (all_nbrs g) s0) in *.
    destruct (IH (fun x Hx => HW x (or_intror Hx)) s1) as (A2 & B2 & E2 & F2). cbv zeta in *. split; [congruence|]. split; [congruence|]. split; [auto|]. intros b Hb H. specialize (HW w (or_introl eq_refl)). apply F2.
    - apply F; [exact Hb|]. destruct H as [H|H]; [left; lia|now right].
    - rewrite A. exact H. }
  destruct (G [1; 2; 3; 4; 5; 6] ltac:(cbn; intros w Hw; lia) s) as (A & B & E & F). cbv zeta in *. split; [exact A|]. split; [exact B|]. split; [exact E|].
  intros b Hb H. apply F; [exact Hb|]. destruct H as [H|(x & X1 & X2 & X3)]; [now left|right]. apply existsb_exists. exists x. split; [exact X1|]. rewrite X2. cbn [andb]. lia.
Qed.
Lemma check_fold l : NoDup l -> forall s r0, let a := fold_left (fun (a : mst * bool) (b : nat) => let (s, r) := a in
    if m_was s b then (mkM (m_mpr s) (upd (m_was s) b false) (m_nocov s) (m_cov s), r || negb (m_mpr s b)) else a) l (s, r0) in
  m_mpr (fst a) = m_mpr s /\ m_cov (fst a) = m_cov s /\ snd a = r0 || existsb (fun b => m_was s b && negb (m_mpr s b)) l /\ (forall b, m_was (fst a) b = m_was s b && negb (existsb (Nat.eqb b) l)).
Proof.
  induction l as [|a l IH]; intros N s r0; cbv zeta; [cbn; rewrite orb_false_r; repeat split; auto; intros b; now rewrite andb_true_r|]. inversion N as [|? ? N1 N2]; subst.
  cbn [fold_left existsb]. destruct (m_was s a) eqn:W.
  - destruct (IH N2 (mkM (m_mpr s) (upd (m_was s) a false) (m_nocov s) (m_cov s)) (r0 || negb (m_mpr s a))) as (A & B & E & F). cbv zeta in *. cbn [m_mpr m_was m_cov] in *. split; [exact A|]. split; [exact B|]. split.
    + rewrite E. cbn [andb]. rewrite <- orb_assoc. f_equal. f_equal. clear - N1. induction l as [|y l IH]; [reflexivity|]. cbn [existsb]. rewrite upd_neq by (intros ->; apply N1; now left). f_equal. apply IH. intros X. apply N1. now right.
    + intros b. rewrite F. unfold upd. destruct (Nat.eqb b a); cbn [orb negb andb]; [rewrite andb_false_r|]; reflexivity.
  - destruct (IH N2 s r0) as (A & B & E & F). cbv zeta in *. split; [exact A|]. split; [exact B|]. split; [exact E|]. intros b. rewrite F. destruct (Nat.eqb_spec b a) as [->|]; cbn [orb negb]; [rewrite W|]; reflexivity.
Qed.
Lemma check_val s : m_mpr (fst (check_changes g s)) = m_mpr s /\ snd (check_changes g s) = existsb (fun b => m_was s b && negb (m_mpr s b)) (all_nbrs g) /\
  (forall b, (b < length (g_nbrs g))%nat -> m_was (fst (check_changes g s)) b = false).
Proof.
  destruct (check_fold (all_nbrs g) (all_nodup g) s false) as (A & B & E & F). cbv zeta in *. fold (check_changes g s) in A, E, F. split; [exact A|]. split; [exact E|]. intros b Hb. rewrite F. replace (existsb (Nat.eqb b) (all_nbrs g)) with true; [apply andb_false_r|]. symmetry. apply existsb_in. now apply all_in.
Qed.
End Opt.

From Verif Require Import Base Compare AvlSpec CompareProofs RtBest RtBestSpec.
From Coq Require Import Permutation.

Lemma memcmp_lex a : forall b, length a = length b -> (memcmp a b < 0 <-> lexlt a b).
Proof.
  induction a as [|x a IH]; intros [|y b] L; cbn [length] in L; try discriminate; cbn [memcmp].
  - split; [lia|inversion 1].
  - destruct (Z.ltb_spec x y) as [Q|Q]; [split; [constructor; lia|lia]|].
    destruct (Z.gtb_spec x y) as [Q'|Q']; [split; [lia|inversion 1; lia]|].
    assert (x = y) by lia. subst y. rewrite (IH b) by lia. split; [now constructor|]. inversion 1; subst; [lia|assumption].
Qed.

Section Best.
Variable scale : Z -> Z.
Variable isgw : list Z -> bool.
Variable n : nat.
Local Notation cm := (cmp_rtp scale isgw).
Local Notation ec := (eff_cost scale isgw).
Local Notation ok p := (length (rp_orig p) = n).

Lemma cmp_pref p q : ok p -> ok q -> (cm p q = true <-> preferred ec p q).
Proof.
  intros Hp Hq. unfold cmp_rtp, preferred. pose proof (memcmp_lex (rp_orig p) (rp_orig q) ltac:(congruence)) as M. cbv zeta.
  destruct (Z.ltb_spec (ec p) (ec q)) as [A|A]; [split; [intros _; left; lia|auto]|].
  destruct (Z.gtb_spec (ec p) (ec q)) as [B|B]; [split; [discriminate|intros; lia]|].
  destruct (Z.ltb_spec (rp_hops p) (rp_hops q)) as [C|C]; [split; [intros _; right; lia|auto]|].
  destruct (Z.gtb_spec (rp_hops p) (rp_hops q)) as [D|D]; [split; [discriminate|intros; lia]|].
  destruct (Z.ltb_spec (memcmp (rp_orig p) (rp_orig q)) 0) as [F|F].
  - split; [intros _; right; split; [lia|right; split; [lia|now apply M]]|auto].
  - split; [discriminate|]. intros [G|(_ & [G|(_ & G)])]; try lia. apply M in G. lia.
Qed.
Lemma lexlt_irrefl a : ~ lexlt a a.
Proof. induction a; inversion 1; subst; [lia|auto]. Qed.
Lemma lexlt_trans a : forall b c, lexlt a b -> lexlt b c -> lexlt a c.
Proof. induction a; intros b c H1 H2; inversion H1; subst; inversion H2; subst; try (apply lex_here; lia); apply lex_next; eauto. Qed.
Lemma lexlt_total a : forall b, length a = length b -> lexlt a b \/ a = b \/ lexlt b a.
Proof.
  induction a as [|x a IH]; intros [|y b] L; cbn [length] in L; try discriminate; [auto|].
  destruct (Z.lt_trichotomy x y) as [Q|[Q|Q]]; [left; now constructor| |right; right; now constructor].
  subst y. destruct (IH b ltac:(lia)) as [Q|[Q|Q]]; [left; now constructor|subst; auto|right; right; now constructor].
Qed.
Lemma pref_irrefl c p : ~ preferred c p p.
Proof. intros [Q|(_ & [Q|(_ & Q)])]; try lia. now apply lexlt_irrefl in Q. Qed.
Lemma pref_trans c p q r : preferred c p q -> preferred c q r -> preferred c p r.
Proof.
  unfold preferred. intros [A|(A & [A'|(A' & A'')])] [B|(B & [B'|(B' & B'')])]; try (left; lia); right; (split; [lia|]); try (left; lia).
  right. split; [lia|]. eapply lexlt_trans; eauto.
Qed.
Lemma pref_total c p q : length (rp_orig p) = length (rp_orig q) -> preferred c p q \/ (rp_orig p = rp_orig q) \/ preferred c q p.
Proof.
  unfold preferred. intros L. destruct (lexlt_total _ _ L) as [Q|[Q|Q]]; [|auto|];
  destruct (Z.lt_trichotomy (c p) (c q)) as [A|[A|A]]; try (left; lia); try (right; right; lia);
  destruct (Z.lt_trichotomy (rp_hops p) (rp_hops q)) as [B|[B|B]]; try (left; right; lia); try (right; right; right; lia).
  - left; right; split; [lia|]. right. auto.
  - right; right; right; split; [lia|]. right. auto.
Qed.

Lemma fold_best l : forall p, Forall (fun q => ok q) (p :: l) -> NoDup (map rp_orig (p :: l)) ->
  is_best ec (p :: l) (fold_left (fun b q => if cm q b then q else b) l p).
Proof.
  induction l as [|q l IH]; intros p F N.
  - cbn. split; [now left|]. intros r [<-|[]]. apply pref_irrefl.
  - cbn [fold_left]. pose proof (Forall_inv F) as Fp. pose proof (Forall_inv (Forall_inv_tail F)) as Fq. pose proof (Forall_inv_tail (Forall_inv_tail F)) as Fl.
    cbn [map] in N. apply NoDup_cons_iff in N. destruct N as (Np & N). apply NoDup_cons_iff in N. destruct N as (Nq & Nl).
    destruct (cm q p) eqn:C.
    + destruct (IH q) as (I1 & I2); [now constructor|cbn [map]; now constructor|]. set (b := fold_left _ l q) in *.
      split; [destruct I1; [now right; left|now right; right]|]. intros r [<-|Hr]; [|apply I2; exact Hr].
      intros Q. apply (cmp_pref q p Fq Fp) in C. apply (I2 q); [now left|]. now apply pref_trans with p.
    + destruct (IH p) as (I1 & I2); [now constructor|cbn [map]; constructor; [intros X; apply Np; now right|exact Nl]|]. set (b := fold_left _ l p) in *.
      split; [destruct I1; [now left|now right; right]|]. intros r [<-|[<-|Hr]]; [apply I2; now left| |apply I2; now right].
      intros Q. assert (NC : ~ preferred ec q p) by (intros X; apply (cmp_pref q p Fq Fp) in X; congruence).
      destruct (pref_total ec q p ltac:(congruence)) as [X|[X|X]]; [auto|apply Np; left; auto|].
      apply (I2 p); [now left|]. now apply pref_trans with q.
Qed.
Lemma rt_best_ok ps : one_each n ps -> ps <> [] -> exists p, rt_best scale isgw ps = Some p /\ is_best ec ps p.
Proof. intros (N & F) NE. destruct ps as [|p l]; [congruence|]. cbn [rt_best]. eexists. split; [reflexivity|]. now apply fold_best. Qed.
Lemma best_unique c ps p q : one_each n ps -> is_best c ps p -> is_best c ps q -> p = q.
Proof.
  intros (N & F) (P1 & P2) (Q1 & Q2). rewrite Forall_forall in F. destruct (pref_total c p q) as [X|[X|X]].
  - rewrite (F p P1), (F q Q1). reflexivity.
  - now apply Q2 in X.
  - clear - N P1 Q1 X. induction ps as [|r ps IH]; [destruct P1|]. cbn [map] in N. apply NoDup_cons_iff in N. destruct N as (N1 & N2).
    destruct P1 as [P1|P1], Q1 as [Q1|Q1]; subst; auto; exfalso; apply N1; [rewrite X|rewrite <- X]; now apply in_map.
  - now apply P2 in X.
Qed.
End Best.

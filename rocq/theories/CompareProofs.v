From Verif Require Import Base Avl AvlSpec Compare.

Lemma comp_etx_ok : comp_ok comp_etx.
Proof.
  unfold comp_etx. constructor.
  - intros a. destruct (Z.ltb_spec a a), (Z.gtb_spec a a); lia.
  - intros a b. destruct (Z.ltb_spec a b), (Z.gtb_spec a b), (Z.ltb_spec b a), (Z.gtb_spec b a); lia.
  - intros a b c. destruct (Z.ltb_spec a b), (Z.gtb_spec a b), (Z.ltb_spec b c), (Z.gtb_spec b c), (Z.ltb_spec a c), (Z.gtb_spec a c); lia.
Qed.
Lemma comp_etx_zero a b : comp_etx a b = 0 <-> a = b.
Proof. unfold comp_etx. destruct (Z.ltb_spec a b), (Z.gtb_spec a b); lia. Qed.

(* pulling back an order along a function *)
Lemma comp_map {A B} (f : A -> B) (c : B -> B -> Z) : comp_ok c -> comp_ok (fun x y => c (f x) (f y)).
Proof. intros [R S T]. constructor; intros; auto; eapply T; eauto. Qed.

Lemma ip4cmp_etx le a b : ip4cmp le a b = comp_etx (s_addr le a) (s_addr le b).
Proof. unfold ip4cmp, comp_etx. destruct (Z.gtb_spec (s_addr le a) (s_addr le b)), (Z.ltb_spec (s_addr le a) (s_addr le b)); lia. Qed.

Lemma comp_ext {A} (c d : A -> A -> Z) : (forall x y, c x y = d x y) -> comp_ok d -> comp_ok c.
Proof. intros E [R S T]. constructor; intros; rewrite ?E in *; auto. eapply T; eauto. Qed.

Lemma ip4cmp_ok le : comp_ok (ip4cmp le).
Proof. apply (comp_ext _ _ (ip4cmp_etx le)). apply (comp_map (s_addr le)), comp_etx_ok. Qed.

Definition bytes (n : nat) (l : list Z) := length l = n /\ Forall (fun b => 0 <= b < 256) l.

Lemma be_val_acc l : forall acc, be_val acc l = acc * 256 ^ Z.of_nat (length l) + be_val 0 l.
Proof.
  induction l as [|b l IH]; intros acc; cbn [be_val length].
  - change (256 ^ Z.of_nat 0) with 1. lia.
  - rewrite IH. rewrite (IH (0 * 256 + b)). rewrite Nat2Z.inj_succ, Z.pow_succ_r by lia. ring.
Qed.
Lemma be_val_range l : Forall (fun b => 0 <= b < 256) l -> 0 <= be_val 0 l < 256 ^ Z.of_nat (length l).
Proof.
  induction l as [|b l IH]; intros F; cbn [be_val length].
  - change (256 ^ Z.of_nat 0) with 1. lia.
  - inversion F as [|? ? F1 F2]; subst. specialize (IH F2). rewrite be_val_acc, Nat2Z.inj_succ, Z.pow_succ_r by lia.
    set (p := 256 ^ Z.of_nat (length l)) in *. nia.
Qed.
Lemma be_val_inj a : forall b, length a = length b -> Forall (fun b => 0 <= b < 256) a -> Forall (fun b => 0 <= b < 256) b ->
  be_val 0 a = be_val 0 b -> a = b.
Proof.
  induction a as [|x a IH]; intros [|y b] L Fa Fb H; cbn [length] in L; try discriminate; [reflexivity|].
  inversion Fa as [|? ? A1 A2]; inversion Fb as [|? ? B1 B2]; subst. cbn [be_val] in H.
  rewrite be_val_acc in H. rewrite (be_val_acc b) in H.
  assert (L' : length a = length b) by lia. rewrite L' in H.
  pose proof (be_val_range a A2) as Ra. pose proof (be_val_range b B2) as Rb. rewrite L' in Ra.
  set (p := 256 ^ Z.of_nat (length b)) in *.
  assert (x = y) by nia. subst y. f_equal. apply IH; auto. lia.
Qed.

Lemma ntohl_inj n a b : bytes n a -> bytes n b -> ntohl_val a = ntohl_val b -> a = b.
Proof. intros (La & Fa) (Lb & Fb) H. apply be_val_inj; auto. congruence. Qed.
Lemma s_addr_inj le n a b : bytes n a -> bytes n b -> s_addr le a = s_addr le b -> a = b.
Proof.
  intros Ba Bb H. unfold s_addr in H. destruct le; [|now apply (ntohl_inj n)].
  assert (R : forall l, bytes n l -> bytes n (rev l)).
  { intros l (L & F). split; [now rewrite rev_length|]. rewrite Forall_forall in *. intros x Hx. apply F. now apply in_rev in Hx. }
  apply (ntohl_inj n) in H; auto. rewrite <- (rev_involutive a), <- (rev_involutive b). now rewrite H.
Qed.
Lemma ip4cmp_zero le n a b : bytes n a -> bytes n b -> (ip4cmp le a b = 0 <-> a = b).
Proof.
  intros Ba Bb. rewrite ip4cmp_etx, comp_etx_zero. split; [|intros ->; reflexivity]. now apply s_addr_inj with n.
Qed.

Lemma memcmp_refl a : memcmp a a = 0.
Proof. induction a as [|x a IH]; cbn [memcmp]; [reflexivity|]. destruct (Z.ltb_spec x x), (Z.gtb_spec x x); auto; lia. Qed.
Lemma memcmp_sym a : forall b, memcmp a b < 0 <-> memcmp b a > 0.
Proof.
  induction a as [|x a IH]; intros [|y b]; cbn [memcmp]; try lia.
  destruct (Z.ltb_spec x y), (Z.gtb_spec x y), (Z.ltb_spec y x), (Z.gtb_spec y x); try lia; apply IH.
Qed.
Lemma memcmp_zero a : forall b, length a = length b -> (memcmp a b = 0 <-> a = b).
Proof.
  induction a as [|x a IH]; intros [|y b] L; cbn [length memcmp] in *; try discriminate; [tauto|].
  destruct (Z.ltb_spec x y), (Z.gtb_spec x y); try lia.
  - split; [lia|intros X; injection X; lia].
  - split; [lia|intros X; injection X; lia].
  - assert (x = y) by lia. subst. rewrite IH by lia. split; [intros ->; reflexivity|intros X; injection X; auto].
Qed.
Lemma memcmp_trans a : forall b c, length a = length b -> length b = length c ->
  memcmp a b <= 0 -> memcmp b c <= 0 -> memcmp a c <= 0.
Proof.
  induction a as [|x a IH]; intros [|y b] [|z c] L1 L2; cbn [length memcmp] in *; try lia.
  destruct (Z.ltb_spec x y), (Z.gtb_spec x y), (Z.ltb_spec y z), (Z.gtb_spec y z), (Z.ltb_spec x z), (Z.gtb_spec x z); try lia.
  apply IH; lia.
Qed.

(** Addresses of one family: byte lists of the given length. *)
Definition addr (n : nat) : Type := { l : list Z | length l = n }.
Definition abytes {n} (a : addr n) : list Z := proj1_sig a.

Lemma memcmp_ok n : comp_ok (fun a b : addr n => memcmp (abytes a) (abytes b)).
Proof.
  constructor.
  - intros a. apply memcmp_refl.
  - intros a b. apply memcmp_sym.
  - intros [a La] [b Lb] [c Lc]. cbn. apply memcmp_trans; congruence.
Qed.

Lemma lex_ok {A} (c : A -> A -> Z) : comp_ok c ->
  comp_ok (fun p q : A * Z => if negb (c (fst p) (fst q) =? 0) then c (fst p) (fst q) else comp_etx (snd p) (snd q)).
Proof.
  intros CO. pose proof CO as [R S T]. pose proof comp_etx_ok as [R' S' T'].
  assert (Zs : forall a b, c a b = 0 -> c b a = 0).
  { intros a b H. destruct (Z.lt_total (c b a) 0) as [X|[X|X]]; [apply S in X; lia|exact X|].
    assert (Y : c b a > 0) by lia. apply S in Y. lia. }
  constructor.
  - intros [a x]. cbn [fst snd]. rewrite R. cbn [Z.eqb negb]. apply R'.
  - intros [a x] [b y]. cbn [fst snd].
    destruct (Z.eqb_spec (c a b) 0) as [H|H]; destruct (Z.eqb_spec (c b a) 0) as [H'|H']; cbn [negb].
    + apply S'.
    + apply Zs in H. tauto.
    + apply Zs in H'. tauto.
    + apply S.
  - intros [a x] [b y] [d z]. cbn [fst snd].
    destruct (Z.eqb_spec (c a b) 0) as [H1|H1]; destruct (Z.eqb_spec (c b d) 0) as [H2|H2];
      destruct (Z.eqb_spec (c a d) 0) as [H3|H3]; cbn [negb]; intros U V.
    + eapply T'; eauto.
    + apply (T a b d); lia.
    + exfalso. assert (X : c b d <= 0) by lia. assert (Y : c d b <= 0).
      { apply (T d a b); [apply Zs in H3; lia|lia]. }
      assert (W : c b d < 0) by lia. apply S in W. lia.
    + apply (T a b d); lia.
    + exfalso. assert (Y : c b a <= 0).
      { apply (T b d a); [lia|apply Zs in H3; lia]. }
      assert (W : c a b < 0) by lia. apply S in W. lia.
    + apply (T a b d); lia.
    + exfalso. assert (X : c b d < 0) by lia. 
      assert (Y : c d b <= 0) by (apply (T d a b); [apply Zs in H3; lia|lia]). apply S in X. lia.
    + apply (T a b d); lia.
Qed.

Lemma comp_ipv4_prefix_ok : comp_ok comp_ipv4_prefix.
Proof.
  eapply (comp_ext _ (fun p q : list Z * Z => if negb (comp_etx (ntohl_val (fst p)) (ntohl_val (fst q)) =? 0)
    then comp_etx (ntohl_val (fst p)) (ntohl_val (fst q)) else comp_etx (snd p) (snd q))).
  - intros [a x] [b y]. unfold comp_ipv4_prefix, comp_etx. cbn [fst snd].
    destruct (Z.ltb_spec (ntohl_val a) (ntohl_val b)), (Z.gtb_spec (ntohl_val a) (ntohl_val b)); try lia; cbn [Z.eqb negb]; reflexivity.
  - apply (lex_ok (fun a b => comp_etx (ntohl_val a) (ntohl_val b))). apply (comp_map ntohl_val), comp_etx_ok.
Qed.
Lemma comp_ipv4_prefix_zero a x b y : bytes 4 a -> bytes 4 b -> (comp_ipv4_prefix (a, x) (b, y) = 0 <-> (a, x) = (b, y)).
Proof.
  intros Ba Bb. unfold comp_ipv4_prefix. cbn [fst snd].
  destruct (Z.ltb_spec (ntohl_val a) (ntohl_val b)), (Z.gtb_spec (ntohl_val a) (ntohl_val b)); try lia.
  - split; [lia|]. intros E. injection E as E1 E2. subst. lia.
  - split; [lia|]. intros E. injection E as E1 E2. subst. lia.
  - assert (E : ntohl_val a = ntohl_val b) by lia. apply (ntohl_inj 4) in E; auto. subst b.
    destruct (Z.ltb_spec x y), (Z.gtb_spec x y); try lia.
    + split; [lia|]. intros E. injection E as E2. lia.
    + split; [lia|]. intros E. injection E as E2. lia.
    + assert (x = y) by lia. subst. tauto.
Qed.

Lemma comp_ipv6_prefix_ok n : comp_ok (fun p q : addr n * Z => comp_ipv6_prefix (abytes (fst p), snd p) (abytes (fst q), snd q)).
Proof.
  eapply comp_ext; [|apply (lex_ok _ (memcmp_ok n))].
  intros [a x] [b y]. unfold comp_ipv6_prefix, comp_etx. cbn [fst snd]. reflexivity.
Qed.
Lemma comp_ipv6_prefix_zero a x b y : length a = length b -> (comp_ipv6_prefix (a, x) (b, y) = 0 <-> (a, x) = (b, y)).
Proof.
  intros L. unfold comp_ipv6_prefix. cbn [fst snd]. pose proof (memcmp_zero a b L) as M.
  destruct (Z.eqb_spec (memcmp a b) 0) as [E|E]; cbn [negb].
  - apply M in E. subst b. destruct (Z.ltb_spec x y), (Z.gtb_spec x y); try lia.
    + split; [lia|]. intros E. injection E as E2. lia.
    + split; [lia|]. intros E. injection E as E2. lia.
    + assert (x = y) by lia. subst. tauto.
  - split; [tauto|]. intros X. injection X as X1 X2. subst. rewrite memcmp_refl in E. lia.
Qed.

(** On a little-endian host the IPv4 order is not the numeric order. *)
Lemma ip4_order_depends : exists a b, bytes 4 a /\ bytes 4 b /\ ip4cmp true a b < 0 /\ ip4cmp false a b > 0.
Proof.
  exists [10;0;1;1], [10;0;0;2]. repeat split; try reflexivity; repeat constructor; lia.
Qed.

(** Bounds-checked reading from a byte buffer.  An access outside the buffer is
    undefined behaviour: [None].  Numbers are in network byte order (the
    ntohs/ntohl conversions of the code are folded into the readers). *)
From Verif Require Import Base.

(** the size of a buffer, as in src/lq_packet.h:139-160 *)
Definition blen (b : list Z) : Z := Z.of_nat (length b).
(** bytes of a buffer, src/lq_packet.h:139-200 *)
Definition rdn (b : list Z) (i n : Z) : option (list Z) :=
  if (0 <=? i) && (0 <=? n) && (i + n <=? blen b) then Some (firstn (Z.to_nat n) (skipn (Z.to_nat i) b)) else None.
(** ntohs and ntohl, src/lq_packet.h:146-156 *)
Definition be (l : list Z) : Z := fold_left (fun a x => a * 256 + x) l 0.
(** pkt_get_u8, src/lq_packet.h:139-144 *)
Definition rd8 (b : list Z) (i : Z) : option Z := option_map be (rdn b i 1).
(** pkt_get_u16, src/lq_packet.h:145-150 *)
Definition rd16 (b : list Z) (i : Z) : option Z := option_map be (rdn b i 2).
(** pkt_get_u32, src/lq_packet.h:151-156 *)
Definition rd32 (b : list Z) (i : Z) : option Z := option_map be (rdn b i 4).

(** the bytes of a buffer from [i] on, [n] of them; no counterpart; bytes as read by
    src/lq_packet.h:139-200 *)
Definition slice (b : list Z) (i n : Z) : list Z := firstn (Z.to_nat n) (skipn (Z.to_nat i) b).

Lemma rdn_some b i n : 0 <= i -> 0 <= n -> i + n <= blen b -> rdn b i n = Some (slice b i n).
Proof. intros A B C. unfold rdn. replace ((0 <=? i) && (0 <=? n) && (i + n <=? blen b)) with true by lia. reflexivity. Qed.
Lemma rdn_inv b i n l : rdn b i n = Some l -> 0 <= i /\ 0 <= n /\ i + n <= blen b /\ l = slice b i n.
Proof.
  unfold rdn. destruct ((0 <=? i) && (0 <=? n) && (i + n <=? blen b)) eqn:E; [|discriminate]. intros H. apply Some_inj in H. subst.
  repeat split; try lia.
Qed.
Lemma rdn_none b i n : blen b < i + n -> rdn b i n = None.
Proof. intros H. unfold rdn. replace ((0 <=? i) && (0 <=? n) && (i + n <=? blen b)) with false by lia. reflexivity. Qed.
Lemma blen_app a b : blen (a ++ b) = blen a + blen b.
Proof. unfold blen. rewrite app_length. lia. Qed.
Lemma blen_nonneg b : 0 <= blen b. Proof. unfold blen. lia. Qed.
Lemma slice_app a b i n : 0 <= i -> i + n <= blen a -> slice (a ++ b) i n = slice a i n.
Proof.
  intros Hi H. unfold slice. destruct (Z_le_gt_dec n 0) as [N|N].
  - replace (Z.to_nat n) with 0%nat by lia. reflexivity.
  - unfold blen in H. rewrite skipn_app. replace (Z.to_nat i - length a)%nat with 0%nat by lia. cbn [skipn].
    rewrite firstn_app. replace (Z.to_nat n - length (skipn (Z.to_nat i) a))%nat with 0%nat by (rewrite skipn_length; lia).
    cbn [firstn]. now rewrite app_nil_r.
Qed.
Lemma rdn_app a b i n : i + n <= blen a -> rdn (a ++ b) i n = rdn a i n.
Proof.
  intros H. unfold rdn. rewrite blen_app. pose proof (blen_nonneg b).
  destruct ((0 <=? i) && (0 <=? n)) eqn:E; cbn [andb]; [|reflexivity].
  replace (i + n <=? blen a + blen b) with true by lia. replace (i + n <=? blen a) with true by lia.
  f_equal. apply slice_app; lia.
Qed.
Lemma slice_length b i n : 0 <= i -> 0 <= n -> i + n <= blen b -> blen (slice b i n) = n.
Proof. intros A B C. unfold blen, slice in *. rewrite firstn_length, skipn_length. lia. Qed.
Lemma slice_slice b i n j k : 0 <= i -> 0 <= j -> 0 <= k -> j + k <= n -> slice (slice b i n) j k = slice b (i + j) k.
Proof.
  intros A B C D. unfold slice. rewrite skipn_firstn_comm, firstn_firstn.
  replace (Z.to_nat (i + j)) with (Z.to_nat j + Z.to_nat i)%nat by lia.
  replace (Init.Nat.min (Z.to_nat k) (Z.to_nat n - Z.to_nat j)) with (Z.to_nat k) by lia.
  f_equal. generalize (Z.to_nat j) as p, (Z.to_nat i) as q. clear. intros p q. revert b. induction q as [|q IH]; intros b.
  - now rewrite Nat.add_0_r.
  - rewrite Nat.add_succ_r. destruct b as [|x b]; [now rewrite !skipn_nil|]. cbn [skipn]. apply IH.
Qed.
Lemma be_range l : Forall (fun x => 0 <= x < 256) l -> 0 <= be l < 256 ^ Z.of_nat (length l).
Proof.
  assert (G : forall l a k, Forall (fun x => 0 <= x < 256) l -> 0 <= a < k ->
    0 <= fold_left (fun a x => a * 256 + x) l a < k * 256 ^ Z.of_nat (length l)).
  { clear. induction l as [|x l IH]; intros a k F H.
    - cbn [fold_left length]. change (256 ^ Z.of_nat 0) with 1. lia.
    - inversion F as [|? ? F1 F2]; subst. cbn [fold_left length].
      replace (k * 256 ^ Z.of_nat (S (length l))) with ((k * 256) * 256 ^ Z.of_nat (length l)).
      + apply IH; [exact F2|]. lia.
      + rewrite Nat2Z.inj_succ, Z.pow_succ_r by lia. lia. }
  intros F. specialize (G l 0 1 F ltac:(lia)). rewrite Z.mul_1_l in G. exact G.
Qed.

Lemma rdn_at pre mid post i n : i = blen pre -> n = blen mid -> rdn (pre ++ mid ++ post) i n = Some mid.
Proof.
  intros -> ->. rewrite rdn_some; [|apply blen_nonneg|apply blen_nonneg|rewrite !blen_app; pose proof (blen_nonneg post); lia].
  f_equal. unfold slice, blen. rewrite !Nat2Z.id. rewrite skipn_app, skipn_all, Nat.sub_diag. cbn [app skipn].
  rewrite firstn_app, firstn_all, Nat.sub_diag. cbn [firstn]. apply app_nil_r.
Qed.

From Coq Require Import String.
From Verif Require Import Base Regex ConfScan ConfScanSpec ConfScanProofs ConfScanFileProofs ConfSum ConfSumSpec.

Definition added (s : list Z) : list (list Z) := map snd (filter (fun p => adds (fst p)) (lexemes (length s) s)).
Lemma added_step t s kd : t <> [] -> munch rules (t ++ s) 0 None = Some (length t, kd) -> added (t ++ s) = (if adds kd then [t] else []) ++ added s.
Proof. intros N M. unfold added. rewrite (lexemes_step t s kd N M). cbn [filter fst]. destruct (adds kd); reflexivity. Qed.
Lemma item_adds t k kd : item t k -> tok_of (kd, t) = Some k -> adds kd = true.
Proof. intros I T. destruct kd; cbn [tok_of] in T; try discriminate; try reflexivity. apply Some_inj in T. subst k. inversion I. Qed.
Lemma closed_adds t k kd : closed t k -> tok_of (kd, t) = Some k -> adds kd = true.
Proof. intros I T. destruct kd; cbn [tok_of] in T; try discriminate; try reflexivity. apply Some_inj in T. subst k. inversion I. Qed.
Lemma texts_ok s xs : texts s xs -> added s = xs.
Proof.
  induction 1 as [|c s xs C F I|s xs F I|s xs F I|l s xs N F I|t k s xs C F I|t k s xs It E F I].
  - reflexivity.
  - change (c :: s) with ([c] ++ s). rewrite (added_step [c] s KBlank); [exact I|discriminate|]. destruct C as [<-|[<-|[]]]; apply one_munch; vm_compute; reflexivity.
  - change (10 :: s) with ([10] ++ s). rewrite (added_step [10] s KNewline); [exact I|discriminate|apply one_munch; vm_compute; reflexivity].
  - change (13 :: 10 :: s) with ([13; 10] ++ s). rewrite (added_step [13; 10] s KNewline); [exact I|discriminate|apply crnl_munch].
  - replace (35 :: l ++ 10 :: s) with ((35 :: l ++ [10]) ++ s) by (cbn [app]; now rewrite <- app_assoc). rewrite (added_step _ s KComment); [exact I|discriminate|now apply comment_munch].
  - destruct (closed_munch t k s C) as (kd & M & T & _). rewrite (added_step t s kd (closed_nonempty t k C) M), (closed_adds t k kd C T), I. reflexivity.
  - destruct (item_munch t k s It E) as (kd & M & T & _). rewrite (added_step t s kd (item_nonempty t k It) M), (item_adds t k kd It T), I. reflexivity.
Qed.

(** * The hash *)
Definition w32 (h : Z) : Prop := 0 <= h < 2 ^ 32.
Lemma u32_w x : w32 (u32 x). Proof. unfold w32, u32. apply Z.mod_pos_bound. lia. Qed.
Lemma lxor_w a b : w32 a -> w32 b -> w32 (Z.lxor a b).
Proof.
  intros A B. unfold w32 in *. split; [apply Z.lxor_nonneg; lia|]. destruct (Z.eq_dec (Z.lxor a b) 0) as [->|N]; [lia|].
  assert (P : 0 <= Z.lxor a b) by (apply Z.lxor_nonneg; lia). apply Z.log2_lt_pow2; [lia|].
  assert (X : forall c, 0 <= c < 2 ^ 32 -> Z.log2 c < 32) by (intros c C; destruct (Z.eq_dec c 0) as [->|]; [cbn; lia|]; apply Z.log2_lt_pow2; lia).
  pose proof (Z.log2_lxor a b ltac:(lia) ltac:(lia)). pose proof (X a A). pose proof (X b B). lia.
Qed.
Lemma addshr_w n h : w32 (addshr n h). Proof. apply u32_w. Qed.
Lemma xorshl_w n h : w32 h -> w32 (xorshl n h). Proof. intros H. apply lxor_w; [exact H|apply u32_w]. Qed.
Lemma avalanche_w h : w32 (avalanche h). Proof. apply addshr_w. Qed.
Lemma blocks_ok n : forall data h, (4 * n <= length data)%nat -> exists r h', blocks n data h = Some (r, h') /\ data = firstn (4 * n) data ++ r.
Proof.
  induction n as [|n IH]; intros data h L.
  - exists data, h. split; reflexivity.
  - destruct data as [|a [|b [|c [|d data]]]]; try (cbn [length] in L; lia). cbn [blocks]. cbv zeta. cbn [length] in L.
    destruct (IH data (addshr 11 (Z.lxor (shl (u32 (h + get16 a b)) 16) (Z.lxor (shl (get16 c d) 11) (u32 (h + get16 a b)))))) as (r & h' & E & D); [lia|].
    exists r, h'. split; [exact E|]. replace (4 * S n)%nat with (S (S (S (S (4 * n))))) by lia. cbn [firstn app]. now rewrite <- D.
Qed.
Lemma hash_ok t h : t <> [] -> ascii_end t -> exists h', hash_inc (t ++ [0]) (Z.of_nat (length t)) h = Some h' /\ w32 h'.
Proof.
  intros N A. unfold hash_inc. assert (P : 0 < Z.of_nat (length t)) by (destruct t; [congruence|cbn; lia]). replace (Z.of_nat (length t) <=? 0) with false by lia.
  set (n := Z.to_nat (Z.of_nat (length t) / 4)).
  assert (Hn : (4 * n <= length t)%nat /\ Z.of_nat (length t) mod 4 = Z.of_nat (length t) - 4 * Z.of_nat n) by (unfold n; lia). clearbody n. destruct Hn as [H1 H2].
  destruct (blocks_ok n (t ++ [0]) h) as (r & h1 & E & D); [rewrite app_length; cbn; lia|]. rewrite E.
  assert (L : length r = (length t + 1 - 4 * n)%nat). { apply (f_equal (@length Z)) in D. rewrite !app_length, firstn_length, app_length in D. cbn [length] in D. lia. }
  assert (T : exists h2, tailcase (Z.of_nat (length t) mod 4) r h1 = Some h2).
  { rewrite H2. unfold tailcase. destruct (Z.of_nat (length t) - 4 * Z.of_nat n =? 3) eqn:R3.
    - destruct r as [|a [|b [|c [|d [|e r]]]]]; try (cbn [length] in L; lia).
      assert (C : last t 0 = c).
      { destruct (exists_last N) as (t0 & x & ->). rewrite last_last. set (f := firstn (4 * n) _) in D. clearbody f. change [a; b; c; d] with ([a; b; c] ++ [d]) in D. rewrite app_assoc in D.
        apply app_inj_tail in D as [D _]. change [a; b; c] with ([a; b] ++ [c]) in D. rewrite app_assoc in D. apply app_inj_tail in D as [_ D]. exact D. }
      unfold ascii_end in A. rewrite C in A. unfold schar. replace (c <? 128) with true by lia. replace (c <? 0) with false by lia. now eexists.
    - destruct (Z.of_nat (length t) - 4 * Z.of_nat n =? 2) eqn:R2.
      + destruct r as [|a [|b r]]; try (cbn [length] in L; lia). now eexists.
      + destruct r as [|a r]; [cbn [length] in L; lia|]. now eexists. }
  destruct T as (h2 & ->). cbn [option_map]. eexists. split; [reflexivity|apply avalanche_w].
Qed.
Lemma sum_adds_ok ts : forall h, w32 h -> Forall ascii_end ts -> exists h', sum_adds h ts = Some h' /\ w32 h'.
Proof.
  induction ts as [|t ts IH]; intros h W F; [now exists h|]. inversion F; subst. cbn [sum_adds]. destruct t as [|c t]; [cbn [sum_add]; now apply IH|].
  unfold sum_add. destruct (hash_ok (c :: t) h) as (h1 & E & W1); [discriminate|assumption|]. rewrite E.
  destruct (hash_ok [10] h1) as (h2 & E2 & W2); [discriminate|unfold ascii_end; cbn; lia|]. change ([10] ++ [0]) with [10; 0] in E2. cbn [length] in E2. change (Z.of_nat 1) with 1 in E2. rewrite E2. now apply IH.
Qed.
(** * Every file *)
Lemma words_end : forallb (fun w => let c := last (str (fst w)) 0 in (0 <=? c) && (c <? 128)) words = true.
Proof. vm_compute. reflexivity. Qed.
Lemma last_in (P : Z -> Prop) t : Forall P t -> t <> [] -> P (last t 0).
Proof. intros F N. destruct (exists_last N) as (a & c & ->). rewrite last_last. apply Forall_app in F as [_ F]. now inversion F. Qed.
Lemma added_ends s : Forall ascii_end (added s).
Proof.
  unfold added. apply Forall_forall. intros t I. apply in_map_iff in I as ([k t'] & E & I). cbn [snd] in E. subst t'. apply filter_In in I as [I A]. cbn [fst] in A.
  apply lexemes_in in I as (F & _). apply first_in in F as (r & R & L). apply rules_kind in R. unfold ascii_end. destruct k; try discriminate; subst.
  - apply chr_ok in L. subst t. cbn. lia.
  - apply chr_ok in L. subst t. cbn. lia.
  - apply chr_ok in L. subst t. cbn. lia.
  - apply string_ok in L as (l & -> & _). change (34 :: l ++ [34]) with ((34 :: l) ++ [34]). rewrite last_last. lia.
  - apply hexnum_ok in L as (l & -> & N & F). assert (X : hexdigit (last (48 :: 120 :: l) 0)).
    { destruct (exists_last N) as (a & c & ->). change (48 :: 120 :: a ++ [c]) with ((48 :: 120 :: a) ++ [c]). rewrite last_last. apply Forall_app in F as [_ F]. now inversion F. }
    unfold hexdigit, digit in X. lia.
  - destruct (float_chars t L) as [F I]. assert (X : dd (last t 0)) by (apply last_in; [exact F|intros ->; inversion I]). unfold dd, digit in X. lia.
  - apply ip4_ok in L. destruct (ip4_chars t L) as [F I]. assert (X : dd (last t 0)) by (apply last_in; [exact F|intros ->; inversion I]). unfold dd, digit in X. lia.
  - apply ip6_ok in L. destruct (ip6_chars t L) as [F I]. assert (X : hh (last t 0)) by (apply last_in; [exact F|intros ->; inversion I]). unfold hh, hexdigit, digit in X. lia.
  - destruct R as (w & W & ->). apply lit_ok in L. subst t. pose proof words_end as K. rewrite forallb_forall in K. specialize (K _ W). cbv zeta in K. cbn [fst] in K. lia.
  - apply digits_ok in L as [N F]. assert (X : digit (last t 0)) by (now apply last_in). unfold digit in X. lia.
  - apply lit_ok in L. subst t. destruct b; vm_compute; split; congruence.
Qed.
(** * The text *)
Lemma hexdigits_ok n : forall h, 0 <= h < 16 ^ Z.of_nat n -> length (hexdigits n h) = n /\ Forall (fun c => digit c \/ 97 <= c <= 102) (hexdigits n h) /\ number 16 (hexdigits n h) = h.
Proof.
  induction n as [|n IH]; intros h H; [cbn in *; split; [reflexivity|split; [constructor|unfold number; cbn; lia]]|]. cbn [hexdigits].
  rewrite Nat2Z.inj_succ, Z.pow_succ_r in H by lia. destruct (IH (h / 16)) as (L & F & V).
  { split; [apply Z.div_pos; lia|apply Z.div_lt_upper_bound; lia]. }
  assert (M : 0 <= h mod 16 < 16) by (apply Z.mod_pos_bound; lia). set (d := h mod 16) in *. assert (HD : h = 16 * (h / 16) + d) by (unfold d; apply Z.div_mod; lia). clearbody d.
  assert (C : (digit (hexchar d) \/ 97 <= hexchar d <= 102) /\ hexvalue (hexchar d) = d).
  { unfold hexchar, hexvalue, digit. destruct (d <? 10) eqn:D; [replace (48 + d <=? 57) with true by lia; lia|]. replace (87 + d <=? 57) with false by lia. replace (87 + d <=? 70) with false by lia. lia. }
  destruct C as [C1 C2]. split; [rewrite app_length, L; cbn; lia|]. split; [apply Forall_app; split; [exact F|constructor; [exact C1|constructor]]|].
  unfold number in *. rewrite fold_left_app, V. cbn [fold_left]. rewrite C2. lia.
Qed.

(** Proofs about the plugin arprefresh. *)
From Verif Require Import Base ArpRefresh ArpRefreshSpec.

Lemma ld1_in p k : 0 <= k < Z.of_nat (length p) -> ld1 p k = Some (nth (Z.to_nat k) p 0).
Proof. intros H. unfold ld1. replace ((0 <=? k) && (k <? Z.of_nat (length p))) with true by lia. reflexivity. Qed.
Lemma ld1_out p k : 0 <= k -> Z.of_nat (length p) <= k -> ld1 p k = None.
Proof. intros H K. unfold ld1. replace ((0 <=? k) && (k <? Z.of_nat (length p))) with false by lia. reflexivity. Qed.
Lemma ld2_in p k : 0 <= k -> k + 1 < Z.of_nat (length p) -> ld2 p k = Some (two p k).
Proof. intros H K. unfold ld2. rewrite !ld1_in by lia. reflexivity. Qed.
Lemma ld2_out p k : 0 <= k -> Z.of_nat (length p) <= k + 1 -> ld2 p k = None.
Proof. intros H K. unfold ld2. rewrite (ld1_out p (k + 1)) by lia. destruct (ld1 p k); reflexivity. Qed.
Lemma ihl_land p : Z.land (nth 14 p 0) 15 = ihl p.
Proof. unfold ihl. change 15 with (Z.ones 4). now rewrite Z.land_ones by lia. Qed.
Lemma frag_land v : Z.land v 8191 = v mod 8192.
Proof. change 8191 with (Z.ones 13). now rewrite Z.land_ones by lia. Qed.
Lemma xLdH f k r a x p v : ld2 p k = Some v -> exec (S f) (LdH k :: r) a x p = exec f r v x p. Proof. intros E. cbn [exec]. now rewrite E. Qed.
Lemma xLdH0 f k r a x p : ld2 p k = None -> exec (S f) (LdH k :: r) a x p = 0. Proof. intros E. cbn [exec]. now rewrite E. Qed.
Lemma xLdB f k r a x p v : ld1 p k = Some v -> exec (S f) (LdB k :: r) a x p = exec f r v x p. Proof. intros E. cbn [exec]. now rewrite E. Qed.
Lemma xLdB0 f k r a x p : ld1 p k = None -> exec (S f) (LdB k :: r) a x p = 0. Proof. intros E. cbn [exec]. now rewrite E. Qed.
Lemma xLdx f k r a x p v : ld1 p k = Some v -> exec (S f) (LdxMsh k :: r) a x p = exec f r a (4 * Z.land v 15) p. Proof. intros E. cbn [exec]. now rewrite E. Qed.
Lemma xInd f k r a x p v : ld2 p (x + k) = Some v -> exec (S f) (LdhInd k :: r) a x p = exec f r v x p. Proof. intros E. cbn [exec]. now rewrite E. Qed.
Lemma xInd0 f k r a x p : ld2 p (x + k) = None -> exec (S f) (LdhInd k :: r) a x p = 0. Proof. intros E. cbn [exec]. now rewrite E. Qed.
Lemma xJeq f k jt jf r a x p : exec (S f) (Jeq k jt jf :: r) a x p = exec f (skipn (if a =? k then jt else jf) r) a x p. Proof. reflexivity. Qed.
Lemma xJset f k jt jf r a x p : exec (S f) (Jset k jt jf :: r) a x p = exec f (skipn (if Z.land a k =? 0 then jf else jt) r) a x p. Proof. reflexivity. Qed.
Theorem filter_ok p : (olsr_frame p -> filter_len p = 42) /\ (~ olsr_frame p -> filter_len p = 0).
Proof.
  unfold filter_len, code. cbn [length]. unfold olsr_frame.
  assert (IH : 0 <= ihl p) by (unfold ihl; apply Z.mod_pos_bound; lia). set (h := ihl p) in *. assert (HL := ihl_land p). fold h in HL. clearbody h.
  set (L := Z.of_nat (length p)).
  destruct (Z.lt_ge_cases L 14) as [L1|L1].
  { rewrite xLdH0 by (apply ld2_out; subst L; lia). split; [|reflexivity]. intros (_ & _ & _ & _ & Y & _). exfalso. clear - Y L1. lia. }
  rewrite (xLdH _ _ _ _ _ _ (two p 12)) by (apply ld2_in; subst L; lia). rewrite xJeq. destruct (two p 12 =? 2048) eqn:E1; cbn [skipn].
  2:{ apply Z.eqb_neq in E1. split; [|reflexivity]. intros (X & _). congruence. }
  destruct (Z.lt_ge_cases L 24) as [L2|L2].
  { rewrite xLdB0 by (apply ld1_out; subst L; lia). split; [|reflexivity]. intros (_ & _ & _ & _ & Y & _). exfalso. clear - Y L2. lia. }
  rewrite (xLdB _ _ _ _ _ _ (nth 23 p 0)) by (apply ld1_in; subst L; lia). rewrite xJeq. destruct (nth 23 p 0 =? 17) eqn:E2; cbn [skipn].
  2:{ apply Z.eqb_neq in E2. split; [|reflexivity]. intros (_ & X & _). congruence. }
  rewrite (xLdH _ _ _ _ _ _ (two p 20)) by (apply ld2_in; subst L; lia). rewrite xJset, frag_land. destruct (two p 20 mod 8192 =? 0) eqn:E3; cbn [skipn].
  2:{ apply Z.eqb_neq in E3. split; [|reflexivity]. intros (_ & _ & X & _). congruence. }
  rewrite (xLdx _ _ _ _ _ _ (nth 14 p 0)) by (apply ld1_in; subst L; lia). rewrite HL.
  apply Z.eqb_eq in E1, E2, E3.
  destruct (Z.lt_ge_cases L (14 + 4 * h + 4)) as [L3|L3].
  { rewrite xInd0 by (apply ld2_out; subst L; clear - IH L3; lia). split; [|reflexivity]. intros (_ & _ & _ & X & _). exfalso. clear - X L3. lia. }
  rewrite (xInd _ _ _ _ _ _ (two p (14 + 4 * h + 2))) by (replace (4 * h + 16) with (14 + 4 * h + 2) by (clear; lia); apply ld2_in; subst L; clear - IH L3; lia).
  rewrite xJeq. destruct (two p (14 + 4 * h + 2) =? 698) eqn:E4; cbn [skipn exec].
  - apply Z.eqb_eq in E4. split; [reflexivity|]. intros X. exfalso. apply X. split; [exact E1|]. split; [exact E2|]. split; [exact E3|]. split; [exact L3|]. split; [exact L2|exact E4].
  - apply Z.eqb_neq in E4. split; [|reflexivity]. intros (_ & _ & _ & _ & _ & X). congruence.
Qed.
Lemma filter_cases p : (olsr_frame p /\ filter_len p = 42) \/ (~ olsr_frame p /\ filter_len p = 0).
Proof.
  destruct (filter_ok p) as (A & B). destruct (Z.eq_dec (filter_len p) 42) as [E|N].
  - left. split; [|exact E]. assert (D : olsr_frame p \/ ~ olsr_frame p).
    { unfold olsr_frame. destruct (Z.eq_dec (two p 12) 2048), (Z.eq_dec (nth 23 p 0) 17), (Z.eq_dec (two p 20 mod 8192) 0), (Z_le_dec (14 + 4 * ihl p + 4) (Z.of_nat (length p))), (Z_le_dec 24 (Z.of_nat (length p))), (Z.eq_dec (two p (14 + 4 * ihl p + 2)) 698); tauto. }
    destruct D as [D|D]; [exact D|]. specialize (B D). lia.
  - right. assert (~ olsr_frame p) by (intros X; apply N, A, X). split; [assumption|now apply B].
Qed.

(** * Requests come from frames in their order *)
Definition cut (x : Z * list Z) : Z * list Z := (fst x, firstn 42 (snd x)).
Lemma sub_app {A} (l m r : list A) : subseq l m -> subseq l (m ++ r).
Proof. induction 1; cbn; constructor; assumption. Qed.
Lemma sub_snoc {A} (l m : list A) x : subseq l m -> subseq (l ++ [x]) (m ++ [x]).
Proof.
  induction 1 as [m|y l m H IH|y l m H IH]; cbn; try (constructor; assumption). induction m; cbn; [repeat constructor|now constructor].
Qed.
Lemma sub_trans_del {A} (l r m : list A) x : subseq (l ++ x :: r) m -> subseq (l ++ r) m.
Proof.
  remember (l ++ x :: r) as t eqn:E. intros H. revert l r E. induction H as [m|y t m H IH|y t m H IH]; intros l r E.
  - destruct l; discriminate.
  - destruct l as [|z l]; cbn in *; injection E as -> ->.
    + apply sub_skip. exact H.
    + apply sub_take. now apply IH.
  - apply sub_skip. now apply IH.
Qed.
Lemma sub_del_tail {A} (q l m : list A) : subseq (l ++ q) m -> subseq l m.
Proof. revert l. induction q as [|x q IH]; intros l H; [now rewrite app_nil_r in H|]. apply IH. now apply sub_trans_del in H. Qed.
(** the frames that became requests, followed by those waiting, are a subsequence of the OLSR
    frames that came in *)
Lemma firstn_nth' {A} n (l : list A) i d : (i < n)%nat -> nth i (firstn n l) d = nth i l d.
Proof. revert l i. induction n as [|n IH]; intros [|x l] [|i] H; try reflexivity; try lia. cbn. apply IH. lia. Qed.
Lemma skipn_nth' {A} n (l : list A) i d : nth i (skipn n l) d = nth (n + i) l d.
Proof. revert l. induction n as [|n IH]; intros l; [reflexivity|]. destruct l as [|x l]; [destruct i; reflexivity|]. apply IH. Qed.
Lemma sender_cut dev f : (42 <= length f)%nat -> sender dev f (mkA dev (firstn 4 (skipn 26 (firstn 42 f))) (firstn 6 (skipn 6 (firstn 42 f)))).
Proof.
  intros L. split; [reflexivity|]. cbn [a_ip a_ha]. split; [|split; [|split]].
  - intros i I. rewrite firstn_nth', skipn_nth', firstn_nth' by lia. reflexivity.
  - rewrite firstn_length, skipn_length, firstn_length. lia.
  - intros i I. rewrite firstn_nth', skipn_nth', firstn_nth' by lia. reflexivity.
  - rewrite firstn_length, skipn_length, firstn_length. lia.
Qed.
Theorem requests cap l : forall s o, run cap start l = (s, o) ->
  exists used, subseq used (arrived l) /\ Forall2 (fun x r => sender (fst x) (snd x) r /\ good_frame x) used o.
Proof.
  assert (V : forall l, exists used wait, subseq (used ++ wait) (arrived l) /\ Forall2 (fun x r => sender (fst x) (snd x) r /\ good_frame x) used (snd (run cap start l)) /\
    t_queue (fst (run cap start l)) = map cut wait /\ Forall (fun x => olsr_frame (snd x)) wait).
  { assert (RA : forall l r s, run cap s (l ++ r) = (fst (run cap (fst (run cap s l)) r), snd (run cap s l) ++ snd (run cap (fst (run cap s l)) r))).
    { induction l0 as [|e l0 IH]; intros r s; cbn [run app fst snd]; [now destruct (run cap s r)|]. destruct (step cap s e) as [s1 o1]. rewrite IH. destruct (run cap s1 l0) as [s2 o2]. cbn [fst snd]. destruct (run cap s2 r). cbn [fst snd]. now rewrite app_assoc. }
    induction l0 as [|e l0 IH] using rev_ind; [exists [], []; repeat constructor|]. destruct IH as (used & wait & A & B & C & D). rewrite RA. destruct (run cap start l0) as [s o]. cbn [fst snd] in *.
    unfold arrived in *. rewrite flat_map_app. cbn [run]. destruct e as [dev f|ok]; cbn [flat_map app]; rewrite ?app_nil_r.
    - cbn [step]. destruct (filter_cases f) as [(G & E)|(G & E)]; rewrite E.
      + destruct (t_open s && (0 <? 42) && (length (t_queue s) <? cap)%nat); cbn [fst snd]; rewrite ?app_nil_r.
        * exists used, (wait ++ [(dev, f)]). split; [rewrite app_assoc; now apply sub_snoc|]. split; [exact B|]. split; [rewrite C, map_app; reflexivity|]. apply Forall_app. split; [exact D|]. constructor; [exact G|constructor].
        * exists used, wait. split; [now apply sub_app|]. split; [exact B|]. split; [exact C|exact D].
      + replace (t_open s && (0 <? 0) && (length (t_queue s) <? cap)%nat) with false by (destruct (t_open s); reflexivity). cbn [fst snd]. rewrite app_nil_r. exists used, wait. split; [now apply sub_app|]. split; [exact B|]. split; [exact C|exact D].
    - cbn [step]. destruct (t_open s); [|cbn [fst snd]; rewrite app_nil_r; exists used, wait; split; [exact A|]; split; [exact B|]; split; [exact C|exact D]].
      destruct (t_queue s) as [|[dev b] q] eqn:EQ; [cbn [fst snd]; rewrite app_nil_r; exists used, wait; split; [exact A|]; split; [exact B|]; split; [congruence|exact D]|].
      destruct wait as [|[dev' f] wait]; [discriminate|]. unfold cut in C at 1. cbn [map fst snd] in C. remember (firstn 42 f) as b' eqn:EB. injection C as <- -> C. rewrite EB. clear EQ b' EB. inversion D as [|? ? D1 D2]; subst. cbn [snd] in D1. rewrite firstn_length.
      destruct (42 <=? Z.of_nat (Nat.min 42 (length f))) eqn:L; cbn [fst snd].
      + rewrite app_nil_r. assert (LF : (42 <= length f)%nat) by lia. assert (B' : Forall2 (fun x r => sender (fst x) (snd x) r /\ good_frame x) (used ++ [(dev, f)]) (o ++ [mkA dev (firstn 4 (skipn 26 (firstn 42 f))) (firstn 6 (skipn 6 (firstn 42 f)))])).
        { apply Forall2_app; [exact B|]. constructor; [|constructor]. split; [now apply sender_cut|]. split; assumption. }
        destruct ok.
        * exists (used ++ [(dev, f)]), wait. split; [now rewrite <- app_assoc|]. split; [exact B'|]. split; [reflexivity|exact D2].
        * exists (used ++ [(dev, f)]), []. split; [|split; [exact B'|split; [reflexivity|constructor]]]. rewrite app_nil_r. change ((dev, f) :: wait) with ([(dev, f)] ++ wait) in A. rewrite app_assoc in A. now apply sub_del_tail in A.
      + rewrite app_nil_r. exists used, wait. split; [now apply sub_trans_del in A|]. split; [exact B|]. split; [reflexivity|exact D2]. }
  intros s o E. destruct (V l) as (used & wait & A & B & _). rewrite E in B. cbn [snd] in B. exists used. split; [|exact B]. now apply sub_del_tail in A.
Qed.

(** * A frame that comes in is used when those before it have been *)
Lemma drain cap : forall q s, t_open s = true -> t_queue s = map cut q -> Forall good_frame q -> exists o, run cap s (repeat (Timer true) (length q)) = (mkT true [], o) /\ Forall2 (fun x r => sender (fst x) (snd x) r) q o.
Proof.
  induction q as [|[dev f] q IH]; intros s O Q G; [exists []; destruct s; cbn in *; subst; split; [reflexivity|constructor]|]. inversion G as [|? ? (G1 & G2) G3]; subst. cbn [snd] in *. cbn [length repeat run step]. rewrite O, Q. cbn [map cut fst snd].
  rewrite firstn_length. replace (42 <=? Z.of_nat (Nat.min 42 (length f))) with true by lia. destruct (IH (mkT true (map cut q)) eq_refl eq_refl G3) as (o & E & F).
  change (fun x : Z * list Z => (fst x, firstn 42 (snd x))) with cut. rewrite E. eexists. split; [reflexivity|]. constructor; [now apply sender_cut|exact F].
Qed.
Lemma fill cap : forall q s, t_open s = true -> (length (t_queue s) + length q <= cap)%nat -> Forall good_frame q -> run cap s (map (fun x => Frame (fst x) (snd x)) q) = (mkT true (t_queue s ++ map cut q), []).
Proof.
  induction q as [|[dev f] q IH]; intros s O L G; [destruct s; cbn in *; subst; now rewrite app_nil_r|]. inversion G as [|? ? (G1 & G2) G3]; subst. cbn [snd length] in *. cbn [map run step fst snd]. rewrite O, (proj1 (filter_ok f) G1). cbn [andb Z.ltb Z.compare].
  replace (length (t_queue s) <? cap)%nat with true by (symmetry; apply Nat.ltb_lt; lia). rewrite IH; [|reflexivity|cbn [t_queue]; rewrite app_length; cbn [length]; lia|exact G3]. cbn [t_queue cut fst snd map app]. now rewrite <- app_assoc.
Qed.
Theorem refreshed cap q : (length q <= cap)%nat -> Forall good_frame q -> exists o, run cap start (map (fun x => Frame (fst x) (snd x)) q ++ repeat (Timer true) (length q)) = (start, o) /\ Forall2 (fun x r => sender (fst x) (snd x) r) q o.
Proof.
  intros L G. assert (RA : forall l r s, run cap s (l ++ r) = (fst (run cap (fst (run cap s l)) r), snd (run cap s l) ++ snd (run cap (fst (run cap s l)) r))).
  { induction l as [|e l IH]; intros r s; cbn [run app fst snd]; [now destruct (run cap s r)|]. destruct (step cap s e) as [s1 o1]. rewrite IH. destruct (run cap s1 l) as [s2 o2]. cbn [fst snd]. destruct (run cap s2 r). cbn [fst snd]. now rewrite app_assoc. }
  rewrite RA, (fill cap q start eq_refl) by (cbn [start t_queue length]; assumption || lia). cbn [fst snd start t_queue app]. destruct (drain cap q (mkT true (map cut q)) eq_refl eq_refl G) as (o & -> & F). exists o. split; [reflexivity|exact F].
Qed.
Lemma closed cap l : forall s, t_open s = false -> snd (run cap s l) = [] .
Proof.
  induction l as [|e l IH]; intros s O; [reflexivity|]. cbn [run]. assert (E : step cap s e = (s, [])) by (destruct e; cbn [step]; rewrite O; reflexivity). rewrite E. specialize (IH s O). destruct (run cap s l). exact IH.
Qed.

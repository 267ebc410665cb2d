From Coq Require Import String.
From Verif Require Import Base Regex NameSvcSpec NameSvcProofs ConfScan ConfScanSpec.

(** * The longest match *)
Definition first (rs : list (rx * kind)) (t : list Z) : option kind := option_map snd (find (fun p => matches (fst p) t) rs).
Definition step (c : Z) (rs : list (rx * kind)) : list (rx * kind) := map (fun p => (deriv c (fst p), snd p)) rs.
Lemma hit_first rs : hit rs = first rs [].
Proof. reflexivity. Qed.
Lemma first_step c rs t : first (step c rs) t = first rs (c :: t).
Proof.
  unfold first, step. induction rs as [|p rs IH]; [reflexivity|]. cbn [map find fst snd matches]. destruct (matches (deriv c (fst p)) t); [reflexivity|exact IH].
Qed.
Lemma munch_eq rs s n best : munch rs s n best =
  let best' := match first rs [] with Some k => Some (n, k) | None => best end in
  match s with [] => best' | c :: s' => munch (step c rs) s' (S n) best' end.
Proof. destruct s; reflexivity. Qed.
Lemma munch_dead s : forall rs n best, (forall u v, s = u ++ v -> first rs u = None) -> munch rs s n best = best.
Proof.
  induction s as [|c s IH]; intros rs n best H; rewrite munch_eq; rewrite (H [] _ eq_refl); cbv zeta; [reflexivity|].
  apply IH. intros u v E. rewrite first_step. apply (H (c :: u) v). now rewrite E.
Qed.
Lemma munch_longest t k s : forall rs n best, first rs t = Some k -> (forall c u v, s = c :: u ++ v -> first rs (t ++ c :: u) = None) ->
  munch rs (t ++ s) n best = Some ((n + length t)%nat, k).
Proof.
  induction t as [|c t IH]; intros rs n best F D.
  - cbn [app length]. rewrite Nat.add_0_r. rewrite munch_eq, F. cbv zeta. destruct s as [|c s]; [reflexivity|]. apply munch_dead.
    intros u v ->. rewrite first_step. now apply (D c u v).
  - cbn [app length]. rewrite munch_eq. cbv zeta. rewrite (IH (step c rs) (S n)); [f_equal; f_equal; lia|now rewrite first_step|].
    intros c' u v ->. rewrite first_step. now apply (D c' u v).
Qed.
Lemma munch_sound s : forall rs n best m k, munch rs s n best = Some (m, k) ->
  best = Some (m, k) \/ exists t r, s = t ++ r /\ m = (n + length t)%nat /\ first rs t = Some k.
Proof.
  induction s as [|c s IH]; intros rs n best m k H; rewrite munch_eq in H; cbv zeta in H.
  - destruct (first rs []) as [k0|] eqn:F; [|now left]. apply Some_inj in H. inversion H; subst. right. exists [], []. cbn [length]. rewrite Nat.add_0_r. auto.
  - apply IH in H as [H|(t & r & -> & -> & F)].
    + destruct (first rs []) as [k0|] eqn:F; [|now left]. apply Some_inj in H. inversion H; subst. right. exists [], (c :: s). cbn [length]. rewrite Nat.add_0_r. auto.
    + right. exists (c :: t), r. cbn [length app]. rewrite first_step in F. split; [reflexivity|]. split; [lia|exact F].
Qed.
Lemma first_none rs t : (forall p, In p rs -> ~ lang (fst p) t) -> first rs t = None.
Proof.
  unfold first. induction rs as [|p rs IH]; intros H; [reflexivity|]. cbn [find]. destruct (matches (fst p) t) eqn:M.
  - apply matches_ok in M. exfalso. now apply (H p (or_introl eq_refl)).
  - apply IH. intros q Q. apply H. now right.
Qed.
Lemma first_skip rs rs' t : (forall p, In p rs -> ~ lang (fst p) t) -> first (rs ++ rs') t = first rs' t.
Proof.
  unfold first. induction rs as [|p rs IH]; intros H; [reflexivity|]. cbn [app find]. destruct (matches (fst p) t) eqn:M.
  - apply matches_ok in M. exfalso. now apply (H p (or_introl eq_refl)).
  - apply IH. intros q Q. apply H. now right.
Qed.
Lemma first_here r k rs t : lang r t -> first ((r, k) :: rs) t = Some k.
Proof. intros H. unfold first. cbn [find fst]. apply matches_ok in H. rewrite H. reflexivity. Qed.
Lemma first_in rs t k : first rs t = Some k -> exists r, In (r, k) rs /\ lang r t.
Proof.
  unfold first. destruct (find _ rs) as [[r k']|] eqn:F; [|discriminate]. cbn. intros E. apply Some_inj in E. subst k'. apply find_some in F as [F1 F2].
  exists r. split; [exact F1|]. now apply matches_ok.
Qed.

(** * Languages that are nearly empty, by computation *)
Fixpoint dead (r : rx) : bool := match r with Nul => true | Cat a b => dead a || dead b | Alt a b => dead a && dead b | _ => false end.
Fixpoint epsonly (r : rx) : bool := match r with Nul | Eps => true | Cat a b => dead a || dead b || (epsonly a && epsonly b) | Alt a b => epsonly a && epsonly b | _ => false end.
Lemma dead_ok r s : dead r = true -> ~ lang r s.
Proof.
  intros D L. induction L; cbn [dead] in D; try discriminate.
  - apply orb_true_iff in D as [D|D]; auto.
  - apply andb_true_iff in D as [D _]. auto.
  - apply andb_true_iff in D as [_ D]. auto.
Qed.
Lemma epsonly_ok r s : epsonly r = true -> lang r s -> s = [].
Proof.
  intros D L. induction L; cbn [epsonly] in D; try discriminate.
  - reflexivity.
  - apply orb_true_iff in D as [D|D].
    + apply orb_true_iff in D as [D|D]; exfalso; [now apply (dead_ok a s)|now apply (dead_ok b t)].
    + apply andb_true_iff in D as [D1 D2]. rewrite IHL1, IHL2 by assumption. reflexivity.
  - apply andb_true_iff in D as [D _]. auto.
  - apply andb_true_iff in D as [_ D]. auto.
Qed.
Lemma dead_first (rs : list (rx * kind)) x t : forallb (fun p => dead (deriv x (fst p))) rs = true -> forall p, In p rs -> ~ lang (fst p) (x :: t).
Proof. intros H p I L. rewrite forallb_forall in H. apply deriv_ok in L. now apply (dead_ok _ _ (H p I)) in L. Qed.
Lemma eps_first (rs : list (rx * kind)) x c t : forallb (fun p => epsonly (deriv x (fst p))) rs = true -> forall p, In p rs -> ~ lang (fst p) (x :: c :: t).
Proof. intros H p I L. rewrite forallb_forall in H. apply deriv_ok in L. apply (epsonly_ok _ _ (H p I)) in L. discriminate. Qed.

(** * The parts of the rules *)
Lemma chr_ok c s : lang (Chr c) s <-> s = [c].
Proof. unfold Chr. split; [intros H; inversion H; subst; f_equal; lia|]. intros ->. constructor. lia. Qed.
Lemma lit_ok l : forall s, lang (Lit l) s <-> s = l.
Proof.
  induction l as [|c l IH]; intros s; cbn [Lit]; [split; [intros H; now inversion H|intros ->; constructor]|].
  split.
  - intros H. apply cat_inv in H as (u & v & -> & U & V). apply chr_ok in U. apply IH in V. now subst.
  - intros ->. apply (L_cat _ _ [c] l); [now apply chr_ok|now apply IH].
Qed.
Lemma star_cls f s : lang (Star (Cls f)) s <-> Forall (fun c => f c = true) s.
Proof.
  split.
  - remember (Star (Cls f)) as r eqn:R. intros H. revert R. induction H; intros R; inversion R; subst; [constructor|]. apply Forall_app. split; [|now apply IHlang2].
    inversion H; subst. now constructor.
  - induction 1; [constructor|]. apply (L_star _ [x] l); [now constructor|assumption].
Qed.
Lemma plus_cls f s : lang (Plus (Cls f)) s <-> s <> [] /\ Forall (fun c => f c = true) s.
Proof.
  unfold Plus. split.
  - intros H. apply cat_inv in H as (u & v & -> & U & V). inversion U; subst. apply star_cls in V. split; [discriminate|]. now constructor.
  - intros [N F]. destruct s as [|c s]; [congruence|]. inversion F; subst. apply (L_cat _ _ [c] s); [now constructor|now apply star_cls].
Qed.
Lemma upto_ok r n : forall s, lang (upto n r) s <-> exists l, (length l <= n)%nat /\ Forall (lang r) l /\ s = concat l.
Proof.
  induction n as [|n IH]; intros s; cbn [upto].
  - split; [intros H; inversion H; exists []; cbn; auto|]. intros (l & L & _ & ->). destruct l; [constructor|cbn in L; lia].
  - unfold Opt. split.
    + intros H. inversion H as [| | |? ? ? H1|? ? ? H1| |]; subst; [inversion H1; exists []; cbn; split; [lia|auto]|].
      apply cat_inv in H1 as (u & v & -> & U & V). apply IH in V as (l & L & F & ->). exists (u :: l). cbn [length concat]. split; [lia|]. auto.
    + intros (l & L & F & ->). destruct l as [|u l]; [apply L_altl; constructor|]. inversion F; subst. cbn [concat length] in *. apply L_altr. constructor; [assumption|].
      apply IH. exists l. split; [lia|]. auto.
Qed.
Lemma times_ok r n : forall s, lang (times n r) s <-> exists l, length l = n /\ Forall (lang r) l /\ s = concat l.
Proof.
  induction n as [|n IH]; intros s; cbn [times].
  - split; [intros H; inversion H; exists []; cbn; auto|]. intros (l & L & _ & ->). destruct l; [constructor|cbn in L; lia].
  - split.
    + intros H. apply cat_inv in H as (u & v & -> & U & V). apply IH in V as (l & L & F & ->). exists (u :: l). cbn [length concat]. split; [lia|]. auto.
    + intros (l & L & F & ->). destruct l as [|u l]; [discriminate|]. inversion F; subst. cbn [concat length] in *. constructor; [assumption|].
      apply IH. exists l. split; [lia|]. auto.
Qed.
Lemma oneto_ok r n s : lang (oneto n r) s <-> exists l, (1 <= length l <= S n)%nat /\ Forall (lang r) l /\ s = concat l.
Proof.
  unfold oneto. split.
  - intros H. apply cat_inv in H as (u & v & -> & U & V). apply upto_ok in V as (l & L & F & ->). exists (u :: l). cbn [length concat]. split; [lia|]. auto.
  - intros (l & L & F & ->). destruct l as [|u l]; [cbn in L; lia|]. inversion F; subst. cbn [concat length] in *. constructor; [assumption|].
    apply upto_ok. exists l. split; [lia|]. auto.
Qed.
Lemma oneto_cls f n s : lang (oneto n (Cls f)) s <-> (1 <= length s <= S n)%nat /\ Forall (fun c => f c = true) s.
Proof.
  rewrite oneto_ok. split.
  - intros (l & L & F & ->). assert (X : length (concat l) = length l /\ Forall (fun c => f c = true) (concat l)).
    { clear L. induction F as [|x l H0 F IH]; [cbn; auto|]. inversion H0; subst. cbn [concat app length]. destruct IH as [I1 I2]. split; [now rewrite I1|now constructor]. }
    destruct X as [X1 X2]. rewrite X1. auto.
  - intros [L F]. exists (map (fun c => [c]) s). rewrite map_length. split; [exact L|]. split.
    + apply Forall_forall. intros x X. apply in_map_iff in X as (c & <- & C). constructor. rewrite Forall_forall in F. now apply F.
    + clear. induction s as [|c s IH]; [reflexivity|]. cbn [map concat app]. now rewrite <- IH.
Qed.
Lemma digitc_ok c : digitc c = true <-> digit c.
Proof. unfold digitc, digit. lia. Qed.
Lemma hexc_ok c : hexc c = true <-> hexdigit c.
Proof. unfold hexc, hexdigit, digitc, digit. lia. Qed.
Lemma Forall_iff {A} (P Q : A -> Prop) l : (forall x, P x <-> Q x) -> Forall P l <-> Forall Q l.
Proof. intros H. split; apply Forall_impl; intros x; now apply H. Qed.
Lemma group_ok s : lang hex16 s <-> group s.
Proof. unfold hex16, hex, group. rewrite oneto_cls. rewrite (Forall_iff _ _ s hexc_ok). lia || tauto. Qed.
Lemma quad_ok s : lang quad s <-> quad_text s.
Proof. unfold quad, dec, quad_text. rewrite oneto_cls. rewrite (Forall_iff _ _ s digitc_ok). tauto. Qed.
Lemma digits_ok s : lang (Plus dec) s <-> some_digits s.
Proof. unfold dec, some_digits. rewrite plus_cls. rewrite (Forall_iff _ _ s digitc_ok). tauto. Qed.
Lemma chr_cat c r s : lang (Cat (Chr c) r) s <-> exists t, s = c :: t /\ lang r t.
Proof.
  split.
  - intros H. apply cat_inv in H as (u & v & -> & U & V). apply chr_ok in U. subst u. now exists v.
  - intros (t & -> & H). apply (L_cat _ _ [c] t); [now apply chr_ok|exact H].
Qed.
Lemma float_ok s : lang rx_float s <-> exists a b, some_digits a /\ some_digits b /\ s = a ++ 46 :: b.
Proof.
  unfold rx_float. split.
  - intros H. apply cat_inv in H as (a & v & -> & A & V). apply chr_cat in V as (b & -> & B). exists a, b. rewrite <- !digits_ok. auto.
  - intros (a & b & A & B & ->). apply digits_ok in A, B. constructor; [exact A|]. apply chr_cat. now exists b.
Qed.
Lemma ip4_ok s : lang rx_ip4 s <-> ip4_text s.
Proof.
  unfold rx_ip4, ip4_text. split.
  - intros H. apply cat_inv in H as (a & v & -> & A & V). apply chr_cat in V as (w & -> & W). apply cat_inv in W as (b & v & -> & B & V). apply chr_cat in V as (w & -> & W).
    apply cat_inv in W as (c & v & -> & C & V). apply chr_cat in V as (d & -> & D). apply quad_ok in A, B, C, D. exists a, b, c, d. split; [do 4 (apply Forall_cons; [assumption|]); apply Forall_nil|reflexivity].
  - intros (a & b & c & d & F & ->). inversion F as [|? ? A F1]; subst. inversion F1 as [|? ? B F2]; subst. inversion F2 as [|? ? C F3]; subst. inversion F3 as [|? ? D _]; subst.
    apply quad_ok in A, B, C, D. constructor; [exact A|]. apply chr_cat. eexists. split; [reflexivity|]. constructor; [exact B|]. apply chr_cat. eexists. split; [reflexivity|].
    constructor; [exact C|]. apply chr_cat. eexists. split; [reflexivity|exact D].
Qed.
(** ** IPv6 *)
Definition colon_after (gs : list (list Z)) : list Z := concat (map (fun g => g ++ [58]) gs).
Definition colon_before (gs : list (list Z)) : list Z := concat (map (fun g => 58 :: g) gs).
Lemma after_list l : Forall (lang hexcol) l -> exists gs, length gs = length l /\ Forall group gs /\ concat l = colon_after gs.
Proof.
  induction 1 as [|x l H F (gs & L & G & E)]; [exists []; auto|]. unfold hexcol in H. apply cat_inv in H as (u & v & -> & U & V). apply chr_ok in V. subst v. apply group_ok in U.
  exists (u :: gs). split; [cbn; lia|]. split; [now constructor|]. unfold colon_after in *. cbn [concat map]. now rewrite E.
Qed.
Lemma list_after gs : Forall group gs -> Forall (lang hexcol) (map (fun g => g ++ [58]) gs).
Proof. induction 1; cbn [map]; constructor; [|assumption]. constructor; [now apply group_ok|now apply chr_ok]. Qed.
Lemma before_list l : Forall (lang colhex) l -> exists gs, length gs = length l /\ Forall group gs /\ concat l = colon_before gs.
Proof.
  induction 1 as [|x l H F (gs & L & G & E)]; [exists []; auto|]. unfold colhex in H. apply chr_cat in H as (u & -> & U). apply group_ok in U.
  exists (u :: gs). split; [cbn; lia|]. split; [now constructor|]. unfold colon_before in *. cbn [concat map]. now rewrite E.
Qed.
Lemma list_before gs : Forall group gs -> Forall (lang colhex) (map (fun g => 58 :: g) gs).
Proof. induction 1; cbn [map]; constructor; [|assumption]. apply chr_cat. eexists. split; [reflexivity|]. now apply group_ok. Qed.
Lemma colons_last gs g : colons (gs ++ [g]) = colon_after gs ++ g.
Proof.
  unfold colon_after. induction gs as [|x gs IH]; [reflexivity|]. cbn [app concat map]. destruct (gs ++ [g]) eqn:E; [destruct gs; discriminate|].
  cbn [colons]. rewrite <- E in *. cbn [colons] in IH. transitivity (x ++ 58 :: colons (gs ++ [g])); [now rewrite E|]. rewrite IH. now rewrite <- !app_assoc.
Qed.
Lemma colons_first gs g : colons (g :: gs) = g ++ colon_before gs.
Proof.
  unfold colon_before. revert g. induction gs as [|x gs IH]; intros g; [cbn; now rewrite app_nil_r|]. transitivity (g ++ 58 :: colons (x :: gs)); [reflexivity|]. rewrite IH. reflexivity.
Qed.
Lemma colons_after gs : gs <> [] -> colon_after gs = colons gs ++ [58].
Proof.
  intros N. destruct (exists_last N) as (a & g & ->). rewrite colons_last. unfold colon_after. rewrite map_app, concat_app. cbn [map concat]. now rewrite app_nil_r, app_assoc.
Qed.
Lemma alt_ok a b s : lang (Alt a b) s <-> lang a s \/ lang b s.
Proof. split; [intros H; inversion H; subst; auto|intros [H|H]; [now apply L_altl|now apply L_altr]]. Qed.
Lemma pat_mid_ok n s : (1 <= n <= 6)%nat -> (lang (pat_mid n) s <->
  exists a b, length a = n /\ (1 <= length b <= 7 - n)%nat /\ Forall group (a ++ b) /\ s = colons a ++ [58; 58] ++ colons b).
Proof.
  intros N. unfold pat_mid. split.
  - intros H. apply cat_inv in H as (u & v & -> & U & V). apply times_ok in U as (l & L & F & ->). apply after_list in F as (a & La & Ga & ->).
    apply chr_cat in V as (w & -> & W). apply cat_inv in W as (u & g & -> & U & G). apply upto_ok in U as (l2 & L2 & F2 & ->). apply after_list in F2 as (b & Lb & Gb & ->). apply group_ok in G.
    exists a, (b ++ [g]). rewrite app_length. cbn [length]. split; [lia|]. split; [lia|]. split; [apply Forall_app; split; [exact Ga|]; apply Forall_app; split; [exact Gb|now constructor]|].
    rewrite colons_last. rewrite colons_after by (intros ->; cbn in La; lia). rewrite <- !app_assoc. reflexivity.
  - intros (a & b & La & Lb & G & ->). apply Forall_app in G as [Ga Gb]. assert (Nb : b <> []) by (intros ->; cbn in Lb; lia). destruct (exists_last Nb) as (b' & g & ->).
    apply Forall_app in Gb as [Gb Gg]. inversion Gg as [|? ? Gg' _]; subst. rewrite app_length in Lb. cbn [length] in Lb. rewrite colons_last.
    replace (colons a ++ [58; 58] ++ colon_after b' ++ g) with (colon_after a ++ 58 :: colon_after b' ++ g).
    2:{ rewrite colons_after by (intros ->; cbn in N; lia). rewrite <- !app_assoc. reflexivity. }
    constructor. { apply times_ok. exists (map (fun g => g ++ [58]) a). rewrite map_length. split; [reflexivity|]. split; [now apply list_after|reflexivity]. }
    apply chr_cat. eexists. split; [reflexivity|]. constructor; [|now apply group_ok]. apply upto_ok. exists (map (fun g => g ++ [58]) b'). rewrite map_length. split; [lia|].
    split; [now apply list_after|reflexivity].
Qed.
Lemma ip6_ok s : lang rx_ip6 s <-> ip6_text s.
Proof.
  unfold rx_ip6. rewrite !alt_ok. rewrite !pat_mid_ok by lia. unfold ip6_text. split.
  - intros H. assert (MID : forall n, (n <= 6)%nat -> (exists a b, length a = n /\ (1 <= length b <= 7 - n)%nat /\ Forall group (a ++ b) /\ s = colons a ++ [58; 58] ++ colons b) ->
      (exists gs, length gs = 8%nat /\ Forall group gs /\ s = colons gs) \/ (exists a b, (length a + length b <= 7)%nat /\ Forall group (a ++ b) /\ s = colons a ++ [58; 58] ++ colons b)).
    { intros n Hn (a & b & A & B & C & D). right. exists a, b. split; [lia|]. auto. }
    destruct H as [H|[H|[H|[H|[H|[H|[H|[H|[H|H]]]]]]]]]; try (refine (MID _ _ H); lia).
    + left. unfold pat1 in H. apply cat_inv in H as (u & g & -> & U & G). apply times_ok in U as (l & L & F & ->). apply after_list in F as (a & La & Ga & ->). apply group_ok in G.
      exists (a ++ [g]). rewrite app_length. cbn [length]. split; [lia|]. split; [apply Forall_app; split; [exact Ga|now constructor]|]. now rewrite colons_last.
    + right. unfold pat8 in H. apply cat_inv in H as (u & g & -> & U & G). apply chr_ok in G. subst g. apply oneto_ok in U as (l & L & F & ->). apply after_list in F as (a & La & Ga & ->).
      exists a, []. cbn [length colons]. rewrite app_nil_r. split; [lia|]. split; [exact Ga|]. rewrite colons_after by (intros ->; cbn in La; lia). rewrite <- app_assoc. reflexivity.
    + right. unfold pat9 in H. apply chr_cat in H as (t & -> & T). apply chr_ok in T. subst t. exists [], []. cbn. split; [lia|]. split; [constructor|reflexivity].
    + right. unfold pat10 in H. apply chr_cat in H as (t & -> & T). apply oneto_ok in T as (l & L & F & ->). apply before_list in F as (b & Lb & Gb & ->).
      exists [], b. cbn [length app colons]. split; [lia|]. split; [exact Gb|]. destruct b as [|g b]; [cbn in Lb; lia|]. rewrite colons_first. reflexivity.
  - intros [(gs & L & G & ->)|(a & b & L & G & ->)].
    + left. assert (N : gs <> []) by (intros ->; discriminate). destruct (exists_last N) as (a & g & ->). apply Forall_app in G as [Ga Gg]. inversion Gg; subst. rewrite app_length in L. cbn [length] in L.
      rewrite colons_last. unfold pat1. constructor; [|now apply group_ok]. apply times_ok. exists (map (fun g => g ++ [58]) a). rewrite map_length. split; [lia|]. split; [now apply list_after|reflexivity].
    + destruct b as [|g b].
      * rewrite app_nil_r in G. cbn [colons]. rewrite app_nil_r. destruct a as [|x a].
        -- do 8 right. left. unfold pat9. apply chr_cat. exists [58]. split; [reflexivity|]. now apply chr_ok.
        -- do 7 right. left. unfold pat8. replace (colons (x :: a) ++ [58; 58]) with (colon_after (x :: a) ++ [58]) by (rewrite colons_after by discriminate; now rewrite <- app_assoc).
           constructor; [|now apply chr_ok]. apply oneto_ok. exists (map (fun g => g ++ [58]) (x :: a)). rewrite map_length. cbn [length] in *. split; [lia|]. split; [now apply list_after|reflexivity].
      * destruct a as [|x a].
        -- do 9 right. unfold pat10. change (colons [] ++ [58; 58] ++ colons (g :: b)) with (58 :: 58 :: colons (g :: b)). apply chr_cat. eexists. split; [reflexivity|]. rewrite app_nil_l in G. apply oneto_ok. exists (map (fun g => 58 :: g) (g :: b)). rewrite map_length.
           cbn [length] in *. split; [lia|]. split; [now apply list_before|]. rewrite colons_first. reflexivity.
        -- assert (K : exists a' b', length a' = length (x :: a) /\ (1 <= length b' <= 7 - length (x :: a))%nat /\ Forall group (a' ++ b') /\
             colons (x :: a) ++ [58; 58] ++ colons (g :: b) = colons a' ++ [58; 58] ++ colons b').
           { exists (x :: a), (g :: b). split; [reflexivity|]. cbn [length] in *. split; [lia|]. auto. }
           cbn [length] in L. destruct a as [|? [|? [|? [|? [|? [|? a]]]]]]; cbn [length] in K; try tauto. exfalso. cbn [length] in L. lia.
Qed.

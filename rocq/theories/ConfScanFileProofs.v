From Coq Require Import String.
From Verif Require Import Base Regex NameSvcSpec NameSvcProofs ConfScan ConfScanSpec.
From Verif Require Import ConfScanProofs.

(** * Characters of the rules *)
Definition endsb (c : Z) : bool := existsb (Z.eqb c) [32; 9; 10; 13; 47; 123; 125; 35; 34].
Lemma endsb_ok c : endsb c = true <-> ends c.
Proof. unfold endsb, ends. rewrite existsb_exists. split; [intros (x & X & E); apply Z.eqb_eq in E; now subst|]. intros H. exists c. split; [exact H|lia]. Qed.
Lemma words_checked : forallb (fun w => let l := str (fst w) in forallb (fun c => negb (endsb c)) l && negb (digitc (hd 48 l)) && negb (hd 0 l =? 115)) words = true.
Proof. vm_compute. reflexivity. Qed.
Lemma word_facts w t : In (w, t) words -> exists x l, str w = x :: l /\ Forall (fun c => ~ ends c) (x :: l) /\ ~ digit x /\ x <> 115.
Proof.
  intros H. pose proof words_checked as K. rewrite forallb_forall in K. specialize (K _ H). cbv zeta in K. cbn [fst] in K.
  apply andb_true_iff in K as [K K3]. apply andb_true_iff in K as [K1 K2]. destruct (str w) as [|x l]; [discriminate|]. exists x, l. cbn [hd] in K2, K3.
  split; [reflexivity|]. split; [|split; [rewrite <- digitc_ok; intros D; rewrite D in K2; discriminate|lia]].
  apply Forall_forall. intros c C E. apply endsb_ok in E. rewrite forallb_forall in K1. specialize (K1 c C). rewrite E in K1. discriminate.
Qed.
Lemma wrule_lang ws p s : In p (map wrule ws) -> lang (fst p) s -> exists w, In w ws /\ s = str (fst w) /\ p = wrule w.
Proof. intros I L. apply in_map_iff in I as (w & <- & W). cbn [fst wrule] in L. apply lit_ok in L. exists w. auto. Qed.
Lemma comment_ok s : lang rx_comment s -> exists a l, s = a ++ 35 :: l ++ [10] /\ Forall (fun c => c = 115) a /\ ~ In 10 l.
Proof.
  unfold rx_comment. intros H. apply cat_inv in H as (a & v & -> & A & V). apply chr_cat in V as (t & -> & T). apply cat_inv in T as (l & n & -> & L & N).
  apply chr_ok in N. subst n. exists a, l. split; [reflexivity|]. split.
  - unfold Chr in A. apply star_cls in A. apply (Forall_impl _ (P := fun c => (115 =? c) = true)); [intros; lia|exact A].
  - apply star_cls in L. intros I. rewrite Forall_forall in L. specialize (L 10 I). discriminate.
Qed.
Lemma comment_start x s : lang rx_comment (x :: s) -> x = 115 \/ x = 35.
Proof. intros H. apply comment_ok in H as ([|c a] & l & E & A & _); inversion E; subst; [now right|]. inversion A; subst. now left. Qed.
Lemma string_ok s : lang rx_string s <-> exists l, s = 34 :: l ++ [34] /\ ~ In 34 l.
Proof.
  unfold rx_string. rewrite chr_cat. split.
  - intros (t & -> & T). apply cat_inv in T as (l & n & -> & L & N). apply chr_ok in N. subst n. exists l. split; [reflexivity|]. apply star_cls in L. intros I. rewrite Forall_forall in L.
    specialize (L 34 I). discriminate.
  - intros (l & -> & N). eexists. split; [reflexivity|]. constructor; [|now apply chr_ok]. apply star_cls. apply Forall_forall. intros c C. destruct (Z.eqb_spec c 34) as [->|]; [contradiction|reflexivity].
Qed.
Definition rx_hexnum : rx := Cat (Chr 48) (Cat (Chr 120) (Plus hex)).
Lemma hexnum_ok s : lang rx_hexnum s <-> exists l, s = 48 :: 120 :: l /\ l <> [] /\ Forall hexdigit l.
Proof.
  unfold rx_hexnum. rewrite chr_cat. split.
  - intros (t & -> & T). apply chr_cat in T as (l & -> & L). unfold hex in L. apply plus_cls in L as [N F]. exists l. split; [reflexivity|]. split; [exact N|]. now apply (Forall_iff _ _ l hexc_ok).
  - intros (l & -> & N & F). eexists. split; [reflexivity|]. apply chr_cat. eexists. split; [reflexivity|]. apply plus_cls. split; [exact N|]. now apply (Forall_iff _ _ l hexc_ok).
Qed.
(** digits and dots *)
Definition dd (c : Z) : Prop := digit c \/ c = 46.
Lemma digits_dd l : Forall digit l -> Forall dd l.
Proof. apply Forall_impl. intros c H. now left. Qed.
Lemma float_chars s : lang rx_float s -> Forall dd s /\ In 46 s.
Proof.
  intros H. apply float_ok in H as (a & b & [_ A] & [_ B] & ->). split; [|apply in_app_iff; right; now left].
  apply Forall_app. split; [now apply digits_dd|]. constructor; [now right|now apply digits_dd].
Qed.
Lemma ip4_chars s : ip4_text s -> Forall dd s /\ In 46 s.
Proof.
  intros (a & b & c & d & F & ->). inversion F as [|? ? [_ A] F1]; subst. inversion F1 as [|? ? [_ B] F2]; subst. inversion F2 as [|? ? [_ C] F3]; subst. inversion F3 as [|? ? [_ D] _]; subst.
  split; [|apply in_app_iff; right; now left].
  apply Forall_app; split; [now apply digits_dd|]; constructor; [now right|]. apply Forall_app; split; [now apply digits_dd|]; constructor; [now right|].
  apply Forall_app; split; [now apply digits_dd|]; constructor; [now right|]. now apply digits_dd.
Qed.
Definition dots (s : list Z) : nat := count_occ Z.eq_dec s 46.
Lemma dots_digits l : Forall digit l -> dots l = 0%nat.
Proof. unfold dots. induction 1 as [|c l D F IH]; [reflexivity|]. cbn [count_occ]. destruct (Z.eq_dec c 46); [unfold digit in D; lia|exact IH]. Qed.
Lemma dots_dot l : dots (46 :: l) = Datatypes.S (dots l).
Proof. reflexivity. Qed.
Lemma dots_app a b : dots (a ++ b) = (dots a + dots b)%nat.
Proof. apply count_occ_app. Qed.
Lemma float_dots s : lang rx_float s -> dots s = 1%nat.
Proof. intros H. apply float_ok in H as (a & b & [_ A] & [_ B] & ->). now rewrite dots_app, dots_dot, !dots_digits. Qed.
Lemma ip4_dots s : ip4_text s -> dots s = 3%nat.
Proof.
  intros (a & b & c & d & F & ->). inversion F as [|? ? [_ A] F1]; subst. inversion F1 as [|? ? [_ B] F2]; subst. inversion F2 as [|? ? [_ C] F3]; subst. inversion F3 as [|? ? [_ D] _]; subst.
  rewrite !dots_app, !dots_dot, !dots_app, !dots_dot, !dots_app, !dots_dot, !dots_digits by assumption. reflexivity.
Qed.
(** hexadecimal digits and colons *)
Definition hh (c : Z) : Prop := hexdigit c \/ c = 58.
Lemma colons_chars gs : Forall group gs -> Forall hh (colons gs).
Proof.
  induction 1 as [|g gs [_ G] F IH]; [constructor|]. assert (X : Forall hh g) by (revert G; apply Forall_impl; intros c H; now left).
  destruct gs as [|g' gs]; [exact X|]. change (Forall hh (g ++ 58 :: colons (g' :: gs))). apply Forall_app. split; [exact X|]. constructor; [now right|exact IH].
Qed.
Lemma ip6_chars s : ip6_text s -> Forall hh s /\ In 58 s.
Proof.
  intros [(gs & L & G & ->)|(a & b & L & G & ->)].
  - split; [now apply colons_chars|]. destruct gs as [|g [|g' gs]]; try discriminate. apply in_app_iff. right. now left.
  - apply Forall_app in G as [A B]. split; [|apply in_app_iff; right; now left]. apply Forall_app. split; [now apply colons_chars|]. cbn [app]. do 2 (constructor; [now right|]). now apply colons_chars.
Qed.
Lemma not_in_dd s c : Forall dd s -> ~ dd c -> ~ In c s.
Proof. intros F N I. rewrite Forall_forall in F. now apply N, F. Qed.
Lemma not_in_hh s c : Forall hh s -> ~ hh c -> ~ In c s.
Proof. intros F N I. rewrite Forall_forall in F. now apply N, F. Qed.
Ltac cls := unfold dd, hh, hexdigit, digit in *; lia.

(** * Which rule *)
Definition P1 : list (rx * kind) := [(rx_comment, KComment); (Chr 47, KSlash); (Chr 123, KOpen); (Chr 125, KClose)].
Definition P2 : list (rx * kind) := [(rx_float, KFloat); (rx_ip4, KIp4); (rx_ip6, KIp6)].
Definition R2 : list (rx * kind) := map wrule words1 ++
  [(Plus dec, KInt); (Lit (str "yes"), KBool true); (Lit (str "no"), KBool false)] ++
  map wrule words2 ++
  [(Alt (Chr 10) (Cat (Chr 13) (Chr 10)), KNewline); (Alt (Chr 32) (Chr 9), KBlank); (Cls dotc, KOther)].
Lemma rules_eq : rules = P1 ++ (rx_string, KString) :: (rx_hexnum, KHex) :: P2 ++ R2.
Proof. reflexivity. Qed.
Lemma P1_start p x s : In p P1 -> lang (fst p) (x :: s) -> In x [115; 35; 47; 123; 125].
Proof.
  intros I L. cbn [P1 In] in I. destruct I as [<-|[<-|[<-|[<-|[]]]]]; cbn [fst] in L.
  - apply comment_start in L as [->| ->]; cbn; tauto.
  - apply chr_ok in L. inversion L. cbn. tauto.
  - apply chr_ok in L. inversion L. cbn. tauto.
  - apply chr_ok in L. inversion L. cbn. tauto.
Qed.
Lemma skip1 x s : ~ In x [115; 35; 47; 123; 125; 34] -> first rules (x :: s) = first ((rx_hexnum, KHex) :: P2 ++ R2) (x :: s).
Proof.
  intros N. rewrite rules_eq. rewrite first_skip; [|intros p I L; apply N; pose proof (P1_start p x s I L) as K; cbn in *; tauto].
  change ((rx_string, KString) :: (rx_hexnum, KHex) :: P2 ++ R2) with ([(rx_string, KString)] ++ (rx_hexnum, KHex) :: P2 ++ R2). apply first_skip.
  intros p [<-|[]] L. cbn [fst] in L. apply string_ok in L as (l & E & _). inversion E; subst. apply N. cbn. tauto.
Qed.
Lemma hex_kind l : l <> [] -> Forall hexdigit l -> first rules (48 :: 120 :: l) = Some KHex.
Proof. intros N F. rewrite skip1 by (cbn; lia). apply first_here. apply hexnum_ok. now exists l. Qed.
Lemma skip2 x s : ~ In x [115; 35; 47; 123; 125; 34] -> ~ In 120 (x :: s) -> first rules (x :: s) = first (P2 ++ R2) (x :: s).
Proof.
  intros N H. rewrite skip1 by exact N. change ((rx_hexnum, KHex) :: P2 ++ R2) with ([(rx_hexnum, KHex)] ++ P2 ++ R2). apply first_skip. intros p [<-|[]] L. cbn [fst] in L.
  apply hexnum_ok in L as (l & E & _). apply H. rewrite E. cbn. tauto.
Qed.
Lemma head_of (P : Z -> Prop) s : Forall P s -> s <> [] -> exists x r, s = x :: r /\ P x.
Proof. intros F N. destruct s as [|x r]; [congruence|]. inversion F; subst. now exists x, r. Qed.
Lemma float_kind s : lang rx_float s -> first rules s = Some KFloat.
Proof.
  intros L. destruct (float_chars s L) as [F I]. destruct (head_of dd s F) as (x & r & -> & X); [intros ->; inversion I|]. rewrite skip2; [now apply first_here| |apply not_in_dd; [exact F|cls]].
  cbn [In]. cls.
Qed.
Lemma ip4_kind s : ip4_text s -> first rules s = Some KIp4.
Proof.
  intros T. destruct (ip4_chars s T) as [F I]. destruct (head_of dd s F) as (x & r & -> & X); [intros ->; inversion I|]. rewrite skip2; [| cbn [In]; cls|apply not_in_dd; [exact F|cls]].
  change (P2 ++ R2) with ([(rx_float, KFloat)] ++ (rx_ip4, KIp4) :: (rx_ip6, KIp6) :: R2). rewrite first_skip; [now apply first_here, ip4_ok|].
  intros p [<-|[]] L. cbn [fst] in L. apply float_dots in L. apply ip4_dots in T. lia.
Qed.
Lemma ip6_kind s : ip6_text s -> first rules s = Some KIp6.
Proof.
  intros T. destruct (ip6_chars s T) as [F I]. destruct (head_of hh s F) as (x & r & -> & X); [intros ->; inversion I|]. rewrite skip2; [| cbn [In]; cls|apply not_in_hh; [exact F|cls]].
  change (P2 ++ R2) with ([(rx_float, KFloat); (rx_ip4, KIp4)] ++ (rx_ip6, KIp6) :: R2). rewrite first_skip; [now apply first_here, ip6_ok|].
  intros p [<-|[<-|[]]] L; cbn [fst] in L.
  - apply float_chars in L as [L _]. revert I. apply not_in_dd; [exact L|cls].
  - apply ip4_ok, ip4_chars in L as [L _]. revert I. apply not_in_dd; [exact L|cls].
Qed.
Lemma int_kind s : some_digits s -> first rules s = Some KInt.
Proof.
  intros [N F]. pose proof (digits_dd s F) as FD. destruct (head_of digit s F N) as (x & r & -> & X). rewrite skip2; [| cbn [In]; cls|apply not_in_dd; [exact FD|cls]].
  unfold R2. rewrite app_assoc. cbn [app]. rewrite first_skip; [now apply first_here, digits_ok|].
  assert (D : forall c, ~ digit c -> ~ In c (x :: r)) by (intros c H K; rewrite Forall_forall in F; now apply H, F).
  intros p I L. apply in_app_iff in I as [I|I].
  - cbn [P2 In] in I. destruct I as [<-|[<-|[<-|[]]]]; cbn [fst] in L.
    + apply float_chars in L as [_ L]. revert L. apply D. cls.
    + apply ip4_ok, ip4_chars in L as [_ L]. revert L. apply D. cls.
    + apply ip6_ok, ip6_chars in L as [_ L]. revert L. apply D. cls.
  - destruct (wrule_lang _ _ _ I L) as ([w t] & W & E & _). cbn [fst] in E. destruct (word_facts w t) as (y & l & E2 & _ & Y & _); [apply in_app_iff; now left|].
    rewrite E2 in E. inversion E; subst. contradiction.
Qed.
Lemma words_kind : forallb (fun w => match first rules (str (fst w)) with Some (KWord t) => String.eqb t (snd w) | _ => false end) words = true.
Proof. vm_compute. reflexivity. Qed.
Lemma word_kind w t : In (w, t) words -> first rules (str w) = Some (KWord t).
Proof.
  intros H. pose proof words_kind as K. rewrite forallb_forall in K. specialize (K _ H). cbn [fst snd] in K. destruct (first rules (str w)) as [[]|]; try discriminate.
  apply String.eqb_eq in K. now subst.
Qed.

(** * Numbers *)
Ltac hexif := repeat match goal with |- context [if ?b then _ else _] => destruct b eqn:? end; lia.
Lemma strto_ok base s : Forall (fun c => hexdigit c /\ hexvalue c < base) s -> forall acc, strto base acc s = fold_left (fun a c => a * base + hexvalue c) s acc.
Proof.
  induction 1 as [|c s [H V] F IH]; intros acc; [reflexivity|]. cbn [strto fold_left].
  assert (E : digval c = hexvalue c) by (clear - H; unfold digval, hexvalue, digitc, hexdigit, digit in *; hexif). rewrite E. replace (hexvalue c <? base) with true by lia. apply IH.
Qed.
Lemma number_pos base s : 0 < base -> Forall hexdigit s -> 0 <= number base s.
Proof.
  intros B F. unfold number. assert (G : forall acc, 0 <= acc -> 0 <= fold_left (fun a c => a * base + hexvalue c) s acc).
  { induction F as [|c s H F IH]; intros acc A; [exact A|]. cbn [fold_left]. apply IH. assert (0 <= hexvalue c) by (clear - H; unfold hexvalue, hexdigit, digit in *; hexif). nia. }
  apply G. lia.
Qed.
Lemma int_value l : decimal l -> number 10 l < 2 ^ 32 -> u32 (strtol0 l) = number 10 l.
Proof.
  intros [[N F] Z0] B. assert (FH : Forall hexdigit l) by (revert F; apply Forall_impl; intros c H; now left). pose proof (number_pos 10 l ltac:(lia) FH) as P.
  destruct l as [|c l]; [congruence|]. cbn [hd] in Z0. destruct (Z.eq_dec c 48) as [->|C]; [rewrite (Z0 eq_refl); reflexivity|].
  assert (E : strtol0 (c :: l) = Z.min (2 ^ 63 - 1) (strto 10 0 (c :: l))).
  { unfold strtol0. f_equal. inversion F; subst. unfold digit in *. assert (49 <= c <= 57) by lia. assert (K : c = 49 \/ c = 50 \/ c = 51 \/ c = 52 \/ c = 53 \/ c = 54 \/ c = 55 \/ c = 56 \/ c = 57) by lia.
    destruct K as [->|[->|[->|[->|[->|[->|[->|[->| ->]]]]]]]]; reflexivity. }
  rewrite E. rewrite strto_ok. 2:{ revert F. apply Forall_impl. intros d D. split; [now left|]. unfold hexvalue, digit in *. hexif. }
  fold (number 10 (c :: l)). unfold u32. rewrite Z.min_r by lia. apply Z.mod_small. lia.
Qed.
Lemma hex_value l : l <> [] -> Forall hexdigit l -> number 16 l < 2 ^ 32 -> u32 (strtol0 (48 :: 120 :: l)) = number 16 l.
Proof.
  intros N F B. pose proof (number_pos 16 l ltac:(lia) F) as P. destruct l as [|c l]; [congruence|]. unfold strtol0. cbn match. inversion F; subst.
  replace (hexc c) with true by (symmetry; now apply hexc_ok). rewrite strto_ok. 2:{ revert F. apply Forall_impl. intros d D. split; [exact D|]. unfold hexvalue, hexdigit, digit in *. hexif. }
  fold (number 16 (c :: l)). unfold u32. rewrite Z.min_r by lia. apply Z.mod_small. lia.
Qed.

(** * Words in a file *)
Lemma item_kind t k : item t k -> exists kd, first rules t = Some kd /\ tok_of (kd, t) = Some k /\ counts kd = false.
Proof.
  intros H. destruct H.
  - exists (KWord t). split; [now apply word_kind|]. split; reflexivity.
  - exists (KBool true). split; [vm_compute; reflexivity|]. split; reflexivity.
  - exists (KBool false). split; [vm_compute; reflexivity|]. split; reflexivity.
  - exists KInt. split; [now apply int_kind, H|]. split; [|reflexivity]. cbn [tok_of]. now rewrite int_value.
  - exists KHex. split; [now apply hex_kind|]. split; [|reflexivity]. cbn [tok_of]. now rewrite hex_value.
  - exists KFloat. split; [apply float_kind, float_ok; eauto|]. split; reflexivity.
  - exists KIp4. split; [now apply ip4_kind|]. split; reflexivity.
  - exists KIp6. split; [now apply ip6_kind|]. split; reflexivity.
Qed.
Lemma item_start t k : item t k -> exists x r, t = x :: r /\ ~ In x [115; 35; 34; 13].
Proof.
  intros H. destruct H.
  - destruct (word_facts w t H) as (x & l & -> & F & _ & N). exists x, l. split; [reflexivity|]. inversion F as [|? ? E _]; subst. unfold ends in E. cbn [In] in *. intuition lia.
  - exists 121, [101; 115]. split; [reflexivity|]. cbn. lia.
  - exists 110, [111]. split; [reflexivity|]. cbn. lia.
  - destruct H as [[N F] _]. destruct (head_of _ _ F N) as (x & r & -> & X). exists x, r. split; [reflexivity|]. cbn. cls.
  - exists 48, (120 :: l). split; [reflexivity|]. cbn. lia.
  - destruct H as [N F]. destruct (head_of _ _ F N) as (x & r & -> & X). exists x, (r ++ 46 :: b). split; [reflexivity|]. cbn. cls.
  - destruct (ip4_chars s H) as [F I]. destruct (head_of dd s F) as (x & r & -> & X); [intros ->; inversion I|]. exists x, r. split; [reflexivity|]. cbn. cls.
  - destruct (ip6_chars s H) as [F I]. destruct (head_of hh s F) as (x & r & -> & X); [intros ->; inversion I|]. exists x, r. split; [reflexivity|]. cbn. cls.
Qed.
Lemma no_ends (P : Z -> Prop) s : Forall P s -> (forall c, P c -> ~ ends c) -> Forall (fun c => ~ ends c) s.
Proof. intros F H. revert F. apply Forall_impl. exact H. Qed.
Lemma tails p x s : In p rules -> lang (fst p) (x :: s) -> In x [115; 35; 34; 13] \/ Forall (fun c => ~ ends c) s.
Proof.
  intros I L. rewrite rules_eq in I. apply in_app_iff in I as [I|I].
  { cbn [P1 In] in I. destruct I as [<-|[<-|[<-|[<-|[]]]]]; cbn [fst] in L.
    - left. apply comment_start in L as [->| ->]; cbn; tauto.
    - apply chr_ok in L. inversion L; subst. right. constructor.
    - apply chr_ok in L. inversion L; subst. right. constructor.
    - apply chr_ok in L. inversion L; subst. right. constructor. }
  destruct I as [<-|I]. { cbn [fst] in L. apply string_ok in L as (l & E & _). inversion E; subst. left. cbn. tauto. }
  destruct I as [<-|I]. { cbn [fst] in L. apply hexnum_ok in L as (l & E & _ & F). inversion E; subst. right. constructor; [unfold ends; cbn; lia|]. apply (no_ends hexdigit); [exact F|]. intros c C. unfold ends. cbn. cls. }
  assert (DD : Forall dd (x :: s) -> Forall (fun c => ~ ends c) s) by (intros F; inversion F; subst; apply (no_ends dd); [assumption|]; intros c C; unfold ends; cbn; cls).
  assert (HH : Forall hh (x :: s) -> Forall (fun c => ~ ends c) s) by (intros F; inversion F; subst; apply (no_ends hh); [assumption|]; intros c C; unfold ends; cbn; cls).
  apply in_app_iff in I as [I|I].
  { cbn [P2 In] in I. destruct I as [<-|[<-|[<-|[]]]]; cbn [fst] in L; right.
    - apply DD. now apply float_chars.
    - apply DD. now apply ip4_chars, ip4_ok.
    - apply HH. now apply ip6_chars, ip6_ok. }
  assert (WW : forall ws, incl ws words -> In p (map wrule ws) -> In x [115; 35; 34; 13] \/ Forall (fun c => ~ ends c) s).
  { intros ws S1 J. destruct (wrule_lang ws p _ J L) as ([w t] & W & E & _). cbn [fst] in E. destruct (word_facts w t (S1 _ W)) as (y & l & E2 & F & _). rewrite E2 in E. inversion E; subst. inversion F; subst. now right. }
  unfold R2 in I. apply in_app_iff in I as [I|I]. { apply (WW words1); [apply incl_appl, incl_refl|exact I]. }
  apply in_app_iff in I as [I|I].
  { cbn [In] in I. destruct I as [<-|[<-|[<-|[]]]]; cbn [fst] in L; right.
    - apply digits_ok in L as [_ F]. apply DD. now apply digits_dd.
    - apply lit_ok in L. vm_compute in L. inversion L; subst. repeat constructor; unfold ends; cbn; lia.
    - apply lit_ok in L. vm_compute in L. inversion L; subst. repeat constructor; unfold ends; cbn; lia. }
  apply in_app_iff in I as [I|I]. { apply (WW words2); [apply incl_appr, incl_refl|exact I]. }
  cbn [In] in I. destruct I as [<-|[<-|[<-|[]]]]; cbn [fst] in L.
  - apply alt_ok in L as [L|L]; [apply chr_ok in L; inversion L; subst; right; constructor|]. apply chr_cat in L as (t & E & _). inversion E; subst. left. cbn. tauto.
  - apply alt_ok in L as [L|L]; apply chr_ok in L; inversion L; subst; right; constructor.
  - inversion L; subst. right. constructor.
Qed.
Lemma item_munch t k s : item t k -> (s = [] \/ exists c r, s = c :: r /\ ends c) -> exists kd,
  munch rules (t ++ s) 0 None = Some (length t, kd) /\ tok_of (kd, t) = Some k /\ counts kd = false.
Proof.
  intros I E. destruct (item_kind t k I) as (kd & F & T & C). exists kd. split; [|auto]. rewrite (munch_longest t kd s); [reflexivity|exact F|].
  intros c u v ->. destruct E as [E|(c' & r & E & Ec)]; [discriminate|]. inversion E; subst c' r. destruct (item_start t k I) as (x & r & -> & N).
  apply first_none. intros p Ip L. cbn [app] in L. apply tails in L as [L|L]; [contradiction| |exact Ip]. apply Forall_app in L as [_ L]. inversion L; subst. contradiction.
Qed.
(** a text that consists of one character and is not continued *)
Lemma one_munch x kd s : first rules [x] = Some kd -> forallb (fun p => epsonly (deriv x (fst p))) rules = true -> munch rules ([x] ++ s) 0 None = Some (1%nat, kd).
Proof. intros F D. rewrite (munch_longest [x] kd s); [reflexivity|exact F|]. intros c u v ->. apply first_none. intros p I. now apply (eps_first rules x c u D p I). Qed.
Lemma closed_munch t k s : closed t k -> exists kd, munch rules (t ++ s) 0 None = Some (length t, kd) /\ tok_of (kd, t) = Some k /\ counts kd = false.
Proof.
  intros H. destruct H as [l N| | |].
  - exists KString. split; [|split; [|reflexivity]].
    + rewrite (munch_longest (34 :: l ++ [34]) KString s); [reflexivity| |].
      * rewrite rules_eq. rewrite first_skip; [apply first_here, string_ok; now exists l|]. intros p I L. apply P1_start in L; [|exact I]. cbn in L. lia.
      * intros c u v ->. apply first_none. intros p I L. rewrite rules_eq in I. apply in_app_iff in I as [I|I]; [apply P1_start in L; [cbn in L; lia|exact I]|].
        destruct I as [<-|I].
        -- cbn [fst app] in L. apply string_ok in L as (l' & E & N'). inversion E as [E1]. rewrite <- !app_assoc in E1. cbn [app] in E1.
           assert (X : l' = l ++ 34 :: firstn (length u) (c :: u)).
           { assert (In 34 (removelast (l ++ 34 :: c :: u))).
             { rewrite removelast_app by discriminate. apply in_app_iff. right. cbn [removelast]. now left. }
             rewrite E1, removelast_last in H. contradiction. }
           apply N'. rewrite X. apply in_app_iff. right. now left.
        -- assert (D : forallb (fun p => epsonly (deriv 34 (fst p))) ((rx_hexnum, KHex) :: P2 ++ R2) = true) by (vm_compute; reflexivity).
           cbn [app] in L. destruct (l ++ [34]) as [|y m] eqn:Y; [destruct l; discriminate|]. cbn [app] in L. now apply (eps_first _ 34 y (m ++ c :: u) D p I).
    + cbn [tok_of length skipn]. rewrite app_length. cbn [length]. replace (Datatypes.S (length l + 1) - 2)%nat with (length l) by lia. rewrite firstn_app, Nat.sub_diag, firstn_all. cbn. now rewrite app_nil_r.
  - exists KSlash. split; [apply one_munch; vm_compute; reflexivity|]. split; reflexivity.
  - exists KOpen. split; [apply one_munch; vm_compute; reflexivity|]. split; reflexivity.
  - exists KClose. split; [apply one_munch; vm_compute; reflexivity|]. split; reflexivity.
Qed.
Lemma comment_munch l s : ~ In 10 l -> munch rules ((35 :: l ++ [10]) ++ s) 0 None = Some (length (35 :: l ++ [10]), KComment).
Proof.
  intros N. rewrite (munch_longest (35 :: l ++ [10]) KComment s); [reflexivity| |].
  - apply first_here. unfold rx_comment. apply (L_cat _ _ [] _); [constructor|]. apply chr_cat. eexists. split; [reflexivity|]. constructor; [|now apply chr_ok].
    apply star_cls, Forall_forall. intros c C. unfold dotc. destruct (Z.eqb_spec c 10) as [->|]; [contradiction|reflexivity].
  - intros c u v ->. apply first_none. intros p I L. cbn [rules app] in I. destruct I as [<-|I].
    + cbn [fst] in L. apply comment_ok in L as (a & l' & E & A & N'). destruct a as [|x a].
      * cbn [app] in E. inversion E as [E1]. rewrite <- app_assoc in E1. cbn [app] in E1.
        assert (K : In 10 (removelast (l ++ 10 :: c :: u))) by (rewrite removelast_app by discriminate; apply in_app_iff; right; cbn [removelast]; now left).
        rewrite E1, removelast_last in K. contradiction.
      * inversion A; subst. cbn [app] in E. inversion E.
    + assert (D : forallb (fun p => epsonly (deriv 35 (fst p))) (tl rules) = true) by (vm_compute; reflexivity).
      cbn [app] in L. destruct (l ++ [10]) as [|y m] eqn:Y; [destruct l; discriminate|]. cbn [app] in L. now apply (eps_first _ 35 y (m ++ c :: u) D p I).
Qed.

(** * The file *)
Lemma munch_pos s n k : munch rules s 0 None = Some (n, k) -> (n <= length s)%nat /\ first rules (firstn n s) = Some k /\ (0 < n)%nat.
Proof.
  intros H. apply munch_sound in H as [H|(t & r & -> & -> & F)]; [discriminate|]. cbn [Nat.add]. rewrite app_length. split; [lia|].
  rewrite firstn_app, Nat.sub_diag, firstn_all. cbn [firstn]. rewrite app_nil_r. split; [exact F|]. destruct t; [|cbn; lia]. vm_compute in F. discriminate.
Qed.
Lemma lexemes_fuel f : forall s, (length s <= f)%nat -> lexemes f s = lexemes (length s) s.
Proof.
  induction f as [f IH] using lt_wf_ind. intros s L. destruct s as [|c s]; [destruct f; reflexivity|]. destruct f as [|f]; [cbn in L; lia|]. cbn [length lexemes].
  destruct (munch rules (c :: s) 0 None) as [[[|n] k]|] eqn:M; [reflexivity| |reflexivity]. f_equal. apply munch_pos in M as [M _]. cbn [length] in L, M.
  assert (E : length (skipn (S n) (c :: s)) = (length s - n)%nat) by (rewrite skipn_length; cbn [length]; lia).
  rewrite (IH f) by (rewrite ?E; lia). rewrite (IH (length s)) by (rewrite ?E; lia). reflexivity.
Qed.
Lemma lexemes_step t s kd : t <> [] -> munch rules (t ++ s) 0 None = Some (length t, kd) -> lexemes (length (t ++ s)) (t ++ s) = (kd, t) :: lexemes (length s) s.
Proof.
  intros N M. destruct t as [|x t]; [congruence|]. cbn [app length lexemes]. cbn [app] in M. rewrite M. cbn [length].
  f_equal.
  - f_equal. change (firstn (length (x :: t)) ((x :: t) ++ s) = x :: t). now rewrite firstn_app, Nat.sub_diag, firstn_all, app_nil_r.
  - change (skipn (S (length t)) (x :: t ++ s)) with (skipn (length t) (t ++ s)). rewrite skipn_app, skipn_all, Nat.sub_diag. cbn [app skipn]. apply lexemes_fuel. rewrite app_length. lia.
Qed.
Definition out (s : list Z) : list token * Z := (scan s, lines s).
Lemma out_step t s kd : t <> [] -> munch rules (t ++ s) 0 None = Some (length t, kd) ->
  scan (t ++ s) = (match tok_of (kd, t) with Some k => [k] | None => [] end) ++ scan s /\ lines (t ++ s) = (if counts kd then 1 else 0) + lines s.
Proof.
  intros N M. unfold scan, lines. rewrite (lexemes_step t s kd N M). cbn [map filter fst]. split.
  - change (somes (tok_of (kd, t) :: map tok_of (lexemes (length s) s)) = (match tok_of (kd, t) with Some k => [k] | None => [] end) ++ somes (map tok_of (lexemes (length s) s))).
    destruct (tok_of (kd, t)); reflexivity.
  - destruct (counts kd); cbn [length]; lia.
Qed.
Lemma crnl_munch s : munch rules ([13; 10] ++ s) 0 None = Some (2%nat, KNewline).
Proof.
  rewrite (munch_longest [13; 10] KNewline s); [reflexivity|vm_compute; reflexivity|]. intros c u v ->. apply first_none. intros p I L. cbn [app] in L. apply deriv_ok, deriv_ok in L.
  assert (D : forallb (fun p => epsonly (deriv 10 (deriv 13 (fst p)))) rules = true) by (vm_compute; reflexivity). rewrite forallb_forall in D. apply (epsonly_ok _ _ (D p I)) in L. discriminate.
Qed.
Lemma item_nonempty t k : item t k -> t <> [].
Proof. intros H. destruct (item_start t k H) as (x & r & -> & _). discriminate. Qed.
Lemma closed_nonempty t k : closed t k -> t <> [].
Proof. intros H. destruct H; discriminate. Qed.
Lemma file_ok s ts n : file s ts n -> scan s = ts /\ lines s = 1 + n.
Proof.
  induction 1 as [|c s ts n C F [I1 I2]|s ts n F [I1 I2]|s ts n F [I1 I2]|l s ts n N F [I1 I2]|t k s ts n C F [I1 I2]|t k s ts n I E F [I1 I2]].
  - split; reflexivity.
  - destruct (out_step [c] s KBlank) as [O1 O2]; [discriminate| |cbn [app] in O1, O2; rewrite O1, O2, I1, I2; split; reflexivity].
    destruct C as [<-|[<-|[]]]; apply one_munch; vm_compute; reflexivity.
  - destruct (out_step [10] s KNewline) as [O1 O2]; [discriminate|apply one_munch; vm_compute; reflexivity|]. cbn [app] in O1, O2. rewrite O1, O2, I1, I2. split; [reflexivity|]. cbn [counts]. lia.
  - destruct (out_step [13; 10] s KNewline) as [O1 O2]; [discriminate|apply crnl_munch|]. cbn [app] in O1, O2. rewrite O1, O2, I1, I2. split; [reflexivity|]. cbn [counts]. lia.
  - destruct (out_step (35 :: l ++ [10]) s KComment) as [O1 O2]; [discriminate|now apply comment_munch|].
    assert (E : (35 :: l ++ [10]) ++ s = 35 :: l ++ 10 :: s) by (cbn [app]; now rewrite <- app_assoc). rewrite E in O1, O2. rewrite O1, O2, I1, I2. split; [reflexivity|]. cbn [counts]. lia.
  - destruct (closed_munch t k s C) as (kd & M & T & Cn). destruct (out_step t s kd (closed_nonempty t k C) M) as [O1 O2]. rewrite O1, O2, I1, I2, T, Cn. split; reflexivity.
  - destruct (item_munch t k s I E) as (kd & M & T & Cn). destruct (out_step t s kd (item_nonempty t k I) M) as [O1 O2]. rewrite O1, O2, I1, I2, T, Cn. split; reflexivity.
Qed.

(** * Every file *)
Lemma munch_some s : forall rs n b, munch rs s n (Some b) <> None.
Proof.
  induction s as [|c s IH]; intros rs n b; rewrite munch_eq; cbv zeta; destruct (first rs []); try discriminate; apply IH.
Qed.
Lemma munch_total c s : exists n k, munch rules (c :: s) 0 None = Some (S n, k).
Proof.
  assert (F : exists k, first rules [c] = Some k).
  { assert (X : exists r k, In (r, k) rules /\ lang r [c]).
    { destruct (Z.eq_dec c 10) as [->|N].
      - exists (Alt (Chr 10) (Cat (Chr 13) (Chr 10))), KNewline. split; [rewrite rules_eq; unfold R2; rewrite !in_app_iff; cbn [In]; rewrite !in_app_iff; cbn [In]; tauto|]. apply L_altl. now apply chr_ok.
      - exists (Cls dotc), KOther. split; [rewrite rules_eq; unfold R2; rewrite !in_app_iff; cbn [In]; rewrite !in_app_iff; cbn [In]; tauto|]. constructor. unfold dotc. lia. }
    destruct X as (r & k & I & L). unfold first. destruct (find (fun p => matches (fst p) [c]) rules) as [p|] eqn:E; [now eexists|].
    exfalso. pose proof (find_none _ _ E _ I) as K. cbn [fst] in K. apply matches_ok in L. congruence. }
  destruct F as (k & F). destruct (munch rules (c :: s) 0 None) as [[[|n] k']|] eqn:M.
  - apply munch_pos in M. lia.
  - now exists n, k'.
  - exfalso. rewrite munch_eq in M. cbv zeta in M. replace (first rules []) with (@None kind) in M by (vm_compute; reflexivity). rewrite munch_eq in M. rewrite first_step, F in M. cbv zeta in M.
    destruct s as [|d s]; [discriminate|]. now apply munch_some in M.
Qed.
Lemma lexemes_whole f : forall s, (length s <= f)%nat -> concat (map snd (lexemes f s)) = s.
Proof.
  induction f as [|f IH]; intros [|c s] L; try reflexivity; [cbn in L; lia|]. cbn [lexemes]. destruct (munch_total c s) as (n & k & M). rewrite M. cbn [map concat snd].
  rewrite IH by (rewrite skipn_length; cbn [length] in *; lia). apply firstn_skipn.
Qed.
Lemma lexemes_in f : forall s k t, In (k, t) (lexemes f s) -> first rules t = Some k /\ exists a b, s = a ++ t ++ b.
Proof.
  induction f as [|f IH]; intros [|c s] k t I; try contradiction. cbn [lexemes] in I. destruct (munch rules (c :: s) 0 None) as [[[|n] k']|] eqn:M; try contradiction.
  destruct I as [I|I].
  - inversion I; subst. apply munch_pos in M as (_ & F & _). split; [exact F|]. exists [], (skipn (S n) (c :: s)). cbn [app]. symmetry. exact (firstn_skipn (S n) (c :: s)).
  - apply IH in I as (F & a & b & E). split; [exact F|]. exists (firstn (S n) (c :: s) ++ a), b. rewrite <- app_assoc, <- E. symmetry. apply firstn_skipn.
Qed.
Lemma rules_kind r k : In (r, k) rules ->
  match k with
  | KString => r = rx_string | KHex => r = rx_hexnum | KFloat => r = rx_float | KIp4 => r = rx_ip4 | KIp6 => r = rx_ip6 | KInt => r = Plus dec
  | KWord t => exists w, In (w, t) words /\ r = Lit (str w)
  | KBool b => r = Lit (str (if b then "yes" else "no"))
  | KSlash => r = Chr 47 | KOpen => r = Chr 123 | KClose => r = Chr 125 | KComment => r = rx_comment
  | _ => True
  end.
Proof.
  intros I. rewrite rules_eq in I. unfold R2 in I. apply in_app_iff in I as [I|I].
  { cbn [P1 In] in I. destruct I as [E|[E|[E|[E|[]]]]]; inversion E; subst; reflexivity. }
  destruct I as [E|I]; [inversion E; subst; reflexivity|]. destruct I as [E|I]; [inversion E; subst; reflexivity|].
  assert (W : forall ws, incl ws words -> In (r, k) (map wrule ws) -> exists w t, k = KWord t /\ In (w, t) words /\ r = Lit (str w)).
  { intros ws S1 J. apply in_map_iff in J as ([w t] & E & J). inversion E; subst. exists w, t. split; [reflexivity|]. split; [now apply S1|reflexivity]. }
  apply in_app_iff in I as [I|I]. { cbn [P2 In] in I. destruct I as [E|[E|[E|[]]]]; inversion E; subst; reflexivity. }
  apply in_app_iff in I as [I|I]. { destruct (W words1) as (w & t & -> & J & ->); [apply incl_appl, incl_refl|exact I|]. now exists w. }
  apply in_app_iff in I as [I|I]. { cbn [In] in I. destruct I as [E|[E|[E|[]]]]; inversion E; subst; reflexivity. }
  apply in_app_iff in I as [I|I]. { destruct (W words2) as (w & t & -> & J & ->); [apply incl_appr, incl_refl|exact I|]. now exists w. }
  cbn [In] in I. destruct I as [E|[E|[E|[]]]]; inversion E; subst; exact Logic.I.
Qed.
Lemma in_somes {A} (x : A) l : In x (somes l) <-> In (Some x) l.
Proof. induction l as [|[y|] l IH]; cbn [somes In]; [tauto| |]; rewrite IH; intuition congruence. Qed.
(** for examples *)
Lemma hexs l : forallb hexc l = true -> Forall hexdigit l.
Proof. intros H. apply Forall_forall. intros c C. rewrite forallb_forall in H. now apply hexc_ok, H. Qed.
Lemma digs l : forallb digitc l = true -> Forall digit l.
Proof. intros H. apply Forall_forall. intros c C. rewrite forallb_forall in H. now apply digitc_ok, H. Qed.

(** Lemmas about the file with a position *)
From Coq Require Import String.
From Verif Require Import Base Regex SpeedFile SpeedFileSpec SpeedFileProofs PosFile PosFileSpec.

Lemma blank_white l : Forall blank l -> Forall white l.
Proof. apply Forall_impl. intros c. unfold blank, white. lia. Qed.
Lemma white_sp l : Forall white l -> forallb sp l = true.
Proof. induction 1 as [|x l H _ IH]; [reflexivity|]. cbn [forallb]. rewrite (proj2 (sp_white x) H). exact IH. Qed.
Lemma word_nw w : word w -> Forall (fun c => ~ white c) w.
Proof. intros [_ F]. eapply Forall_impl; [|exact F]. cbn. tauto. Qed.
Lemma word_skip w s : word w -> skip_sp (w ++ s) = w ++ s.
Proof. intros [N F]. destruct w as [|x w]; [congruence|]. inversion F; subst. apply skip_stop. tauto. Qed.
Lemma span_white c : Forall white c -> span c = ([], c).
Proof. intros F. destruct c as [|x c]; [reflexivity|]. inversion F as [|? ? W ?]; subst. cbn [span]. rewrite (proj2 (sp_white x) W). reflexivity. Qed.
Lemma span_whites c s : Forall white c -> c <> [] -> span (c ++ s) = ([], c ++ s).
Proof. intros F N. destruct c as [|x c]; [congruence|]. inversion F as [|? ? W ?]; subst. cbn [span app]. rewrite (proj2 (sp_white x) W). reflexivity. Qed.
Lemma value_ok b v c : Forall white b -> word v -> Forall white c -> value (b ++ v ++ c) = Some v.
Proof.
  intros B V C. unfold value. rewrite skip_blanks by assumption. rewrite word_skip by assumption. rewrite span_word by (apply word_nw; exact V). rewrite (span_white c C). cbn [fst snd]. rewrite app_nil_r.
  destruct v as [|x v]; [destruct V; congruence|]. rewrite (white_sp c C). reflexivity.
Qed.
Lemma best_none t r : Forall (fun c => c <> 61) t -> best t r = None.
Proof. induction 1 as [|x t H _ IH]; [reflexivity|]. cbn [best]. rewrite IH. replace (x =? 61) with false by lia. reflexivity. Qed.
Lemma best_mid n t r v : Forall (fun c => c <> 61) t -> value (t ++ r) = Some v -> best (n ++ 61 :: t) r = Some (n, v).
Proof. intros F V. induction n as [|x n IH]; cbn [app best]; [rewrite best_none, V by assumption; reflexivity|]. rewrite IH. reflexivity. Qed.
Lemma word_n61 w : word w -> Forall (fun c => c <> 61) w.
Proof. intros [_ F]. eapply Forall_impl; [|exact F]. cbn. tauto. Qed.
Lemma pair_ok n a b v c : word n -> word v -> Forall white a -> Forall white b -> Forall white c -> pair_of (n ++ a ++ [61] ++ b ++ v ++ c) = Some (n, v).
Proof.
  intros N V A B C. unfold pair_of. rewrite word_skip by assumption. rewrite span_word by (apply word_nw; exact N).
  assert (Nn : exists x m, n = x :: m) by (destruct N as [Nn _]; destruct n; [congruence|eauto]).
  destruct a as [|a0 a].
  - cbn [app]. change (span (61 :: b ++ v ++ c)) with (let '(w, t) := span (b ++ v ++ c) in (61 :: w, t)).
    destruct b as [|b0 b].
    + cbn [app]. rewrite span_word by (apply word_nw; exact V). rewrite (span_white c C). cbn [fst snd]. rewrite app_nil_r.
      rewrite (best_mid n v c v (word_n61 v V) (value_ok [] v c (Forall_nil _) V C)).
      destruct Nn as (x & m & ->). cbn [app]. replace (skip_sp c) with (@nil Z); [reflexivity|]. rewrite <- (app_nil_r c). rewrite skip_blanks by assumption. reflexivity.
    + rewrite span_whites by (assumption || discriminate). cbn [fst snd].
      rewrite (best_mid n [] ((b0 :: b) ++ v ++ c) v (Forall_nil _) (value_ok (b0 :: b) v c B V C)).
      rewrite skip_blanks by assumption. rewrite word_skip by assumption. destruct Nn as (x & m & ->). cbn [app].
      destruct V as [Nv Fv]. destruct v as [|y v]; [congruence|]. inversion Fv as [|? ? Hy ?]; subst. cbn [app]. replace (y =? 61) with false by lia. reflexivity.
  - rewrite span_whites by (assumption || discriminate). cbn [fst snd]. rewrite app_nil_r. rewrite skip_blanks by assumption. cbn [app]. rewrite skip_stop by (unfold white; lia). cbn [Z.eqb Pos.eqb].
    rewrite (value_ok b v c) by assumption. destruct Nn as (x & m & ->). reflexivity.
Qed.

(** names *)
Definition keyok (k : list Z) : bool := forallb (fun c => ((97 <=? c) && (c <=? 122)) || ((48 <=? c) && (c <=? 57))) k.
Lemma called_lower k n : keyok k = true -> (called k n <-> map lower n = k).
Proof.
  unfold called. revert n. induction k as [|x k IH]; intros [|y n] K; cbn [map]; try (split; intros H; inversion H; fail).
  - split; intros; [reflexivity|constructor].
  - cbn [keyok forallb] in K. apply andb_prop in K. destruct K as [K1 K2]. split; intros H.
    + inversion H as [|? ? ? ? L F]; subst. f_equal; [|apply IH; assumption]. unfold letter_alike, lower in *. destruct ((65 <=? y) && (y <=? 90)) eqn:E; lia.
    + assert (H1 : lower y = x) by congruence. assert (H2 : map lower n = k) by congruence. constructor; [|apply IH; assumption]. unfold letter_alike, lower in *. destruct ((65 <=? y) && (y <=? 90)) eqn:E; lia.
Qed.
Lemma case_b k n : keyok k = true -> case_eq k n = if list_eq_dec Z.eq_dec (map lower n) k then true else false.
Proof.
  revert n. induction k as [|x k IH]; intros [|y n] K; cbn [case_eq map]; try (destruct (list_eq_dec Z.eq_dec _ _); congruence).
  cbn [keyok forallb] in K. apply andb_prop in K. destruct K as [K1 K2]. rewrite IH by exact K2.
  assert (Lx : lower x = x) by (unfold lower; destruct ((65 <=? x) && (x <=? 90)) eqn:E; lia). rewrite Lx.
  destruct (list_eq_dec Z.eq_dec (map lower n) k) as [E|E], (list_eq_dec Z.eq_dec (lower y :: map lower n) (x :: k)) as [F|F]; destruct (x =? lower y) eqn:G; cbn [andb]; try reflexivity; exfalso.
  - assert (lower y = x) by congruence. lia.
  - apply F. f_equal; [lia|exact E].
  - apply E. congruence.
  - apply E. congruence.
Qed.
Lemma sig_means v x : means signals v x -> sig_of v = Some x.
Proof.
  intros (k & I & C). unfold sig_of. rewrite !case_b by reflexivity. cbn in I.
  repeat (destruct I as [I|I]; [apply pair_equal_spec in I; destruct I as [<- <-]; apply called_lower in C; [|reflexivity]; rewrite C; vm_compute; reflexivity|]). destruct I.
Qed.
Lemma means_sig v x : sig_of v = Some x -> means signals v x.
Proof.
  unfold sig_of. rewrite !case_b by reflexivity.
  repeat match goal with |- context [list_eq_dec Z.eq_dec (map lower v) ?k] => destruct (list_eq_dec Z.eq_dec (map lower v) k) as [E|_]; [intros H; apply Some_inj in H; subst x; exists k; split; [cbn; tauto|apply called_lower; [reflexivity|exact E]]|] end. discriminate.
Qed.
Lemma fix_means v x : means fixes v x -> fix_of v = Some x.
Proof.
  intros (k & I & C). unfold fix_of. rewrite !case_b by reflexivity. cbn in I.
  repeat (destruct I as [I|I]; [apply pair_equal_spec in I; destruct I as [<- <-]; apply called_lower in C; [|reflexivity]; rewrite C; vm_compute; reflexivity|]). destruct I.
Qed.
Lemma means_fix v x : fix_of v = Some x -> means fixes v x.
Proof.
  unfold fix_of. rewrite !case_b by reflexivity.
  repeat match goal with |- context [list_eq_dec Z.eq_dec (map lower v) ?k] => destruct (list_eq_dec Z.eq_dec (map lower v) k) as [E|_]; [intros H; apply Some_inj in H; subst x; exists k; split; [cbn; tauto|apply called_lower; [reflexivity|exact E]]|] end. discriminate.
Qed.
Lemma nums_ok i k : nth_error num_keys i = Some k -> (i < 8)%nat /\ keyok k = true /\ k <> str "sig" /\ k <> str "fix".
Proof. intros H. do 8 (destruct i as [|i]; [cbn in H; apply Some_inj in H; subst k; split; [lia|split; [reflexivity|split; discriminate]]|]). destruct i; discriminate H. Qed.
Lemma nums_inj i j k : nth_error num_keys i = Some k -> nth_error num_keys j = Some k -> i = j.
Proof.
  intros A B. apply (proj1 (NoDup_nth_error num_keys)); [|apply nth_error_Some; congruence|congruence].
  repeat (constructor; [cbn; intros H; repeat (destruct H as [H|H]; [discriminate H|]); exact H|]). constructor.
Qed.
Lemma set_sig {D} (rd : list Z -> option D) n v p : map lower n = str "sig" -> setting rd n v p = match sig_of v with Some x => Some (mkPos (Some x) (p_fix p) (p_num p)) | None => None end.
Proof. intros E. unfold setting. rewrite (case_b (str "sig")) by reflexivity. rewrite E. reflexivity. Qed.
Lemma set_fix {D} (rd : list Z -> option D) n v p : map lower n = str "fix" -> setting rd n v p = match fix_of v with Some x => Some (mkPos (p_sig p) (Some x) (p_num p)) | None => None end.
Proof. intros E. unfold setting. rewrite (case_b (str "sig")), (case_b (str "fix")) by reflexivity. rewrite E. reflexivity. Qed.
Lemma index_ok ks i k n : forallb keyok ks = true -> nth_error ks i = Some k -> NoDup ks -> map lower n = k -> index_of ks n = Some i.
Proof.
  revert i. induction ks as [|x ks IH]; intros i K E N L; [destruct i; discriminate|]. cbn [forallb] in K. apply andb_prop in K. destruct K as [K1 K2]. inversion N as [|? ? Nx N']; subst x0 l. cbn [index_of]. rewrite case_b by exact K1.
  destruct i as [|i]; cbn [nth_error] in E.
  - apply Some_inj in E. rewrite L, E. destruct (list_eq_dec Z.eq_dec k k); congruence.
  - rewrite L. destruct (list_eq_dec Z.eq_dec k x) as [F|_]; [subst x; exfalso; apply Nx; eapply nth_error_In; exact E|]. rewrite (IH i) by assumption. reflexivity.
Qed.
Lemma index_none ks n : forallb keyok ks = true -> (forall k, In k ks -> map lower n <> k) -> index_of ks n = None.
Proof.
  induction ks as [|x ks IH]; intros K N; [reflexivity|]. cbn [forallb] in K. apply andb_prop in K. destruct K as [K1 K2]. cbn [index_of]. rewrite case_b by exact K1.
  destruct (list_eq_dec Z.eq_dec (map lower n) x) as [F|_]; [exfalso; apply (N x); [left; reflexivity|exact F]|]. rewrite IH; [reflexivity|exact K2|]. intros k I. apply N. right. exact I.
Qed.
Lemma nums_nodup : NoDup num_keys.
Proof. repeat (constructor; [cbn; intros H; repeat (destruct H as [H|H]; [discriminate H|]); exact H|]). constructor. Qed.
Lemma set_num {D} (rd : list Z -> option D) i k n v p : nth_error num_keys i = Some k -> map lower n = k ->
  setting rd n v p = match rd v with Some x => Some (mkPos (p_sig p) (p_fix p) (put i x (p_num p))) | None => None end.
Proof.
  intros E L. destruct (nums_ok _ _ E) as (_ & _ & A & B). unfold setting. rewrite (case_b (str "sig")), (case_b (str "fix")) by reflexivity. rewrite (index_ok num_keys i k n); [|reflexivity|exact E|exact nums_nodup|exact L].
  rewrite L. destruct (list_eq_dec Z.eq_dec k (str "sig")); [contradiction|]. destruct (list_eq_dec Z.eq_dec k (str "fix")); [contradiction|]. reflexivity.
Qed.
Lemma put_nth {D} i j (x : D) l : (i < List.length l)%nat -> nth j (put i x l) None = if (j =? i)%nat then Some x else nth j l None.
Proof.
  revert i j. induction l as [|y l IH]; intros i j L; [cbn in L; lia|]. destruct i as [|i], j as [|j]; try reflexivity. unfold put in *. cbn [firstn skipn app nth Nat.eqb]. apply IH. cbn in L. lia.
Qed.
Lemma put_len {D} i (x : D) l : (i < List.length l)%nat -> List.length (put i x l) = List.length l.
Proof. intros L. unfold put. rewrite app_length, firstn_length. cbn [List.length]. rewrite skipn_length. lia. Qed.

(** one line *)
Definition step {D} (rd : list Z -> option D) (l : pline) (p : pos D) : option (pos D) :=
  match l with PComment _ => Some p | PSet n _ _ v _ => setting rd n v p end.
Lemma line_ok {D} (rd : list Z -> option D) l p : shaped l -> pos_line rd (ptext l) p = step rd l p.
Proof.
  intros [_ W]. unfold pos_line. destruct l as [t|n a b v c]; cbn [ptext step].
  - destruct W as [F H]. rewrite cut0_all by (apply Forall_app; split; [eapply Forall_impl; [|exact F]; cbn; tauto|repeat constructor; lia]).
    replace (comment (t ++ [10])) with true; [reflexivity|]. symmetry. unfold comment. destruct H as [H|[r ->]].
    + rewrite white_sp; [reflexivity|]. apply Forall_app. split; [exact H|]. constructor; [unfold white; lia|constructor].
    + cbn [app]. apply orb_true_r.
  - destruct W as (N & H35 & V & A & B & C). apply blank_white in A, B, C.
    assert (C' : Forall white (c ++ [10])) by (apply Forall_app; split; [exact C|]; constructor; [unfold white; lia|constructor]).
    assert (Wn0 : forall l, Forall white l -> Forall (fun c => c <> 0) l) by (intros l; apply Forall_impl; intros c0; unfold white; lia).
    assert (Vn0 : forall w, word w -> Forall (fun c => c <> 0) w) by (intros w [_ F]; eapply Forall_impl; [|exact F]; cbn; tauto).
    rewrite cut0_all by (repeat (apply Forall_app; split; auto); repeat constructor; lia).
    replace (comment (n ++ a ++ [61] ++ b ++ v ++ c ++ [10])) with false.
    + rewrite (pair_ok n a b v (c ++ [10])) by assumption. reflexivity.
    + symmetry. unfold comment. destruct N as [Nn Fn]. destruct n as [|x n]; [congruence|]. inversion Fn as [|? ? Hx ?]; subst. cbn [app forallb hd] in *. destruct (sp x) eqn:E; [apply sp_white in E; tauto|]. cbn [andb orb]. apply Z.eqb_neq. exact H35.
Qed.
Lemma ptext_nl l : shaped l -> exists t, ptext l = t ++ [10] /\ Forall (fun c => c <> 10) t.
Proof.
  intros [_ W]. destruct l as [t|n a b v c]; cbn [ptext].
  - exists t. split; [reflexivity|]. eapply Forall_impl; [|apply W]. cbn. tauto.
  - destruct W as (N & _ & V & A & B & C). exists (n ++ a ++ [61] ++ b ++ v ++ c). split; [repeat rewrite <- app_assoc; reflexivity|].
    assert (Bn : forall l, Forall blank l -> Forall (fun c => c <> 10) l) by (intros l; apply Forall_impl; intros c0; unfold blank; lia).
    assert (Vn : forall w, word w -> Forall (fun c => c <> 10) w) by (intros w [_ F]; eapply Forall_impl; [|exact F]; intros c0; unfold white; cbv beta; lia).
    repeat (apply Forall_app; split; auto); repeat constructor; lia.
Qed.
Fixpoint steps {D} (rd : list Z -> option D) (ls : list pline) (p : pos D) : option (pos D) :=
  match ls with [] => Some p | l :: r => match step rd l p with Some p => steps rd r p | None => None end end.
Lemma one_more {D} (rd : list Z -> option D) l s fuel p : shaped l ->
  pos_lines rd (S fuel) (ptext l ++ s) p = match step rd l p with Some p => pos_lines rd fuel s p | None => None end.
Proof.
  intros Sh. destruct (ptext_nl l Sh) as (t & Et & Ft). pose proof (line_ok rd l p Sh) as L. pose proof (proj1 Sh) as Ln. rewrite Et in *. rewrite app_length in Ln. cbn [List.length] in Ln. rewrite <- app_assoc. cbn [app].
  unfold pos_lines; fold @pos_lines. destruct (t ++ 10 :: s) as [|z zs] eqn:E; [destruct t; discriminate|]. rewrite <- E. rewrite fgets_line by (assumption || lia). rewrite L. reflexivity.
Qed.
Lemma lines_ok {D} (rd : list Z -> option D) ls s p fuel : Forall shaped ls -> (List.length ls <= fuel)%nat ->
  pos_lines rd fuel (concat (map ptext ls) ++ s) p = match steps rd ls p with Some p => pos_lines rd (fuel - List.length ls) s p | None => None end.
Proof.
  intros F. revert fuel p. induction F as [|l ls Sh _ IH]; intros fuel p L; cbn [map concat steps List.length app] in *.
  - rewrite Nat.sub_0_r. reflexivity.
  - destruct fuel as [|fuel]; [lia|]. rewrite <- app_assoc, one_more by exact Sh. destruct (step rd l p) as [q|]; [|reflexivity]. rewrite IH by lia. reflexivity.
Qed.
Lemma plen ls s : Forall shaped ls -> (List.length ls + List.length s <= List.length (concat (map ptext ls) ++ s))%nat.
Proof.
  induction 1 as [|l ls Sh _ IH]; cbn [map concat List.length app]; [lia|]. destruct (ptext_nl l Sh) as (t & Et & _). rewrite Et. rewrite !app_length in *. cbn [List.length]. lia.
Qed.
Lemma steps_app {D} (rd : list Z -> option D) a b p : steps rd (a ++ b) p = match steps rd a p with Some p => steps rd b p | None => None end.
Proof. revert p. induction a as [|l a IH]; intros p; [reflexivity|]. cbn [app steps]. destruct (step rd l p); [apply IH|reflexivity]. Qed.
Lemma last_inv key l x o : last_value key (l ++ [x]) o ->
  (exists n a b v c, x = PSet n a b v c /\ called key n /\ o = Some v) \/ (last_value key l o /\ forall n a b v c, x = PSet n a b v c -> ~ called key n).
Proof.
  intros H. inversion H as [E|l' n a b v c C E|l' x' o' H' N E].
  - destruct l; discriminate.
  - apply app_inj_tail in E. destruct E as [-> <-]. left. repeat eexists. exact C.
  - apply app_inj_tail in E. destruct E as [-> ->]. right. split; assumption.
Qed.
Definition agrees {D} (rd : list Z -> option D) (ls : list pline) (p : pos D) : Prop :=
  (forall o, last_value (str "sig") ls o -> match o with None => p_sig p = None | Some v => exists x, means signals v x /\ p_sig p = Some x end) /\
  (forall o, last_value (str "fix") ls o -> match o with None => p_fix p = None | Some v => exists x, means fixes v x /\ p_fix p = Some x end) /\
  (forall i k o, nth_error num_keys i = Some k -> last_value k ls o -> nth i (p_num p) None = match o with None => None | Some v => rd v end).
Lemma agrees_step {D} (rd : list Z -> option D) ls l p : List.length (p_num p) = 8%nat -> agrees rd ls p -> usable num_keys rd l ->
  exists q, step rd l p = Some q /\ List.length (p_num q) = 8%nat /\ agrees rd (ls ++ [l]) q.
Proof.
  intros L (S1 & F1 & N1) U. destruct l as [t|n a b v c].
  - exists p. split; [reflexivity|]. split; [exact L|]. split; [|split].
    + intros o H. apply last_inv in H. destruct H as [(? & ? & ? & ? & ? & E & _)|[H _]]; [discriminate|]. apply S1, H.
    + intros o H. apply last_inv in H. destruct H as [(? & ? & ? & ? & ? & E & _)|[H _]]; [discriminate|]. apply F1, H.
    + intros i k o K H. apply last_inv in H. destruct H as [(? & ? & ? & ? & ? & E & _)|[H _]]; [discriminate|]. apply (N1 i k o K H).
  - cbn [usable step] in *. destruct U as [(C & x & M)|[(C & x & M)|(k & I & C & R)]].
    + pose proof (proj1 (called_lower (str "sig") n eq_refl) C) as E. rewrite set_sig by exact E. rewrite (sig_means _ _ M). eexists. split; [reflexivity|]. cbn [p_sig p_fix p_num]. split; [exact L|]. split; [|split].
      * intros o H. apply last_inv in H. destruct H as [(n' & a' & b' & v' & c' & E' & _ & ->)|[_ N]]; [|exfalso; eapply N; [reflexivity|exact C]]. replace v' with v by congruence. exists x. split; [exact M|reflexivity].
      * intros o H. apply last_inv in H. destruct H as [(n' & a' & b' & v' & c' & E' & C' & ->)|[H _]]; [|apply F1, H]. exfalso. apply called_lower in C'; [|reflexivity]. replace n' with n in C' by congruence. rewrite E in C'. discriminate C'.
      * intros i k o K H. apply last_inv in H. destruct H as [(n' & a' & b' & v' & c' & E' & C' & ->)|[H _]]; [|apply (N1 i k o K H)]. exfalso. destruct (nums_ok _ _ K) as (_ & Ko & A & B). apply called_lower in C'; [|exact Ko]. replace n' with n in C' by congruence. congruence.
    + pose proof (proj1 (called_lower (str "fix") n eq_refl) C) as E. rewrite set_fix by exact E. rewrite (fix_means _ _ M). eexists. split; [reflexivity|]. cbn [p_sig p_fix p_num]. split; [exact L|]. split; [|split].
      * intros o H. apply last_inv in H. destruct H as [(n' & a' & b' & v' & c' & E' & C' & ->)|[H _]]; [|apply S1, H]. exfalso. apply called_lower in C'; [|reflexivity]. replace n' with n in C' by congruence. rewrite E in C'. discriminate C'.
      * intros o H. apply last_inv in H. destruct H as [(n' & a' & b' & v' & c' & E' & _ & ->)|[_ N]]; [|exfalso; eapply N; [reflexivity|exact C]]. replace v' with v by congruence. exists x. split; [exact M|reflexivity].
      * intros i k o K H. apply last_inv in H. destruct H as [(n' & a' & b' & v' & c' & E' & C' & ->)|[H _]]; [|apply (N1 i k o K H)]. exfalso. destruct (nums_ok _ _ K) as (_ & Ko & A & B). apply called_lower in C'; [|exact Ko]. replace n' with n in C' by congruence. congruence.
    + destruct (In_nth_error _ _ I) as [j J]. destruct (nums_ok _ _ J) as (Lj & Ko & Ns & Nf). pose proof (proj1 (called_lower k n Ko) C) as E. rewrite (set_num rd j k) by assumption. destruct (rd v) as [x|] eqn:Rv; [|congruence]. eexists. split; [reflexivity|]. cbn [p_sig p_fix p_num]. split; [rewrite put_len; lia|]. split; [|split].
      * intros o H. apply last_inv in H. destruct H as [(n' & a' & b' & v' & c' & E' & C' & ->)|[H _]]; [|apply S1, H]. exfalso. apply called_lower in C'; [|reflexivity]. replace n' with n in C' by congruence. congruence.
      * intros o H. apply last_inv in H. destruct H as [(n' & a' & b' & v' & c' & E' & C' & ->)|[H _]]; [|apply F1, H]. exfalso. apply called_lower in C'; [|reflexivity]. replace n' with n in C' by congruence. congruence.
      * intros i k' o K H. cbn [p_num]. rewrite put_nth by lia. destruct (nums_ok _ _ K) as (_ & Ko' & _ & _). apply last_inv in H. destruct H as [(n' & a' & b' & v' & c' & E' & C' & ->)|[H N]].
        -- apply called_lower in C'; [|exact Ko']. replace n' with n in C' by congruence. assert (Ek : k' = k) by congruence. assert (Eij : i = j) by (apply (nums_inj i j k'); [exact K|rewrite Ek; exact J]). rewrite Eij, Nat.eqb_refl. replace v' with v by congruence. symmetry. exact Rv.
        -- destruct (i =? j)%nat eqn:Eij; [|apply (N1 i k' o K H)]. apply Nat.eqb_eq in Eij. subst i. assert (Ek : k' = k) by (rewrite J in K; congruence). exfalso. eapply N; [reflexivity|rewrite Ek; exact C].
Qed.
Lemma agrees_none {D} (rd : list Z -> option D) : agrees rd [] none_yet.
Proof.
  assert (G : forall k o, last_value k [] o -> o = None) by (intros k o H; inversion H as [|l ? ? ? ? ? ? E|l ? ? ? ? E]; [reflexivity|destruct l; discriminate|destruct l; discriminate]).
  split; [|split]; [intros o H; rewrite (G _ _ H); reflexivity|intros o H; rewrite (G _ _ H); reflexivity|]. intros i k o K H. rewrite (G _ _ H). destruct (nums_ok _ _ K) as [L _]. cbn [p_num none_yet]. do 8 (destruct i as [|i]; [reflexivity|]). lia.
Qed.
Lemma agrees_all {D} (rd : list Z -> option D) ls : Forall (usable num_keys rd) ls -> exists p, steps rd ls none_yet = Some p /\ List.length (p_num p) = 8%nat /\ agrees rd ls p.
Proof.
  induction ls as [|l ls IH] using rev_ind; intros F.
  - exists none_yet. split; [reflexivity|]. split; [reflexivity|]. apply agrees_none.
  - apply Forall_app in F. destruct F as [F U]. inversion U as [|? ? U1 _]; subst. destruct (IH F) as (p & E & L & A). destruct (agrees_step rd ls l p L A U1) as (q & Eq & Lq & Aq). exists q. rewrite steps_app, E. cbn [steps]. rewrite Eq. auto.
Qed.
Lemma unusable {D} (rd : list Z -> option D) l p : ~ usable num_keys rd l -> step rd l p = None.
Proof.
  destruct l as [t|n a b v c]; cbn [usable step]; [tauto|]. intros U. unfold setting. rewrite (case_b (str "sig")), (case_b (str "fix")) by reflexivity.
  destruct (list_eq_dec Z.eq_dec (map lower n) (str "sig")) as [E|E].
  { destruct (sig_of v) as [x|] eqn:S1; [|reflexivity]. exfalso. apply U. left. split; [apply called_lower; [reflexivity|exact E]|exists x; apply means_sig; exact S1]. }
  destruct (list_eq_dec Z.eq_dec (map lower n) (str "fix")) as [E2|E2].
  { destruct (fix_of v) as [x|] eqn:S1; [|reflexivity]. exfalso. apply U. right. left. split; [apply called_lower; [reflexivity|exact E2]|exists x; apply means_fix; exact S1]. }
  destruct (in_dec (list_eq_dec Z.eq_dec) (map lower n) num_keys) as [I|I].
  - destruct (In_nth_error _ _ I) as [j J]. destruct (nums_ok _ _ J) as (_ & Ko & _). rewrite (index_ok num_keys j (map lower n) n); [|reflexivity|exact J|exact nums_nodup|reflexivity]. destruct (rd v) eqn:R; [|reflexivity]. exfalso. apply U. right. right. exists (map lower n). split; [exact I|]. split; [apply called_lower; [exact Ko|reflexivity]|congruence].
  - rewrite index_none; [reflexivity|reflexivity|]. intros k Ik E3. apply I. rewrite E3. exact Ik.
Qed.

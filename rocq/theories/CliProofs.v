(** Proofs about the command line. *)
From Coq Require Import QArith String.
From Verif Require Import Base Regex ConfIf ConfCheck Cli CliSpec.

Lemma seqb_spec : forall a b, seqb a b = true <-> a = b.
Proof. intros a b. unfold seqb. destruct (list_eq_dec Z.eq_dec a b); split; congruence. Qed.

(** [rest]: the arguments after the position *)
Definition at_ (v : list (list Z)) (argc pos : nat) (rest : list (list Z)) : Prop :=
  skipn (S pos) v = rest /\ length v = (pos + argc)%nat /\ (1 <= argc)%nat.

Lemma at_len : forall v argc pos rest, at_ v argc pos rest -> argc = S (length rest).
Proof. intros v argc pos rest (A & B & C). subst rest. rewrite skipn_length. lia. Qed.

Lemma skipn_S_tl : forall {A} n (l : list A), skipn (S n) l = tl (skipn n l).
Proof. induction n as [|n IH]; intros [|x l]; try reflexivity. cbn [skipn]. apply IH. Qed.

Lemma nth_error_skipn : forall {A} n (l : list A), nth_error l n = hd_error (skipn n l).
Proof. induction n as [|n IH]; intros [|x l]; try reflexivity. cbn. apply IH. Qed.

Lemma at_next : forall v argc pos s r, at_ v argc pos (s :: r) ->
  nth_error v (S pos) = Some s /\ at_ v (pred argc) (S pos) r /\ (1 < argc)%nat.
Proof.
  intros v argc pos s r H. pose proof (at_len _ _ _ _ H) as L. destruct H as (A & B & C).
  split; [rewrite nth_error_skipn, A; reflexivity|]. cbn [length] in L. split; [|lia].
  split; [rewrite skipn_S_tl, A; reflexivity|]. lia.
Qed.

Lemma at_cur : forall v argc pos rest, at_ v argc pos rest -> exists x, nth_error v pos = Some x.
Proof.
  intros v argc pos rest (A & B & C). destruct (nth_error v pos) eqn:E; [eauto|].
  apply nth_error_None in E. lia.
Qed.

Lemma param_nil : forall v argc pos k, at_ v argc pos [] -> param v argc pos k = TErr.
Proof.
  intros v argc pos k H. pose proof (at_len _ _ _ _ H) as L. cbn [length] in L. subst argc.
  unfold param. cbn [pred Nat.eqb]. destruct (at_cur _ _ _ _ H) as (x & ->). reflexivity.
Qed.
Lemma param_cons : forall v argc pos k p r, at_ v argc pos (p :: r) ->
  param v argc pos k = k p (pred argc) (S pos) /\ at_ v (pred argc) (S pos) r.
Proof.
  intros v argc pos k p r H. destruct (at_next _ _ _ _ _ H) as (N & A & C). split; [|exact A].
  unfold param. replace (Nat.eqb (pred argc) 0) with false; [rewrite N; reflexivity|].
  symmetry. apply Nat.eqb_neq. lia.
Qed.

Lemma queue_add : forall n l, queue_if n l = add_if l n.
Proof.
  intros n l. unfold queue_if, create, add_if.
  destruct (in_dec _ n (map q_name l)) as [I|I].
  - replace (existsb _ l) with true; [reflexivity|]. symmetry. apply existsb_exists.
    apply in_map_iff in I. destruct I as (i & E & I). exists i. split; [exact I|]. now apply seqb_spec.
  - replace (existsb _ l) with false; [reflexivity|]. symmetry.
    destruct (existsb _ l) eqn:E; [|reflexivity]. apply existsb_exists in E.
    destruct E as (i & J & E). apply seqb_spec in E. destruct I. rewrite <- E. now apply in_map.
Qed.

(** after the names the next argument has a dash *)
Definition dashed (r : list (list Z)) : Prop := match r with [] => True | s :: _ => hd 0 s = 45 end.

Lemma more_ok : forall r v fuel argc pos l, at_ v argc pos r -> (length r < fuel)%nat ->
  exists ns r' argc' pos', r = ns ++ r' /\ Forall plain_name ns /\ dashed r' /\
    more_ifs v fuel argc pos l = Some (argc', pos', fold_left add_if ns l) /\ at_ v argc' pos' r'.
Proof.
  induction r as [|s r IH]; intros v fuel argc pos l H F; (destruct fuel as [|n]; [cbn in F; lia|]);
    cbn [more_ifs].
  - exists [], [], argc, pos. pose proof (at_len _ _ _ _ H) as L. cbn in L. subst argc.
    split; [reflexivity|]. split; [constructor|]. split; [exact I|]. split; [reflexivity|exact H].
  - destruct (at_next _ _ _ _ _ H) as (N & A & C). rewrite N.
    replace (Nat.eqb (pred argc) 0) with false by (symmetry; apply Nat.eqb_neq; lia).
    destruct (hd 0 s =? 45) eqn:D.
    + exists [], (s :: r), argc, pos. split; [reflexivity|]. split; [constructor|].
      split; [cbn; lia|]. split; [reflexivity|exact H].
    + destruct (IH v n (pred argc) (S pos) (queue_if s l) A) as (ns & r' & argc' & pos' & E & P & Q & M & B);
        [cbn in F; lia|].
      exists (s :: ns), r', argc', pos'. split; [now rewrite E|].
      split; [constructor; [unfold plain_name; lia|exact P]|]. split; [exact Q|].
      split; [rewrite M; cbn [fold_left]; now rewrite queue_add|exact B].
Qed.

(** an option is complete: a list of names ends at a dash *)
Definition stops (o : opt) (r : list (list Z)) : Prop :=
  match o with PIfs _ _ => dashed r | _ => True end.

Lemma text_hd : forall o, exists s t, text o = s :: t /\ hd 0 s = 45.
Proof.
  intros o. destruct o as [| | | |k p|n ns]; [| | | |destruct k|]; eexists _, _; (split; [reflexivity|]);
    vm_compute; reflexivity.
Qed.

Lemma hemu_ok : forall l, hemu_if l =
  if in_dec (list_eq_dec Z.eq_dec) (str "hcif01") (map q_name l) then None
  else Some ({| q_name := str "hcif01"; q_cnf := Some builtin_bytes; q_cnfi := new_cnfi; q_hemu := true |} :: l).
Proof.
  intros l. unfold hemu_if, create. set (n := str "hcif01").
  destruct (in_dec _ n (map q_name l)) as [I|I].
  - replace (existsb _ l) with true; [reflexivity|]. symmetry. apply existsb_exists.
    apply in_map_iff in I. destruct I as (i & E & I). exists i. split; [exact I|]. now apply seqb_spec.
  - replace (existsb _ l) with false; [reflexivity|]. symmetry.
    destruct (existsb _ l) eqn:E; [|reflexivity]. apply existsb_exists in E.
    destruct E as (i & J & E). apply seqb_spec in E. destruct I. rewrite <- E. now apply in_map.
Qed.

Definition none_fits (args : list (list Z)) : Prop :=
  forall o r, valid o -> args <> text o ++ r.

Section S.
Context {O : Type} (e : env O).

Definition turn_is (v : list (list Z)) (t : turn) (r' : list (list Z)) (m : res both) : Prop :=
  match m with
  | Acc (c', f') => exists argc' pos', t = TNext argc' pos' c' f' /\ at_ v argc' pos' r'
  | Rej => t = TErr
  | Ub => t = TUb
  end.

Definition good_turn (v : list (list Z)) (t : turn) (args : list (list Z)) (c : ccnf) (f : icnf) : Prop :=
  (exists o r', valid o /\ args = text o ++ r' /\ stops o r' /\ turn_is v t r' (means e o (c, f)))
  \/ (t = TErr /\ none_fits args).

(** an option with a value *)
Lemma good_param : forall v argc pos r k c f kont, at_ v argc pos r ->
  (forall p r' argc' pos', r = p :: r' -> at_ v argc' pos' r' ->
     turn_is v (kont p argc' pos') r' (means e (PVal k p) (c, f))) ->
  good_turn v (param v argc pos kont) (vname k :: r) c f.
Proof.
  intros v argc pos r k c f kont H K. destruct r as [|p r].
  - right. split; [now apply param_nil|]. intros o r V E.
    destruct o as [| | | |k' p|n ns]; [| | | |destruct k'|]; destruct k; vm_compute in E; discriminate.
  - destruct (param_cons v argc pos kont p r H) as (E & A). rewrite E. left.
    exists (PVal k p), r. split; [exact I|]. split; [reflexivity|]. split; [exact I|].
    apply K; [reflexivity|exact A].
Qed.

Lemma not_any : forall s r, (forall o, hd [] (text o) <> s) -> none_fits (s :: r).
Proof. intros s r H o r' V E. apply (H o). destruct (text_hd o) as (s' & t & T & _). rewrite T in *. cbn in *. congruence. Qed.

Lemma turn_ok : forall v argc pos s r c f, at_ v argc pos (s :: r) ->
  good_turn v (one_turn e v argc pos c f) (s :: r) c f.
Proof.
  intros v argc pos s r c f H. destruct (at_next _ _ _ _ _ H) as (N & A & C).
  unfold one_turn. rewrite N. clear N H.
  set (argc1 := pred argc) in *. set (pos1 := S pos) in *. clearbody argc1 pos1.
  assert (SW : forall o c' f', valid o -> text o = [s] -> stops o r -> means e o (c, f) = Acc (c', f') ->
             good_turn v (TNext argc1 pos1 c' f') (s :: r) c f).
  { intros o c' f' V T S M. left. exists o, r. split; [exact V|]. rewrite T. split; [reflexivity|].
    split; [exact S|]. rewrite M. exists argc1, pos1. split; [reflexivity|exact A]. }
  destruct (seqb s (str "-f")) eqn:Xf.
  { apply seqb_spec in Xf. right. split; [reflexivity|]. apply not_any. intros o E. subst s.
    destruct o as [| | | |k p|n ns]; [| | | |destruct k|]; vm_compute in E; discriminate. }
  destruct (seqb s (str "-ipv6")) eqn:X1.
  { apply seqb_spec in X1. subst s. apply (SW PIpv6); try exact I; try reflexivity. unfold means. cbn [verdict fst snd].
    destruct c, f; reflexivity. }
  destruct (seqb s (str "-bcast")) eqn:X2.
  { apply seqb_spec in X2. subst s. apply (good_param v argc1 pos1 r VBcast); [exact A|].
    intros p r' a' p' _ B. unfold means. cbn [verdict fst snd]. unfold turn_is.
    destruct (e_p4 e p) eqn:Ep; exists a', p'; (split; [|exact B]); unfold general, per_if; rewrite Ep; destruct c, f; reflexivity. }
  destruct (seqb s (str "-lql")) eqn:X3.
  { apply seqb_spec in X3. subst s. apply (good_param v argc1 pos1 r VLql); [exact A|].
    intros p r' a' p' _ B. unfold means. cbn [verdict fst snd].
    destruct (e_int e p) eqn:Ep; [|reflexivity]. exists a', p'. split; [|exact B]. unfold general, per_if; rewrite Ep; destruct c, f; reflexivity. }
  destruct (seqb s (str "-lqa")) eqn:X4.
  { apply seqb_spec in X4. subst s. apply (good_param v argc1 pos1 r VLqa); [exact A|].
    intros p r' a' p' _ B. unfold means. cbn [verdict fst snd]. destruct (e_flt e p) eqn:Ep; [|reflexivity].
    change (fz 1) with (Fin 1). destruct (_ || _); [reflexivity|]. exists a', p'. split; [|exact B].
    unfold general, per_if; rewrite Ep; destruct c, f; reflexivity. }
  destruct (seqb s (str "-lqnt")) eqn:X5.
  { apply seqb_spec in X5. subst s. apply (good_param v argc1 pos1 r VLqnt); [exact A|].
    intros p r' a' p' _ B. unfold means. cbn [verdict fst snd]. destruct (e_flt e p) eqn:Ep; [|reflexivity].
    change (fz 1) with (Fin 1). destruct (_ || _); [reflexivity|]. exists a', p'. split; [|exact B].
    unfold general, per_if; rewrite Ep; destruct c, f; reflexivity. }
  destruct (seqb s (str "-d")) eqn:X6.
  { apply seqb_spec in X6. subst s. apply (good_param v argc1 pos1 r VDebug); [exact A|].
    intros p r' a' p' _ B. unfold means. cbn [verdict fst snd]. exists a', p'. split; [|exact B].
    unfold general, per_if; destruct (e_int e p) eqn:Ep; destruct c, f; reflexivity. }
  destruct (seqb s (str "-i")) eqn:X7.
  { apply seqb_spec in X7. subst s. destruct r as [|p r].
    { right. split; [now apply param_nil|]. intros o r V E.
      destruct o as [| | | |k p|n ns]; [| | | |destruct k|]; vm_compute in E; discriminate. }
    match goal with |- context [param v argc1 pos1 ?k] => destruct (param_cons v argc1 pos1 k p r A) as (E & B); rewrite E; clear E end.
    destruct (hd 0 p =? 45) eqn:D.
    { right. split; [reflexivity|]. intros o r' V E.
      destruct o as [| | | |k q|n ns]; [| | | |destruct k|]; try (assert (E' := f_equal (hd []) E); vm_compute in E'; discriminate).
      cbn [text app] in E. assert (E' := f_equal (fun l => hd [] (tl l)) E). cbn [hd tl] in E'. subst n.
      cbn in V. inversion V as [|? ? P _]. unfold plain_name in P. lia. }
    destruct (more_ok r v (pred argc1) (pred argc1) (S pos1) (queue_if p (k_ifs c)) B) as (ns & r' & a' & p' & E & P & Q & M & B').
    { rewrite (at_len _ _ _ _ B). lia. }
    rewrite M. left. exists (PIfs p ns), r'. split; [constructor; [unfold plain_name; lia|exact P]|].
    split; [rewrite E; reflexivity|]. split; [exact Q|]. unfold means. cbn [verdict fst snd turn_is].
    exists a', p'. split; [|exact B']. unfold general, per_if. cbn [fold_left]. rewrite queue_add.
    destruct c, f; reflexivity. }
  destruct (seqb s (str "-hint")) eqn:X8.
  { apply seqb_spec in X8. subst s. apply (good_param v argc1 pos1 r VHint); [exact A|].
    intros p r' a' p' _ B. unfold means. cbn [verdict fst snd]. exists a', p'. split; [|exact B].
    unfold general, per_if; destruct (e_flt e p) eqn:Ep; destruct c, f; reflexivity. }
  destruct (seqb s (str "-hnaint")) eqn:X9.
  { apply seqb_spec in X9. subst s. apply (good_param v argc1 pos1 r VHna); [exact A|].
    intros p r' a' p' _ B. unfold means. cbn [verdict fst snd]. exists a', p'. split; [|exact B].
    unfold general, per_if; destruct (e_flt e p) eqn:Ep; destruct c, f; reflexivity. }
  destruct (seqb s (str "-midint")) eqn:X10.
  { apply seqb_spec in X10. subst s. apply (good_param v argc1 pos1 r VMid); [exact A|].
    intros p r' a' p' _ B. unfold means. cbn [verdict fst snd]. exists a', p'. split; [|exact B].
    unfold general, per_if; destruct (e_flt e p) eqn:Ep; destruct c, f; reflexivity. }
  destruct (seqb s (str "-tcint")) eqn:X11.
  { apply seqb_spec in X11. subst s. apply (good_param v argc1 pos1 r VTc); [exact A|].
    intros p r' a' p' _ B. unfold means. cbn [verdict fst snd]. exists a', p'. split; [|exact B].
    unfold general, per_if; destruct (e_flt e p) eqn:Ep; destruct c, f; reflexivity. }
  destruct (seqb s (str "-T")) eqn:X12.
  { apply seqb_spec in X12. subst s. apply (good_param v argc1 pos1 r VPoll); [exact A|].
    intros p r' a' p' _ B. unfold means. cbn [verdict fst snd]. exists a', p'. split; [|exact B].
    unfold general, per_if; destruct (e_flt e p) eqn:Ep; destruct c, f; reflexivity. }
  destruct (seqb s (str "-ipc")) eqn:X13.
  { apply seqb_spec in X13. subst s. apply (SW PIpc); try exact I; try reflexivity. unfold means. cbn [verdict fst snd].
    destruct c, f; reflexivity. }
  destruct (seqb s (str "-multi")) eqn:X14.
  { apply seqb_spec in X14. subst s. apply (good_param v argc1 pos1 r VMulti); [exact A|].
    intros p r' a' p' _ B. unfold means. cbn [verdict fst snd]. destruct (e_p6 e p) eqn:Ep; [|reflexivity].
    exists a', p'. split; [|exact B]. unfold general, per_if; rewrite Ep; destruct c, f; reflexivity. }
  destruct (seqb s (str "-hemu")) eqn:X15.
  { apply seqb_spec in X15. subst s. apply (good_param v argc1 pos1 r VHemu); [exact A|].
    intros p r' a' p' _ B. unfold means. cbn [verdict fst snd]. destruct (e_p4 e p) eqn:Ep; [|reflexivity].
    rewrite hemu_ok. unfold general, per_if, new_hemu. rewrite Ep. cbn [turn_is].
    destruct (in_dec (list_eq_dec Z.eq_dec) (str "hcif01") (map q_name (k_ifs c)));
      exists a', p'; (split; [|exact B]); destruct c, f; reflexivity. }
  destruct (seqb s (str "-delgw")) eqn:X16.
  { apply seqb_spec in X16. subst s. apply (SW PDelgw); try exact I; try reflexivity. unfold means. cbn [verdict fst snd].
    destruct c, f; reflexivity. }
  destruct (seqb s (str "-nofork")) eqn:X17.
  { apply seqb_spec in X17. subst s. apply (SW PNofork); try exact I; try reflexivity. unfold means. cbn [verdict fst snd].
    destruct c, f; reflexivity. }
  destruct (seqb s (str "-pidfile")) eqn:X18.
  { apply seqb_spec in X18. subst s. apply (good_param v argc1 pos1 r VPid); [exact A|].
    intros p r' a' p' _ B. unfold means. cbn [verdict fst snd]. exists a', p'. split; [|exact B].
    unfold general, per_if; destruct c, f; reflexivity. }
  right. split; [reflexivity|]. apply not_any. intros o E. subst s.
  destruct o as [| | | |k p|n ns]; [| | | |destruct k|];
    match goal with X : seqb ?a ?b = false |- _ =>
      assert (T : seqb a b = true) by (vm_compute; reflexivity); rewrite T in X; discriminate X end.
Qed.

(** the first option is determined *)
Lemma ns_unique : forall ns ns' r r', Forall plain_name ns -> Forall plain_name ns' -> dashed r -> dashed r' ->
  ns ++ r = ns' ++ r' -> ns = ns' /\ r = r'.
Proof.
  induction ns as [|n ns IH]; intros [|m ns'] r r' P P' D D' E; cbn [app] in E.
  - auto.
  - subst r. inversion P' as [|? ? Q _]. cbn in D. unfold plain_name in Q. lia.
  - subst r'. inversion P as [|? ? Q _]. cbn in D'. unfold plain_name in Q. lia.
  - inversion E; subst. inversion P; inversion P'; subst. destruct (IH ns' r r') as (-> & ->); auto.
Qed.
Lemma first_unique : forall o o' r r', valid o -> valid o' -> stops o r -> stops o' r' ->
  text o ++ r = text o' ++ r' -> o = o' /\ r = r'.
Proof.
  intros o o' r r' V V' S S' E.
  assert (H := f_equal (hd []) E).
  destruct o as [| | | |k p|n ns]; [| | | |destruct k|]; (destruct o' as [| | | |k' p'|n' ns']; [| | | |destruct k'|]);
    try (vm_compute in H; discriminate H); clear H; cbn [text vname app] in E;
    try (inversion E; subst; auto; fail).
  apply (f_equal (@tl (list Z))) in E. cbn [tl] in E. cbn [valid stops] in *.
  destruct (ns_unique (n :: ns) (n' :: ns') r r' V V' S S' E) as (Q & R). inversion Q; subst. auto.
Qed.

Lemma text_dashed : forall opts, dashed (flat_map text opts).
Proof.
  intros [|o r]; [exact I|]. cbn [flat_map]. destruct (text_hd o) as (s & t & -> & H). exact H.
Qed.

(** the whole loop, for a list of options *)
Lemma turns_means : forall opts v argc pos c f fuel, Forall valid opts -> at_ v argc pos (flat_map text opts) ->
  (length (flat_map text opts) < fuel)%nat -> turns e v fuel argc pos c f = means_all e opts (c, f).
Proof.
  induction opts as [|o opts IH]; intros v argc pos c f fuel W H F; (destruct fuel as [|fuel]; [lia|]); cbn [turns means_all].
  - pose proof (at_len _ _ _ _ H) as La. cbn in La. subst argc. reflexivity.
  - inversion W as [|? ? V W']; subst. cbn [flat_map] in H, F. destruct (text_hd o) as (s & t & T & D).
    assert (Hs : at_ v argc pos (s :: t ++ flat_map text opts)) by (rewrite T in H; exact H).
    destruct (at_next _ _ _ _ _ Hs) as (_ & _ & C). replace (Nat.ltb 1 argc) with true by (symmetry; now apply Nat.ltb_lt).
    destruct (turn_ok v argc pos s (t ++ flat_map text opts) c f Hs) as [(o' & r' & V' & E & S & X)|(X & NF)].
    + change (s :: t ++ flat_map text opts) with ((s :: t) ++ flat_map text opts) in E. rewrite <- T in E.
      destruct (first_unique o o' (flat_map text opts) r' V V') as (<- & <-); [|exact S|exact E|].
      { destruct o; try exact I. apply text_dashed. }
      destruct (means e o (c, f)) as [| |[c' f']]; cbn [turn_is] in X.
      * rewrite X. reflexivity.
      * rewrite X. reflexivity.
      * destruct X as (a' & p' & X & A'). rewrite X. apply IH; [exact W'|exact A'|].
        rewrite app_length, T in F. cbn [length] in F. lia.
    + exfalso. apply (NF o (flat_map text opts) V). rewrite T. reflexivity.
Qed.

(** and for anything *)
Lemma turns_any : forall n v argc pos rest c f fuel, (length rest <= n)%nat -> at_ v argc pos rest -> (length rest < fuel)%nat ->
  exists opts r', Forall valid opts /\ rest = flat_map text opts ++ r' /\
    ((r' = [] /\ turns e v fuel argc pos c f = means_all e opts (c, f)) \/
     (turns e v fuel argc pos c f = Rej) \/
     (turns e v fuel argc pos c f = Ub /\ means_all e opts (c, f) = Ub)).
Proof.
  induction n as [|n IH]; intros v argc pos rest c f fuel L H F; (destruct fuel as [|fuel]; [lia|]); cbn [turns].
  - destruct rest; [|cbn in L; lia]. pose proof (at_len _ _ _ _ H) as La. cbn in La. subst argc.
    exists [], []. split; [constructor|]. split; [reflexivity|]. left. split; reflexivity.
  - destruct rest as [|s r].
    { pose proof (at_len _ _ _ _ H) as La. cbn in La. subst argc.
      exists [], []. split; [constructor|]. split; [reflexivity|]. left. split; reflexivity. }
    destruct (at_next _ _ _ _ _ H) as (_ & _ & C). replace (Nat.ltb 1 argc) with true by (symmetry; now apply Nat.ltb_lt).
    destruct (turn_ok v argc pos s r c f H) as [(o & r' & V & E & S & T)|(T & NF)].
    + assert (Lr : (length r' < length (s :: r))%nat).
      { rewrite E, app_length. destruct (text_hd o) as (s' & t' & -> & _). cbn [length]. lia. }
      destruct (means e o (c, f)) as [| |[c' f']] eqn:M; cbn [turn_is] in T.
      * rewrite T. exists [o], r'. split; [constructor; [exact V|constructor]|].
        split; [cbn [flat_map]; rewrite app_nil_r; exact E|]. right. left. reflexivity.
      * rewrite T. exists [o], r'. split; [constructor; [exact V|constructor]|].
        split; [cbn [flat_map]; rewrite app_nil_r; exact E|]. right. right. split; [reflexivity|].
        cbn [means_all]. now rewrite M.
      * destruct T as (a' & p' & T & A'). rewrite T.
        destruct (IH v a' p' r' c' f' fuel) as (opts & r2 & W & E2 & X); [cbn [length] in *; lia|exact A'|cbn [length] in *; lia|].
        exists (o :: opts), r2. split; [constructor; assumption|].
        split; [cbn [flat_map]; rewrite <- app_assoc, <- E2; exact E|]. cbn [means_all]. rewrite M. exact X.
    + rewrite T. exists [], (s :: r). split; [constructor|]. split; [reflexivity|]. right. left. reflexivity.
Qed.

Lemma at_start : forall p args, at_ (p :: args) (length (p :: args)) 0 args.
Proof. intros p args. split; [reflexivity|]. cbn [length]. lia. Qed.

Lemma process_means : forall p opts c f, Forall valid opts ->
  process e (p :: flat_map text opts) c f = means_all e opts (c, f).
Proof.
  intros p opts c f W. unfold process. apply turns_means; [exact W|apply at_start|cbn [length]; lia].
Qed.
Lemma process_acc : forall p args c f s, process e (p :: args) c f = Acc s ->
  exists opts, Forall valid opts /\ args = flat_map text opts /\ means_all e opts (c, f) = Acc s.
Proof.
  intros p args c f s H. unfold process in H.
  destruct (turns_any (length args) (p :: args) _ 0 args c f (S (length (p :: args))) (le_n _) (at_start p args)) as (opts & r' & W & E & X);
    [cbn [length]; lia|].
  destruct X as [(-> & X)|[X|(X & _)]]; rewrite H in X; [|discriminate|discriminate].
  exists opts. split; [exact W|]. split; [now rewrite app_nil_r in E|]. now symmetry.
Qed.

Lemma means_ub : forall opts s, means_all e opts s = Ub -> exists a k p b,
  opts = a ++ PVal k p :: b /\
  match k with VLql => e_int e p = None | VLqa | VLqnt => e_flt e p = None | _ => False end.
Proof.
  induction opts as [|o opts IH]; intros s H; [discriminate H|]. cbn [means_all] in H.
  unfold means in H. destruct (verdict e o) as [| |] eqn:V.
  - discriminate H.
  - clear H IH. destruct o as [| | | |k p|n ns]; try discriminate V. exists [], k, p, opts. split; [reflexivity|].
    destruct k; cbn [verdict] in V; try discriminate V.
    + destruct (e_int e p); [discriminate V|reflexivity].
    + destruct (e_flt e p); [destruct (_ || _); discriminate V|reflexivity].
    + destruct (e_flt e p); [destruct (_ || _); discriminate V|reflexivity].
    + destruct (e_p6 e p); discriminate V.
    + destruct (e_p4 e p); discriminate V.
  - destruct (IH _ H) as (x & k & p & b & -> & Q). exists (o :: x), k, p, b. split; [reflexivity|exact Q].
Qed.

Lemma process_ub : forall p args c f, process e (p :: args) c f = Ub -> ~ numeric e args.
Proof.
  intros p args c f H N. unfold process in H.
  destruct (turns_any (length args) (p :: args) _ 0 args c f (S (length (p :: args))) (le_n _) (at_start p args)) as (opts & r' & W & E & X);
    [cbn [length]; lia|].
  assert (M : means_all e opts (c, f) = Ub) by (destruct X as [(_ & X)|[X|(_ & X)]]; [rewrite H in X; now symmetry|rewrite H in X; discriminate|exact X]).
  destruct (means_ub opts _ M) as (a & k & q & b & -> & Q).
  rewrite flat_map_app in E. cbn [flat_map text] in E. rewrite <- !app_assoc in E. cbn [app] in E.
  set (pre := flat_map text a) in *.
  assert (N1 : nth_error args (length pre) = Some (vname k)) by (rewrite E, nth_error_app2, Nat.sub_diag by lia; reflexivity).
  assert (N2 : nth_error args (S (length pre)) = Some q).
  { rewrite E, nth_error_app2 by lia. replace (S (length pre) - length pre)%nat with 1%nat by lia. reflexivity. }
  specialize (N _ _ _ N1 N2). destruct k; try contradiction; congruence.
Qed.
End S.

(** no interface gets the settings of the command line *)
Lemma means_cnf : forall {O} (e : env O) opts s s', means_all e opts s = Acc s' ->
  Forall (fun i => q_cnf i <> None) (k_ifs (fst s)) -> Forall (fun i => q_cnf i <> None) (k_ifs (fst s')).
Proof.
  intros O e opts. induction opts as [|o opts IH]; intros s s' H F; cbn [means_all] in H.
  - now inversion H; subst.
  - unfold means in H. destruct (verdict e o); try discriminate H. apply (IH _ _ H). cbn [fst]. unfold general. cbn [k_ifs].
    assert (A : forall ns l, Forall (fun i => q_cnf i <> None) l -> Forall (fun i => q_cnf i <> None) (fold_left add_if ns l)).
    { induction ns as [|n ns IHn]; intros l Fl; [exact Fl|]. cbn [fold_left]. apply IHn. unfold add_if.
      destruct (in_dec _ n _); [exact Fl|]. constructor; [discriminate|exact Fl]. }
    destruct o as [| | | |k p|n ns]; try exact F; [|apply A; exact F].
    destruct k; try exact F. destruct (new_hemu _ _); [|exact F]. constructor; [discriminate|exact F].
Qed.
Lemma set_default_id : forall b l, Forall (fun i => q_cnf i <> None) l -> set_default b l = l.
Proof.
  intros b l F. induction F as [|i l N _ IH]; [reflexivity|]. unfold set_default in *. cbn [map]. rewrite IH. f_equal.
  destruct i as [n [x|] ci h]; cbn in *; [reflexivity|congruence].
Qed.

(** * Files *)
Lemma split_cons : forall a b r, split_files (a :: b :: r) =
  if list_eq_dec Z.eq_dec a (str "-f") then let (x, y) := split_files r in (x, b :: y)
  else let (x, y) := split_files (b :: r) in (a :: x, y).
Proof. reflexivity. Qed.
Lemma find_ok : forall n v argc i files pre args fuel, (length args <= n)%nat ->
  firstn argc v = pre ++ args -> length pre = i -> argc = length (pre ++ args) -> (length args < fuel)%nat -> (1 <= i)%nat ->
  exists v' argc', find_files fuel v argc i files = Some (v', argc', files ++ snd (split_files args)) /\
    firstn argc' v' = pre ++ fst (split_files args).
Proof.
  induction n as [|n IH]; intros v argc i files pre args fuel L E P A F I1; (destruct fuel as [|fuel]; [lia|]); cbn [find_files].
  - destruct args; [|cbn in L; lia]. rewrite app_nil_r in A. replace (Nat.ltb i (argc - 1)) with false by (symmetry; apply Nat.ltb_ge; lia).
    exists v, argc. cbn [split_files fst snd]. split; [now rewrite app_nil_r|exact E].
  - destruct args as [|a [|b r]].
    { rewrite app_nil_r in A. replace (Nat.ltb i (argc - 1)) with false by (symmetry; apply Nat.ltb_ge; lia).
      exists v, argc. cbn [split_files fst snd]. split; [now rewrite app_nil_r|exact E]. }
    { rewrite app_length in A. cbn [length] in A. replace (Nat.ltb i (argc - 1)) with false by (symmetry; apply Nat.ltb_ge; lia).
      exists v, argc. cbn [split_files fst snd]. split; [now rewrite app_nil_r|exact E]. }
    rewrite app_length in A. cbn [length] in A, F, L.
    replace (Nat.ltb i (argc - 1)) with true by (symmetry; apply Nat.ltb_lt; lia).
    assert (V : v = pre ++ a :: b :: r ++ skipn argc v) by (rewrite <- (firstn_skipn argc v) at 1; rewrite E, <- app_assoc; reflexivity).
    set (w := skipn argc v) in *.
    assert (N1 : nth_error v i = Some a) by (rewrite V, nth_error_app2, P, Nat.sub_diag by lia; reflexivity).
    assert (N2 : nth_error v (S i) = Some b).
    { rewrite V, nth_error_app2 by lia. replace (S i - length pre)%nat with 1%nat by lia. reflexivity. }
    rewrite N1, N2, split_cons. unfold seqb. destruct (list_eq_dec Z.eq_dec a (str "-f")) as [Ea|Ea].
    + destruct (split_files r) as [x y] eqn:Sr.
      assert (K : forall v', firstn (argc - 2) v' = pre ++ r -> exists v'' argc', find_files fuel v' (argc - 2) i (files ++ [b]) = Some (v'', argc', files ++ b :: y) /\
                 firstn argc' v'' = pre ++ x).
      { intros v' E'. destruct (IH v' (argc - 2)%nat i (files ++ [b]) pre r fuel) as (v'' & argc' & X & Y);
          [lia|exact E'|exact P|rewrite app_length; lia|lia|lia|].
        exists v'', argc'. rewrite Sr in X, Y. cbn [fst snd] in X, Y. rewrite <- app_assoc in X. split; assumption. }
      cbn [fst snd]. apply K. destruct (Nat.ltb (i + 2) argc) eqn:Lt.
      * rewrite V. replace (firstn i (pre ++ a :: b :: r ++ w)) with pre.
        2:{ rewrite firstn_app, P, Nat.sub_diag, firstn_O, app_nil_r. symmetry. apply firstn_all2. lia. }
        replace (skipn (i + 2) (pre ++ a :: b :: r ++ w)) with (r ++ w).
        2:{ rewrite skipn_app, skipn_all2 by lia. replace (i + 2 - length pre)%nat with 2%nat by lia. reflexivity. }
        rewrite app_assoc. rewrite firstn_app, firstn_all2 by (rewrite app_length; lia).
        replace (argc - 2 - length (pre ++ r))%nat with 0%nat by (rewrite app_length; lia). now rewrite firstn_O, app_nil_r.
      * apply Nat.ltb_ge in Lt. assert (r = []) by (destruct r; [reflexivity|cbn [length] in A; lia]). subst r.
        rewrite V. rewrite firstn_app, firstn_all2 by (cbn [length] in A; lia). cbn [length] in A.
        replace (argc - 2 - length pre)%nat with 0%nat by lia. now rewrite firstn_O.
    + destruct (split_files (b :: r)) as [x y] eqn:Sr.
      destruct (IH v argc (S i) files (pre ++ [a]) (b :: r) fuel) as (v'' & argc' & X & Y).
      * cbn [length]. lia.
      * rewrite <- app_assoc. exact E.
      * rewrite app_length. cbn [length]. lia.
      * rewrite !app_length. cbn [length]. lia.
      * cbn [length]. lia.
      * lia.
      * exists v'', argc'. rewrite Sr in X, Y. cbn [fst snd] in *. rewrite <- app_assoc in Y. split; [exact X|exact Y].
Qed.
Lemma load_args_ok : forall p args, load_args (p :: args) = Some (p :: fst (split_files args), snd (split_files args)).
Proof.
  intros p args. unfold load_args.
  destruct (find_ok (length args) (p :: args) (length (p :: args)) 1 [] [p] args (S (length (p :: args)))) as (v' & argc' & E & Y);
    [apply le_n|apply firstn_all|reflexivity|reflexivity|cbn [length]; lia|apply le_n|].
  rewrite E, Y. reflexivity.
Qed.

(** * Order of the interfaces *)
Definition dec := list_eq_dec Z.eq_dec.
Definition push (l : list (list Z)) (n : list Z) : list (list Z) := n :: remove dec n l.

Lemma take_out_names : forall n l ls, map p_name l = map Some ls -> NoDup ls ->
  exists o r, take_out n l = Some (o, r) /\ map p_name r = map Some (remove dec n ls) /\
    match o with Some i => p_name i = Some n | None => True end.
Proof.
  intros n l. induction l as [|i l IH]; intros ls E D.
  - destruct ls; [|discriminate E]. exists None, []. repeat split.
  - destruct ls as [|m ls]; [discriminate E|]. cbn [map] in E. injection E as E1 E2. inversion D as [|? ? NI D']; subst.
    cbn [take_out]. rewrite E1. unfold neqb. cbn [remove]. destruct (list_eq_dec Z.eq_dec m n) as [->|N].
    + exists (Some i), l. split; [reflexivity|]. destruct (dec n n); [|congruence]. rewrite notin_remove by exact NI. auto.
    + destruct (IH ls E2 D') as (o & r & T & R & Q). rewrite T. exists o, (i :: r). split; [reflexivity|].
      destruct (dec n m); [congruence|]. cbn [map]. rewrite R, E1. auto.
Qed.
Lemma push_nodup : forall n l, NoDup l -> NoDup (push l n).
Proof.
  intros n l D. constructor; [apply remove_In|]. induction D as [|x l NI D IH]; [constructor|]. cbn [remove].
  destruct (dec n x); [exact IH|]. constructor; [|exact IH]. intro X. apply in_remove in X. tauto.
Qed.
Lemma nick_names : forall names s ls s', map p_name (t_ifs s) = map Some ls -> NoDup ls -> seqM ifnick names s = Some s' ->
  map p_name (t_ifs s') = map Some (fold_left push names ls) /\ NoDup (fold_left push names ls).
Proof.
  induction names as [|n names IH]; intros s ls s' E D H; cbn [seqM fold_left] in *; [inversion H; subst; auto|].
  unfold ifnick at 1 in H. destruct (take_out_names n (t_ifs s) ls E D) as (o & r & T & R & Q). rewrite T in H.
  apply (IH _ (push ls n) s') in H; [exact H| |now apply push_nodup]. cbn [t_ifs map]. unfold push. cbn [map]. f_equal; [|exact R].
  destruct o as [i|]; [exact Q|reflexivity].
Qed.
Lemma first_k_names : forall k f l l', (forall i i', f i = Some i' -> p_name i' = p_name i) -> first_k k f l = Some l' ->
  map p_name l' = map p_name l.
Proof.
  induction k as [|k IH]; intros f [|i l] l' F H; cbn [first_k] in H; try discriminate H; try (now inversion H).
  destruct (f i) eqn:Ei; [|discriminate H]. destruct (first_k k f l) eqn:El; [|discriminate H]. inversion H; subst. cbn [map].
  f_equal; [now apply F|now apply (IH f l)].
Qed.
Lemma body_names : forall body s s', seqM stmt body s = Some s' -> map p_name (t_ifs s') = map p_name (t_ifs s).
Proof.
  induction body as [|x body IH]; intros s s' H; cbn [seqM] in H; [now inversion H|].
  destruct (stmt x s) as [s1|] eqn:E; [|discriminate H]. rewrite (IH _ _ H). clear H IH. unfold stmt in E.
  destruct (first_k _ _ (t_ifs s)) as [l|] eqn:K; [|discriminate E]. inversion E; subst. cbn [t_ifs].
  apply (first_k_names _ _ _ _) in K; [exact K|]. intros i i' F. destruct x as [off v|m].
  - unfold set_one in F. destruct (write (p_cnf i) off v); [|discriminate F]. destruct (write (p_cnfi i) off v); [|discriminate F]. now inversion F.
  - now inversion F.
Qed.
Lemma blocks_names : forall bs s ls s', map p_name (t_ifs s) = map Some ls -> NoDup ls -> seqM run_block bs s = Some s' ->
  map p_name (t_ifs s') = map Some (fold_left push (all_names bs) ls) /\ NoDup (fold_left push (all_names bs) ls).
Proof.
  induction bs as [|b bs IH]; intros s ls s' E D H; cbn [seqM all_names] in *; [inversion H; subst; auto|].
  destruct (run_block b s) as [s1|] eqn:R; [|discriminate H]. destruct b as [names body|body]; cbn [run_block] in R.
  - destruct (seqM ifnick names (ifstart s)) as [s0|] eqn:K; [|discriminate R].
    destruct (nick_names names (ifstart s) ls s0 E D K) as (E0 & D0). rewrite fold_left_app.
    apply (IH s1); [rewrite (body_names _ _ _ R); exact E0|exact D0|exact H].
  - destruct (seqM stmt body (def_open s)) as [s0|] eqn:K; [|discriminate R]. apply body_names in K. cbn [def_open t_ifs map] in K.
    unfold def_close in R. destruct (t_ifs s0) as [|i r]; [discriminate R|]. inversion R; subst. cbn [map] in K.
    injection K as _ K. apply (IH {| t_ifs := r; t_cnt := 0; t_defs := Some (p_cnf i, p_mults i) |} ls); [cbn [t_ifs]; congruence|exact D|exact H].
Qed.
Definition outside (xs : list (list Z)) (y : list Z) : bool := if in_dec dec y xs then false else true.
Lemma push_all : forall xs l, NoDup l -> fold_left push xs l = rev (nodup dec xs) ++ filter (outside xs) l.
Proof.
  induction xs as [|x xs IH]; intros l D; cbn [fold_left nodup].
  - cbn [rev app]. symmetry. assert (F : forall l, filter (outside []) l = l) by (induction l0 as [|y l0 IHl]; [reflexivity|cbn [filter outside in_dec]; rewrite IHl; reflexivity]). apply F.
  - rewrite IH by now apply push_nodup. unfold push.
    assert (F : forall m, filter (outside xs) (remove dec x m) = filter (outside (x :: xs)) m).
    { induction m as [|y m IHm]; [reflexivity|]. cbn [remove filter]. unfold outside at 2. destruct (dec x y) as [->|N].
      - destruct (in_dec dec y (y :: xs)) as [_|N]; [exact IHm|]. destruct N. now left.
      - cbn [filter]. unfold outside at 1. destruct (in_dec dec y xs) as [I|NI].
        + destruct (in_dec dec y (x :: xs)) as [_|N2]; [exact IHm|]. destruct N2. now right.
        + destruct (in_dec dec y (x :: xs)) as [[I|I]|_]; [congruence|contradiction|]. f_equal. exact IHm. }
    cbn [filter]. unfold outside at 1. destruct (in_dec dec x xs) as [I|NI].
    + rewrite F. reflexivity.
    + cbn [rev]. rewrite <- app_assoc. cbn [app]. now rewrite F.
Qed.
Lemma load_names : forall bs s ls s', map p_name (t_ifs s) = map Some ls -> NoDup ls -> load bs s = Some s' ->
  map p_name (t_ifs s') = map Some (rev (filter (outside (all_names bs)) ls) ++ nodup dec (all_names bs)).
Proof.
  intros bs s ls s' E D H. unfold load in H. destruct (seqM run_block bs s) as [s1|] eqn:R; [|discriminate H].
  inversion H; subst. cbn [t_ifs]. rewrite map_rev, (proj1 (blocks_names bs s ls s1 E D R)), <- map_rev, push_all by exact D.
  now rewrite rev_app_distr, rev_involutive.
Qed.

Lemma nodup_right : forall (a b : list (list Z)), NoDup (a ++ b) -> NoDup b.
Proof. induction a as [|x a IH]; intros b D; [exact D|]. cbn [app] in D. inversion D. now apply IH. Qed.
Lemma nodup_left : forall (a b : list (list Z)), NoDup (a ++ b) -> NoDup a.
Proof.
  induction a as [|x a IH]; intros b D; [constructor|]. cbn [app] in D. inversion D as [|? ? NI D']; subst.
  constructor; [|now apply (IH b)]. intro I. apply NI. apply in_or_app. now left.
Qed.

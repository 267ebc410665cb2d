From Verif Require Import Base HttpInfo HttpSendSpec.

Lemma bytes_app s t1 t2 : bytes_to s (t1 ++ t2) = bytes_to s t1 ++ bytes_to s t2.
Proof. apply flat_map_app. Qed.
Lemma bytes_same s b : bytes_to s [Sent s b] = b.
Proof. cbn. destruct (Z.eq_dec s s); [apply app_nil_r|congruence]. Qed.
Lemma bytes_other s s' b : s <> s' -> bytes_to s [Sent s' b] = [].
Proof. intros N. cbn. destruct (Z.eq_dec s s'); [congruence|reflexivity]. Qed.

(** the sockets of the open slots, the ended ones and the ones to come are different *)
Record Inv (l : list slot) (nx : Z) (t : list ev) : Prop := mkInv {
  i_nodup : NoDup (map sl_sock l);
  i_open : forall k, In k l -> In (Queued (sl_sock k) (sl_buf k)) t /\ ~ In (Closed (sl_sock k)) t /\
             bytes_to (sl_sock k) t = firstn (sl_done k) (sl_buf k) /\ (sl_done k < length (sl_buf k))%nat;
  i_ended : forall s b, In (Queued s b) t ->
             (exists k, In k l /\ sl_sock k = s /\ sl_buf k = b) \/
             (In (Closed s) t /\ starts (bytes_to s t) b /\ (bytes_to s t = b \/ In (Failed s) t));
  i_fresh : forall s, nx <= s -> ~ In (Closed s) t /\ bytes_to s t = [] /\ forall b, ~ In (Queued s b) t;
  i_old : forall k, In k l -> sl_sock k < nx;
  i_one : forall s b b', In (Queued s b) t -> In (Queued s b') t -> b = b';
  i_quiet : quiet_after_close t }.

Lemma quiet_snoc t e : quiet_after_close t ->
  (forall s b, e = Sent s b -> ~ In (Closed s) t) -> (forall s, e = Closed s -> ~ In (Closed s) t) ->
  quiet_after_close (t ++ [e]).
Proof.
  intros Q HS HC t1 s t2 E.
  destruct (@exists_last _ (Closed s :: t2)) as (x & y & E2); [discriminate|].
  rewrite E2, app_assoc in E. apply app_inj_tail in E. destruct E as [E ->].
  destruct x as [|x0 x].
  - cbn in E2. injection E2 as <- ->. split; [reflexivity|intros []].
  - cbn in E2. injection E2 as <- ->. destruct (Q _ _ _ E) as [B N].
    assert (I : In (Closed s) t) by (rewrite E; apply in_or_app; right; left; reflexivity).
    rewrite bytes_app, B. split.
    + destruct y as [? ?|s' b| |]; try reflexivity. destruct (Z.eq_dec s s') as [->|D]; [|apply bytes_other; exact D].
      exfalso. exact (HS _ _ eq_refl I).
    + intros J. apply in_app_or in J. destruct J as [J|[J|[]]]; [tauto|]. exact (HC s J I).
Qed.

Lemma in_mid {A} (x : A) p q y : In x (p ++ y :: q) <-> x = y \/ In x (p ++ q).
Proof. rewrite !in_app_iff. cbn [In]. intuition congruence. Qed.
Lemma nodup_mid p k q : NoDup (map sl_sock (p ++ k :: q)) -> NoDup (map sl_sock (p ++ q)) /\ forall x, In x (p ++ q) -> sl_sock x <> sl_sock k.
Proof.
  rewrite !map_app. cbn [map]. intros N. split; [exact (NoDup_remove_1 _ _ _ N)|].
  intros x I E. apply (NoDup_remove_2 _ _ _ N). rewrite <- E, <- map_app. apply in_map. exact I.
Qed.

Lemma in_snoc {A} (x : A) t e : In x (t ++ [e]) <-> In x t \/ x = e.
Proof. rewrite in_app_iff. cbn [In]. intuition congruence. Qed.

Lemma firstn_plus {A} (n : nat) : forall d (l : list A), firstn d l ++ firstn n (skipn d l) = firstn (d + n) l.
Proof. induction d as [|d IH]; intros [|x l]; cbn; auto; [apply firstn_nil|]. f_equal. apply IH. Qed.
Lemma inv_write p k q nx t n : Inv (p ++ k :: q) nx t -> (sl_done k + n < length (sl_buf k))%nat ->
  Inv (p ++ mkSl (sl_sock k) (sl_buf k) (sl_done k + n) :: q) nx (t ++ [Sent (sl_sock k) (firstn n (skipn (sl_done k) (sl_buf k)))]).
Proof.
  intros [N O En F Ol On Q] L. destruct (nodup_mid _ _ _ N) as [N' D].
  assert (Ik : In k (p ++ k :: q)) by (apply in_mid; left; reflexivity).
  destruct (O k Ik) as (O1 & O2 & O3 & O4).
  constructor.
  - rewrite !map_app in *. exact N.
  - intros x I. apply in_mid in I. destruct I as [->|I].
    + cbn [sl_sock sl_buf sl_done]. rewrite !in_snoc. repeat split; auto.
      * intros [?|?]; [tauto|discriminate].
      * rewrite bytes_app, O3, bytes_same.
        apply firstn_plus.
    + destruct (O x ltac:(apply in_mid; right; exact I)) as (P1 & P2 & P3 & P4). rewrite !in_snoc. repeat split; auto.
      * intros [?|?]; [tauto|discriminate].
      * rewrite bytes_app, bytes_other by (apply D; exact I). rewrite app_nil_r. exact P3.
  - intros s b I. apply in_snoc in I. destruct I as [I|I]; [|discriminate].
    destruct (En s b I) as [(x & Ix & E1 & E2)|(C & S1 & S2)].
    + left. apply in_mid in Ix. destruct Ix as [->|Ix].
      * eexists. split; [apply in_mid; left; reflexivity|]. cbn. auto.
      * exists x. split; [apply in_mid; right; exact Ix|auto].
    + right. assert (s <> sl_sock k) by (intros ->; tauto).
      rewrite bytes_app, bytes_other by assumption. rewrite app_nil_r, !in_snoc. tauto.
  - intros s G. destruct (F s G) as (F1 & F2 & F3). assert (s <> sl_sock k) by (specialize (Ol k Ik); lia).
    rewrite bytes_app, bytes_other, F2 by assumption. repeat split; [|intros b]; rewrite in_snoc; intros [?|?]; try discriminate; [tauto|exact (F3 b H0)].
  - intros x I. apply in_mid in I. destruct I as [->|I]; [exact (Ol k Ik)|apply Ol; apply in_mid; right; exact I].
  - intros s b b' J J'. apply in_snoc in J, J'. destruct J as [J|J]; [|discriminate]. destruct J' as [J'|J']; [|discriminate]. exact (On s b b' J J').
  - apply quiet_snoc; [exact Q| |discriminate]. intros s b E. injection E as <- _. exact O2.
Qed.

Lemma inv_end p k q nx t ev : Inv (p ++ k :: q) nx t ->
  (ev = Sent (sl_sock k) (skipn (sl_done k) (sl_buf k)) \/ ev = Failed (sl_sock k)) ->
  Inv (p ++ q) nx (t ++ [ev; Closed (sl_sock k)]).
Proof.
  intros [N O En F Ol On Q] E. destruct (nodup_mid _ _ _ N) as [N' D].
  assert (Ik : In k (p ++ k :: q)) by (apply in_mid; left; reflexivity).
  destruct (O k Ik) as (O1 & O2 & O3 & O4).
  assert (Bo : forall s, s <> sl_sock k -> bytes_to s [ev; Closed (sl_sock k)] = []).
  { intros s NE. destruct E as [-> | ->]; [|reflexivity].
    match goal with |- bytes_to s [?a; ?b] = _ => change [a; b] with ([a] ++ [b]) end. rewrite bytes_app, bytes_other by exact NE. reflexivity. }
  assert (NQ : forall s b, Queued s b <> ev) by (intros s b; destruct E as [-> | ->]; discriminate).
  assert (NC : forall s, Closed s <> ev) by (intros s; destruct E as [-> | ->]; discriminate).
  assert (IC : forall s, In (Closed s) (t ++ [ev; Closed (sl_sock k)]) <-> In (Closed s) t \/ s = sl_sock k).
  { intros s. rewrite in_app_iff. cbn [In]. split; [intros [?|[H|[H|[]]]]|intros [?| ->]]; auto.
    - exfalso. exact (NC s (eq_sym H)). - injection H as <-. auto. }
  assert (IQ : forall s b, In (Queued s b) (t ++ [ev; Closed (sl_sock k)]) <-> In (Queued s b) t).
  { intros s b. rewrite in_app_iff. cbn [In]. split; [intros [?|[H|[H|[]]]]|]; auto.
    - exfalso. exact (NQ s b (eq_sym H)). - discriminate. }
  constructor.
  - exact N'.
  - intros x I. destruct (O x ltac:(apply in_mid; right; exact I)) as (P1 & P2 & P3 & P4).
    rewrite IC, IQ, bytes_app, Bo, app_nil_r by (apply D; exact I). repeat split; auto.
    intros [?|H]; [tauto|]. exact (D x I H).
  - intros s b I. apply IQ in I. rewrite IC. destruct (Z.eq_dec s (sl_sock k)) as [->|NE].
    + right. split; [right; reflexivity|].
      assert (b = sl_buf k).
      { destruct (En _ _ I) as [(x & Ix & E1 & E2)|(C & _)]; [|tauto].
        apply in_mid in Ix. destruct Ix as [->|Ix]; [congruence|]. exfalso. exact (D x Ix E1). }
      subst b. rewrite bytes_app, O3. destruct E as [-> | ->].
      * replace (bytes_to (sl_sock k) _) with (skipn (sl_done k) (sl_buf k)).
        2:{ match goal with |- _ = bytes_to _ [?a; ?b] => change [a; b] with ([a] ++ [b]) end. rewrite bytes_app, bytes_same. symmetry. apply app_nil_r. }
        rewrite firstn_skipn. split; [exists []; rewrite app_nil_r; reflexivity|left; reflexivity].
      * cbn [bytes_to flat_map]. rewrite ?app_nil_r. split.
        -- exists (skipn (sl_done k) (sl_buf k)). symmetry. apply firstn_skipn.
        -- right. rewrite in_app_iff. right. left. reflexivity.
    + destruct (En s b I) as [(x & Ix & E1 & E2)|(C & S1 & S2)].
      * left. apply in_mid in Ix. destruct Ix as [->|Ix]; [congruence|]. exists x. auto.
      * right. rewrite bytes_app, Bo, app_nil_r by assumption. rewrite in_app_iff. tauto.
  - intros s G. destruct (F s G) as (F1 & F2 & F3). assert (s <> sl_sock k) by (specialize (Ol k Ik); lia).
    rewrite IC, bytes_app, Bo, F2 by assumption. repeat split; [tauto|intros b; rewrite IQ; apply F3].
  - intros x I. apply Ol. apply in_mid. right. exact I.
  - intros s b b' J J'. apply IQ in J, J'. exact (On s b b' J J').
  - replace (t ++ [ev; Closed (sl_sock k)]) with ((t ++ [ev]) ++ [Closed (sl_sock k)]) by (rewrite <- app_assoc; reflexivity).
    apply quiet_snoc.
    + apply quiet_snoc; [exact Q| |].
      * intros s b H. destruct E as [-> | ->]; [injection H as <- _; exact O2|discriminate].
      * intros s H. exfalso. exact (NC s (eq_sym H)).
    + discriminate.
    + intros s H. injection H as <-. rewrite in_snoc. intros [?|H]; [tauto|exact (NC _ H)].
Qed.

Lemma inv_round ready wr nx : forall l skip p t l' t', Inv (p ++ l) nx t -> round ready wr skip l = (l', t') ->
  Inv (p ++ l') nx (t ++ t').
Proof.
  induction l as [|k l IH]; intros skip p t l' t' I E; cbn [round] in E.
  - injection E as <- <-. rewrite app_nil_r with (l := t). exact I.
  - destruct (skip || negb (ready (sl_sock k))).
    + destruct (round ready wr false l) as [l1 t1] eqn:R. injection E as <- <-.
      replace (p ++ k :: l1) with ((p ++ [k]) ++ l1) by (rewrite <- app_assoc; reflexivity).
      refine (IH _ _ _ _ _ _ R). rewrite <- app_assoc. exact I.
    + assert (L : (sl_done k < length (sl_buf k))%nat) by (apply (i_open _ _ _ I k); apply in_mid; left; reflexivity).
      destruct (wr (sl_sock k) <=? 0) eqn:W.
      * destruct (round ready wr true l) as [l1 t1] eqn:R. injection E as <- <-.
        replace (t ++ Failed (sl_sock k) :: Closed (sl_sock k) :: t1) with ((t ++ [Failed (sl_sock k); Closed (sl_sock k)]) ++ t1)
          by (rewrite <- app_assoc; reflexivity).
        refine (IH _ _ _ _ _ _ R). eapply inv_end; [exact I|right; reflexivity].
      * set (n := Nat.min (Z.to_nat (wr (sl_sock k))) (length (sl_buf k) - sl_done k)) in *.
        assert (Ln : (n <= length (sl_buf k) - sl_done k)%nat) by (unfold n; lia).
        destruct (sl_done k + n =? length (sl_buf k))%nat eqn:G.
        -- destruct (round ready wr true l) as [l1 t1] eqn:R. injection E as <- <-.
           match goal with |- Inv _ _ (t ++ ?a :: ?b :: t1) => replace (t ++ a :: b :: t1) with ((t ++ [a; b]) ++ t1) by (rewrite <- app_assoc; reflexivity) end.
           refine (IH _ _ _ _ _ _ R). eapply inv_end; [exact I|left]. f_equal. apply firstn_all2. rewrite skipn_length. lia.
        -- destruct (round ready wr false l) as [l1 t1] eqn:R. injection E as <- <-.
           match goal with |- Inv (p ++ ?x :: l1) _ (t ++ ?a :: t1) =>
             replace (t ++ a :: t1) with ((t ++ [a]) ++ t1) by (rewrite <- app_assoc; reflexivity);
             replace (p ++ x :: l1) with ((p ++ [x]) ++ l1) by (rewrite <- app_assoc; reflexivity) end.
           refine (IH _ _ _ _ _ _ R). rewrite <- app_assoc. cbn [app]. apply inv_write; [exact I|lia].
Qed.

Definition good (i : input) : Prop := match i with IReq (Some b) => b <> [] | _ => True end.

Lemma quiet_fresh_close t s : quiet_after_close t -> ~ In (Closed s) t -> quiet_after_close (t ++ [Closed s]).
Proof. intros Q N. apply quiet_snoc; [exact Q|discriminate|]. intros s' E. injection E as <-. exact N. Qed.

Lemma inv_step h i t h' t' : Inv (h_slots h) (h_next h) t -> good i -> hstep h i = (h', t') -> Inv (h_slots h') (h_next h') (t ++ t').
Proof.
  intros I G E. destruct i as [[b|]|sel ready wr]; cbn [hstep] in E.
  - destruct (MAX_CLIENTS <=? length (h_slots h))%nat; injection E as <- <-; [rewrite app_nil_r; exact I|].
    cbn [h_slots h_next]. destruct I as [N O En F Ol On Q]. destruct (F (h_next h) ltac:(lia)) as (F1 & F2 & F3).
    assert (B : forall s, bytes_to s (t ++ [Queued (h_next h) b]) = bytes_to s t) by (intros s; rewrite bytes_app; cbn; apply app_nil_r).
    assert (IC : forall s, In (Closed s) (t ++ [Queued (h_next h) b]) <-> In (Closed s) t) by (intros s; rewrite in_snoc; split; [intros [?|?]; [auto|discriminate]|auto]).
    constructor.
    + rewrite map_app. cbn [map sl_sock]. apply NoDup_rev in N. rewrite <- (rev_involutive (map sl_sock (h_slots h) ++ [h_next h])).
      apply NoDup_rev. rewrite rev_app_distr. constructor; [|exact N]. rewrite <- in_rev. intros J. apply in_map_iff in J.
      destruct J as (k & E & J). specialize (Ol k J). lia.
    + intros k J. rewrite IC, B. apply in_snoc in J. destruct J as [J| ->].
      * destruct (O k J) as (? & ? & ? & ?). rewrite in_snoc. auto.
      * cbn [sl_sock sl_buf sl_done]. rewrite in_snoc, F2. repeat split; auto. destruct b; [cbn in G; congruence|cbn [length]; lia].
    + intros s b' J. rewrite IC, B. apply in_snoc in J. destruct J as [J|J].
      * destruct (En s b' J) as [(k & K1 & K2 & K3)|K]; [left; exists k; rewrite in_snoc; auto|right]. rewrite in_snoc. tauto.
      * injection J as -> ->. left. eexists. rewrite in_snoc. split; [right; reflexivity|]. auto.
    + intros s J. rewrite IC, B. destruct (F s ltac:(lia)) as (? & ? & K). repeat split; auto. intros b'. rewrite in_snoc.
      intros [?|E]; [exact (K b' H1)|]. injection E as -> _. lia.
    + intros k J. apply in_snoc in J. destruct J as [J| ->]; [specialize (Ol k J); lia|cbn; lia].
    + intros s b1 b2 J J'. apply in_snoc in J, J'. destruct J as [J|J], J' as [J'|J'].
      * exact (On s b1 b2 J J').
      * injection J' as -> _. exfalso. exact (F3 b1 J).
      * injection J as -> _. exfalso. exact (F3 b2 J').
      * congruence.
    + apply quiet_snoc; [exact Q|discriminate|discriminate].
  - destruct (MAX_CLIENTS <=? length (h_slots h))%nat; injection E as <- <-; [rewrite app_nil_r; exact I|].
    cbn [h_slots h_next]. destruct I as [N O En F Ol On Q]. destruct (F (h_next h) ltac:(lia)) as (F1 & F2 & F3).
    assert (B : forall s, bytes_to s (t ++ [Closed (h_next h)]) = bytes_to s t) by (intros s; rewrite bytes_app; cbn; apply app_nil_r).
    assert (IQ : forall s b, In (Queued s b) (t ++ [Closed (h_next h)]) <-> In (Queued s b) t) by (intros s b; rewrite in_snoc; split; [intros [?|?]; [auto|discriminate]|auto]).
    constructor; auto.
    + intros k J. rewrite IQ, B, in_snoc. destruct (O k J) as (? & ? & ? & ?). repeat split; auto. intros [?|E]; [auto|].
      injection E as E. specialize (Ol k J). lia.
    + intros s b J. apply IQ in J. rewrite B, !in_snoc. destruct (En s b J) as [K|K]; [left; exact K|right; tauto].
    + intros s J. destruct (F s ltac:(lia)) as (? & ? & K). rewrite B, in_snoc. repeat split; auto.
      * intros [?|E]; [auto|]. injection E as ->. lia.
      * intros b. rewrite IQ. apply K.
    + intros k J. specialize (Ol k J). lia.
    + intros s b b' J J'. apply IQ in J, J'. exact (On s b b' J J').
    + apply quiet_fresh_close; auto.
  - destruct (negb (h_timer h)); [injection E as <- <-; rewrite app_nil_r; exact I|].
    destruct (sel <=? 0); [injection E as <- <-; rewrite app_nil_r; exact I|].
    destruct (round ready wr false (h_slots h)) as [l1 t1] eqn:R. injection E as <- <-. cbn [h_slots h_next].
    exact (inv_round ready wr (h_next h) _ false [] t l1 t1 I R).
Qed.
Lemma inv_run is : forall h t h' t', Inv (h_slots h) (h_next h) t -> Forall good is -> hrun h is = (h', t') -> Inv (h_slots h') (h_next h') (t ++ t').
Proof.
  induction is as [|i is IH]; intros h t h' t' I G E; cbn [hrun] in E.
  - injection E as <- <-. rewrite app_nil_r. exact I.
  - inversion G; subst. destruct (hstep h i) as [h1 t1] eqn:E1. destruct (hrun h1 is) as [h2 t2] eqn:E2. injection E as <- <-.
    rewrite app_assoc. eapply IH; [|eassumption|exact E2]. eapply inv_step; eassumption.
Qed.
Lemma inv0 : Inv (h_slots hst0) (h_next hst0) [].
Proof.
  constructor; cbn; auto; try tauto; [constructor|]. intros t1 s t2 E. destruct t1; discriminate.
Qed.

(** ** At most three, and the timer *)
Lemma round_len ready wr : forall l skip, (length (fst (round ready wr skip l)) <= length l)%nat.
Proof.
  induction l as [|k l IH]; intros skip; cbn [round length]; [cbn; lia|].
  pose proof (IH true) as I1. pose proof (IH false) as I2.
  destruct (round ready wr true l) as [a b], (round ready wr false l) as [c d]. cbn [fst] in *.
  destruct (skip || negb (ready (sl_sock k))); [cbn [fst length]; lia|].
  destruct (wr (sl_sock k) <=? 0); [cbn [fst length]; lia|].
  destruct (_ =? _)%nat; cbn [fst length]; lia.
Qed.
Definition Tm (h : hst) : Prop := (length (h_slots h) <= 3)%nat /\ (h_timer h = true <-> h_slots h <> []).
Lemma tm_step h i : Tm h -> Tm (fst (hstep h i)).
Proof.
  intros [L T]. destruct i as [[b|]|sel ready wr]; cbn [hstep].
  - destruct (MAX_CLIENTS <=? length (h_slots h))%nat eqn:E; cbn [fst]; [split; assumption|].
    unfold MAX_CLIENTS in E. unfold Tm. cbn [h_slots h_timer]. rewrite app_length. cbn [length]. split; [lia|].
    destruct (h_slots h) as [|k r]; cbn; [split; [discriminate|reflexivity]|]. rewrite T. split; discriminate.
  - destruct (MAX_CLIENTS <=? length (h_slots h))%nat eqn:E; cbn [fst]; split; assumption.
  - destruct (negb (h_timer h)); [split; assumption|]. destruct (sel <=? 0); [split; assumption|].
    pose proof (round_len ready wr (h_slots h) false) as R. destruct (round ready wr false (h_slots h)) as [l t]. cbn [fst] in *.
    unfold Tm. cbn [h_slots h_timer]. split; [lia|]. destruct l; cbn; split; congruence.
Qed.
Lemma tm_run is : forall h, Tm h -> Tm (fst (hrun h is)).
Proof.
  induction is as [|i is IH]; intros h T; cbn [hrun]; [exact T|].
  pose proof (tm_step h i T) as T1. destruct (hstep h i) as [h1 t1]. specialize (IH h1 T1). destruct (hrun h1 is). exact IH.
Qed.

(** ** Progress *)
Definition left_of (l : list slot) : nat := fold_right (fun k a => (length (sl_buf k) - sl_done k + a)%nat) 0%nat l.
Lemma left_cons k l : left_of (k :: l) = (length (sl_buf k) - sl_done k + left_of l)%nat.
Proof. reflexivity. Qed.
Lemma round_left ready wr : forall l skip, (left_of (fst (round ready wr skip l)) <= left_of l)%nat.
Proof.
  induction l as [|k l IH]; intros skip; [cbn; lia|]; cbn [round]; rewrite left_cons.
  pose proof (IH true) as I1. pose proof (IH false) as I2.
  destruct (round ready wr true l) as [a b], (round ready wr false l) as [c d]. cbn [fst] in *.
  destruct (skip || negb (ready (sl_sock k))); [cbn [fst]; rewrite left_cons; lia|].
  destruct (wr (sl_sock k) <=? 0); [cbn [fst]; lia|].
  destruct (_ =? _)%nat; cbn [fst]; rewrite ?left_cons; cbn [sl_buf sl_done]; lia.
Qed.
Lemma round_less ready wr k l : ready (sl_sock k) = true -> 0 < wr (sl_sock k) -> (sl_done k < length (sl_buf k))%nat ->
  (left_of (fst (round ready wr false (k :: l))) < left_of (k :: l))%nat.
Proof.
  intros R W L. cbn [round]; rewrite (left_cons k l). rewrite R. cbn [orb negb].
  pose proof (round_left ready wr l true) as I1. pose proof (round_left ready wr l false) as I2.
  destruct (round ready wr true l) as [a b], (round ready wr false l) as [c d]. cbn [fst] in *.
  destruct (wr (sl_sock k) <=? 0); [cbn [fst]; lia|].
  destruct (_ =? _)%nat; cbn [fst]; rewrite ?left_cons; cbn [sl_buf sl_done]; lia.
Qed.

Lemma run_empties : forall js h t, Inv (h_slots h) (h_next h) t -> Tm h -> Forall all_take js -> (left_of (h_slots h) <= length js)%nat ->
  h_slots (fst (hrun h js)) = [].
Proof.
  induction js as [|j js IH]; intros h t I T F L; cbn [hrun length] in *.
  - cbn [fst]. destruct (h_slots h) as [|k r] eqn:E; [reflexivity|].
    destruct (i_open _ _ _ I k ltac:(left; reflexivity)) as (_ & _ & _ & D). cbn [left_of fold_right] in L. lia.
  - inversion F as [|? ? A F']; subst. destruct j as [b|sel ready wr]; [destruct A|]. destruct A as [S A].
    destruct (hstep h (ITimer sel ready wr)) as [h1 t1] eqn:E.
    assert (I1 : Inv (h_slots h1) (h_next h1) (t ++ t1)) by (eapply inv_step; [exact I| |exact E]; exact Logic.I).
    assert (T1 : Tm h1) by (pose proof (tm_step h (ITimer sel ready wr) T) as T1; rewrite E in T1; exact T1).
    specialize (IH h1 (t ++ t1) I1 T1 F').
    assert (X : (left_of (h_slots h1) <= length js)%nat).
    { cbn [hstep] in E. destruct (h_slots h) as [|k r] eqn:Sl.
      - destruct (h_timer h) eqn:Th; [destruct T as [_ T]; rewrite Sl in T; destruct T as [T _]; specialize (T Th); congruence|].
        cbn [negb] in E. injection E as <- _. rewrite Sl. cbn. lia.
      - assert (Th : h_timer h = true) by (apply T; rewrite Sl; discriminate). rewrite Th in E. cbn [negb] in E.
        replace (sel <=? 0) with false in E by lia.
        destruct (A (sl_sock k)) as [A1 A2].
        destruct (i_open _ _ _ I k ltac:(left; reflexivity)) as (_ & _ & _ & D).
        pose proof (round_less ready wr k r A1 A2 D) as Rl.
        destruct (round ready wr false (k :: r)) as [l2 t2]. injection E as <- _. cbn [h_slots fst] in *. lia. }
    specialize (IH X). destruct (hrun h1 js). exact IH.
Qed.

Lemma all_bytes_app a b : all_bytes (a ++ b) = (all_bytes a + all_bytes b)%nat.
Proof. induction a as [|x a IH]; [reflexivity|]. unfold all_bytes in *. cbn [app fold_right]. rewrite IH. lia. Qed.
Lemma left_app a b : left_of (a ++ b) = (left_of a + left_of b)%nat.
Proof. induction a as [|x a IH]; [reflexivity|]. cbn [app]. rewrite !left_cons, IH. lia. Qed.
Lemma left_bound is : forall h t, (left_of (h_slots h) <= all_bytes t)%nat ->
  (left_of (h_slots (fst (hrun h is))) <= all_bytes (t ++ snd (hrun h is)))%nat.
Proof.
  induction is as [|i is IH]; intros h t L; cbn [hrun]; [cbn [fst snd]; rewrite app_nil_r; exact L|].
  destruct (hstep h i) as [h1 t1] eqn:E.
  assert (L1 : (left_of (h_slots h1) <= all_bytes (t ++ t1))%nat).
  { rewrite all_bytes_app. destruct i as [[b|]|sel ready wr]; cbn [hstep] in E.
    - destruct (_ <=? _)%nat; injection E as <- <-; cbn [h_slots]; [lia|]. rewrite left_app, left_cons. cbn. lia.
    - destruct (_ <=? _)%nat; injection E as <- <-; cbn [h_slots]; lia.
    - destruct (negb (h_timer h)); [injection E as <- <-; lia|]. destruct (sel <=? 0); [injection E as <- <-; lia|].
      pose proof (round_left ready wr (h_slots h) false) as R. destruct (round ready wr false (h_slots h)) as [l2 t2].
      injection E as <- _. cbn [h_slots fst] in *. lia. }
  specialize (IH h1 (t ++ t1) L1). destruct (hrun h1 is) as [h2 t2]. cbn [fst snd] in *. rewrite app_assoc. exact IH.
Qed.
Lemma hrun_app a : forall h b, hrun h (a ++ b) = let '(h1, t1) := hrun h a in let '(h2, t2) := hrun h1 b in (h2, t1 ++ t2).
Proof.
  induction a as [|i a IH]; intros h b; cbn [app hrun].
  - destruct (hrun h b). reflexivity.
  - destruct (hstep h i) as [h1 t1]. rewrite IH. destruct (hrun h1 a) as [h2 t2]. destruct (hrun h2 b) as [h3 t3]. rewrite app_assoc. reflexivity.
Qed.

From Coq Require Import String Permutation.
From Verif Require Import Base Bytes NetBuf Parser ParserProofs Compare CompareProofs SecureProofs Regex NameSvc NameSvcSpec NameSvcProofs NameMsgProofs NameRunProofs.

(** ** The same message again *)
Definition kept (t : Z) : Prop := 0 <= t <= 2.
Lemma known_kept c typ len ip name l : kept typ -> forall r ch, known c typ len ip name l = Some (r, ch) -> r = l /\ ch = false.
Proof.
  intros K. induction l as [|e l IH]; intros r ch; [discriminate|]. cbn [known]. unfold kept in K.
  destruct (_ && strn_eq _ _ _). { intros E. inversion E. auto. } destruct (_ && ipeq _ _ _). { intros E. inversion E. auto. }
  replace (typ =? LATLON) with false by (unfold LATLON; lia). destruct (known c typ len ip name l) as [[r0 ch0]|]; [|discriminate]. cbn [option_map]. destruct (IH _ _ eq_refl) as [-> ->]. intros E. inversion E. auto.
Qed.
Lemma strn_refl a n : strn_eq a a n = true.
Proof. unfold strn_eq. now apply bytes_eqb_spec. Qed.
Lemma ipeq_refl c a : ipeq c a a = true.
Proof. unfold ipeq. now apply bytes_eqb_spec. Qed.
Lemma known_new c typ len ip name l : kept typ -> known c typ len ip name (mkN ip typ len name :: l) = Some (mkN ip typ len name :: l, false).
Proof.
  intros K. cbn [known n_name n_ip]. rewrite strn_refl, ipeq_refl, !andb_true_r. unfold kept in K. destruct ((typ =? HOST) || (typ =? SERVICE)) eqn:E; [reflexivity|].
  replace (typ =? FORWARDER) with true by (unfold HOST, SERVICE, FORWARDER in *; lia). reflexivity.
Qed.
Lemma known_cons c typ len ip name l e : kept typ -> known c typ len ip name l = Some (l, false) -> known c typ len ip name (e :: l) = Some (e :: l, false).
Proof.
  intros K H. cbn [known]. unfold kept in K. destruct (_ && strn_eq _ _ _); [reflexivity|]. destruct (_ && ipeq _ _ _); [reflexivity|].
  replace (typ =? LATLON) with false by (unfold LATLON; lia). rewrite H. reflexivity.
Qed.
(** a place in memory that is decoded without effect *)
Definition stable (c : ncf) (m : list Z) (p : Z) (l : list nent) : Prop := decap c m p l = Some (l, false).
Lemma decap_cases c m p typ l l' ch : rd16 m p = Some typ -> kept typ -> decap c m p l = Some (l', ch) -> (l' = l /\ ch = false \/ exists e, l' = e :: l) /\ stable c m p l'.
Proof.
  intros R K. unfold stable, decap. rewrite R. destruct (rd16 m (p + 2)) as [len|]; [|discriminate]. destruct (rdn m (p + 4) 16) as [ip|]; [|discriminate].
  destruct ((typ =? FORWARDER) && (len >? MAXNAME)). { intros E. inversion E. auto. } destruct (str_at m (p + 20)) as [name|]; [|discriminate].
  destruct (malformed c typ name). { intros E. inversion E. auto. } destruct (_ || _). { intros E. inversion E. auto. }
  destruct (known c typ len ip name l) as [[r ch0]|] eqn:Kn.
  - intros E. inversion E; subst. destruct (known_kept _ _ _ _ _ _ K _ _ Kn) as [-> ->]. rewrite Kn. auto.
  - intros E. inversion E; subst. rewrite known_new by exact K. eauto.
Qed.
Lemma stable_cons c m p typ l e : rd16 m p = Some typ -> kept typ -> stable c m p l -> stable c m p (e :: l).
Proof.
  intros R K. unfold stable, decap. rewrite R. destruct (rd16 m (p + 2)) as [len|]; [|discriminate]. destruct (rdn m (p + 4) 16) as [ip|]; [|discriminate].
  destruct ((typ =? FORWARDER) && (len >? MAXNAME)); [reflexivity|]. destruct (str_at m (p + 20)) as [name|]; [|discriminate]. destruct (malformed c typ name); [reflexivity|]. destruct (_ || _); [reflexivity|].
  destruct (known c typ len ip name l) as [[r ch0]|] eqn:Kn.
  - intros E. inversion E; subst. now rewrite (known_cons _ _ _ _ _ _ _ K Kn).
  - intros E. inversion E.
Qed.
(** whether decoding is defined depends on memory only *)
Lemma decap_defined c m p l l' : decap c m p l <> None -> decap c m p l' <> None.
Proof.
  unfold decap. destruct (rd16 m p) as [typ|]; [|auto]. destruct (rd16 m (p + 2)) as [len|]; [|auto]. destruct (rdn m (p + 4) 16) as [ip|]; [|auto].
  destruct (_ && _); [discriminate|]. destruct (str_at m (p + 20)) as [name|]; [|auto]. destruct (malformed c typ name); [discriminate|]. destruct (_ || _); [discriminate|].
  destruct (known c typ len ip name l'); discriminate.
Qed.
(** decoding of the place has no effect on a table *)
Definition settled (c : ncf) (m : list Z) (p : Z) (orig : list Z) (vt : Z) (t : list dbent) : Prop :=
  Forall (fun d => ipeq c orig (d_orig d) = true -> d_vt d = vt /\ stable c m p (d_names d)) t.
Definition has (c : ncf) (orig : list Z) (t : list dbent) : Prop := Exists (fun d => ipeq c orig (d_orig d) = true) t.
Lemma settled_into c m p orig vt t : settled c m p orig vt t -> exists f, into c m p orig vt t = Some (t, f, false) /\ (has c orig t -> f = true).
Proof.
  induction 1 as [|d t Hd F (f & Ef & Hf)]; cbn [into]; [exists false; split; [reflexivity|intros H; inversion H]|]. rewrite Ef.
  destruct (ipeq c orig (d_orig d)) eqn:E.
  - destruct (Hd eq_refl) as [V S]. rewrite S. exists true. subst vt. destruct d. split; [|reflexivity]. reflexivity.
  - exists f. split; [reflexivity|]. intros H. inversion H; subst; [congruence|now apply Hf].
Qed.
Lemma settled_insert c m p orig vt t : settled c m p orig vt t -> has c orig t -> insert_name c m p orig vt t = Some (t, false).
Proof. intros S H. unfold insert_name. destruct (settled_into _ _ _ _ _ _ S) as (f & -> & Hf). now rewrite (Hf H). Qed.
(** an insertion: every entry of the originator is as before but for the validity time, or has got one name more *)
Definition grown (c : ncf) (m : list Z) (p : Z) (orig : list Z) (vt : Z) (d d' : dbent) : Prop :=
  d_orig d' = d_orig d /\ (ipeq c orig (d_orig d) = false -> d' = d) /\
  (ipeq c orig (d_orig d) = true -> d_vt d' = vt /\ (d_names d' = d_names d \/ exists e, d_names d' = e :: d_names d) /\ stable c m p (d_names d')).
Lemma into_grown c m p typ orig vt t : rd16 m p = Some typ -> kept typ -> forall t' f ch, into c m p orig vt t = Some (t', f, ch) -> Forall2 (grown c m p orig vt) t t' /\ (f = true -> has c orig t').
Proof.
  intros R K. induction t as [|d t IH]; intros t' f ch; cbn [into].
  - intros E. inversion E; subst. split; [constructor|discriminate].
  - destruct (ipeq c orig (d_orig d)) eqn:Q.
    + destruct (decap c m p (d_names d)) as [[ns ch1]|] eqn:D; [|discriminate]. destruct (into c m p orig vt t) as [[[r f0] ch2]|]; [|discriminate]. intros E. inversion E; subst.
      destruct (IH _ _ _ eq_refl) as [F Hf]. destruct (decap_cases _ _ _ _ _ _ _ R K D) as [C S]. split.
      * constructor; [|exact F]. split; [reflexivity|]. split; [congruence|]. intros _. cbn [d_vt d_names]. split; [reflexivity|]. split; [|exact S]. destruct C as [[-> _]|C]; auto.
      * intros _. constructor 1. exact Q.
    + destruct (into c m p orig vt t) as [[[r f0] ch2]|]; [|discriminate]. intros E. inversion E; subst. destruct (IH _ _ _ eq_refl) as [F Hf]. split.
      * constructor; [|exact F]. split; [reflexivity|]. split; [reflexivity|congruence].
      * intros Hft. constructor 2. now apply Hf.
Qed.
Lemma insert_settles c m p typ orig vt t t' ch : rd16 m p = Some typ -> kept typ -> insert_name c m p orig vt t = Some (t', ch) ->
  settled c m p orig vt t' /\ has c orig t' /\
  (forall q, rd16 m q = Some typ -> settled c m q orig vt t -> has c orig t -> settled c m q orig vt t').
Proof.
  intros R K. unfold insert_name. destruct (into c m p orig vt t) as [[[t1 f] ch1]|] eqn:I; [|discriminate].
  destruct (into_grown _ _ _ _ _ _ _ R K _ _ _ I) as [F Hf].
  assert (S1 : settled c m p orig vt t1).
  { clear - F. induction F as [|d d' l l' G F IH]; constructor; [|exact IH]. destruct G as (E & _ & G). rewrite E. intros Q. destruct (G Q) as (V & _ & S). auto. }
  assert (S2 : forall q, rd16 m q = Some typ -> settled c m q orig vt t -> settled c m q orig vt t1).
  { intros q Rq. clear - F Rq K. induction F as [|d d' l l' G F IH]; intros S; [constructor|]. inversion S as [|? ? Sd Sl]; subst. constructor; [|now apply IH].
    destruct G as (E & _ & G). rewrite E. intros Q. destruct (G Q) as (V & [-> | [e ->]] & _); split; try exact V; [now apply Sd|]. apply (stable_cons _ _ _ typ); auto. now apply Sd. }
  destruct f.
  - intros E. inversion E; subst. split; [exact S1|]. split; [now apply Hf|]. intros q Rq Sq _. now apply S2.
  - destruct (decap c m p []) as [[ns ch2]|] eqn:D; [|discriminate]. intros E. inversion E; subst. destruct (decap_cases _ _ _ _ _ _ _ R K D) as [_ S].
    split; [|split].
    + apply Forall_app. split; [exact S1|]. constructor; [|constructor]. intros _. auto.
    + apply Exists_app. right. constructor. cbn [d_orig]. apply ipeq_refl.
    + intros q Rq Sq Hh. destruct (settled_into _ _ _ _ _ _ S1) as (f & _ & _).
      (* the originator is in the table: the first case applies *)
      exfalso. clear - I Hh. revert t1 ch1 I. induction Hh as [d t Q|d t H IH]; intros t1 ch1; cbn [into].
      * rewrite Q. destruct (decap c m p (d_names d)) as [[ns ch]|]; [|discriminate]. destruct (into c m p orig vt t) as [[[r f0] ch2]|]; discriminate.
      * destruct (ipeq c orig (d_orig d)). { destruct (decap c m p (d_names d)) as [[ns ch]|]; [|discriminate]. destruct (into c m p orig vt t) as [[[r f0] ch2]|]; discriminate. }
        destruct (into c m p orig vt t) as [[[r f0] ch2]|]; [|discriminate]. intros E. inversion E; subst. eapply IH; eauto.
Qed.
Lemma insert_defined c m p orig vt t t' : insert_name c m p orig vt t <> None -> insert_name c m p orig vt t' <> None.
Proof.
  intros H. assert (D : forall l, decap c m p l <> None).
  { intros l Dl. assert (N : forall l', decap c m p l' = None) by (intros l'; destruct (decap c m p l') eqn:E; [|reflexivity]; exfalso; revert Dl; apply (decap_defined c m p l'); now rewrite E).
    apply H. unfold insert_name. destruct (into c m p orig vt t) as [[[t1 f] ch1]|] eqn:I; [|reflexivity]. destruct f; [|now rewrite N].
    exfalso. revert t1 ch1 I. clear - N. induction t as [|d t IH]; intros t1 ch1; cbn [into]; [discriminate|]. rewrite N. destruct (ipeq c orig (d_orig d)); [discriminate|].
    destruct (into c m p orig vt t) as [[[r f0] ch2]|]; [|discriminate]. intros E. inversion E; subst. eapply IH; eauto. }
  unfold insert_name. assert (I : exists x, into c m p orig vt t' = Some x).
  { induction t' as [|d t' (x & IH)]; cbn [into]; [eauto|]. rewrite IH. destruct x as [[r f] ch]. destruct (ipeq c orig (d_orig d)); [|eauto]. specialize (D (d_names d)). destruct (decap c m p (d_names d)) as [[ns ch1]|]; [eauto|congruence]. }
  destruct I as ([[t1 f] ch] & ->). destruct f; [discriminate|]. specialize (D []). destruct (decap c m p []) as [[ns ch1]|]; [discriminate|congruence].
Qed.

(** the loop as a fold over places *)
Definition place_step (c : ncf) (m : list Z) (orig : list Z) (vt : Z) (pos : Z) (st : nst) : option nst :=
  match rd16 m pos with
  | None => None
  | Some typ => if (0 <=? typ) && (typ <=? 4)
                then match insert_name c m pos orig vt (tab st typ) with
                     | Some (t, ch) => Some (mkS (upd (tab st) typ t) (upd (chg st) typ (chg st typ || ch)))
                     | None => None
                     end
                else Some st
  end.
Lemma loop_unfold c m orig vt n pos endp st : names_loop c m orig vt (S n) pos endp st =
  if pos <? endp then match place_step c m orig vt pos st with
                      | None => None
                      | Some st' => match rd16 m (pos + 2) with Some len => names_loop c m orig vt n (pos + 20 + (1 + Z.lor (len - 1) 3)) endp st' | None => None end
                      end else Some st.
Proof. cbn [names_loop]. unfold place_step. destruct (pos <? endp); [|reflexivity]. destruct (rd16 m pos) as [typ|]; reflexivity. Qed.
(** a place is settled in the state *)
Definition settled_st (c : ncf) (m : list Z) (orig : list Z) (vt : Z) (st : nst) (q : Z) : Prop :=
  forall typ, rd16 m q = Some typ -> kept typ -> settled c m q orig vt (tab st typ) /\ has c orig (tab st typ).
Lemma place_settles c m orig vt pos st st' : place_step c m orig vt pos st = Some st' ->
  settled_st c m orig vt st' pos /\ (forall q, settled_st c m orig vt st q -> settled_st c m orig vt st' q) /\
  (forall st2, settled_st c m orig vt st2 pos -> exists st3, place_step c m orig vt pos st2 = Some st3 /\ forall t, kept t -> tab st3 t = tab st2 t).
Proof.
  unfold place_step. destruct (rd16 m pos) as [typ|] eqn:R; [|discriminate]. destruct ((0 <=? typ) && (typ <=? 4)) eqn:T.
  2: { intros E. inversion E; subst. split; [|split].
       - intros t Rt K. exfalso. rewrite R in Rt. apply Some_inj in Rt. subst t. unfold kept in K. lia.
       - auto.
       - intros st2 _. eauto. }
  destruct (insert_name c m pos orig vt (tab st typ)) as [[t1 ch]|] eqn:I; [|discriminate]. intros E. inversion E; subst st'. split; [|split].
  - intros t Rt K. rewrite R in Rt. apply Some_inj in Rt. subst t. cbn [tab]. unfold upd. rewrite Z.eqb_refl. destruct (insert_settles _ _ _ _ _ _ _ _ _ R K I) as (A & B & _). auto.
  - intros q Sq t Rt K. cbn [tab]. unfold upd. destruct (Z.eqb_spec t typ) as [->|N]; [|now apply Sq]. destruct (Sq _ Rt K) as [A B].
    destruct (insert_settles _ _ _ _ _ _ _ _ _ R K I) as (_ & B' & C). split; [now apply C|exact B'].
  - intros st2 S2. assert (Hk : kept typ \/ ~ kept typ) by (unfold kept; lia). destruct Hk as [K|K].
    + destruct (S2 _ R K) as [A B]. rewrite settled_insert by assumption. eexists. split; [reflexivity|]. intros t Kt. cbn [tab]. unfold upd. destruct (Z.eqb_spec t typ) as [->|N]; reflexivity.
    + destruct (insert_name c m pos orig vt (tab st2 typ)) as [[t2 ch2]|] eqn:I2.
      * eexists. split; [reflexivity|]. intros t Kt. cbn [tab]. unfold upd. destruct (Z.eqb_spec t typ) as [->|N]; [contradiction|reflexivity].
      * exfalso. revert I2. apply (insert_defined _ _ _ _ _ (tab st typ)). now rewrite I.
Qed.
(** the places that the loop visits are settled when it ends, and a second pass changes nothing *)
Lemma loop_settles c m orig vt n : forall pos endp st st', names_loop c m orig vt n pos endp st = Some st' ->
  (forall q, settled_st c m orig vt st q -> settled_st c m orig vt st' q) /\
  (forall st2, (forall q, settled_st c m orig vt st' q -> settled_st c m orig vt st2 q) -> exists st3, names_loop c m orig vt n pos endp st2 = Some st3 /\ forall t, kept t -> tab st3 t = tab st2 t).
Proof.
  induction n as [|n IH]; intros pos endp st st' H.
  - inversion H; subst. split; [auto|]. intros st2 _. exists st2. auto.
  - rewrite loop_unfold in H. destruct (pos <? endp) eqn:Pe.
    2: { inversion H; subst. split; [auto|]. intros st2 _. exists st2. rewrite loop_unfold, Pe. auto. }
    destruct (place_step c m orig vt pos st) as [s1|] eqn:P; [|discriminate]. destruct (rd16 m (pos + 2)) as [len|] eqn:Rl; [|discriminate].
    destruct (place_settles _ _ _ _ _ _ _ P) as (A & B & C). destruct (IH _ _ _ _ H) as [D E]. split; [auto|].
    intros st2 S2. destruct (C st2 (S2 _ (D _ A))) as (st3 & P3 & T3).
    destruct (E st3) as (st4 & L4 & T4).
    { intros q Sq t Rt K. rewrite T3 by exact K. now apply S2. }
    exists st4. rewrite loop_unfold, Pe, P3, Rl. split; [exact L4|]. intros t K. now rewrite T4, T3.
Qed.
Lemma parser_again c junk vtime sym m p st st1 fw : ns_parser c junk vtime sym m p st = Some (st1, fw) ->
  exists st2, ns_parser c junk vtime sym m p st1 = Some (st2, fw) /\ forall t, kept t -> tab st2 t = tab st1 t.
Proof.
  unfold ns_parser. destruct (rd8 m (p + 1)) as [v|]; [|discriminate]. destruct (rd16 m (p + 2)) as [size|]; [|discriminate]. destruct (rdn m (p + 4) (ipsize c)) as [orig|]; [|discriminate].
  destruct (bytes_eqb orig (f_main c)). { intros E. inversion E; subst. eauto. } destruct (negb sym). { intros E. inversion E; subst. eauto. }
  destruct (update_names c m _ size _ _ st) as [s|] eqn:U; [|discriminate]. intros E. inversion E; subst. unfold update_names in *.
  destruct (rd16 m (p + 8 + ipsize c)) as [ver|]; [|discriminate]. destruct (negb (ver =? 1)). { eauto. } destruct (rd16 m (p + 8 + ipsize c + 2)) as [n|]; [|discriminate].
  destruct (loop_settles _ _ _ _ _ _ _ _ _ U) as [_ L]. destruct (L st1) as (st2 & -> & T); [auto|]. eauto.
Qed.

(** ** One position for each node *)
Definition single (st : nst) : Prop := Forall (fun d => (length (d_names d) <= 1)%nat) (tab st LATLON).
Lemma known_latlon c len ip name e l r ch : known c LATLON len ip name (e :: l) = Some (r, ch) -> length r = length (e :: l).
Proof. cbn [known]. change (LATLON =? HOST) with false. change (LATLON =? SERVICE) with false. change (LATLON =? FORWARDER) with false. change (LATLON =? LATLON) with true. cbn [orb andb]. intros E. inversion E. reflexivity. Qed.
Lemma decap_latlon c m p l l' ch : rd16 m p = Some LATLON -> decap c m p l = Some (l', ch) -> (length l <= 1)%nat -> (length l' <= 1)%nat.
Proof.
  intros R. unfold decap. rewrite R. destruct (rd16 m (p + 2)) as [len|]; [|discriminate]. destruct (rdn m (p + 4) 16) as [ip|]; [|discriminate].
  destruct (_ && _). { intros E. inversion E; subst. auto. } destruct (str_at m (p + 20)) as [name|]; [|discriminate]. destruct (malformed c LATLON name). { intros E. inversion E; subst. auto. }
  destruct (_ || _). { intros E. inversion E; subst. auto. } destruct l as [|e l].
  - cbn [known]. intros E. inversion E; subst. cbn. lia.
  - destruct (known c LATLON len ip name (e :: l)) as [[r ch0]|] eqn:K.
    + intros E. inversion E; subst. apply known_latlon in K. rewrite K. auto.
    + cbn [known] in K. change (LATLON =? HOST) with false in K. change (LATLON =? SERVICE) with false in K. change (LATLON =? FORWARDER) with false in K. change (LATLON =? LATLON) with true in K. discriminate.
Qed.
Lemma into_latlon c m p orig vt t : rd16 m p = Some LATLON -> forall t' f ch, into c m p orig vt t = Some (t', f, ch) -> Forall (fun d => (length (d_names d) <= 1)%nat) t -> Forall (fun d => (length (d_names d) <= 1)%nat) t'.
Proof.
  intros R. induction t as [|d t IH]; intros t' f ch; cbn [into]; intros E F; [inversion E; subst; constructor|]. inversion F; subst. destruct (ipeq c orig (d_orig d)).
  - destruct (decap c m p (d_names d)) as [[ns ch1]|] eqn:D; [|discriminate]. destruct (into c m p orig vt t) as [[[r f0] ch2]|]; [|discriminate]. inversion E; subst.
    constructor; [|eapply IH; eauto]. cbn [d_names]. eapply decap_latlon; eauto.
  - destruct (into c m p orig vt t) as [[[r f0] ch2]|]; [|discriminate]. inversion E; subst. constructor; [auto|eapply IH; eauto].
Qed.
Lemma place_single c m orig vt pos st st' : place_step c m orig vt pos st = Some st' -> single st -> single st'.
Proof.
  unfold place_step. destruct (rd16 m pos) as [typ|] eqn:R; [|discriminate]. destruct ((0 <=? typ) && (typ <=? 4)) eqn:T; [|intros E; inversion E; subst; auto].
  destruct (insert_name c m pos orig vt (tab st typ)) as [[t1 ch]|] eqn:I; [|discriminate]. intros E S. inversion E; subst st'. unfold single in *. cbn [tab]. unfold upd.
  destruct (Z.eqb_spec LATLON typ) as [<-|N]; [|exact S]. unfold insert_name in I. destruct (into c m pos orig vt (tab st LATLON)) as [[[t0 f] ch0]|] eqn:I0; [|discriminate].
  pose proof (into_latlon _ _ _ _ _ _ R _ _ _ I0 S) as F. destruct f; [inversion I; subst; exact F|]. destruct (decap c m pos []) as [[ns ch2]|] eqn:D; [|discriminate]. inversion I; subst.
  apply Forall_app. split; [exact F|]. constructor; [|constructor]. cbn [d_names]. eapply decap_latlon; eauto.
Qed.
Lemma loop_single c m orig vt n : forall pos endp st st', names_loop c m orig vt n pos endp st = Some st' -> single st -> single st'.
Proof.
  induction n as [|n IH]; intros pos endp st st' H S; [inversion H; subst; exact S|]. rewrite loop_unfold in H. destruct (pos <? endp); [|inversion H; subst; exact S].
  destruct (place_step c m orig vt pos st) as [s1|] eqn:P; [|discriminate]. destruct (rd16 m (pos + 2)) as [len|]; [|discriminate]. eapply IH; [exact H|]. eapply place_single; eauto.
Qed.
Lemma nrun_single c vtime l : forall st st', nrun c vtime l st = Some st' -> single st -> single st'.
Proof.
  induction l as [|ev l IH]; intros st st' H S; [inversion H; subst; exact S|]. cbn [nrun] in H. destruct (nstep c vtime ev st) as [s1|] eqn:N; [|discriminate]. eapply IH; [exact H|]. clear H IH.
  destruct ev as [junk sym m p|typ orig]; cbn [nstep] in N.
  - destruct (ns_parser c junk vtime sym m p st) as [[s fw]|] eqn:P; [|discriminate]. inversion N; subst. revert P. unfold ns_parser.
    destruct (rd8 m (p + 1)) as [v|]; [|discriminate]. destruct (rd16 m (p + 2)) as [size|]; [|discriminate]. destruct (rdn m (p + 4) (ipsize c)) as [orig|]; [|discriminate].
    destruct (bytes_eqb orig (f_main c)). { intros E. inversion E; subst. exact S. } destruct (negb sym). { intros E. inversion E; subst. exact S. }
    destruct (update_names c m _ size _ _ st) as [s2|] eqn:U; [|discriminate]. intros E. inversion E; subst. unfold update_names in U.
    destruct (rd16 m (p + 8 + ipsize c)) as [ver|]; [|discriminate]. destruct (negb (ver =? 1)). { inversion U; subst. exact S. } destruct (rd16 m (p + 8 + ipsize c + 2)) as [k|]; [|discriminate].
    eapply loop_single; eauto.
  - inversion N; subst. unfold single, expire in *. cbn [tab]. unfold upd. destruct (LATLON =? typ) eqn:E; [|exact S]. apply Z.eqb_eq in E. subst typ.
    rewrite Forall_forall in *. intros d Id. apply filter_In in Id. apply S. apply Id.
Qed.

From Coq Require Import String Permutation.
From Verif Require Import Base Bytes NetBuf Parser ParserProofs Compare CompareProofs SecureProofs Regex NameSvc NameSvcSpec.

(** ** Regular expressions *)
Lemma cat_inv a b x : lang (Cat a b) x -> exists u v, x = u ++ v /\ lang a u /\ lang b v.
Proof. intros H. inversion H; subst. eauto. Qed.
Lemma nullable_ok r : nullable r = true <-> lang r [].
Proof.
  induction r; cbn [nullable].
  - split; [discriminate|]. intros H; inversion H.
  - split; [constructor|reflexivity].
  - split; [discriminate|]. intros H; inversion H.
  - rewrite andb_true_iff, IHr1, IHr2. split; [intros [H1 H2]; now apply (L_cat _ _ [] [])|].
    intros H. destruct (cat_inv _ _ _ H) as (u & v & E & Ha & Hb). symmetry in E. apply app_eq_nil in E. destruct E; subst. now split.
  - rewrite orb_true_iff, IHr1, IHr2. split; [intros [H|H]; [now apply L_altl|now apply L_altr]|]. intros H. inversion H; subst; auto.
  - split; [constructor|reflexivity].
Qed.
Lemma star_cons a : forall r s, lang r s -> r = Star a -> forall c s', s = c :: s' -> exists u v, s' = u ++ v /\ lang a (c :: u) /\ lang (Star a) v.
Proof.
  intros r s H. induction H; intros E c0 s' Es; try discriminate.
  inversion E; subst. destruct s as [|c1 s1].
  - cbn in Es. now apply (IHlang2 eq_refl).
  - cbn in Es. inversion Es; subst. eauto.
Qed.
Lemma deriv_ok c r : forall s, lang (deriv c r) s <-> lang r (c :: s).
Proof.
  induction r; intros s; cbn [deriv].
  - split; intros H; inversion H.
  - split; intros H; inversion H.
  - destruct (f c) eqn:F.
    + split; intros H; inversion H; subst; constructor; auto.
    + split; intros H; inversion H; subst. congruence.
  - assert (X : lang (Cat (deriv c r1) r2) s <-> exists u v, s = u ++ v /\ lang r1 (c :: u) /\ lang r2 v).
    { split.
      - intros H. destruct (cat_inv _ _ _ H) as (u & v & -> & Ha & Hb). exists u, v. split; [reflexivity|]. split; [now apply IHr1|exact Hb].
      - intros (u & v & -> & Ha & Hb). constructor; [now apply IHr1|exact Hb]. }
    destruct (nullable r1) eqn:N.
    + split.
      * intros H. inversion H as [| | |? ? ? Ha|? ? ? Hb| |]; subst.
        -- apply X in Ha. destruct Ha as (u & v & -> & Ha & Hb). now apply (L_cat _ _ (c :: u) v).
        -- apply (L_cat _ _ [] (c :: s)); [now apply nullable_ok|now apply IHr2].
      * intros H. destruct (cat_inv _ _ _ H) as (u & v & E & Ha & Hb). destruct u as [|c1 u].
        -- cbn in E. subst v. apply L_altr. now apply IHr2.
        -- cbn in E. inversion E; subst. apply L_altl, X. eauto.
    + rewrite X. split.
      * intros (u & v & -> & Ha & Hb). now apply (L_cat _ _ (c :: u) v).
      * intros H. destruct (cat_inv _ _ _ H) as (u & v & E & Ha & Hb). destruct u as [|c1 u].
        -- apply nullable_ok in Ha. congruence.
        -- cbn in E. inversion E; subst. eauto.
  - split; intros H; inversion H; subst; (now apply L_altl, IHr1) || (now apply L_altr, IHr2).
  - split.
    + intros H. destruct (cat_inv _ _ _ H) as (u & v & -> & Ha & Hb). apply (L_star _ (c :: u) v); [now apply IHr|exact Hb].
    + intros H. destruct (star_cons r _ _ H eq_refl c s eq_refl) as (u & v & -> & Ha & Hb). constructor; [now apply IHr|exact Hb].
Qed.
Lemma matches_ok s : forall r, matches r s = true <-> lang r s.
Proof.
  induction s as [|c s IH]; intros r; cbn [matches]; [apply nullable_ok|]. rewrite IH. apply deriv_ok.
Qed.
(** all characters of a match are in a set, if this holds of the parts *)
Lemma lang_chars (P : Z -> Prop) r s : lang r s ->
  (fix ok (r : rx) : Prop := match r with Nul | Eps => True | Cls f => forall c, f c = true -> P c | Cat a b | Alt a b => ok a /\ ok b | Star a => ok a end) r -> Forall P s.
Proof.
  induction 1; intros K.
  - constructor.
  - constructor; auto.
  - apply Forall_app. split; [apply IHlang1|apply IHlang2]; apply K.
  - apply IHlang, K.
  - apply IHlang, K.
  - constructor.
  - apply Forall_app. split; [apply IHlang1|apply IHlang2]; apply K.
Qed.
Lemma namec_ok c : namec c = true -> host_char c.
Proof. unfold namec, alnumc, digitc, oneof, host_char. cbn [str list_ascii_of_string map existsb]. vm_compute (Z.of_N _). lia. Qed.
Lemma namec_ok' c : host_char c -> namec c = true.
Proof. unfold namec, alnumc, digitc, oneof, host_char. cbn [str list_ascii_of_string map existsb]. vm_compute (Z.of_N _). lia. Qed.
Lemma rx_name_ok s : lang rx_name s <-> s <> [] /\ Forall host_char s.
Proof.
  split.
  - intros H. split; [|apply (lang_chars host_char _ _ H); cbn; split; apply namec_ok].
    intros ->. destruct (cat_inv _ _ _ H) as (u & v & E & Ha & Hb). symmetry in E. apply app_eq_nil in E. destruct E; subst. inversion Ha.
  - intros [N F]. destruct s as [|c s]; [congruence|]. inversion F; subst. apply (L_cat _ _ [c] s); [constructor; now apply namec_ok'|].
    clear H1 N F. induction H2; [constructor|]. apply (L_star _ [x] l); [constructor; now apply namec_ok'|assumption].
Qed.

(** ** What is stored *)
Lemma cstr_ok m s : cstr m = Some s -> ~ In 0 s /\ exists r, m = s ++ 0 :: r.
Proof.
  revert s. induction m as [|c m IH]; intros s E; cbn [cstr] in E; [discriminate|]. destruct (Z.eqb_spec c 0) as [->|N].
  - apply Some_inj in E. subst s. split; [intros []|]. now exists m.
  - destruct (cstr m) as [s'|]; [|discriminate]. cbn [option_map] in E. apply Some_inj in E. subst s. destruct (IH s' eq_refl) as (N0 & r & ->).
    split; [intros [->|H]; [congruence|now apply N0]|]. now exists r.
Qed.
Lemma cstr_app s r : ~ In 0 s -> cstr (s ++ 0 :: r) = Some s.
Proof.
  induction s as [|c s IH]; intros N; cbn [app cstr].
  - reflexivity.
  - destruct (Z.eqb_spec c 0) as [->|]; [exfalso; apply N; now left|]. rewrite IH; [reflexivity|]. intros H. apply N. now right.
Qed.
Lemma oneof_in l c : oneof l c = true <-> In c l.
Proof. unfold oneof. rewrite existsb_exists. split; [intros (x & H & E); apply Z.eqb_eq in E; now subst|intros H; exists c; split; [exact H|apply Z.eqb_refl]]. Qed.
Definition checked (c : ncf) (typ : Z) (name : list Z) : Prop :=
  malformed c typ name = false /\ blen name <= MAXNAME /\ ~ In 0 name /\ unquoted name.
Definition good (c : ncf) (typ : Z) (e : nent) : Prop := n_type e = typ /\ checked c typ (n_name e).
Lemma known_good c typ len ip name l r ch : checked c typ name -> Forall (good c typ) l -> known c typ len ip name l = Some (r, ch) -> Forall (good c typ) r.
Proof.
  intros Ck. revert r ch. induction l as [|e l IH]; intros r ch G K; cbn [known] in K; [discriminate|].
  inversion G as [|? ? Ge Gl]; subst. destruct (((typ =? HOST) || (typ =? SERVICE)) && strn_eq (n_name e) name len).
  { apply Some_inj in K. inversion K; subst. exact G. }
  destruct ((typ =? FORWARDER) && ipeq c (n_ip e) ip). { apply Some_inj in K. inversion K; subst. exact G. }
  destruct (typ =? LATLON).
  - apply Some_inj in K. inversion K; subst. constructor; [|exact Gl]. destruct Ge as [T C]. split; cbn [n_type n_name]; [exact T|]. now destruct (negb (strn_eq (n_name e) name len)).
  - destruct (known c typ len ip name l) as [[r' ch']|] eqn:K'; [|discriminate]. cbn [option_map] in K. apply Some_inj in K. inversion K; subst.
    constructor; [exact Ge|]. now apply (IH r' ch).
Qed.
Lemma decap_good c m p typ l r ch : rd16 m p = Some typ -> Forall (good c typ) l -> decap c m p l = Some (r, ch) -> Forall (good c typ) r.
Proof.
  intros T G D. unfold decap in D. rewrite T in D. destruct (rd16 m (p + 2)) as [len|]; [|discriminate]. destruct (rdn m (p + 4) 16) as [ip|]; [|discriminate].
  destruct ((typ =? FORWARDER) && (len >? MAXNAME)). { apply Some_inj in D. inversion D; now subst. }
  destruct (str_at m (p + 20)) as [name|] eqn:S; [|discriminate]. destruct (malformed c typ name) eqn:M. { apply Some_inj in D. inversion D; now subst. }
  destruct ((len >? MAXNAME) || negb (blen name =? len) || oneof name 92 || oneof name 39) eqn:B. { apply Some_inj in D. inversion D; now subst. }
  assert (Ck : checked c typ name).
  { split; [exact M|]. split; [lia|]. unfold str_at in S. destruct ((0 <=? p + 20) && (p + 20 <=? blen m)); [|discriminate].
    split; [apply (cstr_ok _ _ S)|]. split; intros I; apply oneof_in in I; rewrite I in B; rewrite ?orb_true_r in B; discriminate B. }
  destruct (known c typ len ip name l) as [[r' ch']|] eqn:K.
  - apply Some_inj in D. inversion D; subst. now apply (known_good c typ len ip name l r ch).
  - apply Some_inj in D. inversion D; subst. constructor; [|exact G]. now split.
Qed.
Definition good_tab (c : ncf) (typ : Z) (t : list dbent) : Prop := Forall (fun d => Forall (good c typ) (d_names d)) t.
Lemma into_good c m p orig vt typ : rd16 m p = Some typ -> forall t t' f ch, good_tab c typ t -> into c m p orig vt t = Some (t', f, ch) -> good_tab c typ t'.
Proof.
  intros T. induction t as [|d t IH]; intros t' f ch G E; cbn [into] in E. { apply Some_inj in E. inversion E; subst. constructor. }
  inversion G as [|? ? Gd Gt]; subst. destruct (ipeq c orig (d_orig d)).
  - destruct (decap c m p (d_names d)) as [[ns ch1]|] eqn:D; [|discriminate]. destruct (into c m p orig vt t) as [[[r f'] ch2]|]; [|discriminate].
    apply Some_inj in E. inversion E; subst. constructor; [now apply (decap_good c m p typ _ _ _ T Gd D)|]. now apply (IH r f' ch2).
  - destruct (into c m p orig vt t) as [[[r f'] ch2]|]; [|discriminate]. apply Some_inj in E. inversion E; subst. constructor; [exact Gd|]. now apply (IH r f ch).
Qed.
Lemma insert_good c m p orig vt typ t t' ch : rd16 m p = Some typ -> good_tab c typ t -> insert_name c m p orig vt t = Some (t', ch) -> good_tab c typ t'.
Proof.
  intros T G E. unfold insert_name in E. destruct (into c m p orig vt t) as [[[r f] ch1]|] eqn:I; [|discriminate]. pose proof (into_good _ _ _ _ _ _ T _ _ _ _ G I) as G1.
  destruct f. { apply Some_inj in E. inversion E; now subst. }
  destruct (decap c m p []) as [[ns ch2]|] eqn:D; [|discriminate]. apply Some_inj in E. inversion E; subst. apply Forall_app. split; [exact G1|].
  constructor; [|constructor]. cbn [d_names]. now apply (decap_good c m p typ [] ns ch2 T).
Qed.
Definition good_st (c : ncf) (st : nst) : Prop := forall typ, good_tab c typ (tab st typ).
Lemma loop_good c m orig vt n : forall pos endp st st', good_st c st -> names_loop c m orig vt n pos endp st = Some st' -> good_st c st'.
Proof.
  induction n as [|n IH]; intros pos endp st st' G E; cbn [names_loop] in E. { apply Some_inj in E. now subst. }
  destruct (pos <? endp); [|apply Some_inj in E; now subst]. destruct (rd16 m pos) as [typ|] eqn:T; [|discriminate].
  destruct ((0 <=? typ) && (typ <=? 4)).
  - destruct (insert_name c m pos orig vt (tab st typ)) as [[t ch]|] eqn:I; [|discriminate]. destruct (rd16 m (pos + 2)) as [len|]; [|discriminate].
    refine (IH _ _ _ _ _ E). intros ty. cbn [tab]. unfold upd. destruct (Z.eqb_spec ty typ) as [->|]; [|apply G]. now apply (insert_good c m pos orig vt typ _ _ _ T (G typ) I).
  - destruct (rd16 m (pos + 2)) as [len|]; [|discriminate]. now apply (IH _ _ _ _ G E).
Qed.
Lemma parser_good c junk vtime sym m p st st' fwd : good_st c st -> ns_parser c junk vtime sym m p st = Some (st', fwd) -> good_st c st'.
Proof.
  intros G E. unfold ns_parser in E. destruct (rd8 m (p + 1)) as [vt|]; [|discriminate]. destruct (rd16 m (p + 2)) as [size|]; [|discriminate]. destruct (rdn m (p + 4) (ipsize c)) as [orig|]; [|discriminate].
  destruct (bytes_eqb orig (f_main c)). { apply Some_inj in E. inversion E; now subst. } destruct (negb sym). { apply Some_inj in E. inversion E; now subst. }
  unfold update_names in E. destruct (rd16 m (p + 8 + ipsize c)) as [v|]; [|discriminate]. destruct (negb (v =? 1)). { apply Some_inj in E. inversion E; now subst. }
  destruct (rd16 m (p + 8 + ipsize c + 2)) as [n|]; [|discriminate]. destruct (names_loop _ _ _ _ _ _ _ _) as [st1|] eqn:L; [|discriminate]. apply Some_inj in E. inversion E; subst.
  now apply (loop_good _ _ _ _ _ _ _ _ _ G L).
Qed.
Lemma nrun_good c vtime l : forall st st', good_st c st -> nrun c vtime l st = Some st' -> good_st c st'.
Proof.
  induction l as [|ev l IH]; intros st st' G E; cbn [nrun] in E. { apply Some_inj in E. now subst. }
  destruct (nstep c vtime ev st) as [st1|] eqn:S; [|discriminate]. refine (IH st1 st' _ E). destruct ev as [junk sym m p|typ orig]; cbn [nstep] in S.
  - destruct (ns_parser c junk vtime sym m p st) as [[st2 fwd]|] eqn:P; [|discriminate]. cbn in S. apply Some_inj in S. subst. now apply (parser_good _ _ _ _ _ _ _ _ _ G P).
  - apply Some_inj in S. subst. intros ty. unfold expire. cbn [tab]. unfold upd. destruct (Z.eqb_spec ty typ) as [->|]; [|apply G].
    apply Forall_forall. intros d I. apply filter_In in I. pose proof (G typ) as Gt. unfold good_tab in Gt. rewrite Forall_forall in Gt. now apply Gt.
Qed.
Lemma good0 c : good_st c nst0. Proof. intros typ. constructor. Qed.
Lemma stored_good c st typ e : good_st c st -> In e (stored st typ) -> good c typ e.
Proof. intros G I. apply in_flat_map in I. destruct I as (d & Id & Ie). pose proof (G typ) as Gt. unfold good_tab in Gt. rewrite Forall_forall in Gt. specialize (Gt d Id). rewrite Forall_forall in Gt. now apply Gt. Qed.
Lemma good_host c e : good c HOST e -> hostname (n_name e).
Proof.
  intros (_ & M & L & _ & _). unfold malformed in M. change (HOST =? HOST) with true in M. cbn [andb orb] in M. rewrite !orb_false_iff in M. destruct M as [[[M _] _] _].
  apply negb_false_iff in M. apply matches_ok, rx_name_ok in M. destruct M as [N F]. split; [exact N|]. split; [exact L|exact F].
Qed.
Lemma good_service c e : good c SERVICE e -> lang (rx_service (f_rsuffix c)) (n_name e) /\ blen (n_name e) <= 127 /\ unquoted (n_name e).
Proof.
  intros (_ & M & L & _ & U). unfold malformed in M. change (SERVICE =? SERVICE) with true in M. change (SERVICE =? HOST) with false in M. cbn [andb orb] in M. rewrite !orb_false_iff in M. destruct M as [[M _] _].
  apply negb_false_iff in M. apply matches_ok in M. split; [exact M|]. split; [exact L|exact U].
Qed.
(** the suffix in the expression for services, the rest of which has no control characters *)
Lemma service_printable sfx s : (forall t, lang sfx t -> printable t) -> lang (rx_service sfx) s -> printable s.
Proof.
  intros S H. unfold rx_service in H. unfold printable in *. set (P := fun c : Z => 32 <= c /\ c <> 127) in *.
  assert (Lc : forall l t, Forall P l -> lang (Lit l) t -> Forall P t).
  { induction l as [|c l IH]; intros t F L; cbn [Lit] in L; [inversion L; constructor|]. inversion F; subst. destruct (cat_inv _ _ _ L) as (u & v & -> & Lu & Lv).
    apply Forall_app. split; [|now apply IH]. inversion Lu; subst. match goal with H : (c =? _) = true |- _ => apply Z.eqb_eq in H; subst end. now constructor. }
  assert (D : forall c, digitc c = true -> P c) by (unfold digitc, P; lia). assert (A : forall c, alnumc c = true -> P c) by (unfold alnumc, digitc, P; lia).
  assert (N : forall c, namec c = true -> P c) by (intros c E; apply namec_ok in E; unfold host_char, P in *; lia).
  assert (C : forall x, P x -> forall c, (x =? c) = true -> P c) by (intros x Px c E; apply Z.eqb_eq in E; now subst).
  assert (X : forall c, anyc c && negb (c =? 124) && negb (cntrlc c) = true -> P c) by (unfold anyc, cntrlc, P; lia).
  assert (Y : forall c, alnumc c || oneof (str "/?._=#-") c = true -> P c).
  { intros c E. apply orb_prop in E. destruct E as [E|E]; [now apply A|]. apply oneof_in in E. vm_compute in E. unfold P. lia. }
  assert (P46 : P 46) by (unfold P; lia). assert (P58 : P 58) by (unfold P; lia). assert (P124 : P 124) by (unfold P; lia).
  assert (F1 : Forall P (str "://")) by (repeat constructor; discriminate). assert (F2 : Forall P (str "tcp")) by (repeat constructor; discriminate). assert (F3 : Forall P (str "udp")) by (repeat constructor; discriminate).
  clearbody P.
  destruct (cat_inv _ _ _ H) as (u1 & v1 & -> & L1 & R1). destruct (cat_inv _ _ _ R1) as (u2 & v2 & -> & L2 & R2). destruct (cat_inv _ _ _ R2) as (u3 & v3 & -> & L3 & R3).
  destruct (cat_inv _ _ _ R3) as (u4 & v4 & -> & L4 & R4). destruct (cat_inv _ _ _ R4) as (u5 & v5 & -> & L5 & R5). destruct (cat_inv _ _ _ R5) as (u6 & v6 & -> & L6 & R6).
  destruct (cat_inv _ _ _ R6) as (u7 & v7 & -> & L7 & R7). destruct (cat_inv _ _ _ R7) as (u8 & v8 & -> & L8 & R8). destruct (cat_inv _ _ _ R8) as (u9 & v9 & -> & L9 & R9).
  apply Forall_app. split; [apply (lang_chars P _ _ L1); cbn; now split|].
  apply Forall_app. split; [now apply (Lc (str "://"))|].
  apply Forall_app. split.
  { inversion L3; subst.
    - match goal with H : lang (Cat _ _) u3 |- _ => destruct (cat_inv _ _ _ H) as (u & v & -> & La & Lb) end. apply Forall_app. split; [apply (lang_chars P _ _ La); cbn; now split|now apply S].
    - match goal with H : lang (Cat _ _) u3 |- _ => apply (lang_chars P _ _ H) end. repeat (exact D || exact (C 46 P46) || exact I || split). }
  apply Forall_app. split; [apply (lang_chars P _ _ L4); exact (C 58 P58)|].
  apply Forall_app. split; [apply (lang_chars P _ _ L5); cbn; now split|].
  apply Forall_app. split; [apply (lang_chars P _ _ L6); exact Y|].
  apply Forall_app. split; [apply (lang_chars P _ _ L7); exact (C 124 P124)|].
  apply Forall_app. split; [inversion L8; subst; [now apply (Lc (str "tcp"))|now apply (Lc (str "udp"))]|].
  apply Forall_app. split; [apply (lang_chars P _ _ L9); exact (C 124 P124)|].
  apply (lang_chars P _ _ R9). split; exact X.
Qed.

(** ** Files *)
Lemma dec_ok fuel : forall n acc, 0 <= n -> exists ds, dec fuel n acc = ds ++ acc /\ Forall (fun x => 48 <= x <= 57) ds /\ (length ds <= fuel)%nat /\ ((0 < fuel)%nat -> (1 <= length ds)%nat).
Proof.
  induction fuel as [|f IH]; intros n acc H; cbn [dec]. { exists []. repeat split; try constructor. lia. }
  assert (D : 48 <= 48 + n mod 10 <= 57) by lia. destruct (n <? 10).
  - exists [48 + n mod 10]. split; [reflexivity|]. split; [now repeat constructor|]. cbn [length]. lia.
  - destruct (IH (n / 10) ((48 + n mod 10) :: acc) ltac:(apply Z.div_pos; lia)) as (ds & -> & F & L & _). exists (ds ++ [48 + n mod 10]).
    split; [now rewrite <- app_assoc|]. split; [apply Forall_app; split; [exact F|now repeat constructor]|]. rewrite app_length. cbn [length]. lia.
Qed.
Lemma no10 s : hostname s -> ~ In 10 s.
Proof. intros (_ & _ & F) I. rewrite Forall_forall in F. specialize (F 10 I). unfold host_char in F. lia. Qed.
Lemma no10d ds : Forall (fun x => 48 <= x <= 57) ds -> ~ In 10 ds.
Proof. intros F I. rewrite Forall_forall in F. specialize (F 10 I). lia. Qed.
Lemma lines_app a b : lines_of (a ++ b) = lines_of a ++ lines_of b.
Proof. unfold lines_of. apply flat_map_app. Qed.
Lemma mid_lines_ok c orig name : (forall a, ~ In 10 (f_ipstr c a)) -> ~ In 10 (f_suffix c) -> hostname name ->
  forall al k, 0 <= k < 65536 -> exists ls, mid_lines c orig name k al = lines_of ls /\ Forall (host_line c) ls /\ length ls = length al.
Proof.
  intros Hi Hs Hn. induction al as [|a al IH]; intros k Hk; cbn [mid_lines]. { exists []. repeat split. constructor. }
  destruct (IH (u16 (k + 1)) ltac:(unfold u16; lia)) as (ls & -> & F & L). destruct (dec_ok 5 k [] ltac:(lia)) as (ds & -> & Fd & L5 & L1). rewrite app_nil_r.
  exists ((f_ipstr c a ++ [9] ++ (str "mid" ++ ds ++ [46]) ++ name ++ f_suffix c ++ [9; 35; 32] ++ f_ipstr c orig ++ str " (mid #" ++ ds ++ str ")") :: ls).
  split; [|split; [|cbn [length]; now rewrite L]].
  - unfold lines_of. cbn [flat_map]. rewrite <- !app_assoc. reflexivity.
  - constructor; [|exact F]. eexists a, _, name, (f_ipstr c orig ++ str " (mid #" ++ ds ++ str ")"). split; [reflexivity|]. split; [exact Hn|]. split.
    + right. exists ds. split; [reflexivity|]. split; [exact Fd|lia].
    + rewrite !in_app_iff. pose proof (no10 _ Hn). pose proof (no10d _ Fd). specialize (Hi a) as Ha. specialize (Hi orig).
      assert (N1 : ~ In 10 (str "mid")) by (vm_compute; lia). assert (N2 : ~ In 10 (str " (mid #")) by (vm_compute; lia). assert (N3 : ~ In 10 (str ")")) by (vm_compute; lia).
      assert (N4 : ~ In 10 [9]) by (cbn; lia). assert (N5 : ~ In 10 [46]) by (cbn; lia). assert (N6 : ~ In 10 [9; 35; 32]) by (cbn; lia). tauto.
Qed.
Lemma host_lines_ok c aliases orig e : (forall a, ~ In 10 (f_ipstr c a)) -> ~ In 10 (f_suffix c) -> hostname (n_name e) ->
  exists ls, host_lines c aliases orig e = lines_of ls /\ Forall (host_line c) ls /\ length ls = (1 + length (aliases (n_ip e)))%nat.
Proof.
  intros Hi Hs Hn. destruct (mid_lines_ok c orig (n_name e) Hi Hs Hn (aliases (n_ip e)) 1 ltac:(lia)) as (ls & E & F & L).
  exists ((f_ipstr c (n_ip e) ++ [9] ++ [] ++ n_name e ++ f_suffix c ++ [9; 35; 32] ++ f_ipstr c orig) :: ls). split; [|split].
  - unfold host_lines. rewrite E. unfold lines_of. cbn [flat_map app]. rewrite <- !app_assoc. cbn [app]. rewrite <- !app_assoc. reflexivity.
  - constructor; [|exact F]. exists (n_ip e), [], (n_name e), (f_ipstr c orig). split; [reflexivity|]. split; [exact Hn|]. split; [now left|].
    rewrite !in_app_iff. pose proof (no10 _ Hn). pose proof (Hi (n_ip e)). pose proof (Hi orig). assert (N4 : ~ In 10 [9]) by (cbn; lia). assert (N6 : ~ In 10 [9; 35; 32]) by (cbn; lia). cbn [In] in *. tauto.
  - cbn [length]. now rewrite L.
Qed.
Lemma flat_lines {A} (f : A -> list Z) (P : list Z -> Prop) (l : list A) : (forall x, In x l -> exists ls, f x = lines_of ls /\ Forall P ls) -> exists ls, flat_map f l = lines_of ls /\ Forall P ls.
Proof.
  induction l as [|x l IH]; intros H; cbn [flat_map]. { exists []. now split. }
  destruct (H x (or_introl eq_refl)) as (l1 & E1 & F1). destruct IH as (l2 & E2 & F2); [intros y Hy; apply H; now right|].
  exists (l1 ++ l2). split; [now rewrite lines_app, E1, E2|]. apply Forall_app. now split.
Qed.
Lemma hosts_part_ok c aliases st : (forall a, ~ In 10 (f_ipstr c a)) -> ~ In 10 (f_suffix c) -> good_st c st ->
  exists ls, hosts_part c aliases st = lines_of ls /\ Forall (host_line c) ls.
Proof.
  intros Hi Hs G. unfold hosts_part. apply flat_lines. intros d Id. apply flat_lines. intros e Ie.
  destruct (host_lines_ok c aliases (d_orig d) e Hi Hs) as (ls & E & F & _); [|eauto]. apply (good_host c). apply (stored_good c st); [exact G|]. apply in_flat_map. eauto.
Qed.

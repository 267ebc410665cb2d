(** C98-C104: the name service plugin. *)
From Coq Require Import String Permutation.
From Verif Require Import Base Bytes NetBuf Parser Compare Regex NameSvc NameSvcSpec NameSvcProofs NameMsgProofs NameRunProofs NameRepProofs NameBestProofs.

(** an IPv4 node 10.0.0.1 with the suffix ".olsr" *)
Definition ex_ipstr (a : list Z) : list Z :=
  dec 3 (u8 (nth 0 a 0)) [] ++ [46] ++ dec 3 (u8 (nth 1 a 0)) [] ++ [46] ++ dec 3 (u8 (nth 2 a 0)) [] ++ [46] ++ dec 3 (u8 (nth 3 a 0)) [].
Definition ex_c : ncf := mkNF false [10; 0; 0; 1] 8 (str ".olsr") (Cat (Cls anyc) (Lit (str "olsr"))) latlon_scan ex_ipstr.
Lemma ex_ipstr_nl a : ~ In 10 (ex_ipstr a).
Proof.
  assert (D : forall n, 0 <= n -> ~ In 10 (dec 3 n [])).
  { intros n H I. destruct (dec_ok 3 n [] H) as (ds & E & F & _). rewrite E, app_nil_r in I. rewrite Forall_forall in F. apply F in I. lia. }
  unfold ex_ipstr. rewrite !in_app_iff. cbn [In]. assert (U : forall x, 0 <= u8 x) by (intros; unfold u8; lia). pose proof (fun x => D _ (U x)) as D'. intros H.
  repeat match type of H with _ \/ _ => destruct H as [H|H] end; try (eapply D'; exact H); try discriminate; contradiction.
Qed.
(** a neighbour 10.0.0.9 and what it sends *)
Definition ex_n : ncf := mkNF false [10; 0; 0; 9] 8 (str ".olsr") (Cat (Cls anyc) (Lit (str "olsr"))) latlon_scan ex_ipstr.
Definition ex_ip : list Z := [10; 0; 0; 9] ++ repeat 0 12.
Definition ex_e (t : Z) (s : list Z) : nent := mkN ex_ip t (blen s) s.
Definition ex_msg (es : list nent) : list Z :=
  [130; 5] ++ net16 (16 + blen (flat_map create es)) ++ [10; 0; 0; 9; 255; 0; 0; 7; 0; 1] ++ net16 (Z.of_nat (length es)) ++ flat_map create es.
Definition ex_ev (es : list nent) : nev := NMsg (repeat 170 12) true ([0; 0; 0; 3] ++ ex_msg es ++ [0; 0; 0; 0]) 4.

(** ** C98 *)
(** After every sequence of messages (any bytes) and expiries, the names stored for the
    hosts file are host names, and the part of the file for them consists of complete
    lines "address, tab, name with suffix, tab, comment". *)
Theorem C98_hosts c vtime l st aliases : nrun c vtime l nst0 = Some st -> (forall a, ~ In 10 (f_ipstr c a)) -> ~ In 10 (f_suffix c) ->
  Forall (fun e => hostname (n_name e)) (stored st HOST) /\ exists ls, hosts_part c aliases st = lines_of ls /\ Forall (host_line c) ls.
Proof.
  intros R Hi Hs. pose proof (nrun_good c vtime l nst0 st (good0 c) R) as G. split.
  - apply Forall_forall. intros e I. apply (good_host c). now apply (stored_good c st).
  - now apply hosts_part_ok.
Qed.
Print Assumptions C98_hosts.
Example C98_hosts_ex : exists st, nrun ex_c (fun v => v) [ex_ev [ex_e HOST (str "router1"); ex_e HOST (str "bad name")]] nst0 = Some st /\
  hosts_part ex_c (fun _ => [[10; 0; 1; 9]]) st = lines_of [str "10.0.0.9	router1.olsr	# 10.0.0.9"; str "10.0.1.9	mid1.router1.olsr	# 10.0.0.9 (mid #1)"] /\ ~ In 10 (f_suffix ex_c).
Proof.
  destruct (nrun ex_c (fun v => v) [ex_ev [ex_e HOST (str "router1"); ex_e HOST (str "bad name")]] nst0) as [st|] eqn:E; [|vm_compute in E; discriminate].
  exists st. split; [reflexivity|]. vm_compute in E. apply Some_inj in E. subst st. split; [vm_compute; reflexivity|]. cbn. intros H. repeat destruct H as [H|H]; try discriminate. exact H.
Qed.

(** The services stored are in the language of the expression, at most 127 characters,
    without quotes and backslashes, and without control characters if the suffix (as a
    regular expression) only stands for texts without them. *)
Theorem C98_services_partial c vtime l st : nrun c vtime l nst0 = Some st ->
  Forall (fun e => lang (rx_service (f_rsuffix c)) (n_name e) /\ blen (n_name e) <= 127 /\ unquoted (n_name e)) (stored st SERVICE) /\
  ((forall t, lang (f_rsuffix c) t -> printable t) -> Forall (fun e => printable (n_name e)) (stored st SERVICE)).
Proof.
  intros R. pose proof (nrun_good c vtime l nst0 st (good0 c) R) as G. split.
  - apply Forall_forall. intros e I. apply good_service. now apply (stored_good c st).
  - intros P. apply Forall_forall. intros e I. apply (service_printable (f_rsuffix c)); [exact P|]. apply good_service. now apply (stored_good c st).
Qed.
Print Assumptions C98_services_partial.
Definition ex_c0 : ncf := mkNF false [10; 0; 0; 1] 8 (str "-olsr") (Lit (str "-olsr")) latlon_scan ex_ipstr.
Example C98_services_ex : exists st, nrun ex_c0 (fun v => v) [ex_ev [ex_e SERVICE (str "http://me-olsr:80/x|tcp|My page")]] nst0 = Some st /\
  services_part ex_c0 false st = lines_of [str "http://me-olsr:80/x|tcp|My page		#10.0.0.9"].
Proof.
  destruct (nrun ex_c0 (fun v => v) [ex_ev [ex_e SERVICE (str "http://me-olsr:80/x|tcp|My page")]] nst0) as [st|] eqn:E; [|vm_compute in E; discriminate].
  exists st. split; [reflexivity|]. vm_compute in E. apply Some_inj in E. subst st. vm_compute; reflexivity.
Qed.
(** The usual suffix begins with a dot, which as a regular expression stands for any
    character, also for a newline: one entry makes two lines in the services file. *)
Theorem C98_services_refuted : exists c vtime l st e, f_suffix c = str ".olsr" /\ nrun c vtime l nst0 = Some st /\ stored st SERVICE = [e] /\
  services_part c false st = lines_of [str "http://me"; str "olsr:80|tcp|text of the attacker		#10.0.0.9"].
Proof.
  set (e := ex_e SERVICE (str "http://me" ++ [10] ++ str "olsr:80|tcp|text of the attacker")).
  destruct (nrun ex_c (fun v => v) [ex_ev [e]] nst0) as [st|] eqn:E; [|vm_compute in E; discriminate].
  exists ex_c, (fun v => v), [ex_ev [e]], st, e. split; [reflexivity|]. split; [exact E|]. vm_compute in E. apply Some_inj in E. subst st. split; vm_compute; reflexivity.
Qed.
Print Assumptions C98_services_refuted.
(** The test for macs ends with the number after the comma: the rest of the text may be
    anything, for example further lines. *)
Theorem C98_macs_refuted : exists c vtime l st e, nrun c vtime l nst0 = Some st /\ stored st MACADDR = [e] /\
  services_part c true st = lines_of [str "02:ca:ff:ee:ba:be,1"; str "02:00:00:00:00:01,2		#10.0.0.1"; str "		#10.0.0.9"].
Proof.
  set (e := ex_e MACADDR (str "02:ca:ff:ee:ba:be,1" ++ [10] ++ str "02:00:00:00:00:01,2		#10.0.0.1" ++ [10])).
  destruct (nrun ex_c (fun v => v) [ex_ev [e]] nst0) as [st|] eqn:E; [|vm_compute in E; discriminate].
  exists ex_c, (fun v => v), [ex_ev [e]], st, e. split; [exact E|]. vm_compute in E. apply Some_inj in E. subst st. split; vm_compute; reflexivity.
Qed.
Print Assumptions C98_macs_refuted.
(** The same for positions, which go to a script without quotes. *)
Theorem C98_position_refuted : exists c vtime l st rest, (forall s, f_latlon c s = latlon_scan s) /\ nrun c vtime l nst0 = Some st /\
  latlon_part c (fun _ => []) st = str "Node('10.0.0.9',12.5,-7.25,1);alert(1);//" ++ rest.
Proof.
  destruct (nrun ex_c (fun v => v) [ex_ev [ex_e LATLON (str "12.5,-7.25,1);alert(1);//")]] nst0) as [st|] eqn:E; [|vm_compute in E; discriminate].
  exists ex_c, (fun v => v), [ex_ev [ex_e LATLON (str "12.5,-7.25,1);alert(1);//")]], st. eexists. split; [reflexivity|]. split; [exact E|]. vm_compute in E. apply Some_inj in E. subst st. vm_compute. reflexivity.
Qed.
Print Assumptions C98_position_refuted.

(** ** C99 *)
(** A message in which every text is followed by a 0 is parsed without leaving memory, and
    what comes before and after the message does not matter. *)
Theorem C99_confined_partial c junk vtime sym orig msg es st : name_msg c orig msg es -> 4 <= f_ptr c <= 8 ->
  exists r, forall pre post, ns_parser c junk vtime sym (pre ++ msg ++ post) (blen pre) st = Some r.
Proof.
  intros N P. assert (V : exists vt0, rd8 msg 1 = Some vt0).
  { destruct N as (typ & vt & ttl & hops & seq & body & E & _). rewrite E. exists vt. unfold rd8. cbn [app].
    rewrite (SecureProofs.rdn_is _ [typ] [vt] (net16 (blen msg) ++ orig ++ ttl :: hops :: seq ++ net16 1 ++ net16 (Z.of_nat (length es)) ++ body) 1 1); reflexivity. }
  destruct V as [vt0 V]. eexists. intros pre post. apply (parser_msg c junk vtime sym orig msg es _ pre post _ st vt0 N V eq_refl eq_refl P).
Qed.
Print Assumptions C99_confined_partial.
Lemma ex_msg_ok es : Forall (acceptable ex_c) es -> (forall es' e, es = es' ++ [e] -> n_len e mod 4 <> 0) -> 16 + blen (flat_map create es) <= 10240 -> Z.of_nat (length es) < 65536 -> name_msg ex_c [10; 0; 0; 9] (ex_msg es) es.
Proof. intros A L T N. exact (gen_msg ex_n ex_c 5 7 es eq_refl T N A L ex_c eq_refl). Qed.
Lemma ex_host_ok s : hostname s -> acceptable ex_c (ex_e HOST s).
Proof.
  intros (N & L & F). unfold acceptable, ex_e. cbn [n_ip n_type n_len n_name]. split; [reflexivity|]. split; [reflexivity|]. split; [exact L|].
  rewrite Forall_forall in F. assert (K : forall x, x = 0 \/ x = 39 \/ x = 92 -> ~ In x s) by (intros x X I; apply F in I; unfold host_char in I; lia).
  split; [apply K; auto|]. split; [split; apply K; auto|]. unfold HOST. split; [lia|]. split; [intros _; split; [exact N|]; split; [exact L|]; now apply Forall_forall|]. repeat split; intros; discriminate.
Qed.
Lemma ex_hostname s : s <> [] -> blen s <=? 127 = true -> forallb namec s = true -> hostname s.
Proof. intros N L F. split; [exact N|]. split; [lia|]. rewrite forallb_forall in F. apply Forall_forall. intros x I. apply namec_ok. now apply F. Qed.
Lemma ex_router1 : hostname (str "router1").
Proof. apply ex_hostname; [discriminate|vm_compute; reflexivity|vm_compute; reflexivity]. Qed.
Example C99_confined_ex : name_msg ex_c [10; 0; 0; 9] (ex_msg [ex_e HOST (str "router1")]) [ex_e HOST (str "router1")].
Proof.
  apply ex_msg_ok.
  - constructor; [|constructor]. apply ex_host_ok, ex_router1.
  - intros es' e E. destruct es' as [|x es']; [inversion E; subst; vm_compute; discriminate|]. destruct es'; discriminate.
  - vm_compute. discriminate.
  - reflexivity.
Qed.
(** The end of the entries is computed 8 bytes too far for IPv4 on 64 bit machines: a
    message without entries that announces one takes it from the bytes after the message. *)
Theorem C99_tail_refuted : exists c junk vtime msg post1 post2 st1 st2, rd16 msg 2 = Some (blen msg) /\
  ns_parser c junk vtime true (msg ++ post1) 0 nst0 = Some (st1, true) /\ ns_parser c junk vtime true (msg ++ post2) 0 nst0 = Some (st2, true) /\
  map n_name (stored st1 HOST) = [str "other1"] /\ map n_name (stored st2 HOST) = [str "other2"].
Proof.
  set (msg := [130; 5; 0; 16; 10; 0; 0; 9; 255; 0; 0; 7; 0; 1; 0; 1]).
  destruct (ns_parser ex_c (repeat 170 12) (fun v => v) true (msg ++ create (ex_e HOST (str "other1"))) 0 nst0) as [[st1 f1]|] eqn:E1; [|vm_compute in E1; discriminate].
  destruct (ns_parser ex_c (repeat 170 12) (fun v => v) true (msg ++ create (ex_e HOST (str "other2"))) 0 nst0) as [[st2 f2]|] eqn:E2; [|vm_compute in E2; discriminate].
  exists ex_c, (repeat 170 12), (fun v => v), msg, (create (ex_e HOST (str "other1"))), (create (ex_e HOST (str "other2"))), st1, st2. split; [reflexivity|].
  assert (F1 : f1 = true /\ map n_name (stored st1 HOST) = [str "other1"]) by (vm_compute in E1; apply Some_inj in E1; inversion E1; subst; split; vm_compute; reflexivity).
  assert (F2 : f2 = true /\ map n_name (stored st2 HOST) = [str "other2"]) by (vm_compute in E2; apply Some_inj in E2; inversion E2; subst; split; vm_compute; reflexivity).
  destruct F1 as [-> F1], F2 as [-> F2]. split; [exact E1|]. split; [exact E2|]. now split.
Qed.
Print Assumptions C99_tail_refuted.
(** A text without a 0 at the end is read to the end of the receive buffer (1504 bytes)
    and beyond. *)
Theorem C99_overread_refuted : exists c junk vtime m, blen m = 1504 /\ rd16 m 2 = Some 1500 /\ ns_parser c junk vtime true m 0 nst0 = None.
Proof.
  exists ex_c, (repeat 170 12), (fun v => v), ([130; 5] ++ net16 1500 ++ [10; 0; 0; 9; 255; 0; 0; 7; 0; 1; 0; 1] ++ net16 HOST ++ net16 100 ++ ex_ip ++ repeat 97 1468).
  split; [vm_compute; reflexivity|]. split; vm_compute; reflexivity.
Qed.
Print Assumptions C99_overread_refuted.

(** ** C100 *)
(** What a node puts into a message is what a neighbour without entries stores, in the
    opposite order, if the entries are acceptable for the neighbour, the text of no entry
    is the beginning of that of an earlier one, and the last text is padded. *)
Theorem C100_delivered_partial c c' vt seqno buf es msg junk vtime pre post : blen buf = 10240 -> blen (f_main c) = ipsize c -> f_v6 c' = f_v6 c -> f_main c' <> f_main c -> 4 <= f_ptr c' <= 8 ->
  Z.of_nat (length es) < 65536 -> Forall (acceptable c') es -> ForallOrdPairs (apart c') es -> (forall es' e, es = es' ++ [e] -> n_len e mod 4 <> 0) ->
  ns_gen c vt seqno buf es = Some msg ->
  exists st, ns_parser c' junk vtime true (pre ++ msg ++ post) (blen pre) nst0 = Some (st, true) /\
  forall t, stored st t = rev (filter (fun e => n_type e =? t) es) /\ Forall (fun d => d_orig d = in_union c' (f_main c) junk /\ d_vt d = vtime vt) (tab st t).
Proof.
  intros Lb Lm V N P Le A O Hl G.
  assert (T : 12 + ipsize c + blen (flat_map create es) <= 10240) by (destruct (Z.le_gt_cases (12 + ipsize c + blen (flat_map create es)) 10240) as [?|Gt]; [assumption|]; rewrite gen_overflow in G; [discriminate|exact Lb|lia]).
  rewrite gen_ok in G by assumption. apply Some_inj in G. pose proof (gen_msg c c' vt seqno es Lm T Le A Hl c' V) as Nm. rewrite G in Nm.
  assert (Rv : rd8 msg 1 = Some vt).
  { rewrite <- G. unfold rd8. rewrite (SecureProofs.rdn_is _ [130] [vt] (net16 (12 + ipsize c + blen (flat_map create es)) ++ f_main c ++ [255; 0] ++ net16 seqno ++ net16 1 ++ net16 (Z.of_nat (length es)) ++ flat_map create es) 1 1); reflexivity. }
  rewrite (parser_msg c' junk vtime true (f_main c) msg es _ pre post _ nst0 vt Nm Rv eq_refl eq_refl P).
  destruct (bytes_eqb (f_main c) (f_main c')) eqn:B; [exfalso; apply N; symmetry; now apply ParserProofs.bytes_eqb_spec|]. cbn [negb]. eexists. split; [reflexivity|].
  assert (H : holds c' (in_union c' (f_main c) junk) (vtime vt) es (steps c' (in_union c' (f_main c) junk) (vtime vt) es nst0)).
  { apply (steps_holds c' _ _ es [] nst0); [intros t; reflexivity|exact A|exact O|]. apply Forall_forall. intros; constructor. }
  intros t. split; [apply (holds_stored _ _ _ _ _ t H)|]. rewrite H. destruct (of_type t es); constructor; [now split|constructor].
Qed.
Print Assumptions C100_delivered_partial.
Example C100_delivered_ex : exists msg, ns_gen ex_n 5 7 (repeat 170 (Z.to_nat 10240)) [ex_e HOST (str "router1"); ex_e FORWARDER []; ex_e MACADDR (str "02:ca:ff:ee:ba:be,1")] = Some msg /\
  Forall (acceptable ex_c) [ex_e HOST (str "router1"); ex_e FORWARDER []; ex_e MACADDR (str "02:ca:ff:ee:ba:be,1")].
Proof.
  eexists. split; [vm_compute; reflexivity|]. constructor; [apply ex_host_ok, ex_router1|]. constructor; [|constructor; [|constructor]].
  - unfold acceptable, ex_e. cbn [n_ip n_type n_len n_name]. split; [reflexivity|]. split; [reflexivity|]. split; [vm_compute; discriminate|]. split; [auto|]. split; [split; auto|]. unfold FORWARDER. split; [lia|]. repeat split; intros; discriminate.
  - unfold acceptable, ex_e. cbn [n_ip n_type n_len n_name]. split; [reflexivity|]. split; [reflexivity|]. split; [vm_compute; discriminate|].
    assert (K : forallb (fun x => negb ((x =? 0) || (x =? 39) || (x =? 92))) (str "02:ca:ff:ee:ba:be,1") = true) by (vm_compute; reflexivity). rewrite forallb_forall in K.
    split; [intros I; apply K in I; discriminate|]. split; [split; intros I; apply K in I; discriminate|]. unfold MACADDR. split; [lia|]. split; [discriminate|]. split; [discriminate|]. split; [discriminate|]. intros _. vm_compute. reflexivity.
Qed.
(** A message of the plugin does not contain the end of the last text if its length is a
    multiple of 4: the entry is lost if another message follows in the packet.  A single
    forwarder (with an empty text) is such an entry. *)
Theorem C100_last_refuted : exists c c' vtime junk buf msg1 msg2 st1 st2, blen buf = 10240 /\ f_v6 c' = f_v6 c /\ f_main c' <> f_main c /\
  ns_gen c 5 7 buf [ex_e HOST (str "router12")] = Some msg1 /\ ns_parser c' junk vtime true (msg1 ++ [1; 5; 0; 12]) 0 nst0 = Some (st1, true) /\ stored st1 HOST = [] /\
  ns_gen c 5 7 buf [ex_e FORWARDER []] = Some msg2 /\ ns_parser c' junk vtime true (msg2 ++ [1; 5; 0; 12]) 0 nst0 = Some (st2, true) /\ stored st2 FORWARDER = [].
Proof.
  exists ex_n, ex_c, (fun v => v), (repeat 170 12), (repeat 170 (Z.to_nat 10240)), (ex_msg [ex_e HOST (str "router12")]), (ex_msg [ex_e FORWARDER []]).
  destruct (ns_parser ex_c (repeat 170 12) (fun v => v) true (ex_msg [ex_e HOST (str "router12")] ++ [1; 5; 0; 12]) 0 nst0) as [[st1 f1]|] eqn:E1; [|vm_compute in E1; discriminate].
  destruct (ns_parser ex_c (repeat 170 12) (fun v => v) true (ex_msg [ex_e FORWARDER []] ++ [1; 5; 0; 12]) 0 nst0) as [[st2 f2]|] eqn:E2; [|vm_compute in E2; discriminate].
  exists st1, st2. split; [vm_compute; reflexivity|]. split; [reflexivity|]. split; [discriminate|]. split; [vm_compute; reflexivity|].
  assert (F1 : f1 = true /\ stored st1 HOST = []) by (vm_compute in E1; apply Some_inj in E1; inversion E1; subst; split; vm_compute; reflexivity).
  assert (F2 : f2 = true /\ stored st2 FORWARDER = []) by (vm_compute in E2; apply Some_inj in E2; inversion E2; subst; split; vm_compute; reflexivity).
  destruct F1 as [-> F1], F2 as [-> F2]. split; [reflexivity|]. split; [exact F1|]. split; [vm_compute; reflexivity|]. split; [reflexivity|exact F2].
Qed.
Print Assumptions C100_last_refuted.
(** A name that is the beginning of an earlier one is lost. *)
Theorem C100_prefix_refuted : exists c c' vtime junk buf es msg st, blen buf = 10240 /\ f_v6 c' = f_v6 c /\ f_main c' <> f_main c /\ Forall (acceptable c') es /\ map n_name es = [str "router1"; str "route"] /\
  ns_gen c 5 7 buf es = Some msg /\ ns_parser c' junk vtime true (msg ++ [0]) 0 nst0 = Some (st, true) /\ map n_name (stored st HOST) = [str "router1"].
Proof.
  set (es := [ex_e HOST (str "router1"); ex_e HOST (str "route")]).
  exists ex_n, ex_c, (fun v => v), (repeat 170 12), (repeat 170 (Z.to_nat 10240)), es, (ex_msg es).
  destruct (ns_parser ex_c (repeat 170 12) (fun v => v) true (ex_msg es ++ [0]) 0 nst0) as [[st1 f1]|] eqn:E1; [|vm_compute in E1; discriminate].
  exists st1. split; [vm_compute; reflexivity|]. split; [reflexivity|]. split; [discriminate|]. split; [|split; [reflexivity|split; [vm_compute; reflexivity|]]].
  - constructor; [apply ex_host_ok, ex_router1|]. constructor; [|constructor]. apply ex_host_ok. apply ex_hostname; [discriminate|vm_compute; reflexivity|vm_compute; reflexivity].
  - assert (F1 : f1 = true /\ map n_name (stored st1 HOST) = [str "router1"]) by (vm_compute in E1; apply Some_inj in E1; inversion E1; subst; split; vm_compute; reflexivity).
    destruct F1 as [-> F1]. split; [reflexivity|exact F1].
Qed.
Print Assumptions C100_prefix_refuted.

(** ** C101 *)
(** The same message again (any bytes, any tables before) is parsed in the same way and
    changes nothing in the tables of names, forwarders and services. *)
Theorem C101_again_partial c junk vtime sym m p st st1 fw : ns_parser c junk vtime sym m p st = Some (st1, fw) ->
  exists st2, ns_parser c junk vtime sym m p st1 = Some (st2, fw) /\ forall t, t = HOST \/ t = FORWARDER \/ t = SERVICE -> tab st2 t = tab st1 t.
Proof.
  intros E. destruct (parser_again _ _ _ _ _ _ _ _ _ E) as (st2 & E2 & T). exists st2. split; [exact E2|]. intros t H. apply T. unfold kept, HOST, FORWARDER, SERVICE in *. lia.
Qed.
Print Assumptions C101_again_partial.
Example C101_again_ex : exists st1, ns_parser ex_c (repeat 170 12) (fun v => v) true (ex_msg [ex_e HOST (str "router1"); ex_e FORWARDER []; ex_e HOST (str "x")]) 0 nst0 = Some (st1, true) /\
  map n_name (stored st1 HOST) = [str "x"; str "router1"] /\ length (stored st1 FORWARDER) = 1%nat.
Proof.
  destruct (ns_parser ex_c (repeat 170 12) (fun v => v) true (ex_msg [ex_e HOST (str "router1"); ex_e FORWARDER []; ex_e HOST (str "x")]) 0 nst0) as [[st1 f1]|] eqn:E1; [|vm_compute in E1; discriminate].
  exists st1. vm_compute in E1. apply Some_inj in E1. inversion E1; subst. split; [reflexivity|]. split; vm_compute; reflexivity.
Qed.
(** There is never more than one position for an originator. *)
Theorem C101_position c vtime l st : nrun c vtime l nst0 = Some st -> Forall (fun d => (length (d_names d) <= 1)%nat) (tab st LATLON).
Proof. intros R. apply (nrun_single c vtime l nst0 st R). constructor. Qed.
Print Assumptions C101_position.
Example C101_position_ex : exists st, nrun ex_c (fun v => v) [ex_ev [ex_e LATLON (str "12.5,-7.25,1"); ex_e LATLON (str "2.5,7.25,0")]; ex_ev [ex_e LATLON (str "1.5,1.25,0")]] nst0 = Some st /\ map n_name (stored st LATLON) = [str "1.5,1.25,0"].
Proof.
  destruct (nrun ex_c (fun v => v) [ex_ev [ex_e LATLON (str "12.5,-7.25,1"); ex_e LATLON (str "2.5,7.25,0")]; ex_ev [ex_e LATLON (str "1.5,1.25,0")]] nst0) as [st|] eqn:E; [|vm_compute in E; discriminate].
  exists st. split; [reflexivity|]. vm_compute in E. apply Some_inj in E. subst st. vm_compute; reflexivity.
Qed.
(** Macs are not compared with those stored: the list grows by every message. *)
Theorem C101_macs_refuted : exists c vtime ev e, forall n, exists st, nrun c vtime (repeat ev n) nst0 = Some st /\ stored st MACADDR = repeat e n.
Proof.
  set (e := ex_e MACADDR (str "02:ca:ff:ee:ba:be,1")). set (m := [0; 0; 0; 3] ++ ex_msg [e] ++ [0; 0; 0; 0]).
  exists ex_c, (fun v => v), (NMsg (repeat 170 12) true m 4), e.
  assert (Em : m = [0; 0; 0; 3] ++ ex_msg [e] ++ [0; 0; 0; 0]) by reflexivity. clearbody m.
  assert (A : acceptable ex_c e) by (destruct C100_delivered_ex as (_ & _ & F); inversion F as [|? ? _ F1]; subst; inversion F1 as [|? ? _ F2]; subst; now inversion F2).
  assert (N : name_msg ex_c [10; 0; 0; 9] (ex_msg [e]) [e]).
  { apply ex_msg_ok; [now constructor| |vm_compute; discriminate|reflexivity]. intros es' x E. destruct es' as [|y es']; [inversion E; subst; vm_compute; discriminate|]. destruct es'; discriminate. }
  assert (S : forall st, ns_parser ex_c (repeat 170 12) (fun v => v) true m 4 st = Some (steps ex_c (in_union ex_c [10; 0; 0; 9] (repeat 170 12)) 5 [e] st, true)).
  { intros st. exact (parser_msg ex_c (repeat 170 12) (fun v => v) true [10; 0; 0; 9] (ex_msg [e]) [e] m [0; 0; 0; 3] [0; 0; 0; 0] 4 st 5 N eq_refl Em eq_refl ltac:(cbn; lia)). }
  set (o := in_union ex_c [10; 0; 0; 9] (repeat 170 12)) in *.
  assert (K : forall l, known ex_c MACADDR (n_len e) (n_ip e) (n_name e) l = None).
  { induction l as [|x l IH]; [reflexivity|]. cbn [known]. rewrite IH. reflexivity. }
  assert (P : forall l, put ex_c e l = (e :: l, true)).
  { intros l. unfold put. rewrite acceptable_ok by exact A. change (n_type e) with MACADDR. now rewrite K. }
  assert (I : forall n st, tab st MACADDR = match n with O => [] | _ => [mkD o 5 (repeat e n)] end -> tab (steps ex_c o 5 [e] st) MACADDR = [mkD o 5 (repeat e (Datatypes.S n))]).
  { intros n st H. unfold steps. cbn [fold_left]. unfold step_e. change (n_type e) with MACADDR. change ((0 <=? MACADDR) && (MACADDR <=? 4)) with true. rewrite H.
    destruct n as [|n]; unfold insert_e; cbn [into_e d_orig d_names]; rewrite ?P.
    - reflexivity.
    - replace (ipeq ex_c o o) with true by (symmetry; apply ipeq_refl). rewrite ?P. reflexivity. }
  assert (R : forall n k s, tab s MACADDR = match k with O => [] | _ => [mkD o 5 (repeat e k)] end -> exists s', nrun ex_c (fun v => v) (repeat (NMsg (repeat 170 12) true m 4) n) s = Some s' /\ tab s' MACADDR = match (k + n)%nat with O => [] | _ => [mkD o 5 (repeat e (k + n))] end).
  { induction n as [|n IH]; intros k s H.
    - exists s. split; [reflexivity|]. now rewrite Nat.add_0_r.
    - cbn [repeat nrun nstep]. rewrite S. cbn [option_map fst]. destruct (IH (Datatypes.S k) _ (I k s H)) as (s' & R & T). exists s'. split; [exact R|]. rewrite T. now rewrite Nat.add_succ_comm. }
  intros n. destruct (R n O nst0 eq_refl) as (s' & Rn & T). exists s'. split; [exact Rn|]. unfold stored. rewrite T. destruct n; [reflexivity|]. cbn [plus flat_map d_names]. now rewrite app_nil_r.
Qed.
Print Assumptions C101_macs_refuted.

(** ** C102 *)
(** The name servers: no pointer is used that is NULL, and the file begins with the three
    best of the forwarders that can be reached, or has all of them, if there are less. *)
Theorem C102_best_partial route k st : (forall ip r, route ip = Some r -> length (r_orig r) = k) ->
  exists out l extra, resolv route st = Some out /\ out = map r_dst l ++ extra /\ (length extra <= 1)%nat /\ ((length l < 3)%nat -> extra = []) /\
  three_best (routes route (map n_ip (stored st FORWARDER))) l.
Proof. intros K. now apply (resolv_ok route k). Qed.
Print Assumptions C102_best_partial.
(** servers 10.0.0.n at the cost n *)
Definition ex_route (ip : list Z) : option rte := Some (mkRt (firstn 4 ip) (nth 3 ip 0) 1 (firstn 4 ip)).
Definition ex_f (n : Z) : nent := mkN ([10; 0; 0; n] ++ repeat 0 12) FORWARDER 0 [].
Example C102_best_ex : exists st, nrun ex_c (fun v => v) [ex_ev [ex_f 7; ex_f 3; ex_f 5; ex_f 2]] nst0 = Some st /\ resolv ex_route st = Some [[10; 0; 0; 2]; [10; 0; 0; 3]; [10; 0; 0; 5]; [10; 0; 0; 7]].
Proof.
  destruct (nrun ex_c (fun v => v) [ex_ev [ex_f 7; ex_f 3; ex_f 5; ex_f 2]] nst0) as [st|] eqn:E; [|vm_compute in E; discriminate].
  exists st. split; [reflexivity|]. vm_compute in E. apply Some_inj in E. subst st. vm_compute; reflexivity.
Qed.
(** The fourth line is the server looked at last, not the fourth best. *)
Theorem C102_fourth_refuted : exists c vtime l st, nrun c vtime l nst0 = Some st /\ Forall (fun n => In (ex_f n) (stored st FORWARDER)) [1; 2; 3; 4; 9] /\
  resolv ex_route st = Some [[10; 0; 0; 1]; [10; 0; 0; 2]; [10; 0; 0; 3]; [10; 0; 0; 9]].
Proof.
  destruct (nrun ex_c (fun v => v) [ex_ev [ex_f 9; ex_f 4; ex_f 3; ex_f 2; ex_f 1]] nst0) as [st|] eqn:E; [|vm_compute in E; discriminate].
  exists ex_c, (fun v => v), [ex_ev [ex_f 9; ex_f 4; ex_f 3; ex_f 2; ex_f 1]], st. split; [exact E|]. vm_compute in E. apply Some_inj in E. subst st. split; [|vm_compute; reflexivity].
  repeat constructor; cbv; tauto.
Qed.
Print Assumptions C102_fourth_refuted.
(** A server announced by two nodes takes two of the lines. *)
Theorem C102_twice_refuted : exists c vtime l st, nrun c vtime l nst0 = Some st /\ resolv ex_route st = Some [[10; 0; 0; 2]; [10; 0; 0; 2]].
Proof.
  set (l := [ex_ev [ex_f 2]; NMsg (repeat 170 12) true ([130; 5; 0; 36; 10; 0; 0; 8; 255; 0; 0; 7; 0; 1; 0; 1] ++ create (ex_f 2) ++ [0]) 0]).
  destruct (nrun ex_c (fun v => v) l nst0) as [st|] eqn:E; [|vm_compute in E; discriminate].
  exists ex_c, (fun v => v), l, st. split; [exact E|]. vm_compute in E. apply Some_inj in E. subst st. vm_compute; reflexivity.
Qed.
Print Assumptions C102_twice_refuted.

(** ** C103 *)
(** Without a suffix: a service is announced if and only if its host begins with one of the
    own names, or is an own address. *)
Theorem C103_own_partial c mask ifs hna pton names h : f_suffix c = [] -> Forall (fun e => n_len e = blen (n_name e)) names ->
  (allowed_host c mask ifs hna pton names h = true <->
   (exists e, In e names /\ prefix_of (n_name e) h) \/ (exists a, pton h = Some a /\ own_address c mask ifs hna a)).
Proof.
  intros S F. unfold allowed_host. rewrite orb_true_iff, existsb_exists. rewrite Forall_forall in F.
  assert (A : forall a, allowed_ip c mask ifs hna a = true <-> own_address c mask ifs hna a).
  { intros a. unfold allowed_ip, own_address. rewrite orb_true_iff, !existsb_exists. unfold ipeq. split; (intros [H|H]; [left|right]).
    - destruct H as (i & I & B). exists i. split; [exact I|]. now apply ParserProofs.bytes_eqb_spec.
    - destruct H as ([p n] & I & B). apply andb_prop in B. destruct B as [B1 B2]. exists p, n. split; [exact I|]. split; [lia|]. now apply ParserProofs.bytes_eqb_spec.
    - destruct H as (i & I & B). exists i. split; [exact I|]. now apply ParserProofs.bytes_eqb_spec.
    - destruct H as (p & n & I & B1 & B2). exists (p, n). split; [exact I|]. apply andb_true_intro. split; [lia|]. now apply ParserProofs.bytes_eqb_spec. }
  rewrite S. change (blen []) with 0. split; (intros [H|H]; [left|right]).
  - destruct H as (e & I & B). exists e. split; [exact I|]. rewrite (F e I), Z.sub_0_r in B. pose proof (blen_nonneg (n_name e)). replace (blen (n_name e) <? 0) with false in B by lia.
    unfold strn_eq in B. apply ParserProofs.bytes_eqb_spec in B. unfold blen in B. rewrite Nat2Z.id, firstn_all in B. exists (skipn (length (n_name e)) h). rewrite B at 1. now rewrite firstn_skipn.
  - destruct (pton h) as [a|]; [|discriminate]. exists a. split; [reflexivity|]. now apply A.
  - destruct H as (e & I & (t & ->)). exists e. split; [exact I|]. rewrite (F e I), Z.sub_0_r. pose proof (blen_nonneg (n_name e)). replace (blen (n_name e) <? 0) with false by lia.
    unfold strn_eq. apply ParserProofs.bytes_eqb_spec. unfold blen. rewrite Nat2Z.id, firstn_all. now rewrite firstn_app, Nat.sub_diag, firstn_all, app_nil_r.
  - destruct H as (a & -> & O). now apply A.
Qed.
Print Assumptions C103_own_partial.
Definition ex_nosuf : ncf := mkNF false [10; 0; 0; 1] 8 [] Eps latlon_scan ex_ipstr.
Example C103_own_ex : f_suffix ex_nosuf = [] /\ Forall (fun e => n_len e = blen (n_name e)) [own_entry (str "router") HOST ex_ip] /\
  allowed_host ex_nosuf (fun a _ => a) [] [] (fun _ => None) [own_entry (str "router") HOST ex_ip] (str "router") = true /\
  allowed_host ex_nosuf (fun a _ => a) [] [] (fun _ => None) [own_entry (str "router") HOST ex_ip] (str "rogue") = false.
Proof. split; [reflexivity|]. split; [repeat constructor|]. split; reflexivity. Qed.
(** With a suffix, the end of the name of the length of the suffix is not compared: a node
    named "router" may announce a service on every host whose name begins with r, and a
    node with a short name not even on its own. *)
Theorem C103_suffix_refuted : exists c mask ifs hna pton, f_suffix c = str ".olsr" /\
  allowed_host c mask ifs hna pton [own_entry (str "router") HOST ex_ip] (str "rogue.olsr") = true /\
  allowed_host c mask ifs hna pton [own_entry (str "ap") HOST ex_ip] (str "ap.olsr") = false.
Proof. exists ex_c, (fun a _ => a), [], [], (fun _ => None). split; [reflexivity|]. split; reflexivity. Qed.
Print Assumptions C103_suffix_refuted.

(** ** C104 *)
(** Building a message stays within its buffer exactly if everything fits. *)
Theorem C104_fits_partial c vt seqno buf es : blen buf = 10240 -> blen (f_main c) = ipsize c -> Forall (fun e => blen (n_ip e) = 16 /\ n_len e = blen (n_name e)) es ->
  (ns_gen c vt seqno buf es <> None <-> 12 + ipsize c + total es <= 10240) /\
  (forall msg, ns_gen c vt seqno buf es = Some msg -> blen msg = 12 + ipsize c + total es /\ rd16 msg 2 = Some (blen msg)).
Proof.
  intros Lb Lm F. assert (T : blen (flat_map create es) = total es).
  { induction F as [|e es (I & L) F IH]; [reflexivity|]. cbn [flat_map total fold_right]. rewrite blen_app, IH. fold (total es). unfold create, space. rewrite !blen_app, !SecureProofs.blen_net16, I, L.
    replace (firstn (Z.to_nat (blen (n_name e))) (n_name e)) with (n_name e) by (unfold blen; now rewrite Nat2Z.id, firstn_all). pose proof (blen_nonneg (n_name e)). unfold blen at 2. rewrite repeat_length. lia. }
  assert (Si : ipsize c = 4 \/ ipsize c = 16) by (unfold ipsize; destruct (f_v6 c); auto). rewrite <- T.
  destruct (Z.le_gt_cases (12 + ipsize c + blen (flat_map create es)) 10240) as [H|H].
  - rewrite gen_ok by assumption. split; [split; [auto|discriminate]|]. intros msg E. apply Some_inj in E. pose proof (blen_nonneg (flat_map create es)).
    assert (L : blen msg = 12 + ipsize c + blen (flat_map create es)).
    { rewrite <- E. rewrite !blen_app, !SecureProofs.blen_net16. change (blen [130; vt]) with 2. change (blen [255; 0]) with 2. lia. }
    split; [exact L|]. rewrite L. apply (rd16_is msg [130; vt] _ (f_main c ++ [255; 0] ++ net16 seqno ++ net16 1 ++ net16 (Z.of_nat (length es)) ++ flat_map create es)); [now rewrite <- E|reflexivity|lia].
  - rewrite gen_overflow by (assumption || lia). split; [split; [congruence|lia]|discriminate].
Qed.
Print Assumptions C104_fits_partial.
Example C104_fits_ex : total [ex_e HOST (str "router1"); ex_e HOST (str "router12")] = 56 /\ exists msg, ns_gen ex_n 5 7 (repeat 170 (Z.to_nat 10240)) [ex_e HOST (str "router1"); ex_e HOST (str "router12")] = Some msg /\ blen msg = 72.
Proof. split; [reflexivity|]. eexists. split; vm_compute; reflexivity. Qed.
(** Nothing limits the number of entries in the configuration: with 70 long names the
    message is written beyond the end of the buffer. *)
Theorem C104_overflow_refuted : exists c buf es, blen buf = 10240 /\ Forall (acceptable c) es /\ length es = 70%nat /\ forall vt seqno, ns_gen c vt seqno buf es = None.
Proof.
  set (e := ex_e HOST (repeat 97 127)). exists ex_c, (repeat 170 (Z.to_nat 10240)), (repeat e 70). split; [vm_compute; reflexivity|].
  assert (H : hostname (repeat 97 127)).
  { split; [discriminate|]. split; [vm_compute; discriminate|]. apply Forall_forall. intros x I. apply repeat_spec in I. subst x. unfold host_char. lia. }
  split; [apply Forall_forall; intros x I; apply repeat_spec in I; subst x; now apply ex_host_ok|]. split; [apply repeat_length|]. intros. apply gen_overflow; vm_compute; reflexivity.
Qed.
Print Assumptions C104_overflow_refuted.

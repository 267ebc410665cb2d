(** C29 and C74: the HNA set and what it withdraws. *)
From Verif Require Import Base Bytes Mantissa IpCalc GwHna Parser Hna HnaSpec HnaProofs HnaGwProofs.

(** After any history of messages, expiries and removals of originators, the table
    holds exactly the announced networks that have not been withdrawn, with the
    validity time of the latest announcement; no network is there twice, no
    gateway is there twice, and no gateway is there without networks. *)
Theorem C29_set : forall hash c evs s log, (forall a, (hash a < HASHSIZE)%nat) ->
  hrun hash c evs hna_init = Some (s, log) ->
  (forall gw net plen vt, In (gw, net, plen, vt) (records s) <-> heard c evs gw net plen = Some vt)
  /\ NoDup (map fst (records s)) /\ NoDup (map e_gw (ents s)) /\ (forall e, In e (ents s) -> e_nets e <> []).
Proof.
  intros hash c evs s log HB H. destruct (hrun_ok hash HB c evs _ _ _ (wf_init hash) H) as (W & M & _).
  split; [|split; [|split]].
  - intros gw net plen vt. rewrite (records_get hash HB) by exact W. rewrite M. unfold heard. reflexivity.
  - apply (records_nodup hash HB). exact W.
  - apply (ents_nodup hash). exact W.
  - intros e He. apply (in_ents hash HB) in He; [|exact W]. eapply wf_ne; eauto.
Qed.
Print Assumptions C29_set.

(** 10.0.0.9 announces 192.168.1.0/24, 192.168.2.0/23,
    one of our own addresses and one of our own networks *)
Definition ex_cfg : hcfg := mkHcfg false true [[10;0;0;1]] [([192;168;7;0], 24)] None.
Definition ex_hdr (size : Z) : list Z := [4; 134; 0; size; 10;0;0;9; 5; 1; 0; 77].
Definition ex_m1 : list Z := ex_hdr 44 ++ [192;168;1;0; 255;255;255;0] ++ [192;168;2;0; 255;255;254;0] ++ [10;0;0;1; 255;255;255;255] ++ [192;168;7;0; 255;255;255;0].
Definition ex_hash (a : list Z) : nat := Z.to_nat (nth 3 a 0 mod 8).
Lemma ex_hash_ok a : (ex_hash a < HASHSIZE)%nat.
Proof. unfold ex_hash, HASHSIZE. lia. Qed.
Definition ex_evs : list hev := [HMsg true ex_m1; HExpire [10;0;0;9] [192;168;1;0] 24; HMsg false ex_m1; HCleanup [10;0;0;3]].
Example C29_set_ex : option_map (fun r => records (fst r)) (hrun ex_hash ex_cfg ex_evs hna_init) = Some [([10;0;0;9], [192;168;2;0], 23, 6000)]
  /\ heard ex_cfg ex_evs [10;0;0;9] [192;168;2;0] 23 = Some 6000.
Proof. split; vm_compute; reflexivity. Qed.

(** what the lookup functions find is what has been announced *)
Theorem C29_lookup : forall hash c evs s log, (forall a, (hash a < HASHSIZE)%nat) ->
  hrun hash c evs hna_init = Some (s, log) -> forall gw net plen,
  match lookup_gw hash s gw with
  | Some e => e_gw e = gw /\ match lookup_net (e_nets e) net plen with
                             | Some n => n_net n = net /\ n_plen n = plen /\ heard c evs gw net plen = Some (n_vtime n)
                             | None => heard c evs gw net plen = None
                             end
  | None => heard c evs gw net plen = None
  end.
Proof.
  intros hash c evs s log HB H gw net plen. destruct (hrun_ok hash HB c evs _ _ _ (wf_init hash) H) as (W & M & _).
  specialize (M gw net plen). change (fold_left (heard1 c) evs (get hash hna_init) gw net plen) with (heard c evs gw net plen) in M. rewrite <- M. clear M.
  unfold get. rewrite <- lookup_look. destruct (lookup_gw hash s gw) as [e|] eqn:L; cbn [option_map]; [|reflexivity]. split.
  - unfold lookup_gw in L. apply find_some in L. destruct L as (_ & L). now apply beq_spec.
  - destruct (lookup_net (e_nets e) net plen) as [n|] eqn:N; [|reflexivity]. unfold lookup_net in N. apply find_some in N. destruct N as (_ & N). apply net_is_spec in N.
    unfold nkey in N. injection N as <- <-. auto.
Qed.
Print Assumptions C29_lookup.
Example C29_lookup_ex : match hrun ex_hash ex_cfg ex_evs hna_init with
  | Some (s, _) => match lookup_gw ex_hash s [10;0;0;9] with Some e => (lookup_net (e_nets e) [192;168;2;0] 23, lookup_net (e_nets e) [192;168;1;0] 24) | None => (None, None) end
  | None => (None, None) end = (Some (mkNet [192;168;2;0] 23 6000), None).
Proof. vm_compute. reflexivity. Qed.

(** the calls to the routing table leave exactly the announced networks there *)
Theorem C29_routes : forall hash c evs s log, (forall a, (hash a < HASHSIZE)%nat) ->
  hrun hash c evs hna_init = Some (s, log) -> forall gw net plen, routes log gw net plen = true <-> exists vt, heard c evs gw net plen = Some vt.
Proof.
  intros hash c evs s log HB H gw net plen. destruct (hrun_ok hash HB c evs _ _ _ (wf_init hash) H) as (W & M & R).
  assert (R0 : req (fun _ _ _ => false) (present (get hash hna_init))) by (intros g n p; reflexivity). specialize (R _ R0 gw net plen).
  fold (routes log) in R. rewrite R. unfold present. rewrite M. change (fold_left (heard1 c) evs (get hash hna_init) gw net plen) with (heard c evs gw net plen).
  destruct (heard c evs gw net plen) as [v|]; split; [eauto|reflexivity|discriminate|intros (v & E); discriminate].
Qed.
Print Assumptions C29_routes.
Example C29_routes_ex : match hrun ex_hash ex_cfg ex_evs hna_init with
  | Some (_, log) => (routes log [10;0;0;9] [192;168;2;0] 23, routes log [10;0;0;9] [192;168;1;0] 24, length log) | None => (false, false, 0%nat) end = (true, false, 6%nat).
Proof. vm_compute. reflexivity. Qed.

(** a step raises changes_hna itself exactly when a network appears (withdrawals
    raise it in olsr_delete_routing_table) *)
Theorem C29_changed : forall hash c evs s log e s' ef, (forall a, (hash a < HASHSIZE)%nat) ->
  hrun hash c evs hna_init = Some (s, log) -> hstep hash c e s = Some (s', ef) ->
  (In EChanged ef <-> exists gw net plen, heard c evs gw net plen = None /\ heard c (evs ++ [e]) gw net plen <> None).
Proof.
  intros hash c evs s log e s' ef HB H S1. destruct (hrun_ok hash HB c evs _ _ _ (wf_init hash) H) as (W & M & _).
  destruct (hstep_ok hash HB c _ _ _ _ W S1) as ((W1 & M1 & _) & C). rewrite C.
  assert (E1 : forall g n p, get hash s g n p = heard c evs g n p) by (intros; apply M).
  assert (E2 : forall g n p, get hash s' g n p = heard c (evs ++ [e]) g n p).
  { intros g n p. rewrite M1. unfold heard. rewrite fold_left_app. cbn [fold_left]. apply heard1_meq. intros g' n' p'. apply M. }
  split; intros (g & n & p & A & B); exists g, n, p; rewrite ?E1, ?E2, <- ?E1, <- ?E2 in *; auto.
Qed.
Print Assumptions C29_changed.
Example C29_changed_ex : match hrun ex_hash ex_cfg [HMsg true ex_m1] hna_init with
  | Some (s, log) => (map (fun x => match x with EChanged => 1 | ECollision _ _ => 2 | _ => 0 end) log,
                      option_map snd (hstep ex_hash ex_cfg (HMsg true (ex_hdr 20 ++ [192;168;1;0; 255;255;255;0])) s)) | None => ([], None) end
  = ([1; 0; 1; 0; 2], Some [EIns [192;168;1;0] 24 [10;0;0;9]]).
Proof. vm_compute. reflexivity. Qed.

(** reading stays within the message if the buffer holds all of it *)
Theorem C29_safe : forall hash c evs, (forall a, (hash a < HASHSIZE)%nat) -> Forall (whole_ev c) evs -> hrun hash c evs hna_init <> None.
Proof. intros hash c evs HB F. exact (hrun_safe hash HB c evs hna_init F). Qed.
Print Assumptions C29_safe.
Example C29_safe_ex : Forall (whole_ev ex_cfg) ex_evs.
Proof. repeat constructor; vm_compute; discriminate. Qed.

(** A message is accepted (and forwarded) exactly if it is well-formed and from a
    symmetric neighbor. *)
Theorem C29_accepted : forall hash c evs s log sym b s' ef acc, (forall a, (hash a < HASHSIZE)%nat) ->
  hrun hash c evs hna_init = Some (s, log) -> input_hna hash c sym b s = Some (s', ef, acc) -> acc = m_ok c sym b /\ (acc = false -> s' = s /\ ef = []).
Proof.
  intros hash c evs s log sym b s' ef acc HB H I. destruct (hrun_ok hash HB c evs _ _ _ (wf_init hash) H) as (W & _ & _).
  destruct (input_ok hash HB c _ _ _ _ _ _ W I) as (_ & _ & A). split; [exact A|]. intros F. rewrite F in I. clear A F H W. unfold input_hna, bind in I.
  destruct (rd8 b 0); [|discriminate]. destruct (negb _); [apply Some_inj in I; injection I; auto|]. destruct (rd8 b 1); [|discriminate]. destruct (rd16 b 2); [|discriminate].
  destruct (rdn b 4 (ipsize c)); [|discriminate]. destruct (rdn b (4 + ipsize c) 2); [|discriminate]. destruct (rd16 b (6 + ipsize c)); [|discriminate].
  destruct (negb _); [apply Some_inj in I; injection I; auto|]. destruct (negb sym); [apply Some_inj in I; injection I; auto|].
  match type of I with match ?X with _ => _ end = _ => destruct X; [|discriminate] end. apply Some_inj in I. injection I. discriminate.
Qed.
Print Assumptions C29_accepted.
Example C29_accepted_ex : option_map snd (input_hna ex_hash ex_cfg true ex_m1 hna_init) = Some true
  /\ option_map snd (input_hna ex_hash ex_cfg true (ex_hdr 19 ++ [192;168;1;0; 255;255;255;0]) hna_init) = Some false.
Proof. split; vm_compute; reflexivity. Qed.

(** A mask with a hole is taken for the part before the hole: a node announcing
    10.0.8.0 with mask 255.0.255.0 gets a route for all of 10.0.8.0/8. *)
Theorem C07_message_refuted : exists hash c b s log, (forall a, (hash a < HASHSIZE)%nat) /\
  hrun hash c [HMsg true b] hna_init = Some (s, log) /\ m_pairs c b = [([10;0;8;0], [255;0;255;0])] /\ routes log (m_orig c b) [10;0;8;0] 8 = true.
Proof.
  exists ex_hash, ex_cfg, (ex_hdr 20 ++ [10;0;8;0; 255;0;255;0]). eexists. eexists. split; [apply ex_hash_ok|].
  split; [cbv [hrun hstep bind]; reflexivity|]. split; vm_compute; reflexivity.
Qed.
Print Assumptions C07_message_refuted.

(** C74.  A smart gateway that has just been announced is withdrawn when an older
    plain default route of the same node expires. *)
Definition ex_plain : list Z := ex_hdr 20 ++ [0;0;0;0; 0;0;0;0].
Definition ex_smart : list Z := ex_hdr 20 ++ [0;0;0;0; 0;3;40;60].
Theorem C74_gateway_refuted : exists hash c s log s' ef, (forall a, (hash a < HASHSIZE)%nat) /\
  hrun hash c [HMsg true ex_plain; HMsg true ex_smart] hna_init = Some (s, log) /\ gw_known (m_orig c ex_smart) log = true /\
  hstep hash c (HExpire (m_orig c ex_plain) [0;0;0;0] 0) s = Some (s', ef) /\ gw_known (m_orig c ex_smart) (log ++ ef) = false.
Proof.
  exists ex_hash, ex_cfg. eexists. eexists. eexists. eexists. split; [apply ex_hash_ok|].
  split; [cbv [hrun hstep bind]; reflexivity|]. split; [vm_compute; reflexivity|]. split; [reflexivity|]. vm_compute. reflexivity.
Qed.
Print Assumptions C74_gateway_refuted.

(** As long as no plain default route is announced, the HNA set withdraws no smart
    gateway.  Missing: the expiry of the gateway's own timer (see C68). *)
Theorem C74_gateway_partial : forall hash c evs s log, (forall a, (hash a < HASHSIZE)%nat) ->
  Forall (fun e => ~ plain_default c e) evs -> hrun hash c evs hna_init = Some (s, log) ->
  forall gw pre post, log = pre ++ post -> gw_known gw pre = true -> gw_known gw log = true.
Proof.
  intros hash c evs s log HB F H gw pre post E K.
  assert (ND : nodel log) by (eapply run_nodel; eauto; [apply wf_init|intros g n p _; reflexivity]).
  subst log. unfold gw_known in *. rewrite fold_left_app, K.
  assert (ND2 : nodel post) by (intros g p C; apply (ND g p); apply in_app_iff; now right). clear - ND2. induction post as [|x post IH]; [reflexivity|]. cbn [fold_left].
  assert (X : gw1 gw true x = true).
  { destruct x as [| |g p|g m p sq v| |]; cbn [gw1]; try reflexivity; [exfalso; apply (ND2 g p); now left|apply orb_true_r]. }
  rewrite X. apply IH. intros g p C. apply (ND2 g p). now right.
Qed.
Print Assumptions C74_gateway_partial.
Example C74_gateway_partial_ex : ~ plain_default ex_cfg (HMsg true ex_smart) /\ ~ plain_default ex_cfg (HMsg true ex_m1) /\
  match hrun ex_hash ex_cfg [HMsg true ex_smart; HMsg true ex_m1; HCleanup [10;0;0;9]] hna_init with
  | Some (_, log) => (gw_known [10;0;0;9] (firstn 1 log), gw_known [10;0;0;9] log, length log) | None => (false, false, 0%nat) end = (true, true, 8%nat).
Proof.
  assert (D : forall b, forallb (fun p => negb (foreign ex_cfg p && is_prefix_inetgw false (fst p, netmask_to_prefix (snd p)))) (m_pairs ex_cfg b) = true -> ~ plain_default ex_cfg (HMsg true b)).
  { intros b Q (_ & p & P1 & P2 & P3). rewrite forallb_forall in Q. specialize (Q p P1). change (h_v6 ex_cfg) with false in P3. now rewrite P2, P3 in Q. }
  split; [apply D; vm_compute; reflexivity|]. split; [apply D; vm_compute; reflexivity|]. vm_compute. reflexivity.
Qed.

(** C121 to C123: the checks on the configuration. *)
From Coq Require Import QArith String Sorting.Sorted.
From Verif Require Import Base Regex ConfIf ConfCheck ConfCheckSpec ConfCheckProofs.

(** settings used in the examples: the built-in ones, two interfaces, two gateways *)
Definition gen_ex : gen :=
  {| g_debug := 1; g_ipv := 2; g_tos := 192; g_will := 3; g_willauto := false;
     g_hyst := false; g_hscale := fz 0; g_hhigh := fz 1; g_hlow := fz 0;
     g_poll := Fin (1 # 20); g_nic := Fin (5 # 2); g_tcred := 2; g_cov := 1;
     g_lq := 2; g_aging := Fin (1 # 20); g_nat := fz 1; g_mintc := fz 0 |}.
Definition rt_ex : rtp :=
  {| r_tab := 0; r_tabd := 0; r_tabt := 0; r_pri := 0; r_prio := 0; r_prit := 0; r_prid := 0;
     r_proto := 0 |}.
Definition own_ex : ownvals :=
  {| o_hello := (Some (fz 3), None); o_tc := (None, None); o_mid := (None, None);
     o_hna := (None, None); o_mults := [(167772161, 32768)] |}.
Definition ifs_ex : list ifc :=
  [{| i_name := str "eth0"; i_own := own_ex |}; {| i_name := str "wlan0"; i_own := own_ex |}].
Definition gw_ex : mgw :=
  {| m_use := 2; m_takedown := 25; m_id := Some (str "one");
     m_script := Some (Some {| s_reg := true; s_uid := 0; s_mode := 493 |});
     m_egress := [Some (str "ppp0")]; m_count := 0; m_fper := 5000; m_offt := 90; m_offr := 0;
     m_period := 10000; m_stable := 6; m_thresh := 0; m_type := 3; m_down := 1024; m_up := 128 |}.
Definition conf_ex : conf :=
  {| c_gen := gen_ex; c_sgw := true; c_rt := rt_ex; c_gw := gw_ex; c_defs := None; c_ifs := ifs_ex |}.

(** the example with another gateway part *)
Definition with_c (m : mgw) : conf :=
  {| c_gen := gen_ex; c_sgw := true; c_rt := rt_ex; c_gw := m; c_defs := None; c_ifs := ifs_ex |}.
Definition gw_with (id : list Z) (mode : Z) (egress : list (option (list Z))) (offt offr : Z) : mgw :=
  {| m_use := 2; m_takedown := 25; m_id := Some id;
     m_script := Some (Some {| s_reg := true; s_uid := 0; s_mode := mode |});
     m_egress := egress; m_count := 0; m_fper := 5000; m_offt := offt; m_offr := offr;
     m_period := 10000; m_stable := 6; m_thresh := 0; m_type := 3; m_down := 1024; m_up := 128 |}.

Ltac accepted c :=
  let k := fresh "k" in let E := fresh "E" in
  destruct (sanity 40 c) as [| |k] eqn:E; [vm_compute in E; discriminate|vm_compute in E; discriminate|].

(** C121: with the exceptions of [no_gap], an accepted configuration is within all limits,
    and so is every interface with the defaults mixed in *)
Theorem C121_good_partial : forall hold c k, sanity hold c = Acc k -> no_gap c ->
  Forall clean_if (k_ifs k) ->
  good_gen (c_gen c) /\ good_sgw (c_gw c) /\ c_ifs c <> [] /\ 1 <= m_use (c_gw c) <= 64 /\
  (m_use (c_gw c) > 1 -> good_multi (g_ipv (c_gen c)) (map i_name (c_ifs c)) (c_gw c)) /\
  Forall (fun i => i_name i <> []) (c_ifs c) /\
  length (k_ifs k) = length (c_ifs c) /\
  Forall (good_if (g_poll (c_gen c)) (g_mintc (c_gen c))) (k_ifs k).
Proof. exact sanity_sound. Qed.
Print Assumptions C121_good_partial.

Example C121_good_ex : exists k, sanity 40 conf_ex = Acc k /\ no_gap conf_ex /\
  Forall clean_if (k_ifs k) /\ m_use (c_gw conf_ex) > 1.
Proof.
  accepted conf_ex. exists k. split; [reflexivity|]. vm_compute in E. inversion E; subst. clear E.
  split; [|split].
  - constructor; cbn.
    + repeat split; discriminate.
    + intros a r H. inversion H; subst. unfold space. lia.
    + intros st H. inversion H; subst. vm_compute. auto.
    + intros n [H|[]]. inversion H; subst. cbn. lia.
    + lia.
    + reflexivity.
  - unfold clean_if. cbn.
    repeat (apply Forall_cons || apply Forall_nil || (split; discriminate)).
  - cbn. lia.
Qed.

(** in the other direction, for one gateway at a time *)
Theorem C121_accept_partial : forall hold c rt, nan_free (c_gen c) -> good_gen (c_gen c) ->
  good_sgw (c_gw c) -> c_ifs c <> [] -> m_use (c_gw c) = 1 ->
  rtpolicy (c_sgw c) (c_rt c) = Acc rt ->
  Forall (fun i => i_name i <> []) (c_ifs c) ->
  Forall (fun i => let v := fix_hello (g_lq (c_gen c)) hold
      (apply_defaults (the_defaults (g_lq (c_gen c)) hold (c_defs c)) (i_own i)) in
      clean_if v /\ good_if (g_poll (c_gen c)) (g_mintc (c_gen c)) v) (c_ifs c) ->
  exists k, sanity hold c = Acc k.
Proof. exact sanity_complete. Qed.
Print Assumptions C121_accept_partial.

(** the example for one gateway *)
Definition gw1_ex : mgw :=
  {| m_use := 1; m_takedown := 25; m_id := None; m_script := None; m_egress := []; m_count := 0;
     m_fper := 5000; m_offt := 90; m_offr := 0; m_period := 10000; m_stable := 6; m_thresh := 0;
     m_type := 3; m_down := 1024; m_up := 128 |}.

Example C121_accept_ex : exists rt, nan_free (c_gen (with_c gw1_ex)) /\ good_gen (c_gen (with_c gw1_ex)) /\
  good_sgw gw1_ex /\ rtpolicy true rt_ex = Acc rt /\
  Forall (fun i => let v := fix_hello 2 40 (apply_defaults (the_defaults 2 40 None) (i_own i)) in
      clean_if v /\ good_if (g_poll gen_ex) (g_mintc gen_ex) v) ifs_ex.
Proof.
  destruct (rtpolicy true rt_ex) as [| |rt] eqn:E; [vm_compute in E; discriminate|vm_compute in E; discriminate|].
  exists rt.
  assert (N : nan_free gen_ex) by (unfold nan_free; cbn; repeat split; discriminate).
  assert (G : good_gen gen_ex) by (apply gen_ok; [exact N|vm_compute; split; reflexivity]).
  split; [exact N|]. split; [exact G|].
  split; [apply sgw_ok; vm_compute; reflexivity|]. split; [reflexivity|].
  assert (B : between q001 1 (g_poll gen_ex)) by apply G.
  repeat (apply Forall_cons || apply Forall_nil);
  (split; [unfold clean_if; repeat (apply Forall_cons || apply Forall_nil || (split; discriminate))
          |apply if_ok; [exact B|discriminate| |vm_compute; reflexivity]];
   unfold clean_if; repeat (apply Forall_cons || apply Forall_nil || (split; discriminate))).
Qed.

(** white space at the start of the instance id *)
Theorem C121_id_refuted : exists hold c k s, sanity hold c = Acc k /\ m_use (c_gw c) > 1 /\
  m_id (c_gw c) = Some s /\ Exists space s.
Proof.
  set (c := with_c (gw_with (str " one") 493 [Some (str "ppp0")] 90 0)).
  accepted c. exists 40, c, k, (str " one"). split; [exact E|]. split; [cbn; lia|].
  split; [reflexivity|]. apply Exists_cons_hd. now left.
Qed.
Print Assumptions C121_id_refuted.

(** a script that may not be executed *)
Theorem C121_script_refuted : exists hold c k st, sanity hold c = Acc k /\ m_use (c_gw c) > 1 /\
  m_script (c_gw c) = Some (Some st) /\ Z.land (s_mode st) 73 = 0.
Proof.
  set (c := with_c (gw_with (str "one") 420 [Some (str "ppp0")] 90 0)).
  accepted c. exists 40, c, k. eexists. split; [exact E|]. split; [cbn; lia|].
  split; reflexivity.
Qed.
Print Assumptions C121_script_refuted.

(** an egress interface with a name that no interface can have (with its terminating zero
    it does not fit into IFNAMSIZ characters) *)
Theorem C121_name_refuted : exists hold c k n, sanity hold c = Acc k /\ m_use (c_gw c) > 1 /\
  In (Some n) (m_egress (c_gw c)) /\ length n = 16%nat.
Proof.
  set (c := with_c (gw_with (str "one") 493 [Some (str "abcdefghijklmnop")] 90 0)).
  accepted c. exists 40, c, k. eexists. split; [exact E|]. split; [cbn; lia|].
  split; [left; reflexivity|reflexivity].
Qed.
Print Assumptions C121_name_refuted.

(** 257 different names of two letters *)
Definition names257 : list (option (list Z)) :=
  map (fun i => Some [97 + i / 20; 97 + i mod 20]) (upto 257).

Lemma n257 : forall x y : Z,
  Some [97 + x / 20; 97 + x mod 20] = Some [97 + y / 20; 97 + y mod 20] -> x = y.
Proof.
  intros x y Q.
  assert (A := f_equal (fun o => match o with Some [a; b] => a | _ => 0 end) Q).
  assert (B := f_equal (fun o => match o with Some [a; b] => b | _ => 0 end) Q).
  cbv beta iota in A, B. clear Q. lia.
Qed.

(** more egress interfaces than allowed: the counter has wrapped around *)
Theorem C121_count_refuted : exists hold c k, sanity hold c = Acc k /\ m_use (c_gw c) > 1 /\
  NoDup (m_egress (c_gw c)) /\ length (m_egress (c_gw c)) = 257%nat /\ m_count (k_gw k) = 1.
Proof.
  set (c := with_c (gw_with (str "one") 493 names257 90 0)).
  accepted c. exists 40, c, k. split; [exact E|]. split; [cbn; lia|]. split.
  - unfold c, with_c, gw_with. cbn [c_gw m_egress]. unfold names257.
    apply map_nodup_on; [apply upto_nodup|]. intros x y Hx Hy Q. apply (n257 x y Q).
  - split; [vm_compute; reflexivity|]. vm_compute in E. inversion E. reflexivity.
Qed.
Print Assumptions C121_count_refuted.

(** a poll rate that is no number (option "-T nan"), and an interval of zero seconds *)
Theorem C121_nan_refuted : exists hold c k, sanity hold c = Acc k /\
  ~ between q001 1 (g_poll (c_gen c)) /\
  Exists (fun v => em (v_hello v) = Fin 0) (k_ifs k).
Proof.
  set (g := {| g_debug := 1; g_ipv := 2; g_tos := 192; g_will := 3; g_willauto := false;
     g_hyst := false; g_hscale := fz 0; g_hhigh := fz 1; g_hlow := fz 0;
     g_poll := NaN; g_nic := Fin (5 # 2); g_tcred := 2; g_cov := 1;
     g_lq := 2; g_aging := Fin (1 # 20); g_nat := fz 1; g_mintc := fz 0 |}).
  set (o := {| o_hello := (Some (Fin 0), None); o_tc := (None, None); o_mid := (None, None);
     o_hna := (None, None); o_mults := [] |}).
  set (c := {| c_gen := g; c_sgw := true; c_rt := rt_ex; c_gw := gw1_ex; c_defs := None;
               c_ifs := [{| i_name := str "eth0"; i_own := o |}] |}).
  accepted c. exists 40, c, k. split; [exact E|]. split.
  - cbn. intros (q & Q & _). discriminate.
  - vm_compute in E. inversion E. apply Exists_cons_hd. reflexivity.
Qed.
Print Assumptions C121_nan_refuted.

(** the times in use on each interface, without a block of defaults *)
Theorem C121_times_partial : forall hold c k, sanity hold c = Acc k -> c_defs c = None ->
  Forall2 (times (g_lq (c_gen c)) hold) (c_ifs c) (k_ifs k).
Proof. exact times_ok. Qed.
Print Assumptions C121_times_partial.
Example C121_times_ex : exists k, sanity 40 {| c_gen := gen_ex; c_sgw := true; c_rt := rt_ex; c_gw := gw_ex; c_defs := None; c_ifs := [{| i_name := str "eth0"; i_own := {| o_hello := (None, Some (fz (-1))); o_tc := (None, None); o_mid := (None, None); o_hna := (None, None); o_mults := [] |} |}] |} = Acc k /\
  map (fun v => vt (v_hello v)) (k_ifs k) = [fz 40].
Proof. eexists. split; [vm_compute; reflexivity|reflexivity]. Qed.

(** C122: the rules handed out in multi-gateway mode are all different, fit into 32 bits
    and are none of 0, 32766 and 32767 *)
Theorem C122_rules_partial : forall hold c k, sanity hold c = Acc k -> m_use (c_gw c) > 1 ->
  m_count (c_gw c) = 0 -> (length (m_egress (c_gw c)) < 256)%nat ->
  Z.of_nat (length (c_ifs c)) < 1073741824 ->
  0 <= m_offt (c_gw c) < 4294967296 -> 0 <= m_offr (c_gw c) < 4294967296 ->
  NoDup (rules_of (all_nums (length (c_ifs c)) (k_gw k))) /\
  Forall (fun x => 0 < x < 4294967296 /\ x <> 32766 /\ x <> 32767)
    (rules_of (all_nums (length (c_ifs c)) (k_gw k))).
Proof. exact rules_distinct. Qed.
Print Assumptions C122_rules_partial.

Example C122_rules_ex : exists k, sanity 40 conf_ex = Acc k /\
  rules_of (all_nums 2 (k_gw k)) = [90; 91; 92; 93; 87; 88; 89].
Proof. accepted conf_ex. exists k. split; [reflexivity|]. vm_compute in E. inversion E. reflexivity. Qed.

(** C122: the tables are all different and none of 0 and 253 to 255, if the offset is below
    256 *)
Theorem C122_tables_partial : forall hold c k, sanity hold c = Acc k -> m_use (c_gw c) > 1 ->
  m_count (c_gw c) = 0 -> (length (m_egress (c_gw c)) < 256)%nat ->
  Z.of_nat (length (c_ifs c)) < 1073741824 ->
  0 <= m_offt (c_gw c) < 4294967296 -> 0 <= m_offr (c_gw c) < 4294967296 ->
  m_offt (c_gw c) < 256 ->
  NoDup (tables_of (all_nums (length (c_ifs c)) (k_gw k))) /\
  Forall (fun x => 0 < x < 253) (tables_of (all_nums (length (c_ifs c)) (k_gw k))).
Proof. exact tables_distinct. Qed.
Print Assumptions C122_tables_partial.

Example C122_tables_ex : exists k, sanity 40 conf_ex = Acc k /\
  tables_of (all_nums 2 (k_gw k)) = [90; 91; 92; 93].
Proof. accepted conf_ex. exists k. split; [reflexivity|]. vm_compute in E. inversion E. reflexivity. Qed.

(** with a larger offset the numbers are cut to 8 bits: a tunnel uses the main table (254) *)
Theorem C122_cut_refuted : exists hold c k, sanity hold c = Acc k /\ m_use (c_gw c) > 1 /\
  length (m_egress (c_gw c)) = 1%nat /\ In 254 (tables_of (all_nums (length (c_ifs c)) (k_gw k))).
Proof.
  set (c := with_c (gw_with (str "one") 493 [Some (str "ppp0")] 508 0)).
  accepted c. exists 40, c, k. split; [exact E|]. split; [cbn; lia|]. split; [reflexivity|].
  vm_compute in E. inversion E. vm_compute. tauto.
Qed.
Print Assumptions C122_cut_refuted.

(** with the wrapped counter two egress interfaces use the same table *)
Theorem C122_same_refuted : exists hold c k, sanity hold c = Acc k /\ m_use (c_gw c) > 1 /\
  NoDup (m_egress (c_gw c)) /\ ~ NoDup (tables_of (all_nums (length (c_ifs c)) (k_gw k))).
Proof.
  set (c := with_c (gw_with (str "one") 493 names257 90 0)).
  accepted c. exists 40, c, k. split; [exact E|]. split; [cbn; lia|]. split.
  - unfold c, with_c, gw_with. cbn [c_gw m_egress]. unfold names257.
    apply map_nodup_on; [apply upto_nodup|]. intros x y Hx Hy Q. apply (n257 x y Q).
  - vm_compute in E. inversion E. clear E. intro ND.
    assert (X := proj1 (NoDup_nth_error _) ND 0%nat 256%nat).
    assert (Y : 0%nat = 256%nat) by (apply X; [vm_compute; lia|vm_compute; reflexivity]).
    discriminate.
Qed.
Print Assumptions C122_same_refuted.

(** the tables of the routing policy are not looked at: an egress interface or a tunnel uses
    the table of the default routes *)
Theorem C122_tables_refuted : exists hold c k, sanity hold c = Acc k /\ m_use (c_gw c) > 1 /\
  In (r_tabd (k_rt k)) (tables_of (all_nums (length (c_ifs c)) (k_gw k))).
Proof.
  set (c := with_c (gw_with (str "one") 493 [Some (str "ppp0")] 221 0)).
  accepted c. exists 40, c, k. split; [exact E|]. split; [cbn; lia|].
  vm_compute in E. inversion E. vm_compute. tauto.
Qed.
Print Assumptions C122_tables_refuted.

(** neither are the priorities of the routing policy *)
Theorem C122_rules_refuted : exists hold c k, sanity hold c = Acc k /\ m_use (c_gw c) > 1 /\
  In (r_prio (k_rt k)) (rules_of (all_nums (length (c_ifs c)) (k_gw k))).
Proof.
  set (c := with_c (gw_with (str "one") 493 [Some (str "ppp0")] 90 32774)).
  accepted c. exists 40, c, k. split; [exact E|]. split; [cbn; lia|].
  vm_compute in E. inversion E. vm_compute. tauto.
Qed.
Print Assumptions C122_rules_refuted.

(** C123: what is configured for the routing policy is kept *)
Theorem C123_kept : forall sgw r r', rtpolicy sgw r = Acc r' ->
  (r_tab r <> 0 -> r_tab r' = r_tab r) /\ (r_tabd r <> 0 -> r_tabd r' = r_tabd r) /\
  (sgw = true -> r_tabt r <> 0 -> r_tabt r' = r_tabt r) /\
  (r_pri r <> 0 -> r_pri r' = r_pri r) /\ (r_prio r <> 0 -> r_prio r' = r_prio r) /\
  (r_prit r <> 0 -> r_prit r' = r_prit r) /\ (r_prid r <> 0 -> r_prid r' = r_prid r).
Proof. intros sgw r r' H. destruct (rtpolicy_acc sgw r r' H) as (A & B & C & D & E & F & G & _). auto 10. Qed.
Print Assumptions C123_kept.

(** with smart gateways an automatic priority of the last three rules is a rule *)
Theorem C123_auto : forall r r', rtpolicy true r = Acc r' ->
  (r_prio r = 0 -> 0 < r_prio r') /\ (r_prit r = 0 -> 0 < r_prit r') /\
  (r_prid r = 0 -> 0 < r_prid r').
Proof. intros r r' H. destruct (rtpolicy_acc true r r' H) as (_ & _ & _ & _ & _ & _ & _ & A & _). auto. Qed.
Print Assumptions C123_auto.

(** the installed rules have increasing positive priorities and tables below 253, if no
    configured priority is less than -1 *)
Theorem C123_ordered_partial : forall sgw r r', rtpolicy sgw r = Acc r' ->
  -1 <= r_pri r /\ -1 <= r_prio r /\ -1 <= r_prit r /\ -1 <= r_prid r -> rules_ok r'.
Proof. intros sgw r r' H. destruct (rtpolicy_acc sgw r r' H) as (_ & _ & _ & _ & _ & _ & _ & _ & A). exact A. Qed.
Print Assumptions C123_ordered_partial.

Example C123_ex : exists r', rtpolicy true
  {| r_tab := 100; r_tabd := 0; r_tabt := 0; r_pri := 20000; r_prio := 0; r_prit := 30000; r_prid := 0;
     r_proto := 0 |} = Acc r' /\
  installed r' = [(20000, 100); (20010, 223); (30000, 224); (30010, 223)] /\ r_proto r' = 3.
Proof. eexists. repeat split. Qed.

(** a negative priority is installed *)
Theorem C123_negative_refuted : exists r r', rtpolicy true r = Acc r' /\
  Exists (fun x => fst x < 0) (installed r').
Proof.
  exists {| r_tab := 100; r_tabd := 0; r_tabt := 0; r_pri := -5; r_prio := 0; r_prit := 0; r_prid := 0;
            r_proto := 0 |}.
  eexists. split; [reflexivity|]. apply Exists_cons_hd. cbn. lia.
Qed.
Print Assumptions C123_negative_refuted.

(** the computation of automatic priorities overflows *)
Theorem C123_overflow_refuted : exists r, r_pri r <= 2147483647 /\ rtpolicy true r = Ub.
Proof.
  exists {| r_tab := 100; r_tabd := 0; r_tabt := 0; r_pri := 2147483647; r_prio := 0; r_prit := 0;
            r_prid := 0; r_proto := 0 |}.
  split; [cbn; lia|reflexivity].
Qed.
Print Assumptions C123_overflow_refuted.

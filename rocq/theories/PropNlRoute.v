(** C94-C97: requests to the kernel through the rtnetlink socket. *)
From Verif Require Import Base Bytes NetBuf Parser IpCalc NlRoute NlRouteSpec NlRouteProofs.

Definition ex_a : list Z := [10; 0; 0; 7].
Definition ex_g : list Z := [10; 0; 0; 2].
Definition ex_args (table : Z) := mkRA 2 table 4 0 3 2 100 (Some [10; 0; 0; 1]) (Some ex_g) ex_a 32 true false false.
Lemma ex_args_ok table : 0 <= table < 2 ^ 32 -> args_ok (ex_args table).
Proof.
  intros H. unfold args_ok, ex_args, byte, addr_ok. cbn [a_fam a_table a_flags a_scope a_if a_metric a_proto a_src a_gw a_dst a_plen].
  split; [now left|]. split; [exact H|]. do 6 (split; [lia|]). split; [reflexivity|]. split; intros s E; apply Some_inj in E; now subst s.
Qed.

(** The request for a route is understood by the kernel in exactly one way: the operation,
    family, destination, protocol, scope and type that were asked for, the table,
    interface, metric, source address and gateway, and nothing else.  (A host route
    without gateway gets its destination as the gateway, as long as the prefix length is
    32.)  Not for tables above 255. *)
Theorem C94_request_partial le x : args_ok x -> a_table x < 256 -> exists m q,
  new_route le x = Some m /\ reads le m q /\ (forall q', reads le m q' -> q' = q) /\
  q_type q = (if a_set x then 24 else 25) /\ q_nlflags q = (if a_set x then 1 + 4 + 256 + 1024 else 1 + 4) /\
  q_family q = a_fam x /\ q_srclen q = 0 /\ q_tos q = 0 /\ table_of le q = a_table x /\
  values q 1 = [a_dst x] /\ q_dstlen q = a_plen x /\ q_rtype q = (if a_black x then 6 else 1) /\
  (a_set x = true -> q_proto q = u8 (a_proto x) /\ q_scope q = a_scope x) /\
  (a_set x = false -> q_proto q = 0 /\ q_scope q = (if a_similar x then 255 else a_scope x)) /\
  (if a_black x || (negb (a_set x) && a_similar x) then values q 4 = [] else num le (values q 4) (a_if x)) /\
  (if 0 <=? a_metric x then num le (values q 6) (a_metric x) else values q 6 = []) /\
  values q 7 = (if a_set x then match a_src x with Some s => [s] | None => [] end else []) /\
  (forall g, a_gw x = Some g -> values q 5 = [g] /\ q_flags q = a_flags x) /\
  (a_gw x = None -> a_plen x = 32 -> values q 5 = [a_dst x] /\ q_flags q = a_flags x) /\
  (a_gw x = None -> a_plen x <> 32 -> values q 5 = [] /\ q_flags q = Z.land (a_flags x) (Z.lnot 4)) /\
  (forall t, ~ In t [1; 4; 5; 6; 7] -> values q t = []).
Proof.
  intros A T. destruct (new_route_reads le x A) as (m & E & R). eexists m, _. split; [exact E|]. split; [exact R|]. split; [intros q' R'; now apply (reads_unique le m)|].
  destruct (route_q le x m _ A E R) as (Q1 & Q2 & Q3 & Q4 & Q5 & Q6 & Q7 & Q8 & Q9 & Q10 & Q11 & V1 & V15 & V5 & V4 & V6 & V7 & V0). set (q := mkQ _ _ _ _ _ _ _ _ _ _ _ _) in *. clearbody q.
  replace (a_table x <? 256) with true in Q7 by lia.
  do 2 (split; [assumption|]). do 3 (split; [assumption|]). split; [unfold table_of; now rewrite V15|]. do 3 (split; [assumption|]).
  split; [intros S; rewrite S in *; now split|]. split; [intros S; rewrite S in *; now split|].
  split. { rewrite V4. destruct (a_set x), (a_similar x), (a_black x); cbn [orb andb negb]; try reflexivity; (exists (h32 le (a_if x)); split; [reflexivity|split; [apply blen_h32|apply hval_h32]]). }
  split. { rewrite V6. destruct (a_metric x >=? 0) eqn:M; replace (0 <=? a_metric x) with (a_metric x >=? 0) by lia; rewrite M; [|reflexivity]. eexists. split; [reflexivity|]. split; [apply blen_h32|apply hval_h32]. }
  split. { rewrite V7. now destruct (a_src x), (a_set x). }
  unfold no_onlink in Q11. split. { intros g G. rewrite G in *. now split. }
  split. { intros G P. rewrite G, P in *. now split. }
  split. { intros G P. rewrite G in *. replace (a_plen x =? 32) with false in * by lia. now split. }
  intros t N. apply V0; intros ->; apply N; cbn; tauto.
Qed.
Print Assumptions C94_request_partial.
Example C94_request_ex : args_ok (ex_args 254) /\ exists m, new_route true (ex_args 254) = Some m /\ blen m = 68.
Proof. split; [apply ex_args_ok; lia|]. eexists. split; vm_compute; reflexivity. Qed.

(** A table above 255 is lost: RTA_TABLE is written before nlmsg_len is set, at the
    beginning of the header, and overwritten; the request names table 0, which the kernel
    takes for the main table. *)
Theorem C94_table_refuted : exists x m q, args_ok x /\ a_table x = 2001 /\ new_route true x = Some m /\ reads true m q /\ (forall q', reads true m q' -> q' = q) /\ table_of true q = 0.
Proof.
  destruct (new_route_reads true (ex_args 2001) (ex_args_ok 2001 ltac:(lia))) as (m & E & R). eexists (ex_args 2001), m, _.
  split; [apply ex_args_ok; lia|]. split; [reflexivity|]. split; [exact E|]. split; [exact R|]. split; [intros q' R'; now apply (reads_unique true m)|].
  destruct (route_q true _ m _ (ex_args_ok 2001 ltac:(lia)) E R) as (_ & _ & _ & _ & _ & _ & Q7 & _ & _ & _ & _ & _ & V15 & _). unfold table_of. rewrite V15, Q7. reflexivity.
Qed.
Print Assumptions C94_table_refuted.

(** The request for a policy rule is understood as the rule asked for, if the table is
    below 256. *)
Theorem C94_rule_partial le family rttable prio ifname set : byte family -> byte rttable -> (forall n, ifname = Some n -> blen n <= 16) -> exists m q,
  policy_rule le family rttable prio ifname set = Some m /\ reads le m q /\ (forall q', reads le m q' -> q' = q) /\
  q_type q = (if set then 32 else 33) /\ q_nlflags q = 1 + 4 + 512 + 1024 /\ q_family q = family /\ table_of le q = rttable /\
  q_dstlen q = 0 /\ q_srclen q = 0 /\ q_tos q = 0 /\ q_proto q = 0 /\ q_scope q = 0 /\ q_rtype q = 1 /\ q_flags q = 0 /\
  num le (values q 6) prio /\ values q 3 = match ifname with Some n => [n] | None => [] end /\ (forall t, t <> 3 -> t <> 6 -> values q t = []).
Proof.
  intros F T N. destruct (rule_reads le family rttable prio ifname set F N) as (m & E & R). eexists m, _. split; [exact E|]. split; [exact R|]. split; [intros q' R'; now apply (reads_unique le m)|].
  unfold values, table_of. cbn [q_type q_nlflags q_family q_table q_dstlen q_srclen q_tos q_proto q_scope q_rtype q_flags].
  split; [reflexivity|]. split; [reflexivity|]. split; [reflexivity|].
  split. { unfold values. cbn [q_attrs q_table filter fst Z.eqb Pos.eqb]. destruct ifname; cbn [q_attrs q_table filter fst map Z.eqb Pos.eqb]; unfold u8, byte in *; apply Z.mod_small; lia. }
  do 7 (split; [reflexivity|]). split; [|split].
  - exists (h32 le prio). split; [now destruct ifname|]. split; [apply blen_h32|apply hval_h32].
  - now destruct ifname.
  - intros t N3 N6. destruct ifname; cbn [q_attrs filter fst]; replace (6 =? t) with false by lia; try replace (3 =? t) with false by lia; reflexivity.
Qed.
Print Assumptions C94_rule_partial.
Example C94_rule_ex : exists m, policy_rule true 2 111 65535 (Some [116; 117; 110; 108; 48; 0]) true = Some m /\ blen m = 46.
Proof. eexists. split; vm_compute; reflexivity. Qed.

(** Of a larger table number the rule gets the low 8 bits: a rule for table 256 + 254 is a
    rule for the main table. *)
Theorem C94_rule_refuted : exists rttable m q, rttable = 510 /\ policy_rule true 2 rttable 100 None true = Some m /\ reads true m q /\ (forall q', reads true m q' -> q' = q) /\ table_of true q = 254.
Proof.
  destruct (rule_reads true 2 510 100 None true ltac:(unfold byte; lia) ltac:(discriminate)) as (m & E & R). eexists 510, m, _.
  split; [reflexivity|]. split; [exact E|]. split; [exact R|]. split; [intros q' R'; now apply (reads_unique true m)|reflexivity].
Qed.
Print Assumptions C94_rule_refuted.

(** what an entry gives rise to has sensible types *)
Definition ex_c := mkNC false false 2 false 254 254 99 false [].
Definition ex_e := mkRE ex_a 32 ([], 0) 0 (Some ((ex_g, 3), 2)).
Definition ex_net := mkRE [10; 1; 0; 0] 16 ([], 0) 0 (Some ((ex_g, 3), 2)).
Lemma ex_similar_ok e : blen (e_dst e) = 4 -> byte (e_plen e) -> args_ok (similar_req ex_c e).
Proof.
  intros L P. unfold args_ok, similar_req, byte, addr_ok in *. cbn [a_fam a_table a_flags a_scope a_if a_metric a_proto a_src a_gw a_dst a_plen].
  split; [now left|]. split. { unfold nl_table. destruct (is_prefix_inetgw _ _); cbn; lia. } do 6 (split; [lia|]). split; [exact L|]. split; discriminate.
Qed.

(** After "file exists" olsrd asks the kernel to delete similar routes: unicast routes to
    the same destination in the same table, over any interface, gateway, metric, protocol
    and scope.  IPv4, except for host routes. *)
Theorem C95_similar_partial le c e m q r : n_v6 c = false -> args_ok (similar_req c e) -> e_plen e <> 32 -> nl_table c e < 256 ->
  new_route le (similar_req c e) = Some m -> reads le m q ->
  k_table r = nl_table c e -> k_dst r = e_dst e -> k_plen r = e_plen e -> k_type r = 1 -> applies le q r.
Proof.
  intros V A P T E R Kt Kd Kp Ky. destruct (route_q le _ m q A E R) as (Q1 & Q2 & Q3 & Q4 & Q5 & Q6 & Q7 & Q8 & Q9 & Q10 & Q11 & V1 & V15 & V5 & V4 & V6 & V7 & V0).
  cbn [similar_req a_fam a_table a_flags a_scope a_if a_metric a_proto a_src a_gw a_dst a_plen a_set a_similar a_black negb andb orb] in *.
  replace (nl_table c e <? 256) with true in Q7 by lia. replace (e_plen e =? 32) with false in V5 by lia.
  unfold applies, table_of, bytesof, numof. rewrite V1, V15, V4, V5, V6, Q1, Q4, Q7, Q8, Q9, Q10. change (0 >=? 0) with true. cbv iota. rewrite hval_h32.
  do 4 (split; [congruence|]). split; [right; congruence|]. split; [now left|]. split; [now left|]. split; [now left|]. split; now left.
Qed.
Print Assumptions C95_similar_partial.
Example C95_similar_ex : args_ok (similar_req ex_c ex_net) /\ nl_table ex_c ex_net = 254 /\
  (exists m q, new_route true (similar_req ex_c ex_net) = Some m /\ reads true m q /\ applies true q (mkK 254 [10; 1; 0; 0] 16 1 253 4 7 9 [10; 0; 0; 200])).
Proof.
  assert (A : args_ok (similar_req ex_c ex_net)) by (apply ex_similar_ok; [reflexivity|unfold byte; cbn; lia]).
  split; [exact A|]. split; [reflexivity|]. destruct (new_route_reads true _ A) as (m & E & R). eexists m, _. split; [exact E|]. split; [exact R|].
  apply (C95_similar_partial true ex_c ex_net m _ _ eq_refl A); [discriminate|reflexivity|exact E|exact R|reflexivity..].
Qed.

(** For a host route the request names the destination as the gateway; a route over any
    other gateway is not deleted. *)
Theorem C95_host_refuted : exists c e m q r, args_ok (similar_req c e) /\ e_plen e = 32 /\ new_route true (similar_req c e) = Some m /\ reads true m q /\
  (forall q', reads true m q' -> q' = q) /\
  k_table r = nl_table c e /\ k_dst r = e_dst e /\ k_plen r = e_plen e /\ k_type r = 1 /\ ~ applies true q r.
Proof.
  assert (A : args_ok (similar_req ex_c ex_e)) by (apply ex_similar_ok; [reflexivity|unfold byte; cbn; lia]).
  destruct (new_route_reads true _ A) as (m & E & R). eexists ex_c, ex_e, m, _, (mkK 254 ex_a 32 1 0 99 2 3 ex_g).
  split; [exact A|]. split; [reflexivity|]. split; [exact E|]. split; [exact R|]. split; [intros q' R'; now apply (reads_unique true m)|].
  do 4 (split; [reflexivity|]). destruct (route_q true _ m _ A E R) as (_ & _ & _ & _ & _ & _ & _ & _ & _ & _ & _ & _ & _ & V5 & _).
  intros (_ & _ & _ & _ & _ & _ & _ & _ & _ & [N|N]).
  - rewrite V5 in N. discriminate N.
  - unfold bytesof in N. rewrite V5 in N. discriminate N.
Qed.
Print Assumptions C95_host_refuted.

(** Adding an entry: one to three requests; the result is the answer to the last one, and
    if it is 0, this request was to add the wanted route over the best next hop. *)
Theorem C96_added c e h n a1 a2 a3 : e_best e = Some (h, n) ->
  let (r, l) := process_rt_entry c e true a1 a2 a3 in
  (length l <= 3)%nat /\ exists l' x, l = l' ++ [(x, r)] /\ (r = 0 -> a_set x = true /\ wanted e h x).
Proof.
  intros B. assert (W : a_set (first_req c e true) = true /\ wanted e h (first_req c e true)).
  { split; [reflexivity|]. unfold wanted, first_req, nl_host, nl_nexthop. rewrite B. cbn [a_dst a_plen a_black a_similar a_if a_gw]. do 5 (split; [reflexivity|]).
    destruct ((_ =? _) && bytes_eqb (fst h) (e_dst e)) eqn:X; [right|now left]. split; [reflexivity|]. apply andb_prop in X. apply ParserProofs.bytes_eqb_spec, X. }
  unfold process_rt_entry. cbn [andb negb]. set (f := first_req c e true) in *. destruct (a1 =? 17) eqn:E1; [|destruct (_ && _ && _)].
  - destruct (a2 =? 0) eqn:E2; (split; [cbn; lia|]).
    + exists [(f, a1); (similar_req c e, a2)], f. split; [reflexivity|]. intros _. exact W.
    + exists [(f, a1)], (similar_req c e). split; [reflexivity|]. intros ->. discriminate E2.
  - destruct (a2 =? 0) eqn:E2; (split; [cbn; lia|]).
    + exists [(f, a1); (gateway_req c e true, a2)], f. split; [reflexivity|]. intros _. exact W.
    + exists [(f, a1)], (gateway_req c e true). split; [reflexivity|]. intros ->. discriminate E2.
  - split; [cbn; lia|]. exists [], f. split; [reflexivity|]. intros _. exact W.
Qed.
Print Assumptions C96_added.
Example C96_added_ex : fst (process_rt_entry ex_c ex_e true 17 0 0) = 0 /\ length (snd (process_rt_entry ex_c ex_e true 17 0 0)) = 3%nat.
Proof. split; reflexivity. Qed.

(** The route of an entry that is added goes to the table for it and has the metric for it. *)
Lemma memeq12 a : length a = 16%nat -> memeq 12 a [0;0;0;0;0;0;0;0;0;0;255;255;0;0;0;0] = true <-> firstn 12 a = repeat 0 10 ++ [255; 255].
Proof.
  intros L. do 16 (destruct a as [|? a]; [discriminate L|]). cbn [memeq firstn repeat app]. rewrite !andb_true_iff, !Z.eqb_eq. split.
  - intros (-> & -> & -> & -> & -> & -> & -> & -> & -> & -> & -> & -> & _). reflexivity.
  - intros H. inversion H. auto 20.
Qed.
Lemma inet_whole (v6 : bool) a p : length a = (if v6 then 16 else 4)%nat -> is_prefix_inetgw v6 (a, p) = true <-> whole v6 a p.
Proof.
  destruct v6; intros L; unfold is_prefix_inetgw, whole.
  - unfold ip_prefix_is_v6_inetgw, ip_prefix_is_mappedv4_inetgw. cbn [fst snd ipv6_mappedv4_route]. change (Z.to_nat (96 / 8)) with 12%nat.
    change (memeq (Z.to_nat (3 / 8)) a (fst ipv6_internet_route)) with true. rewrite orb_true_iff, !andb_true_iff, !Z.eqb_eq, memeq12 by exact L. intuition.
  - unfold ip_prefix_is_v4_inetgw. cbn [fst snd ipv4_internet_route]. do 4 (destruct a as [|? a]; [discriminate L|]). destruct a; [|discriminate L].
    cbn [memeq]. rewrite !andb_true_iff, !Z.eqb_eq. split; [intros (-> & -> & -> & -> & -> & _); auto|]. intros (H & ->). inversion H. auto 10.
Qed.
Theorem C96_placed c e h n a1 a2 a3 : e_best e = Some (h, n) -> length (e_dst e) = (if n_v6 c then 16 else 4)%nat ->
  let (r, l) := process_rt_entry c e true a1 a2 a3 in
  r = 0 -> exists x l', l = l' ++ [(x, 0)] /\
    (whole (n_v6 c) (e_dst e) (e_plen e) -> placed c true n x) /\ (~ whole (n_v6 c) (e_dst e) (e_plen e) -> placed c false n x) /\
    a_src x = (if n_usesrc c then Some (n_src c) else None) /\ a_proto x = n_proto c.
Proof.
  intros B L. set (f := first_req c e true).
  assert (W : (whole (n_v6 c) (e_dst e) (e_plen e) -> placed c true n f) /\ (~ whole (n_v6 c) (e_dst e) (e_plen e) -> placed c false n f) /\
    a_src f = (if n_usesrc c then Some (n_src c) else None) /\ a_proto f = n_proto c).
  { unfold f, first_req, placed, nl_metric, nl_table. cbn [a_table a_metric a_src a_proto]. rewrite B, <- (inet_whole _ _ _ L).
    split; [|split; [|split; reflexivity]]; destruct (is_prefix_inetgw (n_v6 c) (e_dst e, e_plen e)); intros H.
    - rewrite andb_true_r. split; reflexivity.
    - discriminate H.
    - now destruct H.
    - rewrite andb_false_r. split; reflexivity. }
  unfold process_rt_entry. fold f. cbn [andb negb]. destruct (a1 =? 17) eqn:E1; [|destruct (_ && _ && _)]; [destruct (a2 =? 0) eqn:E2|destruct (a2 =? 0) eqn:E2|]; intros R; subst; try discriminate.
  - exists f, [(f, a1); (similar_req c e, a2)]. split; [reflexivity|exact W].
  - exists f, [(f, a1); (gateway_req c e true, a2)]. split; [reflexivity|exact W].
  - exists f, []. split; [reflexivity|exact W].
Qed.
Print Assumptions C96_placed.
Example C96_placed_ex : let c := mkNC false false 2 true 223 254 99 false [] in let e := mkRE [0; 0; 0; 0] 0 (ex_g, 3) 5 (Some ((ex_g, 3), 4)) in
  exists l x, process_rt_entry c e true 17 0 0 = (0, l ++ [(x, 0)]) /\ a_table x = 223 /\ a_metric x = 6 /\ whole false (e_dst e) (e_plen e).
Proof. cbv zeta. eexists [(_, 17); (_, 0)], _. split; [reflexivity|]. repeat split. Qed.

(** The kernel finds the route that was added for an entry when the entry is deleted with
    an unchanged configuration. *)
Theorem C96_removable le c e m1 m2 q1 q2 : e_best e <> None -> args_ok (first_req c e true) -> args_ok (first_req c (installed e) false) ->
  new_route le (first_req c e true) = Some m1 -> reads le m1 q1 -> new_route le (first_req c (installed e) false) = Some m2 -> reads le m2 q2 ->
  applies le q2 (route_of le q1).
Proof.
  intros B A1 A2 E1 R1 E2 R2.
  destruct (route_q le _ m1 q1 A1 E1 R1) as (P1 & P2 & P3 & P4 & P5 & P6 & P7 & P8 & P9 & P10 & P11 & W1 & W15 & W5 & W4 & W6 & W7 & W0).
  destruct (route_q le _ m2 q2 A2 E2 R2) as (Q1 & Q2 & Q3 & Q4 & Q5 & Q6 & Q7 & Q8 & Q9 & Q10 & Q11 & V1 & V15 & V5 & V4 & V6 & V7 & V0).
  destruct (e_best e) as [[h n]|] eqn:Eb; [clear B|congruence].
  assert (Ei : installed e = mkRE (e_dst e) (e_plen e) h n (Some (h, n))) by (unfold installed; now rewrite Eb).
  assert (Em : nl_metric c (installed e) false = nl_metric c e true) by (unfold nl_metric; rewrite Ei, Eb; reflexivity).
  assert (Et : nl_table c (installed e) = nl_table c e) by (unfold nl_table; rewrite Ei; reflexivity).
  assert (Eh : nl_host c (installed e) false = nl_host c e true) by (unfold nl_host, nl_nexthop; rewrite Ei, Eb; reflexivity).
  assert (En : nl_nexthop (installed e) false = nl_nexthop e true) by (unfold nl_nexthop; rewrite Ei, Eb; reflexivity).
  assert (Ed : e_dst (installed e) = e_dst e /\ e_plen (installed e) = e_plen e) by (rewrite Ei; now split). destruct Ed as [Ed Ep].
  cbn [first_req a_fam a_table a_flags a_scope a_if a_metric a_proto a_src a_gw a_dst a_plen a_set a_similar a_black negb andb orb] in *.
  rewrite Em, Et, Eh, En, Ed, Ep in *.
  unfold applies, route_of, table_of, bytesof, numof. cbn [k_table k_dst k_plen k_type k_scope k_proto k_prio k_oif k_gw].
  rewrite V1, V15, V4, V6, W1, W15, W4, W6, Q1, Q4, Q7, Q8, Q9, Q10, P4, P7, P9, P10.
  do 4 (split; [reflexivity|]). split; [now right|]. split; [now right|]. split; [now left|]. split; [now right|]. split; [now right|].
  rewrite V5, W5. now right.
Qed.
Print Assumptions C96_removable.
Lemma ex_first_ok e set : e = ex_e \/ e = installed ex_e /\ set = false -> set = true \/ e = installed ex_e -> args_ok (first_req ex_c e set).
Proof.
  intros H1 H2. assert (H : e = ex_e /\ set = true \/ e = installed ex_e /\ set = false) by (destruct H1 as [->|[-> ->]]; [destruct H2 as [->|E]; [now left|discriminate E]|now right]).
  destruct H as [[-> ->]|[-> ->]]; unfold args_ok, byte, addr_ok; vm_compute; repeat split; auto; try discriminate; intros; try discriminate; match goal with H : Some _ = Some _ |- _ => inversion H end; reflexivity.
Qed.
Example C96_removable_ex : e_best ex_e <> None /\ args_ok (first_req ex_c ex_e true) /\ args_ok (first_req ex_c (installed ex_e) false).
Proof. split; [discriminate|]. split; apply ex_first_ok; auto. Qed.

(** Deleting an entry only asks for the deletion of its route, once, and counts "no such
    route" as success - unless the kernel answers with "network unreachable" (101) or
    error 128. *)
Theorem C96_deleted_partial c e a1 a2 a3 : a1 <> 101 -> a1 <> 128 ->
  let (r, l) := process_rt_entry c e false a1 a2 a3 in
  exists x, l = [(x, a1)] /\ a_set x = false /\ wanted e (e_nh e) x /\ r = (if a1 =? 3 then 0 else a1).
Proof.
  intros N1 N2. unfold process_rt_entry. cbn [andb negb].
  assert (W : wanted e (e_nh e) (first_req c e false)).
  { assert (En : nl_nexthop e false = e_nh e) by (unfold nl_nexthop; now destruct (e_best e) as [[h n]|]).
    unfold wanted, first_req, nl_host. rewrite En. cbn [a_dst a_plen a_black a_similar a_if a_gw]. do 5 (split; [reflexivity|]).
    destruct ((_ =? _) && bytes_eqb (fst (e_nh e)) (e_dst e)) eqn:X; [right|now left]. split; [reflexivity|]. apply andb_prop in X. apply ParserProofs.bytes_eqb_spec, X. }
  replace (a1 =? 101) with false by lia. replace (a1 =? 128) with false by lia. destruct (a1 =? 3) eqn:E3; [|cbn [orb]; rewrite andb_false_r];
    (eexists; split; [reflexivity|]; split; [reflexivity|]; split; [exact W|reflexivity]).
Qed.
Print Assumptions C96_deleted_partial.
Example C96_deleted_ex : process_rt_entry ex_c (installed ex_e) false 3 0 0 = (0, [(first_req ex_c (installed ex_e) false, 3)]).
Proof. reflexivity. Qed.

(** With the flat metric such an answer to a deletion creates a route: the one to the next
    hop, which nothing removes. *)
Theorem C96_deleted_refuted : exists c e r x, process_rt_entry c e false 101 0 3 = (r, [(first_req c e false, 101); (x, 0); (first_req c e false, 3)]) /\
  a_set x = true /\ a_dst x = fst (e_nh e) /\ fst (e_nh e) <> e_dst e /\ a_plen x = 32.
Proof.
  exists (mkNC false true 2 false 254 254 99 false []), (installed ex_e), 3. eexists. split; [reflexivity|]. repeat split. discriminate.
Qed.
Print Assumptions C96_deleted_refuted.

(** If every request is sent and every answer received, the result of each request is the
    error number of the kernel's answer to it. *)
Theorem C97_answers_partial le l :
  Forall (fun '(sok, rok, a) => sok = true /\ rok = true /\ exists e m, a = ack le e m /\ 0 <= e < 4096 /\ 28 <= blen m <= 1000) l ->
  Forall2 (fun r '(_, _, a) => exists m, a = ack le r m) (sock_run le [] l) l.
Proof. apply run_paired. Qed.
Print Assumptions C97_answers_partial.
Definition ex_m : list Z := match new_route true (ex_args 254) with Some m => m | None => [] end.
Example C97_answers_ex : Forall (fun '(sok, rok, a) => sok = true /\ rok = true /\ exists e m, a = ack true e m /\ 0 <= e < 4096 /\ 28 <= blen m <= 1000)
    [(true, true, ack true 0 ex_m); (true, true, ack true 17 ex_m)] /\
  sock_run true [] [(true, true, ack true 0 ex_m); (true, true, ack true 17 ex_m)] = [0; 17].
Proof.
  split; [|vm_compute; reflexivity]. assert (28 <= blen ex_m <= 1000) by (replace (blen ex_m) with 68 by (vm_compute; reflexivity); lia).
  constructor; [|constructor; [|constructor]]; (split; [reflexivity|]; split; [reflexivity|]); eexists _, ex_m; (split; [reflexivity|]); (split; [lia|assumption]).
Qed.

(** A request counts as carried out only if it was sent and a complete answer of the kernel
    that says so was received; whatever arrives. *)
Lemma slice_firstn (r : list Z) k i n : 0 <= i -> 0 <= n -> i + n <= Z.of_nat k -> slice (firstn k r) i n = slice r i n.
Proof.
  intros A B C. unfold slice. rewrite skipn_firstn_comm, firstn_firstn. f_equal. lia.
Qed.
Theorem C97_done le sok reply : (forall r, reply = Some r -> Forall byte r) -> netlink_send le sok reply = 0 ->
  sok = true /\ exists r, reply = Some r /\ says_done le r.
Proof.
  intros Hb H. unfold netlink_send in H. destruct sok; [|discriminate H]. split; [reflexivity|]. cbn [negb] in H.
  destruct reply as [r|]; [|discriminate H]. exists r. split; [reflexivity|]. specialize (Hb r eq_refl).
  set (s := firstn 1024 r) in H. cbv zeta in H. destruct (blen s <=? 0); [discriminate H|].
  destruct (_ && _ && _) eqn:L; [|discriminate H]. cbn [negb] in H. destruct (hval le (slice s 4 2) =? 2) eqn:T; [|discriminate H]. cbn [negb] in H.
  destruct (36 >? _) eqn:S; [discriminate H|].
  assert (Ls : blen s <= blen r) by (unfold s, blen; rewrite firstn_length; lia).
  assert (B36 : 36 <= blen s) by (rewrite !andb_true_iff in L; lia). clear L S. unfold s in T, H. rewrite slice_firstn in T, H by lia. unfold says_done.
  split; [lia|]. split; [lia|].
  assert (R : 0 <= hval le (slice r 16 4) < 2 ^ 32).
  { assert (F : Forall byte (slice r 16 4)) by (apply Forall_forall; intros x I; rewrite Forall_forall in Hb; apply Hb; unfold slice in I;
      rewrite <- (firstn_skipn 16 r); apply in_or_app; right; rewrite <- (firstn_skipn (Z.to_nat 4)); apply in_or_app; left; exact I).
    unfold hval. pose proof (be_range (if le then rev (slice r 16 4) else slice r 16 4)) as Q.
    assert (Lq : length (if le then rev (slice r 16 4) else slice r 16 4) = 4%nat).
    { assert (Lq : blen (slice r 16 4) = 4) by (apply slice_length; lia). unfold blen in Lq. destruct le; rewrite ?rev_length; lia. }
    rewrite Lq in Q. apply Q. destruct le; [apply Forall_rev|]; exact F. }
  destruct (_ <? _) eqn:X in H; lia.
Qed.
Print Assumptions C97_done.
Example C97_done_ex : Forall byte (ack true 0 ex_m) /\ netlink_send true true (Some (ack true 0 ex_m)) = 0.
Proof. split; [vm_compute; repeat (apply Forall_cons || apply Forall_nil); split; reflexivity || discriminate|vm_compute; reflexivity]. Qed.

(** After a single failed recvmsg (interrupted by a signal, say) every later request gets
    the answer to the one before it: there are no sequence numbers and the socket is not
    emptied.  From then on a refused route counts as installed if the one before was. *)
Theorem C97_shift : forall l : list Z, Forall (fun e => 0 <= e < 4096) l ->
  exists m, 28 <= blen m <= 1000 /\ forall e0, 0 <= e0 < 4096 ->
  sock_run true [] ((true, false, ack true e0 m) :: map (fun e => (true, true, ack true e m)) l) = -1 :: removelast (e0 :: l).
Proof.
  intros l H. exists ex_m. assert (L : 28 <= blen ex_m <= 1000) by (replace (blen ex_m) with 68 by (vm_compute; reflexivity); lia).
  split; [exact L|]. intros e0 H0. generalize dependent ex_m. intros m L. cbn [sock_run sock_step negb app map]. f_equal.
  revert e0 H0. induction H as [|e l He _ IH]; intros e0 H0; [reflexivity|].
  cbn [map sock_run sock_step negb app hd_error tl]. rewrite send_ack by assumption. rewrite IH by assumption. reflexivity.
Qed.
Print Assumptions C97_shift.
Example C97_shift_ex : sock_run true [] [(true, false, ack true 0 ex_m); (true, true, ack true 17 ex_m)] = [-1; 0].
Proof. vm_compute. reflexivity. Qed.

(** So the result of a request need not be the kernel's answer to it: a route that was
    refused counts as installed. *)
Theorem C97_answers_refuted : exists l, Forall (fun '(sok, _, a) => sok = true /\ exists e m, a = ack true e m /\ 0 <= e < 4096 /\ 28 <= blen m <= 1000) l /\
  sock_run true [] l = [-1; 0] /\ exists m, nth_error l 1 = Some (true, true, ack true 17 m).
Proof.
  exists [(true, false, ack true 0 ex_m); (true, true, ack true 17 ex_m)].
  assert (28 <= blen ex_m <= 1000) by (replace (blen ex_m) with 68 by (vm_compute; reflexivity); lia).
  split; [|split; [vm_compute; reflexivity|exists ex_m; reflexivity]].
  constructor; [|constructor; [|constructor]]; (split; [reflexivity|]); eexists _, ex_m; (split; [reflexivity|]); (split; [lia|assumption]).
Qed.
Print Assumptions C97_answers_refuted.

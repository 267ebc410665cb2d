(** C143: the gateway filter *)
From Verif Require Import Base Bytes IpCalc GwHna Parser Hna FilterGw FilterGwSpec FilterGwProofs.

(** the addresses named in the configuration and "allowlist" say who is filtered *)
Theorem C143_whom : forall l a, should_filter (set_params fgw_start l) a = true <-> filtered l a.
Proof. exact should_filtered. Qed.
Print Assumptions C143_whom.
Definition ex_conf : list fparam := [POriginator (Some [10; 0; 0; 1]); PAllow 1; POriginator None; POriginator (Some [10; 0; 0; 2])].
Example C143_whom_ex : filtered ex_conf [10; 0; 0; 3] /\ ~ filtered ex_conf [10; 0; 0; 2] /\
  should_filter (set_params fgw_start ex_conf) [10; 0; 0; 3] = true.
Proof.
  repeat split.
  - apply C143_whom. reflexivity.
  - rewrite <- C143_whom. discriminate.
Qed.

(** of a filtered originator exactly the announcements that are not those of a
    gateway are left, if there are any; the messages behind it are where they were *)
Theorem C143_kept : forall l v6 h es es' rest, filtered l (o_orig h) -> head_ok v6 h -> Forall (ann_ok v6) es ->
  wire_size v6 (length es) < 65536 -> without (announces_gateway v6) es es' -> es = [] \/ es' <> [] ->
  exists junk, filtergw_parser (set_params fgw_start l) v6 (hna_wire v6 h es ++ rest) = Some (hna_wire v6 h es' ++ junk ++ rest, true) /\
    length (hna_wire v6 h es' ++ junk) = length (hna_wire v6 h es).
Proof.
  intros l v6 h es es' rest FI HO F SZ W NE. apply (without_filter v6 es F) in W.
  destruct (parser_spec l v6 h es rest HO F SZ FI) as (junk & P & J). cbn beta zeta in P, J. rewrite <- W in P, J.
  assert (C : Nat.eqb (length es') 0 && negb (Nat.eqb (length es) 0) = false).
  { destruct NE as [NE|NE]; [subst es; cbn [length Nat.eqb negb]; apply andb_false_r|]. destruct es'; [congruence|reflexivity]. }
  rewrite C in P, J. exists junk. split; [exact P|].
  assert (F' : Forall (ann_ok v6) es') by (subst es'; rewrite Forall_forall in *; intros x X; apply filter_In in X; apply F; tauto).
  pose proof (ent_len v6 es F) as L1. pose proof (ent_len v6 es' F') as L2. unfold hna_wire. fold (ent es) (ent es').
  rewrite !app_length. unfold blen in *. cbn [length]. lia.
Qed.
Print Assumptions C143_kept.
Definition ex_head : hna_head := mkHead 5 [10; 0; 0; 3] 255 0 [1; 2].
Definition ex_net : list Z * list Z := ([192; 168; 7; 0], [255; 255; 255; 0]).
Definition ex_gw : list Z * list Z := ([0; 0; 0; 0], [0; 0; 0; 0]).
Definition ex_sgw : list Z * list Z := ([0; 0; 0; 0], [0; 7; 30; 60]).
Example C143_kept_ex : without (announces_gateway false) [ex_gw; ex_net; ex_sgw] [ex_net] /\
  filtergw_parser (set_params fgw_start ex_conf) false (hna_wire false ex_head [ex_gw; ex_net; ex_sgw] ++ [1; 0; 0; 12]) =
  Some (hna_wire false ex_head [ex_net] ++ fst ex_sgw ++ snd ex_sgw ++ fst ex_sgw ++ snd ex_sgw ++ [1; 0; 0; 12], true).
Proof.
  split; [|vm_compute; reflexivity]. apply without_filter; [|reflexivity]. repeat constructor.
Qed.

(** the messages of others are not touched *)
Theorem C143_others : forall l v6 h es rest, ~ filtered l (o_orig h) -> head_ok v6 h -> wire_size v6 (length es) < 65536 ->
  filtergw_parser (set_params fgw_start l) v6 (hna_wire v6 h es ++ rest) = Some (hna_wire v6 h es ++ rest, true).
Proof.
  intros l v6 h es rest FI HO SZ. destruct (rd_head v6 h es rest HO SZ) as (R0 & (x & R1) & R2 & R3).
  unfold filtergw_parser. replace (if v6 then 16 else 4) with (Z.of_nat (alen v6)) by (now destruct v6).
  rewrite R0. cbn [bind]. change (negb (4 =? HNA_MESSAGE)) with false. cbn [negb].
  rewrite R1, R2. cbn [bind]. rewrite R3. cbn [bind]. rewrite <- C143_whom in FI.
  destruct (should_filter (set_params fgw_start l) (o_orig h)); [congruence|reflexivity].
Qed.
Print Assumptions C143_others.
Example C143_others_ex : ~ filtered ex_conf [10; 0; 0; 1] /\
  snd (match filtergw_parser (set_params fgw_start ex_conf) false (hna_wire false (mkHead 5 [10; 0; 0; 1] 255 0 [1; 2]) [ex_gw]) with
       | Some x => x | None => ([], false) end) = true.
Proof. split; [rewrite <- C143_whom; discriminate|reflexivity]. Qed.

(** the message of a filtered originator that has only gateways is not
    forwarded; what is missing: the last gateway stays in it *)
Theorem C143_only_partial : forall l v6 h es rest, filtered l (o_orig h) -> head_ok v6 h -> Forall (ann_ok v6) es ->
  wire_size v6 (length es) < 65536 -> es <> [] -> Forall (announces_gateway v6) es ->
  exists junk, filtergw_parser (set_params fgw_start l) v6 (hna_wire v6 h es ++ rest) =
    Some (hna_wire v6 h [last es ([], [])] ++ junk ++ rest, false).
Proof.
  intros l v6 h es rest FI HO F SZ NE G.
  assert (K : filter (fun e => negb (isgw v6 e)) es = []).
  { symmetry. apply without_filter; [exact F|]. clear - G. induction G; constructor; assumption. }
  destruct (parser_spec l v6 h es rest HO F SZ FI) as (junk & P & J). cbn beta zeta in P, J. rewrite K in P.
  exists junk. rewrite P. destruct es; [congruence|reflexivity].
Qed.
Print Assumptions C143_only_partial.
Example C143_only_ex : filtered ex_conf (o_orig ex_head) /\ Forall (announces_gateway false) [ex_gw; ex_sgw] /\
  filtergw_parser (set_params fgw_start ex_conf) false (hna_wire false ex_head [ex_gw; ex_sgw]) =
  Some (hna_wire false ex_head [ex_sgw] ++ fst ex_sgw ++ snd ex_sgw, false).
Proof.
  repeat split; try (vm_compute; reflexivity).
  - apply C143_whom. reflexivity.
  - repeat constructor; cbn; eexists; reflexivity.
Qed.

(** and so the node itself takes the gateway of a filtered originator: it is put
    into the HNA set and into the routing table *)
Theorem C143_taken_refuted : exists l h c hash b s effs fwd, filtered l (o_orig h) /\ announces_gateway false ex_gw /\ head_ok false h /\
  hna_arrives hash (set_params fgw_start l) c true (hna_wire false h [ex_gw]) hna_init = Some (b, s, effs, fwd) /\
  In (EIns (fst ex_gw) 0 (o_orig h)) effs /\
  In (mkEnt (o_orig h) [mkNet [0; 0; 0; 0] 0 (Mantissa.me_to_reltime 5)]) (s (hash (o_orig h))).
Proof.
  exists ex_conf, ex_head, (mkHcfg false false [[10; 0; 0; 9]] [] None), (fun _ => 0%nat).
  destruct (hna_arrives (fun _ => 0%nat) (set_params fgw_start ex_conf) (mkHcfg false false [[10; 0; 0; 9]] [] None) true
     (hna_wire false ex_head [ex_gw]) hna_init) as [[[[b s] effs] fwd]|] eqn:E; [|vm_compute in E; discriminate].
  exists b, s, effs, fwd. repeat split.
  - apply C143_whom. reflexivity.
  - now exists [0; 0; 0].
  - assert (Ef : option_map (fun r => snd (fst r)) (hna_arrives (fun _ => 0%nat) (set_params fgw_start ex_conf) (mkHcfg false false [[10; 0; 0; 9]] [] None) true
     (hna_wire false ex_head [ex_gw]) hna_init) = Some [EChanged; EIns [0; 0; 0; 0] 0 [10; 0; 0; 3]]) by (vm_compute; reflexivity).
    rewrite E in Ef. cbn [option_map snd fst] in Ef. apply Some_inj in Ef. subst effs. right. now left.
  - assert (Ef : option_map (fun r => snd (fst (fst r)) 0%nat) (hna_arrives (fun _ => 0%nat) (set_params fgw_start ex_conf) (mkHcfg false false [[10; 0; 0; 9]] [] None) true
     (hna_wire false ex_head [ex_gw]) hna_init) = Some [mkEnt [10; 0; 0; 3] [mkNet [0; 0; 0; 0] 0 (Mantissa.me_to_reltime 5)]]) by (vm_compute; reflexivity).
    rewrite E in Ef. cbn [option_map snd fst] in Ef. apply Some_inj in Ef. rewrite Ef. now left.
Qed.
Print Assumptions C143_taken_refuted.

(** with IPv6 the default route ::/0 of a filtered originator passes, and a
    network that is not the internet, 8000::/3, is taken out *)
Definition zeros16 : list Z := repeat 0 16.
Theorem C143_v6_refuted : exists l h, filtered l (o_orig h) /\ head_ok true h /\
  (forall net, length net = 16%nat ->
    filtergw_parser (set_params fgw_start l) true (hna_wire true h [(net, zeros16)]) = Some (hna_wire true h [(net, zeros16)], true)) /\
  (exists junk, filtergw_parser (set_params fgw_start l) true (hna_wire true h [(128 :: repeat 0 15, 224 :: repeat 0 15); (repeat 1 16, repeat 255 16)]) =
     Some (hna_wire true h [(repeat 1 16, repeat 255 16)] ++ junk, true)).
Proof.
  assert (FI : filtered [PAllow 1] (repeat 9 16)) by (apply C143_whom; reflexivity).
  exists [PAllow 1], (mkHead 5 (repeat 9 16) 255 0 [1; 2]). repeat split; [exact FI| |].
  - intros net L.
    destruct (C143_kept [PAllow 1] true (mkHead 5 (repeat 9 16) 255 0 [1; 2]) [(net, zeros16)] [(net, zeros16)] []) as (junk & P & J).
    + exact FI.
    + split; reflexivity.
    + repeat constructor; assumption.
    + reflexivity.
    + apply w_keep; [|constructor]. intros [[r R]|[_ [r R]]]; discriminate.
    + right. discriminate.
    + rewrite app_length in J. assert (junk = []) by (destruct junk; [reflexivity|cbn [length] in J; lia]). subst junk.
      rewrite !app_nil_r in P. exact P.
  - eexists. vm_compute. reflexivity.
Qed.
Print Assumptions C143_v6_refuted.

(** whatever is in the message: as long as it lies in the buffer, as the parser
    of the packet checks, nothing outside of the buffer is read or written *)
Theorem C143_inside : forall s (v6 : bool) b sz, rd16 b 2 = Some sz -> sz <= blen b -> 8 + (if v6 then 16 else 4) <= blen b ->
  exists b' r, filtergw_parser s v6 b = Some (b', r) /\ length b' = length b.
Proof.
  intros s v6 b sz R S1 B. destruct (parser_safe s v6 b sz R S1 B) as (b' & r & P & L). exists b', r. split; [exact P|]. unfold blen in L. lia.
Qed.
Print Assumptions C143_inside.
Example C143_inside_ex : exists sz, rd16 ([4; 5; 0; 23] ++ repeat 7 19) 2 = Some sz /\ sz <= blen ([4; 5; 0; 23] ++ repeat 7 19).
Proof. eexists. vm_compute. split; [reflexivity|discriminate]. Qed.

(** at the end of olsrd the group is used after it was freed, whenever an
    originator was configured *)
Theorem C143_end_used : forall l a n, named l a -> fini n true (filter_groups (set_params fgw_start l)) = None.
Proof.
  intros l a n H.
  assert (G : forall l s, (exists x, filter_groups s = Some x) \/ (exists a, named l a) -> exists x, filter_groups (set_params s l) = Some x).
  { clear. induction l as [|p l IH]; intros s K; cbn [set_params].
    - destruct K as [K|[a []]]. exact K.
    - apply IH. destruct p as [[y|]|k]; cbn [set_param fst filter_groups].
      + left. eexists. reflexivity.
      + destruct K as [K|[a [K|K]]]; [tauto|discriminate|right; now exists a].
      + destruct K as [K|[a [K|K]]]; [tauto|discriminate|right; now exists a]. }
  destruct (G l fgw_start (or_intror (ex_intro _ a H))) as [x ->]. destruct n as [|[|n]]; reflexivity.
Qed.
Print Assumptions C143_end_used.
Theorem C143_end_refuted : exists l, (exists a, named l a) /\ forall n, fini n true (filter_groups (set_params fgw_start l)) = None.
Proof. exists ex_conf. split; [exists [10; 0; 0; 1]; now left|]. intros n. apply (C143_end_used _ [10; 0; 0; 1]). now left. Qed.
Print Assumptions C143_end_refuted.
Example C143_end_ex : named ex_conf [10; 0; 0; 1] /\ fini 5 true (filter_groups (set_params fgw_start [PAllow 1])) = Some tt.
Proof. split; [now left|reflexivity]. Qed.

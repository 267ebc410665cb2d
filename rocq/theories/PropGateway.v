(** C37, C38, C69, C70, C71: the smart gateway client. *)
From Coq Require Import Sorting Permutation.
From Verif Require Import Base DupSet GwSpeed Gateway GatewayProofs.

(** tunnels can always be created *)
Definition tunnels_work (l : list (genv * gev)) : Prop := Forall (fun p => forall ip, e_tun (fst p) ip = true) l.
(** no gateway in use is announced while it is unreachable or without bandwidth *)
Fixpoint costs_finite (c : gcfg) (s : gst) (l : list (genv * gev)) : Prop :=
  match l with
  | [] => True
  | (e, x) :: l' =>
      match x with
      | Ann a => In (n_ip a) (map snd (s_list s)) ->
                 exists p, e_tc e (n_ip a) = Some p /\ p < 4294967295 /\ n_up a <> 0 /\ n_down a <> 0 /\
                           gw_costs_weigh (c_w c) true p (n_up a) (n_down a) <> INT64_MAX
      | _ => True
      end /\ match gstep c e s x with OK s' => costs_finite c s' l' | Fault _ => True end
  end.
(** the cost of the gateway with originator [ip] *)
Definition costs (s : gst) (ip q : Z) : Prop := exists g, In g (s_tree s) /\ g_ip g = ip /\ g_cost g = q.
Definition ordered (s : gst) : Prop :=
  forall l1 a l2 b l3 qa qb, map snd (s_list s) = l1 ++ a :: l2 ++ b :: l3 -> costs s a qa -> costs s b qb -> qa <= qb.

Lemma costs_of c s ip q : inv c s -> costs s ip q -> cost_of (s_tree s) ip = q.
Proof. intros I [g [A [B C]]]. unfold cost_of. rewrite <- B, (in_find _ _ (i_tree _ _ I) A). exact C. Qed.
Lemma of_costs c s ip : inv c s -> In ip (map snd (s_list s)) -> costs s ip (cost_of (s_tree s) ip).
Proof.
  intros I H. pose proof (i_in _ _ I ip H) as M. apply in_map_iff in M. destruct M as [g [A B]]. exists g. split; [exact B|]. split; [exact A|].
  unfold cost_of. rewrite <- A, (in_find _ _ (i_tree _ _ I) B). reflexivity.
Qed.
Lemma srt_ordered c s : inv c s -> srt s -> ordered s.
Proof.
  intros I S l1 a l2 b l3 qa qb E Ca Cb. rewrite <- (costs_of c s a qa I Ca), <- (costs_of c s b qb I Cb). unfold srt in S.
  revert l1 E. induction S as [|h l S IH F]; intros l1 E; [destruct l1; discriminate|]. destruct l1 as [|x l1]; cbn [map app] in E.
  - injection E as E1 E2. rewrite Forall_forall in F. assert (B : In b (map snd l)) by (rewrite E2; apply in_or_app; right; left; reflexivity).
    apply in_map_iff in B. destruct B as [k [B1 B2]]. specialize (F k B2). unfold leq in F. rewrite B1, E1 in F. exact F.
  - injection E as _ E2. eauto.
Qed.
Lemma finite_srt c : forall l s s', inv c s -> srt s -> costs_finite c s l -> grun c s l = OK s' -> srt s'.
Proof.
  induction l as [|[e x] l IH]; cbn [grun costs_finite]; intros s s' I S C H; [inversion H; subst; exact S|].
  destruct C as [C1 C2]. pose proof (step_post c e s x I) as P. destruct (gstep c e s x) as [s1|f]; cbn [bindr epost] in *; [|discriminate].
  destruct P as [P1 [P2 P3]]. eapply IH; [exact P1| |exact C2|exact H]. apply P2; [|exact S]. destruct x; try exact Logic.I. cbn [calm]. intros M.
  destruct (C1 M) as [p [A [B [D [E F]]]]]. unfold getcosts. cbn [g_ip g_up g_down]. rewrite A.
  destruct (Z.geb_spec p 4294967295); [lia|]. destruct (Z.eqb_spec (n_up a) 0); [contradiction|]. destruct (Z.eqb_spec (n_down a) 0); [contradiction|]. exact F.
Qed.

Theorem C37_bounded : forall c l s, 1 <= c_use c <= 64 -> grun c ginit l = OK s ->
  s_count s = Z.of_nat (length (s_list s)) /\ Z.of_nat (length (s_list s)) <= c_use c /\ NoDup (map snd (s_list s)) /\
  forall ip, In ip (map snd (s_list s)) -> exists g, In g (s_tree s) /\ g_ip g = ip.
Proof.
  intros c l s U H. pose proof (run_inv c l ginit s (init_inv c ltac:(lia)) H) as I. split; [apply (i_count _ _ I)|].
  split; [rewrite <- (i_count _ _ I); apply (i_max _ _ I)|]. split; [apply (i_gws _ _ I)|].
  intros ip M. apply (i_in _ _ I) in M. apply in_map_iff in M. destruct M as [g [A B]]. eauto.
Qed.
Print Assumptions C37_bounded.

Theorem C37_sorted_partial : forall c l s, 1 <= c_use c <= 64 -> grun c ginit l = OK s -> costs_finite c ginit l -> ordered s.
Proof.
  intros c l s U H F. pose proof (init_inv c ltac:(lia)) as I0. apply (srt_ordered c); [exact (run_inv c l ginit s I0 H)|].
  apply (finite_srt c l ginit s); auto. constructor.
Qed.
Print Assumptions C37_sorted_partial.

(** the operations on the list *)
Theorem C37_content : forall c s k s', NoDup (map fst (s_list s)) ->
  (list_add c s k = OK s' -> Permutation (k :: s_list s) (s_list s')) /\
  (In k (s_list s) -> list_del s (fst k) = OK s' -> Permutation (s_list s) (k :: s_list s')) /\
  (In k (s_list s) -> list_update c s k = OK s' -> Permutation (s_list s) (s_list s')).
Proof.
  assert (P : forall t l e, Permutation (e :: l) (place t l e)).
  { intros t l e. induction l as [|h l IH]; cbn [place]; [apply Permutation_refl|]. destruct (_ <=? _); [apply Permutation_refl|].
    eapply Permutation_trans; [apply perm_swap|]. apply perm_skip. exact IH. }
  assert (U : forall l k, NoDup (map fst l) -> In k l -> Permutation l (k :: unlink l (fst k))).
  { induction l as [|h l IH]; cbn [map In]; intros k N K; [contradiction|]. inversion N as [|a b A B]; subst. unfold unlink. cbn [filter].
    fold (unlink l (fst k)). destruct (Nat.eqb_spec (fst h) (fst k)) as [E|E]; cbn [negb].
    - rewrite unlink_out by (rewrite <- E; exact A). destruct K as [->|K]; [apply Permutation_refl|]. exfalso. apply A. rewrite E. apply in_map. exact K.
    - destruct K as [->|K]; [congruence|]. eapply Permutation_trans; [apply perm_skip, IH; eauto|apply perm_swap]. }
  intros c s k s' N. unfold list_update, list_add, list_del. split; [|split].
  - destruct (list_full c s); [discriminate|]. intros [= <-]. apply P.
  - destruct (s_count s =? 0); [discriminate|]. intros K [= <-]. apply U; auto.
  - intros K. destruct (s_count s =? 0); cbn [bindr]; [discriminate|]. destruct (list_full c _); [discriminate|]. intros [= <-].
    eapply Permutation_trans; [apply U; eauto|]. apply P.
Qed.
Print Assumptions C37_content.

(** three gateways' worth of history *)
Definition cfg0 (thresh use take : Z) : gcfg := mkGcfg thresh use take false false 1 (mkGc 0 0 0 0 0).
Definition env0 (a b : option Z) (ok : bool) : genv := mkEnv (fun ip => if ip =? 1 then a else if ip =? 2 then b else None) 5 (fun _ => ok).
Definition up0 : genv := env0 (Some 1024) (Some 2048) true.
Definition annA (seq : Z) (v4 : bool) : gev := Ann (mkAnnounce 1 seq 1000 1000 v4 false).
Definition annB (seq : Z) (v4 : bool) : gev := Ann (mkAnnounce 2 seq 1000 1000 v4 false).
(** A is chosen, A loses IPv4 so B is chosen; both are in use *)
Definition both : list (genv * gev) :=
  [(up0, Start); (up0, annA 1 true); (up0, annB 1 true); (up0, Timer); (up0, annA 2 false)].
Definition tops (r : res gst) : res (list Z * res (option Z) * list Z) :=
  match r with OK s => OK (map snd (s_list s), current s, map g_cost (s_tree s)) | Fault f => Fault f end.

Theorem C37_sorted_refuted : exists c l s, 1 <= c_use c <= 64 /\ tunnels_work l /\ grun c ginit l = OK s /\ ~ ordered s.
Proof.
  exists (cfg0 0 2 0), (both ++ [(env0 None (Some 2048) true, annA 3 true)]). eexists. split; [cbn; lia|]. split.
  { repeat constructor. }
  split; [vm_compute; reflexivity|]. intros O. specialize (O [] 1 [] 2 [] INT64_MAX (2048 * 2147483648) eq_refl).
  assert (INT64_MAX <= 2048 * 2147483648); [|vm_compute in H; congruence].
  apply O; eexists; (split; [|split; [|]]); [left; reflexivity|reflexivity|reflexivity|right; left; reflexivity|reflexivity|reflexivity].
Qed.
Print Assumptions C37_sorted_refuted.

(** a check of [costs_finite] for the examples *)
Fixpoint finiteb (c : gcfg) (s : gst) (l : list (genv * gev)) : bool :=
  match l with
  | [] => true
  | (e, x) :: l' =>
      match x with
      | Ann a => negb (existsb (Z.eqb (n_ip a)) (map snd (s_list s))) ||
                 match e_tc e (n_ip a) with
                 | Some p => (p <? 4294967295) && negb (n_up a =? 0) && negb (n_down a =? 0) &&
                             negb (gw_costs_weigh (c_w c) true p (n_up a) (n_down a) =? INT64_MAX)
                 | None => false
                 end
      | _ => true
      end && match gstep c e s x with OK s' => finiteb c s' l' | Fault _ => true end
  end.
Lemma finiteb_ok c : forall l s, finiteb c s l = true -> costs_finite c s l.
Proof.
  induction l as [|[e x] l IH]; cbn [finiteb costs_finite]; intros s H; [exact Logic.I|]. apply andb_true_iff in H. destruct H as [H1 H2]. split.
  - destruct x; try exact Logic.I. intros M. apply orb_true_iff in H1. destruct H1 as [H1|H1].
    + exfalso. assert (X : existsb (Z.eqb (n_ip a)) (map snd (s_list s)) = true) by (apply existsb_exists; exists (n_ip a); split; [exact M|lia]).
      rewrite X in H1. discriminate.
    + destruct (e_tc e (n_ip a)) as [p|]; [|discriminate]. exists p. split; [reflexivity|]. lia.
  - destruct (gstep c e s x); [auto|exact Logic.I].
Qed.

Example C37_ex : let c := cfg0 0 2 0 in costs_finite c ginit both /\
  tops (grun c ginit both) = OK ([1; 2], OK (Some 2), [1024 * 2147483648; 2048 * 2147483648]).
Proof. split; [apply finiteb_ok; vm_compute; reflexivity|vm_compute; reflexivity]. Qed.
Example C37_content_ex : let c := cfg0 0 2 0 in let s := mkSt [mkGw 1 1 1 10 true false true false 0; mkGw 2 1 1 5 true false true false 0] [(0%nat, 1)] 1 None 1 false false 0 0 [1] None in
  NoDup (map fst (s_list s)) /\ match list_add c s (1%nat, 2) with OK s' => s_list s' = [(1%nat, 2); (0%nat, 1)] | Fault _ => False end.
Proof. split; [repeat constructor; auto|vm_compute; reflexivity]. Qed.

(** C38 *)
(** may [g] be chosen if the costs of the current gateway are [k]? *)
Definition eligible (c : gcfg) (k : option Z) (g : gw) : Prop :=
  g_v4 g = true /\ (g_nat g = true -> c_nat c = true) /\ g_cost g < INT64_MAX /\
  match k with Some q => c_thresh c <> 0 -> 100 * (g_cost g + 1) <= q * c_thresh c + 50 | None => True end.

Theorem C38_choice_partial : forall c l s e s', 1 <= c_use c <= 64 -> tunnels_work l -> (forall ip, e_tun e ip = true) ->
  grun c ginit l = OK s -> s_new4 s = true -> choose c e s = OK s' ->
  exists o k, current s = OK o /\ match o, k with Some ip, Some q => costs s ip q | None, None => True | _, _ => False end /\
    ((exists g, In g (s_tree s) /\ eligible c k g /\ current s' = OK (Some (g_ip g)) /\
        forall h, In h (s_tree s) -> eligible c k h -> g_cost g <= g_cost h) \/
     ((forall h, In h (s_tree s) -> ~ eligible c k h) /\ current s' = OK o /\ s_new4 s' = true)).
Proof.
  intros c l s e s' U T Te H N C. pose proof (init_inv c ltac:(lia)) as I0. pose proof (run_inv c l ginit s I0 H) as I.
  pose proof (run_live c l ginit I0 ltac:(reflexivity) T) as L. rewrite H in L.
  destruct (current_ok s) as [[o [E X]]|[E X]]; [|contradiction]. exists o.
  exists (match o with Some ip => Some (cost_of (s_tree s) ip) | None => None end). split; [exact E|]. split.
  { destruct o as [ip|]; [|exact Logic.I]. apply (of_costs c); [exact I|]. destruct (s_cur s) as [id|]; [|contradiction].
    apply in_map_iff. exists (id, ip). auto. }
  set (k := match o with Some ip => Some (cost_of (s_tree s) ip) | None => None end).
  assert (Th : exists th, (if c_thresh c =? 0 then OK None else bindr (current s) (fun o => match o with
              | None => OK None | Some ip => bindr (threshold c (cost_of (s_tree s) ip)) (fun t => OK (Some t)) end)) = OK th /\
              forall g, cand c th g <-> eligible c k g).
  { unfold cand, eligible, selectable. rewrite E. cbn [bindr].
    assert (Sel : forall g, g_v4 g && (c_nat c || negb (g_nat g)) = true <-> g_v4 g = true /\ (g_nat g = true -> c_nat c = true)).
    { intros g. destruct (g_v4 g), (c_nat c), (g_nat g); cbn; intuition discriminate. }
    destruct (Z.eqb_spec (c_thresh c) 0) as [Z0|Z0].
    - exists None. split; [reflexivity|]. intros g. rewrite Sel. subst k. destruct o; intuition lia.
    - destruct o as [ip|]; subst k; cbn [bindr].
      + unfold threshold in *. destruct (Z.eqb_spec (c_thresh c) 0); [contradiction|].
        destruct (cost_of (s_tree s) ip * c_thresh c + 50 >? INT64_MAX) eqn:O; cbn [bindr].
        * exfalso. unfold choose, threshold in C. rewrite E in C. destruct (Z.eqb_spec (c_thresh c) 0); [contradiction|]. cbn [bindr] in C. rewrite O in C. discriminate.
        * eexists. split; [reflexivity|]. intros g. rewrite Sel. set (v := cost_of (s_tree s) ip * c_thresh c + 50). clearbody v.
          assert (D : g_cost g < v / 100 <-> 100 * (g_cost g + 1) <= v) by lia. rewrite D. intuition.
      + exists None. split; [reflexivity|]. intros g. rewrite Sel. intuition. }
  destruct Th as [th [T1 T2]]. unfold choose in C. rewrite T1 in C. cbn [bindr] in C. rewrite N in C. cbn [andb] in C. cbv zeta in C.
  pose proof (pick_best c th (s_tree s) None ltac:(discriminate)) as B. fold (pick c th (s_tree s)) in B.
  destruct (pick c th (s_tree s)) as [g|] eqn:P.
  - left. destruct (pick_sel _ _ _ _ P) as [P1 P2]. exists g. split; [exact P1|]. split; [apply T2; exact P2|]. destruct B as [_ [B _]]. split; [|intros h Hh Eh; apply B; [exact Hh|apply T2; exact Eh]].
    set (s1 := set_new4 s false) in C. assert (I1 : inv c s1) by (eapply same_inv; [apply same_new4|exact I]).
    destruct (set_gateway c e s1 (g_ip g)) as [s2|] eqn:G; cbn [bindr] in C; [|discriminate].
    assert (Q : current s2 = OK (Some (g_ip g))).
    { eapply set_gateway_cur; [exact I1|exact Te| |apply P2|exact G]. apply (in_find _ _ (i_tree _ _ I) P1). }
    injection C as <-. destruct (_ && _); exact Q.
  - right. destruct B as [_ B]. split; [intros h Hh Eh; apply (B h Hh); apply T2; exact Eh|]. cbn [bindr set_new4 s_new4 negb] in C.
    rewrite andb_false_r in C. injection C as <-. split; [exact E|reflexivity].
Qed.
Print Assumptions C38_choice_partial.
Example C38_ex : let c := cfg0 90 2 0 in let l := [(up0, Start); (up0, annB 1 true); (up0, annA 1 true)] in
  tunnels_work l /\ tops (grun c ginit l) = OK ([1; 2], OK (Some 1), [1024 * 2147483648; 2048 * 2147483648]) /\
  match grun c ginit (firstn 2 l) with OK s => current s = OK (Some 2) | Fault _ => False end.
Proof. split; [repeat constructor|]. split; vm_compute; reflexivity. Qed.

(** The current gateway is lost (no TC entry), another one is reachable, and the
    loss check keeps the lost one: its old cost is the threshold. *)
Theorem C38_loss_refuted : exists c l s e s' a b, tunnels_work l /\ tunnels_work [(e, LossCheck)] /\ grun c ginit l = OK s /\
  current s = OK (Some a) /\ e_tc e a = None /\
  In b (s_tree s) /\ g_v4 b = true /\ g_nat b = false /\ e_tc e (g_ip b) = Some 2048 /\ g_cost b < INT64_MAX /\
  gstep c e s LossCheck = OK s' /\ current s' = OK (Some a).
Proof.
  exists (cfg0 90 2 0), [(up0, Start); (up0, annA 1 true); (up0, annB 1 true)]. eexists. exists (env0 None (Some 2048) true). eexists.
  exists 1, (mkGw 2 1000 1000 (2048 * 2147483648) true false true false 1).
  split; [repeat constructor|]. split; [repeat constructor|]. split; [vm_compute; reflexivity|].
  split; [vm_compute; reflexivity|]. split; [reflexivity|]. split; [right; left; reflexivity|]. do 4 (split; [reflexivity|]).
  split; vm_compute; reflexivity.
Qed.
Print Assumptions C38_loss_refuted.

(** The current gateway is announced while it is unreachable: the threshold
    computation overflows; with wrapping arithmetic it is 0, which no gateway can beat. *)
Theorem C38_dead_refuted : exists c l, tunnels_work l /\ grun c ginit l = Fault Overflow /\ c_thresh c = 90 /\
  Z.quot ((INT64_MAX * 90 + 50 + 9223372036854775808) mod 18446744073709551616 - 9223372036854775808) 100 = 0.
Proof.
  exists (cfg0 90 2 0), [(up0, Start); (up0, annA 1 true); (up0, annB 1 true); (env0 None (Some 2048) true, annA 2 true)].
  split; [repeat constructor|]. split; [vm_compute; reflexivity|]. split; reflexivity.
Qed.
Print Assumptions C38_dead_refuted.

(** C69 *)
Theorem C69_pointer_partial : forall c l, 1 <= c_use c <= 64 -> tunnels_work l ->
  match grun c ginit l with
  | OK s => exists o, current s = OK o /\ (forall ip, o = Some ip -> In ip (map snd (s_list s)))
  | Fault f => f = Overflow
  end.
Proof.
  intros c l U T. pose proof (init_inv c ltac:(lia)) as I0. pose proof (run_live c l ginit I0 ltac:(reflexivity) T) as L.
  destruct (grun c ginit l) as [s|f] eqn:G; [|exact L]. destruct (current_ok s) as [[o [E X]]|[E X]]; [|contradiction].
  exists o. split; [exact E|]. intros ip ->. destruct (s_cur s) as [id|]; [|contradiction]. apply in_map_iff. exists (id, ip). auto.
Qed.
Print Assumptions C69_pointer_partial.
Example C69_ex : tunnels_work both /\ tops (grun (cfg0 0 1 0) ginit both) = OK ([2], OK (Some 2), [1024 * 2147483648; 2048 * 2147483648]).
Proof. split; [repeat constructor|vm_compute; reflexivity]. Qed.

(** One tunnel that cannot be created: the container of the current gateway has
    been freed to make room, and the next event uses it. *)
Theorem C69_pointer_refuted : exists c l, c_use c = 1 /\ grun c ginit l = Fault Freed.
Proof.
  exists (cfg0 90 1 0), [(up0, Start); (up0, annB 1 true); (env0 (Some 1024) (Some 2048) false, annA 1 true); (up0, Timer); (up0, LossCheck)].
  split; vm_compute; reflexivity.
Qed.
Print Assumptions C69_pointer_refuted.

(** C70 *)
Theorem C70_tunnels : forall c l s, 1 <= c_use c <= 64 -> grun c ginit l = OK s ->
  NoDup (s_tun s) /\ (forall ip, In ip (s_tun s) <-> In ip (map snd (s_list s))) /\ Z.of_nat (length (s_tun s)) <= c_use c.
Proof.
  intros c l s U H. pose proof (run_inv c l ginit s (init_inv c ltac:(lia)) H) as I. split; [apply (i_tnd _ _ I)|]. split; [apply (i_tun _ _ I)|].
  pose proof (i_count _ _ I). pose proof (i_max _ _ I).
  assert (length (s_tun s) <= length (map snd (s_list s)))%nat by (apply NoDup_incl_length; [apply (i_tnd _ _ I)|intros x X; apply (i_tun _ _ I); exact X]).
  rewrite map_length in *. lia.
Qed.
Print Assumptions C70_tunnels.
Theorem C70_route_partial : forall c l s, 1 <= c_use c <= 64 -> tunnels_work l -> grun c ginit l = OK s -> current s = OK (s_route s).
Proof.
  intros c l s U T H. pose proof (init_inv c ltac:(lia)) as I0. pose proof (run_inv c l ginit s I0 H) as I. pose proof (run_live c l ginit I0 ltac:(reflexivity) T) as L.
  rewrite H in L. unfold live in L. destruct (s_cur s) as [id|] eqn:C.
  - destruct L as [ip [A B]]. rewrite B. eapply cur_is; eauto. apply (i_ids _ _ I).
  - rewrite L. unfold current. rewrite C. reflexivity.
Qed.
Print Assumptions C70_route_partial.
Theorem C70_route_refuted : exists c l s, c_use c = 1 /\ grun c ginit l = OK s /\ s_cur s <> None /\ s_route s = None.
Proof.
  exists (cfg0 90 1 0), [(up0, Start); (up0, annB 1 true); (env0 (Some 1024) (Some 2048) false, annA 1 true)]. eexists.
  split; [reflexivity|]. split; [vm_compute; reflexivity|]. split; [discriminate|reflexivity].
Qed.
Print Assumptions C70_route_refuted.
Example C70_ex : tunnels_work both /\ match grun (cfg0 0 2 0) ginit both with OK s => s_route s = Some 2 /\ s_tun s = [2; 1] | Fault _ => False end.
Proof. split; [repeat constructor|vm_compute; auto]. Qed.

(** C71 *)
Theorem C71_takedown_partial : forall c l s s' ip q, 1 <= c_use c <= 64 -> 1 <= c_takedown c <= 100 -> tunnels_work l -> grun c ginit l = OK s ->
  current s = OK (Some ip) -> costs s ip q -> takedown c s = OK s' ->
  current s' = OK (Some ip) /\
  (forall x qx, In x (map snd (s_list s)) -> costs s x qx -> 0 <= q -> In x (map snd (s_list s')) \/ (x <> ip /\ 100 * q < (qx + 1) * c_takedown c)) /\
  (forall x, In x (map snd (s_list s')) -> In x (map snd (s_list s))) /\
  (costs_finite c ginit l -> q <= INT64_MAX / 100 -> forall x qx, In x (map snd (s_list s')) -> costs s x qx ->
     qx <= q \/ qx * c_takedown c < 100 * q).
Proof.
  intros c l s s' ip q U K T H Cu Cq D. pose proof (init_inv c ltac:(lia)) as I0. pose proof (run_inv c l ginit s I0 H) as I.
  pose proof (run_live c l ginit I0 ltac:(reflexivity) T) as L. rewrite H in L. pose proof (costs_of c s ip q I Cq) as Eq.
  unfold takedown in D. destruct (Z.eqb_spec (c_takedown c) 0) as [|_]; [lia|].
  destruct (current_ok s) as [[o [E X]]|[E X]]; [|contradiction]. rewrite Cu in E. injection E as <-.
  destruct (s_cur s) as [id|] eqn:C; [|contradiction].
  assert (Len : (length (s_list s) <= 1)%nat -> s_list s = [(id, ip)]).
  { intros Le. destruct (s_list s) as [|h [|h2 l2]]; [contradiction| |cbn in Le; lia]. destruct X as [->|[]]. reflexivity. }
  destruct (Z.leb_spec (s_count s) 1) as [Q|Q].
  { injection D as <-. rewrite (i_count _ _ I) in Q. specialize (Len ltac:(lia)). split; [exact Cu|]. split; [auto|]. split; [auto|].
    intros _ _ x qx Hx Cx. rewrite Len in Hx. cbn in Hx. destruct Hx as [<-|[]]. pose proof (costs_of c s _ qx I Cx). left. lia. }
  rewrite Cu in D. cbn [bindr] in D. cbv zeta in D. rewrite Eq in D. set (b := boundary c q) in D. destruct (b >? INT64_MAX); [discriminate|].
  destruct (takedown_loop_ok c (env0 None None true) id b (length (s_list s)) s I C) as [s1 [A1 [A2 [A3 [A4 [_ [R [A6 [A7 A8]]]]]]]]].
  rewrite A1 in D. injection D as <-.
  assert (M : In (id, ip) (s_list s1)).
  { rewrite A6 in X. apply in_app_or in X. destruct X as [X|X]; [exact X|]. destruct (A7 _ X) as [Y _]. cbn in Y. congruence. }
  assert (Bd : 0 <= q -> 100 * q < (b + 1) * c_takedown c).
  { intros Hq. subst b. unfold boundary. set (p := c_takedown c) in *. clearbody p. destruct (Z.ltb_spec p 100) as [P|P].
    - destruct (q <=? INT64_MAX / 100).
      + pose proof (Z.mul_succ_div_gt (q * 100) p ltac:(lia)). unfold Z.succ in *. lia.
      + pose proof (Z.mul_succ_div_gt q p ltac:(lia)) as G. unfold Z.succ in G. nia.
    - assert (p = 100) as -> by lia. lia. }
  split.
  { eapply cur_is; [apply (i_ids _ _ A2)|rewrite A4; exact C|exact M]. }
  split; [|split].
  - intros x qx Hx Cx Hq. apply in_map_iff in Hx. destruct Hx as [k [K1 K2]]. rewrite A6 in K2. apply in_app_or in K2. destruct K2 as [K2|K2].
    + left. apply in_map_iff. eauto.
    + right. destruct (A7 _ K2) as [Y1 Y2]. rewrite K1, (costs_of c s x qx I Cx) in Y2. specialize (Bd Hq). split; [|nia].
      intros ->. apply Y1. assert (k = (id, ip)); [|subst k; reflexivity]. apply (nodup_inj snd (s_list s)); auto; [apply (i_gws _ _ I)|].
      rewrite A6. apply in_or_app. auto.
  - intros x Hx. apply in_map_iff in Hx. destruct Hx as [k [K1 K2]]. apply in_map_iff. exists k. split; [exact K1|]. rewrite A6. apply in_or_app. auto.
  - intros F Hq x qx Hx Cx. pose proof (finite_srt c l ginit s I0 ltac:(constructor) F H) as S. unfold srt in S.
    apply in_map_iff in Hx. destruct Hx as [k [K1 K2]]. rewrite <- (costs_of c s x qx I Cx), <- K1. rewrite <- Eq.
    destruct (A8 ltac:(lia)) as [Y|[l1 [w [Y1 Y2]]]].
    + left. destruct (s_list s1) as [|h [|h2 l2]]; [contradiction| |cbn in Y; lia]. destruct K2 as [->|[]]. destruct M as [->|[]]. cbn. lia.
    + assert (W : cost_of (s_tree s) (snd k) <= cost_of (s_tree s) (snd w)).
      { rewrite Y1 in K2. apply in_app_or in K2. destruct K2 as [K2|[<-|[]]]; [|lia].
        assert (In w (s_list s)) by (rewrite A6, Y1; apply in_or_app; left; apply in_or_app; right; left; reflexivity).
        rewrite A6, Y1, <- app_assoc in S. revert K2 S. clear. induction l1 as [|h l1 IH]; intros K2 S; [contradiction|].
        cbn [app] in S. inversion S as [|a b P Q]; subst. destruct K2 as [->|K2]; [|auto]. rewrite Forall_forall in Q. apply Q.
        apply in_or_app. right. left. reflexivity. }
      destruct Y2 as [Y2|Y2].
      * left. assert (w = (id, ip)); [|subst w; exact W]. apply (nodup_inj fst (s_list s)); auto; [apply (i_ids _ _ I)|].
        rewrite A6, Y1. apply in_or_app. left. apply in_or_app. right. left. reflexivity.
      * rewrite Eq. assert (Z1 : cost_of (s_tree s) (snd k) < b) by lia. subst b. revert Z1. unfold boundary.
        generalize (cost_of (s_tree s) (snd k)). set (p := c_takedown c) in *. clearbody p. intros v Z1.
        destruct (Z.ltb_spec p 100) as [P|P]; [|left; lia]. destruct (Z.leb_spec q (INT64_MAX / 100)) as [P2|P2]; [|lia].
        right. pose proof (Z.mul_div_le (q * 100) p ltac:(lia)). nia.
Qed.
Print Assumptions C71_takedown_partial.

(** A gets IPv4 back, B loses it, so A is chosen again *)
Definition again : list (genv * gev) := both ++ [(up0, annA 3 true); (up0, annB 2 false)].
Example C71_ex : let c := cfg0 0 2 90 in tunnels_work again /\ costs_finite c ginit again /\
  match grun c ginit again with
  | OK s => map snd (s_list s) = [1; 2] /\ current s = OK (Some 1) /\
            match takedown c s with OK s' => map snd (s_list s') = [1] | Fault _ => False end
  | Fault _ => False
  end.
Proof. split; [repeat constructor|]. split; [apply finiteb_ok; vm_compute; reflexivity|]. vm_compute. auto. Qed.

(** The current gateway becomes unreachable: its cost is INT64_MAX and the boundary
    overflows in spite of the scaling; wrapping arithmetic makes it negative, so that
    every other gateway is too expensive. *)
Theorem C71_takedown_refuted : exists c l s, c_takedown c = 90 /\ tunnels_work l /\ grun c ginit l = OK s /\
  takedown c s = Fault Overflow /\
  (boundary c INT64_MAX + 9223372036854775808) mod 18446744073709551616 - 9223372036854775808 < 0.
Proof.
  exists (cfg0 0 2 90), (again ++ [(env0 None (Some 2048) true, annA 4 true)]). eexists. split; [reflexivity|]. split; [repeat constructor|].
  split; [vm_compute; reflexivity|]. split; vm_compute; reflexivity.
Qed.
Print Assumptions C71_takedown_refuted.

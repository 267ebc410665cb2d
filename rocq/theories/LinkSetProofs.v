(** Proofs about the link set: how the entries evolve. *)
From Verif Require Import Base SchedTime SchedTimeProofs LinkSet LinkSetSpec.

(** ** times *)
Lemma due_iff : forall T D, -2147483648 < T - D < 2147483648 -> isTimedOut (u32 T) (u32 D) = (D <=? T).
Proof.
  intros T D H. unfold isTimedOut, u32.
  destruct (D mod 4294967296 >? T mod 4294967296) eqn:E; lia.
Qed.
Lemma lag : forall T D, 0 <= T - D < 4294967296 -> u32 (u32 T - u32 D) = T - D.
Proof. intros T D H. unfold u32. lia. Qed.
Lemma u32_range : forall x, 0 <= u32 x < 4294967296.
Proof. intro x. unfold u32. lia. Qed.
Lemma u32_u32_add : forall a b, u32 (u32 a + b) = u32 (a + b).
Proof. intros. unfold u32. now rewrite Zplus_mod_idemp_l. Qed.
Lemma u32_u32_sub : forall a b, u32 (u32 a - b) = u32 (a - b).
Proof. intros. unfold u32. now rewrite Zminus_mod_idemp_l. Qed.

Lemma set_tm_spec : forall c t rel pct r, 0 <= rmax c < 2147483648 -> 0 < rel < 2147483648 -> 0 <= pct < 256 ->
  0 <= r <= rmax c ->
  exists d, set_tm c (u32 t) rel pct r = Some (u32 (t + d)) /\ 0 <= d <= rel /\
    100 * (rel - d) <= pct * rel /\ (pct = 0 -> d = rel).
Proof.
  intros c t rel pct r Hm Hr Hp Hx. unfold set_tm.
  replace (rel =? 0) with false by lia.
  destruct (jitter_bounds (rmax c) (u32 t) rel pct r Hm (u32_range t)) as (d & E & A & B & C); try lia.
  exists d. rewrite E. unfold getTimestamp. rewrite u32_u32_add. auto.
Qed.

(** ** lists *)
Lemma upd_link_id : forall i f ls, (forall l, l_id (f l) = l_id l) -> map l_id (upd_link i f ls) = map l_id ls.
Proof.
  intros i f ls H. unfold upd_link. rewrite map_map. apply map_ext. intro l.
  destruct (l_id l =? i); auto.
Qed.
Lemma in_upd_link : forall i f ls l', In l' (upd_link i f ls) ->
  exists l, In l ls /\ l' = (if l_id l =? i then f l else l).
Proof.
  intros i f ls l' H. unfold upd_link in H. apply in_map_iff in H. destruct H as (l & E & I). eauto.
Qed.
Lemma in_upd_link' : forall i f ls l, In l ls -> In (if l_id l =? i then f l else l) (upd_link i f ls).
Proof. intros. unfold upd_link. apply in_map_iff. eauto. Qed.
Lemma get_link_in : forall i ls l, get_link i ls = Some l -> In l ls /\ l_id l = i.
Proof. intros i ls l H. apply find_some in H. split; [tauto|lia]. Qed.
Lemma get_link_nodup : forall i ls l, NoDup (map l_id ls) -> In l ls -> l_id l = i -> get_link i ls = Some l.
Proof.
  intros i ls. induction ls as [|x r IH]; intros l N I E; [easy|].
  inversion N as [|? ? N1 N2]; subst. unfold get_link. cbn [find].
  destruct I as [->|I].
  - now rewrite Z.eqb_refl.
  - destruct (l_id x =? l_id l) eqn:Q.
    + exfalso. apply N1. apply Z.eqb_eq in Q. rewrite Q. now apply in_map.
    + now apply IH.
Qed.
Lemma same_id : forall ls l1 l2, NoDup (map l_id ls) -> In l1 ls -> In l2 ls -> l_id l1 = l_id l2 -> l1 = l2.
Proof.
  intros ls l1 l2 N I1 I2 E.
  pose proof (get_link_nodup _ _ _ N I1 E) as G1. pose proof (get_link_nodup _ _ _ N I2 eq_refl) as G2. congruence.
Qed.
Lemma find_app : forall (A : Type) (f : A -> bool) l1 l2,
  find f (l1 ++ l2) = match find f l1 with Some x => Some x | None => find f l2 end.
Proof. intros A f l1 l2. induction l1 as [|x r IH]; [reflexivity|]. cbn. destruct (f x); auto. Qed.

(** what never changes about an entry, and what its status depends on *)
Definition stat (l : link) := (l_id l, l_local l, l_remote l, l_if l).
Definition dyn (l : link) := (l_sym l, l_asym l, l_timer l).

Lemma refresh_stat : forall c now vt st r l, stat (refresh c now vt st r l) = stat l /\ l_nbr (refresh c now vt st r l) = l_nbr l.
Proof.
  intros. unfold refresh. cbv zeta.
  destruct (st =? LOST_LINK); [|destruct ((st =? SYM_LINK) || (st =? ASYM_LINK))];
  match goal with |- context [if ?b then _ else _] => destruct b end; now destruct l.
Qed.
Lemma process_hyst_stat : forall now q l l', process_hyst now q l = Some l' -> stat l' = stat l /\ dyn l' = dyn l /\ l_nbr l' = l_nbr l /\ l_prev l' = l_prev l.
Proof.
  intros now q l l' H. unfold process_hyst in H.
  destruct (q =? 1). { apply Some_inj in H. subst l'. now destruct l. }
  destruct (q =? -1). { destruct (l_timer l) eqn:T; [|discriminate]. apply Some_inj in H. subst l'. now destruct l. }
  apply Some_inj in H. now subst.
Qed.

(** ** the shape of the list of links *)
Record base (s : lstate) : Prop := mkBase {
  b_ids : NoDup (map l_id (links s));
  b_lt : Forall (fun l => l_id l < fresh s) (links s);
  b_nids : NoDup (map n_id (nbrs s));
  b_nlt : Forall (fun n => n_id n < fresh s) (nbrs s);
  b_keys : NoDup (map (fun l => (l_remote l, l_if l)) (links s)) }.

Lemma key_spec : forall r n l, key r n l = true <-> l_remote l = r /\ l_if l = n.
Proof. intros. unfold key. rewrite andb_true_iff. lia. Qed.

Lemma nbr_insert_links : forall s a s' i, nbr_insert s a = (s', i) ->
  links s' = links s /\ fresh s <= fresh s' /\ ifs s' = ifs s /\ mid_main s' = mid_main s /\ mid_ali s' = mid_ali s.
Proof.
  intros s a s' i H. unfold nbr_insert in H. destruct (nbr_lookup_alias a (nbrs s)); inversion H; subst; cbn; repeat split; lia.
Qed.

(** the entry a HELLO creates *)
Definition fresh_link (c : lcfg) (now : Z) (s : lstate) (ifc : iface) (remote vt r n : Z) : link :=
  mkLink (fresh s) (i_addr ifc) remote (i_name ifc) n ASYM_LINK None 0 (set_tm c now vt OLSR_LINK_JITTER r)
    (use_hyst c) (if use_hyst c then getTimestamp now vt else 0) LINK_COST_BROKEN.

Lemma add_link_cases : forall c now s ifc remote main vt r s' i, add_link c now s ifc remote main vt r = Some (s', i) ->
  (exists l, lookup_link remote (i_name ifc) (links s) = Some l /\ i = l_id l /\ links s' = links s /\ fresh s' = fresh s) \/
  (lookup_link remote (i_name ifc) (links s) = None /\ i = fresh s /\ fresh s < fresh s' /\
   exists n, links s' = links s ++ [fresh_link c now s ifc remote vt r n]).
Proof.
  intros c now s ifc remote main vt r s' i H. unfold add_link, lookup_link_main in H.
  destruct (lookup_link remote (i_name ifc) (links s)) as [l|] eqn:L.
  - left. exists l. split; [reflexivity|].
    destruct (deref (l_nbr l) (nbrs s)) as [n|]; [|discriminate].
    destruct (n_addr n =? main); inversion H; subst; auto.
  - right. cbn [fresh links nbrs] in H.
    set (s2 := mkL (links s) (nbrs s) (fresh s + 1) (ifs s) (mid_main s) (mid_ali s)) in *.
    destruct (match nbr_lookup s2 main with Some n => (s2, n_id n) | None => nbr_insert s2 main end) as [s3 n] eqn:E.
    assert (links s3 = links s /\ fresh s2 <= fresh s3) as (E1 & E2).
    { destruct (nbr_lookup s2 main).
      - inversion E; subst. split; [reflexivity|lia].
      - apply nbr_insert_links in E. cbn in *. intuition. }
    inversion H; subst s' i. cbn. repeat split; [cbn in E2; lia|].
    exists n. now rewrite E1.
Qed.

Lemma update_link_cases : forall c now s ifc remote main vt msg r q s' i,
  base s -> update_link c now s ifc remote main vt msg r q = Some (s', i) ->
  exists l0 l2 ls, links s' = upd_link i (fun _ => l2) ls /\ In l0 ls /\ l_id l0 = i /\
    l_remote l0 = remote /\ l_if l0 = i_name ifc /\
    stat l2 = stat l0 /\ dyn l2 = dyn (refresh c now vt (check_link_status UNSPEC_LINK msg (i_addr ifc)) r l0) /\
    l_nbr l2 = l_nbr l0 /\
    ((lookup_link remote (i_name ifc) (links s) = Some l0 /\ ls = links s /\ fresh s' = fresh s) \/
     (lookup_link remote (i_name ifc) (links s) = None /\ i = fresh s /\ fresh s < fresh s' /\
      (exists n, l0 = fresh_link c now s ifc remote vt r n) /\ ls = links s ++ [l0])).
Proof.
  intros c now s ifc remote main vt msg r q s' i B H. unfold update_link in H.
  destruct (add_link c now s ifc remote main vt r) as [[s1 i1]|] eqn:A; [|discriminate].
  destruct (get_link i1 (links s1)) as [l|] eqn:G; [|discriminate]. cbv zeta in H.
  set (st := check_link_status UNSPEC_LINK msg (i_addr ifc)) in *.
  destruct (if use_hyst c then process_hyst now q (refresh c now vt st r l) else Some (refresh c now vt st r l)) as [l2|] eqn:P; [|discriminate].
  destruct (nbr_status _ _ _) as [ns|] eqn:N in H; [|discriminate].
  inversion H; subst s' i1. clear H. cbn [links set_nbrs set_links fresh].
  apply get_link_in in G. destruct G as [G1 G2].
  assert (stat l2 = stat l /\ dyn l2 = dyn (refresh c now vt st r l) /\ l_nbr l2 = l_nbr l) as (S1 & S2 & S3).
  { destruct (refresh_stat c now vt st r l) as [R1 R2].
    destruct (use_hyst c).
    - apply process_hyst_stat in P. destruct P as (P1 & P2 & P3 & _). rewrite P1, P2, P3. auto.
    - apply Some_inj in P. subst l2. auto. }
  exists l, l2, (links s1). split; [reflexivity|]. split; [exact G1|]. split; [exact G2|].
  destruct (add_link_cases _ _ _ _ _ _ _ _ _ _ A) as [(l1 & L & Ei & EL & EF)|(L & Ei & EF & n & EL)].
  - pose proof (find_some _ _ L) as [IL KL]. apply key_spec in KL.
    assert (l = l1) as ->.
    { apply (same_id (links s)); [apply (b_ids _ B)|now rewrite <- EL|exact IL|congruence]. }
    rewrite L. intuition.
  - rewrite EL in G1. apply in_app_or in G1. destruct G1 as [G1|[G1|[]]].
    + exfalso. pose proof (b_lt _ B) as BL. rewrite Forall_forall in BL. specialize (BL _ G1). lia.
    + subst l. split; [reflexivity|]. split; [reflexivity|].
      split; [exact S1|]. split; [exact S2|]. split; [exact S3|].
      right. repeat split; auto; try lia. exists n. reflexivity.
Qed.

(** how the entry [l] looks after the event *)
Definition evolve (c : lcfg) (now : Z) (s : lstate) (e : lev) (l l' : link) : Prop :=
  stat l' = stat l /\
  match e with
  | EHello ifc remote main vt msg r q =>
      (l_id l = match update_link c now s ifc remote main vt msg r q with Some (_, i) => i | None => -1 end ->
       dyn l' = dyn (refresh c now vt (check_link_status UNSPEC_LINK msg (i_addr ifc)) r l)) /\
      (l_id l <> match update_link c now s ifc remote main vt msg r q with Some (_, i) => i | None => -1 end -> dyn l' = dyn l)
  | ESymFire i => if l_id l =? i then l_sym l' = None /\ l_asym l' = l_asym l /\ l_timer l' = l_timer l else dyn l' = dyn l
  | EReset => l_sym l' = None /\ l_asym l' = u32 (now - 1) /\ l_timer l' = l_timer l
  | _ => dyn l' = dyn l
  end.

Lemma upd_link_same : forall i f ls l', (forall l, stat (f l) = stat l) -> (forall l, dyn (f l) = dyn l) ->
  In l' (upd_link i f ls) -> exists l, In l ls /\ stat l' = stat l /\ dyn l' = dyn l.
Proof.
  intros i f ls l' H1 H2 I. apply in_upd_link in I. destruct I as (l & I & ->). exists l.
  destruct (l_id l =? i); auto.
Qed.
Lemma in_replace_nbr : forall o n ls l', In l' (replace_nbr o n ls) ->
  exists l, In l ls /\ stat l' = stat l /\ dyn l' = dyn l.
Proof.
  intros o n ls l' I. unfold replace_nbr in I. apply in_map_iff in I. destruct I as (l & <- & I). exists l.
  destruct (l_nbr l =? o); now destruct l.
Qed.

Lemma alias_old_links : forall s main alias l', In l' (links (alias_old s main alias)) ->
  exists l, In l (links s) /\ stat l' = stat l /\ dyn l' = dyn l.
Proof.
  intros s main alias l' I. unfold alias_old in I.
  destruct (nbr_lookup_alias alias (nbrs s)) as [o|]; [|exists l'; auto].
  destruct (nbr_insert _ main) as [s1 n] eqn:E. cbn in I. apply in_replace_nbr in I.
  apply nbr_insert_links in E. destruct E as [E _]. rewrite E in I. exact I.
Qed.
Lemma alias_dup_links : forall main s a l', In l' (links (alias_dup main s a)) ->
  exists l, In l (links s) /\ stat l' = stat l /\ dyn l' = dyn l.
Proof.
  intros main s a l' I. unfold alias_dup in I.
  destruct (nbr_lookup_alias a (nbrs s)); [|exists l'; auto].
  destruct (nbr_lookup_alias main (nbrs s)); [|exists l'; auto].
  cbn in I. now apply in_replace_nbr in I.
Qed.
Lemma alias_fold_links : forall main l s l', In l' (links (fold_left (alias_dup main) l s)) ->
  exists x, In x (links s) /\ stat l' = stat x /\ dyn l' = dyn x.
Proof.
  intros main l. induction l as [|a r IH]; intros s l' I; [exists l'; auto|].
  cbn in I. apply IH in I. destruct I as (x & I & E1 & E2).
  apply alias_dup_links in I. destruct I as (y & I & F1 & F2). exists y. repeat split; congruence || assumption.
Qed.
Lemma insert_alias_links : forall s main alias l', In l' (links (insert_alias s main alias)) ->
  exists l, In l (links s) /\ stat l' = stat l /\ dyn l' = dyn l.
Proof.
  intros s main alias l' I. unfold insert_alias in I. cbv zeta in I.
  destruct (match mid_main _ alias with Some m => m =? main | None => false end).
  - now apply alias_old_links in I.
  - apply alias_fold_links in I. destruct I as (x & I & E1 & E2).
    apply alias_old_links in I. destruct I as (y & I & F1 & F2). exists y. repeat split; congruence || assumption.
Qed.

Lemma delete_link_links : forall s l s', delete_link s l = Some s' ->
  links s' = filter (fun x => negb (l_id x =? l_id l)) (links s) /\ fresh s' = fresh s.
Proof.
  intros s l s' H. unfold delete_link in H. destruct (deref (l_nbr l) (nbrs s)); [|discriminate].
  apply Some_inj in H. now subst s'.
Qed.
Lemma delete_all_links : forall ls a s s', delete_all ls a s = Some s' ->
  exists p, links s' = filter p (links s) /\ fresh s' = fresh s.
Proof.
  intros ls a. induction ls as [|l r IH]; intros s s' H; cbn in H.
  - apply Some_inj in H. subst s'. exists (fun _ => true). split; [|reflexivity].
    induction (links s) as [|x y IHl]; [reflexivity|]. cbn. now rewrite <- IHl.
  - destruct (l_local l =? a); [|now apply IH].
    destruct (delete_link s l) as [s1|] eqn:D; [|discriminate].
    apply IH in H. destruct H as (p & H & F). apply delete_link_links in D. destruct D as [D1 D2].
    exists (fun x => negb (l_id x =? l_id l) && p x). split; [|congruence].
    rewrite H, D1. clear. induction (links s) as [|x y IHl]; [reflexivity|]. cbn.
    destruct (negb (l_id x =? l_id l)); cbn; [|exact IHl]. destruct (p x); now rewrite IHl.
Qed.

Lemma nbr_status_some : forall i lnk ns ns', nbr_status i lnk ns = Some ns' -> map n_id ns' = map n_id ns /\ map n_addr ns' = map n_addr ns.
Proof.
  intros i lnk ns ns' H. unfold nbr_status in H. destruct (deref i ns); [|discriminate].
  apply Some_inj in H. subst ns'. unfold upd_nbr. rewrite !map_map.
  split; apply map_ext; intro x; destruct (n_id x =? i); reflexivity.
Qed.

Lemma expire_sym_links : forall c now s i s', expire_sym c now s i = Some s' ->
  fresh s' = fresh s /\ map n_id (nbrs s') = map n_id (nbrs s) /\
  exists f, links s' = upd_link i f (links s) /\ forall l, stat (f l) = stat l /\ l_sym (f l) = None /\ l_asym (f l) = l_asym l /\ l_timer (f l) = l_timer l /\ l_nbr (f l) = l_nbr l.
Proof.
  intros c now s i s' H. unfold expire_sym in H. destruct (get_link i (links s)) as [l|]; [|discriminate].
  cbv zeta in H. destruct (negb (l_prev l =? SYM_LINK)).
  - apply Some_inj in H. subst s'. repeat (split; [reflexivity|]). exists (set_sym None). split; [reflexivity|]. intro x. now destruct x.
  - destruct (nbr_status _ _ _) as [ns|] eqn:N in H; [|discriminate]. apply Some_inj in H. subst s'. cbn [links set_nbrs set_links fresh nbrs].
    apply nbr_status_some in N. split; [reflexivity|]. split; [exact (proj1 N)|].
    match goal with |- exists f, upd_link i (set_prev ?p) _ = _ /\ _ => exists (fun x => set_prev p (set_sym None x)) end.
    split; [|intro x; now destruct x].
    unfold upd_link. rewrite map_map. apply map_ext. intro x.
    destruct (l_id x =? i) eqn:E; [|now rewrite E].
    cbn [set_sym l_id]. now rewrite E.
Qed.

Lemma reset1_links : forall now ls s s', reset1 now ls s = Some s' ->
  fresh s' = fresh s /\ map n_id (nbrs s') = map n_id (nbrs s) /\
  links s' = map (fun l => if existsb (fun x => l_id x =? l_id l) ls then set_sym None (set_asym (u32 (now - 1)) l) else l) (links s).
Proof.
  intros now ls. induction ls as [|l r IH]; intros s s' H; cbn [reset1] in H.
  - apply Some_inj in H. subst s'. repeat split. symmetry. apply map_id.
  - destruct (deref (l_nbr l) (nbrs s)) as [n|]; [|discriminate].
    apply IH in H. cbn [fresh nbrs links set_nbrs set_links] in H. destruct H as (H1 & H2 & H3).
    split; [exact H1|]. split.
    { rewrite H2. unfold upd_nbr. rewrite map_map. apply map_ext. intro x. destruct (n_id x =? n_id n); reflexivity. }
    rewrite H3. unfold upd_link. rewrite map_map. apply map_ext. intro x. cbn [existsb].
    rewrite (Z.eqb_sym (l_id l) (l_id x)). destruct (l_id x =? l_id l) eqn:E; cbn [orb].
    + cbn [set_sym set_asym l_id]. destruct (existsb _ r); reflexivity.
    + reflexivity.
Qed.
Lemma reset2_links : forall c now ls s s', reset2 c now ls s = Some s' ->
  fresh s' = fresh s /\ map n_id (nbrs s') = map n_id (nbrs s) /\
  exists f, links s' = map f (links s) /\ forall l, stat (f l) = stat l /\ l_asym (f l) = l_asym l /\ l_timer (f l) = l_timer l /\ l_nbr (f l) = l_nbr l /\ (l_sym l = None -> l_sym (f l) = None).
Proof.
  intros c now ls. induction ls as [|l r IH]; intros s s' H; cbn [reset2] in H.
  - apply Some_inj in H. subst s'. repeat (split; [reflexivity|]). exists (fun x => x). split; [symmetry; apply map_id|]. auto.
  - destruct (expire_sym c now s (l_id l)) as [s1|] eqn:E; [|discriminate].
    apply IH in H. destruct H as (H1 & H2 & f & H3 & H4).
    apply expire_sym_links in E. destruct E as (E1 & E2 & g & E3 & E4).
    split; [congruence|]. split; [congruence|].
    exists (fun x => f (if l_id x =? l_id l then g x else x)). split.
    + rewrite H3, E3. unfold upd_link. now rewrite map_map.
    + intro x. destruct (l_id x =? l_id l); [|apply H4].
      destruct (E4 x) as (F1 & F2 & F3 & F4 & F5). destruct (H4 (g x)) as (G1 & G2 & G3 & G4 & G5).
      repeat split; try congruence. auto.
Qed.
Lemma reset_links : forall c now s s', reset_all c now s = Some s' ->
  fresh s' = fresh s /\ map n_id (nbrs s') = map n_id (nbrs s) /\
  exists f, links s' = map f (links s) /\ forall l, In l (links s) -> stat (f l) = stat l /\ l_sym (f l) = None /\ l_asym (f l) = u32 (now - 1) /\ l_timer (f l) = l_timer l /\ l_nbr (f l) = l_nbr l.
Proof.
  intros c now s s' H. unfold reset_all in H.
  destruct (reset1 now (links s) s) as [s1|] eqn:E; [|discriminate].
  apply reset1_links in E. destruct E as (E1 & E2 & E3).
  apply reset2_links in H. destruct H as (H1 & H2 & f & H3 & H4).
  split; [congruence|]. split; [congruence|].
  match type of E3 with _ = map ?g _ => exists (fun x => f (g x)) end. split.
  - rewrite H3, E3. now rewrite map_map.
  - intros l I. assert (existsb (fun x => l_id x =? l_id l) (links s) = true) as ->.
    { apply existsb_exists. exists l. split; [exact I|apply Z.eqb_refl]. }
    destruct (H4 (set_sym None (set_asym (u32 (now - 1)) l))) as (G1 & G2 & G3 & G4 & G5).
    rewrite G1, G2, G3, G4, G5; repeat split.
Qed.

Lemma expire_link_links : forall s i s', expire_link s i = Some s' ->
  links s' = filter (fun x => negb (l_id x =? i)) (links s) /\ fresh s' = fresh s.
Proof.
  intros s i s' H. unfold expire_link in H. destruct (get_link i (links s)) as [l|] eqn:G; [|discriminate].
  apply get_link_in in G. destruct G as [_ G].
  apply delete_link_links in H. destruct H as [H F]. cbn [links set_links fresh] in *.
  split; [|exact F]. rewrite H. cbn [set_timer l_id]. rewrite G. clear.
  induction (links s) as [|x r IH]; [reflexivity|]. cbn [upd_link map filter].
  destruct (l_id x =? i) eqn:E; cbn [set_timer l_id]; rewrite E; cbn [negb]; [exact IH|now f_equal].
Qed.
Lemma expire_hello_links : forall c now s i q s', expire_hello c now s i q = Some s' ->
  fresh s' = fresh s /\ map n_id (nbrs s') = map n_id (nbrs s) /\
  exists l2 l, In l (links s) /\ l_id l = i /\ links s' = upd_link i (fun _ => l2) (links s) /\ stat l2 = stat l /\ dyn l2 = dyn l /\ l_nbr l2 = l_nbr l.
Proof.
  intros c now s i q s' H. unfold expire_hello in H.
  destruct (get_link i (links s)) as [l|] eqn:G; [|discriminate].
  destruct (process_hyst now q l) as [l2|] eqn:P; [|discriminate]. cbv zeta in H.
  destruct (nbr_status _ _ _) as [ns|] eqn:N in H; [|discriminate]. apply Some_inj in H. subst s'. cbn [links nbrs fresh set_nbrs set_links].
  apply nbr_status_some in N. split; [reflexivity|]. split; [exact (proj1 N)|].
  apply process_hyst_stat in P. apply get_link_in in G. exists l2, l. intuition.
Qed.

(** ** every event keeps the shape *)
Lemma map_stat_keys : forall ls ls', map stat ls = map stat ls' ->
  map l_id ls = map l_id ls' /\ map (fun l => (l_remote l, l_if l)) ls = map (fun l => (l_remote l, l_if l)) ls'.
Proof.
  intros ls ls' E.
  assert (map l_id ls = map (fun x => fst (fst (fst x))) (map stat ls)) as -> by (rewrite map_map; reflexivity).
  assert (map l_id ls' = map (fun x => fst (fst (fst x))) (map stat ls')) as -> by (rewrite map_map; reflexivity).
  assert (forall k, map (fun l => (l_remote l, l_if l)) k = map (fun x => (snd (fst x), snd x)) (map stat k)) as Q
    by (intro; rewrite map_map; reflexivity).
  rewrite !Q, E. auto.
Qed.
Lemma stat_upd : forall i f ls, (forall l, In l ls -> l_id l = i -> stat (f l) = stat l) -> map stat (upd_link i f ls) = map stat ls.
Proof.
  intros i f ls H. unfold upd_link. rewrite map_map. apply map_ext_in. intros l I.
  destruct (l_id l =? i) eqn:E; [apply H; [exact I|lia]|reflexivity].
Qed.
Lemma stat_replace : forall o n ls, map stat (replace_nbr o n ls) = map stat ls.
Proof.
  intros. unfold replace_nbr. rewrite map_map. apply map_ext. intro l. destruct (l_nbr l =? o); reflexivity.
Qed.
Lemma lt_of_ids : forall m ls, Forall (fun l => l_id l < m) ls <-> Forall (fun i => i < m) (map l_id ls).
Proof. intros. rewrite Forall_map. reflexivity. Qed.
Lemma nlt_of_ids : forall m ls, Forall (fun l => n_id l < m) ls <-> Forall (fun i => i < m) (map n_id ls).
Proof. intros. rewrite Forall_map. reflexivity. Qed.

Lemma base_same : forall s s', base s -> map stat (links s') = map stat (links s) -> map n_id (nbrs s') = map n_id (nbrs s) ->
  fresh s' = fresh s -> base s'.
Proof.
  intros s s' B E N F. apply map_stat_keys in E. destruct E as [E1 E2]. destruct B.
  constructor.
  - now rewrite E1.
  - apply lt_of_ids. rewrite E1, F. now apply lt_of_ids.
  - now rewrite N.
  - apply nlt_of_ids. rewrite N, F. now apply nlt_of_ids.
  - now rewrite E2.
Qed.
Lemma nodup_filter_map' : forall (A B : Type) (f : A -> B) p l, NoDup (map f l) -> NoDup (map f (filter p l)).
Proof.
  intros A B f p l. induction l as [|x r IH]; intros N; [exact N|]. inversion N as [|? ? N1 N2]; subst.
  cbn. destruct (p x); [|now apply IH]. cbn. constructor; [|now apply IH].
  intro I. apply N1. apply in_map_iff in I. destruct I as (y & E & I). apply filter_In in I. rewrite <- E. apply in_map, I.
Qed.
Lemma forall_filter : forall (A : Type) (P : A -> Prop) p l, Forall P l -> Forall P (filter p l).
Proof. intros A P p l H. rewrite Forall_forall in *. intros x I. apply filter_In in I. now apply H. Qed.
Lemma nbr_delete_incl : forall a ns x, In x (nbr_delete a ns) -> In x ns.
Proof. intros a ns. induction ns as [|n r IH]; intros x I; [easy|]. cbn in I. destruct (n_addr n =? a); [now right|]. destruct I as [->|I]; [now left|right; auto]. Qed.
Lemma nbr_delete_nodup : forall (B : Type) (f : nbr -> B) a ns, NoDup (map f ns) -> NoDup (map f (nbr_delete a ns)).
Proof.
  intros B f a ns. induction ns as [|n r IH]; intros N; [exact N|]. inversion N as [|? ? N1 N2]; subst. cbn.
  destruct (n_addr n =? a); [exact N2|]. cbn. constructor; [|now apply IH].
  intro I. apply N1. apply in_map_iff in I. destruct I as (y & E & I). rewrite <- E. apply in_map. now apply nbr_delete_incl in I.
Qed.
Lemma forall_delete : forall (P : nbr -> Prop) a ns, Forall P ns -> Forall P (nbr_delete a ns).
Proof. intros P a ns H. rewrite Forall_forall in *. intros x I. apply nbr_delete_incl in I. now apply H. Qed.
Lemma upd_nbr_ids : forall i f ns, (forall n, n_id (f n) = n_id n) -> map n_id (upd_nbr i f ns) = map n_id ns.
Proof. intros i f ns H. unfold upd_nbr. rewrite map_map. apply map_ext. intro n. destruct (n_id n =? i); auto. Qed.

Lemma base_links : forall s p ns, base s -> NoDup (map n_id ns) -> Forall (fun n => n_id n < fresh s) ns ->
  forall s', links s' = filter p (links s) -> nbrs s' = ns -> fresh s' = fresh s -> base s'.
Proof.
  intros s p ns [B1 B2 B3 B4 B5] N1 N2 s' E1 E2 E3. constructor.
  - rewrite E1. now apply nodup_filter_map'.
  - rewrite E1, E3. now apply forall_filter.
  - now rewrite E2.
  - now rewrite E2, E3.
  - rewrite E1. now apply nodup_filter_map'.
Qed.
Lemma base_delete_link : forall s l s', base s -> delete_link s l = Some s' -> base s'.
Proof.
  intros s l s' B H. unfold delete_link in H. destruct (deref (l_nbr l) (nbrs s)) as [n|]; [|discriminate].
  apply Some_inj in H. subst s'. pose proof (b_nids _ B) as N1. pose proof (b_nlt _ B) as N2.
  cbv zeta. match goal with |- base (set_nbrs ?ns (set_links (filter ?p _) _)) => apply (base_links s p ns B); try reflexivity end; destruct (n_count n =? 1).
  - now apply nbr_delete_nodup.
  - rewrite upd_nbr_ids; auto.
  - now apply forall_delete.
  - apply nlt_of_ids. rewrite upd_nbr_ids by auto. now apply nlt_of_ids.
Qed.
Lemma base_delete_all : forall ls a s s', base s -> delete_all ls a s = Some s' -> base s'.
Proof.
  intros ls a. induction ls as [|l r IH]; intros s s' B H; cbn in H.
  - apply Some_inj in H. now subst.
  - destruct (l_local l =? a); [|eauto]. destruct (delete_link s l) as [s1|] eqn:D; [|discriminate].
    eapply IH; [|exact H]. eapply base_delete_link; eauto.
Qed.
Lemma base_insert : forall s a s' i, base s -> nbr_insert s a = (s', i) -> base s'.
Proof.
  intros s a s' i B H. unfold nbr_insert in H. destruct (nbr_lookup_alias a (nbrs s)); inversion H; subst; [exact B|].
  destruct B as [B1 B2 B3 B4 B5]. constructor; cbn; auto.
  - eapply Forall_impl; [|exact B2]. cbn. intros; lia.
  - constructor; [|exact B3]. intro I. apply in_map_iff in I. destruct I as (x & E & I).
    rewrite Forall_forall in B4. specialize (B4 _ I). lia.
  - constructor; [cbn; lia|]. eapply Forall_impl; [|exact B4]. cbn. intros; lia.
Qed.
Lemma base_alias_old : forall s main alias, base s -> base (alias_old s main alias).
Proof.
  intros s main alias B. unfold alias_old. destruct (nbr_lookup_alias alias (nbrs s)) as [o|]; [|exact B].
  destruct (nbr_insert _ main) as [s1 n] eqn:E.
  assert (base s1) as B1.
  { eapply base_insert; [|exact E]. destruct B as [B1 B2 B3 B4 B5]. constructor; cbn; auto.
    - now apply nbr_delete_nodup.
    - now apply forall_delete. }
  eapply base_same; [exact B1|cbn; apply stat_replace|reflexivity|reflexivity].
Qed.
Lemma base_alias_dup : forall main s a, base s -> base (alias_dup main s a).
Proof.
  intros main s a B. unfold alias_dup. destruct (nbr_lookup_alias a (nbrs s)) as [x|]; [|exact B].
  destruct (nbr_lookup_alias main (nbrs s)) as [y|]; [|exact B].
  destruct B as [B1 B2 B3 B4 B5]. pose proof (map_stat_keys _ _ (stat_replace (n_id x) (n_id y) (links s))) as [K1 K2].
  constructor; cbn.
  - now rewrite K1.
  - apply lt_of_ids. rewrite K1. now apply lt_of_ids.
  - now apply nodup_filter_map'.
  - now apply forall_filter.
  - now rewrite K2.
Qed.
Lemma base_insert_alias : forall s main alias, base s -> base (insert_alias s main alias).
Proof.
  intros s main alias B. unfold insert_alias. cbv zeta.
  destruct (match mid_main _ alias with Some m => m =? main | None => false end); [now apply base_alias_old|].
  assert (base (alias_old s main alias)) as B1 by now apply base_alias_old.
  revert B1. generalize (alias :: mid_ali (alias_old s main alias) main) as l. generalize (alias_old s main alias).
  intros s0 l. revert s0. induction l as [|x r IH]; intros s1 B1; [exact B1|]. cbn. apply IH. now apply base_alias_dup.
Qed.

Lemma base_rename : forall s n a, base s -> In n (nbrs s) -> base (set_nbrs (nbr_rename n a (nbrs s)) s).
Proof.
  intros s n a [B1 B2 B3 B4 B5] I. constructor; cbn; auto.
  - constructor; [|now apply nodup_filter_map'].
    intro J. apply in_map_iff in J. destruct J as (x & E & J). apply filter_In in J. lia.
  - constructor; [rewrite Forall_forall in B4; exact (B4 _ I)|now apply forall_filter].
Qed.
Lemma deref_in : forall i ns n, deref i ns = Some n -> In n ns /\ n_id n = i.
Proof. intros i ns n H. apply find_some in H. split; [tauto|lia]. Qed.

Lemma base_add_link : forall c now s ifc remote main vt r s' i, base s -> add_link c now s ifc remote main vt r = Some (s', i) -> base s'.
Proof.
  intros c now s ifc remote main vt r s' i B H. unfold add_link, lookup_link_main in H.
  destruct (lookup_link remote (i_name ifc) (links s)) as [l|] eqn:L.
  - destruct (deref (l_nbr l) (nbrs s)) as [n|] eqn:D; [|discriminate]. apply deref_in in D.
    destruct (n_addr n =? main); inversion H; subst; [exact B|]. apply base_rename; tauto.
  - cbn [fresh links nbrs] in H.
    set (s2 := mkL (links s) (nbrs s) (fresh s + 1) (ifs s) (mid_main s) (mid_ali s)) in *.
    assert (base s2) as B2.
    { destruct B as [B1 B2 B3 B4 B5]. constructor; cbn; auto; (eapply Forall_impl; [|eassumption]); cbn; intros; lia. }
    destruct (match nbr_lookup s2 main with Some n => (s2, n_id n) | None => nbr_insert s2 main end) as [s3 n] eqn:E.
    assert (base s3 /\ links s3 = links s /\ fresh s < fresh s3) as (B3 & E1 & E2).
    { destruct (nbr_lookup s2 main).
      - inversion E; subst. split; [exact B2|]. split; [reflexivity|cbn; lia].
      - split; [eapply base_insert; eauto|]. apply nbr_insert_links in E. cbn in E. intuition lia. }
    inversion H; subst s' i. destruct B3 as [C1 C2 C3 C4 C5]. constructor; cbn.
    + rewrite E1, map_app. cbn. pose proof (b_ids _ B) as N. pose proof (b_lt _ B) as Lt.
      apply (NoDup_Add (a := fresh s) (l := map l_id (links s))).
      * rewrite <- (app_nil_r (map l_id (links s))) at 1. apply Add_app.
      * split; [exact N|]. intro J. apply in_map_iff in J. destruct J as (x & Ex & J).
        rewrite Forall_forall in Lt. specialize (Lt _ J). lia.
    + apply Forall_app. split; [exact C2|]. constructor; [cbn; lia|constructor].
    + rewrite upd_nbr_ids; auto.
    + apply nlt_of_ids. rewrite upd_nbr_ids by auto. now apply nlt_of_ids.
    + rewrite E1, map_app. cbn. pose proof (b_keys _ B) as N.
      apply (NoDup_Add (a := (remote, i_name ifc)) (l := map (fun l => (l_remote l, l_if l)) (links s))).
      * rewrite <- (app_nil_r (map _ (links s))) at 1. apply Add_app.
      * split; [exact N|]. intro J. apply in_map_iff in J. destruct J as (x & Ex & J).
        pose proof (find_none _ _ L _ J) as Q. injection Ex as Ex1 Ex2. unfold key in Q. lia.
Qed.

Lemma update_link_add : forall c now s ifc remote main vt msg r q s' i,
  update_link c now s ifc remote main vt msg r q = Some (s', i) ->
  exists s1 l l2, add_link c now s ifc remote main vt r = Some (s1, i) /\ get_link i (links s1) = Some l /\
    links s' = upd_link i (fun _ => l2) (links s1) /\ stat l2 = stat l /\ fresh s' = fresh s1 /\ map n_id (nbrs s') = map n_id (nbrs s1).
Proof.
  intros c now s ifc remote main vt msg r q s' i H. unfold update_link in H.
  destruct (add_link c now s ifc remote main vt r) as [[s1 i1]|] eqn:A; [|discriminate].
  destruct (get_link i1 (links s1)) as [l|] eqn:G; [|discriminate]. cbv zeta in H.
  set (st := check_link_status UNSPEC_LINK msg (i_addr ifc)) in *.
  destruct (if use_hyst c then process_hyst now q (refresh c now vt st r l) else Some (refresh c now vt st r l)) as [l2|] eqn:P; [|discriminate].
  destruct (nbr_status _ _ _) as [ns|] eqn:N in H; [|discriminate].
  inversion H; subst s' i1. exists s1, l, l2. split; [reflexivity|]. split; [exact G|]. split; [reflexivity|].
  apply nbr_status_some in N. split; [|split; [reflexivity|exact (proj1 N)]].
  destruct (refresh_stat c now vt st r l) as [R1 _]. destruct (use_hyst c).
  - apply process_hyst_stat in P. rewrite (proj1 P). exact R1.
  - apply Some_inj in P. now subst l2.
Qed.

Lemma base_step : forall c now s e s', base s -> lstep c now s e = Some s' -> base s'.
Proof.
  intros c now s e s' B H. destruct e as [ifc remote main vt msg r q|i|i|i q|main alias|a| |i cost|l|m a]; cbn [lstep] in H.
  - destruct (update_link c now s ifc remote main vt msg r q) as [[s1 i]|] eqn:U; [|discriminate].
    apply Some_inj in H. subst s1. destruct (update_link_add _ _ _ _ _ _ _ _ _ _ _ _ U) as (s1 & l & l2 & A & G & E1 & E2 & E3 & E4).
    apply base_add_link in A; [|exact B]. eapply base_same; [exact A| |exact E4|exact E3].
    rewrite E1. apply get_link_in in G. apply stat_upd. intros x I Ex. rewrite E2. f_equal.
    apply (same_id (links s1)); [apply (b_ids _ A)|tauto|exact I|lia].
  - apply expire_sym_links in H. destruct H as (H1 & H2 & f & H3 & H4).
    eapply base_same; [exact B| |exact H2|exact H1]. rewrite H3. apply stat_upd. intros x _ _. apply H4.
  - unfold expire_link in H. destruct (get_link i (links s)) as [l|] eqn:G; [|discriminate].
    eapply base_delete_link; [|exact H]. eapply base_same; [exact B| |reflexivity|reflexivity].
    cbn. apply stat_upd. intros x _ _. reflexivity.
  - apply expire_hello_links in H. destruct H as (H1 & H2 & l2 & l & I & E & H3 & H4 & _).
    eapply base_same; [exact B| |exact H2|exact H1]. rewrite H3. apply stat_upd. intros x Ix Ex. rewrite H4. f_equal.
    apply (same_id (links s)); [apply (b_ids _ B)|exact I|exact Ix|lia].
  - apply Some_inj in H. subst s'. now apply base_insert_alias.
  - eapply base_delete_all; eauto.
  - apply reset_links in H. destruct H as (H1 & H2 & f & H3 & H4).
    eapply base_same; [exact B| |exact H2|exact H1]. rewrite H3, map_map. apply map_ext_in. intros x I. now apply H4.
  - apply Some_inj in H. subst s'. eapply base_same; [exact B| |reflexivity|reflexivity]. cbn. apply stat_upd. intros x _ _. reflexivity.
  - apply Some_inj in H. subst s'. destruct B. now constructor.
  - apply Some_inj in H. subst s'. destruct B. now constructor.
Qed.
Lemma base_init : base linit.
Proof. constructor; cbn; constructor. Qed.

(** every entry after an event is an entry before it, or the one the HELLO created *)
Lemma step_link : forall c now s e s' l', base s -> lstep c now s e = Some s' -> In l' (links s') ->
  (exists l, In l (links s) /\ evolve c now s e l l') \/
  (exists ifc remote main vt msg r q l0 n, e = EHello ifc remote main vt msg r q /\
     l_id l' = fresh s /\ (exists s'', update_link c now s ifc remote main vt msg r q = Some (s'', fresh s)) /\
     l0 = fresh_link c now s ifc remote vt r n /\ stat l' = stat l0 /\
     dyn l' = dyn (refresh c now vt (check_link_status UNSPEC_LINK msg (i_addr ifc)) r l0)).
Proof.
  intros c now s e s' l' B H I. destruct e as [ifc remote main vt msg r q|i|i|i q|main alias|a| |i cost|l|m a]; cbn [lstep] in H; unfold evolve.
  - destruct (update_link c now s ifc remote main vt msg r q) as [[s1 i]|] eqn:U; [|discriminate].
    apply Some_inj in H. subst s1.
    destruct (update_link_cases _ _ _ _ _ _ _ _ _ _ _ _ B U) as (l0 & l2 & ls & E1 & I0 & Ei & _ & _ & S2 & D2 & _ & C).
    rewrite E1 in I. apply in_upd_link in I. destruct I as (l & I & El).
    destruct C as [(L & Els & _)|(L & Ei' & F & (n & El0) & Els)].
    + left. subst ls. exists l. split; [exact I|].
      destruct (l_id l =? i) eqn:Q.
      * assert (l = l0) as -> by (apply (same_id (links s)); [apply (b_ids _ B)|exact I|exact I0|lia]).
        subst l'. split; [exact S2|]. split; [auto|]. intro; lia.
      * subst l'. split; [reflexivity|]. split; [lia|reflexivity].
    + subst ls. apply in_app_or in I. destruct I as [I|[I|[]]].
      * left. exists l. split; [exact I|]. pose proof (b_lt _ B) as BL. rewrite Forall_forall in BL. specialize (BL _ I).
        replace (l_id l =? i) with false in El by lia. subst l'. split; [reflexivity|]. split; [lia|reflexivity].
      * right. subst l. replace (l_id l0 =? i) with true in El by lia. subst l'.
        exists ifc, remote, main, vt, msg, r, q, l0, n. split; [reflexivity|].
        split; [inversion S2; congruence|]. split; [exists s'; congruence|]. auto.
  - left. apply expire_sym_links in H. destruct H as (_ & _ & f & H3 & H4). rewrite H3 in I. apply in_upd_link in I.
    destruct I as (l & I & ->). exists l. split; [exact I|]. destruct (l_id l =? i) eqn:Q; [|auto].
    destruct (H4 l) as (G1 & G2 & G3 & G4 & _). auto.
  - left. apply expire_link_links in H. destruct H as [H _]. rewrite H in I. apply filter_In in I. exists l'. intuition.
  - left. apply expire_hello_links in H. destruct H as (_ & _ & l2 & l & Il & E & H3 & H4 & H5 & _). rewrite H3 in I.
    apply in_upd_link in I. destruct I as (x & I & ->). exists x. split; [exact I|]. destruct (l_id x =? i) eqn:Q; [|auto].
    assert (x = l) as -> by (apply (same_id (links s)); [apply (b_ids _ B)|exact I|exact Il|lia]). auto.
  - left. apply Some_inj in H. subst s'. now apply insert_alias_links in I.
  - left. unfold delete_by_ip in H. apply delete_all_links in H. destruct H as (p & H & _). rewrite H in I. apply filter_In in I. exists l'. intuition.
  - left. apply reset_links in H. destruct H as (_ & _ & f & H3 & H4). rewrite H3 in I. apply in_map_iff in I.
    destruct I as (l & <- & I). exists l. split; [exact I|]. destruct (H4 _ I) as (G1 & G2 & G3 & G4 & _). auto.
  - left. apply Some_inj in H. subst s'. cbn in I. apply upd_link_same in I; auto.
  - left. apply Some_inj in H. subst s'. exists l'. auto.
  - left. apply Some_inj in H. subst s'. exists l'. auto.
Qed.

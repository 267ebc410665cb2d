From Verif Require Import Base Parser ParserProofs Compare AvlSpec CompareProofs RtBest RtBestSpec RtBestProofs Rib RibSpec.
From Coq Require Import Permutation.

Lemma beqP a b : reflect (a = b) (bytes_eqb a b).
Proof. apply iff_reflect. symmetry. apply bytes_eqb_spec. Qed.
Lemma dstP p q : reflect (p = q) (dst_eqb p q).
Proof.
  apply iff_reflect. unfold dst_eqb. destruct p as [a x], q as [b y]. cbn [fst snd]. rewrite andb_true_iff, bytes_eqb_spec, Z.eqb_eq. split; [intros Q; inversion Q; auto|intros (-> & ->); reflexivity].
Qed.
Lemma dst_refl d : dst_eqb d d = true. Proof. destruct (dstP d d); congruence. Qed.
Lemma krP r s : reflect (r = s) (kr_eqb r s).
Proof.
  apply iff_reflect. unfold kr_eqb. destruct r as [a b c d], s as [a' b' c' d']. cbn. rewrite !andb_true_iff, !Z.eqb_eq, bytes_eqb_spec.
  destruct (dstP a a'); split; intuition congruence.
Qed.
Lemma find_some_iff_ {A} (f : A -> bool) l x : find f l = Some x -> In x l /\ f x = true.
Proof. apply find_some. Qed.
Lemma filter_filter {A} (f g : A -> bool) l : filter f (filter g l) = filter (fun x => g x && f x) l.
Proof. induction l as [|x l IH]; [reflexivity|]. cbn [filter]. destruct (g x) eqn:G; cbn [filter andb]; [destruct (f x); now rewrite IH|exact IH]. Qed.
Lemma filter_same {A} (f g : A -> bool) l : (forall x, In x l -> f x = g x) -> filter f l = filter g l.
Proof. intros H. induction l as [|x l IH]; [reflexivity|]. cbn [filter]. rewrite (H x (or_introl eq_refl)). rewrite IH; [reflexivity|]. intros y Hy. apply H. now right. Qed.
Lemma filter_all {A} (f : A -> bool) l : (forall x, In x l -> f x = true) -> filter f l = l.
Proof. intros H. induction l as [|x l IH]; [reflexivity|]. cbn [filter]. rewrite (H x (or_introl eq_refl)). f_equal. apply IH. intros y Hy. apply H. now right. Qed.
Lemma filter_none {A} (f : A -> bool) l : (forall x, In x l -> f x = false) -> filter f l = [].
Proof. intros H. induction l as [|x l IH]; [reflexivity|]. cbn [filter]. rewrite (H x (or_introl eq_refl)). apply IH. intros y Hy. apply H. now right. Qed.

(** entries by destination *)
Lemma fe_some d l e : find_ent d l = Some e -> In e l /\ re_dst e = d.
Proof. intros H. apply find_some in H. destruct H as (A & B). split; [exact A|]. now destruct (dstP (re_dst e) d). Qed.
Lemma fe_none d l : find_ent d l = None <-> ~ In d (map re_dst l).
Proof.
  unfold find_ent. split.
  - intros H Q. apply in_map_iff in Q. destruct Q as (e & E & He). apply (find_none _ _ H) in He. rewrite E, dst_refl in He. discriminate.
  - intros H. destruct (find _ l) as [e|] eqn:F; [|reflexivity]. apply find_some in F. destruct F as (A & B). destruct (dstP (re_dst e) d); [|discriminate]. exfalso. apply H. subst d. now apply in_map.
Qed.
Lemma fe_in l e : NoDup (map re_dst l) -> In e l -> find_ent (re_dst e) l = Some e.
Proof.
  induction l as [|x l IH]; [intros _ []|]. cbn [map]. intros N H. apply NoDup_cons_iff in N. destruct N as (N1 & N2). unfold find_ent. cbn [find].
  destruct H as [->|H]; [now rewrite dst_refl|]. destruct (dstP (re_dst x) (re_dst e)) as [Q|Q]; [exfalso; apply N1; rewrite Q; now apply in_map|]. now apply IH.
Qed.
Lemma fe_cons d e l : find_ent d (e :: l) = if dst_eqb (re_dst e) d then Some e else find_ent d l.
Proof. reflexivity. Qed.
Lemma set_map e l : map re_dst (set_ent e l) = map re_dst l.
Proof. unfold set_ent. rewrite map_map. apply map_ext. intros x. destruct (dstP (re_dst x) (re_dst e)); congruence. Qed.
Lemma fe_set d e l : find_ent d (set_ent e l) = if dst_eqb (re_dst e) d then match find_ent d l with Some _ => Some e | None => None end else find_ent d l.
Proof.
  induction l as [|x l IH]; [now destruct (dst_eqb _ _)|]. cbn [set_ent map]. fold (set_ent e l). rewrite !fe_cons, IH.
  destruct (dstP (re_dst x) (re_dst e)) as [Q|Q].
  - rewrite Q. destruct (dst_eqb (re_dst e) d) eqn:D; reflexivity.
  - destruct (dstP (re_dst e) d) as [D|D]; [|reflexivity]. destruct (dstP (re_dst x) d) as [D'|D']; [congruence|reflexivity].
Qed.
Lemma fe_ins cf d e l : find_ent (re_dst e) l = None -> find_ent d (ins_ent cf e l) = if dst_eqb (re_dst e) d then Some e else find_ent d l.
Proof.
  induction l as [|x l IH]; [reflexivity|]. rewrite fe_cons. destruct (dstP (re_dst x) (re_dst e)) as [Q|Q]; [discriminate|]. intros H. cbn [ins_ent].
  destruct (cmp_dst cf (re_dst e) (re_dst x) <? 0); [reflexivity|]. rewrite !fe_cons, (IH H). destruct (dstP (re_dst x) d) as [D|D]; [|reflexivity]. destruct (dstP (re_dst e) d); [congruence|reflexivity].
Qed.
Lemma ins_nodup cf e l : find_ent (re_dst e) l = None -> NoDup (map re_dst l) -> NoDup (map re_dst (ins_ent cf e l)).
Proof.
  intros H N. apply fe_none in H. assert (P : Permutation (map re_dst (ins_ent cf e l)) (re_dst e :: map re_dst l)).
  { clear. induction l as [|x l IH]; [apply Permutation_refl|]. cbn [ins_ent]. destruct (_ <? 0); [apply Permutation_refl|]. cbn [map]. rewrite IH. apply perm_swap. }
  apply Permutation_sym in P. apply (Permutation_NoDup P). now constructor.
Qed.

(** paths by originator *)
Lemma fp_some o ps p : find_path o ps = Some p -> In p ps /\ rp_orig p = o.
Proof. intros H. apply find_some in H. destruct H as (A & B). split; [exact A|]. now destruct (beqP (rp_orig p) o). Qed.
Lemma fp_none o ps : find_path o ps = None <-> ~ In o (map rp_orig ps).
Proof.
  unfold find_path. split.
  - intros H Q. apply in_map_iff in Q. destruct Q as (e & E & He). apply (find_none _ _ H) in He. destruct (beqP (rp_orig e) o); congruence.
  - intros H. destruct (find _ ps) as [e|] eqn:F; [|reflexivity]. apply find_some in F. destruct F as (A & B). destruct (beqP (rp_orig e) o); [|discriminate]. exfalso. apply H. subst o. now apply in_map.
Qed.
Lemma fp_in ps p : NoDup (map rp_orig ps) -> In p ps -> find_path (rp_orig p) ps = Some p.
Proof.
  induction ps as [|x l IH]; [intros _ []|]. cbn [map]. intros N H. apply NoDup_cons_iff in N. destruct N as (N1 & N2). unfold find_path. cbn [find].
  destruct H as [->|H]; [destruct (beqP (rp_orig p) (rp_orig p)); congruence|]. destruct (beqP (rp_orig x) (rp_orig p)) as [Q|Q]; [exfalso; apply N1; rewrite Q; now apply in_map|]. now apply IH.
Qed.
Lemma insp_perm cf p l : Permutation (ins_path cf p l) (p :: l).
Proof. induction l as [|x l IH]; [apply Permutation_refl|]. cbn [ins_path]. destruct (_ <? 0); [apply Permutation_refl|]. rewrite IH. apply perm_swap. Qed.
Lemma nodup_filter {A B} (f : A -> B) g l : NoDup (map f l) -> NoDup (map f (filter g l)).
Proof.
  induction l as [|x l IH]; [auto|]. cbn [map filter]. intros N. apply NoDup_cons_iff in N. destruct N as (N1 & N2). destruct (g x); [|auto]. cbn [map]. constructor; [|auto].
  intros Q. apply N1. apply in_map_iff in Q. destruct Q as (y & E & Hy). apply filter_In in Hy. rewrite <- E. apply in_map. tauto.
Qed.
Lemma fp_filter o g ps p : NoDup (map rp_orig ps) -> find_path o ps = Some p -> g p = true -> find_path o (filter g ps) = Some p.
Proof. intros N H G. apply fp_some in H. destruct H as (A & B). subst o. apply fp_in; [now apply nodup_filter|]. now apply filter_In. Qed.

(** the kernel *)
Lemma routes_kadd cf r k d : routes (kadd cf r k) d = if dst_eqb (k_dst r) d then kadd cf r (routes k d) else routes k d.
Proof.
  unfold routes, kadd. rewrite filter_app. cbn [filter]. destruct (dstP (k_dst r) d) as [Q|Q].
  - rewrite !filter_filter. f_equal. apply filter_same. intros x _. now rewrite andb_comm.
  - rewrite app_nil_r, filter_filter. apply filter_same. intros x _. destruct (dstP (k_dst x) (k_dst r)) as [Q'|Q']; [|now rewrite !andb_false_r].
    rewrite Q'. destruct (dstP (k_dst r) d); [congruence|]. now rewrite andb_false_r.
Qed.
Lemma routes_kdel r k d : routes (kdel r k) d = if dst_eqb (k_dst r) d then kdel r (routes k d) else routes k d.
Proof.
  unfold routes, kdel. rewrite !filter_filter. destruct (dstP (k_dst r) d) as [Q|Q].
  - apply filter_same. intros x _. apply andb_comm.
  - apply filter_same. intros x _. destruct (krP x r) as [Q'|Q']; [|reflexivity]. subst x. destruct (dstP (k_dst r) d); [congruence|reflexivity].
Qed.
Lemma routes_dst k d r : In r (routes k d) -> k_dst r = d.
Proof. intros H. apply filter_In in H. destruct H as (_ & H). now destruct (dstP (k_dst r) d). Qed.

Lemma del_local cf acc e k d : routes (fst (delete_kernel_route cf acc e k)) d = if dst_eqb (re_dst e) d then fst (delete_kernel_route cf acc e (routes k d)) else routes k d.
Proof.
  unfold delete_kernel_route. destruct (_ && _); [now destruct (dst_eqb _ _)|]. destruct (acc false (re_dst e)); cbn [fst]; [apply (routes_kdel (stored cf e))|now destruct (dst_eqb _ _)].
Qed.
Lemma del_snd cf acc e k k' : snd (delete_kernel_route cf acc e k) = snd (delete_kernel_route cf acc e k').
Proof. unfold delete_kernel_route. destruct (_ && _); [reflexivity|]. now destruct (acc _ _). Qed.
Lemma add_local cf acc e k k' e' : add_kernel_route cf acc e k = Some (k', e') ->
  re_dst e' = re_dst e /\ add_kernel_route cf acc e (routes k (re_dst e)) = Some (routes k' (re_dst e), e') /\ forall d, d <> re_dst e -> routes k' d = routes k d.
Proof.
  unfold add_kernel_route. destruct (re_best e) as [o|]; [|discriminate]. destruct (find_path o (re_paths e)) as [p|]; [|discriminate].
  destruct (_ && _); [intros H; inversion H; subst; auto|]. destruct (acc true (re_dst e)); intros H; inversion H; subst; [|auto].
  split; [reflexivity|]. split; [rewrite routes_kadd; cbn [k_dst wanted]; now rewrite dst_refl|]. intros d Q. rewrite routes_kadd. cbn [k_dst wanted]. destruct (dstP (re_dst e) d); congruence.
Qed.
Lemma add_some cf acc e k : (exists o p, re_best e = Some o /\ find_path o (re_paths e) = Some p) -> exists r, add_kernel_route cf acc e k = Some r.
Proof. intros (o & p & B & F). unfold add_kernel_route. rewrite B, F. destruct (_ && _); [eauto|]. destruct (acc _ _); eauto. Qed.

(** the queue of changes: every entry is handled once, by itself *)
Definition chg1 (cf : rcfg) acc (e : rentry) (rts : list kroute) : option (list kroute * rentry) :=
  add_kernel_route cf acc e (if del_first cf && (re_iif e >? -1) then fst (delete_kernel_route cf acc e rts) else rts).
Definition hasbest (e : rentry) : Prop := exists o p, re_best e = Some o /\ find_path o (re_paths e) = Some p.

Lemma chg_ok cf acc c : forall l k, NoDup c -> (forall d, In d c -> exists e, find_ent d l = Some e /\ hasbest e) ->
  exists l' k', chg_kernel_routes cf acc c l k = Some (l', k') /\ map re_dst l' = map re_dst l /\
  (forall d, ~ In d c -> find_ent d l' = find_ent d l /\ routes k' d = routes k d) /\
  (forall d e, In d c -> find_ent d l = Some e -> exists e', chg1 cf acc e (routes k d) = Some (routes k' d, e') /\ find_ent d l' = Some e').
Proof.
  induction c as [|d c IH]; intros l k N H.
  - exists l, k. split; [reflexivity|]. split; [reflexivity|]. split; [auto|]. intros d e [].
  - apply NoDup_cons_iff in N. destruct N as (N1 & N2). destruct (H d (or_introl eq_refl)) as (e & Fe & He). cbn [chg_kernel_routes]. rewrite Fe. cbv zeta.
    set (k1 := if del_first cf && (re_iif e >? -1) then fst (delete_kernel_route cf acc e k) else k).
    destruct (add_some cf acc e k1 He) as ((k2, e2) & E). rewrite E. destruct (add_local _ _ _ _ _ _ E) as (D2 & L2 & O2). destruct (fe_some _ _ _ Fe) as (_ & De).
    assert (K1 : forall x, routes k1 x = if dst_eqb d x then (if del_first cf && (re_iif e >? -1) then fst (delete_kernel_route cf acc e (routes k x)) else routes k x) else routes k x).
    { intros x. unfold k1. destruct (_ && _); [rewrite del_local, De; reflexivity|now destruct (dst_eqb _ _)]. }
    destruct (IH (set_ent e2 l) k2 N2) as (l' & k' & R & M & A & B).
    { intros x Hx. destruct (H x (or_intror Hx)) as (ex & Fx & Bx). exists ex. rewrite fe_set, D2, De. destruct (dstP d x) as [Q|Q]; [subst x; contradiction|auto]. }
    exists l', k'. split; [exact R|]. split; [rewrite M; apply set_map|]. split.
    + intros x Hx. destruct (A x) as (A1 & A2); [intros Q; apply Hx; now right|]. rewrite A1, A2, fe_set, D2, De. destruct (dstP d x) as [Q|Q]; [exfalso; apply Hx; now left|]. split; [reflexivity|].
      rewrite O2 by congruence. rewrite K1. destruct (dstP d x); congruence.
    + intros x ex [<-|Hx] Fx.
      * assert (ex = e) by congruence. subst ex. destruct (A d N1) as (A1 & A2). exists e2. rewrite A1, A2, fe_set, D2, De, dst_refl, Fe. split; [|reflexivity].
        unfold chg1. rewrite De in L2. rewrite K1, dst_refl in L2. exact L2.
      * assert (Q : d <> x) by (intros ->; contradiction). destruct (B x ex Hx) as (e' & C1 & C2); [rewrite fe_set, D2, De; destruct (dstP d x); congruence|]. exists e'. split; [|exact C2].
        rewrite O2 in C1 by congruence. rewrite K1 in C1. destruct (dstP d x); [congruence|exact C1].
Qed.

(** the walk over the entries *)
Lemma enq_in gw d c x : In x (enqueue gw d c) <-> x = d \/ In x c.
Proof.
  unfold enqueue. destruct (existsb (dst_eqb d) c) eqn:E.
  - apply existsb_exists in E. destruct E as (y & Hy & Q). destruct (dstP d y); [subst y|discriminate]. split; [auto|]. intros [->|H]; auto.
  - destruct (bytes_eqb _ _); cbn [In]; [intuition congruence|]. rewrite in_app_iff. cbn [In]. intuition congruence.
Qed.
Lemma enq_nodup gw d c : NoDup c -> NoDup (enqueue gw d c).
Proof.
  intros N. unfold enqueue. destruct (existsb (dst_eqb d) c) eqn:E; [exact N|]. assert (Q : ~ In d c).
  { intros Q. assert (existsb (dst_eqb d) c = true); [|congruence]. apply existsb_exists. exists d. split; [exact Q|apply dst_refl]. }
  destruct (bytes_eqb _ _); [now constructor|]. apply (Permutation_NoDup (Permutation_cons_append c d)). now constructor.
Qed.
Definition setbest (e : rentry) (p : rpath) : rentry := mkRe (re_dst e) (re_paths e) (Some (rp_orig p)) (re_gw e) (re_iif e) (re_hops e) (re_cost e).
Definition wfp (n : nat) (e : rentry) : Prop := one_each n (re_paths e).

Lemma outdated_wfp n ver e : wfp n e -> wfp n (delete_outdated ver e).
Proof.
  intros (N & F). split; cbn [delete_outdated re_paths]; [now apply nodup_filter|]. rewrite Forall_forall in *. intros p Hp. apply filter_In in Hp. apply F. tauto.
Qed.
Lemma best_some cf g n e : wfp n e -> re_paths e <> [] -> exists p, best_of cf g e = Some p /\ In p (re_paths e) /\ forall q, In q (re_paths e) -> ~ preferred (eff_cost (cf_scale cf) (is_inetgw g (re_dst e))) q p.
Proof. intros W NE. destruct (rt_best_ok (cf_scale cf) (is_inetgw g (re_dst e)) n (re_paths e) W NE) as (p & E & B1 & B2). exists p. auto. Qed.

Lemma rib_ok cf acc ver n l : forall g k c, NoDup (map re_dst l) -> Forall (wfp n) l -> NoDup c ->
  exists l' g' k' c', update_rib cf acc ver l g k c = Some (l', g', k', c') /\ NoDup c' /\ NoDup (map re_dst l') /\ (forall d, In d (map re_dst l') -> In d (map re_dst l)) /\
  (forall d, find_ent d l = None -> find_ent d l' = None /\ routes k' d = routes k d /\ (In d c' <-> In d c)) /\
  (forall d e, find_ent d l = Some e -> let e1 := delete_outdated ver e in
     (re_paths e1 = [] /\ routes k' d = fst (delete_kernel_route cf acc e1 (routes k d)) /\
      find_ent d l' = (if snd (delete_kernel_route cf acc e1 (routes k d)) then None else Some e1) /\ (In d c' <-> In d c)) \/
     (exists gg p, best_of cf gg e1 = Some p /\ (forall o, snd d <> 0 -> (forall x, g = Some x -> snd (snd x) = 0) -> is_inetgw gg d o = false) /\
        In p (re_paths e1) /\ find_ent d l' = Some (setbest e1 p) /\ routes k' d = routes k d /\
        (In d c' <-> In d c \/ need_chg cf (setbest e1 p) p = true))) /\
  ((forall x, g = Some x -> snd (snd x) = 0) -> forall x, g' = Some x -> snd (snd x) = 0).
Proof.
  induction l as [|e l IH]; intros g k c N F C.
  - exists [], g, k, c. split; [reflexivity|]. split; [exact C|]. split; [constructor|]. split; [auto|]. split; [intros d _; repeat split; auto|]. split; [intros d e Q; discriminate Q|auto].
  - cbn [map] in N. apply NoDup_cons_iff in N. destruct N as (N1 & N2). pose proof (Forall_inv F) as Fe. apply Forall_inv_tail in F. cbn [update_rib]. cbv zeta.
    set (e1 := delete_outdated ver e). assert (D1 : re_dst e1 = re_dst e) by reflexivity. assert (We1 : wfp n e1) by now apply outdated_wfp.
    apply fe_none in N1.
    destruct (re_paths e1) as [|q0 qs] eqn:P1.
    + destruct (delete_kernel_route cf acc e1 k) as (k1, ok) eqn:DK.
      assert (K1 : forall x, routes k1 x = if dst_eqb (re_dst e) x then fst (delete_kernel_route cf acc e1 (routes k x)) else routes k x).
      { intros x. pose proof (del_local cf acc e1 k x) as Q. rewrite DK, D1 in Q. exact Q. }
      assert (OK : forall x, snd (delete_kernel_route cf acc e1 (routes k x)) = ok) by (intros x; rewrite (del_snd _ _ _ _ k), DK; reflexivity).
      destruct (IH g k1 c N2 F C) as (l' & g' & k' & c' & E & NC & NL & SB & A & B & G). rewrite E.
      exists (if ok then l' else e1 :: l'), g', k', c'. split; [reflexivity|]. split; [exact NC|]. destruct (A _ N1) as (A1 & A2 & A3). split.
      { destruct ok; [exact NL|]. cbn [map]. constructor; [|exact NL]. rewrite D1. now apply fe_none. }
      split. { intros d Hd. destruct ok; [right; now apply SB|]. destruct Hd as [<-|Hd]; [now left|right; now apply SB]. }
      split; [|split; [|exact G]].
      * intros d. rewrite fe_cons. destruct (dstP (re_dst e) d) as [Q|Q]; [discriminate|]. intros H. destruct (A d H) as (X1 & X2 & X3). rewrite X2, K1. destruct (dstP (re_dst e) d); [congruence|]. split; [|auto].
        destruct ok; [exact X1|]. rewrite fe_cons, D1. destruct (dstP (re_dst e) d); [congruence|exact X1].
      * intros d x. cbv zeta. set (e0 := delete_outdated ver x). rewrite fe_cons. destruct (dstP (re_dst e) d) as [Q|Q]; intros H.
        -- assert (x = e) by congruence. subst x d. left. subst e0. fold e1. split; [exact P1|]. split; [rewrite A2, K1, dst_refl; reflexivity|]. split; [|exact A3].
           rewrite OK. destruct ok; [exact A1|]. rewrite fe_cons, D1, dst_refl. reflexivity.
        -- assert (R : routes k1 d = routes k d) by (rewrite K1; destruct (dstP (re_dst e) d); congruence).
           assert (FL : find_ent d (if ok then l' else e1 :: l') = find_ent d l'). { destruct ok; [reflexivity|]. rewrite fe_cons, D1. destruct (dstP (re_dst e) d); [congruence|reflexivity]. }
           pose proof (B d x H) as Y. cbv zeta in Y. fold e0 in Y. rewrite R in Y. rewrite FL. exact Y.
    + destruct (best_some cf g n e1 We1 ltac:(congruence)) as (p & Bp & Ip & _). rewrite Bp.
      change (mkRe (re_dst e1) (q0 :: qs) (Some (rp_orig p)) (re_gw e1) (re_iif e1) (re_hops e1) (re_cost e1)) with (mkRe (re_dst e1) (q0 :: qs) (Some (rp_orig p)) (re_gw e1) (re_iif e1) (re_hops e1) (re_cost e1)).
      replace (mkRe (re_dst e1) (q0 :: qs) (Some (rp_orig p)) (re_gw e1) (re_iif e1) (re_hops e1) (re_cost e1)) with (setbest e1 p) by (unfold setbest; rewrite P1; reflexivity).
      set (e2 := setbest e1 p). set (g1 := if snd (re_dst e1) =? 0 then Some (rp_orig p, re_dst e1) else g). set (c1 := if need_chg cf e2 p then enqueue (rp_gw p) (re_dst e1) c else c).
      assert (C1 : NoDup c1) by (unfold c1; destruct (need_chg cf e2 p); [now apply enq_nodup|exact C]).
      assert (IC : forall x, In x c1 <-> In x c \/ (x = re_dst e /\ need_chg cf e2 p = true)).
      { intros x. unfold c1. destruct (need_chg cf e2 p); [rewrite enq_in, D1; intuition congruence|intuition congruence]. }
      assert (Gg : (forall x, g = Some x -> snd (snd x) = 0) -> forall x, g1 = Some x -> snd (snd x) = 0).
      { intros Hg x. unfold g1. destruct (Z.eqb_spec (snd (re_dst e1)) 0) as [Z0|Z0]; [|apply Hg]. intros Q. inversion Q; subst. exact Z0. }
      destruct (IH g1 k c1 N2 F C1) as (l' & g' & k' & c' & E & NC & NL & SB & A & B & G). rewrite E.
      exists (e2 :: l'), g', k', c'. split; [reflexivity|]. split; [exact NC|]. destruct (A _ N1) as (A1 & A2 & A3). split.
      { cbn [map]. constructor; [|exact NL]. change (re_dst e2) with (re_dst e). now apply fe_none. }
      split. { intros d [<-|Hd]; [now left|right; now apply SB]. }
      split; [|split; [|auto]].
      * intros d. rewrite fe_cons. destruct (dstP (re_dst e) d) as [Q|Q]; [discriminate|]. intros H. destruct (A d H) as (X1 & X2 & X3). rewrite fe_cons. change (re_dst e2) with (re_dst e). destruct (dstP (re_dst e) d); [congruence|].
        split; [exact X1|]. split; [exact X2|]. rewrite X3, IC. split; [intros [?|(? & _)]; [auto|congruence]|auto].
      * intros d x. cbv zeta. set (e0 := delete_outdated ver x). rewrite fe_cons. destruct (dstP (re_dst e) d) as [Q|Q]; intros H.
        -- assert (x = e) by congruence. subst x d. right. exists g, p. subst e0. fold e1. split; [exact Bp|]. split.
           { intros o Hs Hg. unfold is_inetgw. destruct g as [(o', d')|]; [|reflexivity]. specialize (Hg _ eq_refl). cbn in Hg. destruct (dstP (re_dst e) d') as [Q|Q]; [congruence|apply andb_false_r]. }
           split; [rewrite P1 in Ip |- *; exact Ip|]. split; [rewrite fe_cons; change (re_dst e2) with (re_dst e); now rewrite dst_refl|]. split; [exact A2|]. rewrite A3, IC. fold e2. intuition congruence.
        -- assert (FL : find_ent d (e2 :: l') = find_ent d l'). { rewrite fe_cons. change (re_dst e2) with (re_dst e). destruct (dstP (re_dst e) d); [congruence|reflexivity]. }
           pose proof (B d x H) as Y. cbv zeta in Y. fold e0 in Y. rewrite FL. assert (IC' : In d c1 <-> In d c) by (rewrite IC; intuition congruence).
           destruct Y as [(Y1 & Y2 & Y3 & Y4)|(gg & p' & Y1 & Y2 & Y3 & Y4 & Y5 & Y6)]; [left|right; exists gg, p'].
           ++ rewrite IC' in Y4. auto.
           ++ rewrite IC' in Y6. split; [exact Y1|]. split; [intros o Hs Hg; apply Y2; auto|]. auto.
Qed.

(** one whole update *)
Definition nogw (g : option (list Z * (list Z * Z))) : Prop := forall x, g = Some x -> snd (snd x) = 0.
Definition wfe0 (n : nat) (cf : rcfg) (e : rentry) : Prop :=
  one_each n (re_paths e) /\ (forall p, In p (re_paths e) -> 0 <= rp_iif p) /\ snd (re_dst e) <= cf_maxplen cf /\
  (forall o, re_best e = Some o -> exists p, find_path o (re_paths e) = Some p).
Definition wfe (n : nat) (cf : rcfg) (ver : Z) (e : rentry) : Prop := wfe0 n cf e /\ forall p, In p (re_paths e) -> rp_ver p = ver.

Definition outcome (cf : rcfg) acc (e1 : rentry) (rts : list kroute) (eo : option rentry) (rts' : list kroute) : Prop :=
  (re_paths e1 = [] /\ rts' = fst (delete_kernel_route cf acc e1 rts) /\ eo = (if snd (delete_kernel_route cf acc e1 rts) then None else Some e1)) \/
  (exists gg p, best_of cf gg e1 = Some p /\ (forall o, snd (re_dst e1) <> 0 -> is_inetgw gg (re_dst e1) o = false) /\ In p (re_paths e1) /\
     (if need_chg cf (setbest e1 p) p then exists e', chg1 cf acc (setbest e1 p) rts = Some (rts', e') /\ eo = Some e'
      else rts' = rts /\ eo = Some (setbest e1 p))).

Lemma outdated_wfe n cf ver e : wfe0 n cf e -> wfe n cf ver (delete_outdated ver e).
Proof.
  intros (O & I & M & B). unfold delete_outdated. split; [split; [|split; [|split]]|]; cbn [re_paths re_dst re_best].
  - apply (outdated_wfp n ver e O).
  - intros p Hp. apply filter_In in Hp. apply I. tauto.
  - exact M.
  - intros o. destruct (re_best e) as [b|]; [|discriminate]. destruct (B b eq_refl) as (p & Fp). rewrite Fp. destruct (rp_ver p =? ver) eqn:V; [|discriminate]. intros Q. inversion Q; subst. exists p. apply fp_filter; [apply O|exact Fp|exact V].
  - intros p Hp. apply filter_In in Hp. lia.
Qed.
Lemma setbest_wfe n cf ver e p : wfe n cf ver e -> In p (re_paths e) -> wfe n cf ver (setbest e p).
Proof. intros ((O & I & M & B) & V) Hp. split; [split; [exact O|split; [exact I|split; [exact M|]]]|exact V]. cbn [setbest re_best re_paths]. intros o Q. inversion Q; subst. exists p. apply fp_in; [apply O|exact Hp]. Qed.
Lemma chg1_same cf acc e rts rts' e' : chg1 cf acc e rts = Some (rts', e') -> re_dst e' = re_dst e /\ re_paths e' = re_paths e /\ re_best e' = re_best e.
Proof.
  unfold chg1, add_kernel_route. destruct (re_best e) as [o|] eqn:Bo; [|discriminate]. destruct (find_path o (re_paths e)) as [p|]; [|discriminate].
  destruct (_ && is_linklocal _ _); [intros H; inversion H; subst; auto|]. destruct (acc true (re_dst e)); intros H; inversion H; subst; cbn; auto.
Qed.

Lemma upd_ok cf acc n s : NoDup (map re_dst (rs_ents s)) -> Forall (wfe0 n cf) (rs_ents s) -> nogw (rs_inetgw s) ->
  exists s', update_routes cf acc s = Some s' /\ rs_ver s' = rs_ver s /\ NoDup (map re_dst (rs_ents s')) /\ nogw (rs_inetgw s') /\ Forall (wfe n cf (rs_ver s)) (rs_ents s') /\
  (forall d, find_ent d (rs_ents s) = None -> find_ent d (rs_ents s') = None /\ routes (rs_kern s') d = routes (rs_kern s) d) /\
  (forall d e, find_ent d (rs_ents s) = Some e -> outcome cf acc (delete_outdated (rs_ver s) e) (routes (rs_kern s) d) (find_ent d (rs_ents s')) (routes (rs_kern s') d)).
Proof.
  intros N W G. unfold update_routes.
  destruct (rib_ok cf acc (rs_ver s) n (rs_ents s) (rs_inetgw s) (rs_kern s) [] N) as (l & g & k & c & E & NC & NL & SB & A & B & GG); [eapply Forall_impl; [|exact W]; intros e H; apply H|constructor|].
  rewrite E.
  assert (HB : forall d, In d c -> exists e, find_ent d l = Some e /\ hasbest e).
  { intros d Hd. destruct (find_ent d (rs_ents s)) as [e|] eqn:Fe; [|apply A in Fe; destruct Fe as (_ & _ & Q); apply Q in Hd; destruct Hd].
    destruct (B d e Fe) as [(_ & _ & _ & Q)|(gg & p & Bp & _ & Ip & Fl & _ & _)]; [apply Q in Hd; destruct Hd|].
    exists (setbest (delete_outdated (rs_ver s) e) p). split; [exact Fl|]. exists (rp_orig p), p. split; [reflexivity|]. apply fp_in; [|exact Ip].
    apply fe_some in Fe. destruct Fe as (Fe & _). rewrite Forall_forall in W. apply nodup_filter. apply (W e Fe). }
  destruct (chg_ok cf acc c l k NC HB) as (l' & k' & R & M & O1 & O2). rewrite R. eexists. split; [reflexivity|]. cbn [rs_ver rs_ents rs_kern rs_inetgw].
  split; [reflexivity|]. assert (NL' : NoDup (map re_dst l')) by (rewrite M; exact NL). split; [exact NL'|]. split; [exact (GG G)|].
  assert (P1 : forall d, find_ent d (rs_ents s) = None -> find_ent d l' = None /\ routes k' d = routes (rs_kern s) d).
  { intros d Fe. destruct (A d Fe) as (A1 & A2 & A3). assert (Q : ~ In d c) by tauto. destruct (O1 d Q) as (X & Y). rewrite X, Y. auto. }
  assert (P2 : forall d e, find_ent d (rs_ents s) = Some e -> outcome cf acc (delete_outdated (rs_ver s) e) (routes (rs_kern s) d) (find_ent d l') (routes k' d)).
  { intros d e Fe. destruct (fe_some _ _ _ Fe) as (_ & De). destruct (B d e Fe) as [(B1 & B2 & B3 & B4)|(gg & p & Bp & Bg & Ip & Fl & Rk & Ic)]; [left|right].
    - assert (Q : ~ In d c) by tauto. destruct (O1 d Q) as (X & Y). rewrite X, Y. auto.
    - exists gg, p. split; [exact Bp|]. split; [cbn [delete_outdated re_dst]; rewrite De; intros o Hs; apply Bg; auto|]. split; [exact Ip|].
      destruct (need_chg cf (setbest (delete_outdated (rs_ver s) e) p) p) eqn:NE.
      + assert (Q : In d c) by (apply Ic; auto). destruct (O2 d _ Q Fl) as (e' & X & Y). exists e'. rewrite <- Rk. auto.
      + assert (Q : ~ In d c) by (intros Q; apply Ic in Q; destruct Q as [[]|Q]; congruence). destruct (O1 d Q) as (X & Y). rewrite X, Y, Fl. auto. }
  split; [|split; [exact P1|exact P2]].
  apply Forall_forall. intros e' He'. pose proof (fe_in l' e' NL' He') as Fe'. destruct (find_ent (re_dst e') (rs_ents s)) as [e|] eqn:Fe; [|apply P1 in Fe; destruct Fe; congruence].
  assert (We : wfe n cf (rs_ver s) (delete_outdated (rs_ver s) e)). { apply outdated_wfe. apply fe_some in Fe. destruct Fe as (Fe & _). rewrite Forall_forall in W. now apply W. }
  destruct (P2 _ _ Fe) as [(_ & _ & Q)|(gg & p & Bp & _ & Ip & Q)].
  - rewrite Fe' in Q. destruct (snd _) in Q; [discriminate|]. inversion Q; subst. exact We.
  - pose proof (setbest_wfe _ _ _ _ p We Ip) as Wb. destruct (need_chg _ _ _).
    + destruct Q as (x & X & Y). assert (x = e') by congruence. subst x. destruct (chg1_same _ _ _ _ _ _ X) as (S1 & S2 & S3). unfold wfe, wfe0 in *. rewrite S1, S2, S3. exact Wb.
    + destruct Q as (_ & Q). rewrite Fe' in Q. inversion Q; subst. exact Wb.
Qed.

(** what one update does for one destination *)
Definition nll (cf : rcfg) (d : list Z * Z) : Prop := is_linklocal (cf_v6 cf) (fst d) = false.
Definition LI (cf : rcfg) (eo : option rentry) (rts : list kroute) : Prop :=
  match eo with None => rts = [] | Some e => rts = if re_iif e >? -1 then [stored cf e] else [] end.
(** the entry and its kernel routes before the update *)
Definition pre (cf : rcfg) (e : rentry) (rts : list kroute) : Prop :=
  LI cf (Some e) rts \/ (rts = [] /\ forall p, In p (re_paths e) -> rp_iif p <> re_iif e).
(** the entry has what path [p] offers *)
Definition has (cf : rcfg) (e' : rentry) (p : rpath) : Prop :=
  re_best e' = Some (rp_orig p) /\ re_gw e' = rp_gw p /\ re_iif e' = rp_iif p /\ (cf_fib cf = CORRECT -> re_hops e' = rp_hops p).

Lemma chg1_val cf acc e p rts n : one_each n (re_paths e) -> In p (re_paths e) -> nll cf (re_dst e) ->
  chg1 cf acc (setbest e p) rts =
  let k1 := if del_first cf && (re_iif e >? -1) then (if acc false (re_dst e) then kdel (stored cf e) rts else rts) else rts in
  if acc true (re_dst e) then Some (kadd cf (wanted cf (re_dst e) p) k1, mkRe (re_dst e) (re_paths e) (Some (rp_orig p)) (rp_gw p) (rp_iif p) (rp_hops p) (rp_cost p))
  else Some (k1, setbest e p).
Proof.
  intros (N & _) Ip L. unfold chg1, add_kernel_route, delete_kernel_route. cbn [setbest re_best re_paths re_dst re_iif re_hops]. rewrite (fp_in _ _ N Ip). unfold nll in L. rewrite L, !andb_false_r. cbv zeta.
  change (stored cf (setbest e p)) with (stored cf e). destruct (acc false (re_dst e)); cbn [fst]; reflexivity.
Qed.
Lemma kdel_one r : kdel r [r] = [].
Proof. unfold kdel. cbn. destruct (krP r r); [reflexivity|congruence]. Qed.
Lemma del_val cf acc e rts : nll cf (re_dst e) -> delete_kernel_route cf acc e rts = if acc false (re_dst e) then (kdel (stored cf e) rts, true) else (rts, false).
Proof. intros L. unfold delete_kernel_route. unfold nll in L. now rewrite L, andb_false_r. Qed.

(** the kernel replaces, or old routes are deleted first *)
Definition sane (cf : rcfg) : Prop := cf_rep cf = true \/ del_first cf = true.

Lemma local_acc cf acc n e rts eo rts' : sane cf -> accepts acc -> wfp n e -> nll cf (re_dst e) -> (forall p, In p (re_paths e) -> 0 <= rp_iif p) -> pre cf e rts -> outcome cf acc e rts eo rts' ->
  (re_paths e = [] /\ eo = None /\ rts' = []) \/
  (exists gg p e', best_of cf gg e = Some p /\ (forall o, snd (re_dst e) <> 0 -> is_inetgw gg (re_dst e) o = false) /\ In p (re_paths e) /\ eo = Some e' /\ re_paths e' = re_paths e /\ re_dst e' = re_dst e /\ has cf e' p /\ rts' = [stored cf e']).
Proof.
  intros SN AC O L I P H. destruct H as [(E & R1 & R2)|(gg & p & Bp & Bg & Ip & H)]; [left|right].
  - split; [exact E|]. rewrite (del_val _ _ _ _ L), AC in R1, R2. cbn in R1, R2. split; [exact R2|]. rewrite R1. destruct P as [P|(P & _)]; cbn [LI] in P; rewrite P; [|reflexivity]. destruct (_ >? _); [apply kdel_one|reflexivity].
  - exists gg, p. rewrite (chg1_val cf acc e p rts n O Ip L) in H. cbv zeta in H. rewrite !AC in H. specialize (I p Ip).
    destruct (need_chg cf (setbest e p) p) eqn:NE.
    + destruct H as (e' & H1 & H2). exists e'. inversion H1 as [[H3 H4]]. rewrite H4. split; [exact Bp|]. split; [exact Bg|]. split; [exact Ip|]. split; [exact H2|]. rewrite <- H4. split; [reflexivity|]. split; [reflexivity|]. split; [split; [reflexivity|]; split; [reflexivity|]; split; reflexivity|].
      unfold kadd. change (stored cf (mkRe (re_dst e) (re_paths e) (Some (rp_orig p)) (rp_gw p) (rp_iif p) (rp_hops p) (rp_cost p))) with (wanted cf (re_dst e) p).
      rewrite filter_none; [reflexivity|]. intros r Hr. destruct (del_first cf) eqn:DF.
      * exfalso. destruct P as [P|(P & _)]; cbn [LI] in P; rewrite P in Hr; cbn [andb] in Hr; destruct (re_iif e >? -1); try rewrite kdel_one in Hr; destruct Hr.
      * cbn [andb] in Hr. destruct SN as [SN|SN]; [|congruence]. rewrite SN. destruct P as [P|(P & _)]; cbn [LI] in P; rewrite P in Hr; [|destruct Hr]. destruct (re_iif e >? -1); [|destruct Hr]. destruct Hr as [<-|[]].
        cbn [stored wanted k_dst k_metric]. rewrite dst_refl. unfold del_first in DF. apply orb_false_iff in DF. destruct DF as (_ & DF). unfold kmetric. destruct (cf_fib cf); try discriminate. rewrite Z.eqb_refl. reflexivity.
    + destruct H as (-> & ->). exists (setbest e p). unfold need_chg in NE. rewrite !orb_false_iff, !negb_false_iff in NE. destruct NE as ((N1 & N2) & N3). cbn [setbest re_gw re_iif re_hops] in N1, N2, N3. apply bytes_eqb_spec in N1. apply Z.eqb_eq in N2.
      split; [exact Bp|]. split; [exact Bg|]. split; [exact Ip|]. split; [reflexivity|]. split; [reflexivity|]. split; [reflexivity|]. split; [split; [reflexivity|]; cbn [setbest re_gw re_iif re_hops]; split; [auto|]; split; [auto|]|].
      * intros Q. rewrite Q in N3. lia.
      * destruct P as [P|(P & Q)]; [|exfalso; apply (Q p Ip); exact N2]. cbn [LI] in P. rewrite P. replace (re_iif e >? -1) with true by lia. reflexivity.
Qed.

(** with replacing and flat metric a refusal leaves the stored route valid *)
Lemma local_rej cf acc n e rts eo rts' : cf_rep cf = true -> del_first cf = false -> wfp n e -> nll cf (re_dst e) -> (forall p, In p (re_paths e) -> 0 <= rp_iif p) -> LI cf (Some e) rts -> outcome cf acc e rts eo rts' -> LI cf eo rts'.
Proof.
  intros RP DF O L I P H. destruct H as [(E & R1 & R2)|(gg & p & Bp & Bg & Ip & H)].
  - rewrite (del_val _ _ _ _ L) in R1, R2. cbn [LI] in P. destruct (acc false (re_dst e)); cbn [fst snd] in R1, R2; subst eo rts'; cbn [LI]; [rewrite P; destruct (_ >? _); [apply kdel_one|reflexivity]|exact P].
  - rewrite (chg1_val cf acc e p rts n O Ip L), DF in H. cbn [andb] in H. cbv zeta in H. specialize (I p Ip). destruct (need_chg cf (setbest e p) p).
    + destruct H as (e' & H1 & H2). subst eo. destruct (acc true (re_dst e)); inversion H1; subst; [|exact P]. cbn [LI re_iif]. replace (rp_iif p >? -1) with true by lia.
      change (stored cf (mkRe (re_dst e) (re_paths e) (Some (rp_orig p)) (rp_gw p) (rp_iif p) (rp_hops p) (rp_cost p))) with (wanted cf (re_dst e) p). unfold kadd.
      rewrite filter_none; [reflexivity|]. intros r Hr. cbn [LI] in P. rewrite P in Hr. destruct (re_iif e >? -1); [|destruct Hr]. destruct Hr as [<-|[]]. rewrite RP. cbn [stored wanted k_dst k_metric]. rewrite dst_refl.
      unfold del_first in DF. apply orb_false_iff in DF. destruct DF as (_ & DF). unfold kmetric. destruct (cf_fib cf); try discriminate. rewrite Z.eqb_refl. reflexivity.
    + destruct H as (-> & ->). exact P.
Qed.

(** the results of the calculation enter the table *)
Definition same_stored (e e' : rentry) : Prop := re_gw e' = re_gw e /\ re_iif e' = re_iif e /\ re_hops e' = re_hops e /\ re_dst e' = re_dst e /\ re_best e' = re_best e.
Definition got (l' : list rentry) (ver : Z) (d : list Z * Z) (p : rpath) : Prop := exists e', find_ent d l' = Some e' /\ In p (re_paths e') /\ rp_ver p = ver.

Lemma find_ent_self d l e e' : find_ent d l = Some e -> re_dst e' = re_dst e -> find_ent d (set_ent e' l) = Some e' /\ forall x, x <> d -> find_ent x (set_ent e' l) = find_ent x l.
Proof.
  intros F D. destruct (fe_some _ _ _ F) as (_ & De). split; [|intros x Q]; rewrite fe_set, D, De; [rewrite dst_refl, F; reflexivity|]. destruct (dstP d x); congruence.
Qed.
Lemma set_Forall (Q : rentry -> Prop) e l : Forall Q l -> Q e -> Forall Q (set_ent e l).
Proof. intros F H. unfold set_ent. apply Forall_forall. intros x Hx. apply in_map_iff in Hx. destruct Hx as (y & E & Hy). rewrite Forall_forall in F. destruct (dst_eqb _ _); subst; auto. Qed.
Lemma ins_Forall cf (Q : rentry -> Prop) e l : Forall Q l -> Q e -> Forall Q (ins_ent cf e l).
Proof. intros F H. induction l as [|x l IH]; [now constructor|]. cbn [ins_ent]. destruct (_ <? 0); [now constructor|]. constructor; [now apply Forall_inv in F|apply IH; now apply Forall_inv_tail in F]. Qed.

Lemma repl_in o p ps x : rp_orig p = o -> NoDup (map rp_orig ps) ->
  (In x (map (fun q => if bytes_eqb (rp_orig q) o then p else q) ps) <-> (x = p /\ In o (map rp_orig ps)) \/ (In x ps /\ rp_orig x <> o)).
Proof.
  intros Op N. rewrite in_map_iff. split.
  - intros (q & E & Hq). destruct (beqP (rp_orig q) o) as [B|B]; [left|right]; [split; [auto|]; rewrite <- B; now apply in_map|subst; auto].
  - intros [(-> & H)|(H & B)].
    + apply in_map_iff in H. destruct H as (q & E & Hq). exists q. split; [destruct (beqP (rp_orig q) o); congruence|exact Hq].
    + exists x. split; [destruct (beqP (rp_orig x) o); congruence|exact H].
Qed.
Lemma repl_orig o p ps : rp_orig p = o -> map rp_orig (map (fun q => if bytes_eqb (rp_orig q) o then p else q) ps) = map rp_orig ps.
Proof. intros E. rewrite map_map. apply map_ext. intros q. destruct (beqP (rp_orig q) o); congruence. Qed.
Lemma wf_init n rs r : wf_results n (rs ++ [r]) -> wf_results n rs /\ (length (rr_orig r) = n /\ 0 <= rr_iif r /\ rr_cost r < 2 ^ 32 - 1) /\ forall r', In r' rs -> rr_orig r' = rr_orig r -> rr_dst r' <> rr_dst r.
Proof.
  intros (N & F). rewrite map_app in N. apply Forall_app in F. destruct F as (F1 & F2). apply Forall_inv in F2. cbn [map] in N.
  split; [split; [|exact F1]|split; [exact F2|]].
  - apply (NoDup_remove_1 _ [] _) in N. now rewrite app_nil_r in N.
  - intros r' H E D. apply (NoDup_remove_2 _ [] _) in N. apply N. rewrite app_nil_r. rewrite <- E, <- D. apply (in_map (fun r => (rr_orig r, rr_dst r)) rs r' H).
Qed.

Lemma apply_ok cf n v0 ver l rs : NoDup (map re_dst l) -> Forall (wfe n cf v0) l -> ver <> v0 -> wf_results n rs ->
  let l' := fold_left (apply_result cf ver) rs l in
  NoDup (map re_dst l') /\ Forall (wfe0 n cf) l' /\
  (forall d e, find_ent d l = Some e -> exists e', find_ent d l' = Some e' /\ same_stored e e') /\
  (forall d e', find_ent d l = None -> find_ent d l' = Some e' -> re_iif e' = -1 /\ re_best e' = None) /\
  (forall d p, got l' ver d p <-> exists r, In r rs /\ rr_dst r = d /\ snd d <= cf_maxplen cf /\ p = path_of ver r).
Proof.
  intros N W V. induction rs as [|r rs IH] using rev_ind; intros WR.
  - cbv zeta. cbn [fold_left]. split; [exact N|]. split; [eapply Forall_impl; [|exact W]; intros e H; apply H|]. split; [intros d e H; exists e; split; [exact H|repeat split]|]. split; [congruence|].
    intros d p. split; [|intros (r & [] & _)]. intros (e' & F & I & E). apply fe_some in F. destruct F as (F & _). rewrite Forall_forall in W. apply W in F. apply F in I. congruence.
  - destruct (wf_init n rs r WR) as (WR1 & (Lr & Ir & Cr) & NR). specialize (IH WR1). cbv zeta in IH |- *. rewrite fold_left_app. cbn [fold_left]. set (l1 := fold_left (apply_result cf ver) rs l) in *.
    destruct IH as (N1 & W1 & S1 & S2 & G1). assert (Cr' : rr_cost r >=? 4294967295 = false) by lia. set (d0 := rr_dst r). set (p0 := path_of ver r). assert (O0 : rp_orig p0 = rr_orig r) by reflexivity.
    (* nobody of this originator has been seen *)
    assert (FRESH : forall e p, find_ent d0 l1 = Some e -> In p (re_paths e) -> rp_ver p = ver -> rp_orig p <> rr_orig r).
    { intros e p F I E Q. assert (X : got l1 ver d0 p) by (exists e; auto). apply G1 in X. destruct X as (r' & R1 & R2 & _ & R3). apply (NR r' R1); [rewrite <- Q, R3; reflexivity|exact R2]. }
    assert (GOTX : forall l2 d, (forall x, x <> d0 -> find_ent x l2 = find_ent x l1) -> d <> d0 -> forall p, got l2 ver d p <-> exists r', In r' (rs ++ [r]) /\ rr_dst r' = d /\ snd d <= cf_maxplen cf /\ p = path_of ver r').
    { intros l2 d H2 Q p. assert (X : got l2 ver d p <-> got l1 ver d p) by (unfold got; rewrite (H2 d Q); reflexivity). rewrite X, G1. split; intros (r' & R1 & R2); exists r'; (split; [|exact R2]).
      - apply in_or_app. auto.
      - apply in_app_or in R1. destruct R1 as [R1|[<-|[]]]; [exact R1|]. destruct R2 as (R2 & _). exfalso. apply Q. symmetry. exact R2. }
    unfold apply_result. fold d0 p0. rewrite Cr'. cbn [orb]. destruct (find_ent d0 l1) as [e|] eqn:Fe.
    + destruct (fe_some _ _ _ Fe) as (Ie & De). pose proof W1 as W1'. rewrite Forall_forall in W1'. pose proof (W1' e Ie) as ((On & Ol) & Oi & Om & Ob). rewrite De in Om.
      assert (PL : snd d0 >? cf_maxplen cf = false) by lia. rewrite PL.
      (* both cases put a new list of paths into the entry *)
      assert (MAIN : forall ps, (forall x, In x ps <-> x = p0 \/ (In x (re_paths e) /\ rp_orig x <> rr_orig r)) -> NoDup (map rp_orig ps) ->
        let l2 := set_ent (with_paths e ps) l1 in
        NoDup (map re_dst l2) /\ Forall (wfe0 n cf) l2 /\
        (forall d e, find_ent d l = Some e -> exists e', find_ent d l2 = Some e' /\ same_stored e e') /\
        (forall d e', find_ent d l = None -> find_ent d l2 = Some e' -> re_iif e' = -1 /\ re_best e' = None) /\
        (forall d p, got l2 ver d p <-> exists r', In r' (rs ++ [r]) /\ rr_dst r' = d /\ snd d <= cf_maxplen cf /\ p = path_of ver r')).
      { intros ps PS NP l2. destruct (find_ent_self d0 l1 e (with_paths e ps) Fe eq_refl) as (X1 & X2). fold l2 in X1, X2.
        split; [unfold l2; rewrite set_map; exact N1|]. split.
        { apply set_Forall; [exact W1|]. split; [split|split; [|split]]; cbn [with_paths re_paths re_dst re_best].
          - exact NP.
          - apply Forall_forall. intros x Hx. apply PS in Hx. rewrite Forall_forall in Ol. destruct Hx as [->|(Hx & _)]; [exact Lr|now apply Ol].
          - intros x Hx. apply PS in Hx. destruct Hx as [->|(Hx & _)]; [exact Ir|now apply Oi].
          - rewrite De. exact Om.
          - intros o Ho. destruct (Ob o Ho) as (q & Fq). destruct (find_path o ps) as [q'|] eqn:Fq'; [eauto|]. apply fp_none in Fq'. exfalso. apply Fq'. apply fp_some in Fq. destruct Fq as (Iq & Oq).
            destruct (beqP o (rr_orig r)) as [B|B]; [rewrite B, <- O0; apply in_map; apply PS; auto|]. rewrite <- Oq. apply in_map. apply PS. right. split; [exact Iq|congruence]. }
        split.
        { intros d x Hx. destruct (S1 d x Hx) as (e' & F' & SS). destruct (dstP d d0) as [Q|Q]; [|exists e'; rewrite X2 by exact Q; auto]. subst d. exists (with_paths e ps). split; [exact X1|]. assert (e' = e) by congruence. subst e'. exact SS. }
        split.
        { intros d e' Hn He'. destruct (dstP d d0) as [Q|Q]; [|rewrite X2 in He' by exact Q; now apply (S2 d)]. subst d. rewrite X1 in He'. inversion He'; subst e'. cbn [with_paths re_iif re_best]. now apply (S2 d0). }
        intros d p. destruct (dstP d d0) as [Q|Q]; [subst d|now apply GOTX]. split.
        - intros (e' & F' & I' & E'). rewrite X1 in F'. inversion F'; subst e'. cbn [with_paths re_paths] in I'. apply PS in I'. destruct I' as [->|(I' & _)].
          + exists r. split; [apply in_or_app; right; now left|]. split; [reflexivity|]. split; [exact Om|reflexivity].
          + assert (Y : got l1 ver d0 p) by (exists e; auto). apply G1 in Y. destruct Y as (r' & R1 & R2). exists r'. split; [apply in_or_app; now left|exact R2].
        - intros (r' & R1 & R2 & R3 & R4). exists (with_paths e ps). split; [exact X1|]. cbn [with_paths re_paths]. split; [|rewrite R4; reflexivity]. apply PS. apply in_app_or in R1. destruct R1 as [R1|[<-|[]]]; [|left; exact R4].
          assert (Y : got l1 ver d0 p) by (apply G1; exists r'; auto). destruct Y as (e' & F' & I' & E'). assert (e' = e) by congruence. subst e'. right. split; [exact I'|]. now apply (FRESH e). }
      destruct (find_path (rr_orig r) (re_paths e)) as [q|] eqn:Fq.
      * apply MAIN; [|rewrite repl_orig by exact O0; exact On]. intros x. rewrite (repl_in _ _ _ _ O0 On). apply fp_some in Fq. destruct Fq as (Iq & Oq). assert (In (rr_orig r) (map rp_orig (re_paths e))) by (rewrite <- Oq; now apply in_map). tauto.
      * apply fp_none in Fq. apply MAIN.
        -- intros x. split.
           ++ intros Hx. apply (Permutation_in _ (insp_perm cf p0 (re_paths e))) in Hx. destruct Hx as [<-|Hx]; [auto|]. right. split; [exact Hx|]. intros Q. apply Fq. rewrite <- Q. now apply in_map.
           ++ intros Hx. apply (Permutation_in _ (Permutation_sym (insp_perm cf p0 (re_paths e)))). destruct Hx as [->|(Hx & _)]; [now left|now right].
        -- apply (Permutation_NoDup (Permutation_sym (Permutation_map rp_orig (insp_perm cf p0 (re_paths e))))). cbn [map]. constructor; [exact Fq|exact On].
    + assert (FN : find_ent d0 l = None). { destruct (find_ent d0 l) as [x|] eqn:X; [|reflexivity]. destruct (S1 d0 x X) as (e' & F' & _). congruence. }
      destruct (Z.gtb_spec (snd d0) (cf_maxplen cf)) as [PL|PL].
      * split; [exact N1|]. split; [exact W1|]. split; [exact S1|]. split; [exact S2|]. intros d p. destruct (dstP d d0) as [Q|Q]; [subst d|now apply GOTX]. split.
        -- intros (e' & F' & _). congruence.
        -- intros (r' & _ & _ & R3 & _). lia.
      * set (e0 := mkRe d0 [p0] None [] (-1) 0 0). assert (D0 : re_dst e0 = d0) by reflexivity.
        assert (X1 : find_ent d0 (ins_ent cf e0 l1) = Some e0) by (rewrite fe_ins by exact Fe; rewrite D0, dst_refl; reflexivity).
        assert (X2 : forall x, x <> d0 -> find_ent x (ins_ent cf e0 l1) = find_ent x l1). { intros x Q. rewrite fe_ins by exact Fe. rewrite D0. destruct (dstP d0 x); congruence. }
        split; [apply ins_nodup; [exact Fe|exact N1]|]. split.
        { apply ins_Forall; [exact W1|]. split; [split|split; [|split]]; cbn [e0 re_paths re_dst re_best]; [cbn; constructor; [intros []|constructor]|repeat constructor; exact Lr|intros x [<-|[]]; exact Ir|exact PL|discriminate]. }
        split. { intros d x Hx. destruct (S1 d x Hx) as (e' & F' & SS). exists e'. split; [|exact SS]. rewrite X2; [exact F'|congruence]. }
        split. { intros d e' Hn He'. destruct (dstP d d0) as [Q|Q]; [subst d; rewrite X1 in He'; inversion He'; subst; auto|]. rewrite X2 in He' by exact Q. now apply (S2 d). }
        intros d p. destruct (dstP d d0) as [Q|Q]; [subst d|now apply GOTX]. split.
        -- intros (e' & F' & I' & E'). rewrite X1 in F'. inversion F'; subst e'. destruct I' as [<-|[]]. exists r. split; [apply in_or_app; right; now left|]. split; [reflexivity|]. split; [exact PL|reflexivity].
        -- intros (r' & R1 & R2 & R3 & R4). exists e0. split; [exact X1|]. split; [|rewrite R4; reflexivity]. apply in_app_or in R1. destruct R1 as [R1|[<-|[]]]; [|left; symmetry; exact R4].
           exfalso. assert (Y : got l1 ver d0 p) by (apply G1; exists r'; auto). destruct Y as (e' & F' & _). congruence.
Qed.

(** invariants of the table *)
Definition SI (n : nat) (cf : rcfg) (s : rst) : Prop :=
  NoDup (map re_dst (rs_ents s)) /\ 0 <= rs_ver s < 2 ^ 32 /\ nogw (rs_inetgw s) /\ Forall (wfe n cf (rs_ver s)) (rs_ents s).
Definition KI (cf : rcfg) (s : rst) : Prop := forall d, nll cf d -> LI cf (find_ent d (rs_ents s)) (routes (rs_kern s) d).
Definition BI (cf : rcfg) (s : rst) : Prop := forall d e o p, nll cf d -> find_ent d (rs_ents s) = Some e -> re_best e = Some o -> find_path o (re_paths e) = Some p -> re_gw e = rp_gw p /\ re_iif e = rp_iif p.
Definition CL (cf : rcfg) (s : rst) : Prop := forall d e, nll cf d -> find_ent d (rs_ents s) = Some e -> re_best e <> None.

Lemma LI_same cf e e' rts : same_stored e e' -> LI cf (Some e) rts -> LI cf (Some e') rts.
Proof. intros (A & B & C & D & _). cbn [LI]. unfold stored. rewrite A, B, C, D. auto. Qed.
Lemma outdated_dst ver e : re_dst (delete_outdated ver e) = re_dst e. Proof. reflexivity. Qed.
Lemma LI_outdated cf ver e rts : LI cf (Some e) rts -> LI cf (Some (delete_outdated ver e)) rts.
Proof. auto. Qed.
Lemma inetgw_uniq g d o o' : is_inetgw g d o = true -> is_inetgw g d o' = true -> o = o'.
Proof. unfold is_inetgw. destruct g as [(a, b)|]; [|discriminate]. rewrite !andb_true_iff, !bytes_eqb_spec. intuition congruence. Qed.

Section Calc.
Variables (cf : rcfg) (n : nat) (s : rst) (rs : list result).
Hypothesis HS : SI n cf s.
Hypothesis HR : wf_results n rs.
Local Notation ver := (u32 (rs_ver s + 1)).
Local Notation l1 := (fold_left (apply_result cf ver) rs (rs_ents s)).
Local Notation s1 := (mkRs l1 ver (rs_inetgw s) (rs_kern s)).

Lemma ver_ne : ver <> rs_ver s /\ 0 <= ver < 2 ^ 32.
Proof. destruct HS as (_ & V & _). unfold u32. change (2 ^ 32) with 4294967296 in *. clear -V. lia. Qed.
Lemma calc_some acc : exists s', calc cf acc rs s = Some s' /\ SI n cf s' /\
  (forall d, find_ent d l1 = None -> find_ent d (rs_ents s') = None /\ routes (rs_kern s') d = routes (rs_kern s) d) /\
  (forall d e, find_ent d l1 = Some e -> outcome cf acc (delete_outdated ver e) (routes (rs_kern s) d) (find_ent d (rs_ents s')) (routes (rs_kern s') d)).
Proof.
  destruct HS as (N & V & G & W). destruct ver_ne as (V1 & V2). destruct (apply_ok cf n (rs_ver s) ver (rs_ents s) rs N W V1 HR) as (A1 & A2 & _).
  destruct (upd_ok cf acc n s1 A1 A2 G) as (s' & E & E1 & E2 & E3 & E4 & E5 & E6). exists s'. unfold calc. split; [exact E|]. split; [|split; [exact E5|exact E6]].
  split; [exact E2|]. rewrite E1. split; [exact V2|]. split; [exact E3|exact E4].
Qed.
Lemma LI1 : KI cf s -> forall d, nll cf d -> LI cf (find_ent d l1) (routes (rs_kern s) d).
Proof.
  intros K d L. destruct HS as (N & V & G & W). destruct ver_ne as (V1 & V2). destruct (apply_ok cf n (rs_ver s) ver (rs_ents s) rs N W V1 HR) as (_ & _ & A3 & A4 & _). specialize (K d L).
  destruct (find_ent d (rs_ents s)) as [e|] eqn:Fe.
  - destruct (A3 d e Fe) as (e' & F' & SS). rewrite F'. now apply (LI_same cf e e').
  - destruct (find_ent d l1) as [e'|] eqn:F'; [|exact K]. destruct (A4 d e' Fe F') as (Q & _). cbn [LI] in *. rewrite Q. exact K.
Qed.
Lemma e1_facts d e : find_ent d l1 = Some e -> wfe n cf ver (delete_outdated ver e) /\ re_dst (delete_outdated ver e) = d /\
  (forall p, In p (re_paths (delete_outdated ver e)) <-> exists r, In r rs /\ rr_dst r = d /\ snd d <= cf_maxplen cf /\ p = path_of ver r).
Proof.
  intros Fe. destruct HS as (N & V & G & W). destruct ver_ne as (V1 & V2). destruct (apply_ok cf n (rs_ver s) ver (rs_ents s) rs N W V1 HR) as (_ & A2 & _ & _ & A5).
  destruct (fe_some _ _ _ Fe) as (Ie & De). rewrite Forall_forall in A2. split; [apply outdated_wfe; now apply A2|]. split; [exact De|].
  intros p. rewrite <- (A5 d p). cbn [delete_outdated re_paths]. rewrite filter_In. split.
  - intros (I & E). exists e. split; [exact Fe|]. split; [exact I|lia].
  - intros (e' & F' & I' & E'). assert (e' = e) by congruence. subst e'. split; [exact I'|lia].
Qed.
Lemma calc_rej acc : cf_rep cf = true -> del_first cf = false -> KI cf s -> exists s', calc cf acc rs s = Some s' /\ SI n cf s' /\ KI cf s'.
Proof.
  intros RP DF K. destruct (calc_some acc) as (s' & E & S' & P1 & P2). exists s'. split; [exact E|]. split; [exact S'|]. intros d L. pose proof (LI1 K d L) as X.
  destruct (find_ent d l1) as [e|] eqn:Fe.
  - destruct (e1_facts d e Fe) as (W & De & _). destruct W as ((O & I & _) & _). apply (local_rej cf acc n (delete_outdated ver e) (routes (rs_kern s) d)); [exact RP|exact DF|exact O|rewrite De; exact L|exact I|exact X|now apply P2].
  - destruct (P1 d Fe) as (Q1 & Q2). rewrite Q1, Q2. exact X.
Qed.
Lemma calc_acc acc : sane cf -> accepts acc -> KI cf s -> exists s', calc cf acc rs s = Some s' /\ SI n cf s' /\ KI cf s' /\ BI cf s' /\ CL cf s' /\ forall d, nll cf d -> mirrors cf rs (rs_kern s') d.
Proof.
  intros SN AC K. destruct (calc_some acc) as (s' & E & S' & P1 & P2). exists s'. split; [exact E|]. split; [exact S'|].
  assert (NOGOT : forall d, find_ent d l1 = None -> forall r, In r rs -> rr_dst r = d -> snd d > cf_maxplen cf).
  { intros d Fe r R1 R2. destruct HS as (N & V & G & W). destruct ver_ne as (V1 & V2). destruct (apply_ok cf n (rs_ver s) ver (rs_ents s) rs N W V1 HR) as (_ & _ & _ & _ & A5).
    destruct (Z.leb_spec (snd d) (cf_maxplen cf)) as [Q|Q]; [|lia]. assert (X : got l1 ver d (path_of ver r)) by (apply A5; exists r; auto). destruct X as (e' & F' & _). congruence. }
  assert (OUT : forall d, nll cf d ->
    ((forall r, In r rs -> rr_dst r = d -> snd d > cf_maxplen cf) /\ find_ent d (rs_ents s') = None /\ routes (rs_kern s') d = []) \/
    (exists e' p r, find_ent d (rs_ents s') = Some e' /\ chosen cf rs d r /\ p = path_of ver r /\ find_path (rp_orig p) (re_paths e') = Some p /\ has cf e' p /\ re_dst e' = d /\ 0 <= rp_iif p /\ routes (rs_kern s') d = [stored cf e'])).
  { intros d L. pose proof (LI1 K d L) as X. destruct (find_ent d l1) as [e|] eqn:Fe.
    - destruct (e1_facts d e Fe) as (W & De & IN). destruct W as ((O & I & _) & _). pose proof (P2 d e Fe) as OC.
      destruct (local_acc cf acc n (delete_outdated ver e) (routes (rs_kern s) d) _ _ SN AC O ltac:(rewrite De; exact L) I ltac:(left; exact X) OC) as [(Q1 & Q2 & Q3)|(gg & p & e' & Bp & Bg & Ip & Q1 & Q2 & Q3 & Q4 & Q5)]; [left|right].
      + split; [|auto]. intros r R1 R2. destruct (Z.leb_spec (snd d) (cf_maxplen cf)) as [Q|Q]; [|lia]. exfalso. assert (Y : In (path_of ver r) (re_paths (delete_outdated ver e))) by (apply IN; exists r; auto). rewrite Q1 in Y. destruct Y.
      + pose proof Ip as Ip'. apply IN in Ip'. destruct Ip' as (r & R1 & R2 & R3 & R4). exists e', p, r. split; [exact Q1|]. split.
        { split; [exact R1|]. split; [exact R2|]. split; [exact R3|]. exists (fun o => is_inetgw gg d o = true). rewrite De in Bg. split; [intros Hs o Q; rewrite (Bg o Hs) in Q; discriminate|]. split; [intros o o'; apply inetgw_uniq|].
          exists (eff_cost (cf_scale cf) (is_inetgw gg d)). split; [intros q Hq; unfold eff_cost; now rewrite Hq|]. split; [intros q Hq; unfold eff_cost; destruct (is_inetgw gg d (rp_orig q)); [congruence|reflexivity]|].
          intros r' R1' R2' PR. destruct (best_some cf gg n (delete_outdated ver e) O) as (p' & Bp' & _ & MIN); [intros Q; rewrite Q in Ip; destruct Ip|]. assert (p' = p) by congruence. subst p'. rewrite De in MIN.
          apply (MIN (path_of ver r')); [apply IN; exists r'; auto|]. rewrite R4. exact PR. }
        split; [exact R4|]. split; [rewrite Q2; apply fp_in; [apply O|exact Ip]|]. split; [exact Q4|]. split; [congruence|]. split; [now apply I|exact Q5].
    - left. destruct (P1 d Fe) as (Q1 & Q2). split; [now apply NOGOT|]. split; [exact Q1|]. rewrite Q2. exact X. }
  split; [|split; [|split]].
  - intros d L. destruct (OUT d L) as [(_ & Q1 & Q2)|(e' & p & r & Q1 & _ & _ & _ & (_ & _ & H3 & _) & _ & Pi & Q2)]; rewrite Q1, Q2; [reflexivity|]. cbn [LI]. rewrite H3. replace (rp_iif p >? -1) with true by lia. reflexivity.
  - intros d e o q L Fe Bo Fq. destruct (OUT d L) as [(_ & Q1 & _)|(e' & p & r & Q1 & _ & _ & Fp & (H1 & H2 & H3 & _) & _)]; [congruence|]. assert (e' = e) by congruence. subst e'. assert (o = rp_orig p) by congruence. subst o. assert (q = p) by congruence. subst q. auto.
  - intros d e L Fe. destruct (OUT d L) as [(_ & Q1 & _)|(e' & p & r & Q1 & _ & _ & _ & (H1 & _) & _)]; congruence.
  - intros d L. destruct (OUT d L) as [(Q0 & _ & Q2)|(e' & p & r & Q1 & C & R4 & _ & (H1 & H2 & H3 & H4) & De & _ & Q2)]; [right; auto|left]. exists r, (k_metric (stored cf e')). split; [exact C|]. split.
    { rewrite Q2. unfold stored. cbn [k_metric]. rewrite H2, H3, De, R4. reflexivity. }
    unfold stored. cbn [k_metric]. rewrite De. split; intros Q; unfold kmetric; rewrite Q; [reflexivity|]. rewrite (H4 Q), R4. reflexivity.
Qed.
End Calc.

(** a path is removed *)
Lemma fe_map (f : rentry -> rentry) d l : (forall e, re_dst (f e) = re_dst e) -> find_ent d (map f l) = option_map f (find_ent d l).
Proof. intros H. induction l as [|e l IH]; [reflexivity|]. cbn [map]. rewrite !fe_cons, H, IH. now destruct (dst_eqb _ _). Qed.
Definition delp (o : list Z) (d : list Z * Z) (e : rentry) : rentry :=
  if dst_eqb (re_dst e) d
  then mkRe (re_dst e) (filter (fun p => negb (bytes_eqb (rp_orig p) o)) (re_paths e)) (match re_best e with Some b => if bytes_eqb b o then None else Some b | None => None end) (re_gw e) (re_iif e) (re_hops e) (re_cost e)
  else e.
Lemma delp_dst o d e : re_dst (delp o d e) = re_dst e.
Proof. unfold delp. now destruct (dst_eqb _ _). Qed.
Lemma delp_best o d e n cf ver b p : wfe n cf ver e -> re_best (delp o d e) = Some b -> find_path b (re_paths (delp o d e)) = Some p -> re_best e = Some b /\ find_path b (re_paths e) = Some p.
Proof.
  intros (((N & _) & _ & _ & B) & _). unfold delp. destruct (dst_eqb _ _); [|auto]. cbn [re_best re_paths]. destruct (re_best e) as [b'|]; [|discriminate]. destruct (beqP b' o) as [Q|Q]; [discriminate|]. intros E F. inversion E; subst b'. split; [reflexivity|].
  destruct (B b eq_refl) as (q & Fq). rewrite Fq. rewrite <- F. symmetry. apply fp_filter; [exact N|exact Fq|]. apply fp_some in Fq. destruct Fq as (_ & <-). destruct (beqP (rp_orig q) o); [congruence|reflexivity].
Qed.
Lemma delp_wfe o d e n cf ver : wfe n cf ver e -> wfe n cf ver (delp o d e).
Proof.
  intros W. pose proof W as (((N & L) & I & M & B) & V). unfold delp. destruct (dst_eqb (re_dst e) d); [|exact W]. split; [split; [split|split; [|split]]|]; cbn [re_paths re_dst re_best].
  - now apply nodup_filter.
  - rewrite Forall_forall in *. intros x Hx. apply filter_In in Hx. apply L. tauto.
  - intros x Hx. apply filter_In in Hx. apply I. tauto.
  - exact M.
  - intros b. destruct (re_best e) as [b'|]; [|discriminate]. destruct (beqP b' o) as [Q|Q]; [discriminate|]. intros E. inversion E; subst b'. destruct (B b eq_refl) as (q & Fq). exists q. apply fp_filter; [exact N|exact Fq|]. apply fp_some in Fq. destruct Fq as (_ & <-). destruct (beqP (rp_orig q) o); [congruence|reflexivity].
  - intros x Hx. apply filter_In in Hx. apply V. tauto.
Qed.
Lemma delpath_ok cf n s o d : SI n cf s -> let s' := delete_rt_path o d s in SI n cf s' /\ (KI cf s -> KI cf s') /\ (BI cf s -> BI cf s').
Proof.
  intros (N & V & G & W) s'. change (rs_ents s') with (map (delp o d) (rs_ents s)) in *.
  assert (E : rs_ents s' = map (delp o d) (rs_ents s)) by reflexivity. split; [|split].
  - split; [|split; [exact V|split]].
    + rewrite E, map_map. rewrite (map_ext _ re_dst) by (intros e; apply delp_dst). exact N.
    + cbn [s' delete_rt_path rs_inetgw]. destruct (is_inetgw _ _ _); [intros x Q; discriminate|exact G].
    + rewrite E. apply Forall_forall. intros x Hx. apply in_map_iff in Hx. destruct Hx as (e & <- & He). rewrite Forall_forall in W. change (rs_ver s') with (rs_ver s). apply delp_wfe. now apply W.
  - intros K x L. specialize (K x L). rewrite E, (fe_map (delp o d)) by apply delp_dst. change (rs_kern s') with (rs_kern s). destruct (find_ent x (rs_ents s)) as [e|]; [|exact K]. cbn [option_map]. unfold delp. destruct (dst_eqb _ _); exact K.
  - intros B x e b p L Fe Bo Fp. rewrite E, (fe_map (delp o d)) in Fe by apply delp_dst. destruct (find_ent x (rs_ents s)) as [e0|] eqn:F0; [|discriminate]. cbn [option_map] in Fe. inversion Fe; subst e. clear Fe.
    assert (W0 : wfe n cf (rs_ver s) e0) by (apply fe_some in F0; rewrite Forall_forall in W; apply W; tauto). destruct (delp_best _ _ _ _ _ _ _ _ W0 Bo Fp) as (B1 & B2). destruct (B x e0 b p L F0 B1 B2) as (X & Y).
    unfold delp. destruct (dst_eqb _ _); auto.
Qed.

(** an interface goes down *)
Definition drop1 (i : Z) (e : rentry) : list rentry :=
  let (e', lost) := drop_iface i e in if lost && match re_paths e' with [] => true | _ => false end then [] else [e'].
Lemma drop_dst i e : re_dst (fst (drop_iface i e)) = re_dst e. Proof. reflexivity. Qed.
Lemma drop1_cases i e : drop1 i e = if snd (drop_iface i e) && match re_paths (fst (drop_iface i e)) with [] => true | _ => false end then [] else [fst (drop_iface i e)].
Proof. unfold drop1. destruct (drop_iface i e). reflexivity. Qed.
Lemma fe_drop i d l : NoDup (map re_dst l) -> find_ent d (flat_map (drop1 i) l) = match find_ent d l with Some e => hd_error (drop1 i e) | None => None end.
Proof.
  induction l as [|e l IH]; [reflexivity|]. cbn [map flat_map]. intros N. apply NoDup_cons_iff in N. destruct N as (N1 & N2). specialize (IH N2). rewrite fe_cons, drop1_cases.
  destruct (_ && _) eqn:Q; cbn [app hd_error].
  - rewrite IH. destruct (dstP (re_dst e) d) as [D|D]; [|reflexivity]. subst d. apply fe_none in N1. rewrite N1, drop1_cases, Q. reflexivity.
  - rewrite fe_cons, drop_dst, IH. destruct (dst_eqb _ _); [|reflexivity]. rewrite drop1_cases, Q. reflexivity.
Qed.
Lemma drop_nodup i l : NoDup (map re_dst l) -> NoDup (map re_dst (flat_map (drop1 i) l)).
Proof.
  induction l as [|e l IH]; [auto|]. cbn [map flat_map]. intros N. apply NoDup_cons_iff in N. destruct N as (N1 & N2). rewrite drop1_cases. destruct (_ && _); cbn [app map]; [auto|]. constructor; [|auto].
  rewrite drop_dst. intros Q. apply N1. apply in_map_iff in Q. destruct Q as (x & E & Hx). apply in_flat_map in Hx. destruct Hx as (y & Hy & Hx). rewrite drop1_cases in Hx. destruct (_ && _); [destruct Hx|]. destruct Hx as [<-|[]]. rewrite <- E, drop_dst. now apply in_map.
Qed.
Lemma drop_wfe n cf ver i e : wfe n cf ver e -> wfe n cf ver (fst (drop_iface i e)).
Proof.
  intros (((N & L) & I & M & B) & V). unfold drop_iface. cbn [fst]. split; [split; [split|split; [|split]]|]; cbn [re_paths re_dst re_best].
  - now apply nodup_filter.
  - rewrite Forall_forall in *. intros x Hx. apply filter_In in Hx. apply L. tauto.
  - intros x Hx. apply filter_In in Hx. apply I. tauto.
  - exact M.
  - intros b. destruct (re_best e) as [b'|]; [|discriminate]. destruct (B b' eq_refl) as (q & Fq). rewrite Fq. destruct (rp_iif q =? i) eqn:Q; [discriminate|]. intros E. inversion E; subst b'. exists q. apply fp_filter; [exact N|exact Fq|]. now rewrite Q.
  - intros x Hx. apply filter_In in Hx. apply V. tauto.
Qed.
Lemma outdated_id n cf ver e : wfe n cf ver e -> delete_outdated ver e = e.
Proof.
  intros ((_ & _ & _ & B) & V). unfold delete_outdated. rewrite filter_all by (intros p Hp; apply V in Hp; lia). destruct e as [d ps b g i h c]. cbn in *. f_equal.
  destruct b as [o|]; [|reflexivity]. destruct (B o eq_refl) as (p & Fp). rewrite Fp. apply fp_some in Fp. destruct Fp as (Ip & _). apply V in Ip. replace (rp_ver p =? ver) with true by lia. reflexivity.
Qed.
Lemma ifdown_ok cf n s i acc : sane cf -> accepts acc -> SI n cf s -> KI cf s -> BI cf s -> CL cf s ->
  exists s', delete_interface_routes cf acc i true s = Some s' /\ SI n cf s' /\ KI cf s' /\ BI cf s' /\ CL cf s'.
Proof.
  intros SN AC (N & V & G & W) K B C. unfold delete_interface_routes. fold (drop1 i). change (flat_map (fun e => let (e', lost) := drop_iface i e in if lost && match re_paths e' with [] => true | _ => false end then [] else [e']) (rs_ents s)) with (flat_map (drop1 i) (rs_ents s)).
  set (l1 := flat_map (drop1 i) (rs_ents s)). set (k1 := filter (fun r => negb (k_oif r =? i)) (rs_kern s)). set (s1 := mkRs l1 (rs_ver s) (rs_inetgw s) k1).
  assert (N1 : NoDup (map re_dst l1)) by now apply drop_nodup.
  assert (W1 : Forall (wfe n cf (rs_ver s)) l1).
  { apply Forall_forall. intros x Hx. apply in_flat_map in Hx. destruct Hx as (e & He & Hx). rewrite drop1_cases in Hx. destruct (_ && _); [destruct Hx|]. destruct Hx as [<-|[]]. apply drop_wfe. rewrite Forall_forall in W. now apply W. }
  assert (R1 : forall d, routes k1 d = filter (fun r => negb (k_oif r =? i)) (routes (rs_kern s) d)).
  { intros d. unfold routes, k1. rewrite !filter_filter. apply filter_same. intros x _. apply andb_comm. }
  (* each entry *)
  assert (EE : forall d e, nll cf d -> find_ent d (rs_ents s) = Some e -> exists o p, re_best e = Some o /\ find_path o (re_paths e) = Some p /\ re_gw e = rp_gw p /\ re_iif e = rp_iif p /\ 0 <= rp_iif p /\ snd (drop_iface i e) = (rp_iif p =? i) /\ routes k1 d = (if rp_iif p =? i then [] else [stored cf e])).
  { intros d e L Fe. destruct (re_best e) as [o|] eqn:Bo; [|exfalso; now apply (C d e L Fe)]. assert (We : wfe n cf (rs_ver s) e) by (apply fe_some in Fe; rewrite Forall_forall in W; apply W; tauto).
    destruct We as ((_ & I & _ & Bv) & _). destruct (Bv o Bo) as (p & Fp). exists o, p. destruct (B d e o p L Fe Bo Fp) as (B1 & B2). assert (Pi : 0 <= rp_iif p) by (apply I; apply fp_some in Fp; tauto).
    repeat (split; [assumption || reflexivity|]). split; [unfold drop_iface; cbn [snd]; rewrite Bo, Fp; reflexivity|]. rewrite R1. specialize (K d L). rewrite Fe in K. cbn [LI] in K. rewrite K, B2. replace (rp_iif p >? -1) with true by lia. cbn [filter stored k_oif]. rewrite B2. now destruct (rp_iif p =? i). }
  assert (KN : forall d, nll cf d -> find_ent d (rs_ents s) = None -> routes k1 d = []). { intros d L Fe. specialize (K d L). rewrite Fe in K. cbn [LI] in K. rewrite R1, K. reflexivity. }
  destruct (existsb (fun e => snd (drop_iface i e)) (rs_ents s)) eqn:T.
  - (* the routes are updated *)
    destruct (upd_ok cf acc n s1 N1) as (s' & E & E1 & E2 & E3 & E4 & E5 & E6); [eapply Forall_impl; [|exact W1]; intros x Hx; apply Hx|exact G|]. exists s'. split; [exact E|]. split; [split; [exact E2|rewrite E1; split; [exact V|split; [exact E3|exact E4]]]|].
    assert (OUT : forall d, nll cf d -> (find_ent d (rs_ents s') = None /\ routes (rs_kern s') d = []) \/
      (exists e' p, find_ent d (rs_ents s') = Some e' /\ find_path (rp_orig p) (re_paths e') = Some p /\ has cf e' p /\ 0 <= rp_iif p /\ routes (rs_kern s') d = [stored cf e'])).
    { intros d L. destruct (find_ent d l1) as [e|] eqn:F1.
      - assert (We : wfe n cf (rs_ver s) e) by (apply fe_some in F1; rewrite Forall_forall in W1; apply W1; tauto). pose proof (E6 d e F1) as OC. change (rs_ver s1) with (rs_ver s) in OC. rewrite (outdated_id n cf _ _ We) in OC. destruct We as ((O & I & _) & _). destruct (fe_some _ _ _ F1) as (_ & De).
        assert (P : pre cf e (routes k1 d)).
        { unfold l1 in F1. rewrite fe_drop in F1 by exact N. destruct (find_ent d (rs_ents s)) as [e0|] eqn:F0; [|discriminate]. destruct (EE d e0 L F0) as (o & p & Bo & Fp & Eg & Ei & Pi & SD & RK). rewrite drop1_cases in F1.
          destruct (_ && _); [discriminate|]. cbn [hd_error] in F1. inversion F1; subst e. rewrite RK. destruct (Z.eqb_spec (rp_iif p) i) as [Q|Q].
          - right. split; [reflexivity|]. intros q Hq. cbn [drop_iface fst re_paths re_iif] in Hq |- *. apply filter_In in Hq. destruct Hq as (_ & Hq). lia.
          - left. change ([stored cf e0] = if re_iif e0 >? -1 then [stored cf e0] else []). replace (re_iif e0 >? -1) with true by lia. reflexivity. }
        destruct (local_acc cf acc n e (routes k1 d) _ _ SN AC O ltac:(rewrite De; exact L) I P OC) as [(Q1 & Q2 & Q3)|(gg & p & e' & Bp & Bg & Ip & Q1 & Q2 & Q3 & Q4 & Q5)]; [left; auto|right].
        exists e', p. split; [exact Q1|]. split; [rewrite Q2; apply fp_in; [apply O|exact Ip]|]. split; [exact Q4|]. split; [now apply I|exact Q5].
      - left. destruct (E5 d F1) as (Q1 & Q2). split; [exact Q1|]. rewrite Q2. change (rs_kern s1) with k1. unfold l1 in F1. rewrite fe_drop in F1 by exact N. destruct (find_ent d (rs_ents s)) as [e0|] eqn:F0; [|now apply KN].
        destruct (EE d e0 L F0) as (o & p & Bo & Fp & Eg & Ei & Pi & SD & RK). rewrite drop1_cases, SD in F1. rewrite RK. destruct (rp_iif p =? i); [reflexivity|discriminate]. }
    split; [|split].
    + intros d L. destruct (OUT d L) as [(Q1 & Q2)|(e' & p & Q1 & _ & (_ & _ & H3 & _) & Pi & Q2)]; rewrite Q1, Q2; [reflexivity|]. cbn [LI]. rewrite H3. replace (rp_iif p >? -1) with true by lia. reflexivity.
    + intros d e o q L Fe Bo Fq. destruct (OUT d L) as [(Q1 & _)|(e' & p & Q1 & Fp & (H1 & H2 & H3 & _) & _)]; [congruence|]. assert (e' = e) by congruence. subst e'. assert (o = rp_orig p) by congruence. subst o. assert (q = p) by congruence. subst q. auto.
    + intros d e L Fe. destruct (OUT d L) as [(Q1 & _)|(e' & p & Q1 & _ & (H1 & _) & _)]; congruence.
  - (* nothing used the interface *)
    exists s1. split; [reflexivity|]. split; [split; [exact N1|split; [exact V|split; [exact G|exact W1]]]|].
    assert (NL : forall e, In e (rs_ents s) -> snd (drop_iface i e) = false). { intros e He. destruct (snd (drop_iface i e)) eqn:Q; [|reflexivity]. assert (X : existsb (fun e => snd (drop_iface i e)) (rs_ents s) = true) by (apply existsb_exists; eauto). congruence. }
    assert (FE : forall d, find_ent d l1 = option_map (fun e => fst (drop_iface i e)) (find_ent d (rs_ents s))).
    { intros d. unfold l1. rewrite fe_drop by exact N. destruct (find_ent d (rs_ents s)) as [e|] eqn:F; [|reflexivity]. rewrite drop1_cases, NL by (apply fe_some in F; tauto). reflexivity. }
    assert (E2 : forall d e', nll cf d -> find_ent d l1 = Some e' -> exists e o p, find_ent d (rs_ents s) = Some e /\ e' = fst (drop_iface i e) /\ re_best e = Some o /\ find_path o (re_paths e) = Some p /\ re_gw e = rp_gw p /\ re_iif e = rp_iif p /\ 0 <= rp_iif p /\ rp_iif p <> i /\ routes k1 d = [stored cf e] /\ re_best e' = Some o /\ find_path o (re_paths e') = Some p).
    { intros d e' L F. rewrite FE in F. destruct (find_ent d (rs_ents s)) as [e|] eqn:F0; [|discriminate]. cbn [option_map] in F. inversion F; subst e'. destruct (EE d e L F0) as (o & p & Bo & Fp & Eg & Ei & Pi & SD & RK). rewrite NL in SD by (apply fe_some in F0; tauto). exists e, o, p. rewrite <- SD in RK.
      repeat (split; [assumption || reflexivity|]). split; [lia|]. split; [exact RK|]. cbn [drop_iface fst re_best re_paths]. rewrite Bo, Fp, <- SD. split; [reflexivity|]. apply fp_filter; [|exact Fp|rewrite <- SD; reflexivity].
      assert (We : wfe n cf (rs_ver s) e) by (apply fe_some in F0; rewrite Forall_forall in W; apply W; tauto). apply We. }
    split; [|split].
    + intros d L. change (rs_ents s1) with l1. change (rs_kern s1) with k1. destruct (find_ent d l1) as [e'|] eqn:F.
      * destruct (E2 d e' L F) as (e & o & p & F0 & -> & Bo & Fp & Eg & Ei & Pi & Ne & RK & _). rewrite RK. change ([stored cf e] = if re_iif e >? -1 then [stored cf e] else []). replace (re_iif e >? -1) with true by lia. reflexivity.
      * rewrite FE in F. destruct (find_ent d (rs_ents s)) eqn:F0; [discriminate|]. now apply KN.
    + intros d e' o' q L F Bo' Fq. destruct (E2 d e' L F) as (e & o & p & F0 & Ee & Bo & Fp & Eg & Ei & Pi & Ne & RK & X1 & X2). assert (o' = o) by congruence. subst o'. assert (q = p) by congruence. subst q. rewrite Ee. cbn [drop_iface fst re_gw re_iif]. auto.
    + intros d e' L F. destruct (E2 d e' L F) as (e & o & p & _ & _ & _ & _ & _ & _ & _ & _ & _ & X1 & _). congruence.
Qed.
Lemma SI_init n cf : SI n cf rs_init.
Proof. split; [constructor|]. split; [cbn; lia|]. split; [intros x Q; discriminate|constructor]. Qed.

Lemma run_A cf n ops : cf_rep cf = true -> del_first cf = false -> Forall (op_A n) ops -> forall s, SI n cf s -> KI cf s -> exists s', rrun cf s ops = Some s' /\ SI n cf s' /\ KI cf s'.
Proof.
  intros RP DF. induction ops as [|o ops IH]; intros F s S K; [exists s; auto|]. pose proof (Forall_inv F) as Fo. apply Forall_inv_tail in F. cbn [rrun].
  destruct o as [rs acc|o d|i f acc]; cbn [rstep op_A] in *; [|destruct (delpath_ok cf n s o d S) as (A & B & _); apply IH; auto|destruct Fo].
  destruct (calc_rej cf n s rs S Fo acc RP DF K) as (s' & E & S' & K'). rewrite E. now apply IH.
Qed.
Lemma run_B cf n ops : sane cf -> forall dirty s, hist_B n dirty ops -> SI n cf s -> KI cf s -> BI cf s -> (dirty = false -> CL cf s) -> exists s', rrun cf s ops = Some s' /\ SI n cf s' /\ KI cf s'.
Proof.
  intros SN. induction ops as [|o ops IH]; intros dirty s H S K B C; [exists s; auto|]. cbn [rrun]. destruct o as [rs acc|o d|i f acc]; cbn [rstep hist_B] in *.
  - destruct H as (H1 & H2 & H3). destruct (calc_acc cf n s rs S H1 acc SN H2 K) as (s' & E & S' & K' & B' & C' & _). rewrite E. apply (IH false); auto.
  - destruct (delpath_ok cf n s o d S) as (A1 & A2 & A3). apply (IH true); auto. discriminate.
  - destruct H as (H1 & H2 & H3 & H4). subst dirty f. destruct (ifdown_ok cf n s i acc SN H3 S K B (C eq_refl)) as (s' & E & S' & K' & B' & C'). rewrite E. apply (IH false); auto.
Qed.

(** olsr_force_kernelroutes_refresh when every entry has a best path *)
Lemma refresh_queue (l : list rentry) : forall c, NoDup c -> NoDup (fold_left (fun c e => enqueue (get_nh e) (re_dst e) c) l c) /\ forall d, In d (fold_left (fun c e => enqueue (get_nh e) (re_dst e) c) l c) <-> In d c \/ In d (map re_dst l).
Proof.
  induction l as [|e l IH]; intros c N; [split; [exact N|intros d; cbn; tauto]|]. cbn [fold_left map]. destruct (IH (enqueue (get_nh e) (re_dst e) c) (enq_nodup _ _ _ N)) as (A & B). split; [exact A|]. intros d. rewrite B, enq_in. cbn [In]. intuition congruence.
Qed.
Lemma setbest_id e p : re_best e = Some (rp_orig p) -> setbest e p = e.
Proof. intros H. destruct e. cbn in *. unfold setbest. cbn. now rewrite H. Qed.
Definition hop_of (r : kroute) : list Z * Z := (k_gw r, k_oif r).
Lemma refresh_ok cf n s acc : sane cf -> accepts acc -> SI n cf s -> KI cf s -> BI cf s -> (forall d e, find_ent d (rs_ents s) = Some e -> re_best e <> None) ->
  exists s', force_refresh cf acc s = Some s' /\ forall d, nll cf d -> map hop_of (routes (rs_kern s') d) = map hop_of (routes (rs_kern s) d).
Proof.
  intros SN AC (N & V & G & W) K B C. unfold force_refresh. destruct (refresh_queue (rs_ents s) [] ltac:(constructor)) as (NQ & IQ). set (q := fold_left _ (rs_ents s) []) in *.
  assert (HB : forall d e, find_ent d (rs_ents s) = Some e -> exists p, re_best e = Some (rp_orig p) /\ In p (re_paths e) /\ one_each n (re_paths e) /\ find_path (rp_orig p) (re_paths e) = Some p /\ 0 <= rp_iif p).
  { intros d e F. specialize (C d e F). apply fe_some in F. destruct F as (I & _). rewrite Forall_forall in W. destruct (W e I) as ((O & Oi & _ & Ob) & _). destruct (re_best e) as [o|]; [|congruence]. destruct (Ob o eq_refl) as (p & Fp). pose proof Fp as Fp'. apply fp_some in Fp. destruct Fp as (Ip & Op). subst o. exists p. repeat (split; [assumption || reflexivity|]). now apply Oi. }
  destruct (chg_ok cf acc q (rs_ents s) (rs_kern s) NQ) as (l' & k' & E & M & O1 & O2).
  { intros d Hd. apply IQ in Hd. destruct Hd as [[]|Hd]. destruct (find_ent d (rs_ents s)) as [e|] eqn:F; [|apply fe_none in F; contradiction]. exists e. split; [reflexivity|]. destruct (HB d e F) as (p & B1 & _ & _ & B2 & _). exists (rp_orig p), p. auto. }
  rewrite E. eexists. split; [reflexivity|]. cbn [rs_kern]. intros d L. destruct (find_ent d (rs_ents s)) as [e|] eqn:F.
  - destruct (fe_some _ _ _ F) as (Ie & De). assert (Hd : In d q) by (apply IQ; right; rewrite <- De; now apply in_map). destruct (O2 d e Hd F) as (e' & X & _). destruct (HB d e F) as (p & B1 & Ip & O & B2 & Pi).
    destruct (B d e _ p L F B1 B2) as (G1 & G2). specialize (K d L). rewrite F in K. cbn [LI] in K. rewrite <- (setbest_id e p B1) in X. rewrite (chg1_val cf acc e p _ n O Ip) in X by (rewrite De; exact L). cbv zeta in X. rewrite !AC in X. inversion X as [[X1 X2]]. clear X. rewrite K.
    replace (re_iif e >? -1) with true by lia. cbn [map]. unfold kadd. rewrite filter_none.
    + cbn [app map]. unfold hop_of, wanted, stored. cbn [k_gw k_oif]. rewrite ?G1, ?G2. reflexivity.
    + intros r Hr. replace (re_iif e >? -1) with true in Hr by lia. destruct (del_first cf) eqn:DF; cbn [andb] in Hr; [rewrite kdel_one in Hr; destruct Hr|]. destruct SN as [SN|SN]; [|congruence]. rewrite SN. destruct Hr as [<-|[]].
      cbn [stored wanted k_dst k_metric]. rewrite dst_refl. unfold del_first in DF. apply orb_false_iff in DF. destruct DF as (_ & DF). unfold kmetric. destruct (cf_fib cf); try discriminate. rewrite Z.eqb_refl. reflexivity.
  - destruct (O1 d) as (_ & Q); [|rewrite Q; reflexivity]. intros Hd. apply IQ in Hd. apply fe_none in F. destruct Hd as [[]|Hd]; contradiction.
Qed.

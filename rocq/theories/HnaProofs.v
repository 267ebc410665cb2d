(** Proofs about the HNA set. *)
From Verif Require Import Base Bytes Mantissa IpCalc GwHna Parser Hna HnaSpec.

Lemma beq_spec a b : bytes_eqb a b = true <-> a = b.
Proof. unfold bytes_eqb. destruct (list_eq_dec Z.eq_dec a b); split; congruence. Qed.
Lemma beq_refl a : bytes_eqb a a = true. Proof. now apply beq_spec. Qed.
Lemma beq_sym a b : bytes_eqb a b = bytes_eqb b a.
Proof. unfold bytes_eqb. destruct (list_eq_dec Z.eq_dec a b), (list_eq_dec Z.eq_dec b a); congruence. Qed.
Lemma beq_neq a b : bytes_eqb a b = false <-> a <> b.
Proof. unfold bytes_eqb. destruct (list_eq_dec Z.eq_dec a b); split; congruence. Qed.
Lemma skey_spec g n p g' n' p' : same_key g n p g' n' p' = true <-> g = g' /\ n = n' /\ p = p'.
Proof. unfold same_key. rewrite !andb_true_iff, !beq_spec, Z.eqb_eq. tauto. Qed.

(** the networks of one gateway *)
Definition nkey (n : hnet) : list Z * Z := (n_net n, n_plen n).
Lemma net_is_spec net plen n : net_is net plen n = true <-> nkey n = (net, plen).
Proof. unfold net_is, nkey. rewrite andb_true_iff, beq_spec, Z.eqb_eq. split; [intros (-> & ->); reflexivity|intros H; injection H; tauto]. Qed.
Definition same_net (net : list Z) (plen : Z) (net' : list Z) (plen' : Z) : bool := bytes_eqb net net' && (plen =? plen').
Lemma snet_spec n p n' p' : same_net n p n' p' = true <-> n = n' /\ p = p'.
Proof. unfold same_net. rewrite andb_true_iff, beq_spec, Z.eqb_eq. tauto. Qed.
Lemma skey_snet g n p g' n' p' : same_key g n p g' n' p' = bytes_eqb g g' && same_net n p n' p'.
Proof. unfold same_key, same_net. now rewrite andb_assoc. Qed.

Lemma lookup_timer net plen vt net' plen' nets : lookup_net nets net plen <> None ->
  option_map n_vtime (lookup_net (set_timer net plen vt nets) net' plen') =
  if same_net net plen net' plen' then Some vt else option_map n_vtime (lookup_net nets net' plen').
Proof.
  unfold lookup_net. intros H. destruct (same_net net plen net' plen') eqn:E.
  - apply snet_spec in E. destruct E as (<- & <-). induction nets as [|n r IH]; [contradiction|].
    cbn [find set_timer] in *. destruct (net_is net plen n) eqn:Q.
    + cbn [find]. change (net_is net plen (mkNet (n_net n) (n_plen n) vt)) with (net_is net plen n). rewrite Q. reflexivity.
    + cbn [find]. rewrite Q. auto.
  - assert (N : ~ (net = net' /\ plen = plen')) by (intros A; apply snet_spec in A; congruence). clear E H.
    induction nets as [|n r IH]; [reflexivity|]. cbn [set_timer]. destruct (net_is net plen n) eqn:Q.
    + cbn [find]. replace (net_is net' plen' (mkNet (n_net n) (n_plen n) vt)) with (net_is net' plen' n) by reflexivity.
      destruct (net_is net' plen' n) eqn:Q2; [|reflexivity]. apply net_is_spec in Q, Q2. rewrite Q in Q2. injection Q2. tauto.
    + cbn [find]. destruct (net_is net' plen' n); [reflexivity|]. exact IH.
Qed.
Lemma timer_keys net plen vt nets : map nkey (set_timer net plen vt nets) = map nkey nets.
Proof. induction nets as [|n r IH]; [reflexivity|]. cbn [set_timer]. destruct (net_is net plen n); cbn [map]; [reflexivity|now rewrite IH]. Qed.
Lemma lookup_none nets net plen : lookup_net nets net plen = None <-> ~ In (net, plen) (map nkey nets).
Proof.
  unfold lookup_net. split.
  - intros H Hin. apply in_map_iff in Hin. destruct Hin as (n & K & Hn). apply (find_none _ _ H) in Hn. apply net_is_spec in K. congruence.
  - intros H. destruct (find (net_is net plen) nets) as [n|] eqn:E; [|reflexivity]. exfalso. apply H. apply find_some in E. destruct E as (E1 & E2).
    apply net_is_spec in E2. rewrite <- E2. now apply in_map.
Qed.
Lemma drop_incl net plen nets k : In k (map nkey (drop_net net plen nets)) -> In k (map nkey nets).
Proof.
  induction nets as [|n r IH]; [auto|]. cbn [drop_net]. destruct (net_is net plen n); cbn [map In]; [now right|].
  intros [H|H]; [now left|right; auto].
Qed.
Lemma drop_nodup net plen nets : NoDup (map nkey nets) -> NoDup (map nkey (drop_net net plen nets)).
Proof.
  induction nets as [|n r IH]; [auto|]. cbn [map]. intros H. inversion H as [|? ? H1 H2]; subst. cbn [drop_net].
  destruct (net_is net plen n); [exact H2|]. cbn [map]. constructor; [|now apply IH]. intros C. apply H1. eapply drop_incl; eauto.
Qed.
Lemma lookup_drop net plen net' plen' nets : NoDup (map nkey nets) ->
  lookup_net (drop_net net plen nets) net' plen' = if same_net net plen net' plen' then None else lookup_net nets net' plen'.
Proof.
  intros ND. destruct (same_net net plen net' plen') eqn:E.
  - apply snet_spec in E. destruct E as (<- & <-). apply lookup_none. induction nets as [|n r IH]; [auto|].
    cbn [map] in ND. inversion ND as [|? ? H1 H2]; subst. cbn [drop_net]. destruct (net_is net plen n) eqn:Q.
    + apply net_is_spec in Q. now rewrite <- Q.
    + cbn [map In]. intros [K|K]; [apply net_is_spec in K; congruence|]. now apply IH.
  - assert (N : ~ (net = net' /\ plen = plen')) by (intros A; apply snet_spec in A; congruence). clear E. unfold lookup_net.
    induction nets as [|n r IH]; [reflexivity|]. cbn [map] in ND. inversion ND as [|? ? H1 H2]; subst. cbn [drop_net find].
    destruct (net_is net plen n) eqn:Q.
    + destruct (net_is net' plen' n) eqn:Q2; [|reflexivity]. apply net_is_spec in Q, Q2. rewrite Q in Q2. injection Q2. tauto.
    + cbn [find]. destruct (net_is net' plen' n); [reflexivity|]. now apply IH.
Qed.

(** one bucket *)
Definition is_gw (gw : list Z) (e : hentry) : bool := bytes_eqb (e_gw e) gw.
Definition look (l : list hentry) (gw : list Z) : option (list hnet) := option_map e_nets (find (is_gw gw) l).
Lemma look_none l gw : look l gw = None <-> ~ In gw (map e_gw l).
Proof.
  unfold look. split.
  - intros H Hin. apply in_map_iff in Hin. destruct Hin as (e & K & He). destruct (find (is_gw gw) l) eqn:F; [discriminate|].
    apply (find_none _ _ F) in He. apply beq_neq in He. congruence.
  - intros H. destruct (find (is_gw gw) l) as [e|] eqn:F; [|reflexivity]. apply find_some in F. destruct F as (F1 & F2).
    apply beq_spec in F2. exfalso. apply H. rewrite <- F2. now apply in_map.
Qed.
Lemma look_on gw f l gw' : look (on_gw l gw f) gw' = if bytes_eqb gw gw' then option_map f (look l gw) else look l gw'.
Proof.
  unfold look. destruct (bytes_eqb gw gw') eqn:E.
  - apply beq_spec in E. subst gw'. induction l as [|e r IH]; [reflexivity|]. cbn [on_gw]. fold (is_gw gw e). destruct (is_gw gw e) eqn:Q.
    + cbn [find]. rewrite Q. change (is_gw gw (mkEnt (e_gw e) (f (e_nets e)))) with (is_gw gw e). rewrite Q. reflexivity.
    + cbn [find]. rewrite Q. exact IH.
  - induction l as [|e r IH]; [reflexivity|]. cbn [on_gw]. fold (is_gw gw e). destruct (is_gw gw e) eqn:Q.
    + cbn [find]. replace (is_gw gw' (mkEnt (e_gw e) (f (e_nets e)))) with (is_gw gw' e) by reflexivity.
      destruct (is_gw gw' e) eqn:Q2; [|reflexivity]. apply beq_spec in Q, Q2. apply beq_neq in E. congruence.
    + cbn [find]. destruct (is_gw gw' e); [reflexivity|exact IH].
Qed.
Lemma on_gws gw f l : map e_gw (on_gw l gw f) = map e_gw l.
Proof. induction l as [|e r IH]; [reflexivity|]. cbn [on_gw]. destruct (bytes_eqb (e_gw e) gw); cbn [map]; [reflexivity|now rewrite IH]. Qed.
Lemma on_in gw f l e : NoDup (map e_gw l) -> In e (on_gw l gw f) -> (In e l /\ e_gw e <> gw) \/ (exists e0, In e0 l /\ e_gw e0 = gw /\ e = mkEnt gw (f (e_nets e0))).
Proof.
  induction l as [|x r IH]; [contradiction|]. cbn [map]. intros ND. inversion ND as [|? ? H1 H2]; subst. cbn [on_gw].
  destruct (bytes_eqb (e_gw x) gw) eqn:Q; cbn [In].
  - apply beq_spec in Q. intros [<-|H].
    + right. exists x. rewrite Q. auto.
    + left. split; [now right|]. intros C. apply H1. rewrite Q, <- C. now apply in_map.
  - apply beq_neq in Q. intros [<-|H]; [left; auto|]. destruct (IH H2 H) as [(A & B)|(e0 & A & B & C)]; [left; auto|right; eauto].
Qed.
Lemma prune_in gw l e : In e (prune gw l) -> In e l.
Proof.
  induction l as [|x r IH]; [auto|]. unfold prune. fold (prune gw r). destruct (bytes_eqb (e_gw x) gw).
  - destruct (e_nets x); cbn [In]; [now right|auto].
  - cbn [In]. intros [H|H]; [now left|right; auto].
Qed.
Lemma prune_nodup gw l : NoDup (map e_gw l) -> NoDup (map e_gw (prune gw l)).
Proof.
  induction l as [|x r IH]; [auto|]. cbn [map]. intros ND. inversion ND as [|? ? H1 H2]; subst. unfold prune. fold (prune gw r).
  destruct (bytes_eqb (e_gw x) gw).
  - destruct (e_nets x); [exact H2|exact ND].
  - cbn [map]. constructor; [|auto]. intros C. apply H1. apply in_map_iff in C. destruct C as (y & Y1 & Y2). rewrite <- Y1. apply in_map. eapply prune_in; eauto.
Qed.
Lemma look_prune gw l gw' : NoDup (map e_gw l) ->
  look (prune gw l) gw' = if bytes_eqb gw gw' then match look l gw with Some (_ :: _) => look l gw | _ => None end else look l gw'.
Proof.
  induction l as [|x r IH]; intros ND; [cbn; now destruct (bytes_eqb gw gw')|]. cbn [map] in ND. inversion ND as [|? ? H1 H2]; subst.
  specialize (IH H2). unfold prune. fold (prune gw r). unfold look in *. destruct (bytes_eqb (e_gw x) gw) eqn:Q.
  - cbn [find]. change (is_gw gw x = true) in Q. rewrite Q. cbn [option_map]. destruct (e_nets x) as [|n ns] eqn:EN.
    + destruct (bytes_eqb gw gw') eqn:E.
      * apply beq_spec in E, Q. subst gw' gw. apply (proj2 (look_none r (e_gw x))) in H1. exact H1.
      * replace (is_gw gw' x) with false; [reflexivity|]. symmetry. apply beq_spec in Q. apply beq_neq. apply beq_neq in E. congruence.
    + cbn [find]. destruct (bytes_eqb gw gw') eqn:E; [|reflexivity]. apply beq_spec in E. subst gw'. rewrite Q. cbn [option_map]. now rewrite EN.
  - cbn [find]. replace (is_gw gw x) with false by now symmetry. destruct (bytes_eqb gw gw') eqn:E.
    + apply beq_spec in E. subst gw'. replace (is_gw gw x) with false by now symmetry. exact IH.
    + destruct (is_gw gw' x); [reflexivity|exact IH].
Qed.

Section Hash.
Variable hash : list Z -> nat.
Hypothesis HB : forall a, (hash a < HASHSIZE)%nat.

Record wf (s : hset) : Prop := {
  wf_hash : forall h e, In e (s h) -> hash (e_gw e) = h;
  wf_gws : forall h, NoDup (map e_gw (s h));
  wf_ne : forall h e, In e (s h) -> e_nets e <> [];
  wf_nets : forall h e, In e (s h) -> NoDup (map nkey (e_nets e)) }.
Lemma wf_init : wf hna_init.
Proof. constructor; try contradiction. intros h. constructor. Qed.

Definition get (s : hset) : hmap := fun gw net plen =>
  match look (s (hash gw)) gw with Some nets => option_map n_vtime (lookup_net nets net plen) | None => None end.
Lemma lookup_look s gw : option_map e_nets (lookup_gw hash s gw) = look (s (hash gw)) gw.
Proof. reflexivity. Qed.
Lemma look_in (s : hset) h gw nets : look (s h) gw = Some nets -> In (mkEnt gw nets) (s h).
Proof.
  unfold look. destruct (find (is_gw gw) (s h)) as [e|] eqn:F; [|discriminate]. cbn [option_map]. intros H. apply Some_inj in H. subst.
  apply find_some in F. destruct F as (F1 & F2). apply beq_spec in F2. subst gw. now destruct e.
Qed.
Lemma in_look s h e : wf s -> In e (s h) -> look (s h) (e_gw e) = Some (e_nets e).
Proof.
  intros W H. pose proof (wf_gws s W h) as ND. unfold look. induction (s h) as [|x r IH]; [contradiction|]. cbn [map] in ND. inversion ND as [|? ? H1 H2]; subst.
  cbn [find]. destruct H as [<-|H].
  - unfold is_gw. now rewrite beq_refl.
  - destruct (is_gw (e_gw e) x) eqn:Q; [|auto]. apply beq_spec in Q. exfalso. apply H1. rewrite Q. now apply in_map.
Qed.

(** replacing one bucket *)
Lemma bset_same s h l : bset s h l h = l. Proof. unfold bset. now rewrite Nat.eqb_refl. Qed.
Lemma bset_other s h l k : k <> h -> bset s h l k = s k.
Proof. unfold bset. intros H. destruct (Nat.eqb_spec k h); congruence. Qed.
Lemma wf_bset s h l : wf s -> (forall e, In e l -> hash (e_gw e) = h /\ e_nets e <> [] /\ NoDup (map nkey (e_nets e))) -> NoDup (map e_gw l) -> wf (bset s h l).
Proof.
  intros [A B C D] H ND. constructor.
  - intros k e. destruct (Nat.eq_dec k h) as [->|N]; [rewrite bset_same; intros He; now apply H|rewrite bset_other by auto; apply A].
  - intros k. destruct (Nat.eq_dec k h) as [->|N]; [now rewrite bset_same|rewrite bset_other by auto; apply B].
  - intros k e. destruct (Nat.eq_dec k h) as [->|N]; [rewrite bset_same; intros He; now apply H|rewrite bset_other by auto; apply C].
  - intros k e. destruct (Nat.eq_dec k h) as [->|N]; [rewrite bset_same; intros He; now apply H|rewrite bset_other by auto; apply D].
Qed.
Lemma bset_bset s h l l' k : bset (bset s h l) h l' k = bset s h l' k.
Proof. unfold bset. destruct (Nat.eqb k h); reflexivity. Qed.

(** update: bring into one shape *)
Definition base_bucket (s : hset) (gw : list Z) : list hentry :=
  match look (s (hash gw)) gw with Some _ => s (hash gw) | None => mkEnt gw [] :: s (hash gw) end.
Definition base_nets (s : hset) (gw : list Z) : list hnet := match look (s (hash gw)) gw with Some n => n | None => [] end.
Definition upd_nets (net : list Z) (plen vt : Z) (nets : list hnet) : list hnet :=
  set_timer net plen vt (match lookup_net nets net plen with Some _ => nets | None => add_net net plen nets end).
Lemma on_on l gw f g : on_gw (on_gw l gw f) gw g = on_gw l gw (fun x => g (f x)).
Proof.
  induction l as [|e r IH]; [reflexivity|]. cbn [on_gw e_gw e_nets]. destruct (bytes_eqb (e_gw e) gw) eqn:Q; cbn [on_gw e_gw e_nets].
  - now rewrite Q.
  - now rewrite Q, IH.
Qed.
Lemma look_base s gw : look (base_bucket s gw) gw = Some (base_nets s gw).
Proof.
  unfold base_bucket, base_nets. destruct (look (s (hash gw)) gw) as [n|] eqn:E; [exact E|]. unfold look. cbn [find]. unfold is_gw. now rewrite beq_refl.
Qed.
Lemma on_ext l gw f g nets : look l gw = Some nets -> f nets = g nets -> on_gw l gw f = on_gw l gw g.
Proof.
  unfold look. intros H E. induction l as [|e r IH]; [reflexivity|]. cbn [on_gw find] in *. unfold is_gw at 1 in H.
  destruct (bytes_eqb (e_gw e) gw); [cbn [option_map] in H; apply Some_inj in H; subst; now rewrite E|now rewrite IH].
Qed.
Lemma update_shape s gw net plen vt :
  (forall k, fst (update_entry hash s gw net plen vt) k = bset s (hash gw) (on_gw (base_bucket s gw) gw (upd_nets net plen vt)) k)
  /\ snd (update_entry hash s gw net plen vt) = (match lookup_net (base_nets s gw) net plen with Some _ => [] | None => [EChanged] end) ++ [EIns net plen gw].
Proof.
  unfold update_entry. cbv zeta.
  set (s1 := match lookup_gw hash s gw with Some _ => s | None => add_entry hash s gw end).
  assert (B1 : s1 (hash gw) = base_bucket s gw /\ (forall k, k <> hash gw -> s1 k = s k)).
  { unfold s1, base_bucket. rewrite <- lookup_look. destruct (lookup_gw hash s gw); cbn [option_map]; [auto|].
    unfold add_entry. split; [apply bset_same|]. intros k N. now apply bset_other. }
  clearbody s1. destruct B1 as (B1 & B2).
  assert (L : match lookup_gw hash s1 gw with Some e => e_nets e | None => [] end = base_nets s gw).
  { pose proof (lookup_look s1 gw) as Q. rewrite B1, look_base in Q. destruct (lookup_gw hash s1 gw); cbn [option_map] in Q; [now apply Some_inj in Q|discriminate]. }
  rewrite L. pose proof (look_base s gw) as LB. destruct (lookup_net (base_nets s gw) net plen) eqn:LN; cbn [fst snd]; (split; [|reflexivity]); intros k.
  - destruct (Nat.eq_dec k (hash gw)) as [->|N]; [|rewrite !bset_other by auto; auto]. rewrite !bset_same, B1.
    apply on_ext with (base_nets s gw); [exact LB|]. unfold upd_nets. now rewrite LN.
  - rewrite bset_bset. destruct (Nat.eq_dec k (hash gw)) as [->|N]; [|rewrite !bset_other by auto; auto]. rewrite !bset_same, B1, on_on.
    apply on_ext with (base_nets s gw); [exact LB|]. unfold upd_nets. now rewrite LN.
Qed.
Lemma wf_ext s s' : (forall k, s k = s' k) -> wf s -> wf s'.
Proof. intros E [A B C D]. constructor; intros h; rewrite <- E; [apply A|apply B|apply C|apply D]. Qed.
Lemma get_ext s s' : (forall k, s k = s' k) -> forall g n p, get s g n p = get s' g n p.
Proof. intros E g n p. unfold get. now rewrite E. Qed.
Lemma upd_nets_ne net plen vt nets : upd_nets net plen vt nets <> [].
Proof.
  unfold upd_nets. destruct (lookup_net nets net plen) eqn:E.
  - destruct nets as [|n r]; [discriminate|]. cbn [set_timer]. destruct (net_is net plen n); discriminate.
  - unfold add_net. cbn [set_timer]. destruct (net_is net plen _); discriminate.
Qed.
Lemma upd_nets_nodup net plen vt nets : NoDup (map nkey nets) -> NoDup (map nkey (upd_nets net plen vt nets)).
Proof.
  intros H. unfold upd_nets. rewrite timer_keys. destruct (lookup_net nets net plen) eqn:E; [exact H|].
  unfold add_net. cbn [map]. constructor; [|exact H]. now apply lookup_none.
Qed.
Lemma upd_nets_get net plen vt nets net' plen' : option_map n_vtime (lookup_net (upd_nets net plen vt nets) net' plen') =
  if same_net net plen net' plen' then Some vt else option_map n_vtime (lookup_net nets net' plen').
Proof.
  unfold upd_nets. destruct (lookup_net nets net plen) eqn:E.
  - apply lookup_timer. congruence.
  - rewrite lookup_timer.
    + destruct (same_net net plen net' plen') eqn:Q; [reflexivity|]. f_equal. unfold lookup_net, add_net. cbn [find].
      replace (net_is net' plen' (mkNet net plen 0)) with false; [reflexivity|]. symmetry. unfold net_is. cbn [n_net n_plen]. unfold same_net in Q. now rewrite andb_comm.
    + unfold lookup_net, add_net. cbn [find]. replace (net_is net plen (mkNet net plen 0)) with true; [discriminate|]. symmetry. now apply net_is_spec.
Qed.
Lemma base_gws s gw : wf s -> NoDup (map e_gw (base_bucket s gw)).
Proof.
  intros W. unfold base_bucket. destruct (look (s (hash gw)) gw) eqn:E; [apply W|]. cbn [map]. constructor; [now apply look_none|apply W].
Qed.
Lemma base_in s gw e : wf s -> In e (base_bucket s gw) -> hash (e_gw e) = hash gw /\ NoDup (map nkey (e_nets e)) /\ (e_nets e <> [] \/ e_gw e = gw).
Proof.
  intros W. unfold base_bucket. destruct (look (s (hash gw)) gw) eqn:E.
  - intros H. split; [now apply (wf_hash s W)|]. split; [eapply wf_nets; eauto|]. left. eapply wf_ne; eauto.
  - intros [<-|H]; cbn [e_gw e_nets]; [split; [reflexivity|split; [constructor|now right]]|].
    split; [now apply (wf_hash s W)|]. split; [eapply wf_nets; eauto|]. left. eapply wf_ne; eauto.
Qed.
Lemma update_wf s gw net plen vt : wf s -> wf (fst (update_entry hash s gw net plen vt)).
Proof.
  intros W. destruct (update_shape s gw net plen vt) as (E & _). apply (wf_ext (bset s (hash gw) (on_gw (base_bucket s gw) gw (upd_nets net plen vt)))); [intros k; now rewrite E|].
  apply wf_bset; [exact W| |rewrite on_gws; now apply base_gws]. intros e He. destruct (on_in _ _ _ _ (base_gws s gw W) He) as [(H1 & H2)|(e0 & H1 & H2 & ->)].
  - destruct (base_in s gw e W H1) as (A & B & [C|C]); [auto|contradiction].
  - destruct (base_in s gw e0 W H1) as (A & B & _). cbn [e_gw e_nets]. split; [reflexivity|]. split; [apply upd_nets_ne|now apply upd_nets_nodup].
Qed.
Lemma look_base_other s gw gw' : gw <> gw' -> look (base_bucket s gw) gw' = look (s (hash gw)) gw'.
Proof.
  intros N. unfold base_bucket. destruct (look (s (hash gw)) gw); [reflexivity|]. unfold look. cbn [find]. unfold is_gw at 1. cbn [e_gw].
  replace (bytes_eqb gw gw') with false by (symmetry; now apply beq_neq). reflexivity.
Qed.
Lemma update_get s gw net plen vt g n p : get (fst (update_entry hash s gw net plen vt)) g n p = say gw net plen vt (get s) g n p.
Proof.
  destruct (update_shape s gw net plen vt) as (E & _). rewrite (get_ext _ _ E). unfold get, say. rewrite skey_snet.
  destruct (bytes_eqb gw g) eqn:Q; cbn [andb].
  - apply beq_spec in Q. subst g. rewrite bset_same, look_on, beq_refl, look_base. cbn [option_map]. rewrite upd_nets_get.
    destruct (same_net net plen n p); [reflexivity|]. unfold base_nets. destruct (look (s (hash gw)) gw); [reflexivity|]. reflexivity.
  - destruct (Nat.eq_dec (hash g) (hash gw)) as [H|H]; [|now rewrite bset_other by auto]. rewrite H, bset_same, look_on, Q.
    rewrite look_base_other by now apply beq_neq. reflexivity.
Qed.
Lemma update_changed s gw net plen vt : In EChanged (snd (update_entry hash s gw net plen vt)) <-> get s gw net plen = None.
Proof.
  destruct (update_shape s gw net plen vt) as (_ & E). rewrite E. unfold get, base_nets. rewrite in_app_iff. destruct (look (s (hash gw)) gw) as [nets|].
  - destruct (lookup_net nets net plen); cbn [option_map In]; split; try discriminate; intuition congruence.
  - cbn [lookup_net find In]. unfold lookup_net. cbn [find In]. tauto.
Qed.

(** expiry *)
Lemma expire_wf v6 s gw net plen : wf s -> wf (fst (expire hash v6 s gw net plen)).
Proof.
  intros W. unfold expire. destruct (lookup_gw hash s gw) as [e|]; [|exact W]. destruct (lookup_net (e_nets e) net plen); [|exact W]. cbn [fst].
  assert (ND : NoDup (map e_gw (on_gw (s (hash gw)) gw (drop_net net plen)))) by (rewrite on_gws; apply W).
  apply wf_bset; [exact W| |now apply prune_nodup]. intros x Hx.
  assert (LP : look (prune gw (on_gw (s (hash gw)) gw (drop_net net plen))) (e_gw x) = Some (e_nets x)).
  { pose proof (prune_nodup gw _ ND) as ND2. revert Hx ND2. generalize (prune gw (on_gw (s (hash gw)) gw (drop_net net plen))). clear. intros l H ND.
    unfold look. induction l as [|y r IH]; [contradiction|]. cbn [map] in ND. inversion ND as [|? ? H1 H2]; subst. cbn [find]. destruct H as [<-|H].
    - unfold is_gw. now rewrite beq_refl.
    - destruct (is_gw (e_gw x) y) eqn:Q; [|auto]. apply beq_spec in Q. exfalso. apply H1. rewrite Q. now apply in_map. }
  apply prune_in in Hx. destruct (on_in _ _ _ _ (wf_gws s W (hash gw)) Hx) as [(H1 & H2)|(e0 & H1 & H2 & ->)].
  - split; [now apply (wf_hash s W)|]. split; [eapply wf_ne; eauto|eapply wf_nets; eauto].
  - cbn [e_gw e_nets] in *. split; [reflexivity|]. split; [|apply drop_nodup; eapply wf_nets; eauto].
    rewrite look_prune in LP by exact ND. rewrite beq_refl in LP. rewrite look_on, beq_refl in LP. intros C. rewrite C in LP.
    destruct (option_map (drop_net net plen) (look (s (hash gw)) gw)) as [[|]|]; discriminate.
Qed.
Lemma expire_get v6 s gw net plen g n p : wf s -> get (fst (expire hash v6 s gw net plen)) g n p = forget gw net plen (get s) g n p.
Proof.
  intros W. unfold forget. rewrite skey_snet. unfold expire. pose proof (lookup_look s gw) as LL. destruct (lookup_gw hash s gw) as [e|]; cbn [option_map] in LL.
  2:{ cbn [fst]. destruct (bytes_eqb gw g) eqn:Q; cbn [andb]; [|reflexivity]. apply beq_spec in Q. subst g. unfold get. rewrite <- LL. now destruct (same_net net plen n p). }
  destruct (lookup_net (e_nets e) net plen) as [x|] eqn:LN.
  2:{ cbn [fst]. destruct (bytes_eqb gw g && same_net net plen n p) eqn:Q; [|reflexivity]. apply andb_true_iff in Q. destruct Q as (Q1 & Q2). apply beq_spec in Q1.
      apply snet_spec in Q2. destruct Q2. subst. unfold get. rewrite <- LL, LN. reflexivity. }
  cbn [fst]. clear x LN. assert (NDn : NoDup (map nkey (e_nets e))).
  { symmetry in LL. apply look_in in LL. apply (wf_nets s W _ _ LL). }
  assert (ND : NoDup (map e_gw (on_gw (s (hash gw)) gw (drop_net net plen)))) by (rewrite on_gws; apply W). unfold get.
  destruct (bytes_eqb gw g) eqn:Q; cbn [andb].
  - apply beq_spec in Q. subst g. rewrite bset_same, look_prune, beq_refl, look_on, beq_refl, <- LL by exact ND. cbn [option_map].
    pose proof (lookup_drop net plen n p (e_nets e) NDn) as LD. destruct (drop_net net plen (e_nets e)) as [|y r].
    + cbn [lookup_net find] in LD. unfold lookup_net in LD at 1. cbn [find] in LD. destruct (same_net net plen n p); [reflexivity|]. unfold lookup_net. now rewrite <- LD.
    + rewrite LD. now destruct (same_net net plen n p).
  - destruct (Nat.eq_dec (hash g) (hash gw)) as [H|H]; [|now rewrite bset_other by auto]. rewrite H, bset_same, look_prune, Q, look_on, Q by exact ND. reflexivity.
Qed.

(** cleanup *)
Lemma clean_filter v6 o l : (forall e, In e l -> e_nets e <> []) ->
  fst (clean_bucket v6 o l) = filter (fun e => negb (bytes_eqb (e_gw e) o)) l.
Proof.
  induction l as [|e r IH]; intros H; [reflexivity|]. cbn [clean_bucket filter]. specialize (IH (fun x Hx => H x (or_intror Hx))).
  destruct (clean_bucket v6 o r) as [r' ef]. cbn [fst] in IH. subst r'. specialize (H e (or_introl eq_refl)). destruct (e_nets e); [contradiction|].
  destruct (bytes_eqb (e_gw e) o); reflexivity.
Qed.
Lemma nodup_filter_map {A B} (f : A -> B) p l : NoDup (map f l) -> NoDup (map f (filter p l)).
Proof.
  induction l as [|x l IH]; [auto|]. cbn [map filter]. intros H. inversion H as [|? ? H1 H2]; subst. destruct (p x); [|auto]. cbn [map]. constructor; [|auto].
  intros C. apply H1. apply in_map_iff in C. destruct C as (y & Y1 & Y2). apply filter_In in Y2. rewrite <- Y1. apply in_map. tauto.
Qed.
Lemma cleanup_bucket v6 s o h : wf s -> fst (cleanup v6 s o) h = filter (fun e => negb (bytes_eqb (e_gw e) o)) (s h).
Proof.
  intros W. unfold cleanup. cbn [fst]. destruct (Nat.ltb_spec h HASHSIZE) as [L|L].
  - apply clean_filter. apply (wf_ne s W h).
  - destruct (s h) as [|e r] eqn:E; [reflexivity|]. exfalso. pose proof (wf_hash s W h e) as Q. rewrite E in Q. specialize (Q (or_introl eq_refl)). pose proof (HB (e_gw e)). lia.
Qed.
Lemma cleanup_wf v6 s o : wf s -> wf (fst (cleanup v6 s o)).
Proof.
  intros W. apply (wf_ext (fun h => filter (fun e => negb (bytes_eqb (e_gw e) o)) (s h))); [intros k; symmetry; now apply cleanup_bucket|].
  constructor; intros h.
  - intros e He. apply filter_In in He. now apply (wf_hash s W).
  - apply nodup_filter_map. apply W.
  - intros e He. apply filter_In in He. eapply wf_ne; eauto. apply He.
  - intros e He. apply filter_In in He. eapply wf_nets; eauto. apply He.
Qed.
Lemma look_filter o l gw : look (filter (fun e => negb (bytes_eqb (e_gw e) o)) l) gw = if bytes_eqb o gw then None else look l gw.
Proof.
  destruct (bytes_eqb o gw) eqn:E.
  - apply beq_spec in E. subst o. apply look_none. intros C. apply in_map_iff in C. destruct C as (e & E1 & E2). apply filter_In in E2. destruct E2 as (_ & E2).
    rewrite E1, beq_refl in E2. discriminate.
  - unfold look. induction l as [|e r IH]; [reflexivity|]. cbn [filter find]. destruct (bytes_eqb (e_gw e) o) eqn:Q; cbn [negb find].
    + replace (is_gw gw e) with false; [exact IH|]. symmetry. apply beq_spec in Q. unfold is_gw. now rewrite Q.
    + destruct (is_gw gw e); [reflexivity|exact IH].
Qed.
Lemma cleanup_get v6 s o g n p : wf s -> get (fst (cleanup v6 s o)) g n p = forget_all o (get s) g n p.
Proof.
  intros W. unfold get, forget_all. rewrite cleanup_bucket by exact W. rewrite look_filter. now destruct (bytes_eqb o g).
Qed.

(** messages *)
Variable c : hcfg.
Lemma ips_pos : 4 <= ipsize c <= 16.
Proof. unfold ipsize. destruct (h_v6 c); lia. Qed.
Lemma foreign_spec orig seqn vt net mask s :
  input_pair hash c orig seqn vt net mask s = (s, []) /\ foreign c (net, mask) = false
  \/ (exists x, input_pair hash c orig seqn vt net mask s = (s, [x]) /\ foreign c (net, mask) = false /\ x <> EChanged /\ (forall m, route1 m x = m))
  \/ (input_pair hash c orig seqn vt net mask s = update_entry hash s orig net (netmask_to_prefix mask) vt /\ foreign c (net, mask) = true).
Proof.
  unfold input_pair, foreign. cbv zeta. set (plen := netmask_to_prefix mask). clearbody plen.
  destruct (h_smartgw c && is_smart_gateway (h_v6 c) (net, plen) mask) eqn:G.
  { right; left. exists (EGwUpd orig mask plen seqn vt). apply andb_true_iff in G. destruct G as (-> & ->). repeat split. discriminate. }
  replace (plen >? 0) with (0 <? plen) by lia.
  destruct (h_smartgw c && match h_maxgw c with Some m => (0 <? plen) && (plen <=? m) | None => false end) eqn:M.
  { left. split; [reflexivity|]. apply andb_true_iff in M. destruct M as (-> & ->). now rewrite orb_true_r. }
  assert (GM : h_smartgw c && (is_smart_gateway (h_v6 c) (net, plen) mask || match h_maxgw c with Some m => (0 <? plen) && (plen <=? m) | None => false end) = false).
  { rewrite andb_orb_distrib_r, G, M. reflexivity. }
  rewrite GM. cbn [negb andb].
  assert (E1 : existsb (fun a => bytes_eqb a net) (h_ifs c) = existsb (bytes_eqb net) (h_ifs c)).
  { induction (h_ifs c) as [|a l IH]; [reflexivity|]. cbn [existsb]. now rewrite IH, beq_sym. }
  rewrite E1. destruct (existsb (bytes_eqb net) (h_ifs c)).
  { right; left. exists (ECollision net orig). cbn [negb andb]. repeat split. discriminate. }
  assert (E2 : own_hna c net plen = existsb (fun h => bytes_eqb net (fst h) && (snd h =? plen)) (h_own c)).
  { unfold own_hna. induction (h_own c) as [|a l IH]; [reflexivity|]. cbn [existsb]. rewrite IH. f_equal. rewrite andb_comm. f_equal. lia. }
  rewrite E2. destruct (existsb (fun h => bytes_eqb net (fst h) && (snd h =? plen)) (h_own c)); cbn [negb andb]; [left; auto|right; right; auto].
Qed.

(** equality of maps is pointwise *)
Definition meq (a b : hmap) : Prop := forall g n p, a g n p = b g n p.
Lemma heard_pair_meq o vt a b p : meq a b -> meq (heard_pair c o vt a p) (heard_pair c o vt b p).
Proof. intros E g n q. unfold heard_pair. destruct (foreign c p); [|apply E]. unfold say. now rewrite E. Qed.
Lemma fold_meq o vt l : forall a b, meq a b -> meq (fold_left (heard_pair c o vt) l a) (fold_left (heard_pair c o vt) l b).
Proof. induction l as [|p l IH]; intros a b E; [exact E|]. cbn [fold_left]. apply IH. now apply heard_pair_meq. Qed.

(** the routes agree with the table *)
Definition present (m : hmap) : list Z -> list Z -> Z -> bool := fun g n p => match m g n p with Some _ => true | None => false end.
Definition req (a b : list Z -> list Z -> Z -> bool) : Prop := forall g n p, a g n p = b g n p.
Lemma route1_req a b x : req a b -> req (route1 a x) (route1 b x).
Proof. intros E g n p. destruct x; cbn [route1]; rewrite ?E; try reflexivity; apply E. Qed.
Lemma routes_req l : forall a b, req a b -> req (fold_left route1 l a) (fold_left route1 l b).
Proof. induction l as [|x l IH]; intros a b E; [exact E|]. cbn [fold_left]. apply IH. now apply route1_req. Qed.

Lemma update_routes s gw net plen vt r : req r (present (get s)) ->
  req (fold_left route1 (snd (update_entry hash s gw net plen vt)) r) (present (get (fst (update_entry hash s gw net plen vt)))).
Proof.
  intros E g n p. unfold present. rewrite update_get. destruct (update_shape s gw net plen vt) as (_ & ->).
  replace (fold_left route1 (match lookup_net (base_nets s gw) net plen with Some _ => [] | None => [EChanged] end ++ [EIns net plen gw]) r g n p) with (same_key gw net plen g n p || r g n p).
  - unfold say. rewrite E. unfold present. destruct (same_key gw net plen g n p); reflexivity.
  - destruct (lookup_net (base_nets s gw) net plen); reflexivity.
Qed.
Lemma del_routes v6 gw x r : req (fold_left route1 (del_effects v6 gw x) r) (fun g n p => negb (same_key gw (n_net x) (n_plen x) g n p) && r g n p).
Proof. intros g n p. unfold del_effects. destruct (is_prefix_inetgw v6 (n_net x, n_plen x)); reflexivity. Qed.
Lemma expire_routes v6 s gw net plen r : wf s -> req r (present (get s)) ->
  req (fold_left route1 (snd (expire hash v6 s gw net plen)) r) (present (get (fst (expire hash v6 s gw net plen)))).
Proof.
  intros W E g n p. unfold present at 1. rewrite expire_get by exact W. unfold expire. pose proof (lookup_look s gw) as LL.
  assert (G : get s gw net plen = None -> r g n p = match forget gw net plen (get s) g n p with Some _ => true | None => false end).
  { intros G. unfold forget. rewrite E. unfold present. destruct (same_key gw net plen g n p) eqn:K; [|reflexivity].
    apply skey_spec in K. destruct K as (<- & <- & <-). now rewrite G. }
  destruct (lookup_gw hash s gw) as [e|]; cbn [option_map] in LL.
  2:{ cbn [snd fold_left]. apply G. unfold get. now rewrite <- LL. }
  destruct (lookup_net (e_nets e) net plen) as [x|] eqn:LN.
  2:{ cbn [snd fold_left]. apply G. unfold get. now rewrite <- LL, LN. }
  cbn [snd]. clear G. rewrite del_routes. unfold lookup_net in LN. apply find_some in LN. destruct LN as (_ & LN). apply net_is_spec in LN. unfold nkey in LN. injection LN as -> ->.
  unfold forget. destruct (same_key gw net plen g n p); [reflexivity|]. cbn [negb andb]. apply E.
Qed.
Lemma drain_routes v6 gw nets : forall r, req (fold_left route1 (drain v6 gw nets) r)
  (fun g n p => negb (bytes_eqb gw g && match lookup_net nets n p with Some _ => true | None => false end) && r g n p).
Proof.
  induction nets as [|x nets IH]; intros r g n p.
  - cbn [drain fold_left]. unfold lookup_net. cbn [find]. now rewrite andb_false_r.
  - cbn [drain]. rewrite fold_left_app, IH, (del_routes v6 gw x r g n p). rewrite skey_snet. unfold lookup_net. cbn [find].
    assert (K : net_is n p x = same_net (n_net x) (n_plen x) n p) by (unfold net_is, same_net; apply andb_comm). rewrite K.
    destruct (bytes_eqb gw g), (same_net (n_net x) (n_plen x) n p), (find (net_is n p) nets); reflexivity.
Qed.
Lemma bucket_routes v6 o l : (forall e, In e l -> e_nets e <> []) -> NoDup (map e_gw l) -> forall r,
  req (fold_left route1 (snd (clean_bucket v6 o l)) r)
  (fun g n p => negb (bytes_eqb o g && match look l o with Some nets => match lookup_net nets n p with Some _ => true | None => false end | None => false end) && r g n p).
Proof.
  induction l as [|e l IH]; intros H ND r g n p.
  - cbn. now rewrite andb_false_r.
  - cbn [map] in ND. inversion ND as [|? ? N1 N2]; subst. specialize (IH (fun x Hx => H x (or_intror Hx)) N2). cbn [clean_bucket].
    destruct (clean_bucket v6 o l) as [r' ef]. cbn [snd] in IH. specialize (H e (or_introl eq_refl)). destruct (e_nets e) as [|x nets] eqn:EN; [contradiction|].
    unfold look in *. cbn [find]. destruct (bytes_eqb (e_gw e) o) eqn:Q.
    + change (is_gw o e = true) in Q. rewrite Q. cbn [snd option_map]. rewrite fold_left_app, IH, drain_routes, EN. apply beq_spec in Q. rewrite Q.
      assert (LN : option_map e_nets (find (is_gw o) l) = None) by (apply look_none; now rewrite <- Q). rewrite LN. now rewrite andb_false_r.
    + change (is_gw o e = false) in Q. rewrite Q. cbn [snd]. apply IH.
Qed.
Lemma cleanup_routes v6 s o r : wf s -> req r (present (get s)) ->
  req (fold_left route1 (snd (cleanup v6 s o)) r) (present (get (fst (cleanup v6 s o)))).
Proof.
  intros W E g n p. unfold present at 1. rewrite cleanup_get by exact W. unfold cleanup. cbn [snd].
  assert (G : forall hs r, req (fold_left route1 (flat_map (fun h => snd (clean_bucket v6 o (s h))) hs) r)
     (fun g n p => negb (bytes_eqb o g && existsb (fun h => match look (s h) o with Some nets => match lookup_net nets n p with Some _ => true | None => false end | None => false end) hs) && r g n p)).
  { clear r E g n p. induction hs as [|h hs IH]; intros r g n p; cbn [flat_map existsb]; [now rewrite andb_false_r|].
    rewrite fold_left_app, IH, bucket_routes; [|apply (wf_ne s W h)|apply W]. destruct (bytes_eqb o g); cbn [andb negb]; [|reflexivity].
    match goal with |- negb ?X && (negb ?Y && ?R) = _ => destruct X, Y, R; reflexivity end. }
  rewrite G, E. clear G. unfold forget_all, present. destruct (bytes_eqb o g) eqn:Q; cbn [andb negb]; [|reflexivity]. apply beq_spec in Q. subst g.
  destruct (get s o n p) eqn:GE; [|apply andb_false_r]. rewrite andb_true_r. apply negb_false_iff. apply existsb_exists. exists (hash o).
  split; [apply in_seq; pose proof (HB o); lia|]. unfold get in GE. destruct (look (s (hash o)) o); [|discriminate]. destruct (lookup_net l n p); [reflexivity|discriminate].
Qed.

Definition pairs_at (b : list Z) (curr : Z) (k : nat) : list (list Z * list Z) :=
  map (fun i => (slice b (curr + 2 * ipsize c * Z.of_nat i) (ipsize c), slice b (curr + 2 * ipsize c * Z.of_nat i + ipsize c) (ipsize c))) (seq 0 k).
Lemma pairs_S b curr k : pairs_at b curr (S k) = (slice b curr (ipsize c), slice b (curr + ipsize c) (ipsize c)) :: pairs_at b (curr + 2 * ipsize c) k.
Proof.
  unfold pairs_at. cbn [seq map]. rewrite <- seq_shift, map_map. pose proof ips_pos. set (z := ipsize c) in *. clearbody z.
  replace (curr + 2 * z * Z.of_nat 0) with curr by lia. f_equal. apply map_ext. intros i. replace (curr + 2 * z * Z.of_nat (S i)) with (curr + 2 * z + 2 * z * Z.of_nat i) by lia. reflexivity.
Qed.
Lemma kz z curr fin k : 4 <= z -> fin <= curr -> fin = curr + 2 * z * Z.of_nat k -> k = 0%nat.
Proof. intros A B C. destruct k; [reflexivity|]. exfalso. rewrite Nat2Z.inj_succ in C. pose proof (Nat2Z.is_nonneg k). nia. Qed.
Lemma loop_any b orig seqn vt : forall fuel k curr fin s s' ef, wf s -> fin = curr + 2 * ipsize c * Z.of_nat k ->
  input_loop hash fuel c b orig seqn vt curr fin s = Some (s', ef) ->
  wf s' /\ meq (get s') (fold_left (heard_pair c orig vt) (pairs_at b curr k) (get s))
  /\ (forall r, req r (present (get s)) -> req (fold_left route1 ef r) (present (get s')))
  /\ (In EChanged ef <-> exists g n p, get s g n p = None /\ get s' g n p <> None)
  /\ (forall g n p, get s g n p <> None -> get s' g n p <> None).
Proof.
  pose proof ips_pos as IP. induction fuel as [|fuel IH]; intros k curr fin s s' ef W F H; cbn [input_loop] in H; destruct (Z.ltb_spec curr fin) as [L|L].
  - discriminate.
  - apply Some_inj in H. injection H as <- <-. assert (k = 0%nat) by (eapply kz; eauto; lia). subst k. split; [exact W|]. split; [intros g n p; reflexivity|].
    split; [auto|]. split; [|auto]. split; [contradiction|intros (g & n & p & A & B); congruence].
  - destruct k as [|k]; [lia|]. unfold bind in H. destruct (rdn b curr (ipsize c)) as [net|] eqn:R1; [|discriminate]. destruct (rdn b (curr + ipsize c) (ipsize c)) as [mask|] eqn:R2; [|discriminate].
    apply rdn_inv in R1, R2. destruct R1 as (_ & _ & _ & ->). destruct R2 as (_ & _ & _ & ->). set (net := slice b curr (ipsize c)) in *. set (mask := slice b (curr + ipsize c) (ipsize c)) in *.
    destruct (input_pair hash c orig seqn vt net mask s) as [s1 e1] eqn:P. destruct (input_loop hash fuel c b orig seqn vt (curr + 2 * ipsize c) fin s1) as [[s2 e2]|] eqn:Q; [|discriminate].
    apply Some_inj in H. cbn [fst snd] in H. injection H as -> <-.
    assert (ST : wf s1 /\ meq (get s1) (heard_pair c orig vt (get s) (net, mask)) /\ (forall r, req r (present (get s)) -> req (fold_left route1 e1 r) (present (get s1)))
       /\ (In EChanged e1 <-> exists g n p, get s g n p = None /\ get s1 g n p <> None) /\ (forall g n p, get s g n p <> None -> get s1 g n p <> None)).
    { destruct (foreign_spec orig seqn vt net mask s) as [(A & B)|[(x & A & B & C & D)|(A & B)]]; rewrite A in P; unfold heard_pair; rewrite B.
      - injection P as <- <-. split; [exact W|]. split; [intros g n p; reflexivity|]. split; [auto|]. split; [|auto]. split; [contradiction|intros (g & n & p & A1 & B1); congruence].
      - injection P as <- <-. split; [exact W|]. split; [intros g n p; reflexivity|]. split; [intros r Hr; cbn [fold_left]; now rewrite D|]. split; [|auto].
        split; [intros [X|X]; [congruence|contradiction]|intros (g & n & p & A1 & B1); congruence].
      - cbn [fst snd]. pose proof (update_wf s orig net (netmask_to_prefix mask) vt W) as U1. pose proof (update_get s orig net (netmask_to_prefix mask) vt) as U2.
        pose proof (update_routes s orig net (netmask_to_prefix mask) vt) as U3. pose proof (update_changed s orig net (netmask_to_prefix mask) vt) as U4. rewrite P in *. cbn [fst snd] in *.
        split; [exact U1|]. split; [exact U2|]. split; [exact U3|]. split.
        + rewrite U4. split.
          * intros G. exists orig, net, (netmask_to_prefix mask). split; [exact G|]. rewrite U2. unfold say. replace (same_key _ _ _ _ _ _) with true by (symmetry; now apply skey_spec). discriminate.
          * intros (g & n & p & G1 & G2). rewrite U2 in G2. unfold say in G2. destruct (same_key orig net (netmask_to_prefix mask) g n p) eqn:K; [|contradiction].
            apply skey_spec in K. destruct K as (-> & -> & ->). exact G1.
        + intros g n p G. rewrite U2. unfold say. destruct (same_key orig net (netmask_to_prefix mask) g n p); [discriminate|exact G]. }
    destruct ST as (W1 & M1 & R1 & C1 & K1).
    assert (F' : fin = curr + 2 * ipsize c + 2 * ipsize c * Z.of_nat k) by (clear - F; lia).
    destruct (IH k _ _ _ _ _ W1 F' Q) as (W2 & M2 & R2 & C2 & K2).
    split; [exact W2|]. split; [|split; [|split]].
    + intros g n p. rewrite M2. rewrite pairs_S. cbn [fold_left]. now apply fold_meq.
    + intros r Hr. rewrite fold_left_app. auto.
    + rewrite in_app_iff, C1, C2. split.
      * intros [(g & n & p & A & B)|(g & n & p & A & B)]; exists g, n, p; [auto|]. split; [|exact B].
        destruct (get s g n p) eqn:G; [|reflexivity]. exfalso. apply (K1 g n p); congruence.
      * intros (g & n & p & A & B). destruct (get s1 g n p) eqn:G; [left|right]; exists g, n, p; split; auto; congruence.
    + auto.
  - apply Some_inj in H. injection H as <- <-. assert (k = 0%nat) by (eapply kz; eauto; lia). subst k. split; [exact W|]. split; [intros g n p; reflexivity|].
    split; [auto|]. split; [|auto]. split; [contradiction|intros (g & n & p & A & B); congruence].
Qed.
Lemma loop_neg b orig seqn vt fuel curr fin s : fin <= curr -> input_loop hash fuel c b orig seqn vt curr fin s = Some (s, []).
Proof. intros H. destruct fuel; cbn [input_loop]; replace (curr <? fin) with false by lia; reflexivity. Qed.
Lemma pairs_eq b : m_pairs c b = pairs_at b (8 + ipsize c) (Z.to_nat (m_count c b)).
Proof. reflexivity. Qed.

(** one step of any kind keeps these *)
Definition step_ok (e : hev) (s s' : hset) (ef : list heff) : Prop :=
  wf s' /\ meq (get s') (heard1 c (get s) e)
  /\ (forall r, req r (present (get s)) -> req (fold_left route1 ef r) (present (get s'))).
Lemma input_ok sym b s s' ef acc : wf s -> input_hna hash c sym b s = Some (s', ef, acc) ->
  step_ok (HMsg sym b) s s' ef /\ (In EChanged ef <-> exists g n p, get s g n p = None /\ get s' g n p <> None) /\ acc = m_ok c sym b.
Proof.
  intros W H. unfold input_hna, bind in H. unfold step_ok, heard1, m_ok. pose proof ips_pos as IP.
  assert (ID : forall (s' : hset) (ef : list heff), s' = s -> ef = [] -> (wf s' /\ meq (get s') (get s) /\ (forall r, req r (present (get s)) -> req (fold_left route1 ef r) (present (get s'))))
     /\ (In EChanged ef <-> exists g n p, get s g n p = None /\ get s' g n p <> None)).
  { intros ? ? -> ->. split; [split; [exact W|split; [intros g n p; reflexivity|auto]]|]. split; [contradiction|intros (g & n & p & A & B); congruence]. }
  unfold rd8 in H. destruct (rdn b 0 1) as [ty|] eqn:R0; [|discriminate]. cbn [option_map] in H. apply rdn_inv in R0. destruct R0 as (_ & _ & _ & ->).
  unfold HNA_MESSAGE in H. destruct (be (slice b 0 1) =? 4); cbn [negb andb] in *.
  2:{ apply Some_inj in H. injection H as <- <- <-. destruct (ID s [] eq_refl eq_refl). auto. }
  destruct (rdn b 1 1) as [me|] eqn:R1; [|discriminate]. cbn [option_map] in H. apply rdn_inv in R1. destruct R1 as (_ & _ & _ & ->).
  unfold rd16 in H. destruct (rdn b 2 2) as [sz|] eqn:R2; [|discriminate]. cbn [option_map] in H. apply rdn_inv in R2. destruct R2 as (_ & _ & _ & ->).
  destruct (rdn b 4 (ipsize c)) as [orig|] eqn:R3; [|discriminate]. apply rdn_inv in R3. destruct R3 as (_ & _ & _ & ->).
  destruct (rdn b (4 + ipsize c) 2); [|discriminate]. destruct (rdn b (6 + ipsize c) 2) as [sq|]; [|discriminate]. cbn [option_map] in H.
  fold (m_size b) in *. fold (m_vtime b) in H. fold (m_orig c b) in H.
  destruct ((m_size b - 8 - ipsize c) mod (2 * ipsize c) =? 0) eqn:MD; cbn [negb] in H.
  2:{ apply Some_inj in H. injection H as <- <- <-. rewrite !andb_false_r. destruct (ID s [] eq_refl eq_refl). auto. }
  destruct sym; cbn [negb andb] in *.
  2:{ apply Some_inj in H. injection H as <- <- <-. destruct (ID s [] eq_refl eq_refl). auto. }
  destruct (input_loop hash (Z.to_nat (m_size b)) c b (m_orig c b) (be sq) (m_vtime b) (8 + ipsize c) (m_size b) s) as [[s1 e1]|] eqn:Q; [|discriminate].
  apply Some_inj in H. cbn [fst snd] in H. injection H as -> -> <-.
  assert (DM : m_size b = 8 + ipsize c + 2 * ipsize c * m_count c b).
  { unfold m_count. assert (MZ : (m_size b - 8 - ipsize c) mod (2 * ipsize c) = 0) by lia. pose proof (Z.div_mod (m_size b - 8 - ipsize c) (2 * ipsize c) ltac:(lia)) as D. rewrite MZ in D. lia. }
  destruct (Z_lt_le_dec (m_count c b) 0) as [N|N].
  - rewrite loop_neg in Q by nia. apply Some_inj in Q. injection Q as <- <-. rewrite pairs_eq. replace (Z.to_nat (m_count c b)) with 0%nat by lia. cbn [pairs_at seq map fold_left].
    destruct (ID s [] eq_refl eq_refl) as (A & B). auto.
  - assert (DM' : m_size b = 8 + ipsize c + 2 * ipsize c * Z.of_nat (Z.to_nat (m_count c b))) by (rewrite Z2Nat.id by lia; exact DM).
    destruct (loop_any b (m_orig c b) (be sq) (m_vtime b) _ (Z.to_nat (m_count c b)) _ _ _ _ _ W DM' Q) as (A & B & C & D & _).
    rewrite <- pairs_eq in B. auto.
Qed.
Lemma hstep_ok e s s' ef : wf s -> hstep hash c e s = Some (s', ef) ->
  step_ok e s s' ef /\ (In EChanged ef <-> exists g n p, get s g n p = None /\ get s' g n p <> None).
Proof.
  intros W. destruct e as [sym b|gw net plen|o]; cbn [hstep].
  - unfold bind. destruct (input_hna hash c sym b s) as [[[s1 e1] acc]|] eqn:H; [|discriminate]. cbn [fst]. intros E. apply Some_inj in E. injection E as <- <-.
    destruct (input_ok _ _ _ _ _ _ W H) as (A & B & _). auto.
  - intros E. apply Some_inj in E. pose proof (expire_wf (h_v6 c) s gw net plen W) as A. pose proof (fun g n p => expire_get (h_v6 c) s gw net plen g n p W) as B.
    pose proof (fun r => expire_routes (h_v6 c) s gw net plen r W) as C.
    assert (D : ~ In EChanged (snd (expire hash (h_v6 c) s gw net plen))).
    { unfold expire. destruct (lookup_gw hash s gw); [|auto]. destruct (lookup_net (e_nets h) net plen); [|auto]. cbn [snd]. unfold del_effects. destruct (is_prefix_inetgw _ _); cbn; intuition discriminate. }
    rewrite E in *. cbn [fst snd] in *. split; [split; [exact A|split; [exact B|exact C]]|]. split; [contradiction|]. intros (g & n & p & G1 & G2). exfalso. apply G2. rewrite B. unfold forget. now destruct (same_key gw net plen g n p).
  - intros E. apply Some_inj in E. pose proof (cleanup_wf (h_v6 c) s o W) as A. pose proof (fun g n p => cleanup_get (h_v6 c) s o g n p W) as B.
    pose proof (fun r => cleanup_routes (h_v6 c) s o r W) as C.
    assert (D : ~ In EChanged (snd (cleanup (h_v6 c) s o))).
    { unfold cleanup. cbn [snd]. intros X. apply in_flat_map in X. destruct X as (h & _ & X).
      assert (DR : forall gw nets, ~ In EChanged (drain (h_v6 c) gw nets)).
      { intros gw nets. induction nets as [|x nets IH]; [auto|]. cbn [drain]. rewrite in_app_iff. intros [Y|Y]; [|auto]. unfold del_effects in Y.
        destruct (is_prefix_inetgw _ _); cbn in Y; intuition discriminate. }
      induction (s h) as [|e l IH]; [contradiction|]. cbn [clean_bucket] in X. destruct (clean_bucket (h_v6 c) o l) as [l' e']. cbn [snd] in IH.
      destruct (e_nets e) as [|x nets]; [auto|]. destruct (bytes_eqb (e_gw e) o); [|auto]. cbn [snd] in X. apply in_app_iff in X. destruct X as [X|X]; [|auto]. now apply DR in X. }
    rewrite E in *. cbn [fst snd] in *. split; [split; [exact A|split; [exact B|exact C]]|]. split; [contradiction|]. intros (g & n & p & G1 & G2). exfalso. apply G2. rewrite B. unfold forget_all. now destruct (bytes_eqb o g).
Qed.
Lemma heard1_meq e a b : meq a b -> meq (heard1 c a e) (heard1 c b e).
Proof.
  intros E g n p. destruct e as [sym m|gw net plen|o]; cbn [heard1].
  - destruct (m_ok c sym m); [|apply E]. now apply fold_meq.
  - unfold forget. now rewrite E.
  - unfold forget_all. now rewrite E.
Qed.
Lemma heards_meq evs : forall a b, meq a b -> meq (fold_left (heard1 c) evs a) (fold_left (heard1 c) evs b).
Proof. induction evs as [|e evs IH]; intros a b E; [exact E|]. cbn [fold_left]. apply IH. now apply heard1_meq. Qed.
Lemma hrun_ok evs : forall s s' ef, wf s -> hrun hash c evs s = Some (s', ef) ->
  wf s' /\ meq (get s') (fold_left (heard1 c) evs (get s)) /\ (forall r, req r (present (get s)) -> req (fold_left route1 ef r) (present (get s'))).
Proof.
  induction evs as [|e evs IH]; intros s s' ef W H; cbn [hrun] in H.
  - apply Some_inj in H. injection H as <- <-. split; [exact W|]. split; [intros g n p; reflexivity|auto].
  - unfold bind in H. destruct (hstep hash c e s) as [[s1 e1]|] eqn:S1; [|discriminate]. cbn [fst snd] in H. destruct (hrun hash c evs s1) as [[s2 e2]|] eqn:R; [|discriminate].
    cbn [fst snd] in H. apply Some_inj in H. injection H as -> <-. destruct (hstep_ok _ _ _ _ W S1) as ((W1 & M1 & R1) & _). destruct (IH _ _ _ W1 R) as (W2 & M2 & R2).
    split; [exact W2|]. split.
    + intros g n p. rewrite M2. cbn [fold_left]. now apply heards_meq.
    + intros r Hr. rewrite fold_left_app. auto.
Qed.

(** the table as a flat list *)
Lemma in_ents s e : wf s -> In e (ents s) <-> In e (s (hash (e_gw e))).
Proof.
  intros W. unfold ents. rewrite in_flat_map. split.
  - intros (h & _ & H). now rewrite (wf_hash s W h e H).
  - intros H. exists (hash (e_gw e)). split; [apply in_seq; pose proof (HB (e_gw e)); lia|exact H].
Qed.
Lemma records_get s g n p v : wf s -> In (g, n, p, v) (records s) <-> get s g n p = Some v.
Proof.
  intros W. unfold records. rewrite in_flat_map. split.
  - intros (e & He & H). apply in_ents in He; [|exact W]. unfold recs_of in H. apply in_map_iff in H. destruct H as (x & E & Hx). injection E as <- <- <- <-.
    unfold get. rewrite (in_look s _ e W He). unfold lookup_net.
    pose proof (wf_nets s W _ _ He) as ND. assert (F : find (net_is (n_net x) (n_plen x)) (e_nets e) = Some x); [|now rewrite F].
    induction (e_nets e) as [|y l IH]; [contradiction|]. cbn [map] in ND. inversion ND as [|? ? N1 N2]; subst. cbn [find]. destruct Hx as [->|Hx].
    + replace (net_is (n_net x) (n_plen x) x) with true; [reflexivity|]. symmetry. now apply net_is_spec.
    + destruct (net_is (n_net x) (n_plen x) y) eqn:Q; [|auto]. apply net_is_spec in Q. exfalso. apply N1. change (n_net x, n_plen x) with (nkey x) in Q. rewrite Q. now apply in_map.
  - unfold get. destruct (look (s (hash g)) g) as [nets|] eqn:L; [|discriminate]. destruct (lookup_net nets n p) as [x|] eqn:F; [|discriminate]. cbn [option_map]. intros E. apply Some_inj in E. subst v.
    apply look_in in L. exists (mkEnt g nets). split; [apply in_ents; [exact W|exact L]|]. unfold recs_of. cbn [e_gw e_nets]. apply in_map_iff. exists x. unfold lookup_net in F.
    apply find_some in F. destruct F as (F1 & F2). apply net_is_spec in F2. unfold nkey in F2. injection F2 as <- <-. auto.
Qed.
Definition rkey (r : list Z * list Z * Z * Z) : list Z * list Z * Z := fst r.
Lemma nodup_app {A} (a b : list A) : NoDup a -> NoDup b -> (forall x, In x a -> ~ In x b) -> NoDup (a ++ b).
Proof.
  induction a as [|x a IH]; intros Ha Hb D; [exact Hb|]. inversion Ha as [|? ? H1 H2]; subst. cbn [app]. constructor.
  - rewrite in_app_iff. intros [C|C]; [auto|]. apply (D x); [now left|exact C].
  - apply IH; [exact H2|exact Hb|]. intros y Hy. apply D. now right.
Qed.
Lemma ents_nodup s : wf s -> NoDup (map e_gw (ents s)).
Proof.
  intros W. unfold ents. generalize (seq_NoDup HASHSIZE 0). generalize (seq 0 HASHSIZE). induction l as [|h l IH]; intros ND; [constructor|].
  inversion ND as [|? ? N1 N2]; subst. cbn [flat_map]. rewrite map_app. apply nodup_app; [apply W|auto|]. intros g Hg Hg2. apply in_map_iff in Hg, Hg2.
  destruct Hg as (e & E1 & E2), Hg2 as (e' & E1' & E2'). apply in_flat_map in E2'. destruct E2' as (h' & L & E2'). apply (wf_hash s W) in E2, E2'. subst. rewrite E1' in L. contradiction.
Qed.
Lemma records_nodup s : wf s -> NoDup (map rkey (records s)).
Proof.
  intros W. unfold records. pose proof (ents_nodup s W) as ND.
  assert (NN : forall e, In e (ents s) -> NoDup (map nkey (e_nets e))).
  { intros e He. apply in_ents in He; [|exact W]. eapply wf_nets; eauto. }
  induction (ents s) as [|e l IH]; [constructor|]. cbn [map] in ND. inversion ND as [|? ? N1 N2]; subst. cbn [flat_map]. rewrite map_app. apply nodup_app.
  - specialize (NN e (or_introl eq_refl)). unfold recs_of. rewrite map_map. revert NN. generalize (e_nets e). clear. intros l. induction l as [|x l IH]; cbn [map]; intros H; [constructor|].
    inversion H as [|? ? H1 H2]; subst. constructor; [|auto]. intros C. apply H1. apply in_map_iff in C. destruct C as (y & E & Hy). unfold rkey in E. cbn [fst] in E. injection E as E1 E2.
    apply in_map_iff. exists y. unfold nkey. split; [congruence|exact Hy].
  - apply IH; [exact N2|]. intros x Hx. apply NN. now right.
  - intros k Hk Hk2. apply in_map_iff in Hk, Hk2. destruct Hk as (r & R1 & R2), Hk2 as (r' & R1' & R2'). apply in_flat_map in R2'. destruct R2' as (e' & He' & R2').
    unfold recs_of in R2, R2'. apply in_map_iff in R2, R2'. destruct R2 as (x & X1 & _), R2' as (x' & X1' & _). subst r r' k. unfold rkey in R1'. cbn [fst] in R1'. injection R1' as E1 E2 E3.
    apply N1. rewrite <- E1. now apply in_map.
Qed.

(** no reading outside of a whole message *)
Lemma loop_safe b orig seqn vt : forall fuel k curr fin s, 0 <= curr -> fin = curr + 2 * ipsize c * Z.of_nat k -> (k <= fuel)%nat -> fin <= blen b ->
  input_loop hash fuel c b orig seqn vt curr fin s <> None.
Proof.
  pose proof ips_pos as IP. induction fuel as [|fuel IH]; intros k curr fin s C F K B; cbn [input_loop]; destruct (Z.ltb_spec curr fin) as [L|L]; try discriminate.
  - assert (k = 0%nat) by lia. subst k. lia.
  - destruct k as [|k]; [lia|]. rewrite rdn_some by lia. rewrite rdn_some by lia. unfold bind.
    destruct (input_pair hash c orig seqn vt (slice b curr (ipsize c)) (slice b (curr + ipsize c) (ipsize c)) s) as [s1 e1].
    specialize (IH k (curr + 2 * ipsize c) fin s1 ltac:(lia) ltac:(lia) ltac:(lia) B). destruct (input_loop hash fuel c b orig seqn vt (curr + 2 * ipsize c) fin s1); [discriminate|contradiction].
Qed.
Lemma input_safe sym b s : whole c b -> input_hna hash c sym b s <> None.
Proof.
  pose proof ips_pos as IP. intros (H1 & H2). unfold input_hna, bind, rd8, rd16. rewrite !rdn_some by lia. cbn [option_map]. fold (m_size b).
  destruct (negb (be (slice b 0 1) =? HNA_MESSAGE)); [discriminate|]. destruct ((m_size b - 8 - ipsize c) mod (2 * ipsize c) =? 0) eqn:MD; cbn [negb]; [|discriminate].
  destruct sym; cbn [negb]; [|discriminate].
  assert (DM : m_size b = 8 + ipsize c + 2 * ipsize c * m_count c b).
  { unfold m_count. assert (MZ : (m_size b - 8 - ipsize c) mod (2 * ipsize c) = 0) by lia. pose proof (Z.div_mod (m_size b - 8 - ipsize c) (2 * ipsize c) ltac:(lia)) as D. rewrite MZ in D. lia. }
  match goal with |- context [input_loop hash ?f c b ?o ?q ?v ?cu ?fi s] => assert (G : input_loop hash f c b o q v cu fi s <> None) end.
  { destruct (Z_lt_le_dec (m_count c b) 0) as [N|N].
    - rewrite loop_neg by nia. discriminate.
    - apply loop_safe with (Z.to_nat (m_count c b)); [lia|rewrite Z2Nat.id by lia; exact DM|nia|exact H2]. }
  match goal with |- context [input_loop hash ?f c b ?o ?q ?v ?cu ?fi s] => destruct (input_loop hash f c b o q v cu fi s); [discriminate|contradiction] end.
Qed.
Lemma hrun_safe evs : forall s, Forall (whole_ev c) evs -> hrun hash c evs s <> None.
Proof.
  induction evs as [|e evs IH]; intros s F; [discriminate|]. inversion F as [|? ? F1 F2]; subst. cbn [hrun]. unfold bind.
  assert (G : hstep hash c e s <> None).
  { destruct e as [sym b|gw net plen|o]; cbn [hstep]; try discriminate. unfold bind. pose proof (input_safe sym b s F1). destruct (input_hna hash c sym b s); [discriminate|contradiction]. }
  destruct (hstep hash c e s) as [x|]; [|contradiction]. specialize (IH (fst x) F2). destruct (hrun hash c evs (fst x)); [discriminate|contradiction].
Qed.
End Hash.

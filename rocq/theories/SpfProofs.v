From Verif Require Import Base Bytes Parser TcGraph TcGraphSpec TcGraphProofs Spf SpfSpec.
From Coq Require Import Sorting.Sorted.

Lemma updf_same {A} (f : Z -> A) i v : updf f i v i = v.
Proof. unfold updf. now rewrite Z.eqb_refl. Qed.
Lemma updf_other {A} (f : Z -> A) i v j : j <> i -> updf f i v j = f j.
Proof. intros H. unfold updf. replace (j =? i) with false by lia. reflexivity. Qed.

(** * the candidate list *)
Definition le_cost (cost : Z -> Z) (a b : Z) : Prop := cost a <= cost b.
Lemma cinsert_in cost n l x : In x (cinsert cost n l) <-> x = n \/ In x l.
Proof.
  induction l as [|y l IH]; cbn [cinsert].
  - cbn. intuition congruence.
  - destruct (cost n <? cost y); cbn [In]; [intuition congruence|]. rewrite IH. intuition congruence.
Qed.
Lemma cinsert_nodup cost n l : ~ In n l -> NoDup l -> NoDup (cinsert cost n l).
Proof.
  induction l as [|y l IH]; cbn [cinsert]; intros H N.
  - constructor; [intros []|constructor].
  - inversion N; subst. destruct (cost n <? cost y); [now constructor|]. constructor; [rewrite cinsert_in; intros [->|Q]; [apply H; now left|auto]|]. apply IH; [intros Q; apply H; now right|assumption].
Qed.
Lemma cinsert_sorted cost n l : StronglySorted (le_cost cost) l -> StronglySorted (le_cost cost) (cinsert cost n l).
Proof.
  induction l as [|y l IH]; cbn [cinsert]; intros H; [repeat constructor|]. inversion H as [|? ? H1 H2]; subst. rewrite Forall_forall in H2.
  destruct (cost n <? cost y) eqn:E.
  - constructor; [exact H|]. apply Forall_forall. intros z [<-|Hz]; unfold le_cost in *; [lia|]. specialize (H2 z Hz). lia.
  - constructor; [now apply IH|]. apply Forall_forall. intros z Hz. apply cinsert_in in Hz. destruct Hz as [->|Hz]; [unfold le_cost; lia|now apply H2].
Qed.
Lemma sorted_ext c1 c2 l : (forall x, In x l -> c1 x = c2 x) -> StronglySorted (le_cost c1) l -> StronglySorted (le_cost c2) l.
Proof.
  induction l as [|y l IH]; intros H S; [constructor|]. inversion S as [|? ? S1 S2]; subst. constructor; [apply IH; [intros x Hx; apply H; now right|exact S1]|].
  rewrite Forall_forall in *. intros x Hx. specialize (S2 x Hx). unfold le_cost in *. rewrite <- !H; [exact S2|now right|now left].
Qed.
Lemma sorted_filter {A} (R : A -> A -> Prop) f l : StronglySorted R l -> StronglySorted R (filter f l).
Proof.
  induction l as [|y l IH]; intros S; [constructor|]. inversion S as [|? ? S1 S2]; subst. cbn [filter]. destruct (f y); [|now apply IH]. constructor; [now apply IH|].
  rewrite Forall_forall in *. intros x Hx. apply filter_In in Hx. now apply S2.
Qed.
Lemma cdel_ok n l : In n l -> exists l', cdel n l = Some l' /\ l' = filter (fun m => negb (n =? m)) l.
Proof. intros H. unfold cdel. assert (existsb (Z.eqb n) l = true) as -> by (apply existsb_exists; exists n; split; [exact H|apply Z.eqb_refl]). eauto. Qed.
Lemma filter_ne n l x : In x (filter (fun m => negb (n =? m)) l) <-> In x l /\ x <> n.
Proof. rewrite filter_In. split; intros (A & B); (split; [exact A|]); lia. Qed.
Lemma filter_ne_id n l : ~ In n l -> filter (fun m => negb (n =? m)) l = l.
Proof. induction l as [|y l IH]; intros H; [reflexivity|]. cbn [filter]. destruct (n =? y) eqn:E; [exfalso; apply H; left; lia|]. cbn [negb]. f_equal. apply IH. intros Q. apply H. now right. Qed.

(** * Dijkstra on numbered nodes *)
Section Core.
Variable adj : Z -> list (Z * Z).
Variable src : Z.
Variable V : list Z.
Variable W : Z.
Variable nh0 : Z -> option Z.
Hypothesis V_nd : NoDup V.
Hypothesis src_V : In src V.
Hypothesis adj_V : forall p v c, In p V -> In (v, c) (adj p) -> In v V /\ 0 <= c <= W.
Hypothesis W_pos : 0 <= W.
Hypothesis W_ok : Z.of_nat (length V) * W < ROUTE_COST_BROKEN.

Inductive walk : Z -> Z -> Z -> option Z -> Prop :=
| w_here : walk src 0 0 None
| w_step p v d k f c : walk p d k f -> In (v, c) (adj p) -> walk v (d + c) (k + 1) (match f with None => Some v | Some u => Some u end).

Lemma W_nonneg p v c : In p V -> In (v, c) (adj p) -> 0 <= W.
Proof. intros A B. destruct (adj_V p v c A B). lia. Qed.

Lemma walk_V v d k f : walk v d k f -> In v V /\ 0 <= d /\ 0 <= k.
Proof. induction 1; [split; [exact src_V|lia]|]. destruct IHwalk as (A & B & C). destruct (adj_V p v c A H0). split; [assumption|lia]. Qed.

(** the way on which an entry got its fields *)
Definition way (st : sst) (v : Z) : Prop := exists k f, walk v (s_cost st v) k f /\ s_hops st v = k mod 256 /\
  (v = src -> k = 0 /\ f = None) /\ (v <> src -> exists u c, f = Some u /\ In (u, c) (adj src)) /\
  (nh0 src = None -> (forall u c, In (u, c) (adj src) -> nh0 u <> None) -> s_nh st v = match f with None => None | Some u => nh0 u end).

Record DI (D : list Z) (st : sst) : Prop := {
  di_nd : NoDup (D ++ s_cand st);
  di_V : incl (D ++ s_cand st) V;
  di_fin : forall v, In v V -> (In v (D ++ s_cand st) /\ s_cost st v < ROUTE_COST_BROKEN) \/ (~ In v (D ++ s_cand st) /\ s_cost st v = ROUTE_COST_BROKEN /\ s_nh st v = nh0 v);
  di_rng : forall v, In v (D ++ s_cand st) -> 0 <= s_cost st v <= Z.of_nat (length D) * W;
  di_srt : StronglySorted (le_cost (s_cost st)) (s_cand st);
  di_le : forall d c, In d D -> In c (s_cand st) -> s_cost st d <= s_cost st c;
  di_edge : forall d v c, In d D -> In (v, c) (adj d) -> s_cost st v <= s_cost st d + c;
  di_way : forall v, In v (D ++ s_cand st) -> way st v;
  di_src : s_cost st src = 0 /\ In src (D ++ s_cand st);
  di_first : match D with [] => s_cand st = [src] /\ (forall v, s_nh st v = nh0 v) | _ => In src D end;
  di_dsrt : StronglySorted (le_cost (s_cost st)) D;
  di_path : s_path st = D }.

(** while the edges of [p] are looked at *)
Record MI (D : list Z) (p : Z) (C : list Z) (seen : list (Z * Z)) (st : sst) : Prop := {
  mi_cand : s_cand st = p :: C;
  mi_nd : NoDup (D ++ p :: C);
  mi_V : incl (D ++ p :: C) V;
  mi_fin : forall v, In v V -> (In v (D ++ p :: C) /\ s_cost st v < ROUTE_COST_BROKEN) \/ (~ In v (D ++ p :: C) /\ s_cost st v = ROUTE_COST_BROKEN /\ s_nh st v = nh0 v);
  mi_rng : forall v, In v (D ++ [p]) -> 0 <= s_cost st v <= Z.of_nat (length D) * W;
  mi_rngC : forall v, In v C -> 0 <= s_cost st v <= (Z.of_nat (length D) + 1) * W;
  mi_srt : StronglySorted (le_cost (s_cost st)) (p :: C);
  mi_le : forall d c, In d D -> In c (p :: C) -> s_cost st d <= s_cost st c;
  mi_edge : forall d v c, In d D -> In (v, c) (adj d) -> s_cost st v <= s_cost st d + c;
  mi_seen : forall v c, In (v, c) seen -> s_cost st v <= s_cost st p + c;
  mi_way : forall v, In v (D ++ p :: C) -> way st v;
  mi_src : s_cost st src = 0 /\ In src (D ++ p :: C);
  mi_first : match D with [] => p = src /\ (nh0 src = None -> forall v, s_nh st v = nh0 v) | _ => In src D end;
  mi_dsrt : StronglySorted (le_cost (s_cost st)) D;
  mi_path : s_path st = D }.

Lemma relax1_ok D p C seen st v c : MI D p C seen st -> In (v, c) (adj p) ->
  exists st' C', relax1 p st v c = Some st' /\ MI D p C' (seen ++ [(v, c)]) st'.
Proof.
  intros M Hadj. destruct M as [Hc Hnd HV Hfin Hrng HrngC Hsrt Hle Hedge Hseen Hway Hsrc Hfirst Hdsrt Hpath].
  assert (pV : In p V) by (apply HV, in_or_app; right; now left).
  destruct (adj_V p v c pV Hadj) as (vV & Cc).
  assert (Rp : 0 <= s_cost st p <= Z.of_nat (length D) * W) by (apply Hrng, in_or_app; right; now left).
  assert (LD : (length D + 1 <= length V)%nat).
  { replace (length D + 1)%nat with (length (D ++ [p])) by (rewrite app_length; reflexivity). apply NoDup_incl_length.
    - replace (D ++ p :: C) with ((D ++ [p]) ++ C) in Hnd by now rewrite <- app_assoc. revert Hnd. generalize (D ++ [p]). intros l. induction l as [|y l IH]; intros N; [constructor|]. cbn in N. inversion N; subst. constructor; [intros Q; apply H1, in_or_app; now left|auto].
    - intros x Hx. apply HV. apply in_app_iff in Hx. apply in_or_app. destruct Hx as [Hx|[<-|[]]]; [now left|right; now left]. }
  assert (NC : s_cost st p + c <= (Z.of_nat (length D) + 1) * W) by lia.
  assert (NB : (Z.of_nat (length D) + 1) * W < ROUTE_COST_BROKEN).
  { apply Z.le_lt_trans with (Z.of_nat (length V) * W); [|exact W_ok]. apply Z.mul_le_mono_nonneg_r; lia. }
  unfold relax1. cbv zeta. replace (u32 (s_cost st p + c)) with (s_cost st p + c) by (unfold u32; rewrite Z.mod_small; [reflexivity|unfold ROUTE_COST_BROKEN in NB; lia]).
  set (nc := s_cost st p + c) in *. destruct (nc <? s_cost st v) eqn:E.
  2: { exists st, C. split; [reflexivity|]. constructor; try assumption. intros v' c' Q. apply in_app_iff in Q. destruct Q as [Q|[Q|[]]]; [now apply Hseen|]. injection Q as <- <-. lia. }
  assert (Hvp : v <> p) by (intros ->; unfold nc in E; lia).
  assert (HvD : ~ In v D). { intros Q. specialize (Hle v p Q (or_introl eq_refl)). unfold nc in E. lia. }
  assert (Hvs : v <> src) by (intros ->; unfold nc in E; lia).
  assert (X : exists cd, (if s_cost st v <? ROUTE_COST_BROKEN then cdel v (s_cand st) else Some (s_cand st)) = Some cd /\ cd = p :: filter (fun m => negb (v =? m)) C).
  { destruct (Hfin v vV) as [(Q & R)|(Q & R & _)].
    - replace (s_cost st v <? ROUTE_COST_BROKEN) with true by lia. rewrite Hc. destruct (cdel_ok v (p :: C)) as (l' & -> & ->).
      + apply in_app_iff in Q. destruct Q as [Q|Q]; [contradiction|exact Q].
      + eexists. split; [reflexivity|]. cbn [filter]. replace (v =? p) with false by lia. reflexivity.
    - replace (s_cost st v <? ROUTE_COST_BROKEN) with false by lia. exists (s_cand st). split; [reflexivity|]. rewrite Hc. f_equal. symmetry. apply filter_ne_id. intros Q2. apply Q, in_or_app. right. now right. }
  destruct X as (cd & -> & ->). set (C1 := filter (fun m => negb (v =? m)) C). set (cost' := updf (s_cost st) v nc).
  assert (Ep : cost' p = s_cost st p) by (unfold cost'; rewrite updf_other; auto).
  assert (Ev : cost' v = nc) by apply updf_same.
  assert (Eo : forall x, x <> v -> cost' x = s_cost st x) by (intros x Hx; unfold cost'; now apply updf_other).
  assert (ED : forall d, In d D -> cost' d = s_cost st d) by (intros d Hd; apply Eo; intros ->; contradiction).
  assert (CI : cinsert cost' v (p :: C1) = p :: cinsert cost' v C1). { cbn [cinsert]. rewrite Ev, Ep. replace (nc <? s_cost st p) with false; [reflexivity|]. unfold nc. lia. }
  exists (mkSs cost' (updf (s_hops st) v (u8 (s_hops st p + 1))) (match s_nh st p with Some l => updf (s_nh st) v (Some l) | None => s_nh st end) (cinsert cost' v (p :: C1)) (s_path st)), (cinsert cost' v C1).
  split; [reflexivity|].
  assert (C1v : ~ In v C1) by (unfold C1; rewrite filter_ne; tauto).
  assert (InC : forall x, In x (D ++ p :: cinsert cost' v C1) <-> x = v \/ In x (D ++ p :: C)).
  { intros x. rewrite !in_app_iff. cbn [In]. rewrite cinsert_in. unfold C1. rewrite filter_ne. destruct (Z.eq_dec x v); tauto. }
  apply StronglySorted_inv in Hsrt. destruct Hsrt as (Hs1 & Hs2). rewrite Forall_forall in Hs2.
  constructor; cbn [s_cost s_hops s_nh s_cand s_path].
  - exact CI.
  - assert (N0 : NoDup (D ++ p :: C1)). { replace (D ++ p :: C1) with (filter (fun m => negb (v =? m)) (D ++ p :: C)); [now apply NoDup_filter|]. rewrite filter_app. rewrite filter_ne_id by exact HvD. cbn [filter]. replace (v =? p) with false by lia. reflexivity. }
    assert (NV : ~ In v (D ++ p :: C1)) by (rewrite in_app_iff; cbn [In]; intuition congruence).
    clear -N0 NV. revert N0 NV. induction D as [|d D IH]; cbn [app]; intros N0 NV.
    + inversion N0; subst. constructor; [rewrite cinsert_in; intros [->|Q]; [apply NV; now left|auto]|]. apply cinsert_nodup; [intros Q; apply NV; now right|assumption].
    + inversion N0; subst. constructor; [|apply IH; [assumption|intros Q; apply NV; now right]]. rewrite in_app_iff in *. cbn [In] in *. rewrite cinsert_in. intros [Q|[Q|[Q|Q]]]; auto.
  - intros x Hx. apply InC in Hx. destruct Hx as [->|Hx]; [exact vV|now apply HV].
  - intros x Hx. rewrite InC. destruct (Z.eq_dec x v) as [->|Nx]; [left; rewrite Ev; split; [now left|lia]|]. rewrite Eo by exact Nx. destruct (Hfin x Hx) as [(Q & R)|(Q & R & T)]; [left; auto|right; split; [intros [?|?]; [congruence|contradiction]|split; [exact R|]]].
    destruct (s_nh st p); [rewrite updf_other by exact Nx|]; exact T.
  - intros x Hx. rewrite Eo; [now apply Hrng|]. intros ->. apply in_app_iff in Hx. destruct Hx as [Hx|[Hx|[]]]; [contradiction|congruence].
  - intros x Hx. apply cinsert_in in Hx. destruct Hx as [->|Hx]; [rewrite Ev; unfold nc; lia|]. apply filter_ne in Hx. rewrite Eo by apply Hx. now apply HrngC.
  - constructor.
    + apply cinsert_sorted. apply (sorted_ext (s_cost st)); [intros x Hx; apply filter_ne in Hx; symmetry; now apply Eo|]. now apply sorted_filter.
    + apply Forall_forall. intros x Hx. apply cinsert_in in Hx. unfold le_cost. rewrite Ep. destruct Hx as [->|Hx]; [rewrite Ev; unfold nc; lia|]. apply filter_ne in Hx. rewrite Eo by apply Hx. now apply Hs2.
  - intros d x Hd [<-|Hx]; [rewrite ED, Ep by exact Hd; apply (Hle d p Hd); now left|]. apply cinsert_in in Hx. rewrite (ED d Hd). specialize (Hle d). destruct Hx as [->|Hx].
    + rewrite Ev. specialize (Hle p Hd (or_introl eq_refl)). unfold nc. lia.
    + apply filter_ne in Hx. rewrite Eo by apply Hx. apply Hle; [exact Hd|now right].
  - intros d x c0 Hd Hx. rewrite (ED d Hd). specialize (Hedge d x c0 Hd Hx). destruct (Z.eq_dec x v) as [->|Nx]; [rewrite Ev|rewrite Eo by exact Nx]; lia.
  - intros x c0 Q. rewrite Ep. apply in_app_iff in Q. destruct Q as [Q|[Q|[]]].
    + specialize (Hseen x c0 Q). destruct (Z.eq_dec x v) as [->|Nx]; [rewrite Ev|rewrite Eo by exact Nx]; lia.
    + injection Q as <- <-. rewrite Ev. unfold nc. lia.
  - intros x Hx. apply InC in Hx. destruct (Z.eq_dec x v) as [->|Nx].
    + destruct (Hway p) as (k & f & W1 & W2 & W3 & W4 & W5); [apply in_or_app; right; now left|].
      exists (k + 1), (match f with None => Some v | Some u => Some u end). cbn [s_cost s_hops s_nh]. rewrite Ev, updf_same. split; [apply (w_step p v _ k f c W1 Hadj)|]. split.
      * rewrite W2. unfold u8. rewrite Zplus_mod_idemp_l. reflexivity.
      * split; [intros Q; contradiction|]. split.
        -- intros _. destruct (Z.eq_dec p src) as [Q|Q]; [destruct (W3 Q) as (_ & ->); exists v, c; rewrite <- Q; auto|]. destruct (W4 Q) as (u & cu & -> & Hu). exists u, cu. auto.
        -- intros N1 N2. specialize (W5 N1 N2). rewrite W5. destruct (Z.eq_dec p src) as [Q|Q].
           ++ destruct (W3 Q) as (_ & ->). destruct (Hfin v vV) as [(Q1 & Q2)|(Q1 & Q2 & Q3)]; [|exact Q3].
              destruct D as [|d D']; [apply (proj2 Hfirst N1)|].
              exfalso. subst p. clear -Hnd Hfirst. apply NoDup_remove_2 in Hnd. apply Hnd, in_or_app. now left.
           ++ destruct (W4 Q) as (u & cu & -> & Hu). destruct (nh0 u) as [l|] eqn:Enu; [now rewrite updf_same|exfalso; now apply (N2 u cu Hu)].
    + destruct Hx as [Hx|Hx]; [contradiction|]. destruct (Hway x Hx) as (k & f & W1 & W2 & W3 & W4 & W5). exists k, f. cbn [s_cost s_hops s_nh]. rewrite Eo by exact Nx. rewrite updf_other by exact Nx. split; [exact W1|]. split; [exact W2|]. split; [exact W3|]. split; [exact W4|].
      intros N1 N2. rewrite <- (W5 N1 N2). destruct (s_nh st p); [apply updf_other, Nx|reflexivity].
  - split; [rewrite Eo by congruence; apply Hsrc|]. apply InC. right. apply Hsrc.
  - destruct D as [|d D']; [|exact Hfirst]. destruct Hfirst as (-> & Hn). split; [reflexivity|]. intros N1 x. rewrite (Hn N1 src), N1. now apply Hn.
  - apply (sorted_ext (s_cost st)); [intros x Hx; symmetry; now apply ED|exact Hdsrt].
  - exact Hpath.
Qed.

Fixpoint relax_all (p : Z) (l : list (Z * Z)) (st : sst) : option sst :=
  match l with [] => Some st | (v, c) :: l' => match relax1 p st v c with None => None | Some st' => relax_all p l' st' end end.

Lemma relax_all_ok D p l : forall C seen st, MI D p C seen st -> incl l (adj p) -> exists st' C', relax_all p l st = Some st' /\ MI D p C' (seen ++ l) st'.
Proof.
  induction l as [|[v c] l IH]; intros C seen st M H; cbn [relax_all].
  - exists st, C. rewrite app_nil_r. auto.
  - destruct (relax1_ok D p C seen st v c M ltac:(apply H; now left)) as (st1 & C1 & -> & M1). destruct (IH C1 _ st1 M1 ltac:(intros x Hx; apply H; now right)) as (st2 & C2 & E2 & M2).
    exists st2, C2. split; [exact E2|]. rewrite <- app_assoc in M2. exact M2.
Qed.

Lemma app_nodup_move {A} (a : list A) x b : NoDup (a ++ x :: b) <-> NoDup ((a ++ [x]) ++ b).
Proof. rewrite <- app_assoc. reflexivity. Qed.

Lemma settle_ok D p C st : DI D st -> s_cand st = p :: C -> exists st1 cd, relax_all p (adj p) st = Some st1 /\ cdel p (s_cand st1) = Some cd /\
  DI (D ++ [p]) (mkSs (s_cost st1) (s_hops st1) (s_nh st1) cd (s_path st1 ++ [p])).
Proof.
  intros I Hc. destruct I as [Hnd HV Hfin Hrng Hsrt Hle Hedge Hway Hsrc Hfirst Hdsrt Hpath]. rewrite Hc in *.
  assert (M : MI D p C [] st).
  { constructor; auto.
    - intros v Hv. apply Hrng. apply in_app_iff in Hv. apply in_or_app. destruct Hv as [Hv|[<-|[]]]; [now left|right; now left].
    - intros v Hv. assert (Q : 0 <= s_cost st v <= Z.of_nat (length D) * W) by (apply Hrng, in_or_app; right; now right). split; [apply Q|].
      lia.
    - intros v c [].
    - destruct D as [|d D]; [|exact Hfirst]. destruct Hfirst as (Hf & Hn). injection Hf as -> ->. split; [reflexivity|]. intros N1 v. apply Hn. }
  destruct (relax_all_ok D p (adj p) C [] st M ltac:(apply incl_refl)) as (st1 & C1 & E1 & M1). destruct M1 as [Mc Mnd MV Mfin Mrng MrngC Msrt Mle Medge Mseen Mway Msrc Mfirst Mdsrt Mpath].
  exists st1. rewrite Mc. destruct (cdel_ok p (p :: C1)) as (cd & E & Ecd); [now left|]. exists cd. split; [exact E1|]. split; [exact E|].
  assert (Pn : ~ In p C1) by (apply NoDup_remove_2 in Mnd; intros Q; apply Mnd, in_or_app; now right).
  assert (cd = C1) as -> by (subst cd; cbn [filter]; rewrite Z.eqb_refl; now apply filter_ne_id). clear E Ecd.
  assert (AA : (D ++ [p]) ++ C1 = D ++ p :: C1) by now rewrite <- app_assoc.
  apply StronglySorted_inv in Msrt. destruct Msrt as (Ms1 & Ms2). rewrite Forall_forall in Ms2.
  constructor; cbn [s_cost s_hops s_nh s_cand s_path]; rewrite ?AA; auto.
  - intros v Hv. rewrite app_length. cbn [length]. apply in_app_iff in Hv. replace (Z.of_nat (length D + 1)) with (Z.of_nat (length D) + 1) by lia.
    assert (L : In v (D ++ [p]) \/ In v C1) by (rewrite in_app_iff; destruct Hv as [Hv|[Hv|Hv]]; [left; now left|left; right; now left|now right]). destruct L as [L|L]; [|now apply MrngC].
    specialize (Mrng v L). lia.
  - intros d c Hd Hcc. apply in_app_iff in Hd. destruct Hd as [Hd|[<-|[]]]; [apply Mle; [exact Hd|now right]|now apply Ms2].
  - intros d v c Hd Hv. apply in_app_iff in Hd. destruct Hd as [Hd|[<-|[]]]; [now apply Medge|]. now apply Mseen.
  - destruct D as [|d D]; cbn; [left; apply Mfirst|destruct Mfirst as [Q|Q]; [now left|right; apply in_or_app; now left]].
  - clear -Mdsrt Mle. assert (Q : forall d, In d D -> s_cost st1 d <= s_cost st1 p) by (intros d Hd; apply Mle; [exact Hd|now left]). clear Mle. induction D as [|d D IH]; cbn [app]; [repeat constructor|].
    apply StronglySorted_inv in Mdsrt. destruct Mdsrt as (A & B). constructor; [apply IH; [exact A|intros x Hx; apply Q; now right]|]. rewrite Forall_forall in *. intros x Hx. apply in_app_iff in Hx. destruct Hx as [Hx|[<-|[]]]; [now apply B|apply Q; now left].
  - now rewrite Mpath.
Qed.

(** the while loop *)
Fixpoint loop (fuel : nat) (st : sst) : option sst :=
  match s_cand st with
  | [] => Some st
  | p :: _ =>
      match fuel with
      | O => None
      | S f =>
          match relax_all p (adj p) st with
          | None => None
          | Some st1 => match cdel p (s_cand st1) with
                        | None => None
                        | Some cd => loop f (mkSs (s_cost st1) (s_hops st1) (s_nh st1) cd (s_path st1 ++ [p]))
                        end
          end
      end
  end.

Lemma loop_ok : forall fuel D st, DI D st -> (length V < fuel + length D)%nat -> exists st' D', loop fuel st = Some st' /\ DI D' st' /\ s_cand st' = [].
Proof.
  induction fuel as [|f IH]; intros D st I L.
  - exfalso. assert (length D <= length V)%nat; [|lia]. apply NoDup_incl_length.
    + pose proof (di_nd D st I) as N. revert N. clear. induction D as [|d D IH]; intros N; [constructor|]. cbn in N. inversion N; subst. constructor; [intros Q; apply H1, in_or_app; now left|auto].
    + intros x Hx. apply (di_V D st I), in_or_app. now left.
  - cbn [loop]. destruct (s_cand st) as [|p C] eqn:Hc; [exists st, D; auto|].
    destruct (settle_ok D p C st I Hc) as (st1 & cd & -> & -> & I1). apply (IH (D ++ [p]) _ I1). rewrite app_length. cbn [length]. lia.
Qed.

Definition start_st (cost hops : Z -> Z) : Prop := (forall v, In v V -> cost v = if v =? src then 0 else ROUTE_COST_BROKEN) /\ (forall v, In v V -> hops v = 0).

Lemma start_ok cost hops : start_st cost hops -> DI [] (mkSs cost hops nh0 [src] []).
Proof.
  intros (A & B). assert (Cs : cost src = 0) by (rewrite A, Z.eqb_refl by exact src_V; reflexivity). constructor; cbn [s_cost s_hops s_nh s_cand s_path app length].
  - repeat constructor. intros [].
  - intros v [<-|[]]. exact src_V.
  - intros v Hv. rewrite (A v Hv). destruct (v =? src) eqn:E; [left; split; [left; lia|reflexivity]|right; split; [intros [Q|[]]; lia|auto]].
  - intros v [<-|[]]. rewrite Cs. lia.
  - repeat constructor.
  - intros d c [].
  - intros d v c [].
  - intros v [<-|[]]. exists 0, None. cbn [s_cost s_hops s_nh]. rewrite Cs. split; [constructor|]. split; [now apply B|]. split; [auto|]. split; [congruence|auto].
  - split; [exact Cs|now left].
  - auto.
  - constructor.
  - reflexivity.
Qed.

Lemma core_ok cost hops fuel : start_st cost hops -> (length V < fuel)%nat -> exists st, loop fuel (mkSs cost hops nh0 [src] []) = Some st /\
  (forall v d k f, walk v d k f -> In v (s_path st) /\ s_cost st v <= d) /\
  (forall v, In v (s_path st) -> way st v /\ s_cost st v < ROUTE_COST_BROKEN) /\
  (forall v, In v V -> ~ In v (s_path st) -> s_cost st v = ROUTE_COST_BROKEN) /\
  NoDup (s_path st) /\ incl (s_path st) V /\ StronglySorted (le_cost (s_cost st)) (s_path st).
Proof.
  intros H L. destruct (loop_ok fuel [] _ (start_ok cost hops H) ltac:(cbn [length]; lia)) as (st & D & E & I & C0). exists st. split; [exact E|].
  destruct I as [Hnd HV Hfin Hrng Hsrt Hle Hedge Hway Hsrc Hfirst Hdsrt Hpath]. rewrite C0, app_nil_r in *. rewrite Hpath.
  split. { intros v d k f Wk. induction Wk as [|p v d k f c Wk IH Hc]; [split; [apply Hsrc|lia]|]. destruct IH as (IH1 & IH2). specialize (Hedge p v c IH1 Hc). split; [|lia].
    destruct (adj_V p v c (HV p IH1) Hc) as (vV & Cc). destruct (Hfin v vV) as [(Q & _)|(_ & Q & _)]; [exact Q|]. exfalso. destruct (Hfin p (HV p IH1)) as [(_ & Q2)|(Q2 & _)]; [|contradiction].
    (* the cost of [p] and an edge stays below *)
    pose proof (Hrng p IH1) as Rp. rewrite Q in Hedge.
    assert (Z.of_nat (length (v :: D)) * W < ROUTE_COST_BROKEN).
    { apply Z.le_lt_trans with (Z.of_nat (length V) * W); [|exact W_ok]. apply Z.mul_le_mono_nonneg_r; [exact W_pos|]. apply Nat2Z.inj_le. apply NoDup_incl_length.
      - constructor; [|exact Hnd]. intros X. destruct (Hfin v vV) as [(_ & Y)|(Y & _)]; [lia|contradiction].
      - intros x [<-|Hx]; [exact vV|now apply HV]. }
    cbn [length] in H0. lia. }
  split; [intros v Hv; split; [now apply Hway|]; destruct (Hfin v (HV v Hv)) as [(_ & Q)|(Q & _)]; [exact Q|contradiction]|].
  split; [intros v vV Hv; destruct (Hfin v vV) as [(Q & _)|(_ & Q & _)]; [contradiction|exact Q]|].
  auto.
Qed.
End Core.

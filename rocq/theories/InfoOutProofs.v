(** Proofs about the replies on their way *)
From Coq Require Import String Permutation.
From Verif Require Import Base Bytes Regex NameSvc InfoOut InfoOutSpec.

(** ** Events *)
Lemma bytes_app s a b : bytes_to s (a ++ b) = bytes_to s a ++ bytes_to s b.
Proof. induction a as [|e a IH]; [reflexivity|]. destruct e as [? ? ?|s' x| |]; cbn [app bytes_to]; try exact IH. destruct (s =? s'); [|exact IH]. rewrite IH, app_assoc. reflexivity. Qed.
Lemma closed_app s a b : closed s (a ++ b) = (closed s a + closed s b)%nat.
Proof. unfold closed. now rewrite filter_app, app_length. Qed.
Lemma conns_app a b : conns (a ++ b) = conns a ++ conns b.
Proof. induction a as [|e a IH]; [reflexivity|]. destruct e; cbn [app conns]; now rewrite ?IH. Qed.
Lemma opened_in s t : In s (opened t) <-> In s (conns t) /\ closed s t = 0%nat.
Proof. unfold opened. rewrite filter_In. now rewrite Nat.eqb_eq. Qed.
Lemma conns_in s t : In s (conns t) <-> exists t1 r st t2, t = t1 ++ EConn s r st :: t2.
Proof.
  split.
  - induction t as [|e t IH]; [intros []|]. intros H. assert (K : In s (conns t) -> exists t1 r st t2, e :: t = t1 ++ EConn s r st :: t2).
    { intros I. destruct (IH I) as (t1 & r & st & t2 & ->). now exists (e :: t1), r, st, t2. }
    destruct e as [s' r st| | |]; cbn [conns] in H; auto. destruct H as [->|H]; auto. now exists [], r, st, t.
  - intros (t1 & r & st & t2 & ->). rewrite conns_app. apply in_or_app. right. now left.
Qed.
(** with different connections there is one place for each *)
Lemma conn_unique s t1 r st t2 t1' r' st' t2' : NoDup (conns (t1 ++ EConn s r st :: t2)) -> t1 ++ EConn s r st :: t2 = t1' ++ EConn s r' st' :: t2' ->
  t1 = t1' /\ r = r' /\ st = st' /\ t2 = t2'.
Proof.
  revert t1'. induction t1 as [|e t1 IH]; intros [|e' t1'] N E; cbn [app] in E.
  - inversion E. auto.
  - inversion E as [[E1 E2]]. exfalso. subst e'. cbn [app conns] in N. inversion N as [|? ? NI _]. apply NI. rewrite E2, conns_app. apply in_or_app. right. now left.
  - inversion E as [[E1 E2]]. exfalso. subst e. cbn [app conns] in N. inversion N as [|? ? NI _]. apply NI. rewrite conns_app. apply in_or_app. right. now left.
  - inversion E as [[E1 E2]]. assert (N' : NoDup (conns (t1 ++ EConn s r st :: t2))) by (destruct e; cbn [app conns] in N; [now inversion N|exact N..]).
    destruct (IH t1' N' E2) as (-> & H). split; [reflexivity|exact H].
Qed.
(** events without connections *)
Definition quiet (ev : list event) : Prop := conns ev = [].
Lemma conn_split t ev t1 s r st t2 : ~ In s (conns ev) -> t ++ ev = t1 ++ EConn s r st :: t2 -> exists t2', t = t1 ++ EConn s r st :: t2' /\ t2 = t2' ++ ev.
Proof.
  intros Q. revert t1. induction t as [|e t IH]; intros t1 E; cbn [app] in E.
  - exfalso. assert (I : In s (conns ev)) by (apply conns_in; now exists t1, r, st, t2). contradiction.
  - destruct t1 as [|e1 t1]; cbn [app] in E.
    + inversion E as [[E1 E2]]. exists t. auto.
    + inversion E as [[E1 E2]]. destruct (IH t1 E2) as (t2' & -> & ->). exists t2'. auto.
Qed.
Lemma quiet_split t ev t1 s r st t2 : quiet ev -> t ++ ev = t1 ++ EConn s r st :: t2 -> exists t2', t = t1 ++ EConn s r st :: t2' /\ t2 = t2' ++ ev.
Proof. intros Q. apply conn_split. rewrite Q. intros []. Qed.
(** events at one connection *)
Definition only (k : Z) (ev : list event) : Prop := forall s, s <> k -> bytes_to s ev = [] /\ closed s ev = 0%nat /\ ~ failed s ev.

(** ** The slots *)
Definition busy (x : slot) : bool := 0 <=? s_sock x.
Definition used (l : list slot) : list Z := map s_sock (filter busy l).
Definition slotok (x : slot) : Prop := x = free_slot \/ (0 <= s_sock x /\ exists b, s_buf x = Some b /\ s_size x = blen b /\ 0 <= s_written x <= blen b).
Record Inv0 (l : list slot) (c : Z) (t : list event) : Prop := {
  v_ok : Forall slotok l;
  v_nd : NoDup (used l);
  v_cnt : c = Z.of_nat (length (used l));
  v_conns : NoDup (conns t);
  v_open : forall s, In s (used l) <-> In s (opened t);
  v_slot : forall x b, In x l -> 0 <= s_sock x -> s_buf x = Some b ->
    exists t1 st t2, t = t1 ++ EConn (s_sock x) b st :: t2 /\ (length (opened t1) < 8)%nat /\ bytes_to (s_sock x) t = firstn (Z.to_nat (s_written x)) b;
  v_new : forall s, ~ In s (conns t) -> bytes_to s t = [] /\ closed s t = 0%nat;
  v_done : forall t1 s r st t2, t = t1 ++ EConn s r st :: t2 -> closed s t <> 0%nat -> (length (opened t1) < 8)%nat ->
    closed s t = 1%nat /\ prefix (bytes_to s t) r /\ (failed s t \/ bytes_to s t = r);
  v_over : forall t1 s r st t2, t = t1 ++ EConn s r st :: t2 -> (8 <= length (opened t1))%nat -> closed s t = 1%nat /\ prefix (bytes_to s t) st }.

Lemma used_app a b : used (a ++ b) = used a ++ used b.
Proof. unfold used. now rewrite filter_app, map_app. Qed.
Lemma used_cons x l : used (x :: l) = (if busy x then [s_sock x] else []) ++ used l.
Proof. unfold used. cbn [filter]. destruct (busy x); reflexivity. Qed.
Lemma used_in s l : In s (used l) <-> exists x, In x l /\ s_sock x = s /\ 0 <= s.
Proof.
  unfold used. rewrite in_map_iff. split.
  - intros (x & E & I). apply filter_In in I. destruct I as (I & B). exists x. unfold busy in B. subst s. repeat split; [exact I|lia].
  - intros (x & I & E & P). exists x. split; [exact E|]. apply filter_In. split; [exact I|]. unfold busy. lia.
Qed.
Lemma in_opened_closed s t : In s (opened t) -> closed s t = 0%nat.
Proof. intros I. now apply opened_in in I. Qed.
Lemma failed_app s a b : failed s (a ++ b) <-> failed s a \/ failed s b.
Proof. unfold failed. apply in_app_iff. Qed.

(** sending changes the slot, closing frees it *)
Lemma write_slot_inv o a x b c t : Inv0 (a ++ x :: b) c t ->
  exists x' d ev, write_slot o x = Some (x', d, ev) /\ Inv0 (a ++ x' :: b) (c + d) (t ++ ev) /\ quiet ev.
Proof.
  intros [OK ND CNT CN OP SL NW DN OV]. assert (Ix : In x (a ++ x :: b)) by (apply in_or_app; right; now left).
  assert (Kx : slotok x) by (rewrite Forall_forall in OK; now apply OK).
  destruct Kx as [->|(Px & buf & Eb & Es & Ew)].
  { exists free_slot, 0, []. split; [reflexivity|]. rewrite app_nil_r, Z.add_0_r. split; [now constructor|reflexivity]. }
  destruct (SL x buf Ix Px Eb) as (t1 & st & t2 & Et & Lo & By).
  assert (OKa : Forall slotok a /\ Forall slotok b) by (apply Forall_app in OK; destruct OK as (? & OK); inversion OK; auto). destruct OKa as (OKa & OKb).
  assert (U : used (a ++ x :: b) = used a ++ s_sock x :: used b) by (rewrite used_app, used_cons; unfold busy; destruct (0 <=? s_sock x) eqn:E; [reflexivity|lia]).
  rewrite U in ND, CNT, OP.
  assert (Nk : ~ In (s_sock x) (used a ++ used b)) by (intros I; apply (NoDup_remove_2 _ _ _ ND), I).
  assert (Op : In (s_sock x) (opened t)) by (apply OP; apply in_or_app; right; now left).
  assert (Cl : closed (s_sock x) t = 0%nat) by (apply opened_in in Op; tauto).
  assert (Cn : In (s_sock x) (conns t)) by (apply opened_in in Op; tauto).
  (* events that only concern x *)
  assert (KEEP : forall ev x', quiet ev -> only (s_sock x) ev -> closed (s_sock x) ev = 0%nat -> slotok x' -> s_sock x' = s_sock x -> s_buf x' = Some buf ->
    bytes_to (s_sock x) (t ++ ev) = firstn (Z.to_nat (s_written x')) buf -> Inv0 (a ++ x' :: b) (c + 0) (t ++ ev)).
  { intros ev x' Q O C0 K' S' B' By'.
    assert (Cc : forall s, closed s ev = 0%nat) by (intros s; destruct (Z.eq_dec s (s_sock x)) as [->|N]; [exact C0|now apply O]).
    assert (U' : used (a ++ x' :: b) = used a ++ s_sock x :: used b) by (rewrite used_app, used_cons; unfold busy; rewrite S'; destruct (0 <=? s_sock x) eqn:E; [reflexivity|lia]).
    constructor.
    - apply Forall_app. split; [exact OKa|constructor; assumption].
    - now rewrite U'.
    - rewrite U', Z.add_0_r. exact CNT.
    - rewrite conns_app, Q, app_nil_r. exact CN.
    - intros s. rewrite U', OP, !opened_in, conns_app, Q, app_nil_r, closed_app, Cc. split; intros (H1 & H2); (split; [exact H1|lia]).
    - intros y by0 I P By0. apply in_app_or in I. destruct (in_app_or a (x' :: b) y ltac:(apply in_or_app; exact I)) as [Ia|[<-|Ib]].
      2: { rewrite S' in *. rewrite B' in By0. apply Some_inj in By0. subst by0. exists t1, st, (t2 ++ ev). rewrite Et at 1. rewrite <- app_assoc. cbn [app]. split; [reflexivity|]. split; [exact Lo|exact By']. }
      + destruct (SL y by0 ltac:(apply in_or_app; now left) P By0) as (u1 & sy & u2 & Eu & Lu & Byu). exists u1, sy, (u2 ++ ev). rewrite Eu at 1. rewrite <- app_assoc. cbn [app]. split; [reflexivity|]. split; [exact Lu|].
        assert (Ny : s_sock y <> s_sock x) by (intros E; apply Nk; rewrite <- E; apply in_or_app; left; apply used_in; now exists y). destruct (O _ Ny) as (O1 & _). rewrite bytes_app, O1, app_nil_r. exact Byu.
      + destruct (SL y by0 ltac:(apply in_or_app; right; now right) P By0) as (u1 & sy & u2 & Eu & Lu & Byu). exists u1, sy, (u2 ++ ev). rewrite Eu at 1. rewrite <- app_assoc. cbn [app]. split; [reflexivity|]. split; [exact Lu|].
        assert (Ny : s_sock y <> s_sock x) by (intros E; apply Nk; rewrite <- E; apply in_or_app; right; apply used_in; now exists y). destruct (O _ Ny) as (O1 & _). rewrite bytes_app, O1, app_nil_r. exact Byu.
    - intros s N. rewrite conns_app, Q, app_nil_r in N. destruct (NW s N) as (N1 & N2). assert (Ns : s <> s_sock x) by (intros ->; contradiction). destruct (O s Ns) as (O1 & O2 & _). rewrite bytes_app, closed_app, N1, N2, O1, O2. auto.
    - intros u1 s r su u2 E C Lu. destruct (quiet_split _ _ _ _ _ _ _ Q E) as (u2' & E' & _). rewrite closed_app, Cc, Nat.add_0_r in *. destruct (DN u1 s r su u2' E' C Lu) as (D1 & D2 & D3).
      assert (Ns : s <> s_sock x) by (intros ->; congruence). destruct (O s Ns) as (O1 & _ & O3). rewrite bytes_app, O1, app_nil_r, failed_app. tauto.
    - intros u1 s r su u2 E Lu. destruct (quiet_split _ _ _ _ _ _ _ Q E) as (u2' & E' & _). rewrite closed_app, Cc, Nat.add_0_r. destruct (OV u1 s r su u2' E' Lu) as (D1 & D2).
      assert (Ns : s <> s_sock x) by (intros ->; congruence). destruct (O s Ns) as (O1 & _ & O3). rewrite bytes_app, O1, app_nil_r. auto. }
  assert (FREE : forall ev, quiet ev -> only (s_sock x) ev -> closed (s_sock x) ev = 1%nat -> prefix (bytes_to (s_sock x) (t ++ ev)) buf -> (failed (s_sock x) ev \/ bytes_to (s_sock x) (t ++ ev) = buf) ->
    Inv0 (a ++ free_slot :: b) (c + -1) (t ++ ev)).
  { intros ev Q O C1 Pf Fl.
    assert (U' : used (a ++ free_slot :: b) = used a ++ used b) by (rewrite used_app, used_cons; reflexivity).
    constructor.
    - apply Forall_app. split; [exact OKa|constructor; [now left|assumption]].
    - rewrite U'. now apply NoDup_remove_1 in ND.
    - rewrite U', CNT, !app_length. cbn [length]. lia.
    - rewrite conns_app, Q, app_nil_r. exact CN.
    - intros s. rewrite U', opened_in, conns_app, Q, app_nil_r, closed_app. split.
      + intros I. assert (Ns : s <> s_sock x) by (intros ->; contradiction). destruct (O s Ns) as (_ & O2 & _). rewrite O2, Nat.add_0_r. apply opened_in. apply OP. apply in_app_or in I. apply in_or_app. destruct I; [left|right; right]; assumption.
      + intros (I & C). assert (Ns : s <> s_sock x) by (intros ->; lia). assert (Is : In s (opened t)) by (apply opened_in; split; [exact I|lia]). apply OP in Is. apply in_app_or in Is. apply in_or_app. destruct Is as [Is|[Is|Is]]; [now left|congruence|now right].
    - intros y by0 I P By0.
      assert (Iy : In y (a ++ b)) by (apply in_app_or in I; destruct I as [I|[<-|I]]; [apply in_or_app; now left|cbn in P; lia|apply in_or_app; now right]).
      assert (Iy' : In y (a ++ x :: b)) by (apply in_app_or in Iy; apply in_or_app; destruct Iy; [now left|right; now right]).
      destruct (SL y by0 Iy' P By0) as (u1 & sy & u2 & Eu & Lu & Byu). exists u1, sy, (u2 ++ ev). rewrite Eu at 1. rewrite <- app_assoc. cbn [app]. split; [reflexivity|]. split; [exact Lu|].
      assert (Ny : s_sock y <> s_sock x) by (intros E; apply Nk; rewrite <- E, <- used_app; apply used_in; now exists y). destruct (O _ Ny) as (O1 & _). rewrite bytes_app, O1, app_nil_r. exact Byu.
    - intros s N. rewrite conns_app, Q, app_nil_r in N. destruct (NW s N) as (N1 & N2). assert (Ns : s <> s_sock x) by (intros ->; contradiction). destruct (O s Ns) as (O1 & O2 & _). rewrite bytes_app, closed_app, N1, N2, O1, O2. auto.
    - intros u1 s r su u2 E C Lu. destruct (quiet_split _ _ _ _ _ _ _ Q E) as (u2' & E' & _). destruct (Z.eq_dec s (s_sock x)) as [->|Ns].
      + assert (E2 : t1 ++ EConn (s_sock x) buf st :: t2 = u1 ++ EConn (s_sock x) r su :: u2') by congruence. rewrite Et in CN. destruct (conn_unique _ _ _ _ _ _ _ _ _ CN E2) as (_ & <- & _).
        rewrite closed_app, Cl, C1. split; [reflexivity|]. split; [exact Pf|]. rewrite failed_app. tauto.
      + destruct (O s Ns) as (O1 & O2 & O3). rewrite closed_app, O2, Nat.add_0_r in *. destruct (DN u1 s r su u2' E' C Lu) as (D1 & D2 & D3). rewrite bytes_app, O1, app_nil_r, failed_app. tauto.
    - intros u1 s r su u2 E Lu. destruct (quiet_split _ _ _ _ _ _ _ Q E) as (u2' & E' & _). destruct (OV u1 s r su u2' E' Lu) as (D1 & D2).
      assert (Ns : s <> s_sock x) by (intros ->; congruence). destruct (O s Ns) as (O1 & O2 & O3). rewrite closed_app, O2, Nat.add_0_r, bytes_app, O1, app_nil_r. auto. }
  unfold write_slot. destruct (s_sock x <? 0) eqn:E0; [lia|]. rewrite Eb. destruct ((0 <=? s_written x) && (s_written x <=? s_size x) && (s_size x <=? blen buf)) eqn:Eg; [|lia].
  destruct o as [n| |].
  - set (k := Z.min (Z.max 0 n) (s_size x - s_written x)). assert (Hk : 0 <= k <= blen buf - s_written x) by lia.
    assert (Off : firstn (Z.to_nat k) (firstn (Z.to_nat (s_size x - s_written x)) (skipn (Z.to_nat (s_written x)) buf)) = firstn (Z.to_nat k) (skipn (Z.to_nat (s_written x)) buf)).
    { rewrite firstn_firstn. f_equal. lia. }
    rewrite Off.
    assert (Bk : bytes_to (s_sock x) (t ++ [ESend (s_sock x) (firstn (Z.to_nat k) (skipn (Z.to_nat (s_written x)) buf))]) = firstn (Z.to_nat (s_written x + k)) buf).
    { rewrite bytes_app, By. cbn [bytes_to]. rewrite Z.eqb_refl, app_nil_r. rewrite Z2Nat.inj_add by lia. symmetry.
      rewrite <- (firstn_skipn (Z.to_nat (s_written x)) buf) at 1. rewrite firstn_app. rewrite firstn_length. unfold blen in *. rewrite Nat.min_l by lia.
      rewrite (firstn_all2 (n := Z.to_nat (s_written x) + Z.to_nat k)) by (rewrite firstn_length; lia). f_equal. f_equal. lia. }
    destruct (s_size x <=? s_written x + k) eqn:Ef.
    + eexists _, _, _. split; [reflexivity|]. split; [|reflexivity]. apply FREE.
      * reflexivity.
      * intros s N. cbn [app bytes_to]. destruct (s =? s_sock x) eqn:E; [lia|]. unfold closed. cbn [filter closes]. rewrite E. split; [reflexivity|]. split; [reflexivity|]. intros [H|[H|[]]]; discriminate.
      * unfold closed. cbn [app filter closes]. rewrite Z.eqb_refl. reflexivity.
      * rewrite app_assoc, bytes_app, Bk. cbn [bytes_to]. rewrite app_nil_r. exists (skipn (Z.to_nat (s_written x + k)) buf). now rewrite firstn_skipn.
      * right. rewrite app_assoc, bytes_app, Bk. cbn [bytes_to]. rewrite app_nil_r. apply firstn_all2. unfold blen in *. lia.
    + eexists _, _, _. split; [reflexivity|]. split; [|reflexivity]. apply KEEP.
      * reflexivity.
      * intros s N. cbn [bytes_to]. destruct (s =? s_sock x) eqn:E; [lia|]. split; [reflexivity|]. split; [reflexivity|]. intros [H|[]]; discriminate.
      * reflexivity.
      * right. cbn [s_sock s_buf s_size s_written]. split; [exact Px|]. exists buf. repeat split; try assumption; lia.
      * reflexivity.
      * reflexivity.
      * exact Bk.
  - exists x, 0, []. split; [reflexivity|]. split; [|reflexivity]. apply KEEP; try reflexivity; try assumption.
    + intros s _. split; [reflexivity|]. split; [reflexivity|]. intros [].
    + right. split; [exact Px|]. now exists buf.
    + rewrite app_nil_r. exact By.
  - eexists _, _, _. split; [reflexivity|]. split; [|reflexivity]. apply FREE.
    + reflexivity.
    + intros s N. split; [reflexivity|]. unfold closed. cbn [filter closes]. destruct (s =? s_sock x) eqn:E; [lia|]. split; [reflexivity|]. intros [H|[H|[]]]; [|discriminate]. inversion H. lia.
    + unfold closed. cbn [filter closes]. rewrite Z.eqb_refl. reflexivity.
    + rewrite bytes_app, By. cbn [bytes_to]. rewrite app_nil_r. exists (skipn (Z.to_nat (s_written x)) buf). now rewrite firstn_skipn.
    + left. now left.
Qed.
Lemma write_slots_inv os : forall l a c t i, Inv0 (a ++ l) c t ->
  exists l' c' ev, write_slots i os l c = Some (l', c', ev) /\ Inv0 (a ++ l') c' (t ++ ev) /\ quiet ev /\ length l' = length l.
Proof.
  induction l as [|x l IH]; intros a c t i V; cbn [write_slots].
  - exists [], c, []. rewrite app_nil_r in *. rewrite app_nil_r. split; [reflexivity|]. split; [exact V|]. split; reflexivity.
  - destruct (write_slot_inv (os i) a x l c t V) as (x' & d & ev & -> & V1 & Q1).
    assert (V2 : Inv0 ((a ++ [x']) ++ l) (c + d) (t ++ ev)) by (rewrite <- app_assoc; exact V1).
    destruct (IH _ _ _ (S i) V2) as (l' & c' & ev' & -> & V3 & Q3 & L3). exists (x' :: l'), c', (ev ++ ev'). split; [reflexivity|]. rewrite app_assoc. rewrite <- app_assoc in V3. split; [exact V3|].
    split; [unfold quiet; rewrite conns_app, Q1; exact Q3|]. cbn [length]. now rewrite L3.
Qed.
Definition b2z (b : bool) : Z := if b then 1 else 0.
Record Pre (o : out) (t : list event) : Prop := { p_inv : Inv0 (o_slots o) (o_count o) t; p_len : length (o_slots o) = 8%nat; p_tm : o_timers o = b2z (o_entry o) }.
Definition Inv (o : out) (t : list event) : Prop := Pre o t /\ o_entry o = (0 <? o_count o).
Lemma count_nonneg l c t : Inv0 l c t -> 0 <= c.
Proof. intros [_ _ -> _ _ _ _ _ _]. lia. Qed.
Lemma write_data_inv r os o t : Pre o t -> exists o' ev, write_data r os o = Some (o', ev) /\ Pre o' (t ++ ev) /\ quiet ev /\
  (o_entry o' = o_entry o \/ o_entry o' = false) /\ (0 < o_count o' -> o_entry o' = o_entry o) /\ (0 < o_count o -> o_count o' = 0 -> o_entry o' = false) /\ (o_count o <= 0 -> o' = o).
Proof.
  intros [V L TM]. unfold write_data. pose proof (count_nonneg _ _ _ V) as C0. destruct (o_count o <=? 0) eqn:E0.
  { exists o, []. rewrite app_nil_r. split; [reflexivity|]. split; [constructor; assumption|]. split; [reflexivity|]. split; [now left|]. split; [reflexivity|]. split; [intros; exfalso; lia|reflexivity]. }
  destruct r; cbn [negb].
  2: { exists o, []. rewrite app_nil_r. split; [reflexivity|]. split; [constructor; assumption|]. split; [reflexivity|]. split; [now left|]. split; [reflexivity|]. split; intros; [exfalso; lia|reflexivity]. }
  destruct (write_slots_inv os (o_slots o) [] (o_count o) t 0%nat V) as (l' & c' & ev & -> & V' & Q & L'). cbn [app] in V'. pose proof (count_nonneg _ _ _ V') as C1.
  destruct (c' =? 0) eqn:E1; (eexists _, _; split; [reflexivity|]); (split; [constructor; cbn [o_slots o_count o_entry o_timers]; [exact V'|congruence|]|]).
  - rewrite TM. destruct (o_entry o); reflexivity.
  - split; [exact Q|]. cbn [o_entry o_count]. split; [now right|]. split; [intros; exfalso; lia|]. split; [reflexivity|intros; exfalso; lia].
  - exact TM.
  - split; [exact Q|]. cbn [o_entry o_count]. split; [now left|]. split; [reflexivity|]. split; intros; exfalso; lia.
Qed.
(** a new connection *)
Lemma conn_inv a b c t s r st : Inv0 (a ++ free_slot :: b) c t -> ~ In s (conns t) -> 0 <= s -> (length (opened t) < 8)%nat ->
  Inv0 (a ++ mkSlot (Some r) (blen r) 0 s :: b) (c + 1) (t ++ [EConn s r st]).
Proof.
  intros [OK ND CNT CN OP SL NW DN OV] Ns Ps Lo.
  assert (U0 : used (a ++ free_slot :: b) = used a ++ used b) by (rewrite used_app, used_cons; reflexivity).
  assert (U : used (a ++ mkSlot (Some r) (blen r) 0 s :: b) = used a ++ s :: used b) by (rewrite used_app, used_cons; unfold busy; cbn [s_sock]; destruct (0 <=? s) eqn:E; [reflexivity|lia]).
  rewrite U0 in *. destruct (NW s Ns) as (N1 & N2).
  assert (Nu : ~ In s (used a ++ used b)) by (intros I; apply OP, opened_in in I; tauto).
  assert (Ncl : forall x, closed x [EConn s r st] = 0%nat) by reflexivity.
  assert (Nby : forall x, bytes_to x [EConn s r st] = []) by reflexivity.
  assert (Cap : conns (t ++ [EConn s r st]) = conns t ++ [s]) by (rewrite conns_app; reflexivity).
  assert (NDc : NoDup (conns t ++ [s])).
  { apply NoDup_Add with (a := s) (l := conns t); [|split; assumption]. rewrite <- (app_nil_r (conns t)) at 1. apply Add_app. }
  assert (SP : forall u1 x rx sx u2, t ++ [EConn s r st] = u1 ++ EConn x rx sx :: u2 -> (x = s /\ u1 = t /\ rx = r /\ sx = st) \/ (x <> s /\ exists u2', t = u1 ++ EConn x rx sx :: u2')).
  { intros u1 x rx sx u2 E. destruct (Z.eq_dec x s) as [->|Nx].
    - left. assert (ND2 : NoDup (conns (t ++ EConn s r st :: []))) by (rewrite Cap; exact NDc). destruct (conn_unique _ _ _ _ _ _ _ _ _ ND2 E) as (-> & -> & -> & _). auto.
    - right. split; [exact Nx|]. destruct (conn_split t [EConn s r st] u1 x rx sx u2 ltac:(cbn [conns In]; intuition congruence) E) as (u2' & E' & _). now exists u2'. }
  constructor.
  - apply Forall_app in OK. destruct OK as (OKa & OKb). inversion OKb. apply Forall_app. split; [exact OKa|]. constructor; [|assumption]. right. cbn. split; [exact Ps|]. exists r. pose proof (blen_nonneg r). repeat split; lia.
  - rewrite U. apply NoDup_Add with (a := s) (l := used a ++ used b); [apply Add_app|now split].
  - rewrite U, CNT, !app_length. cbn [length]. lia.
  - rewrite Cap. exact NDc.
  - intros x. rewrite U, opened_in, Cap, closed_app, Ncl, Nat.add_0_r. split.
    + intros I. apply in_app_or in I. destruct I as [I|[<-|I]].
      * assert (Ix : In x (opened t)) by (apply OP, in_or_app; now left). apply opened_in in Ix. split; [apply in_or_app; tauto|tauto].
      * split; [apply in_or_app; right; now left|exact N2].
      * assert (Ix : In x (opened t)) by (apply OP, in_or_app; now right). apply opened_in in Ix. split; [apply in_or_app; tauto|tauto].
    + intros (I & C). apply in_app_or in I. destruct I as [I|[<-|[]]]; [|apply in_or_app; right; now left].
      assert (Ix : In x (opened t)) by (now apply opened_in). apply OP in Ix. apply in_app_or in Ix. apply in_or_app. destruct Ix; [now left|right; now right].
  - intros x bx I P Bx. apply in_app_or in I. destruct I as [I|[<-|I]].
    + destruct (SL x bx ltac:(apply in_or_app; now left) P Bx) as (u1 & sx & u2 & E & Lu & By). exists u1, sx, (u2 ++ [EConn s r st]). rewrite bytes_app, Nby, app_nil_r. rewrite E at 1. rewrite <- app_assoc. auto.
    + cbn [s_sock s_buf s_written] in *. apply Some_inj in Bx. subst bx. exists t, st, []. split; [reflexivity|]. split; [exact Lo|]. rewrite bytes_app, N1, Nby. reflexivity.
    + destruct (SL x bx ltac:(apply in_or_app; right; now right) P Bx) as (u1 & sx & u2 & E & Lu & By). exists u1, sx, (u2 ++ [EConn s r st]). rewrite bytes_app, Nby, app_nil_r. rewrite E at 1. rewrite <- app_assoc. auto.
  - intros x Nx. rewrite Cap in Nx. assert (Nx' : ~ In x (conns t)) by (intros I; apply Nx, in_or_app; now left). destruct (NW x Nx') as (M1 & M2). rewrite bytes_app, closed_app, Ncl, Nby, M1, M2. auto.
  - intros u1 x rx sx u2 E C Lu. rewrite closed_app, Ncl, Nat.add_0_r in *. rewrite bytes_app, Nby, app_nil_r, failed_app. destruct (SP _ _ _ _ _ E) as [(-> & -> & -> & ->)|(Nx & u2' & E')]; [congruence|].
    destruct (DN _ _ _ _ _ E' C Lu) as (D1 & D2 & D3). tauto.
  - intros u1 x rx sx u2 E Lu. rewrite closed_app, Ncl, Nat.add_0_r in *. rewrite bytes_app, Nby, app_nil_r. destruct (SP _ _ _ _ _ E) as [(-> & -> & -> & ->)|(Nx & u2' & E')]; [lia|].
    exact (OV _ _ _ _ _ E' Lu).
Qed.
(** a connection that gets the short reply *)
Lemma over_inv l c t s r st oc : Inv0 l c t -> ~ In s (conns t) -> (8 <= length (opened t))%nat -> Inv0 l c (t ++ EConn s r st :: send_status s st oc).
Proof.
  intros [OK ND CNT CN OP SL NW DN OV] Ns Lo. set (ev := EConn s r st :: send_status s st oc). destruct (NW s Ns) as (N1 & N2).
  assert (Cev : conns ev = [s]) by (unfold ev, send_status; destruct oc; reflexivity).
  assert (Cls : closed s ev = 1%nat) by (unfold ev, send_status, closed; destruct oc; cbn [filter closes]; rewrite Z.eqb_refl; reflexivity).
  assert (Pf : prefix (bytes_to s ev) st).
  { unfold ev, send_status. destruct oc as [n| |]; cbn [bytes_to]; [|now exists st..]. rewrite Z.eqb_refl, app_nil_r. eexists. symmetry. apply firstn_skipn. }
  assert (O : forall x, x <> s -> bytes_to x ev = [] /\ closed x ev = 0%nat /\ ~ failed x ev).
  { intros x Nx. unfold ev, send_status, closed, failed. destruct oc as [n| |]; cbn [bytes_to filter closes]; (destruct (x =? s) eqn:E; [lia|]); split; try reflexivity; split; try reflexivity; intros H; repeat destruct H as [H|H]; try discriminate; try (inversion H; lia); contradiction. }
  assert (Cap : conns (t ++ ev) = conns t ++ [s]) by (rewrite conns_app, Cev; reflexivity).
  assert (NDc : NoDup (conns t ++ [s])).
  { apply NoDup_Add with (a := s) (l := conns t); [|split; assumption]. rewrite <- (app_nil_r (conns t)) at 1. apply Add_app. }
  assert (SP : forall u1 x rx sx u2, t ++ ev = u1 ++ EConn x rx sx :: u2 -> (x = s /\ u1 = t /\ rx = r /\ sx = st) \/ (x <> s /\ exists u2', t = u1 ++ EConn x rx sx :: u2')).
  { intros u1 x rx sx u2 E. destruct (Z.eq_dec x s) as [->|Nx].
    - left. assert (ND2 : NoDup (conns (t ++ EConn s r st :: send_status s st oc))) by (fold ev; rewrite Cap; exact NDc). destruct (conn_unique _ _ _ _ _ _ _ _ _ ND2 E) as (-> & -> & -> & _). auto.
    - right. split; [exact Nx|]. destruct (conn_split t ev u1 x rx sx u2 ltac:(rewrite Cev; cbn [In]; intuition congruence) E) as (u2' & E' & _). now exists u2'. }
  assert (Un : forall x, In x (used l) -> x <> s) by (intros x I ->; apply OP, opened_in in I; tauto).
  constructor; try assumption.
  - rewrite Cap. exact NDc.
  - intros x. rewrite OP, !opened_in, Cap, closed_app. split.
    + intros (I & C). assert (Nx : x <> s) by (intros ->; contradiction). destruct (O x Nx) as (_ & O2 & _). rewrite O2. split; [apply in_or_app; now left|lia].
    + intros (I & C). apply in_app_or in I. destruct I as [I|[<-|[]]]; [split; [exact I|lia]|lia].
  - intros x bx I P Bx. destruct (SL x bx I P Bx) as (u1 & sx & u2 & E & Lu & By). exists u1, sx, (u2 ++ ev).
    assert (Nx : s_sock x <> s) by (apply Un, used_in; exists x; auto). destruct (O _ Nx) as (O1 & _). rewrite bytes_app, O1, app_nil_r. rewrite E at 1. rewrite <- app_assoc. auto.
  - intros x Nx. rewrite Cap in Nx. assert (Nx' : ~ In x (conns t)) by (intros I; apply Nx, in_or_app; now left). assert (Ne : x <> s) by (intros ->; apply Nx, in_or_app; right; now left).
    destruct (NW x Nx') as (M1 & M2). destruct (O x Ne) as (O1 & O2 & _). rewrite bytes_app, closed_app, O1, O2, M1, M2. auto.
  - intros u1 x rx sx u2 E C Lu. destruct (SP _ _ _ _ _ E) as [(-> & -> & -> & ->)|(Nx & u2' & E')]; [lia|]. destruct (O x Nx) as (O1 & O2 & O3). rewrite closed_app, O2, Nat.add_0_r in *.
    rewrite bytes_app, O1, app_nil_r, failed_app. destruct (DN _ _ _ _ _ E' C Lu) as (D1 & D2 & D3). tauto.
  - intros u1 x rx sx u2 E Lu. destruct (SP _ _ _ _ _ E) as [(-> & -> & -> & ->)|(Nx & u2' & E')].
    + rewrite closed_app, bytes_app, N1, N2, Cls. auto.
    + destruct (O x Nx) as (O1 & O2 & O3). rewrite closed_app, O2, Nat.add_0_r, bytes_app, O1, app_nil_r. exact (OV _ _ _ _ _ E' Lu).
Qed.
Lemma opened_count l c t : Inv0 l c t -> c = Z.of_nat (length (opened t)).
Proof.
  intros [_ ND CNT CN OP _ _ _ _]. rewrite CNT. f_equal. apply Permutation_length. apply NoDup_Permutation; [exact ND|apply NoDup_filter; exact CN|exact OP].
Qed.
Lemma find_slot_none l : forall n, find_slot n l = None -> forall j, (j < n)%nat -> s_buf (nth j l free_slot) <> None.
Proof.
  induction n as [|n IH]; intros E j H; [lia|]. cbn [find_slot] in E. destruct (s_buf (nth n l free_slot)) as [b|] eqn:B; [|discriminate].
  destruct (Nat.eq_dec j n) as [->|N]; [congruence|]. destruct n as [|n]; [lia|]. apply IH; [exact E|lia].
Qed.
Lemma find_slot_some l : forall n i, find_slot n l = Some i -> (i < n)%nat /\ s_buf (nth i l free_slot) = None.
Proof.
  induction n as [|n IH]; intros i E; [discriminate|]. cbn [find_slot] in E. destruct (s_buf (nth n l free_slot)) as [b|] eqn:B.
  - destruct n as [|n]; [discriminate|]. destruct (IH i E) as (H1 & H2). split; [lia|exact H2].
  - apply Some_inj in E. subst i. split; [lia|exact B].
Qed.
Lemma all_busy l : Forall slotok l -> (forall j, (j < length l)%nat -> s_buf (nth j l free_slot) <> None) -> length (used l) = length l.
Proof.
  intros F H. unfold used. rewrite map_length. f_equal. induction l as [|x l IH]; [reflexivity|]. inversion F as [|? ? Hx Hl]. cbn [filter].
  assert (B : busy x = true).
  { destruct Hx as [->|(P & _)]; [exfalso; apply (H 0%nat); [cbn [length]; lia|reflexivity]|unfold busy; lia]. }
  rewrite B. f_equal. apply IH; [exact Hl|]. intros j Hj. apply (H (S j)). cbn [length]. lia.
Qed.
Lemma set_nth_split s : forall a (x : slot) b, set_nth (length a) s (a ++ x :: b) = a ++ s :: b.
Proof. induction a as [|y a IH]; intros x b; [reflexivity|]. cbn [length app set_nth]. now rewrite IH. Qed.
(** slots keep their connection or become free *)
Lemma write_slot_sock o x x' d ev : write_slot o x = Some (x', d, ev) -> x' = free_slot \/ s_sock x' = s_sock x.
Proof.
  unfold write_slot. destruct (s_sock x <? 0); [intros E; inversion E; now right|]. destruct (s_buf x) as [b|]; [|discriminate]. destruct (_ && _); [|discriminate].
  destruct o as [n| |]; [|intros E; inversion E; now right|intros E; inversion E; now left]. cbv zeta. destruct (_ <=? _); intros E; inversion E; [now left|now right].
Qed.
Lemma write_slots_sock os : forall l i c l' c' ev, write_slots i os l c = Some (l', c', ev) -> Forall2 (fun x x' => x' = free_slot \/ s_sock x' = s_sock x) l l'.
Proof.
  induction l as [|x l IH]; intros i c l' c' ev E; cbn [write_slots] in E; [inversion E; constructor|].
  destruct (write_slot (os i) x) as [((x' & d) & ev1)|] eqn:W; [|discriminate]. destruct (write_slots (S i) os l (c + d)) as [((l2 & c2) & ev2)|] eqn:Ws; [|discriminate].
  inversion E. constructor; [exact (write_slot_sock _ _ _ _ _ W)|exact (IH _ _ _ _ _ Ws)].
Qed.
Lemma write_data_sock r os o o' ev : write_data r os o = Some (o', ev) -> Forall2 (fun x x' => x' = free_slot \/ s_sock x' = s_sock x) (o_slots o) (o_slots o').
Proof.
  assert (R : forall l, Forall2 (fun x x' => x' = free_slot \/ s_sock x' = s_sock x) l l) by (induction l; constructor; auto).
  unfold write_data. destruct (o_count o <=? 0); [intros E; inversion E; apply R|]. destruct r; cbn [negb]; [|intros E; inversion E; apply R].
  destruct (write_slots 0 os (o_slots o) (o_count o)) as [((l & c) & ev1)|] eqn:W; [|discriminate]. apply write_slots_sock in W. destruct (c =? 0); intros E; inversion E; exact W.
Qed.
Lemma Forall2_split (R : slot -> slot -> Prop) a x b l : Forall2 R (a ++ x :: b) l -> exists a' x' b', l = a' ++ x' :: b' /\ length a' = length a /\ Forall2 R a a' /\ R x x' /\ Forall2 R b b'.
Proof.
  intros F. apply Forall2_app_inv_l in F. destruct F as (a' & l2 & Fa & F & ->). inversion F as [|? x' ? b' Rx Fb]. subst. exists a', x', b'. split; [reflexivity|]. split; [clear - Fa; induction Fa; [reflexivity|cbn [length]; congruence]|]. auto.
Qed.
Lemma used_nil_stays a a' : Forall2 (fun x x' => x' = free_slot \/ s_sock x' = s_sock x) a a' -> used a = [] -> used a' = [].
Proof.
  induction 1 as [|x x' a a' R F IH]; intros U; [reflexivity|]. rewrite used_cons in *. apply app_eq_nil in U. destruct U as (U1 & U2). rewrite (IH U2), app_nil_r.
  destruct R as [->|E]; [reflexivity|]. unfold busy in *. rewrite E. destruct (0 <=? s_sock x); [discriminate|reflexivity].
Qed.
Lemma send_info_inv s r st ready os o t : Inv o t -> o_count o < 8 -> ~ In s (conns t) -> 0 <= s ->
  exists o' ev, send_info s r ready os o = Some (o', ev) /\ Inv o' (t ++ EConn s r st :: ev) /\ quiet ev.
Proof.
  intros ([V L TM] & EN) C Ns Ps. unfold send_info. pose proof (count_nonneg _ _ _ V) as C0. pose proof (opened_count _ _ _ V) as OC.
  destruct (find_slot (length (o_slots o)) (o_slots o)) as [i|] eqn:E.
  2: { exfalso. pose proof (all_busy _ (v_ok _ _ _ V) (find_slot_none _ _ E)) as A. pose proof (v_cnt _ _ _ V) as B. lia. }
  apply find_slot_some in E. destruct E as (Li & Bi). destruct (nth_split (o_slots o) free_slot Li) as (a & b & El & La). remember (nth i (o_slots o) free_slot) as x eqn:Ex.
  assert (Fx : x = free_slot). { pose proof (v_ok _ _ _ V) as OK. rewrite El in OK. apply Forall_app in OK. destruct OK as (_ & OK). inversion OK as [|? ? Hx _]. destruct Hx as [Hx|(_ & q & Hq & _)]; [exact Hx|congruence]. }
  assert (SN : set_nth i (mkSlot (Some r) (blen r) 0 s) (o_slots o) = a ++ mkSlot (Some r) (blen r) 0 s :: b) by (rewrite El, <- La; apply set_nth_split). rewrite SN.
  assert (V1 : Inv0 (a ++ mkSlot (Some r) (blen r) 0 s :: b) (o_count o + 1) (t ++ [EConn s r st])) by (apply conn_inv; [rewrite <- Fx, <- El; exact V|exact Ns|exact Ps|lia]).
  set (o1 := mkOut (a ++ mkSlot (Some r) (blen r) 0 s :: b) (o_count o + 1) (o_entry o) (o_timers o)).
  assert (P1 : Pre o1 (t ++ [EConn s r st])) by (constructor; cbn [o_slots o_count o_entry o_timers o1]; [exact V1|rewrite El in L; rewrite app_length in *; exact L|exact TM]).
  destruct (write_data_inv ready os o1 _ P1) as (o2 & ev & W & P2 & Q & H1 & H2 & H3 & H4). rewrite W. apply write_data_sock in W. cbn [o1 o_count o_entry o_slots] in *. pose proof (count_nonneg _ _ _ (p_inv _ _ P2)) as C2.
  assert (T2 : (t ++ [EConn s r st]) ++ ev = t ++ EConn s r st :: ev) by (rewrite <- app_assoc; reflexivity). rewrite T2 in P2.
  destruct (Forall2_split _ _ _ _ _ W) as (a' & x' & b' & E2s & La' & Fa & Rx & Fb).
  assert (Nx : nth i (o_slots o2) free_slot = x') by (rewrite E2s, app_nth2 by lia; replace (i - length a')%nat with 0%nat by lia; reflexivity). rewrite Nx.
  destruct (o_count o =? 0) eqn:E0; cbn [andb].
  - (* the first reply: the others are free *)
    assert (U0 : used a = [] /\ used b = []). { pose proof (v_cnt _ _ _ V) as B. rewrite El, used_app, used_cons, Fx, !app_length in B. cbn [busy free_slot s_sock] in B. cbn [app length] in B. split; apply length_zero_iff_nil; lia. }
    destruct U0 as (Ua & Ub). pose proof (used_nil_stays _ _ Fa Ua) as Ua'. pose proof (used_nil_stays _ _ Fb Ub) as Ub'.
    assert (EN' : o_entry o = false) by (rewrite EN; lia).
    assert (E2 : o_entry o2 = false) by (destruct H1; congruence).
    pose proof (v_cnt _ _ _ (p_inv _ _ P2)) as CN2. rewrite E2s, used_app, used_cons, Ua', Ub', app_nil_r in CN2. cbn [app] in CN2.
    pose proof (v_ok _ _ _ (p_inv _ _ P2)) as OK2. rewrite E2s in OK2. apply Forall_app in OK2. destruct OK2 as (_ & OK2). inversion OK2 as [|? ? Kx _].
    destruct Kx as [->|(Px & q & Bq & _)].
    + cbn [s_buf free_slot]. cbn [busy free_slot s_sock Z.leb Z.compare length] in CN2. eexists _, _. split; [reflexivity|]. split; [|exact Q]. split; [exact P2|]. rewrite E2. lia.
    + rewrite Bq. unfold busy in CN2. destruct (0 <=? s_sock x') eqn:Bx; [|lia]. cbn [length] in CN2. eexists _, _. split; [reflexivity|]. split; [|exact Q]. split.
      * constructor; cbn [o_slots o_count o_entry o_timers]; [exact (p_inv _ _ P2)|exact (p_len _ _ P2)|]. rewrite (p_tm _ _ P2), E2. reflexivity.
      * cbn [o_entry o_count]. lia.
  - eexists _, _. split; [reflexivity|]. split; [|exact Q]. split; [exact P2|]. destruct (0 <? o_count o2) eqn:Ec; [rewrite H2 by lia; rewrite EN; lia|]. apply H3; lia.
Qed.
Lemma step_inv p o t : Inv o t -> NoDup (conns t ++ socks [p]) -> Forall (fun s => 0 <= s) (socks [p]) ->
  exists o' ev, step p o = Some (o', ev) /\ Inv o' (t ++ ev) /\ conns ev = socks [p].
Proof.
  intros V ND P. destruct p as [s r st ready os|ready os]; cbn [step socks] in *.
  - inversion P as [|? ? Ps _]. assert (Ns : ~ In s (conns t)) by (apply NoDup_remove_2 in ND; rewrite app_nil_r in ND; exact ND).
    destruct (MAX_CLIENTS <=? o_count o) eqn:E; unfold MAX_CLIENTS in E.
    + eexists _, _. split; [reflexivity|]. destruct V as ([V L TM] & EN). pose proof (opened_count _ _ _ V) as OC. split; [|destruct (os 0%nat); reflexivity].
      split; [|exact EN]. constructor; [|exact L|exact TM]. apply over_inv; [exact V|exact Ns|lia].
    + destruct (send_info_inv s r st ready os o t V ltac:(lia) Ns Ps) as (o' & ev & -> & V' & Q). eexists _, _. split; [reflexivity|]. split; [exact V'|]. cbn [conns]. now rewrite Q.
  - destruct V as (V & EN). pose proof (p_tm _ _ V) as TM. pose proof (count_nonneg _ _ _ (p_inv _ _ V)) as C0. destruct (o_timers o <=? 0) eqn:E.
    + exists o, []. rewrite app_nil_r. split; [reflexivity|]. split; [now split|reflexivity].
    + destruct (write_data_inv ready os o t V) as (o' & ev & W & P' & Q & H1 & H2 & H3 & H4). exists o', ev. split; [exact W|]. split; [|exact Q]. split; [exact P'|].
      pose proof (count_nonneg _ _ _ (p_inv _ _ P')) as C1. assert (Eo : o_entry o = true) by (destruct (o_entry o); [reflexivity|cbn in TM; lia]).
      destruct (0 <? o_count o') eqn:Ec; [rewrite H2 by lia; exact Eo|]. rewrite EN in Eo; apply H3; lia.
Qed.
Lemma socks_cons p ps : socks (p :: ps) = socks [p] ++ socks ps.
Proof. destruct p; reflexivity. Qed.
Lemma run_inv : forall ps o t, Inv o t -> NoDup (conns t ++ socks ps) -> Forall (fun s => 0 <= s) (socks ps) ->
  exists o' ev, run ps o = Some (o', ev) /\ Inv o' (t ++ ev) /\ conns ev = socks ps.
Proof.
  induction ps as [|p ps IH]; intros o t V ND P; cbn [run].
  - exists o, []. rewrite app_nil_r. split; [reflexivity|]. split; [exact V|reflexivity].
  - rewrite socks_cons in *. apply Forall_app in P. destruct P as (P1 & P2). rewrite app_assoc in ND.
    assert (ND1 : NoDup (conns t ++ socks [p])) by (clear - ND; induction (socks ps) as [|z zs IHz]; [now rewrite app_nil_r in ND|apply IHz; now apply NoDup_remove_1 in ND]).
    destruct (step_inv p o t V ND1 P1) as (o1 & ev1 & -> & V1 & C1). rewrite <- C1, <- conns_app in ND. destruct (IH o1 (t ++ ev1) V1 ND P2) as (o2 & ev2 & -> & V2 & C2).
    exists o2, (ev1 ++ ev2). split; [reflexivity|]. rewrite app_assoc. split; [exact V2|]. now rewrite conns_app, C1, C2.
Qed.
Lemma inv_init : Inv out_init [].
Proof.
  split; [|reflexivity]. constructor; [|reflexivity|reflexivity]. constructor; cbn [out_init o_slots o_count].
  - apply Forall_forall. intros x I. apply repeat_spec in I. now left.
  - constructor.
  - reflexivity.
  - constructor.
  - intros s. split; intros [].
  - intros x b I P. apply repeat_spec in I. subst x. cbn in P. lia.
  - intros s _. split; reflexivity.
  - intros t1 s r st t2 E. destruct t1; discriminate.
  - intros t1 s r st t2 E. destruct t1; discriminate.
Qed.
(** ** Progress *)
Definition mu (x : slot) : Z := if busy x then s_size x - s_written x + 1 else 0.
Definition total (l : list slot) : Z := fold_right (fun x a => mu x + a) 0 l.
Definition takes (os : nat -> outcome) : Prop := forall i, exists n, os i = Sent n /\ 1 <= n.
Lemma mu_nonneg x : slotok x -> 0 <= mu x /\ (busy x = true -> 1 <= mu x).
Proof. intros [->|(P & b & _ & S1 & W)]; [split; [reflexivity|discriminate]|]. unfold mu. destruct (busy x); split; intros; lia. Qed.
Lemma total_nonneg l : Forall slotok l -> 0 <= total l.
Proof. induction 1 as [|x l Hx Hl IH]; cbn [total fold_right]; [lia|]. destruct (mu_nonneg x Hx). unfold total in IH. lia. Qed.
Lemma write_slot_mu os i x x' d ev : takes os -> slotok x -> write_slot (os i) x = Some (x', d, ev) -> mu x' <= mu x - (if busy x then 1 else 0).
Proof.
  intros T K. destruct (T i) as (n & -> & Hn). unfold write_slot. destruct K as [->|(P & b & Eb & Es & Ew)]; [intros E; inversion E; reflexivity|].
  destruct (s_sock x <? 0) eqn:E0; [lia|]. rewrite Eb. destruct (_ && _); [|discriminate]. cbv zeta.
  assert (B : busy x = true) by (unfold busy; lia).
  destruct (_ <=? _) eqn:Ef; intros E; inversion E; unfold mu; rewrite B.
  - change (busy free_slot) with false. cbv iota. lia.
  - unfold busy. cbn [s_sock s_size s_written]. destruct (0 <=? s_sock x) eqn:Eq; cbv iota; lia.
Qed.
Lemma write_slots_mu os : takes os -> forall l i c l' c' ev, Forall slotok l -> write_slots i os l c = Some (l', c', ev) -> total l' <= total l - Z.of_nat (length (used l)).
Proof.
  intros T. induction l as [|x l IH]; intros i c l' c' ev F E; cbn [write_slots] in E; [inversion E; reflexivity|]. inversion F as [|? ? Hx Hl].
  destruct (write_slot (os i) x) as [((x' & d) & ev1)|] eqn:W; [|discriminate]. destruct (write_slots (S i) os l (c + d)) as [((l2 & c2) & ev2)|] eqn:Ws; [|discriminate].
  inversion E. apply (write_slot_mu os i x x' d ev1 T Hx) in W. apply (IH _ _ _ _ _ Hl) in Ws. rewrite used_cons, app_length. unfold total in *. cbn [fold_right]. destruct (busy x); cbn [length]; lia.
Qed.
Definition good_tick (p : op) : Prop := match p with Tick true os => takes os | _ => False end.
Lemma run_progress : forall ps o t o' ev, Inv o t -> Forall good_tick ps -> total (o_slots o) <= Z.of_nat (length ps) -> run ps o = Some (o', ev) -> o_count o' = 0.
Proof.
  induction ps as [|p ps IH]; intros o t o' ev V G M E.
  - cbn in E. inversion E. subst. destruct V as ([V L TM] & EN). rewrite (v_cnt _ _ _ V). pose proof (v_ok _ _ _ V) as OK. cbn [length] in M.
    assert (A : used (o_slots o') = []).
    { clear - OK M. induction OK as [|x l Hx Hl IH]; [reflexivity|]. unfold total in *. cbn [fold_right] in M. pose proof (total_nonneg l Hl) as T. unfold total in T. destruct (mu_nonneg x Hx) as (M1 & M2). rewrite used_cons, IH by lia.
      destruct (busy x); [specialize (M2 eq_refl); lia|reflexivity]. }
    now rewrite A.
  - inversion G as [|? ? Gp Gs]. destruct p as [|r os]; [contradiction|]. destruct r; [|contradiction]. cbn [run] in E.
    assert (N : NoDup (conns t ++ socks [Tick true os])) by (cbn [socks]; rewrite app_nil_r; destruct V as ([V _ _] & _); exact (v_conns _ _ _ V)).
    destruct (step_inv (Tick true os) o t V N ltac:(constructor)) as (o1 & ev1 & S1 & V1 & _). rewrite S1 in E. destruct (run ps o1) as [(o2 & ev2)|] eqn:R; [|discriminate]. inversion E. subst o2.
    apply (IH o1 (t ++ ev1) o' ev2 V1 Gs); [|exact R]. cbn [length] in M. cbn [step] in S1. destruct V as ([V L TM] & EN). pose proof (count_nonneg _ _ _ V) as C0.
    assert (Z0 : o_count o = 0 -> total (o_slots o) = 0).
    { intros C. rewrite (v_cnt _ _ _ V) in C. clear - C. unfold used in C. rewrite map_length in C. induction (o_slots o) as [|x l IHl]; [reflexivity|]. unfold total in *. cbn [filter fold_right] in *. destruct (busy x) eqn:Bz; cbn [length] in C; [lia|]. rewrite (IHl C). unfold mu. now rewrite Bz. }
    destruct (o_timers o <=? 0) eqn:Et; [assert (o_count o = 0) by (destruct (o_entry o); cbn in TM; lia); inversion S1; subst; rewrite Z0 by assumption; lia|].
    unfold write_data in S1. destruct (o_count o <=? 0) eqn:Ec; [inversion S1; subst; rewrite Z0 by lia; lia|]. cbn [negb] in S1.
    destruct (write_slots 0 os (o_slots o) (o_count o)) as [((l3 & c) & ev3)|] eqn:W; [|discriminate]. apply (write_slots_mu os Gp _ _ _ _ _ _ (v_ok _ _ _ V)) in W. pose proof (v_cnt _ _ _ V) as CN.
    destruct (c =? 0); inversion S1; cbn [o_slots]; lia.
Qed.
(** ** Headers *)
Lemma line_of_inline l r : inline l -> line_of (l ++ crlf ++ r) = Some (l, r).
Proof.
  induction l as [|c l IH]; intros F; [reflexivity|]. inversion F as [|? ? Hc Hl]. cbn [app line_of]. destruct (c =? 13) eqn:E; [lia|]. cbn [andb]. change (10 :: r) with ([10] ++ r). cbn [app].
  change (line_of (l ++ crlf ++ r)) with (line_of (l ++ 13 :: 10 :: r)) in IH. unfold crlf. cbn [app]. now rewrite (IH Hl).
Qed.
Definition text_of (ls : list (list Z)) (b : list Z) : list Z := flat_map (fun l => l ++ crlf) ls ++ crlf ++ b.
Lemma response_text : forall ls b, Forall (fun l => l <> [] /\ inline l) ls -> response (text_of ls b) ls b.
Proof.
  induction ls as [|l ls IH]; intros b F; unfold text_of in *; cbn [flat_map].
  - apply rs_end. reflexivity.
  - inversion F as [|? ? (Hl & Il) Hls]. rewrite <- !app_assoc. apply rs_line with (r := flat_map (fun l => l ++ crlf) ls ++ crlf ++ b); [now apply line_of_inline|exact Hl|now apply IH].
Qed.
Lemma response_unique t ls b : response t ls b -> forall ls' b', response t ls' b' -> ls = ls' /\ b = b'.
Proof.
  induction 1 as [t b E|t l r ls b E N R IH]; intros ls' b' R'; inversion R' as [? ? E'|? l' r' ? ? E' N' R'']; subst.
  - split; congruence.
  - exfalso. rewrite E in E'. inversion E'. congruence.
  - exfalso. rewrite E in E'. inversion E'. congruence.
  - rewrite E in E'. inversion E'. subst. destruct (IH _ _ R'') as (-> & ->). auto.
Qed.
(** the lines of the header with the length filled in *)
Definition head_lines (plugin : list Z) (status : Z) (mime date : option (list Z)) (len : list Z) : list (list Z) :=
  [str "HTTP/1.1 " ++ status_reply status] ++
  (match date with Some d => [str "Date: " ++ d ++ str " GMT"] | None => [] end) ++
  [str "Server: OLSRD " ++ plugin; str "Connection: close"] ++
  (match mime with Some m => [str "Content-Type: " ++ m] | None => [] end) ++
  [str "Access-Control-Allow-Origin: *"; str "Access-Control-Allow-Methods: GET, POST, OPTIONS"; str "Access-Control-Allow-Headers: Accept, Origin, X-Requested-With";
   str "Access-Control-Max-Age: 1728000"; str "Content-Length: " ++ len; str "Cache-Control: no-cache"].
Lemma inline_check s : forallb (fun c => negb (c =? 13) && negb (c =? 10)) s = true -> inline s.
Proof. intros F. apply Forall_forall. intros c I. rewrite forallb_forall in F. specialize (F c I). lia. Qed.
Lemma inline_app a b : inline a -> inline b -> inline (a ++ b).
Proof. intros. now apply Forall_app. Qed.
Lemma inline_status st : inline (status_reply st).
Proof. unfold status_reply. repeat match goal with |- context [if ?b then _ else _] => destruct b end; apply inline_check; reflexivity. Qed.
Lemma head_lines_ok plugin status mime date len : inline plugin -> match mime with Some m => inline m | None => True end -> match date with Some d => inline d | None => True end -> inline len ->
  Forall (fun l => l <> [] /\ inline l) (head_lines plugin status mime date len).
Proof.
  intros Ip Im Id Il. unfold head_lines. pose proof (inline_status status) as Is.
  assert (A : forall s t, s <> [] -> inline s -> inline t -> s ++ t <> [] /\ inline (s ++ t)) by (intros s t N S1 S2; split; [destruct s; [congruence|discriminate]|now apply inline_app]).
  assert (C : forall s, s <> [] -> forallb (fun c => negb (c =? 13) && negb (c =? 10)) s = true -> s <> [] /\ inline s) by (intros s N B; split; [exact N|now apply inline_check]).
  assert (D : forall s, forallb (fun c => negb (c =? 13) && negb (c =? 10)) s = true -> inline s) by (intros; now apply inline_check).
  rewrite !Forall_app. split; [|split; [|split; [|split]]].
  - apply Forall_cons; [|constructor]. apply A; [discriminate|apply D; reflexivity|exact Is].
  - destruct date as [d|]; [|constructor]. apply Forall_cons; [|constructor]. apply A; [discriminate|apply D; reflexivity|apply inline_app; [exact Id|apply D; reflexivity]].
  - apply Forall_cons; [apply A; [discriminate|apply D; reflexivity|exact Ip]|]. apply Forall_cons; [apply C; [discriminate|reflexivity]|constructor].
  - destruct mime as [m|]; [|constructor]. apply Forall_cons; [|constructor]. apply A; [discriminate|apply D; reflexivity|exact Im].
  - do 4 (apply Forall_cons; [apply C; [discriminate|reflexivity]|]). apply Forall_cons; [apply A; [discriminate|apply D; reflexivity|exact Il]|]. apply Forall_cons; [apply C; [discriminate|reflexivity]|constructor].
Qed.
Lemma header_text plugin status mime date : exists before, header_build plugin status mime date = (before ++ repeat 32 12 ++ crlf ++ str "Cache-Control: no-cache" ++ crlf ++ crlf, blen before) /\
  forall len b, before ++ len ++ crlf ++ str "Cache-Control: no-cache" ++ crlf ++ crlf ++ b = text_of (head_lines plugin status mime date len) b.
Proof.
  unfold header_build. eexists. split; [reflexivity|]. intros len b. unfold text_of, head_lines. rewrite !flat_map_app. cbn [flat_map]. destruct date as [d|], mime as [m|]; cbn [flat_map]; rewrite <- !app_assoc; reflexivity.
Qed.
Lemma adjust_ok before rest n : (length (firstn 12 (fmt_int (to_int n))) <= 12)%nat -> let t := firstn 12 (fmt_int (to_int n)) in
  adjust_length (before ++ repeat 32 12 ++ rest) (blen before) n = Some (before ++ (t ++ repeat 32 (12 - length t)) ++ rest).
Proof.
  intros L t. unfold adjust_length. fold t. fold t in L. rewrite !blen_app. pose proof (blen_nonneg before). pose proof (blen_nonneg rest).
  change (blen (repeat 32 12)) with 12. destruct ((0 <=? blen before) && (blen before + blen t <=? blen before + (12 + blen rest))) eqn:E; [|unfold blen in *; lia].
  f_equal. unfold blen. rewrite Nat2Z.id, firstn_app, Nat.sub_diag, firstn_O, firstn_all, app_nil_r. rewrite <- Nat2Z.inj_add, Nat2Z.id. rewrite skipn_app. rewrite (skipn_all2 before) by lia. cbn [app].
  replace (length before + length t - length before)%nat with (length t) by lia. f_equal. rewrite <- app_assoc. f_equal. rewrite skipn_app, repeat_length.
  replace (length t - 12)%nat with 0%nat by lia. rewrite skipn_O. f_equal. replace 12%nat with (length t + (12 - length t))%nat at 1 by lia. rewrite repeat_app, skipn_app, repeat_length, Nat.sub_diag, skipn_O.
  rewrite skipn_all2 by (rewrite repeat_length; lia). reflexivity.
Qed.

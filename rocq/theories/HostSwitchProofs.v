From Verif Require Import Base Parser ParserProofs HostSwitch HostSwitchSpec.

Lemma beq_refl a : bytes_eqb a a = true. Proof. now apply bytes_eqb_spec. Qed.
Lemma beq_neq a b : a <> b -> bytes_eqb a b = false.
Proof. intros H. destruct (bytes_eqb a b) eqn:E; [apply bytes_eqb_spec in E; contradiction|reflexivity]. Qed.
Lemma addr_dec (a b : list Z) : {a = b} + {a <> b}. Proof. apply (list_eq_dec Z.eq_dec). Qed.

(** no two entries for one destination *)
Definition lok (l : list olink) : Prop := NoDup (map ol_dst l).
Lemma get_link_in l d : get_link l d = None <-> ~ In d (map ol_dst l).
Proof.
  unfold get_link. induction l as [|k l IH]; cbn [find map In]; [tauto|]. destruct (addr_dec (ol_dst k) d) as [E|E].
  - subst. rewrite beq_refl. split; [discriminate|]. intros H. exfalso. apply H. now left.
  - rewrite (beq_neq _ _ E). rewrite IH. tauto.
Qed.
Lemma get_link_some l d k : get_link l d = Some k -> In k l /\ ol_dst k = d.
Proof. unfold get_link. intros H. apply find_some in H as [H1 H2]. split; [exact H1|now apply bytes_eqb_spec]. Qed.
Lemma get_link_quality l d q : lok l -> (In (mkOl d q) l <-> get_link l d = Some (mkOl d q)).
Proof.
  unfold get_link, lok. induction l as [|k l IH]; cbn [find map In]; intros N; [split; [tauto|discriminate]|].
  inversion N as [|? ? N1 N2]; subst. destruct (addr_dec (ol_dst k) d) as [E|E].
  - subst d. rewrite beq_refl. split; [|intros H; apply Some_inj in H; now left].
    intros [H|H]; [now f_equal|]. exfalso. apply N1. change (ol_dst k) with (ol_dst (mkOl (ol_dst k) q)). now apply in_map.
  - rewrite (beq_neq _ _ E). rewrite <- (IH N2). split; [|tauto]. intros [H|H]; [subst k; cbn in E; congruence|exact H].
Qed.
Lemma remove_dst l d : lok l -> map ol_dst (remove_link l d) = filter (fun x => negb (bytes_eqb x d)) (map ol_dst l).
Proof.
  unfold lok. induction l as [|k l IH]; cbn [remove_link map filter]; intros N; [reflexivity|]. inversion N as [|? ? N1 N2]; subst.
  destruct (addr_dec (ol_dst k) d) as [E|E].
  - subst d. rewrite beq_refl. cbn [negb]. clear - N1. induction (map ol_dst l) as [|x m IH]; [reflexivity|]. cbn [filter].
    rewrite (beq_neq x (ol_dst k)) by (intros ->; apply N1; now left). cbn [negb]. f_equal. apply IH. intros H. apply N1. now right.
  - rewrite (beq_neq _ _ E). cbn [negb map]. now rewrite (IH N2).
Qed.
Lemma remove_in l d k : lok l -> (In k (remove_link l d) <-> In k l /\ ol_dst k <> d).
Proof.
  unfold lok. induction l as [|x l IH]; cbn [remove_link In map]; intros N; [tauto|]. inversion N as [|? ? N1 N2]; subst.
  destruct (addr_dec (ol_dst x) d) as [E|E].
  - subst d. rewrite beq_refl. split.
    + intros H. split; [now right|]. intros F. apply N1. rewrite <- F. now apply in_map.
    + intros [[->|H] F]; [congruence|exact H].
  - rewrite (beq_neq _ _ E). cbn [In]. rewrite (IH N2). split; [intros [->|[H F]]; tauto|tauto].
Qed.
Lemma set_dst l d q : map ol_dst (set_quality l d q) = map ol_dst l.
Proof. induction l as [|k l IH]; cbn [set_quality map]; [reflexivity|]. destruct (bytes_eqb (ol_dst k) d); cbn [map ol_dst]; [reflexivity|now f_equal]. Qed.
Lemma set_in l d q e p : lok l -> In d (map ol_dst l) -> (In (mkOl e p) (set_quality l d q) <-> (e = d /\ p = q mod 256) \/ (e <> d /\ In (mkOl e p) l)).
Proof.
  unfold lok. induction l as [|k l IH]; cbn [set_quality In map]; intros N H; [contradiction|]. inversion N as [|? ? N1 N2]; subst.
  destruct (addr_dec (ol_dst k) d) as [E|E].
  - subst d. rewrite beq_refl. cbn [In]. split.
    + intros [F|F]; [inversion F; now left|]. right. split; [|now right]. intros ->. apply N1. change (ol_dst k) with (ol_dst (mkOl (ol_dst k) p)). now apply in_map.
    + intros [[-> ->]|[F [G|G]]]; [now left| |now right]. subst k. cbn in F. congruence.
  - rewrite (beq_neq _ _ E). cbn [In]. rewrite IH; [|exact N2|destruct H; [contradiction|assumption]]. split.
    + intros [F|[F|F]]; [|tauto|tauto]. subst k. cbn in E. tauto.
    + intros [F|[F [G|G]]]; tauto.
Qed.
(** one direction *)
Lemma one_way_ok q l d : lok l -> lok (one_way q l d).
Proof.
  intros N. unfold one_way. destruct (get_link l d) as [k|] eqn:G.
  - destruct (q =? 100).
    + unfold lok. rewrite remove_dst by exact N. apply NoDup_filter. exact N.
    + unfold lok. rewrite set_dst. exact N.
  - destruct (q =? 100); [exact N|]. apply get_link_in in G. unfold lok, add_link. cbn [map ol_dst]. now constructor.
Qed.
Lemma one_way_in q l d e p : lok l -> 0 <= q <= 100 ->
  (In (mkOl e p) (one_way q l d) <-> (e = d /\ q <> 100 /\ p = q) \/ (e <> d /\ In (mkOl e p) l)).
Proof.
  intros N R. assert (M : q mod 256 = q) by lia. unfold one_way. destruct (get_link l d) as [k|] eqn:G.
  - destruct (q =? 100) eqn:Q.
    + rewrite remove_in by exact N. cbn [ol_dst]. assert (q = 100) by lia. tauto.
    + rewrite set_in; [|exact N|]. { rewrite M. assert (q <> 100) by lia. tauto. }
      apply get_link_some in G as [G1 G2]. subst d. now apply in_map.
  - apply get_link_in in G. destruct (q =? 100) eqn:Q.
    + assert (Q1 : q = 100) by lia. split; [|tauto]. intros H. right. split; [|exact H]. intros ->. apply G. change d with (ol_dst (mkOl d p)). now apply in_map.
    + unfold add_link. cbn [In]. rewrite M. split.
      * intros [H|H]; [inversion H; left; split; [reflexivity|split; [lia|reflexivity]]|]. right. split; [|exact H]. intros ->. apply G. change d with (ol_dst (mkOl d p)). now apply in_map.
      * intros [(-> & _ & ->)|[_ H]]; tauto.
Qed.

(** * The state *)
Definition cok (cs : list oconn) : Prop := NoDup (map oc_addr cs) /\ NoDup (map oc_sock cs) /\ forall c, In c cs -> lok (oc_links c).
Lemma on_conn_addr a f cs : map oc_addr (on_conn a f cs) = map oc_addr cs.
Proof. unfold on_conn. rewrite map_map. apply map_ext. intros c. destruct (bytes_eqb (oc_addr c) a); reflexivity. Qed.
Lemma on_conn_sock a f cs : map oc_sock (on_conn a f cs) = map oc_sock cs.
Proof. unfold on_conn. rewrite map_map. apply map_ext. intros c. destruct (bytes_eqb (oc_addr c) a); reflexivity. Qed.
Lemma connected_map cs a : connected cs a <-> In a (map oc_addr cs).
Proof. unfold connected. rewrite in_map_iff. split; intros (c & H1 & H2); exists c; tauto. Qed.
Lemma on_conn_ok a q d cs : cok cs -> cok (on_conn a (fun l => one_way q l d) cs).
Proof.
  intros (N & S1 & L). split; [now rewrite on_conn_addr|]. split; [now rewrite on_conn_sock|]. intros c H. unfold on_conn in H. apply in_map_iff in H as (x & <- & X).
  destruct (bytes_eqb (oc_addr x) a); [cbn [oc_links]; apply one_way_ok|]; now apply L.
Qed.
Lemma on_conn_quality a q d cs s e p : cok cs -> 0 <= q <= 100 ->
  (quality (on_conn a (fun l => one_way q l d) cs) s e p <->
   (s = a /\ e = d /\ connected cs a /\ q <> 100 /\ p = q) \/ (~ (s = a /\ e = d) /\ quality cs s e p)).
Proof.
  intros (N & S1 & L) R. unfold quality. split.
  - intros (c & H & A & K). unfold on_conn in H. apply in_map_iff in H as (x & <- & X). destruct (addr_dec (oc_addr x) a) as [E|E].
    + rewrite E, beq_refl in *. cbn [oc_addr oc_links] in *. subst s. apply one_way_in in K; [|now apply L|exact R]. destruct K as [(-> & Q & ->)|[F K]].
      * left. repeat split; try assumption. exists x. tauto.
      * right. split; [tauto|]. exists x. tauto.
    + rewrite (beq_neq _ _ E) in *. right. split; [intros [-> _]; contradiction|]. exists x. tauto.
  - intros [(-> & -> & (x & X & E) & Q & ->)|[F (x & X & A & K)]].
    + exists (mkOc (oc_addr x) (oc_sock x) (one_way q (oc_links x) d)). repeat split.
      * unfold on_conn. apply in_map_iff. exists x. rewrite E, beq_refl. tauto.
      * cbn. exact E.
      * cbn [oc_links]. apply one_way_in; [now apply L|exact R|]. tauto.
    + destruct (addr_dec (oc_addr x) a) as [E|E].
      * exists (mkOc (oc_addr x) (oc_sock x) (one_way q (oc_links x) d)). repeat split.
        -- unfold on_conn. apply in_map_iff. exists x. rewrite E, beq_refl. tauto.
        -- exact A.
        -- cbn [oc_links]. apply one_way_in; [now apply L|exact R|]. right. split; [|exact K]. intros ->. apply F. split; congruence.
      * exists x. repeat split; [|exact A|exact K]. unfold on_conn. apply in_map_iff. exists x. rewrite (beq_neq _ _ E). tauto.
Qed.

(** one pair, both directions *)
Definition hit (bi : bool) (s d x y : list Z) : Prop := s <> d /\ ((x = s /\ y = d) \/ (bi = true /\ x = d /\ y = s)).
Lemma hit_dec bi s d x y : {hit bi s d x y} + {~ hit bi s d x y}.
Proof.
  unfold hit. destruct (addr_dec s d) as [E|E]; [right; tauto|].
  destruct (addr_dec x s) as [A|A], (addr_dec y d) as [B|B]; try (left; tauto);
  (destruct bi; [|right; intros [_ [H|[H _]]]; [tauto|discriminate]]);
  (destruct (addr_dec x d) as [C|C], (addr_dec y s) as [D|D]; try (left; tauto); right; tauto).
Qed.
Lemma one_pair_ok bi q s d cs : cok cs -> cok (one_pair bi q s d cs).
Proof. intros H. unfold one_pair. destruct (bytes_eqb s d); [exact H|]. destruct bi; repeat apply on_conn_ok; exact H. Qed.
Lemma one_pair_addr bi q s d cs : map oc_addr (one_pair bi q s d cs) = map oc_addr cs.
Proof. unfold one_pair. destruct (bytes_eqb s d); [reflexivity|]. destruct bi; rewrite ?on_conn_addr; reflexivity. Qed.
Lemma one_pair_quality bi q s d cs x y p : cok cs -> 0 <= q <= 100 ->
  (quality (one_pair bi q s d cs) x y p <->
   (hit bi s d x y /\ connected cs x /\ q <> 100 /\ p = q) \/ (~ hit bi s d x y /\ quality cs x y p)).
Proof.
  intros C R. unfold one_pair, hit. destruct (addr_dec s d) as [E|E].
  - subst d. rewrite beq_refl. tauto.
  - rewrite (beq_neq _ _ E). destruct bi.
    + rewrite on_conn_quality; [|now apply on_conn_ok|exact R]. rewrite on_conn_quality by assumption.
      rewrite !connected_map, on_conn_addr. destruct (addr_dec x s), (addr_dec y d), (addr_dec x d), (addr_dec y s); subst; try congruence; tauto.
    + rewrite on_conn_quality by assumption. destruct (addr_dec x s), (addr_dec y d); subst; split; intros H;
      repeat match goal with H : _ \/ _ |- _ => destruct H | H : _ /\ _ |- _ => destruct H end; try congruence; try tauto;
      try (right; split; [|assumption]; intros [_ [[? ?]|[? _]]]; [congruence|discriminate]).
      all: try (left; repeat split; try assumption; tauto).
Qed.

(** a list of pairs *)
Definition pairs (bi : bool) (q : Z) (ps : list (list Z * list Z)) (cs : list oconn) : list oconn := fold_left (fun cs p => one_pair bi q (fst p) (snd p) cs) ps cs.
Lemma fold_prod bi q ds : forall ss cs,
  fold_left (fun cs s => fold_left (fun cs d => one_pair bi q s d cs) ds cs) ss cs = pairs bi q (list_prod ss ds) cs.
Proof.
  unfold pairs. induction ss as [|s ss IH]; intros cs; [reflexivity|]. cbn [fold_left list_prod]. rewrite fold_left_app, <- IH. f_equal.
  clear. revert cs. induction ds as [|d ds IH]; intros cs; [reflexivity|]. cbn [fold_left map fst snd]. apply IH.
Qed.
Lemma pairs_ok bi q ps : forall cs, cok cs -> cok (pairs bi q ps cs).
Proof. unfold pairs. induction ps as [|p ps IH]; intros cs C; [exact C|]. cbn [fold_left]. apply IH. now apply one_pair_ok. Qed.
Lemma pairs_addr bi q ps : forall cs, map oc_addr (pairs bi q ps cs) = map oc_addr cs.
Proof. unfold pairs. induction ps as [|p ps IH]; intros cs; [reflexivity|]. cbn [fold_left]. rewrite IH. apply one_pair_addr. Qed.
Lemma pairs_quality bi q ps x y p : 0 <= q <= 100 -> forall cs, cok cs ->
  (quality (pairs bi q ps cs) x y p <->
   ((exists s d, In (s, d) ps /\ hit bi s d x y) /\ connected cs x /\ q <> 100 /\ p = q) \/
   (~ (exists s d, In (s, d) ps /\ hit bi s d x y) /\ quality cs x y p)).
Proof.
  intros R. unfold pairs. induction ps as [|[s d] ps IH]; intros cs C.
  - cbn [fold_left In]. split; [intros H; right; split; [intros (s & d & [] & _)|exact H]|]. intros [[(s & d & [] & _) _]|[_ H]]. exact H.
  - cbn [fold_left fst snd]. rewrite IH by now apply one_pair_ok. rewrite one_pair_quality by assumption.
    rewrite !connected_map, one_pair_addr.
    assert (X : (exists s0 d0, In (s0, d0) ((s, d) :: ps) /\ hit bi s0 d0 x y) <-> hit bi s d x y \/ (exists s0 d0, In (s0, d0) ps /\ hit bi s0 d0 x y)).
    { split.
      - intros (s0 & d0 & [H|H] & K); [inversion H; subst; now left|right; now exists s0, d0].
      - intros [H|(s0 & d0 & H & K)]; [exists s, d; split; [now left|exact H]|exists s0, d0; split; [now right|exact K]]. }
    rewrite X. clear X IH. destruct (hit_dec bi s d x y) as [H|H].
    + split.
      * intros [(_ & K)|[_ [(_ & K)|[K _]]]]; [tauto|tauto|contradiction].
      * intros [(_ & K)|[K _]]; [|exfalso; apply K; now left].
        assert (D : (exists s0 d0, In (s0, d0) ps /\ hit bi s0 d0 x y) \/ ~ (exists s0 d0, In (s0, d0) ps /\ hit bi s0 d0 x y)).
        { clear. induction ps as [|[a b] ps IH]; [right; intros (s & d & [] & _)|]. destruct (hit_dec bi a b x y) as [H|H].
          - left. exists a, b. split; [now left|exact H].
          - destruct IH as [(s & d & I & K)|IH]; [left; exists s, d; split; [now right|exact K]|]. right. intros (s & d & [I|I] & K); [inversion I; subst; contradiction|].
            apply IH. now exists s, d. }
        tauto.
    + tauto.
Qed.

Lemma client_spec cs a : (exists c, client cs a = Some c /\ oc_addr c = a) \/ (client cs a = None /\ ~ connected cs a).
Proof.
  unfold client, connected. induction cs as [|c cs IH]; cbn [find].
  - right. split; [reflexivity|]. intros (c & [] & _).
  - destruct (addr_dec a (oc_addr c)) as [E|E].
    + rewrite E, beq_refl. left. exists c. split; reflexivity.
    + rewrite (beq_neq _ _ E). destruct IH as [IH|[IH1 IH2]]; [now left|]. right. split; [exact IH1|]. intros (x & [X|X] & A); [congruence|]. apply IH2. now exists x.
Qed.
Lemma client_connected cs a : (exists c, client cs a = Some c) <-> connected cs a.
Proof.
  destruct (client_spec cs a) as [(c & H & A)|[H N]].
  - split; [|intros _; now exists c]. intros _. exists c. split; [|exact A]. unfold client in H. now apply find_some in H.
  - split; [intros (c & K); congruence|intros K; contradiction].
Qed.
Lemma word_spec cs w l : word cs w = Some l -> forall a, In a l <-> connected cs a /\ means w a.
Proof.
  unfold word, means. destruct w as [b|]; intros H a.
  - destruct (client_spec cs b) as [(c & E & A)|[E N]]; rewrite E in H; [|discriminate]. apply Some_inj in H. subst l. cbn [In]. split.
    + intros [K|[]]. subst a. rewrite A. split; [|now right]. apply client_connected. now exists c.
    + intros [_ [K|K]]; [discriminate|]. apply Some_inj in K. left. congruence.
  - apply Some_inj in H. subst l. rewrite <- connected_map. tauto.
Qed.
Lemma word_some cs w : (w = None \/ exists a, w = Some a /\ connected cs a) <-> exists l, word cs w = Some l.
Proof.
  unfold word. destruct w as [b|].
  - split.
    + intros [K|(a & K & C)]; [discriminate|]. apply Some_inj in K. subst b. apply client_connected in C as (c & ->). now eexists.
    + intros (l & H). right. exists b. split; [reflexivity|]. apply client_connected. destruct (client cs b); [now eexists|discriminate].
  - split; [intros _; now eexists|intros _; now left].
Qed.
Lemma cmd_link_spec bi src dst q cs cs' : cok cs -> cmd_link bi src dst q cs = Some cs' ->
  cok cs' /\ map oc_addr cs' = map oc_addr cs /\ 0 <= q <= 100 /\
  forall x y p, quality cs' x y p <-> (selected cs bi src dst x y /\ q <> 100 /\ p = q) \/ (~ selected cs bi src dst x y /\ quality cs x y p).
Proof.
  intros C H. unfold cmd_link in H. destruct (word cs src) as [ss|] eqn:Ws; [|discriminate]. destruct (word cs dst) as [ds|] eqn:Wd; [|discriminate].
  set (b := if match src with Some _ => false | None => match dst with Some _ => false | None => true end end then false else bi) in *.
  destruct ((q <? 0) || (q >? 100)) eqn:R; [discriminate|]. rewrite fold_prod in H. apply Some_inj in H. subst cs'.
  split; [now apply pairs_ok|]. split; [apply pairs_addr|]. split; [lia|]. intros x y p. rewrite pairs_quality by (assumption || lia).
  assert (X : (exists s d, In (s, d) (list_prod ss ds) /\ hit b s d x y) <-> selected cs bi src dst x y).
  { pose proof (word_spec cs src ss Ws) as S1. pose proof (word_spec cs dst ds Wd) as S2. unfold selected, hit. split.
    - intros (s & d & I & N & H). apply in_prod_iff in I as [I1 I2]. apply S1 in I1. apply S2 in I2.
      destruct H as [[-> ->]|(B & -> & ->)]; [tauto|]. repeat split; try tauto; [congruence|]. right. repeat split; try tauto.
      subst b. destruct src, dst; congruence.
    - intros (C1 & C2 & N & [[M1 M2]|(B & M1 & M2)]).
      + exists x, y. split; [apply in_prod_iff; split; [apply S1|apply S2]; tauto|]. tauto.
      + destruct (match src with Some _ => false | None => match dst with Some _ => false | None => true end end) eqn:W.
        * assert (src = None /\ dst = None) as [-> ->] by (destruct src, dst; try discriminate; auto).
          exists x, y. split; [apply in_prod_iff; split; [apply S1|apply S2]; unfold means; tauto|]. tauto.
        * exists y, x. split; [apply in_prod_iff; split; [apply S1|apply S2]; tauto|]. split; [congruence|]. right. subst b bi. tauto. }
  rewrite X. unfold selected. tauto.
Qed.
Lemma delete_in cs a c : NoDup (map oc_addr cs) -> (In c (delete_connection cs a) <-> In c cs /\ oc_addr c <> a).
Proof.
  induction cs as [|x cs IH]; cbn [delete_connection In map]; intros N; [tauto|]. inversion N as [|? ? N1 N2]; subst. destruct (addr_dec a (oc_addr x)) as [E|E].
  - subst a. rewrite beq_refl. split.
    + intros H. split; [now right|]. intros F. apply N1. rewrite <- F. now apply in_map.
    + intros [[->|H] F]; [congruence|exact H].
  - rewrite (beq_neq _ _ E). cbn [In]. rewrite (IH N2). split; [|tauto]. intros [->|H]; [|tauto]. split; [now left|congruence].
Qed.
Lemma delete_map {A} (f : oconn -> A) cs a : NoDup (map f cs) -> NoDup (map f (delete_connection cs a)).
Proof.
  induction cs as [|x cs IH]; cbn [delete_connection map]; intros N; [constructor|]. inversion N as [|? ? N1 N2]; subst. destruct (bytes_eqb a (oc_addr x)); [exact N2|].
  cbn [map]. constructor; [|now apply IH]. intros H. apply N1. clear - H. induction cs as [|y cs IH]; cbn [delete_connection map] in *; [exact H|].
  destruct (bytes_eqb a (oc_addr y)); [now right|]. destruct H as [H|H]; [now left|right; now apply IH].
Qed.
Lemma ostep_ok cs e : cok cs -> cok (ostep cs e).
Proof.
  intros C. pose proof C as (N & S1 & L). destruct e as [a s|a|bi src dst q]; cbn [ostep].
  - destruct (existsb (fun c => oc_sock c =? s) cs) eqn:X; [exact C|]. unfold connect. destruct (client_spec cs a) as [(c & -> & _)|[-> Nc]]; [exact C|].
    split; [|split].
    + cbn [map oc_addr]. constructor; [|exact N]. now rewrite <- connected_map.
    + cbn [map oc_sock]. constructor; [|exact S1]. intros H. apply in_map_iff in H as (c & E & I).
      assert (existsb (fun c => oc_sock c =? s) cs = true) by (apply existsb_exists; exists c; split; [exact I|lia]). congruence.
    + intros c [<-|I]; [constructor|now apply L].
  - split; [now apply delete_map|]. split; [now apply delete_map|]. intros c H. apply delete_in in H; [|exact N]. now apply L.
  - destruct (cmd_link bi src dst q cs) as [cs'|] eqn:E; [|exact C]. now apply (cmd_link_spec bi src dst q cs cs' C E).
Qed.
Lemma orun_ok l : cok (orun l).
Proof.
  unfold orun. assert (G : forall l cs, cok cs -> cok (fold_left ostep l cs)) by (clear; induction l as [|e l IH]; intros cs C; [exact C|]; cbn [fold_left]; apply IH; now apply ostep_ok).
  apply G. split; [constructor|]. split; [constructor|]. intros c [].
Qed.

(** * Packets *)
Lemma throw_range x : 0 <= x < 2 ^ 31 -> 1 <= throw x <= 100.
Proof. intros H. unfold throw. assert (0 <= 100 * x / 2 ^ 31) by (apply Z.div_pos; lia). assert (100 * x / 2 ^ 31 < 100) by (apply Z.div_lt_upper_bound; lia). lia. Qed.
Lemma throw_ge x q : 0 <= x < 2 ^ 31 -> (q <= throw x <-> (q - 1) * 2 ^ 31 <= 100 * x).
Proof.
  intros H. unfold throw. split.
  - intros K. assert (q - 1 <= 100 * x / 2 ^ 31) by lia. pose proof (Z.mul_div_le (100 * x) (2 ^ 31) ltac:(lia)). lia.
  - intros K. assert (q - 1 <= 100 * x / 2 ^ 31) by (apply Z.div_le_lower_bound; lia). lia.
Qed.
Definition rated (c : oconn) (a : list Z) : Prop := exists k, get_link (oc_links c) a = Some k /\ ol_qual k <> 0.
Lemma receivers_spec c ds : NoDup (map oc_addr ds) -> forall rs, (length ds <= length rs)%nat -> Forall (fun x => 0 <= x < 2 ^ 31) rs ->
  exists f : list Z -> nat,
   (forall a b, rated c a -> rated c b -> In a (map oc_addr ds) -> In b (map oc_addr ds) -> f a = f b -> a = b) /\
   forall d, In d ds ->
   (oc_sock c = oc_sock d -> ~ In (oc_addr d) (receivers c ds rs)) /\
   (oc_sock c <> oc_sock d ->
     (get_link (oc_links c) (oc_addr d) = None -> In (oc_addr d) (receivers c ds rs)) /\
     (forall k, get_link (oc_links c) (oc_addr d) = Some k ->
        (ol_qual k = 0 -> ~ In (oc_addr d) (receivers c ds rs)) /\
        (ol_qual k <> 0 -> exists x, nth_error rs (f (oc_addr d)) = Some x /\ (In (oc_addr d) (receivers c ds rs) <-> (ol_qual k - 1) * 2 ^ 31 <= 100 * x)))).
Proof.
  assert (SUB : forall ds rs a, In a (receivers c ds rs) -> In a (map oc_addr ds)).
  { clear. induction ds as [|y ds IH]; intros rs a; cbn [receivers map]; [tauto|]. destruct (check_link c (oc_addr y) rs) as [ok rs'].
    destruct (ok && negb (oc_sock c =? oc_sock y)); [intros [H|H]; [now left|right; now apply (IH rs')]|intros H; right; now apply (IH rs')]. }
  induction ds as [|y ds IH]; intros N rs Len F; [exists (fun _ => 0%nat); split; intros; contradiction|]. cbn [map] in N. inversion N as [|? ? N1 N2]; subst. cbn [length] in Len.
  cbn [receivers]. destruct (check_link c (oc_addr y) rs) as [ok rs'] eqn:CL.
  assert (RS : (length ds <= length rs')%nat /\ Forall (fun x => 0 <= x < 2 ^ 31) rs' /\
     ((rs' = rs /\ ~ rated c (oc_addr y)) \/ (exists x, rs = x :: rs'))).
  { unfold check_link in CL. unfold rated. destruct (get_link (oc_links c) (oc_addr y)) as [k|].
    - destruct (ol_qual k =? 0) eqn:K0.
      + inversion CL; subst. split; [lia|]. split; [exact F|]. left. split; [reflexivity|]. intros (k' & E & Q). apply Some_inj in E. subst k'. lia.
      + destruct rs as [|x rs]; [cbn in Len; lia|]. inversion CL; subst. inversion F; subst. cbn [length] in Len. split; [lia|]. split; [assumption|]. right. now exists x.
    - inversion CL; subst. split; [lia|]. split; [exact F|]. left. split; [reflexivity|]. intros (k' & E & Q). discriminate. }
  destruct RS as (R1 & R2 & R3). destruct (IH N2 rs' R1 R2) as (f & FI & FS). clear IH.
  assert (OFF : exists o, (forall n, nth_error rs (o n) = nth_error rs' n) /\ (forall n m, o n = o m -> n = m) /\ (rated c (oc_addr y) -> forall n, o n <> 0%nat)).
  { destruct R3 as [[-> NR]|(x & ->)]; [exists (fun n => n); repeat split; auto; contradiction|]. exists Datatypes.S. repeat split; auto; discriminate. }
  destruct OFF as (o & O1 & O2 & O3).
  exists (fun a => if addr_dec a (oc_addr y) then 0%nat else o (f a)). split.
  - intros a b Ra Rb. cbn [map In]. intros Ia Ib. destruct (addr_dec a (oc_addr y)) as [A|A], (addr_dec b (oc_addr y)) as [B|B].
    + congruence.
    + subst a. intros E. exfalso. apply (O3 Ra (f b)). now symmetry.
    + subst b. intros E. exfalso. now apply (O3 Rb (f a)).
    + intros E. apply O2 in E. apply FI; try assumption; [destruct Ia|destruct Ib]; congruence || assumption.
  - intros d [->|D].
    + assert (NI : forall rs, ~ In (oc_addr d) (receivers c ds rs)) by (intros r H; apply N1; now apply (SUB ds r)).
      destruct (addr_dec (oc_addr d) (oc_addr d)) as [_|X]; [|congruence]. unfold check_link in CL. split.
      * intros E. replace (oc_sock c =? oc_sock d) with true by lia. cbn [negb]. rewrite andb_false_r. apply NI.
      * intros E. replace (oc_sock c =? oc_sock d) with false by lia. cbn [negb]. rewrite andb_true_r. split.
        -- intros G. rewrite G in CL. inversion CL; subst. now left.
        -- intros k G. rewrite G in CL. split.
           ++ intros Q. replace (ol_qual k =? 0) with true in CL by lia. inversion CL; subst. apply NI.
           ++ intros Q. replace (ol_qual k =? 0) with false in CL by lia. destruct rs as [|x rs]; [cbn in Len; lia|]. inversion F as [|? ? F1 F2]; subst.
              exists x. split; [reflexivity|]. pose proof (throw_ge x (ol_qual k) F1) as T. destruct (ol_qual k >? throw x) eqn:G1; inversion CL; subst.
              ** split; [intros H; exfalso; now apply (NI rs')|]. intros H. apply T in H. lia.
              ** split; [intros _; apply T; lia|]. intros _. now left.
    + assert (ND : oc_addr d <> oc_addr y) by (intros E; apply N1; rewrite <- E; now apply in_map).
      destruct (addr_dec (oc_addr d) (oc_addr y)) as [X|_]; [contradiction|].
      assert (EQ : In (oc_addr d) (if ok && negb (oc_sock c =? oc_sock y) then oc_addr y :: receivers c ds rs' else receivers c ds rs') <->
         In (oc_addr d) (receivers c ds rs')).
      { destruct (ok && negb (oc_sock c =? oc_sock y)); cbn [In]; [|tauto]. split; [intros [K|K]; [congruence|exact K]|tauto]. }
      destruct (FS d D) as [I1 I2]. split; [intros E K; apply EQ in K; now apply I1|]. intros E. destruct (I2 E) as [J1 J2].
      split; [intros G; apply EQ; now apply J1|]. intros k G. destruct (J2 k G) as [K1 K2]. split; [intros Q K; apply EQ in K; now apply K1|].
      intros Q. destruct (K2 Q) as (x & X & Y). exists x. split; [now rewrite O1|]. now rewrite EQ.
Qed.

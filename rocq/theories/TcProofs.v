(** Proofs about topology messages. *)
From Coq Require Import Sorting.Sorted.
From Verif Require Import Base Bytes Compare CompareProofs Mantissa Parser HelloSpec HelloProofs Tc TcSpec TcBase.

Section E.
Variable e : tenv.

Notation lt_edge := (fun x y : edge => akey e (ed_dest x) < akey e (ed_dest y)).
Definition ewf (x : edge) : Prop := is_addr e (ed_dest x) /\ 0 <= ed_ansn x < 65536.
Definition eok (l : list edge) : Prop := Forall ewf l /\ StronglySorted lt_edge l.

Definition is_dest (a : list Z) (x : edge) : bool := if list_eq_dec Z.eq_dec (ed_dest x) a then true else false.
Definition lk (l : list edge) (a : list Z) : option edge := find (is_dest a) l.

Lemma find_edge_lk l a : is_addr e a -> Forall ewf l -> find_edge e l a = lk l a.
Proof.
  intros A F. unfold find_edge, lk. induction F as [|x l (X & _) F IH]; [reflexivity|]. cbn [find].
  rewrite (acmp_zero e a (ed_dest x) A X). unfold is_dest. destruct (list_eq_dec Z.eq_dec (ed_dest x) a); [reflexivity|]. exact IH.
Qed.
Lemma lk_some l a x : lk l a = Some x -> In x l /\ ed_dest x = a.
Proof. intros H. apply find_some in H. destruct H as (H1 & H2). unfold is_dest in H2. destruct (list_eq_dec Z.eq_dec (ed_dest x) a); [auto|discriminate]. Qed.
Lemma lk_none l a : lk l a = None -> forall x, In x l -> ed_dest x <> a.
Proof. intros H x Hx. apply (find_none _ _ H) in Hx. unfold is_dest in Hx. destruct (list_eq_dec Z.eq_dec (ed_dest x) a); [discriminate|auto]. Qed.

Lemma ins_in x l y : In y (ins_edge e x l) <-> y = x \/ In y l.
Proof.
  induction l as [|z l IH]; cbn [ins_edge].
  - cbn. intuition.
  - destruct (acmp e (ed_dest x) (ed_dest z) <? 0); cbn [In].
    + intuition.
    + rewrite IH. intuition.
Qed.
Lemma ins_ok x l : ewf x -> eok l -> lk l (ed_dest x) = None -> eok (ins_edge e x l).
Proof.
  intros X (F & S) N. split.
  - rewrite Forall_forall in *. intros y Hy. apply ins_in in Hy. destruct Hy as [->|Hy]; auto.
  - pose proof (lk_none _ _ N) as N'. clear N. induction S as [|z l S IH H]; cbn [ins_edge].
    + repeat constructor.
    + inversion F as [|? ? Fz Fl]; subst. rewrite (acmp_lt e (ed_dest x) (ed_dest z)) by (apply X || apply Fz).
      destruct (Z.ltb_spec (akey e (ed_dest x)) (akey e (ed_dest z))) as [C|C].
      * constructor; [constructor; auto|]. constructor; [exact C|]. rewrite Forall_forall in *. intros y Hy. specialize (H y Hy). lia.
      * constructor.
        -- apply IH; [exact Fl|]. intros y Hy. apply N'. now right.
        -- rewrite Forall_forall in *. intros y Hy. apply ins_in in Hy. destruct Hy as [->|Hy]; [|apply H; exact Hy].
           assert (akey e (ed_dest x) <> akey e (ed_dest z)); [|lia].
           intros Q. apply (akey_inj e) in Q; [|apply X|apply Fz]. apply (N' z); [now left|auto].
Qed.
Lemma ins_lk x l a : lk l (ed_dest x) = None -> lk (ins_edge e x l) a = (if is_dest a x then Some x else lk l a).
Proof.
  intros N. pose proof (lk_none _ _ N) as N'. clear N. unfold lk. induction l as [|z l IH]; cbn [ins_edge].
  - cbn [find]. destruct (is_dest a x); reflexivity.
  - destruct (acmp e (ed_dest x) (ed_dest z) <? 0).
    + cbn [find]. reflexivity.
    + cbn [find]. rewrite IH by (intros y Hy; apply N'; now right).
      destruct (is_dest a z) eqn:Ez, (is_dest a x) eqn:Ex; try reflexivity.
      exfalso. unfold is_dest in Ez, Ex. destruct (list_eq_dec Z.eq_dec (ed_dest z) a), (list_eq_dec Z.eq_dec (ed_dest x) a); try discriminate.
      apply (N' z); [now left|congruence].
Qed.

Lemma upd_ok a ansn q l : is_addr e a -> 0 <= ansn < 65536 -> eok l -> eok (upd_edge e a ansn q l) /\ map ed_dest (upd_edge e a ansn q l) = map ed_dest l.
Proof.
  intros A H (F & S). induction S as [|z l S IH HS]; cbn [upd_edge]; [split; [split; constructor|reflexivity]|].
  inversion F as [|? ? Fz Fl]; subst. specialize (IH Fl). destruct IH as ((IH1 & IH2) & IH3).
  destruct (acmp e a (ed_dest z) =? 0).
  - cbn [map ed_dest]. split; [split|reflexivity].
    + constructor; [split; [apply Fz|exact H]|exact Fl].
    + constructor; [exact S|exact HS].
  - cbn [map]. rewrite IH3. split; [split|reflexivity].
    + constructor; [exact Fz|exact IH1].
    + constructor; [exact IH2|]. assert (G : Forall (fun d => akey e (ed_dest z) < akey e d) (map ed_dest (upd_edge e a ansn q l))).
      { rewrite IH3. rewrite Forall_forall in *. intros d Hd. apply in_map_iff in Hd. destruct Hd as (y & <- & Hy). now apply HS. }
      rewrite Forall_forall in *. intros y Hy. apply (G (ed_dest y)). now apply in_map.
Qed.
Lemma upd_lk a ansn q l b : is_addr e a -> Forall ewf l ->
  lk (upd_edge e a ansn q l) b =
  (if list_eq_dec Z.eq_dec a b then option_map (fun y => mkEdge (ed_dest y) ansn (match q with Some q => q | None => ed_lq y end)) (lk l b) else lk l b).
Proof.
  intros A F. unfold lk. induction F as [|z l Fz F IH]; cbn [upd_edge].
  - destruct (list_eq_dec Z.eq_dec a b); reflexivity.
  - rewrite (acmp_zero e a (ed_dest z) A) by apply Fz. destruct (list_eq_dec Z.eq_dec (ed_dest z) a) as [Ez|Nz]; cbn [find].
    + unfold is_dest at 1 3 5. cbn [ed_dest]. destruct (list_eq_dec Z.eq_dec a b) as [Eb|Nb], (list_eq_dec Z.eq_dec (ed_dest z) b) as [E2|N2]; try congruence; reflexivity.
    + rewrite IH. destruct (is_dest b z) eqn:Q; [|reflexivity].
      unfold is_dest in Q. destruct (list_eq_dec Z.eq_dec (ed_dest z) b) as [E2|N2]; [|discriminate].
      destruct (list_eq_dec Z.eq_dec a b); [congruence|reflexivity].
Qed.

(** the loop that revokes is a filter *)
Definition in_rng (lo up : list Z) (a : list Z) : bool := (akey e lo <=? akey e a) && (akey e a <? akey e up).
Lemma revoke_filter ansn lo up l : is_addr e lo -> is_addr e up -> eok l ->
  revoke e ansn lo up false l = filter (fun y => negb (in_rng lo up (ed_dest y) && seqno_gt ansn (ed_ansn y))) l /\
  (Forall (fun y => akey e lo <= akey e (ed_dest y)) l ->
   revoke e ansn lo up true l = filter (fun y => negb (in_rng lo up (ed_dest y) && seqno_gt ansn (ed_ansn y))) l).
Proof.
  intros A B (F & S). induction S as [|z l S IH H]; [split; reflexivity|]. inversion F as [|? ? Fz Fl]; subst. specialize (IH Fl). destruct IH as (IH1 & IH2).
  cbn [revoke filter]. rewrite !(acmp_le e lo (ed_dest z)), !(acmp_le e up (ed_dest z)) by (auto; apply Fz).
  assert (K : akey e up <= akey e (ed_dest z) -> filter (fun y => negb (in_rng lo up (ed_dest y) && seqno_gt ansn (ed_ansn y))) l = l).
  { intros Hu. apply filter_id. intros y Hy. rewrite Forall_forall in H. specialize (H y Hy). unfold in_rng. lia. }
  assert (G : akey e lo <= akey e (ed_dest z) -> Forall (fun y => akey e lo <= akey e (ed_dest y)) l).
  { intros Hu. rewrite Forall_forall in *. intros y Hy. specialize (H y Hy). lia. }
  split.
  - cbn [negb andb]. destruct (Z.leb_spec (akey e lo) (akey e (ed_dest z))) as [C|C]; cbn [negb].
    + destruct (Z.leb_spec (akey e up) (akey e (ed_dest z))) as [D|D].
      * rewrite K by exact D. unfold in_rng. replace (akey e (ed_dest z) <? akey e up) with false by lia. rewrite andb_false_r. reflexivity.
      * unfold in_rng at 1. replace (akey e lo <=? akey e (ed_dest z)) with true by lia. replace (akey e (ed_dest z) <? akey e up) with true by lia.
        cbn [andb]. rewrite IH2 by now apply G. destruct (seqno_gt ansn (ed_ansn z)); reflexivity.
    + unfold in_rng at 1. replace (akey e lo <=? akey e (ed_dest z)) with false by lia. cbn [andb negb]. now rewrite IH1.
  - intros Fa. inversion Fa as [|? ? Fa1 Fa2]; subst. cbn [negb andb].
    destruct (Z.leb_spec (akey e up) (akey e (ed_dest z))) as [D|D].
    + rewrite K by exact D. unfold in_rng. replace (akey e (ed_dest z) <? akey e up) with false by lia. rewrite andb_false_r. reflexivity.
    + unfold in_rng at 1. replace (akey e lo <=? akey e (ed_dest z)) with true by lia. replace (akey e (ed_dest z) <? akey e up) with true by lia.
      cbn [andb]. rewrite IH2 by now apply G. destruct (seqno_gt ansn (ed_ansn z)); reflexivity.
Qed.
Lemma filter_eok P l : eok l -> eok (filter P l).
Proof.
  intros (F & S). split.
  - rewrite Forall_forall in *. intros y Hy. apply filter_In in Hy. apply F. tauto.
  - induction S as [|z l S IH H]; cbn [filter]; [constructor|]. inversion F; subst. destruct (P z); [|auto].
    constructor; [auto|]. rewrite Forall_forall in *. intros y Hy. apply filter_In in Hy. apply H. tauto.
Qed.
Lemma filter_lk P l a : eok l -> lk (filter P l) a = match lk l a with Some y => if P y then Some y else None | None => None end.
Proof.
  intros (F & S). unfold lk. induction S as [|z l S IH H]; [reflexivity|]. inversion F as [|? ? Fz Fl]; subst. specialize (IH Fl). cbn [filter find].
  destruct (is_dest a z) eqn:Q.
  - destruct (P z) eqn:Pz.
    + cbn [find]. now rewrite Q.
    + rewrite IH. destruct (find (is_dest a) l) as [y|] eqn:Ey; [|reflexivity].
      apply lk_some in Ey. destruct Ey as (Hy & Ey). rewrite Forall_forall in H. specialize (H y Hy).
      unfold is_dest in Q. destruct (list_eq_dec Z.eq_dec (ed_dest z) a) as [Q1|]; [|discriminate]. exfalso. cbv beta in H. rewrite Q1, Ey in H. lia.
  - destruct (P z); [cbn [find]; rewrite Q; exact IH|exact IH].
Qed.

(** * Reading the links of a message *)
Hypothesis Hlq : te_lq e > 0.

Definition put_ent (ansn : Z) (l : list edge) (x : list Z * list Z) : list edge :=
  match lk l (fst x) with None => ins_edge e (mkEdge (fst x) ansn (snd x)) l | Some _ => upd_edge e (fst x) ansn (Some (snd x)) l end.
Lemma put_ok ansn l x : is_addr e (fst x) -> 0 <= ansn < 65536 -> eok l -> eok (put_ent ansn l x).
Proof.
  intros A H K. unfold put_ent. destruct (lk l (fst x)) eqn:E.
  - now apply upd_ok.
  - apply ins_ok; [split; auto|exact K|exact E].
Qed.
Definition known (y : edge) : Z * list Z := (ed_ansn y, ed_lq y).
Lemma put_lk ansn l x a : is_addr e (fst x) -> eok l ->
  option_map known (lk (put_ent ansn l x) a) = if list_eq_dec Z.eq_dec (fst x) a then Some (ansn, snd x) else option_map known (lk l a).
Proof.
  intros A (F & S). unfold put_ent. destruct (lk l (fst x)) as [y|] eqn:E.
  - rewrite upd_lk by auto. destruct (list_eq_dec Z.eq_dec (fst x) a) as [<-|]; [|reflexivity]. rewrite E. reflexivity.
  - rewrite ins_lk by exact E. unfold is_dest. cbn [ed_dest]. destruct (list_eq_dec Z.eq_dec (fst x) a); reflexivity.
Qed.
Lemma puts_ok ansn xs : forall l, Forall (wf_ent e) xs -> 0 <= ansn < 65536 -> eok l -> eok (fold_left (put_ent ansn) xs l).
Proof.
  induction xs as [|x xs IH]; intros l F H K; [exact K|]. inversion F as [|? ? (F1 & _) F2]; subst. cbn [fold_left]. apply IH; auto. now apply put_ok.
Qed.
Lemma puts_lk ansn xs : forall l a, Forall (wf_ent e) xs -> 0 <= ansn < 65536 -> eok l ->
  option_map known (lk (fold_left (put_ent ansn) xs l) a) = match says xs a with Some q => Some (ansn, q) | None => option_map known (lk l a) end.
Proof.
  induction xs as [|[b q] xs IH]; intros l a F H K; [reflexivity|]. inversion F as [|? ? (F1 & _) F2]; subst. cbn [fold_left says].
  rewrite IH; [|exact F2|exact H|apply put_ok; auto]. destruct (says xs a); [reflexivity|].
  rewrite put_lk by auto. cbn [fst snd]. destruct (list_eq_dec Z.eq_dec b a); reflexivity.
Qed.

Lemma validate_in d a : ~ In a d -> validate d a = true.
Proof.
  induction d as [|x d IH]; intros H; [reflexivity|]. cbn [validate]. unfold bytes_eqb. destruct (list_eq_dec Z.eq_dec a x) as [->|].
  - exfalso. apply H. now left.
  - apply IH. intros Q. apply H. now right.
Qed.
Lemma enc_ent_len x : wf_ent e x -> blen (enc_ent x) = ips e + 4.
Proof. intros ((L & _) & L2 & _). unfold enc_ent. rewrite !blen_app, L. unfold blen. rewrite L2. change (Z.of_nat (length [0; 0])) with 2. lia. Qed.
Lemma update_enc l ansn pre x post : wf_ent e x -> eok l ->
  update_edge e l ansn (pre ++ enc_ent x ++ post) (blen pre) = Some (put_ent ansn l x, blen pre + ips e + 4, fst x, true).
Proof.
  intros ((L & Fx) & L2 & D) (F & S). unfold update_edge, put_ent. unfold enc_ent. rewrite <- !app_assoc.
  rewrite (rdn_at pre (fst x)) by auto.
  rewrite (find_edge_lk l (fst x)); [|split; auto|exact F].
  assert (R : rdn (pre ++ fst x ++ snd x ++ [0; 0] ++ post) (blen pre + ips e) 2 = Some (snd x)).
  { rewrite app_assoc. apply rdn_at; [rewrite blen_app; lia|unfold blen; lia]. }
  destruct (lk l (fst x)).
  - replace (te_lq e >? 0) with true by lia. rewrite R. reflexivity.
  - rewrite validate_in by exact D. cbn [negb]. rewrite R. reflexivity.
Qed.
Definition bord_of (b : option (list Z * list Z)) (xs : list (list Z * list Z)) : option (list Z * list Z) :=
  match xs with
  | [] => b
  | x :: _ => Some (match b with None => fst x | Some (lo, _) => lo end, fst (last xs ([], [])))
  end.
Lemma walk_enc ansn post xs : forall fuel pre l b chg, Forall (wf_ent e) xs -> 0 <= ansn < 65536 -> eok l -> (length xs <= fuel)%nat ->
  walk fuel e l ansn (pre ++ flat_map enc_ent xs ++ post) (blen pre) (blen pre + blen (flat_map enc_ent xs)) b chg
  = Some (fold_left (put_ent ansn) xs l, bord_of b xs, chg || match xs with [] => false | _ => true end).
Proof.
  induction xs as [|x xs IH]; intros fuel pre l b chg F H K Hf.
  - cbn [flat_map]. change (blen []) with 0. destruct fuel; cbn [walk]; replace (blen pre <? blen pre + 0) with false by lia; now rewrite orb_false_r.
  - inversion F as [|? ? F1 F2]; subst. pose proof F1 as (A1 & _). pose proof (enc_ent_len x F1) as Lx. pose proof (ips_pos e) as Ip.
    pose proof (blen_nonneg (flat_map enc_ent xs)). cbn [length] in Hf. destruct fuel as [|fuel]; [lia|]. cbn [flat_map walk]. rewrite blen_app.
    replace (blen pre <? blen pre + (blen (enc_ent x) + blen (flat_map enc_ent xs))) with true by lia.
    rewrite <- app_assoc. rewrite (update_enc l ansn pre x _ F1 K).
    specialize (IH fuel (pre ++ enc_ent x) (put_ent ansn l x) (Some (match b with None => fst x | Some (lo, _) => lo end, fst x)) (chg || true) F2 H
      (put_ok ansn l x A1 H K) ltac:(lia)).
    rewrite <- app_assoc in IH. rewrite blen_app in IH.
    replace (blen pre + ips e + 4) with (blen pre + blen (enc_ent x)) by lia.
    replace (blen pre + (blen (enc_ent x) + blen (flat_map enc_ent xs))) with (blen pre + blen (enc_ent x) + blen (flat_map enc_ent xs)) by lia.
    rewrite IH. cbn [fold_left]. f_equal. f_equal; [f_equal|].
    + unfold bord_of. destruct xs as [|y xs]; [reflexivity|]. reflexivity.
    + rewrite !orb_true_r. reflexivity.
Qed.

(** * Whole messages *)
Lemma header m post : wf_tmsg e m ->
  let buf := enc_tc m ++ post in let n := ips e in
  rd8 buf 0 = Some 202 /\ rd8 buf 1 = Some (m_vt m) /\ rd16 buf 2 = Some (12 + n + blen (flat_map enc_ent (m_ents m))) /\ rdn buf 4 n = Some (m_orig m) /\
  rd8 buf (5 + n) = Some (m_hops m) /\ rd16 buf (6 + n) = Some (m_seq m) /\ rd16 buf (8 + n) = Some (m_ansn m) /\
  rd8 buf (10 + n) = Some (m_lower m) /\ rd8 buf (11 + n) = Some (m_upper m) /\
  exists pre, buf = pre ++ flat_map enc_ent (m_ents m) ++ post /\ blen pre = 12 + n.
Proof.
  intros ((L & _) & _) buf n. subst buf n. unfold enc_tc. cbv zeta. rewrite L. set (body := flat_map enc_ent (m_ents m)). set (sz := 12 + ips e + blen body).
  rewrite <- !app_assoc. cbn [app].
  assert (P2 : forall a b : Z, blen [a; b] = 2) by reflexivity. assert (P1 : forall a : Z, blen [a] = 1) by reflexivity.
  assert (E16 : forall x, blen (enc16 x) = 2) by reflexivity. assert (EL : forall x, length (enc16 x) = 2%nat) by reflexivity.
  set (r1 := m_orig m ++ m_ttl m :: m_hops m :: enc16 (m_seq m) ++ enc16 (m_ansn m) ++ m_lower m :: m_upper m :: body ++ post).
  repeat split.
  - apply (rd8_at [] 202). reflexivity.
  - apply (rd8_at [202] (m_vt m)). reflexivity.
  - apply (rd16_at [202; m_vt m] sz r1 2). reflexivity.
  - unfold r1. apply (rdn_at ([202; m_vt m] ++ enc16 sz) (m_orig m)); [reflexivity|now symmetry].
  - assert (Q := rd8_at ([202; m_vt m] ++ enc16 sz ++ m_orig m ++ [m_ttl m]) (m_hops m)
      (enc16 (m_seq m) ++ enc16 (m_ansn m) ++ m_lower m :: m_upper m :: body ++ post) (5 + ips e)).
    repeat (rewrite <- !app_assoc in Q || cbn [app] in Q). apply Q. clear Q. unfold blen in *. cbn [length].
    repeat (rewrite app_length; cbn [length]). rewrite ?EL. lia.
  - assert (Q := rd16_at ([202; m_vt m] ++ enc16 sz ++ m_orig m ++ [m_ttl m; m_hops m]) (m_seq m)
      (enc16 (m_ansn m) ++ m_lower m :: m_upper m :: body ++ post) (6 + ips e)).
    repeat (rewrite <- !app_assoc in Q || cbn [app] in Q). apply Q. clear Q. unfold blen in *. cbn [length].
    repeat (rewrite app_length; cbn [length]). rewrite ?EL. lia.
  - assert (Q := rd16_at ([202; m_vt m] ++ enc16 sz ++ m_orig m ++ [m_ttl m; m_hops m] ++ enc16 (m_seq m)) (m_ansn m)
      (m_lower m :: m_upper m :: body ++ post) (8 + ips e)).
    repeat (rewrite <- !app_assoc in Q || cbn [app] in Q). apply Q. clear Q. unfold blen in *. cbn [length].
    repeat (rewrite app_length; cbn [length]). rewrite ?EL. lia.
  - assert (Q := rd8_at ([202; m_vt m] ++ enc16 sz ++ m_orig m ++ [m_ttl m; m_hops m] ++ enc16 (m_seq m) ++ enc16 (m_ansn m)) (m_lower m)
      (m_upper m :: body ++ post) (10 + ips e)).
    repeat (rewrite <- !app_assoc in Q || cbn [app] in Q). apply Q. clear Q. unfold blen in *. cbn [length].
    repeat (rewrite app_length; cbn [length]). rewrite ?EL. lia.
  - assert (Q := rd8_at ([202; m_vt m] ++ enc16 sz ++ m_orig m ++ [m_ttl m; m_hops m] ++ enc16 (m_seq m) ++ enc16 (m_ansn m) ++ [m_lower m]) (m_upper m)
      (body ++ post) (11 + ips e)).
    repeat (rewrite <- !app_assoc in Q || cbn [app] in Q). apply Q. clear Q. unfold blen in *. cbn [length].
    repeat (rewrite app_length; cbn [length]). rewrite ?EL. lia.
  - exists ([202; m_vt m] ++ enc16 sz ++ m_orig m ++ [m_ttl m; m_hops m] ++ enc16 (m_seq m) ++ enc16 (m_ansn m) ++ [m_lower m; m_upper m]).
    split.
    + unfold r1. repeat (rewrite <- !app_assoc || cbn [app]). reflexivity.
    + rewrite !blen_app, L, !P2, !E16. lia.
Qed.

Definition tok (t : tcent) : Prop := eok (tc_edges t) /\ 0 <= tc_seq t < 65536 /\ 0 <= tc_ansn t < 65536.
Definition dbok (d : tcdb) : Prop := forall o t, d o = Some t -> tok t.

Lemma db_put_same d o t : db_put d o t o = t.
Proof. unfold db_put, bytes_eqb. destruct (list_eq_dec Z.eq_dec o o); congruence. Qed.
Lemma db_put_other d o t x : x <> o -> db_put d o t x = d x.
Proof. intros N. unfold db_put, bytes_eqb. destruct (list_eq_dec Z.eq_dec x o); congruence. Qed.

Definition old_edges (d : tcdb) (o : list Z) : list edge := match d o with Some t => tc_edges t | None => [] end.
Lemma old_ok d o : dbok d -> eok (old_edges d o).
Proof. intros K. unfold old_edges. destruct (d o) as [t|] eqn:E; [apply (K o t E)|split; constructor]. Qed.

Definition checked (d : tcdb) (m : tmsg) : tcent * bool :=
  match d (m_orig m) with Some t => tc_check t (m_seq m) (m_ansn m) | None => (tc_new, true) end.
Definition the_border (m : tmsg) : option (option (list Z * list Z)) :=
  match m_ents m with
  | [] => Some (if (m_lower m =? 255) && (m_upper m =? 255) then Some (repeat 0 (Z.to_nat (ips e)), repeat 255 (Z.to_nat (ips e))) else None)
  | x :: _ => calculate_tc_border (ips e) (m_lower m) (m_upper m) (fst x) (fst (last (m_ents m) ([], [])))
  end.
Definition nonnil {A} (l : list A) : bool := match l with [] => false | _ => true end.
Definition outcome (d : tcdb) (m : tmsg) : option tcres :=
  let (t1, go) := checked d m in
  if negb go then Some (mkRes (db_put d (m_orig m) (Some t1)) false false None false false)
  else
    match the_border m with
    | None => None
    | Some b =>
        let l := fold_left (put_ent (m_ansn m)) (m_ents m) (old_edges d (m_orig m)) in
        let l' := match b with Some (lo, up) => revoke e (m_ansn m) lo up false l | None => l end in
        let chg := nonnil (m_ents m) || negb (length l' =? length l)%nat in
        let tm := Some (m_orig m, Z.max (me_to_reltime (m_vt m)) (te_minv e)) in
        match b, m_ents m with
        | Some _, [] => Some (mkRes (db_put d (m_orig m) None) true chg tm false true)
        | _, _ => Some (mkRes (db_put d (m_orig m) (Some (mkTc (m_hops m) (m_seq m) (m_ansn m) 0 (tc_err t1) false l'))) true chg tm
                          (match b with Some _ => false | None => true end) false)
        end
    end.

Lemma ents_len xs : Forall (wf_ent e) xs -> blen (flat_map enc_ent xs) = (ips e + 4) * Z.of_nat (length xs).
Proof.
  induction xs as [|x xs IH]; intros F; [change (blen (flat_map enc_ent [])) with 0; cbn [length]; lia|].
  inversion F; subst. cbn [flat_map length]. rewrite blen_app, enc_ent_len, IH by auto. lia.
Qed.
Lemma tc_check_edges t s a : tc_edges (fst (tc_check t s a)) = tc_edges t.
Proof.
  unfold tc_check. destruct (tc_edges t) eqn:E; [exact E|]. repeat match goal with |- context [if ?c then _ else _] => destruct c end; cbn [fst tc_edges]; auto.
Qed.

Lemma input_enc d m post : wf_tmsg e m -> dbok d -> input_tc e true d (enc_tc m ++ post) = outcome d m.
Proof.
  intros W K. destruct (header m post W) as (H0 & H1 & H2 & H4 & H5 & H6 & H8 & HA & HB & pre & Hp & Lp).
  destruct W as ((Lo & Fo) & Ws & Wa & We & Wl). cbv zeta in *. unfold input_tc. rewrite H0. change (202 =? LQ_TC_MESSAGE) with true. cbn [negb andb]. cbv zeta.
  rewrite H1, H2, H4, H5, H6, H8, HA, HB. unfold outcome, checked. unfold old_edges.
  set (t1go := match d (m_orig m) with Some t => tc_check t (m_seq m) (m_ansn m) | None => (tc_new, true) end).
  destruct t1go as [t1 go]. destruct go; cbn [negb]; [|reflexivity].
  pose proof (ents_len (m_ents m) We) as El. pose proof (ips_pos e) as Ip.
  set (body := blen (flat_map enc_ent (m_ents m))) in *.
  rewrite Hp. rewrite <- Lp.
  pose proof (old_ok d (m_orig m) K) as OK. unfold old_edges in OK.
  assert (T0 : tc_edges (match d (m_orig m) with Some t => t | None => tc_new end) = match d (m_orig m) with Some t => tc_edges t | None => [] end)
    by (destruct (d (m_orig m)); reflexivity).
  rewrite T0.
  replace (Z.to_nat (blen pre + body)) with (Z.to_nat (blen pre + body)) by reflexivity.
  unfold body at 1 2. rewrite (walk_enc (m_ansn m) post (m_ents m) (Z.to_nat (blen pre + blen (flat_map enc_ent (m_ents m)))) pre); [|exact We|exact Wa|exact OK|].
  2: { pose proof (blen_nonneg pre). fold body. rewrite El. clear - Ip H. assert (Z.of_nat (length (m_ents m)) <= (ips e + 4) * Z.of_nat (length (m_ents m))) by nia. lia. }
  fold body. rewrite Lp. unfold the_border, bord_of. destruct (m_ents m) as [|x xs] eqn:Ex.
  - assert (B0 : body = 0) by (unfold body; rewrite <- Ex; rewrite Ex; reflexivity). rewrite B0.
    replace (12 + ips e >=? 12 + ips e + 0) with true by lia. cbn [orb andb nonnil].
    destruct ((m_lower m =? 255) && (m_upper m =? 255)); reflexivity.
  - assert (Bp : 0 < body). { rewrite El. cbn [length]. rewrite Nat2Z.inj_succ. apply Z.mul_pos_pos; lia. }
    replace (12 + ips e >=? 12 + ips e + body) with false by lia. cbn [andb orb nonnil].
    destruct (calculate_tc_border (ips e) (m_lower m) (m_upper m) (fst x) (fst (last (x :: xs) ([], [])))) as [[[lo up]|]|]; reflexivity.
Qed.
End E.

(** * Every reachable state is well formed *)
Section Reach.
Variable e : tenv.
Lemma is_addr_zero : is_addr e (repeat 0 (Z.to_nat (ips e))).
Proof. rewrite repeat_val0. apply is_addr_of_val. Qed.
Lemma is_addr_ones : is_addr e (repeat 255 (Z.to_nat (ips e))).
Proof. rewrite repeat_val1. apply is_addr_of_val. Qed.

Lemma land_byte x y : 0 <= x < 256 -> 0 <= y < 256 -> 0 <= Z.lor (Z.land x y) y < 256 /\ forall z, 0 <= z < 256 -> 0 <= Z.lor (Z.land x y) z < 256.
Proof.
  assert (G : forall a b, 0 <= a < 256 -> 0 <= b < 256 -> 0 <= Z.land a b < 256).
  { intros a b Ha Hb. split; [apply Z.land_nonneg; lia|]. destruct (Z.eq_dec (Z.land a b) 0) as [->|N]; [lia|].
    assert (P : 0 <= Z.land a b) by (apply Z.land_nonneg; lia).
    change 256 with (2 ^ 8). apply Z.log2_lt_pow2; [lia|]. eapply Z.le_lt_trans; [apply Z.log2_land; lia|].
    apply Z.min_lt_iff. left. destruct (Z.eq_dec a 0) as [->|]; [rewrite Z.land_0_l in N; lia|]. apply Z.log2_lt_pow2; [lia|]. change (2 ^ 8) with 256. lia. }
  assert (H : forall a b, 0 <= a < 256 -> 0 <= b < 256 -> 0 <= Z.lor a b < 256).
  { intros a b Ha Hb. split; [apply Z.lor_nonneg; lia|]. destruct (Z.eq_dec (Z.lor a b) 0) as [->|N]; [lia|].
    assert (P : 0 <= Z.lor a b) by (apply Z.lor_nonneg; lia).
    change 256 with (2 ^ 8). apply Z.log2_lt_pow2; [lia|]. rewrite Z.log2_lor by lia.
    apply Z.max_lub_lt.
    - destruct (Z.eq_dec a 0) as [->|]; [reflexivity|]. apply Z.log2_lt_pow2; [lia|]. change (2 ^ 8) with 256. lia.
    - destruct (Z.eq_dec b 0) as [->|]; [reflexivity|]. apply Z.log2_lt_pow2; [lia|]. change (2 ^ 8) with 256. lia. }
  intros Hx Hy. split; [|intros z Hz]; apply H; auto.
Qed.
Lemma border_ip_addr f a b : is_addr e a -> border_ip (ips e) f a = Some b -> is_addr e b.
Proof.
  intros (L & F). unfold border_ip. cbv zeta. set (q := u8 (f - 1) / 8). pose proof (ips_pos e) as Ip.
  destruct (Z.geb_spec q (ips e)) as [C|C]; [discriminate|].
  destruct (split_byte a (Z.to_nat (ips e - q - 1))) as (x & E & Sp); [unfold blen in L; unfold u8 in q; lia|]. rewrite E. intros H. apply Some_inj in H. subst b.
  assert (Q0 : 0 <= q) by (unfold q, u8; lia). clearbody q.
  split.
  - unfold blen in *. rewrite !app_length, repeat_length, firstn_length. cbn [length]. lia.
  - rewrite Sp in F. apply Forall_app in F. destruct F as (F1 & F2). inversion F2 as [|? ? Fx _]; subst.
    apply Forall_app. split; [exact F1|]. constructor.
    + apply (land_byte x (u8 (Z.shiftl 255 (u8 (f - 1) mod 8)))); unfold u8 in *; lia.
    + apply Forall_forall. intros y Hy. apply repeat_spec in Hy. lia.
Qed.
Lemma calc_addr lower upper a b lo up : is_addr e a -> is_addr e b ->
  calculate_tc_border (ips e) lower upper a b = Some (Some (lo, up)) -> is_addr e lo /\ is_addr e up.
Proof.
  intros A B. unfold calculate_tc_border. destruct ((lower =? 0) && (upper =? 0)); [discriminate|].
  destruct (if lower =? 255 then Some (repeat 0 (Z.to_nat (ips e))) else border_ip (ips e) lower a) as [lo'|] eqn:E1; [|discriminate].
  destruct (if upper =? 255 then Some (repeat 255 (Z.to_nat (ips e))) else border_ip (ips e) upper b) as [up'|] eqn:E2; [|discriminate].
  intros H. apply Some_inj in H. apply Some_inj in H. injection H as <- <-. split.
  - destruct (lower =? 255); [apply Some_inj in E1; subst; apply is_addr_zero|now apply border_ip_addr in E1].
  - destruct (upper =? 255); [apply Some_inj in E2; subst; apply is_addr_ones|now apply border_ip_addr in E2].
Qed.
Lemma rdn_addr buf i a : Forall (fun b => 0 <= b < 256) buf -> rdn buf i (ips e) = Some a -> is_addr e a.
Proof.
  intros F H. apply rdn_inv in H. destruct H as (A & B & C & ->). split; [now apply slice_length|].
  rewrite Forall_forall in *. intros x Hx. apply F. unfold slice in Hx.
  assert (Hx' : In x (skipn (Z.to_nat i) buf)) by (rewrite <- (firstn_skipn (Z.to_nat (ips e)) (skipn (Z.to_nat i) buf)); apply in_or_app; now left).
  rewrite <- (firstn_skipn (Z.to_nat i) buf). apply in_or_app. now right.
Qed.
Lemma update_ok l ansn buf curr l' c' a b : Forall (fun b => 0 <= b < 256) buf -> 0 <= ansn < 65536 -> eok e l ->
  update_edge e l ansn buf curr = Some (l', c', a, b) -> eok e l' /\ is_addr e a.
Proof.
  intros F H K. unfold update_edge. destruct (rdn buf curr (ips e)) as [x|] eqn:E; [|discriminate]. pose proof (rdn_addr buf curr x F E) as A.
  rewrite (find_edge_lk e l x A) by apply K. destruct (lk l x) eqn:El.
  - destruct (te_lq e >? 0).
    + destruct (rdn buf (curr + ips e) 2); [|discriminate]. intros Q. apply Some_inj in Q. injection Q as <- _ <- _. split; [now apply upd_ok|exact A].
    + intros Q. apply Some_inj in Q. injection Q as <- _ <- _. split; [now apply upd_ok|exact A].
  - destruct (negb (validate (te_deny e) x)).
    + intros Q. apply Some_inj in Q. injection Q as <- _ <- _. split; [exact K|exact A].
    + destruct (rdn buf (curr + ips e) 2); [|discriminate]. intros Q. apply Some_inj in Q. injection Q as <- _ <- _. split; [apply ins_ok; [split|..]; auto|exact A].
Qed.
Lemma walk_ok ansn buf limit : Forall (fun b => 0 <= b < 256) buf -> 0 <= ansn < 65536 -> forall fuel l curr b chg l' b' chg',
  eok e l -> match b with Some (x, y) => is_addr e x /\ is_addr e y | None => True end ->
  walk fuel e l ansn buf curr limit b chg = Some (l', b', chg') ->
  eok e l' /\ match b' with Some (x, y) => is_addr e x /\ is_addr e y | None => True end.
Proof.
  intros F H. induction fuel as [|fuel IH]; intros l curr b chg l' b' chg' K B; cbn [walk]; destruct (curr <? limit).
  - discriminate.
  - intros Q. apply Some_inj in Q. injection Q as <- <- _. auto.
  - destruct (update_edge e l ansn buf curr) as [[[[l1 c1] a] c]|] eqn:U; [|discriminate].
    destruct (update_ok l ansn buf curr l1 c1 a c F H K U) as (K1 & A1). intros Q. apply IH in Q; auto.
    destruct b as [[x y]|]; tauto.
  - intros Q. apply Some_inj in Q. injection Q as <- <- _. auto.
Qed.
Lemma tc_check_tok t s a : tok e t -> tok e (fst (tc_check t s a)).
Proof.
  intros (A & B & C). unfold tok. rewrite tc_check_edges. split; [exact A|]. unfold tc_check. destruct (tc_edges t) eqn:E; [auto|].
  repeat match goal with |- context [if ?c then _ else _] => destruct c end; cbn [fst tc_seq tc_ansn]; auto.
Qed.
Lemma revoke_ok ansn lo up l : is_addr e lo -> is_addr e up -> eok e l -> eok e (revoke e ansn lo up false l).
Proof. intros A B K. destruct (revoke_filter e ansn lo up l A B K) as (-> & _). now apply filter_eok. Qed.

Lemma input_dbok d sym buf r : dbok e d -> Forall (fun b => 0 <= b < 256) buf -> input_tc e sym d buf = Some r -> dbok e (r_db r).
Proof.
  intros K F. unfold input_tc.
  assert (PUT : forall o t, tok e t -> dbok e (db_put d o (Some t))).
  { intros o t T o' t' Q. destruct (list_eq_dec Z.eq_dec o' o) as [->|N].
    - rewrite db_put_same in Q. apply Some_inj in Q. now subst.
    - rewrite db_put_other in Q by exact N. now apply (K o'). }
  assert (NUL : forall o, dbok e (db_put d o None)).
  { intros o o' t' Q. destruct (list_eq_dec Z.eq_dec o' o) as [->|N]; [rewrite db_put_same in Q; discriminate|].
    rewrite db_put_other in Q by exact N. now apply (K o'). }
  destruct (rd8 buf 0) as [ty|]; [|discriminate].
  destruct (negb (ty =? LQ_TC_MESSAGE) && negb (ty =? TC_MESSAGE)); [intros Q; apply Some_inj in Q; subst; exact K|].
  destruct (negb sym); [intros Q; apply Some_inj in Q; subst; exact K|]. cbv zeta.
  destruct (rd8 buf 1) as [vt|]; [|discriminate]. destruct (rd16 buf 2) as [size|]; [|discriminate].
  destruct (rdn buf 4 (ips e)) as [orig|]; [|discriminate]. destruct (rd8 buf (5 + ips e)) as [hops|]; [|discriminate].
  destruct (rd16 buf (6 + ips e)) as [sq|] eqn:Es; [|discriminate]. destruct (rd16 buf (8 + ips e)) as [an|] eqn:Ea; [|discriminate].
  destruct (rd8 buf (10 + ips e)) as [lower|]; [|discriminate]. destruct (rd8 buf (11 + ips e)) as [upper|]; [|discriminate].
  apply rd16_range in Es; [|exact F]. apply rd16_range in Ea; [|exact F].
  set (c := match d orig with Some t => tc_check t sq an | None => (tc_new, true) end).
  assert (T1 : tok e (fst c)).
  { unfold c. destruct (d orig) as [t|] eqn:E; [apply tc_check_tok; now apply (K orig)|]. split; [split; constructor|cbn; lia]. }
  destruct c as [t1 go]. destruct (negb go); [intros Q; apply Some_inj in Q; subst; cbn [r_db]; apply PUT; exact T1|].
  match goal with |- context [walk ?f ?e0 ?l ?an0 ?b0 ?c0 ?s0 None false] => destruct (walk f e0 l an0 b0 c0 s0 None false) as [[[l' bord] chg]|] eqn:W end; [|discriminate].
  apply walk_ok in W; auto.
  2: { destruct (d orig) as [t|] eqn:E; [apply (K orig t E)|split; constructor]. }
  destruct W as (Kl & Kb).
  set (cb := match bord with None => Some None | Some (lo, up) => calculate_tc_border (ips e) lower upper lo up end).
  assert (Kcb : match cb with Some (Some (lo, up)) => is_addr e lo /\ is_addr e up | _ => True end).
  { unfold cb. destruct bord as [[x y]|]; [|exact Logic.I]. destruct (calculate_tc_border (ips e) lower upper x y) as [[[lo up]|]|] eqn:Q; auto.
    apply (calc_addr lower upper x y); tauto. }
  destruct cb as [b|]; [|discriminate].
  set (b1 := if (12 + ips e >=? size) && (lower =? 255) && (upper =? 255) then Some (repeat 0 (Z.to_nat (ips e)), repeat 255 (Z.to_nat (ips e))) else b).
  assert (Kb1 : match b1 with Some (lo, up) => is_addr e lo /\ is_addr e up | _ => True end).
  { unfold b1. destruct ((12 + ips e >=? size) && (lower =? 255) && (upper =? 255)); [split; [apply is_addr_zero|apply is_addr_ones]|exact Kcb]. }
  clearbody b1.
  destruct ((12 + ips e >=? size) && match b1 with Some _ => true | None => false end); intros Q; apply Some_inj in Q; subst; cbn [r_db]; [apply NUL|].
  apply PUT. split; [|cbn [tc_seq tc_ansn]; auto]. cbn [tc_edges]. destruct b1 as [[lo up]|]; [apply revoke_ok; tauto|exact Kl].
Qed.
Lemma reach_ok d : reachable e d -> dbok e d.
Proof.
  induction 1 as [|d sym buf r H IH F Q|d a H IH|d a H IH|d a H IH A].
  - intros o t Q. discriminate.
  - now apply input_dbok with d sym buf.
  - intros o t Q. unfold expire_tc in Q. destruct (list_eq_dec Z.eq_dec o a) as [->|N]; [rewrite db_put_same in Q; discriminate|].
    rewrite db_put_other in Q by exact N. now apply (IH o).
  - unfold expire_gc. destruct (d a) as [t0|] eqn:E; [|exact IH]. intros o t Q. destruct (list_eq_dec Z.eq_dec o a) as [->|N].
    + rewrite db_put_same in Q. apply Some_inj in Q. subst t. destruct (IH a t0 E) as (A & B & C). split; [|cbn; auto]. cbn [tc_edges]. now apply filter_eok.
    + rewrite db_put_other in Q by exact N. now apply (IH o).
  - unfold locate_tc. destruct (d a) as [t0|] eqn:E; [exact IH|]. intros o t Q. destruct (list_eq_dec Z.eq_dec o a) as [->|N].
    + rewrite db_put_same in Q. apply Some_inj in Q. subst t. split; [split; constructor|cbn; lia].
    + rewrite db_put_other in Q by exact N. now apply (IH o).
Qed.
End Reach.

(** * What a message does *)
Section Msg.
Variable e : tenv.
Hypothesis Hlq : te_lq e > 0.

Lemma stored_lk d o a : stored d o a = option_map known (lk (old_edges d o) a).
Proof. unfold stored, old_edges, lk, known. destruct (d o); reflexivity. Qed.

Lemma border_addr f x : is_addr e (border (ips e) f x).
Proof. apply is_addr_of_val. Qed.
Lemma lower_addr m : is_addr e (lower_end e m).
Proof. unfold lower_end. destruct (m_lower m =? 255); [apply is_addr_of_val|apply border_addr]. Qed.
Lemma upper_addr m : is_addr e (upper_end e m).
Proof. unfold upper_end. destruct (m_upper m =? 255); [apply is_addr_of_val|apply border_addr]. Qed.

Lemma ents_addr m : wf_tmsg e m -> m_ents m <> [] -> is_addr e (fst (hd ([], []) (m_ents m))) /\ is_addr e (fst (last (m_ents m) ([], []))).
Proof.
  intros (_ & _ & _ & F & _) N. rewrite Forall_forall in F. split.
  - destruct (m_ents m) as [|x xs]; [congruence|]. apply (F x). now left.
  - destruct (exists_last N) as (xs & x & Ex). rewrite Ex, last_last. apply (F x). rewrite Ex. apply in_or_app. right. now left.
Qed.
Lemma the_border_ok m : wf_tmsg e m -> m_ents m <> [] -> good_flags e m ->
  the_border e m = Some (if (m_lower m =? 0) && (m_upper m =? 0) then None else Some (lower_end e m, upper_end e m)).
Proof.
  intros W N G. destruct (ents_addr m W N) as (A1 & A2). unfold the_border, lower_end, upper_end. destruct (m_ents m) as [|x xs] eqn:Ex; [congruence|].
  cbn [hd] in *. unfold calculate_tc_border. unfold good_flags in G.
  destruct ((m_lower m =? 0) && (m_upper m =? 0)) eqn:Z0; [reflexivity|].
  assert (I16 : 8 * ips e <= 128) by (unfold ips; destruct (te_v6 e); lia).
  assert (L : (if m_lower m =? 255 then Some (repeat 0 (Z.to_nat (ips e))) else border_ip (ips e) (m_lower m) (fst x)) =
    Some (if m_lower m =? 255 then of_val (Z.to_nat (ips e)) 0 else border (ips e) (m_lower m) (fst x))).
  { destruct (Z.eqb_spec (m_lower m) 255); [now rewrite repeat_val0|]. apply border_ip_ok; [exact A1|lia]. }
  assert (U : (if m_upper m =? 255 then Some (repeat 255 (Z.to_nat (ips e))) else border_ip (ips e) (m_upper m) (fst (last (x :: xs) ([], [])))) =
    Some (if m_upper m =? 255 then of_val (Z.to_nat (ips e)) (256 ^ ips e - 1) else border (ips e) (m_upper m) (fst (last (x :: xs) ([], []))))).
  { destruct (Z.eqb_spec (m_upper m) 255); [rewrite repeat_val1; now rewrite ips_val|]. apply border_ip_ok; [exact A2|lia]. }
  rewrite L, U. reflexivity.
Qed.

Lemma reject_keeps d m o a : stored (db_put d (m_orig m) (Some (fst (checked d m)))) o a = stored d o a \/ d (m_orig m) = None.
Proof.
  unfold checked. destruct (d (m_orig m)) as [t|] eqn:E; [left|right; reflexivity].
  rewrite !stored_lk. f_equal. f_equal. unfold old_edges. destruct (list_eq_dec Z.eq_dec o (m_orig m)) as [->|N].
  - rewrite db_put_same, E. apply tc_check_edges.
  - now rewrite db_put_other.
Qed.

Lemma message_exact d m post : dbok e d -> wf_tmsg e m -> good_flags e m -> m_ents m <> [] ->
  exists r, input_tc e true d (enc_tc m ++ post) = Some r /\ r_ret r = snd (checked d m) /\
  (r_ret r = true ->
    (forall a, is_addr e a -> stored (r_db r) (m_orig m) a =
      match says (m_ents m) a with
      | Some q => Some (m_ansn m, q)
      | None => match stored d (m_orig m) a with
                | Some (old, q) => if speaks_for e m a && newer (m_ansn m) old then None else Some (old, q)
                | None => None
                end
      end) /\ forall o, o <> m_orig m -> r_db r o = d o) /\
  (r_ret r = false -> forall o a, stored (r_db r) o a = stored d o a).
Proof.
  intros K W G N. rewrite (input_enc e Hlq d m post W K). unfold outcome. pose proof (reject_keeps d m) as RK. destruct (checked d m) as [t1 go] eqn:C.
  cbn [fst snd] in *. destruct go; cbn [negb].
  2: { eexists. split; [reflexivity|]. split; [reflexivity|]. split; [discriminate|]. intros _ o a. cbn [r_db]. destruct (RK o a) as [Q|Q]; [exact Q|].
       unfold checked in C. rewrite Q in C. discriminate. }
  rewrite (the_border_ok m W N G). cbv zeta. pose proof W as (_ & _ & Wa & We & _).
  set (l := fold_left (put_ent e (m_ansn m)) (m_ents m) (old_edges d (m_orig m))).
  pose proof (old_ok e d (m_orig m) K) as Ko.
  assert (Kl : eok e l) by (apply puts_ok; auto).
  assert (SL : forall a, option_map known (lk l a) = match says (m_ents m) a with Some q => Some (m_ansn m, q) | None => stored d (m_orig m) a end).
  { intros a. unfold l. rewrite (puts_lk e) by auto. destruct (says (m_ents m) a); [reflexivity|]. symmetry. apply stored_lk. }
  assert (FIN : forall o l' r, r_db r = db_put d (m_orig m) (Some (mkTc (m_hops m) (m_seq m) (m_ansn m) 0 (tc_err t1) false l')) ->
     o <> m_orig m -> r_db r o = d o) by (intros o l' r -> No; now apply db_put_other).
  destruct ((m_lower m =? 0) && (m_upper m =? 0)) eqn:Z0.
  - eexists. split; [reflexivity|]. split; [reflexivity|]. split; [|discriminate]. intros _. cbn [r_db]. split.
    + intros a A. rewrite stored_lk. unfold old_edges. rewrite db_put_same. cbn [tc_edges]. rewrite SL.
      destruct (says (m_ents m) a); [reflexivity|]. destruct (stored d (m_orig m) a) as [[old q]|]; [|reflexivity].
      unfold speaks_for. rewrite Z0. reflexivity.
    + intros o No. now apply db_put_other.
  - destruct (m_ents m) as [|x xs] eqn:Ex; [congruence|]. eexists. split; [reflexivity|]. split; [reflexivity|]. split; [|discriminate]. intros _. cbn [r_db]. split.
    + intros a A. rewrite stored_lk. unfold old_edges. rewrite db_put_same. cbn [tc_edges].
      destruct (revoke_filter e (m_ansn m) (lower_end e m) (upper_end e m) l (lower_addr m) (upper_addr m) Kl) as (-> & _).
      rewrite (filter_lk e) by exact Kl. specialize (SL a). destruct (lk l a) as [y|] eqn:El; cbn [option_map] in SL.
      * pose proof (lk_some _ _ _ El) as (Iy & Dy). destruct Kl as (Fl & _). rewrite Forall_forall in Fl. destruct (Fl y Iy) as (_ & Ry).
        unfold in_rng. rewrite (seqno_gt_newer (m_ansn m) (ed_ansn y)) by auto. rewrite Dy.
        destruct (says (x :: xs) a) as [q|].
        -- unfold known in SL. apply Some_inj in SL. injection SL as S1 S2. rewrite S1.
           replace (newer (m_ansn m) (m_ansn m)) with false by (unfold newer, ahead; lia). rewrite andb_false_r. cbn [negb option_map]. unfold known. now rewrite S1, S2.
        -- destruct (stored d (m_orig m) a) as [[old q]|]; [|discriminate]. unfold known in SL. apply Some_inj in SL. injection SL as S1 S2.
           unfold speaks_for. rewrite Z0. cbn [negb andb]. rewrite S1.
           destruct ((akey e (lower_end e m) <=? akey e a) && (akey e a <? akey e (upper_end e m)) && newer (m_ansn m) old); cbn [negb option_map]; [reflexivity|].
           unfold known. now rewrite S1, S2.
      * cbn [option_map]. destruct (says (x :: xs) a); [discriminate|]. destruct (stored d (m_orig m) a); [discriminate|reflexivity].
    + intros o No. now apply db_put_other.
Qed.
End Msg.

From Coq Require Import String.
From Verif Require Import Base Bytes Regex InfoReq InfoReqSpec.

Lemma blen_cons c (l : list Z) : blen (c :: l) = 1 + blen l.
Proof. unfold blen. cbn [length]. lia. Qed.
Lemma rdb_at a c b : rdb (a ++ c :: b) (blen a) = Some c.
Proof.
  unfold rdb. rewrite blen_app, blen_cons. pose proof (blen_nonneg a). pose proof (blen_nonneg b).
  destruct ((0 <=? blen a) && (blen a <? blen a + (1 + blen b))) eqn:E; [|lia]. unfold blen. rewrite Nat2Z.id, app_nth2, Nat.sub_diag by lia. reflexivity.
Qed.
Lemma wrb_at a c b v : wrb (a ++ c :: b) (blen a) v = Some (a ++ v :: b).
Proof.
  unfold wrb. rewrite blen_app, blen_cons. pose proof (blen_nonneg a). pose proof (blen_nonneg b).
  destruct ((0 <=? blen a) && (blen a <? blen a + (1 + blen b))) eqn:E; [|lia]. unfold blen. rewrite Nat2Z.id. rewrite firstn_app, Nat.sub_diag, firstn_all, firstn_O, app_nil_r.
  rewrite skipn_app. replace (length a + 1 - length a)%nat with 1%nat by lia. rewrite (skipn_all2 a) by lia. reflexivity.
Qed.
Lemma rdb_is b i a c z : b = a ++ c :: z -> i = blen a -> rdb b i = Some c.
Proof. intros -> ->. apply rdb_at. Qed.
Lemma wrb_is b i v a c z : b = a ++ c :: z -> i = blen a -> wrb b i v = Some (a ++ v :: z).
Proof. intros -> ->. apply wrb_at. Qed.
Lemma u64_small x : 0 <= x < 2 ^ 63 -> u64 x = x.
Proof. intros H. unfold u64. apply Z.mod_small. lia. Qed.

(** ** Loops *)
Lemma strip_ok p : p 0 = false -> forall w pre a x c post fuel, Forall (fun k => p k = true) w -> pre ++ a = x ++ [c] -> p c = false ->
  (length w < fuel)%nat -> blen a + blen w < 2 ^ 62 ->
  strip_loop p fuel (pre ++ a ++ w ++ 0 :: post) (blen pre) (blen a + blen w) = Some (pre ++ a ++ 0 :: repeat 0 (length w) ++ post, blen pre, blen a).
Proof.
  intros P0. induction w as [|d w IH] using rev_ind; intros pre a x c post fuel Fw Ex Hc Hf Hs; (destruct fuel as [|f]; [lia|]); cbn [strip_loop].
  - pose proof (blen_nonneg a). pose proof (blen_nonneg pre). change (blen []) with 0 in *. rewrite Z.add_0_r in *.
    assert (B : before (blen pre) (blen a) = blen x).
    { assert (L : blen (pre ++ a) = blen (x ++ [c])) by now rewrite Ex. rewrite !blen_app in L. change (blen [c]) with 1 in L. unfold before. destruct (blen a =? 0) eqn:E; [lia|].
      destruct (blen a <? 2 ^ 63) eqn:E2; lia. }
    rewrite (rdb_is _ _ x c (0 :: post)); [|rewrite app_nil_l, app_assoc, Ex, <- app_assoc; reflexivity|exact B]. rewrite Hc. cbn [andb length repeat]. rewrite !app_nil_l. reflexivity.
  - apply Forall_app in Fw. destruct Fw as (Fw & Fd). assert (Pd : p d = true) by now inversion Fd. rewrite blen_app in *. change (blen [d]) with 1 in *.
    pose proof (blen_nonneg a). pose proof (blen_nonneg w).
    assert (Bf : pre ++ a ++ (w ++ [d]) ++ 0 :: post = (pre ++ a ++ w) ++ d :: 0 :: post) by (rewrite <- !app_assoc; reflexivity). rewrite Bf.
    rewrite (rdb_is _ _ (pre ++ a ++ w) d (0 :: post)); [|reflexivity|].
    2:{ unfold before. destruct (blen a + (blen w + 1) =? 0) eqn:E; [lia|]. destruct (blen a + (blen w + 1) <? 2 ^ 63) eqn:E2; [|lia]. rewrite !blen_app. lia. }
    rewrite Pd. destruct (d =? 0) eqn:E0; [apply Z.eqb_eq in E0; subst d; congruence|]. cbn [andb negb].
    replace (blen a + (blen w + 1) - 1) with (blen a + blen w) by lia. rewrite u64_small by lia.
    rewrite (wrb_is _ _ _ (pre ++ a ++ w) d (0 :: post)); [|reflexivity|].
    2:{ unfold plus. destruct (blen a + blen w <? 2 ^ 63) eqn:E2; [|lia]. rewrite !blen_app. lia. }
    replace ((pre ++ a ++ w) ++ 0 :: 0 :: post) with (pre ++ a ++ w ++ 0 :: (0 :: post)) by (rewrite <- !app_assoc; reflexivity).
    rewrite (IH pre a x c (0 :: post) f Fw Ex Hc); [|rewrite app_length in Hf; cbn [length] in Hf; lia|lia]. rewrite app_length. cbn [length]. rewrite repeat_app, <- app_assoc. reflexivity.
Qed.
Lemma skip_ws_ok : forall w pre s post fuel, Forall (fun c => isspace c = true) w -> isspace (hd 0 (s ++ [0])) = false -> (length w < fuel)%nat -> blen w + blen s < 2 ^ 62 ->
  skip_ws_loop fuel (pre ++ w ++ s ++ 0 :: post) (blen pre) (blen w + blen s) = Some (pre ++ w ++ s ++ 0 :: post, blen pre + blen w, blen s).
Proof.
  induction w as [|c w IH]; intros pre s post fuel Fw Hs Hf Hl; (destruct fuel as [|f]; [cbn [length] in Hf; lia|]); cbn [skip_ws_loop].
  - rewrite app_nil_l. change (blen []) with 0. rewrite Z.add_0_l, Z.add_0_r. destruct s as [|c s]; cbn [app hd] in *.
    + rewrite rdb_at. reflexivity.
    + rewrite rdb_at, Hs. reflexivity.
  - inversion Fw; subst. cbn [app]. rewrite rdb_at, H1. pose proof (blen_nonneg w). pose proof (blen_nonneg s). rewrite blen_cons in *.
    destruct (c =? 0) eqn:E0; [apply Z.eqb_eq in E0; subst c; discriminate|]. cbn [andb negb]. replace (1 + blen w + blen s - 1) with (blen w + blen s) by lia. rewrite u64_small by lia.
    specialize (IH (pre ++ [c]) s post f H2 Hs ltac:(cbn [length] in Hf; lia) ltac:(lia)). rewrite <- !app_assoc in IH. cbn [app] in IH.
    rewrite blen_app in IH. change (blen [c]) with 1 in IH. rewrite IH. do 3 f_equal. lia.
Qed.
Lemma cut_ok : forall line pre c post fuel k, Forall (fun x => x <> 10 /\ x <> 13 /\ x <> 0) line -> (c = 0 \/ c = 10 \/ c = 13) -> (length line < fuel)%nat ->
  cut_loop fuel (pre ++ line ++ c :: post) (blen pre) k = Some (blen pre + blen line, k + blen line).
Proof.
  induction line as [|x line IH]; intros pre c post fuel k Fl Hc Hf; (destruct fuel as [|f]; [cbn [length] in Hf; lia|]); cbn [cut_loop].
  - rewrite app_nil_l, rdb_at. change (blen []) with 0. destruct (negb ((c =? 10) || (c =? 13)) && negb (c =? 0)) eqn:E; [lia|]. do 2 f_equal; lia.
  - inversion Fl; subst. cbn [app]. rewrite rdb_at. destruct (negb ((x =? 10) || (x =? 13)) && negb (x =? 0)) eqn:E; [|lia].
    specialize (IH (pre ++ [x]) c post f (k + 1) H2 Hc ltac:(cbn [length] in Hf; lia)). rewrite <- !app_assoc in IH. cbn [app] in IH. rewrite blen_app in IH. change (blen [x]) with 1 in IH.
    rewrite IH. rewrite blen_cons. do 2 f_equal; lia.
Qed.
Lemma slashes_ok : forall n pre s post fuel, hd 0 s <> 47 -> (n < fuel)%nat -> Z.of_nat n + 1 + blen s < 2 ^ 62 ->
  skip_slashes_loop fuel (pre ++ (repeat 47 n ++ [47] ++ s) ++ 0 :: post) (blen pre) (Z.of_nat n + 1 + blen s) =
    Some (pre ++ (repeat 47 n ++ [47] ++ s) ++ 0 :: post, blen pre + Z.of_nat n, 1 + blen s).
Proof.
  induction n as [|n IH]; intros pre s post fuel Hs Hf Hl; (destruct fuel as [|f]; [lia|]); cbn [skip_slashes_loop].
  - cbn [repeat]. rewrite app_nil_l. change (Z.of_nat 0) with 0. rewrite Z.add_0_r. change (0 + 1 + blen s) with (1 + blen s).
    assert (R : exists c z, s ++ 0 :: post = c :: z /\ c <> 47). { destruct s as [|c s]; cbn [app hd] in *; [exists 0, post; split; [reflexivity|discriminate]|exists c, (s ++ 0 :: post); split; [reflexivity|exact Hs]]. }
    destruct R as (c & z & R & Nc). rewrite (rdb_is _ _ (pre ++ [47]) c z).
    + destruct (c =? 47) eqn:E; [lia|reflexivity].
    + rewrite <- !app_assoc, R. reflexivity.
    + rewrite blen_app. reflexivity.
  - pose proof (blen_nonneg s). rewrite (rdb_is _ _ (pre ++ [47]) 47 (match n with O => s ++ 0 :: post | S m => repeat 47 m ++ [47] ++ s ++ 0 :: post end)).
    + cbn [Z.eqb Pos.eqb]. replace (Z.of_nat (S n) + 1 + blen s - 1) with (Z.of_nat n + 1 + blen s) by lia. rewrite u64_small by lia.
      specialize (IH (pre ++ [47]) s post f Hs ltac:(lia) ltac:(lia)). cbn [repeat]. rewrite <- !app_assoc in *. cbn [app] in *. rewrite blen_app in IH. change (blen [47]) with 1 in IH. rewrite IH.
      do 3 f_equal. lia.
    + cbn [repeat]. destruct n; cbn [repeat app]; rewrite <- !app_assoc; reflexivity.
    + rewrite blen_app. reflexivity.
Qed.
Lemma caseeq_yes : forall t u pre post, map tolower u = map tolower t -> caseeq (pre ++ u ++ post) (blen pre) t = Some true.
Proof.
  induction t as [|c t IH]; intros u pre post E; cbn [caseeq]; [reflexivity|]. destruct u as [|x u]; [discriminate|]. cbn [map] in E. inversion E.
  cbn [app]. rewrite rdb_at, H0, Z.eqb_refl. specialize (IH u (pre ++ [x]) post H1). rewrite <- app_assoc, blen_app in IH. exact IH.
Qed.
(** a comparison that fails within the string *)
Lemma caseeq_no : forall t u pre post, (exists v w x y, map tolower u = v ++ x :: w /\ (exists z, map tolower t = v ++ y :: z) /\ x <> y) ->
  caseeq (pre ++ u ++ post) (blen pre) t = Some false.
Proof.
  induction t as [|c t IH]; intros u pre post (v & w & x & y & Eu & (z & Et) & N); cbn [caseeq]. { destruct v; discriminate. }
  destruct u as [|a u]; [destruct v; discriminate|]. cbn [map app] in *. rewrite rdb_at. destruct v as [|b v]; cbn [app] in *; inversion Eu; inversion Et.
  - destruct (tolower a =? tolower c) eqn:E; [|reflexivity]. lia.
  - rewrite H0, H2, Z.eqb_refl. specialize (IH u (pre ++ [a]) post). rewrite <- app_assoc, blen_app in IH. apply IH. exists v, w, x, y. eauto.
Qed.
(** ** The functions on [pre ++ s ++ 0 :: post] *)
Lemma FUEL_val : FUEL = Z.to_nat 1100. Proof. reflexivity. Qed.
Lemma blen_len (s : list Z) : blen s = Z.of_nat (length s). Proof. reflexivity. Qed.
Lemma fuel_lt (s : list Z) : blen s < 1100 -> (length s < FUEL)%nat.
Proof. intros H. rewrite FUEL_val. rewrite blen_len in H. lia. Qed.
Definition state (q : rq) (pre s : list Z) : Prop := exists post, q = Some (pre ++ s ++ 0 :: post, blen pre, blen s).
Lemma blen_zero (s : list Z) : (blen s =? 0) = true -> s = [].
Proof. destruct s; [reflexivity|]. rewrite blen_cons. pose proof (blen_nonneg s). lia. Qed.
Lemma cut_state line c post : Forall (fun x => x <> 10 /\ x <> 13 /\ x <> 0) line -> (c = 0 \/ c = 10 \/ c = 13) -> blen line < 1100 -> forall len, len <> 0 ->
  state (cutAtFirstEOL (line ++ c :: post) 0 len) [] line.
Proof.
  intros F Hc Hl len Hn. exists post. unfold cutAtFirstEOL. destruct (len =? 0) eqn:E; [lia|].
  pose proof (cut_ok line [] c post FUEL 0 F Hc (fuel_lt _ Hl)) as C. rewrite app_nil_l in C. change (blen []) with 0 in C. rewrite C. rewrite !Z.add_0_l. rewrite rdb_at.
  destruct ((c =? 10) || (c =? 13)) eqn:Ec.
  - rewrite wrb_at. reflexivity.
  - assert (c = 0) by lia. subst c. reflexivity.
Qed.
Lemma strip_state p pre a w post x c : p 0 = false -> Forall (fun k => p k = true) w -> pre ++ a = x ++ [c] -> p c = false -> blen a + blen w < 1100 ->
  state (if blen (a ++ w) =? 0 then Some (pre ++ (a ++ w) ++ 0 :: post, blen pre, blen (a ++ w)) else strip_loop p FUEL (pre ++ (a ++ w) ++ 0 :: post) (blen pre) (blen (a ++ w))) pre a.
Proof.
  intros P0 F E Hc L. pose proof (blen_nonneg a). destruct (blen (a ++ w) =? 0) eqn:Z0.
  - apply blen_zero, app_eq_nil in Z0. destruct Z0 as (-> & ->). now exists post.
  - rewrite blen_app, <- app_assoc. rewrite (strip_ok p P0 w pre a x c post FUEL F E Hc); [|apply fuel_lt; lia|lia]. eexists. reflexivity.
Qed.
Lemma strip_ws_state pre a w post x c : Forall (fun k => isspace k = true) w -> pre ++ a = x ++ [c] -> isspace c = false -> blen a + blen w < 1100 ->
  state (stripTrailingWhitespace (pre ++ (a ++ w) ++ 0 :: post) (blen pre) (blen (a ++ w))) pre a.
Proof. intros. now apply (strip_state isspace pre a w post x c). Qed.
Lemma strip_sl_state pre a n post x c : pre ++ a = x ++ [c] -> c <> 47 -> blen a + Z.of_nat n < 1100 ->
  state (stripTrailingSlashes (pre ++ (a ++ slashes n) ++ 0 :: post) (blen pre) (blen (a ++ slashes n))) pre a.
Proof.
  intros E N L. apply (strip_state (Z.eqb 47) pre a (slashes n) post x c); [reflexivity| |exact E|lia|].
  - apply Forall_forall. intros k I. apply repeat_spec in I. lia.
  - rewrite (blen_len (slashes n)). unfold slashes. rewrite repeat_length. exact L.
Qed.
Lemma skip_ws_state pre w s post : Forall (fun k => isspace k = true) w -> isspace (hd 0 (s ++ [0])) = false -> blen w + blen s < 1100 -> (w ++ s <> []) ->
  state (skipLeadingWhitespace (pre ++ (w ++ s) ++ 0 :: post) (blen pre) (blen (w ++ s))) (pre ++ w) s.
Proof.
  intros F Hs L Ne. unfold skipLeadingWhitespace. destruct (blen (w ++ s) =? 0) eqn:E; [apply blen_zero in E; contradiction|].
  exists post. pose proof (blen_nonneg s). rewrite blen_app, <- app_assoc. rewrite (skip_ws_ok w pre s post FUEL F Hs); [|apply fuel_lt; lia|lia]. rewrite blen_app, <- app_assoc. reflexivity.
Qed.
Lemma slashes_state pre n s post : hd 0 s <> 47 -> Z.of_nat n + 1 + blen s < 1100 ->
  state (skipMultipleSlashes (pre ++ (repeat 47 n ++ [47] ++ s) ++ 0 :: post) (blen pre) (blen (repeat 47 n ++ [47] ++ s))) (pre ++ repeat 47 n) ([47] ++ s).
Proof.
  intros Hs L. exists post. pose proof (blen_nonneg s). unfold skipMultipleSlashes.
  assert (B : blen (repeat 47 n ++ [47] ++ s) = Z.of_nat n + 1 + blen s) by (rewrite !blen_app, (blen_len (repeat 47 n)), repeat_length; change (blen [47]) with 1; lia). rewrite B.
  destruct (Z.of_nat n + 1 + blen s =? 0) eqn:E; [lia|].
  destruct n as [|n].
  - cbn [repeat]. rewrite !app_nil_l, app_nil_r. rewrite (rdb_is _ _ pre 47 (s ++ 0 :: post)); [|rewrite <- app_assoc; reflexivity|reflexivity]. cbn [Z.eqb Pos.eqb negb orb].
    assert (R : exists c z, s ++ 0 :: post = c :: z /\ c <> 47). { destruct s as [|c s]; cbn [app hd] in *; [exists 0, post; split; [reflexivity|discriminate]|exists c, (s ++ 0 :: post); split; [reflexivity|exact Hs]]. }
    destruct R as (c & z & R & Nc). rewrite (rdb_is _ _ (pre ++ [47]) c z); [|rewrite <- !app_assoc, R; reflexivity|rewrite blen_app; reflexivity].
    destruct (c =? 47) eqn:E2; [lia|]. cbn [negb]. rewrite blen_app. change (blen [47]) with 1. reflexivity.
  - rewrite (rdb_is _ _ pre 47 (repeat 47 n ++ [47] ++ s ++ 0 :: post)); [|cbn [repeat app]; rewrite <- !app_assoc; reflexivity|reflexivity]. cbn [Z.eqb Pos.eqb negb orb].
    rewrite (rdb_is _ _ (pre ++ [47]) 47 (match n with O => s ++ 0 :: post | S m => repeat 47 m ++ [47] ++ s ++ 0 :: post end));
      [|destruct n; cbn [repeat app]; rewrite <- !app_assoc; reflexivity|rewrite blen_app; reflexivity]. cbn [Z.eqb Pos.eqb negb].
    rewrite slashes_ok; [|exact Hs|rewrite FUEL_val; lia|lia]. do 2 f_equal; [f_equal|].
    + rewrite <- !app_assoc. reflexivity.
    + rewrite blen_app, (blen_len (repeat _ _)), repeat_length. reflexivity.
    + rewrite blen_app. reflexivity.
Qed.
(** comparisons are within the buffer, and equality means equality *)
Lemma caseeq_total : forall t u pre post, length u = length t -> exists b, caseeq (pre ++ u ++ post) (blen pre) t = Some b /\ (b = true -> map tolower u = map tolower t).
Proof.
  induction t as [|c t IH]; intros u pre post E; cbn [caseeq]. { exists true. split; [reflexivity|]. destruct u; [reflexivity|discriminate]. }
  destruct u as [|x u]; [discriminate|]. cbn [app]. rewrite rdb_at. destruct (tolower x =? tolower c) eqn:X; [|exists false; split; [reflexivity|discriminate]].
  destruct (IH u (pre ++ [x]) post ltac:(cbn [length] in E; lia)) as (b & Eb & Hb). rewrite <- app_assoc, blen_app in Eb. exists b. split; [exact Eb|].
  intros T. cbn [map]. rewrite (Hb T). f_equal. lia.
Qed.
(** ** The commands *)
Lemma streq_eq : forall a b, streq a b = true -> a = b.
Proof. induction a as [|x a IH]; intros [|y b] E; try discriminate; [reflexivity|]. cbn [streq] in E. apply andb_true_iff in E. destruct E as (E1 & E2). f_equal; [lia|now apply IH]. Qed.
Lemma single_lookup n : determine_single_action (47 :: n) = match lookup n with Some m => m | None => 0 end.
Proof.
  unfold determine_single_action, lookup.
  assert (A : forall l, (forall e, In e l -> streq n (tl (snd e)) = false /\ exists t, snd e = 47 :: t) ->
    find (fun e => negb (Z.land (fst e) supported_mask =? 0) && streq (47 :: n) (snd e)) l = None).
  { induction l as [|e l IH]; intros H; [reflexivity|]. cbn [find]. destruct (H e (or_introl eq_refl)) as (H1 & t & H2). rewrite H2 in *. cbn [tl] in H1. cbn [streq]. rewrite H1, !andb_false_r. apply IH. intros e' I. apply H. now right. }
  assert (B : forall l, (forall e, In e l -> streq n (fst e) = false) -> find (fun e : list Z * Z => streq n (fst e)) l = None).
  { induction l as [|e l IH]; intros H; [reflexivity|]. cbn [find]. rewrite (H e (or_introl eq_refl)). apply IH. intros e' I. apply H. now right. }
  destruct (existsb (fun e => streq n (fst e)) known) eqn:X.
  - apply existsb_exists in X. destruct X as (e & I & Q). apply streq_eq in Q. subst n. clear A B.
    repeat (destruct I as [<-|I]; [vm_compute; reflexivity|]). contradiction.
  - assert (K : forall e, In e known -> streq n (fst e) = false).
    { intros e I. destruct (streq n (fst e)) eqn:Q; [|reflexivity]. assert (existsb (fun e => streq n (fst e)) known = true) by (apply existsb_exists; now exists e). congruence. }
    rewrite (B known K). rewrite A; [reflexivity|].
    intros e I. assert (M : In (tl (snd e), fst e) known /\ exists t, snd e = 47 :: t).
    { repeat (destruct I as [<-|I]; [split; [vm_compute; tauto|eexists; vm_compute; reflexivity]|]). contradiction. }
    destruct M as (M & T). split; [exact (K _ M)|exact T].
Qed.
Lemma lookup_pos n m : lookup n = Some m -> 0 < m.
Proof.
  unfold lookup. destruct (find _ known) as [e|] eqn:F; [|discriminate]. intros H. apply Some_inj in H. subst m. apply find_some in F. destruct F as (I & _).
  repeat (destruct I as [<-|I]; [vm_compute; reflexivity|]). contradiction.
Qed.
Lemma upto_name : forall n t, Forall namechar n -> upto_slash (n ++ t) = (n ++ fst (upto_slash t), snd (upto_slash t)).
Proof.
  induction n as [|c n IH]; intros t F. { rewrite !app_nil_l. now destruct (upto_slash t). }
  inversion F as [|? ? Hc Hn]. cbn [app upto_slash]. destruct (c =? 47) eqn:E; [unfold namechar in Hc; lia|]. rewrite (IH t Hn). reflexivity.
Qed.
Lemma ptext_cons p l : ptext (p :: l) = repeat 47 (fst p) ++ [47] ++ snd p ++ ptext l.
Proof. unfold ptext. cbn [flat_map]. change (repeat 47 (S (fst p))) with (47 :: repeat 47 (fst p)). rewrite repeat_cons, <- !app_assoc. reflexivity. Qed.
Lemma collapse_slashes : forall n s, hd 0 s <> 47 -> collapse (repeat 47 n ++ [47] ++ s) = [47] ++ s.
Proof.
  induction n as [|n IH]; intros s H.
  - cbn [repeat app]. destruct s as [|c s]; [reflexivity|]. cbn [collapse hd] in *. destruct (c =? 47) eqn:E; [lia|]. now rewrite andb_false_r.
  - cbn [repeat app]. specialize (IH s H). destruct n as [|n]; cbn [repeat app] in *; cbn [collapse]; cbn [Z.eqb Pos.eqb andb]; exact IH.
Qed.
Lemma name_hd n s : name n -> hd 0 (n ++ s) <> 47.
Proof. intros (N & F). destruct n as [|c n]; [congruence|]. inversion F as [|? ? Hc _]. cbn [app hd]. now destruct Hc. Qed.
Lemma upto_ptext l : upto_slash (ptext l) = ([], match l with [] => None | _ => Some (ptext l) end).
Proof. destruct l as [|p l]; [reflexivity|]. unfold ptext at 1. cbn [flat_map repeat app upto_slash]. reflexivity. Qed.
Lemma action_ok : forall l fuel act, l <> [] -> Forall name (names l) -> (length l <= fuel)%nat ->
  action_loop fuel (ptext l) act = Some match union (names l) with Some w => Z.lor act w | None => 0 end.
Proof.
  induction l as [|p l IH]; intros fuel act Ne F L; [congruence|]. destruct fuel as [|f]; [cbn [length] in L; lia|]. inversion F as [|? ? Hp Hl].
  rewrite ptext_cons. cbn [action_loop]. rewrite collapse_slashes by now apply name_hd. cbn [app].
  rewrite upto_name by now destruct Hp. rewrite upto_ptext. cbn [fst snd]. rewrite app_nil_r, single_lookup. cbn [names map union]. fold (names l).
  destruct (lookup (snd p)) as [m|] eqn:Lk; [|reflexivity]. pose proof (lookup_pos _ _ Lk). destruct (m =? 0) eqn:E; [lia|].
  destruct l as [|q l]; [cbn [names map union]; now rewrite Z.lor_0_r|].
  rewrite (IH f (Z.lor act m) ltac:(discriminate) Hl ltac:(cbn [length] in *; lia)). destruct (union (names (q :: l))); [|reflexivity]. now rewrite Z.lor_assoc.
Qed.
Lemma union_pos l : l <> [] -> forall w, union l = Some w -> 0 < w.
Proof.
  induction l as [|n l IH]; intros Ne w U; [congruence|]. cbn [union] in U. destruct (lookup n) as [a|] eqn:A; [|discriminate]. destruct (union l) as [b|] eqn:B; [|discriminate].
  apply Some_inj in U. subst w. apply lookup_pos in A.
  assert (0 <= b). { destruct l as [|m l]; [cbn in B; apply Some_inj in B; lia|]. assert (0 < b) by (apply IH; [discriminate|reflexivity]). lia. }
  assert (0 <= Z.lor a b) by (apply Z.lor_nonneg; lia). assert (Z.lor a b <> 0) by (rewrite Z.lor_eq_0_iff; lia). lia.
Qed.
Lemma length_ptext l : Forall name (names l) -> (2 * length l <= length (ptext l))%nat.
Proof.
  induction l as [|p l IH]; intros F; [cbn; lia|]. inversion F as [|? ? (N & _) Hl]. specialize (IH Hl). rewrite ptext_cons. rewrite !app_length. cbn [length]. destruct (snd p); [congruence|]. cbn [length]. lia.
Qed.
(** the C string *)
Lemma cstr_ok : forall s pre post fuel, Forall (fun c => c <> 0) s -> (length s < fuel)%nat -> cstr fuel (pre ++ s ++ 0 :: post) (blen pre) = Some s.
Proof.
  induction s as [|c s IH]; intros pre post fuel F L; (destruct fuel as [|f]; [cbn [length] in L; lia|]); cbn [cstr].
  - cbn [app]. rewrite rdb_at. reflexivity.
  - inversion F as [|? ? Hc Hs]. cbn [app]. rewrite rdb_at. destruct (c =? 0) eqn:E; [lia|]. specialize (IH (pre ++ [c]) post f Hs ltac:(cbn [length] in L; lia)). rewrite <- app_assoc, blen_app in IH. change (blen [c]) with 1 in IH. cbn [app] in IH. now rewrite IH.
Qed.
Lemma ptext_chars l : Forall name (names l) -> Forall (fun c => 33 <= c <= 255) (ptext l).
Proof.
  induction l as [|p l IH]; intros F; [constructor|]. inversion F as [|? ? (_ & N) Hl]. rewrite ptext_cons. rewrite !Forall_app. split; [|split; [|split; [|now apply IH]]].
  - apply Forall_forall. intros y I. apply repeat_spec in I. lia.
  - apply Forall_cons; [lia|constructor].
  - eapply Forall_impl; [|exact N]. intros c (Hc & _). exact Hc.
Qed.
(** ** From the path on *)
Definition answer (b : list Z) (r len : Z) (hdr : bool) : option reply :=
  if 2 ^ 63 <=? len then Some (mkRep hdr 0 HTTP_SERVER_ERROR)
  else if len =? 0 then Some (mkRep hdr SIW_EVERYTHING HTTP_OK)
  else if BUFSIZE <=? len then Some (mkRep hdr 0 HTTP_TOO_LARGE)
  else match rdb b r with
       | None => None
       | Some c0 =>
           if (len =? 1) && (c0 =? 47) then Some (mkRep hdr SIW_EVERYTHING HTTP_OK)
           else match cstr FUEL b r with
                | None => None
                | Some s => match determine_action s with
                            | None => None
                            | Some w => Some (mkRep hdr w (if w =? 0 then HTTP_NOTFOUND else HTTP_OK)) end
                end
       end.
Definition finish (b : list Z) (r len : Z) (h : bool) : option reply :=
  match skipMultipleSlashes b r len with None => None | Some (b8, r8, l8) =>
  match checkCommandPrefixes b8 r8 l8 h with None => None | Some (b9, r9, l9, h9) =>
  match skipMultipleSlashes b9 r9 l9 with None => None | Some (b10, r10, l10) => answer b10 r10 l10 h9 end end end.
Definition everything h := mkRep h SIW_EVERYTHING HTTP_OK.
Definition found h l := match union (names l) with Some w => mkRep h w HTTP_OK | None => mkRep h 0 HTTP_NOTFOUND end.
Lemma answer_names pre s rest post h : name s -> Forall name (names rest) -> blen ([47] ++ s ++ ptext rest) < 1024 -> forall k,
  answer (pre ++ ([47] ++ s ++ ptext rest) ++ 0 :: post) (blen pre) (blen ([47] ++ s ++ ptext rest)) h = Some (found h ((k, s) :: rest)).
Proof.
  intros Hs Hr L k. unfold answer. set (t := [47] ++ s ++ ptext rest) in *.
  assert (E : t = ptext ((O, s) :: rest)) by (rewrite ptext_cons; reflexivity).
  assert (B : 2 <= blen t). { unfold t. cbn [app]. rewrite blen_cons, blen_app. destruct s as [|c s]; [now destruct Hs|]. rewrite blen_cons. pose proof (blen_nonneg s). pose proof (blen_nonneg (ptext rest)). lia. }
  destruct (2 ^ 63 <=? blen t) eqn:E1; [lia|]. destruct (blen t =? 0) eqn:E2; [lia|]. destruct (BUFSIZE <=? blen t) eqn:E3; [unfold BUFSIZE in E3; lia|].
  assert (R : rdb (pre ++ t ++ 0 :: post) (blen pre) = Some 47) by (apply (rdb_is _ _ pre 47 ((s ++ ptext rest) ++ 0 :: post)); reflexivity). rewrite R.
  destruct (blen t =? 1) eqn:E4; [lia|]. cbn [andb].
  assert (Fn : Forall name (names ((O, s) :: rest))) by (constructor; assumption).
  rewrite cstr_ok; [|rewrite E; eapply Forall_impl; [|apply ptext_chars, Fn]; cbn beta; intros; lia|apply fuel_lt; lia].
  unfold determine_action. destruct t as [|c t'] eqn:Et; [unfold blen in B; cbn in B; lia|]. rewrite E.
  rewrite action_ok; [|discriminate|exact Fn|].
  - unfold found. cbn [names map snd]. change (map snd rest) with (names rest). destruct (union (s :: names rest)) as [w|] eqn:U; [|reflexivity].
    rewrite Z.lor_0_l. pose proof (union_pos (s :: names rest) ltac:(discriminate) w U). destruct (w =? 0) eqn:E5; [lia|reflexivity].
  - pose proof (length_ptext _ Fn) as K. rewrite <- E in K. rewrite blen_len in L. rewrite FUEL_val. lia.
Qed.
Lemma answer_nil b r h : answer b r 0 h = Some (everything h).
Proof. reflexivity. Qed.
(** a prefix of the path that is a name is the first name *)
Lemma lower_ne c d : namechar c -> tolower c = tolower d -> d = 47 -> False.
Proof. intros (H & N) E ->. change (tolower 47) with 47 in E. unfold tolower in E. destruct ((65 <=? c) && (c <=? 90)) eqn:X; lia. Qed.
Lemma lower_zero c : namechar c -> tolower c <> 0.
Proof. intros (H & _). unfold tolower. destruct ((65 <=? c) && (c <=? 90)); lia. Qed.
Lemma lower_slash c : namechar c -> tolower c <> 47.
Proof. intros (H & N). unfold tolower. destruct ((65 <=? c) && (c <=? 90)) eqn:X; lia. Qed.
Lemma prefix_name : forall t s u v x y, Forall namechar s -> Forall (fun c => c <> 47 /\ c <> 0) t -> (x = 47 \/ x = 0) -> (y = 47 \/ y = 0) ->
  map tolower s ++ x :: u = t ++ y :: v -> map tolower s = t.
Proof.
  induction t as [|c t IH]; intros s u v x y Fs Ft Hx Hy E.
  - destruct s as [|a s]; [reflexivity|]. inversion Fs as [|? ? Ha _]. cbn [map app] in E. inversion E as [[E1 E2]]. pose proof (lower_slash a Ha). pose proof (lower_zero a Ha). lia.
  - destruct s as [|a s]; cbn [map app] in E; inversion E as [[E1 E2]]; inversion Ft as [|? ? Hc Ht]. { lia. }
    inversion Fs as [|? ? Ha Hs]. cbn [map]. f_equal. now apply (IH s u v x y).
Qed.
Lemma tail_shape rest post : exists x u, ptext rest ++ 0 :: post = x :: u /\ (x = 47 \/ x = 0) /\ (x = 0 -> rest = []).
Proof.
  destruct rest as [|p rest]; [exists 0, post; repeat split; auto|]. unfold ptext. cbn [flat_map repeat app]. eexists _, _. split; [reflexivity|]. split; [now left|discriminate].
Qed.
(** comparison of the path with a slash, a word and an end *)
Lemma prefix_cmp word y pre s rest post : Forall namechar s -> Forall (fun c => c <> 47 /\ c <> 0) (map tolower word) -> (y = 47 \/ y = 0) ->
  blen ([47] ++ s ++ ptext rest) >= 1 + blen word + (if y =? 0 then 0 else 1) ->
  (streq (map tolower s) (map tolower word) = false -> caseeq (pre ++ ([47] ++ s ++ ptext rest) ++ 0 :: post) (blen pre) ([47] ++ word ++ [y]) = Some false).
Proof.
  intros Fs Fw Hy L N.
  set (all := ([47] ++ s ++ ptext rest) ++ 0 :: post).
  assert (La : (length ([47%Z] ++ word ++ [y]) <= length all)%nat).
  { unfold all. rewrite app_length. cbn [length]. rewrite !blen_len in L. rewrite !app_length in *. cbn [length] in *. destruct (y =? 0); lia. }
  rewrite <- (firstn_skipn (length ([47%Z] ++ word ++ [y])) all).
  destruct (caseeq_total ([47] ++ word ++ [y]) (firstn (length ([47%Z] ++ word ++ [y])) all) pre (skipn (length ([47%Z] ++ word ++ [y])) all) ltac:(rewrite firstn_length; lia)) as (b & Eb & Hb).
  rewrite Eb. destruct b; [|reflexivity]. exfalso. specialize (Hb eq_refl).
  assert (M : map tolower all = map tolower ([47] ++ word ++ [y]) ++ map tolower (skipn (length ([47%Z] ++ word ++ [y])) all)) by (rewrite <- Hb, <- map_app, firstn_skipn; reflexivity).
  unfold all in M at 1. rewrite <- !app_assoc in M. rewrite !map_app in M. cbn [map] in M. rewrite <- !app_assoc in M. cbn [app] in M. inversion M as [M'].
  destruct (tail_shape rest post) as (x & u & T & Hx & _).
  assert (T' : map tolower (ptext rest) ++ tolower 0 :: map tolower post = tolower x :: map tolower u) by (rewrite <- (map_cons tolower x u), <- T, map_app; reflexivity).
  change (map tolower (0 :: post)) with (tolower 0 :: map tolower post) in M'. rewrite T' in M'.
  assert (Tx : tolower x = x) by (destruct Hx as [-> | ->]; reflexivity). assert (Ty : tolower y = y) by (destruct Hy as [-> | ->]; reflexivity). rewrite Tx, Ty in M'.
  apply (prefix_name _ _ _ _ _ _ Fs Fw Hx Hy) in M'. rewrite M' in N. assert (forall a, streq a a = true) as R by (induction a as [|q a IH]; [reflexivity|cbn [streq]; now rewrite Z.eqb_refl, IH]). now rewrite R in N.
Qed.
Lemma prefix_hit word y pre s rest post z : map tolower s = map tolower word -> ptext rest ++ 0 :: post = y :: z ->
  caseeq (pre ++ ([47] ++ s ++ ptext rest) ++ 0 :: post) (blen pre) ([47] ++ word ++ [y]) = Some true.
Proof.
  intros E T. replace (pre ++ ([47] ++ s ++ ptext rest) ++ 0 :: post) with (pre ++ ([47] ++ s ++ [y]) ++ z).
  - apply caseeq_yes. rewrite !map_app, E. reflexivity.
  - rewrite <- !app_assoc. rewrite T. reflexivity.
Qed.
Lemma everything_nil pre post h : finish (pre ++ [] ++ 0 :: post) (blen pre) (blen []) h = Some (everything h).
Proof. reflexivity. Qed.
Lemma ptext_nonnil p l : exists z, ptext (p :: l) = 47 :: z.
Proof. unfold ptext. cbn [flat_map repeat app]. eexists. reflexivity. Qed.
Lemma blen_nil_rest s rest : blen ([47] ++ s ++ ptext rest) = 1 + blen s + blen (ptext rest).
Proof. rewrite !blen_app. change (blen [47]) with 1. lia. Qed.
(** after a prefix *)
Lemma after_prefix pre rest post h : Forall name (names rest) -> rest <> [] -> blen (ptext rest) < 1024 ->
  match skipMultipleSlashes (pre ++ ptext rest ++ 0 :: post) (blen pre) (blen (ptext rest)) with None => None | Some (b10, r10, l10) => answer b10 r10 l10 h end = Some (found h rest).
Proof.
  intros F Ne L. destruct rest as [|(k, s) rest]; [congruence|]. inversion F as [|? ? Hs Hr]. cbn [snd] in Hs.
  rewrite ptext_cons in *. cbn [fst snd] in *.
  assert (B : Z.of_nat k + 1 + blen (s ++ ptext rest) < 1024) by (revert L; rewrite !blen_app, (blen_len (repeat _ _)), repeat_length; change (blen [47]) with 1; lia).
  destruct (slashes_state pre k (s ++ ptext rest) post (name_hd s _ Hs) ltac:(lia)) as (post' & E). rewrite E.
  apply answer_names; [exact Hs|exact Hr|]. rewrite blen_app. change (blen [47]) with 1. lia.
Qed.
Lemma map_lower_len s t : map tolower s = t -> length s = length t.
Proof. intros <-. now rewrite map_length. Qed.
Lemma finish_ok l pre post h : l <> [] -> Forall name (names l) -> blen (ptext l) < 1024 ->
  finish (pre ++ ptext l ++ 0 :: post) (blen pre) (blen (ptext l)) h = Some (meaning h (names l)).
Proof.
  intros Ne F L. destruct l as [|(k, s) rest]; [congruence|]. inversion F as [|? ? Hs Hr]. cbn [snd] in Hs. unfold finish.
  rewrite ptext_cons in *. cbn [fst snd] in *.
  assert (B : Z.of_nat k + 1 + blen (s ++ ptext rest) < 1024) by (revert L; rewrite !blen_app, (blen_len (repeat _ _)), repeat_length; change (blen [47]) with 1; lia).
  destruct (slashes_state pre k (s ++ ptext rest) post (name_hd s _ Hs) ltac:(lia)) as (post' & E). rewrite E. clear E post.
  remember (pre ++ repeat 47 k) as q eqn:Eq. clear Eq. clear pre L.
  assert (Bt : 2 <= blen ([47] ++ s ++ ptext rest) < 1024).
  { rewrite blen_app. change (blen [47]) with 1. rewrite blen_app. split; [|rewrite blen_app in B; lia]. destruct s as [|c s]; [now destruct Hs|]. rewrite blen_cons. pose proof (blen_nonneg s). pose proof (blen_nonneg (ptext rest)). lia. }
  unfold checkCommandPrefixes. destruct (blen ([47] ++ s ++ ptext rest) =? 0) eqn:E0; [lia|].
  destruct Hs as (Ns & Fs). pose proof (blen_nil_rest s rest) as Bs. pose proof (blen_nonneg (ptext rest)) as Br.
  assert (S0 : str "/http/" = [47] ++ str "http" ++ [47]) by reflexivity. assert (S1 : str "/http" ++ [0] = [47] ++ str "http" ++ [0]) by reflexivity.
  assert (S2 : str "/plain/" = [47] ++ str "plain" ++ [47]) by reflexivity. assert (S3 : str "/plain" ++ [0] = [47] ++ str "plain" ++ [0]) by reflexivity.
  rewrite S0, S1, S2, S3. clear S0 S1 S2 S3.
  assert (W1 : Forall (fun c => c <> 47 /\ c <> 0) (map tolower (str "http"))) by (vm_compute; repeat (apply Forall_cons; [split; discriminate|]); constructor).
  assert (W2 : Forall (fun c => c <> 47 /\ c <> 0) (map tolower (str "plain"))) by (vm_compute; repeat (apply Forall_cons; [split; discriminate|]); constructor).
  cbn [names map snd]. change (map snd rest) with (names rest). unfold meaning.
  destruct (streq (map tolower s) (str "http")) eqn:Q1.
  { apply streq_eq in Q1. pose proof (map_lower_len _ _ Q1) as Ls. change (length (str "http")) with 4%nat in Ls.
    assert (Bs4 : blen s = 4) by (rewrite blen_len; lia).
    destruct rest as [|p rest'].
    - change (ptext []) with (@nil Z) in *. change (blen []) with 0 in *. rewrite Bs, Bs4. cbn [Z.add Z.leb Z.eqb Pos.add Pos.succ Z.compare Pos.compare Pos.compare_cont Pos.eqb].
      pose proof (prefix_hit (str "http") 0 q s [] post' post' Q1 eq_refl) as Hh. change (ptext []) with (@nil Z) in Hh. rewrite Hh.
      rewrite (wrb_is _ _ _ q 47 ((s ++ []) ++ 0 :: post')); [|rewrite <- !app_assoc; reflexivity|reflexivity]. reflexivity.
    - destruct (ptext_nonnil p rest') as (z & Ez). assert (1 <= blen (ptext (p :: rest'))) by (rewrite Ez, blen_cons; pose proof (blen_nonneg z); lia).
      destruct (6 <=? blen ([47] ++ s ++ ptext (p :: rest'))) eqn:E6; [|lia].
      rewrite (prefix_hit (str "http") 47 q s (p :: rest') post' (z ++ 0 :: post') Q1 ltac:(rewrite Ez; reflexivity)).
      replace (q ++ ([47] ++ s ++ ptext (p :: rest')) ++ 0 :: post') with ((q ++ [47] ++ s) ++ ptext (p :: rest') ++ 0 :: post') by (rewrite <- !app_assoc; reflexivity).
      replace (blen q + 5) with (blen (q ++ [47] ++ s)) by (rewrite !blen_app, Bs4; reflexivity).
      rewrite u64_small by lia. replace (blen ([47] ++ s ++ ptext (p :: rest')) - 5) with (blen (ptext (p :: rest'))) by lia.
      rewrite after_prefix; [reflexivity|exact Hr|discriminate|lia]. }
  assert (C1 : (if 6 <=? blen ([47] ++ s ++ ptext rest) then caseeq (q ++ ([47] ++ s ++ ptext rest) ++ 0 :: post') (blen q) ([47] ++ str "http" ++ [47]) else Some false) = Some false).
  { destruct (6 <=? _) eqn:E6; [|reflexivity]. apply prefix_cmp; [exact Fs|exact W1|now left|change (blen (str "http")) with 4; cbn [Z.eqb]; lia|exact Q1]. }
  rewrite C1. clear C1.
  assert (C2 : (if blen ([47] ++ s ++ ptext rest) =? 5 then caseeq (q ++ ([47] ++ s ++ ptext rest) ++ 0 :: post') (blen q) ([47] ++ str "http" ++ [0]) else Some false) = Some false).
  { destruct (_ =? 5) eqn:E6; [|reflexivity]. apply prefix_cmp; [exact Fs|exact W1|now right|change (blen (str "http")) with 4; cbn [Z.eqb]; lia|exact Q1]. }
  rewrite C2. clear C2.
  destruct (streq (map tolower s) (str "plain")) eqn:Q2.
  { apply streq_eq in Q2. pose proof (map_lower_len _ _ Q2) as Ls. change (length (str "plain")) with 5%nat in Ls.
    assert (Bs4 : blen s = 5) by (rewrite blen_len; lia).
    destruct rest as [|p rest'].
    - change (ptext []) with (@nil Z) in *. change (blen []) with 0 in *. rewrite Bs, Bs4. cbn [Z.add Z.leb Z.eqb Pos.add Pos.succ Z.compare Pos.compare Pos.compare_cont Pos.eqb].
      pose proof (prefix_hit (str "plain") 0 q s [] post' post' Q2 eq_refl) as Hh. change (ptext []) with (@nil Z) in Hh. rewrite Hh.
      rewrite (wrb_is _ _ _ q 47 ((s ++ []) ++ 0 :: post')); [|rewrite <- !app_assoc; reflexivity|reflexivity]. reflexivity.
    - destruct (ptext_nonnil p rest') as (z & Ez). assert (1 <= blen (ptext (p :: rest'))) by (rewrite Ez, blen_cons; pose proof (blen_nonneg z); lia).
      destruct (7 <=? blen ([47] ++ s ++ ptext (p :: rest'))) eqn:E6; [|lia].
      rewrite (prefix_hit (str "plain") 47 q s (p :: rest') post' (z ++ 0 :: post') Q2 ltac:(rewrite Ez; reflexivity)).
      replace (q ++ ([47] ++ s ++ ptext (p :: rest')) ++ 0 :: post') with ((q ++ [47] ++ s) ++ ptext (p :: rest') ++ 0 :: post') by (rewrite <- !app_assoc; reflexivity).
      replace (blen q + 6) with (blen (q ++ [47] ++ s)) by (rewrite !blen_app, Bs4; reflexivity).
      rewrite u64_small by lia. replace (blen ([47] ++ s ++ ptext (p :: rest')) - 6) with (blen (ptext (p :: rest'))) by lia.
      rewrite after_prefix; [reflexivity|exact Hr|discriminate|lia]. }
  assert (C3 : (if 7 <=? blen ([47] ++ s ++ ptext rest) then caseeq (q ++ ([47] ++ s ++ ptext rest) ++ 0 :: post') (blen q) ([47] ++ str "plain" ++ [47]) else Some false) = Some false).
  { destruct (7 <=? _) eqn:E6; [|reflexivity]. apply prefix_cmp; [exact Fs|exact W2|now left|change (blen (str "plain")) with 5; cbn [Z.eqb]; lia|exact Q2]. }
  rewrite C3. clear C3.
  assert (C4 : (if blen ([47] ++ s ++ ptext rest) =? 6 then caseeq (q ++ ([47] ++ s ++ ptext rest) ++ 0 :: post') (blen q) ([47] ++ str "plain" ++ [0]) else Some false) = Some false).
  { destruct (_ =? 6) eqn:E6; [|reflexivity]. apply prefix_cmp; [exact Fs|exact W2|now right|change (blen (str "plain")) with 5; cbn [Z.eqb]; lia|exact Q2]. }
  rewrite C4. clear C4.
  pose proof (after_prefix q ((O, s) :: rest) post' h) as A. rewrite ptext_cons in A. cbn [fst snd repeat] in A. rewrite app_nil_l in A.
  rewrite A; [reflexivity|constructor; [split; assumption|exact Hr]|discriminate|lia].
Qed.
(** ** The whole *)
Lemma finish_eq b r l h :
  match match skipMultipleSlashes b r l with None => None | Some (b8, r8, l8) =>
        match checkCommandPrefixes b8 r8 l8 h with None => None | Some (b9, r9, l9, h9) =>
        match skipMultipleSlashes b9 r9 l9 with None => None | Some (b10, r10, l10) => Some (b10, r10, l10, h9) end end end
  with None => None | Some (b', r', l', h') => answer b' r' l' h' end = finish b r l h.
Proof.
  unfold finish. destruct (skipMultipleSlashes b r l) as [((b8 & r8) & l8)|]; [|reflexivity]. destruct (checkCommandPrefixes b8 r8 l8 h) as [(((b9 & r9) & l9) & h9)|]; [|reflexivity].
  destruct (skipMultipleSlashes b9 r9 l9) as [((b10 & r10) & l10)|]; reflexivity.
Qed.
Lemma ipc_answer c peer d junk : host_denied c peer = false ->
  ipc_action c peer d junk = match sanitise d junk (i_headers c) with None => None | Some (b, r, l, h) => answer b r l h end.
Proof. intros H. unfold ipc_action. rewrite H. reflexivity. Qed.
Lemma wrb_after line x y i v : blen line <= i < blen (line ++ x :: y) -> exists x' y', wrb (line ++ x :: y) i v = Some (line ++ x' :: y') /\ (x' = x \/ (x' = v /\ i = blen line)).
Proof.
  intros H. destruct (Z.eq_dec i (blen line)) as [->|N].
  - rewrite wrb_at. exists v, y. auto.
  - rewrite blen_app, blen_cons in H. set (n := Z.to_nat (i - blen line - 1)). pose proof (blen_len y). pose proof (blen_nonneg line).
    assert (Hn : (n < length y)%nat) by (unfold n; lia). destruct (nth_error y n) as [w|] eqn:Nt; [|apply nth_error_None in Nt; lia].
    apply nth_error_split in Nt. destruct Nt as (y1 & y2 & -> & Ln).
    rewrite (wrb_is _ _ v (line ++ x :: y1) w y2); [|rewrite <- app_assoc; reflexivity|rewrite blen_app, blen_cons, (blen_len y1), Ln; unfold n; lia].
    exists x, (y1 ++ v :: y2). rewrite <- app_assoc. auto.
Qed.
Lemma firstn_blen n (l : list Z) : Z.of_nat n <= blen l -> blen (firstn n l) = Z.of_nat n.
Proof. intros H. rewrite blen_len in *. rewrite ?blen_len, firstn_length. lia. Qed.
Lemma terminate_ok d line junk : received d line -> line <> [] -> BUFSIZE <= blen (d ++ junk) -> exists c post, terminate d junk = Some (line ++ c :: post) /\ (c = 0 \/ c = 10 \/ c = 13).
Proof.
  intros (rest & Ed & Hrest & Ld & Ll) Ne Lj. unfold terminate. pose proof (firstn_blen (Z.to_nat BUFSIZE) (d ++ junk) ltac:(unfold BUFSIZE in *; lia)) as Lb.
  assert (Pos : 0 < blen d). { subst d. rewrite blen_app. destruct line as [|x line]; [congruence|]. rewrite blen_cons. pose proof (blen_nonneg line). pose proof (blen_nonneg rest). lia. }
  destruct (blen d =? 0) eqn:E0; [lia|].
  assert (X : exists x y, firstn (Z.to_nat BUFSIZE) (d ++ junk) = line ++ x :: y /\ (rest = [] \/ x = 10 \/ x = 13)).
  { assert (F : forall m, (length line < m)%nat -> forall t, t <> [] -> exists x y, firstn m (line ++ t) = line ++ x :: y /\ hd 0 t = x).
    { intros m Hm t Nt. rewrite firstn_app, firstn_all2 by lia. destruct t as [|x t]; [congruence|]. destruct (m - length line)%nat as [|k] eqn:Ek; [lia|]. cbn [firstn]. eexists _, _. split; [reflexivity|reflexivity]. }
    assert (Lm : (length line < Z.to_nat BUFSIZE)%nat) by (rewrite blen_len in Ll; unfold BUFSIZE in *; lia).
    subst d. rewrite <- app_assoc. assert (Nt : rest ++ junk <> []).
    { intros Q. apply app_eq_nil in Q. destruct Q as (-> & ->). rewrite !app_nil_r in Lj. lia. }
    destruct (F _ Lm _ Nt) as (x & y & E & Hx). exists x, y. split; [exact E|]. destruct Hrest as [->|(k & r & -> & Hk)]; [now left|right]. cbn [app hd] in Hx. lia. }
  destruct X as (x & y & E & Hx). rewrite E in *. rewrite Z2Nat.id in Lb by (unfold BUFSIZE; lia).
  assert (Bd : blen line <= blen d) by (subst d; rewrite blen_app; pose proof (blen_nonneg rest); lia).
  destruct (blen d <? BUFSIZE) eqn:E1.
  - destruct (wrb_after line x y (blen d) 0 ltac:(rewrite Lb; lia)) as (x' & y' & W & Hx'). exists x', y'. split; [exact W|].
    destruct Hx as [->|Hx]; [|destruct Hx' as [->|(-> & _)]; auto; lia].
    rewrite app_nil_r in Ed. subst d. rewrite wrb_at in W. apply Some_inj in W. assert (Q : 0 :: y = x' :: y') by (apply (app_inv_head line); exact W). inversion Q. auto.
  - destruct (wrb_after line x y (BUFSIZE - 1) 0 ltac:(rewrite Lb; lia)) as (x' & y' & W & Hx'). exists x', y'. split; [exact W|].
    destruct Hx as [->|Hx]; [rewrite app_nil_r in Ed; subst d; lia|]. destruct Hx' as [->|(-> & _)]; auto; lia.
Qed.
Lemma blank_space w : blank w -> Forall (fun c => isspace c = true) w.
Proof. intros H. eapply Forall_impl; [|exact H]. intros c [-> | ->]; reflexivity. Qed.
Lemma blank_line w : blank w -> Forall (fun x => x <> 10 /\ x <> 13 /\ x <> 0) w.
Proof. intros H. eapply Forall_impl; [|exact H]. cbn beta. intros c Hc. lia. Qed.
Lemma dark_line w : Forall (fun c => 33 <= c <= 255) w -> Forall (fun x => x <> 10 /\ x <> 13 /\ x <> 0) w.
Proof. intros H. eapply Forall_impl; [|exact H]. cbn beta. intros c Hc. lia. Qed.
Lemma dark_space c : 33 <= c -> isspace c = false.
Proof. intros H. unfold isspace. lia. Qed.
Lemma path_dark l n : Forall name (names l) -> Forall (fun c => 33 <= c <= 255) (ptext l ++ slashes n).
Proof. intros F. apply Forall_app. split; [now apply ptext_chars|]. apply Forall_forall. intros x I. apply repeat_spec in I. lia. Qed.
Lemma last_split (P : Z -> Prop) s : s <> [] -> Forall P s -> exists x c, s = x ++ [c] /\ P c.
Proof. intros N F. destruct (exists_last N) as (x & c & ->). exists x, c. split; [reflexivity|]. apply Forall_app in F. destruct F as (_ & F). now inversion F. Qed.
Lemma ptext_last l : l <> [] -> Forall name (names l) -> exists x c, ptext l = x ++ [c] /\ c <> 47.
Proof.
  induction l as [|p l IH]; intros Ne F; [congruence|]. inversion F as [|? ? Hp Hl]. rewrite ptext_cons. destruct l as [|q l].
  - destruct Hp as (Np & Fp). destruct (last_split _ _ Np Fp) as (u & c & Eu & Hc). rewrite Eu. exists (repeat 47 (fst p) ++ [47] ++ u), c. unfold ptext. cbn [flat_map]. rewrite app_nil_r, <- !app_assoc. split; [reflexivity|]. now destruct Hc.
  - destruct (IH ltac:(discriminate) Hl) as (u & c & Eu & Hc). rewrite Eu. exists (repeat 47 (fst p) ++ [47] ++ snd p ++ u), c. rewrite <- !app_assoc. auto.
Qed.
Lemma hd_dark s : Forall (fun c => 33 <= c <= 255) s -> isspace (hd 0 (s ++ [0])) = false.
Proof. intros F. destruct s as [|c s]; [reflexivity|]. inversion F. cbn [app hd]. apply dark_space. lia. Qed.
Lemma nonnil_blen s : s <> [] -> blen s <> 0.
Proof. intros N E. apply N. apply blen_zero. lia. Qed.

Theorem plain_ok c peer d line junk l : host_denied c peer = false -> received d line -> BUFSIZE <= blen (d ++ junk) -> plain_line line l ->
  ipc_action c peer d junk = Some (meaning false (names l)).
Proof.
  intros Hd Rc Lj (w1 & n & w2 & El & B1 & B2 & F & Ne).
  pose proof (path_dark l n F) as Dp. set (P := ptext l ++ slashes n) in *.
  assert (El' : line = (w1 ++ P) ++ w2) by (rewrite El; unfold P; rewrite <- !app_assoc; reflexivity).
  assert (Pn : exists z, P = 47 :: z) by (destruct l as [|p l]; [congruence|]; destruct (ptext_nonnil p l) as (z & Ez); unfold P; rewrite Ez; eexists; reflexivity).
  assert (NP : P <> []) by (destruct Pn as (z & ->); discriminate).
  assert (Nl : line <> []). { rewrite El'. intros Q. apply app_eq_nil in Q. destruct Q as (Q & _). apply app_eq_nil in Q. tauto. }
  assert (Ll : blen line < 1024) by (destruct Rc as (? & _ & _ & _ & Q); unfold BUFSIZE in Q; exact Q).
  assert (LL : blen line = blen w1 + blen P + blen w2) by (rewrite El', !blen_app; lia). pose proof (blen_nonneg w1). pose proof (blen_nonneg w2). pose proof (blen_nonneg P).
  assert (LP : blen P = blen (ptext l) + Z.of_nat n) by (unfold P; rewrite blen_app, (blen_len (slashes n)); unfold slashes; rewrite repeat_length; reflexivity). pose proof (blen_nonneg (ptext l)).
  destruct (terminate_ok d line junk Rc Nl Lj) as (k & post & T & Hk).
  rewrite ipc_answer by exact Hd. unfold sanitise. rewrite T.
  assert (Nd : blen d <> 0). { apply nonnil_blen. destruct Rc as (rest & -> & _). intros Q. apply app_eq_nil in Q. tauto. }
  destruct (blen d =? 0) eqn:E0; [lia|].
  assert (Fl : Forall (fun x => x <> 10 /\ x <> 13 /\ x <> 0) line) by (rewrite El'; rewrite !Forall_app; split; [split|]; [now apply blank_line|now apply dark_line|now apply blank_line]).
  destruct (cut_state line k post Fl Hk ltac:(lia) (blen d) Nd) as (p1 & E1). rewrite E1. clear E1 T.
  destruct (last_split _ P NP Dp) as (x & lc & Ex & Hx).
  rewrite El'. destruct (strip_ws_state [] (w1 ++ P) w2 p1 (w1 ++ x) lc (blank_space _ B2) ltac:(rewrite Ex, <- app_assoc; reflexivity) ltac:(apply dark_space; lia) ltac:(rewrite blen_app; lia)) as (p2 & E2).
  rewrite E2. clear E2.
  destruct (skip_ws_state [] w1 P p2 (blank_space _ B1) (hd_dark _ Dp) ltac:(lia)) as (p3 & E3). { intros Q. apply app_eq_nil in Q. tauto. }
  rewrite E3. clear E3. rewrite app_nil_l.
  assert (PR : parseRequest (w1 ++ P ++ 0 :: p3) (blen w1) (blen P) (i_headers c) = Some (w1 ++ P ++ 0 :: p3, blen w1, blen P, false)).
  { unfold parseRequest. destruct (blen P =? 0) eqn:EP; [apply blen_zero in EP; contradiction|]. destruct (blen P <? 14); [reflexivity|]. destruct Pn as (z & ->).
    assert (CG : caseeq (w1 ++ (47 :: z) ++ 0 :: p3) (blen w1) (str "GET") = Some false) by (change (str "GET") with (71 :: str "ET"); cbn [caseeq]; cbn [app]; rewrite rdb_at; reflexivity). rewrite CG. reflexivity. }
  rewrite PR. clear PR.
  destruct (strip_ws_state w1 P [] p3 (w1 ++ x) lc ltac:(constructor) ltac:(rewrite Ex, <- app_assoc; reflexivity) ltac:(apply dark_space; lia) ltac:(change (blen []) with 0; lia)) as (p4 & E4).
  rewrite app_nil_r in E4. rewrite E4. clear E4.
  destruct (ptext_last l Ne F) as (y & yc & Ey & Hy).
  destruct (strip_sl_state w1 (ptext l) n p4 (w1 ++ y) yc ltac:(rewrite Ey, <- app_assoc; reflexivity) Hy ltac:(lia)) as (p5 & E5).
  fold P in E5. rewrite E5. clear E5.
  destruct (skip_ws_state w1 [] (ptext l) p5 ltac:(constructor) (hd_dark _ (ptext_chars l F)) ltac:(change (blen []) with 0; lia)) as (p6 & E6).
  { cbn [app]. destruct l as [|p l]; [congruence|]. destruct (ptext_nonnil p l) as (z & ->). discriminate. }
  rewrite app_nil_l, app_nil_r in E6. rewrite E6. clear E6.
  rewrite finish_eq. apply finish_ok; [exact Ne|exact F|lia].
Qed.
Lemma lower_dark g t : map tolower g = t -> Forall (fun c => 65 <= c <= 255 \/ c = 47 \/ c = 46 \/ c = 48 \/ c = 49) t -> Forall (fun c => 33 <= c <= 255) g.
Proof.
  intros <- F. apply Forall_forall. intros c I. rewrite Forall_forall in F. specialize (F (tolower c) (in_map tolower g c I)). unfold tolower in F. destruct ((65 <=? c) && (c <=? 90)) eqn:E; lia.
Qed.
Lemma parse_http pre g b2 w2 P w3 b3 v dd post h : map tolower g = str "get" -> isspace b2 = true -> isspace b3 = true -> map tolower v = str "http/1." ++ [dd] -> dd = 48 \/ dd = 49 ->
  P <> [] -> let s := g ++ (b2 :: w2) ++ P ++ (w3 ++ [b3]) ++ v in blen s < 1100 ->
  parseRequest (pre ++ s ++ 0 :: post) (blen pre) (blen s) h =
    Some ((pre ++ g ++ [b2]) ++ (w2 ++ P ++ w3) ++ 0 :: (v ++ 0 :: post), blen (pre ++ g ++ [b2]), blen (w2 ++ P ++ w3), true).
Proof.
  intros Eg S2 S3 Ev Hd NP s Ls.
  assert (Lg : blen g = 3) by (rewrite blen_len, (map_lower_len _ _ Eg); reflexivity).
  assert (Lv : blen v = 8) by (rewrite blen_len, (map_lower_len _ _ Ev); reflexivity).
  assert (LP : 1 <= blen P) by (pose proof (nonnil_blen _ NP); pose proof (blen_nonneg P); lia).
  pose proof (blen_nonneg w2). pose proof (blen_nonneg w3).
  assert (Bs : blen s = 13 + blen w2 + blen P + blen w3) by (unfold s; rewrite !blen_app, blen_cons, Lg, Lv; change (blen [b3]) with 1; lia).
  unfold parseRequest. destruct (blen s =? 0) eqn:E0; [lia|]. destruct (blen s <? 14) eqn:E14; [lia|].
  set (all := pre ++ s ++ 0 :: post).
  assert (A1 : all = pre ++ g ++ (b2 :: w2 ++ P ++ (w3 ++ [b3]) ++ v ++ 0 :: post)) by (unfold all, s; rewrite <- !app_assoc; reflexivity).
  assert (A2 : all = (pre ++ g) ++ b2 :: (w2 ++ P ++ (w3 ++ [b3]) ++ v ++ 0 :: post)) by (unfold all, s; rewrite <- !app_assoc; reflexivity).
  assert (A3 : all = (pre ++ g ++ (b2 :: w2) ++ P ++ w3) ++ b3 :: (v ++ 0 :: post)) by (unfold all, s; rewrite <- !app_assoc; reflexivity).
  assert (V : exists v7 d8, v = v7 ++ [d8] /\ map tolower v7 = map tolower (str "HTTP/1.") /\ (d8 = 48 \/ d8 = 49)).
  { assert (Nv : v <> []) by (intros ->; discriminate). destruct (exists_last Nv) as (v7 & d8 & ->). exists v7, d8. split; [reflexivity|]. rewrite map_app in Ev. cbn [map] in Ev. apply app_inj_tail in Ev. destruct Ev as (Ev1 & Ev2).
    split; [rewrite Ev1; reflexivity|]. unfold tolower in Ev2. destruct ((65 <=? d8) && (d8 <=? 90)) eqn:X; lia. }
  destruct V as (v7 & d8 & Ev8 & E7 & Hd8).
  assert (A4 : all = (pre ++ g ++ (b2 :: w2) ++ P ++ w3 ++ [b3]) ++ v7 ++ d8 :: 0 :: post) by (unfold all, s; rewrite Ev8, <- !app_assoc; reflexivity).
  assert (A5 : all = (pre ++ g ++ (b2 :: w2) ++ P ++ w3 ++ [b3] ++ v7) ++ d8 :: 0 :: post) by (unfold all, s; rewrite Ev8, <- !app_assoc; reflexivity).
  assert (L7 : blen v7 = 7) by (rewrite Ev8, blen_app in Lv; change (blen [d8]) with 1 in Lv; lia).
  rewrite A1 at 1. rewrite (caseeq_yes (str "GET") g) by (rewrite Eg; reflexivity).
  rewrite (rdb_is all _ _ _ _ A2) by (rewrite blen_app; lia). rewrite u64_small by lia. unfold plus. destruct (blen s - 9 <? 2 ^ 63) eqn:X1; [|lia].
  rewrite (rdb_is all _ _ _ _ A3) by (rewrite !blen_app, blen_cons; lia). rewrite S2, S3. cbn [negb orb].
  rewrite u64_small by lia. destruct (blen s - 8 <? 2 ^ 63) eqn:X2; [|lia].
  replace (blen pre + (blen s - 8)) with (blen (pre ++ g ++ (b2 :: w2) ++ P ++ w3 ++ [b3])) by (rewrite !blen_app, blen_cons; change (blen [b3]) with 1; lia).
  rewrite A4 at 1. rewrite caseeq_yes by exact E7.
  unfold before. rewrite E0. destruct (blen s <? 2 ^ 63) eqn:X3; [|lia].
  rewrite (rdb_is all _ _ _ _ A5) by (rewrite !blen_app, blen_cons; change (blen [b3]) with 1; lia).
  destruct (negb (d8 =? 49) && negb (d8 =? 48)) eqn:X4; [lia|].
  rewrite u64_small by lia. destruct (blen s - 13 <? 2 ^ 63) eqn:X5; [|lia].
  rewrite (wrb_is all _ _ _ _ _ A3) by (rewrite !blen_app, blen_cons; lia).
  apply f_equal. apply f_equal2; [apply f_equal2; [apply f_equal2|]|reflexivity].
  - rewrite <- !app_assoc. reflexivity.
  - rewrite !blen_app, Lg. change (blen [b2]) with 1. lia.
  - rewrite !blen_app. lia.
Qed.
Theorem http_ok c peer d line junk l : host_denied c peer = false -> received d line -> BUFSIZE <= blen (d ++ junk) -> http_line line l ->
  ipc_action c peer d junk = Some (meaning true (names l)).
Proof.
  intros Hd Rc Lj (w1 & g & w2 & n & w3 & v & w4 & El & B1 & B2 & B3 & B4 & N2 & N3 & Eg & (dd & Ev & Hdd) & F & NP).
  pose proof (path_dark l n F) as Dp. set (P := ptext l ++ slashes n) in *.
  assert (Dg : Forall (fun c => 33 <= c <= 255) g) by (apply (lower_dark _ _ Eg); vm_compute; repeat (apply Forall_cons; [left; split; discriminate|]); constructor).
  assert (Dv : Forall (fun c => 33 <= c <= 255) v).
  { apply (lower_dark _ _ Ev). apply Forall_app. split; [|apply Forall_cons; [lia|constructor]]. change (str "http/1.") with [104; 116; 116; 112; 47; 49; 46]. repeat (apply Forall_cons; [lia|]). constructor. }
  destruct w2 as [|b2 w2]; [congruence|]. destruct (exists_last N3) as (w3' & b3 & ->). inversion B2 as [|? ? Hb2 B2']. apply Forall_app in B3. destruct B3 as (B3 & Hb3). inversion Hb3 as [|? ? Hb3' _].
  set (s := g ++ (b2 :: w2) ++ P ++ (w3' ++ [b3]) ++ v).
  assert (El' : line = (w1 ++ s) ++ w4) by (rewrite El; unfold s; rewrite <- !app_assoc; reflexivity).
  assert (Lg : blen g = 3) by (rewrite blen_len, (map_lower_len _ _ Eg); reflexivity).
  assert (Lv : blen v = 8) by (rewrite blen_len, (map_lower_len _ _ Ev); reflexivity).
  assert (Nv : v <> []) by (intros ->; discriminate).
  assert (Ng : exists g0 g1, g = g0 :: g1) by (destruct g; [discriminate|]; eexists _, _; reflexivity). destruct Ng as (g0 & g1 & Eg0).
  assert (Ns : s <> []) by (unfold s; rewrite Eg0; discriminate).
  assert (Nl : line <> []). { rewrite El'. intros Q. apply app_eq_nil in Q. destruct Q as (Q & _). apply app_eq_nil in Q. tauto. }
  assert (Ll : blen line < 1024) by (destruct Rc as (? & _ & _ & _ & Q); unfold BUFSIZE in Q; exact Q).
  assert (LL : blen line = blen w1 + blen s + blen w4) by (rewrite El', !blen_app; lia).
  assert (Ls : blen s = 13 + blen w2 + blen P + blen w3') by (unfold s; rewrite !blen_app, blen_cons, Lg, Lv; change (blen [b3]) with 1; lia).
  pose proof (blen_nonneg w1). pose proof (blen_nonneg w2). pose proof (blen_nonneg w3'). pose proof (blen_nonneg w4). pose proof (blen_nonneg P).
  assert (LP : blen P = blen (ptext l) + Z.of_nat n) by (unfold P; rewrite blen_app, (blen_len (slashes n)); unfold slashes; rewrite repeat_length; reflexivity). pose proof (blen_nonneg (ptext l)).
  destruct (terminate_ok d line junk Rc Nl Lj) as (k & post & T & Hk).
  rewrite ipc_answer by exact Hd. unfold sanitise. rewrite T.
  assert (Nd : blen d <> 0). { apply nonnil_blen. destruct Rc as (rest & -> & _). intros Q. apply app_eq_nil in Q. tauto. }
  destruct (blen d =? 0) eqn:E0; [lia|].
  assert (Fl : Forall (fun x => x <> 10 /\ x <> 13 /\ x <> 0) line).
  { rewrite El'. unfold s. rewrite !Forall_app. split; [split; [now apply blank_line|]|now apply blank_line].
    split; [now apply dark_line|split; [now apply blank_line|split; [now apply dark_line|split; [split; apply blank_line; assumption|now apply dark_line]]]]. }
  destruct (cut_state line k post Fl Hk ltac:(lia) (blen d) Nd) as (p1 & E1). rewrite E1. clear E1 T.
  destruct (last_split _ v Nv Dv) as (xv & lc & Ex & Hx).
  rewrite El'. destruct (strip_ws_state [] (w1 ++ s) w4 p1 (w1 ++ g ++ (b2 :: w2) ++ P ++ (w3' ++ [b3]) ++ xv) lc (blank_space _ B4) ltac:(unfold s; rewrite Ex, <- !app_assoc; reflexivity) ltac:(apply dark_space; lia) ltac:(rewrite blen_app; lia)) as (p2 & E2).
  rewrite E2. clear E2.
  destruct (skip_ws_state [] w1 s p2 (blank_space _ B1)) as (p3 & E3).
  { unfold s. rewrite Eg0. cbn [app hd]. apply dark_space. rewrite Eg0 in Dg. inversion Dg. lia. } { lia. } { intros Q. apply app_eq_nil in Q. tauto. }
  rewrite E3. clear E3. rewrite app_nil_l.
  unfold s at 1 2. rewrite (parse_http w1 g b2 w2 P w3' b3 v dd p3 _ Eg ltac:(destruct Hb2 as [-> | ->]; reflexivity) ltac:(destruct Hb3' as [-> | ->]; reflexivity) Ev Hdd NP ltac:(fold s; lia)).
  set (q := w1 ++ g ++ [b2]). set (p4 := v ++ 0 :: p3). rewrite (app_assoc w2 P w3').
  destruct (last_split _ P NP Dp) as (xp & lp & Exp & Hxp).
  destruct (strip_ws_state q (w2 ++ P) w3' p4 (q ++ w2 ++ xp) lp (blank_space _ B3) ltac:(rewrite Exp, <- !app_assoc; reflexivity) ltac:(apply dark_space; lia) ltac:(rewrite blen_app; lia)) as (p5 & E5).
  rewrite E5. clear E5.
  assert (W : forall lx, blank (b2 :: lx) -> exists y yc, q ++ lx = y ++ [yc] /\ yc <> 47).
  { intros lx Bl. destruct (exists_last (l := b2 :: lx) ltac:(discriminate)) as (y & yc & Ey). exists (w1 ++ g ++ y), yc. split.
    - unfold q. rewrite <- !app_assoc. rewrite <- Ey. reflexivity.
    - rewrite Ey in Bl. apply Forall_app in Bl. destruct Bl as (_ & Bl). inversion Bl. lia. }
  assert (SL : exists p6, stripTrailingSlashes (q ++ (w2 ++ P) ++ 0 :: p5) (blen q) (blen (w2 ++ P)) = Some (q ++ (w2 ++ ptext l) ++ 0 :: p6, blen q, blen (w2 ++ ptext l))).
  { unfold P. rewrite (app_assoc w2 (ptext l)).
    assert (Y : exists y yc, q ++ (w2 ++ ptext l) = y ++ [yc] /\ yc <> 47).
    { destruct l as [|p l']; [change (ptext []) with (@nil Z); rewrite app_nil_r; now apply W|]. destruct (ptext_last (p :: l') ltac:(discriminate) F) as (y & yc & Ey & Hy).
      exists (q ++ w2 ++ y), yc. rewrite Ey, <- !app_assoc. auto. }
    destruct Y as (y & yc & Ey & Hy). exact (strip_sl_state q (w2 ++ ptext l) n p5 y yc Ey Hy ltac:(rewrite blen_app; lia)). }
  destruct SL as (p6 & E6). rewrite E6. clear E6.
  destruct l as [|p l'].
  - change (ptext []) with (@nil Z) in *. rewrite app_nil_r in *. destruct w2 as [|b w2].
    + unfold skipLeadingWhitespace. change (blen [] =? 0) with true. cbv iota. rewrite finish_eq. apply everything_nil.
    + destruct (skip_ws_state q (b :: w2) [] p6 (blank_space _ B2') eq_refl ltac:(change (blen []) with 0; lia)) as (p7 & E7). { rewrite app_nil_r. discriminate. }
      rewrite app_nil_r in E7. rewrite E7. clear E7. rewrite finish_eq. apply everything_nil.
  - destruct (skip_ws_state q w2 (ptext (p :: l')) p6 (blank_space _ B2') (hd_dark _ (ptext_chars _ F)) ltac:(lia)) as (p7 & E7).
    { intros Q. apply app_eq_nil in Q. destruct Q as (_ & Q). destruct (ptext_nonnil p l') as (z & Ez). rewrite Ez in Q. discriminate. }
    rewrite E7. clear E7. rewrite finish_eq. apply finish_ok; [discriminate|exact F|lia].
Qed.

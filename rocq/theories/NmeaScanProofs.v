From Coq Require Import String.
From Verif Require Import Base NmeaScan NmeaScanSpec.

Lemma digits_app s : forall sn a t, Forall (fun c => 48 <= c <= 57) s -> (sn = true \/ s <> []) -> digits sn a (s ++ t) = digits true (fold_left (fun a c => 10 * a + (c - 48)) s a) t.
Proof.
  induction s as [|c s IH]; intros sn a t F N.
  - cbn. destruct N as [->|N]; [reflexivity|congruence].
  - inversion F; subst. cbn [digits app fold_left]. replace ((48 <=? c) && (c <=? 57)) with true by lia. apply IH; auto.
Qed.
Lemma decimal_fold s v : decimal s v -> Forall (fun c => 48 <= c <= 57) s /\ s <> [] /\ v = fold_left (fun a c => 10 * a + (c - 48)) s 0 /\ 0 <= v.
Proof.
  induction 1 as [c H|s v c D (F & N & E & P) H].
  - split; [constructor; [exact H|constructor]|]. split; [discriminate|]. split; [cbn; lia|lia].
  - split; [apply Forall_app; split; [exact F|constructor; [exact H|constructor]]|]. split; [destruct s; discriminate|]. split; [rewrite fold_left_app; cbn [fold_left]; rewrite <- E; reflexivity|lia].
Qed.
Lemma skip_sp_head s : match s with c :: _ => 33 <= c | [] => True end -> skip_sp s = s.
Proof. destruct s as [|c r]; [reflexivity|]. intros H. cbn. replace ((c =? 32) || ((9 <=? c) && (c <=? 13))) with false by lia. reflexivity. Qed.
Lemma number_dec s v : decimal s v -> number s = Some (false, v).
Proof.
  intros D. destruct (decimal_fold _ _ D) as (F & N & E & P). unfold number. destruct s as [|c r]; [congruence|]. inversion F; subst.
  rewrite skip_sp_head by lia. replace (c =? 45) with false by lia. replace (c =? 43) with false by lia.
  rewrite <- (app_nil_r (c :: r)), digits_app by (auto; right; discriminate). cbn [digits]. rewrite app_nil_r. reflexivity.
Qed.
Lemma number_neg s v : decimal s v -> number (45 :: s) = Some (true, v).
Proof.
  intros D. destruct (decimal_fold _ _ D) as (F & N & E & P). unfold number. rewrite skip_sp_head by lia. cbn [Z.eqb Pos.eqb].
  rewrite <- (app_nil_r s), digits_app by auto. cbn [digits]. rewrite ?app_nil_r. subst v. reflexivity.
Qed.
Lemma short (s : list Z) : s <> [] -> (List.length s < 64)%nat -> ((64 <=? List.length s)%nat || (List.length s =? 0)%nat) = false.
Proof. intros N L. destruct s; [congruence|]. cbn [List.length] in *. apply orb_false_iff. split; [apply Nat.leb_gt; lia|reflexivity]. Qed.
Lemma to_int_dec s v : decimal s v -> (List.length s < 64)%nat -> v < 2 ^ 31 - 1 -> to_int s = v.
Proof.
  intros D L B. destruct (decimal_fold _ _ D) as (_ & N & _ & P). unfold to_int, to_long. rewrite short, (number_dec _ _ D) by assumption.
  change (2 ^ 31) with 2147483648 in *. change (2 ^ 63) with 9223372036854775808.
  repeat match goal with |- context [if ?b then _ else _] => lazymatch b with context [if _ then _ else _] => fail | _ => destruct b eqn:? end end; lia.
Qed.
Lemma to_int_neg s v : decimal s v -> (List.length s < 63)%nat -> v <= 2 ^ 31 -> to_int (45 :: s) = - v.
Proof.
  intros D L B. destruct (decimal_fold _ _ D) as (_ & N & _ & P). unfold to_int, to_long. rewrite short, (number_neg _ _ D) by (discriminate || (cbn [List.length]; lia)).
  change (2 ^ 31) with 2147483648 in *. change (2 ^ 63) with 9223372036854775808.
  repeat match goal with |- context [if ?b then _ else _] => lazymatch b with context [if _ then _ else _] => fail | _ => destruct b eqn:? end end; lia.
Qed.
Lemma to_uint_dec s v : decimal s v -> (List.length s < 64)%nat -> v < 2 ^ 32 - 1 -> to_uint s = v.
Proof.
  intros D L B. destruct (decimal_fold _ _ D) as (_ & N & _ & P). unfold to_uint. rewrite short, (number_dec _ _ D) by assumption.
  change (2 ^ 32) with 4294967296 in *. change (2 ^ 64) with 18446744073709551616.
  repeat match goal with |- context [if ?b then _ else _] => lazymatch b with context [if _ then _ else _] => fail | _ => destruct b eqn:? end end; lia.
Qed.

Definition letter (k : kind) : Z := match k with KText => 115 | KLetter => 67 | KNum true => 70 | KNum false => 102 | KInt => 100 | KUns => 117 end.
Definition room (k : kind) (s : list Z) : nat := match k with KText => 16%nat | _ => S (List.length s) end.
Lemma first_len (x rest : list Z) n : (List.length x <= n)%nat -> firstn (Nat.min (List.length x) n) (x ++ rest) = x.
Proof. intros H. rewrite Nat.min_l by exact H. rewrite firstn_app, Nat.sub_diag, firstn_all. apply app_nil_r. Qed.
Lemma store_gives isnum k x v rest : gives (fun t => isnum t = true) k x v ->
  store isnum (letter k) (firstn (Nat.min (List.length x) (room k (x ++ rest))) (x ++ rest)) (room k (x ++ rest)) = SOk v.
Proof.
  intros G. assert (R : k <> KText -> (List.length x <= room k (x ++ rest))%nat) by (intros K; destruct k; try congruence; cbn [room]; rewrite app_length; lia).
  destruct G as [k|x N L|x y L N|c r H|c r H|a x N L Hn|x v D L B|x v D L B|x v D L B].
  - cbn [List.length Nat.min firstn store]. destruct k as [| |[|]| |]; reflexivity.
  - cbn [room letter]. rewrite first_len by lia. destruct x as [|c x]; [congruence|]. unfold store. cbn [Z.eqb Pos.eqb].
    replace (List.length (c :: x) <? 16)%nat with true by (symmetry; apply Nat.ltb_lt; lia). reflexivity.
  - cbn [room letter]. destruct y as [|d y]; [congruence|].
    assert (E : firstn (Nat.min (List.length (x ++ d :: y)) 16) ((x ++ d :: y) ++ rest) = x ++ [d]).
    { rewrite Nat.min_r by (rewrite app_length; cbn [List.length]; lia). rewrite <- app_assoc. rewrite firstn_app. rewrite firstn_all2 by lia. rewrite L. reflexivity. }
    rewrite E. unfold store. assert (Lx : List.length (x ++ [d]) = 16%nat) by (rewrite app_length; cbn [List.length]; lia).
    assert (Fx : firstn 15 (x ++ [d]) = x) by (rewrite firstn_app, L, Nat.sub_diag, <- L, firstn_all; apply app_nil_r).
    destruct (x ++ [d]) as [|c t] eqn:Et; [discriminate|]. cbn [Z.eqb Pos.eqb]. rewrite Lx. cbn [Nat.ltb Nat.leb]. change (16 - 1)%nat with 15%nat. rewrite Fx. reflexivity.
  - rewrite first_len by (apply R; discriminate). unfold store. cbn [letter Z.eqb Pos.eqb]. unfold upper. replace ((97 <=? c) && (c <=? 122)) with true by lia. reflexivity.
  - rewrite first_len by (apply R; discriminate). unfold store. cbn [letter Z.eqb Pos.eqb]. unfold upper. replace ((97 <=? c) && (c <=? 122)) with false by lia. reflexivity.
  - rewrite first_len by (apply R; discriminate). destruct x as [|c x]; [congruence|]. unfold store. assert (G : (64 <=? List.length (c :: x))%nat = false) by (apply Nat.leb_gt; exact L).
    destruct a; cbn [letter Z.eqb Pos.eqb orb]; rewrite G, Hn; reflexivity.
  - rewrite first_len by (apply R; discriminate). destruct (decimal_fold _ _ D) as (_ & N & _ & _). pose proof (to_int_dec _ _ D L B) as T. destruct x as [|c x]; [congruence|]. unfold store. cbn [letter Z.eqb Pos.eqb orb]. rewrite T.
    change (2 ^ 31) with 2147483648 in *. replace (v =? 2147483648 - 1) with false by lia. reflexivity.
  - rewrite first_len by (apply R; discriminate). destruct (decimal_fold _ _ D) as (_ & N & _ & P). pose proof (to_int_neg _ _ D L B) as T. unfold store. cbn [letter Z.eqb Pos.eqb orb]. rewrite T.
    change (2 ^ 31) with 2147483648 in *. replace (- v =? 2147483648 - 1) with false by lia. reflexivity.
  - rewrite first_len by (apply R; discriminate). destruct (decimal_fold _ _ D) as (_ & N & _ & _). pose proof (to_uint_dec _ _ D L B) as T. destruct x as [|c x]; [congruence|]. unfold store. cbn [letter Z.eqb Pos.eqb orb]. rewrite T.
    change (2 ^ 32) with 4294967296 in *. replace (v =? 4294967296 - 1) with false by lia. reflexivity.
Qed.

(** one token: all of its field is taken *)
Lemma upto_field d x rest : field x -> d = 44 \/ d = 42 -> (rest = [] \/ exists r, rest = d :: r) -> upto d (x ++ rest) = List.length x.
Proof.
  intros F D R. induction F as [|c x (H1 & H2 & _) _ IH]; cbn [app List.length upto].
  - destruct R as [->|(r & ->)]; [reflexivity|]. cbn. rewrite Z.eqb_refl. reflexivity.
  - replace (c =? d) with false by lia. rewrite IH. reflexivity.
Qed.
Lemma scan_token isnum term k x rest d g n : field x -> d = 44 \/ d = 42 -> (rest = [] \/ exists r, rest = d :: r) ->
  scan isnum term (said k ++ d :: g) None (x ++ rest) n =
  match store isnum (letter k) (firstn (Nat.min (List.length x) (room k (x ++ rest))) (x ++ rest)) (room k (x ++ rest)) with
  | SBad => Some (O, [])
  | SUnknown => Some (n, [])
  | SOk v => match scan isnum term (d :: g) None rest (S n) with Some (m, l) => Some (m, v :: l) | None => None end
  end.
Proof.
  intros F D R. pose proof (upto_field d x rest F D R) as U.
  assert (W : match x ++ rest with [] => O | y :: _ => if (y =? 42) || (y =? 0) then O else List.length x end = List.length x).
  { destruct x as [|y x]; cbn [app List.length].
    - destruct rest as [|y r]; [reflexivity|]. destruct ((y =? 42) || (y =? 0)); reflexivity.
    - inversion F as [|? ? (H1 & H2 & H3) _]; subst. replace ((y =? 42) || (y =? 0)) with false by lia. reflexivity. }
  assert (Sk : skipn (List.length x) (x ++ rest) = rest) by (rewrite skipn_app, skipn_all, Nat.sub_diag; reflexivity).
  destruct k as [| |[|]| |]; cbn [said app].
  - cbn [scan Z.eqb Pos.eqb Z.leb Z.compare Pos.compare Pos.compare_cont andb app]. change (to_uint [49; 54]) with 16. change (upper 115) with 83. cbn [Z.eqb Pos.eqb orb]. change (Z.to_nat 16) with 16%nat.
    rewrite U, W, Sk. reflexivity.
  - cbn [scan Z.eqb Pos.eqb Z.leb Z.compare Pos.compare Pos.compare_cont andb app orb]. rewrite U, W, Sk. reflexivity.
  - cbn [scan Z.eqb Pos.eqb Z.leb Z.compare Pos.compare Pos.compare_cont andb app orb]. rewrite U, W, Sk. reflexivity.
  - cbn [scan Z.eqb Pos.eqb Z.leb Z.compare Pos.compare Pos.compare_cont andb app orb]. rewrite U, W, Sk. reflexivity.
  - cbn [scan Z.eqb Pos.eqb Z.leb Z.compare Pos.compare Pos.compare_cont andb app orb]. rewrite U, W, Sk. reflexivity.
  - cbn [scan Z.eqb Pos.eqb Z.leb Z.compare Pos.compare Pos.compare_cont andb app orb]. rewrite U, W, Sk. reflexivity.
Qed.
Definition fmt (ks : list kind) : list Z := flat_map (fun k => 44 :: said k) ks.
Definition txt (xs : list (list Z)) : list Z := flat_map (fun x => 44 :: x) xs.
(** fields, and what is behind them *)
Lemma scan_fields isnum term ks xs vs d g rest :
  all_give (fun t => isnum t = true) ks xs vs -> d = 44 \/ d = 42 -> (rest = [] \/ exists r, rest = d :: r) ->
  forall n, scan isnum term (fmt ks ++ d :: g) None (txt xs ++ rest) n =
    match scan isnum term (d :: g) None rest (n + List.length ks) with Some (m, l) => Some (m, vs ++ l) | None => None end.
Proof.
  intros A D R. induction A as [|k ks x xs v vs F G A IH]; intros n.
  - cbn [fmt txt flat_map app List.length]. rewrite Nat.add_0_r. destruct (scan isnum term (d :: g) None rest n) as [[m l]|]; reflexivity.
  - cbn [fmt txt flat_map]. fold (fmt ks). fold (txt xs). cbn [app]. rewrite <- !app_assoc.
    assert (S1 : forall f s, scan isnum term (44 :: f) None (44 :: s) n = scan isnum term f None s n) by reflexivity. rewrite S1.
    assert (Nx : exists d' g', fmt ks ++ d :: g = d' :: g' /\ (d' = 44 \/ d' = 42) /\ (txt xs ++ rest = [] \/ exists r, txt xs ++ rest = d' :: r)).
    { destruct A as [|k' ks' x' xs' v' vs' F' G' A']; cbn [fmt txt flat_map app]; [exists d, g; auto|]. eexists _, _. split; [reflexivity|]. split; [auto|]. right. eexists. reflexivity. }
    destruct Nx as (d' & g' & E & D' & R'). rewrite E. rewrite scan_token by assumption. rewrite (store_gives isnum k x v _ G). rewrite <- E. rewrite IH.
    cbn [List.length]. rewrite Nat.add_succ_r. cbn [Nat.add]. destruct (scan isnum term (d :: g) None rest (S (n + List.length ks))) as [[m l]|]; reflexivity.
Qed.
Lemma scan_pre isnum term pre f s : ~ In 37 pre -> forall n, scan isnum term (pre ++ f) None (pre ++ s) n = scan isnum term f None s n.
Proof. induction pre as [|c pre IH]; intros N n; [reflexivity|]. cbn [app scan]. replace (c =? 37) with false by (symmetry; apply Z.eqb_neq; intros ->; apply N; left; reflexivity). rewrite Z.eqb_refl. apply IH. intros C. apply N. right. exact C. Qed.

(** a text never fills its array *)
Definition fits (v : val) : Prop := match v with VStr x => (List.length x <= 15)%nat | _ => True end.
Lemma store_fits isnum k t w v : store isnum k t w = SOk v -> (k = 115 -> w = 16%nat) -> fits v.
Proof.
  unfold store. destruct t as [|c t].
  - destruct (existsb (Z.eqb k) _); [|discriminate]. intros H _. inversion H. exact I.
  - intros H W. repeat match type of H with (if ?b then _ else _) = _ => destruct b eqn:? end; try discriminate; inversion H; subst; try exact I.
    unfold fits. rewrite W by lia. destruct (S (List.length t) <? 16)%nat eqn:E.
    + apply Nat.ltb_lt in E. exact (proj1 (Nat.lt_succ_r _ 15) E).
    + apply (firstn_le_length 15).
Qed.
Lemma scan_said isnum term k f s n m l : (forall s n m l, scan isnum term f None s n = Some (m, l) -> Forall fits l) ->
  scan isnum term (said k ++ f) None s n = Some (m, l) -> Forall fits l.
Proof.
  intros H. destruct k as [| |[|]| |]; cbn [said app scan Z.eqb Pos.eqb Z.leb Z.compare Pos.compare Pos.compare_cont andb];
    match goal with |- match store ?i ?k ?t ?w with _ => _ end = _ -> _ => destruct (store i k t w) as [v| |] eqn:E; [|intros X; inversion X; constructor|intros X; inversion X; constructor] end;
    match goal with |- match scan ?i ?a ?b ?c ?d ?e with _ => _ end = _ -> _ => destruct (scan i a b c d e) as [[m' l']|] eqn:E2; [|discriminate] end;
    intros X; inversion X; subst; (constructor; [apply (store_fits _ _ _ _ _ E); intros K; (discriminate K || reflexivity)|apply (H _ _ _ _ E2)]).
Qed.
Lemma scan_fits isnum term ks : forall s n m l, scan isnum term (fmt ks ++ [42]) None s n = Some (m, l) -> Forall fits l.
Proof.
  induction ks as [|k ks IH]; intros s n m l.
  - cbn [fmt flat_map app scan Z.eqb Pos.eqb]. destruct s as [|x r]; [destruct term; intros X; inversion X; constructor|]. destruct (x =? 42); intros X; inversion X; constructor.
  - cbn [fmt flat_map]. fold (fmt ks). rewrite <- app_assoc. cbn [app].
    assert (S1 : forall f, scan isnum term (44 :: f) None s n = match s with x :: r => if x =? 44 then scan isnum term f None r n else Some (n, []) | [] => match term with Some _ => Some (n, []) | None => None end end) by reflexivity.
    rewrite S1. destruct s as [|x r]; [destruct term; intros X; inversion X; constructor|]. destruct (x =? 44); [|intros X; inversion X; constructor]. apply scan_said. exact IH.
Qed.
Lemma pre_fits isnum term pre ks : ~ In 37 pre -> forall s n m l, scan isnum term (pre ++ fmt ks ++ [42]) None s n = Some (m, l) -> Forall fits l.
Proof.
  induction pre as [|c pre IH]; intros N s n m l; [apply scan_fits|]. cbn [app scan]. replace (c =? 37) with false by (symmetry; apply Z.eqb_neq; intros ->; apply N; left; reflexivity).
  destruct s as [|x r]; [destruct term; intros X; inversion X; constructor|]. destruct (x =? c); [|intros X; inversion X; constructor]. apply IH. intros C. apply N. right. exact C.
Qed.
Lemma scan_inside isnum t f : forall tok s n, scan isnum (Some t) f tok s n <> None.
Proof.
  induction f as [|c g IH]; intros tok s n; cbn [scan]; [discriminate|]. destruct tok as [ds|].
  - destruct ((48 <=? c) && (c <=? 57)); [apply IH|].
    match goal with |- match store ?i ?k ?t ?w with _ => _ end <> _ => destruct (store i k t w) as [v| |]; try discriminate end.
    match goal with |- match scan ?i ?a ?b ?c ?d ?e with _ => _ end <> _ => pose proof (IH c d e) as Q; destruct (scan i a b c d e) as [[m' l']|]; [discriminate|congruence] end.
  - destruct (c =? 37); [apply IH|]. destruct s as [|x r]; [discriminate|]. destruct (x =? c); [apply IH|discriminate].
Qed.
Lemma number_none c r : ~ 48 <= c <= 57 -> ~ In c [43; 45; 32; 9; 10; 11; 12; 13] -> number (c :: r) = None.
Proof.
  intros D N. cbn [In] in N. unfold number. cbn [skip_sp]. replace ((c =? 32) || ((9 <=? c) && (c <=? 13))) with false by (assert (c <> 32 /\ c <> 9 /\ c <> 10 /\ c <> 11 /\ c <> 12 /\ c <> 13) by (repeat split; intros ->; apply N; auto 10); lia).
  replace (c =? 45) with false by (assert (c <> 45) by (intros ->; apply N; auto 10); lia). replace (c =? 43) with false by (assert (c <> 43) by (intros ->; apply N; auto 10); lia).
  cbn [digits]. replace ((48 <=? c) && (c <=? 57)) with false by lia. reflexivity.
Qed.

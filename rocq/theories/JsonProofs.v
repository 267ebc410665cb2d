From Coq Require Import String.
From Verif Require Import Base Regex NameSvc Json JsonSpec.

(** ** Numbers *)
Lemma value_of_app a b : value_of (a ++ b) = value_of a * 10 ^ Z.of_nat (length b) + value_of b.
Proof.
  unfold value_of. rewrite fold_left_app. generalize (fold_left (fun a c => 10 * a + (c - 48)) a 0) as x. induction b as [|c b IH]; intros x; cbn [fold_left length].
  - change (10 ^ Z.of_nat 0) with 1. lia.
  - rewrite IH, (IH (10 * 0 + (c - 48))). rewrite Nat2Z.inj_succ, Z.pow_succ_r by lia. ring.
Qed.
Lemma dec_spec fuel : forall n acc, 0 <= n < 10 ^ Z.of_nat fuel -> (0 < fuel)%nat ->
  exists ds, dec fuel n acc = ds ++ acc /\ Forall digit ds /\ value_of ds = n /\ ds <> [] /\ (hd 0 ds = 48 -> ds = [48]).
Proof.
  induction fuel as [|f IH]; intros n acc H L; [lia|]. cbn [dec]. assert (D : digit (48 + n mod 10)) by (unfold digit; lia).
  destruct (n <? 10) eqn:E.
  - exists [48 + n mod 10]. split; [reflexivity|]. split; [constructor; [exact D|constructor]|]. split; [unfold value_of; cbn [fold_left]; lia|]. split; [discriminate|].
    cbn [hd]. intros ->. reflexivity.
  - rewrite Nat2Z.inj_succ, Z.pow_succ_r in H by lia.
    assert (Hf : (0 < f)%nat) by (destruct f; [cbn in H; lia|lia]).
    destruct (IH (n / 10) ((48 + n mod 10) :: acc) ltac:(set (p := 10 ^ Z.of_nat f) in *; clearbody p; lia) Hf) as (ds & -> & F & V & Ne & Hd).
    exists (ds ++ [48 + n mod 10]). split; [now rewrite <- app_assoc|]. split; [apply Forall_app; split; [exact F|constructor; [exact D|constructor]]|]. split; [|split].
    + rewrite value_of_app, V. cbn [length]. unfold value_of. cbn [fold_left]. change (10 ^ Z.of_nat 1) with 10. lia.
    + intros A. now apply app_eq_nil in A.
    + destruct ds as [|d ds]; [now elim Ne|]. cbn [hd app] in *. intros X. specialize (Hd X). inversion Hd. subst. exfalso. unfold value_of in V. cbn [fold_left] in V. lia.
Qed.
Lemma fmt_d_number z : - 2 ^ 63 <= z < 2 ^ 63 -> number (fmt_d z) z 0.
Proof.
  intros H. unfold fmt_d, number. destruct (z <? 0) eqn:E.
  - destruct (dec_spec 20 (- z) [] ltac:(change (10 ^ Z.of_nat 20) with 100000000000000000000; lia) ltac:(lia)) as (ds & -> & F & V & Ne & Hd).
    exists true, ds, []. rewrite !app_nil_r. repeat split; try assumption; try constructor. lia.
  - destruct (dec_spec 20 z [] ltac:(change (10 ^ Z.of_nat 20) with 100000000000000000000; lia) ltac:(lia)) as (ds & -> & F & V & Ne & Hd).
    exists false, ds, []. rewrite !app_nil_r. repeat split; try assumption; try constructor. lia.
Qed.
Lemma dbl_max_small : dbl_max / 1000000 < 10 ^ Z.of_nat 400.
Proof. now vm_compute. Qed.
Lemma fmt_f_number n m : 0 <= m <= dbl_max -> number (fmt_f n m) (signed n m) 6.
Proof.
  intros H. unfold fmt_f, number. pose proof dbl_max_small as B.
  destruct (dec_spec 400 (m / 1000000) [] ltac:(split; [apply Z.div_pos; lia|eapply Z.le_lt_trans; [|exact B]; apply Z.div_le_mono; lia]) ltac:(lia)) as (ds & -> & F & V & Ne & Hd).
  clear B. destruct H as (H & _).
  exists n, ds, [48 + m / 100000 mod 10; 48 + m / 10000 mod 10; 48 + m / 1000 mod 10; 48 + m / 100 mod 10; 48 + m / 10 mod 10; 48 + m mod 10]. rewrite app_nil_r. split; [exact F|]. split; [repeat (apply Forall_cons; [unfold digit; lia|]); apply Forall_nil|]. split; [exact Ne|]. split; [exact Hd|]. split; [reflexivity|].
  split; [reflexivity|]. rewrite value_of_app, V. cbn [length]. change (10 ^ Z.of_nat 6) with 1000000.
  assert (A : m / 1000000 * 1000000 + value_of [48 + m / 100000 mod 10; 48 + m / 10000 mod 10; 48 + m / 1000 mod 10; 48 + m / 100 mod 10; 48 + m / 10 mod 10; 48 + m mod 10] = m)
    by (unfold value_of; cbn [fold_left]; lia).
  rewrite A. destruct n; reflexivity.
Qed.

(** ** Strings *)
Lemma chars_clean s : clean s -> chars s s.
Proof. unfold clean. induction s as [|c s IH]; intros F; [constructor|]. inversion F; subst. constructor; auto. Qed.
Lemma fmt_d_clean z : 0 <= z <= 255 -> clean (fmt_d z).
Proof.
  intros H. destruct (fmt_d_number z ltac:(lia)) as (neg & ip & fp & F1 & F2 & _ & _ & E & K & V). rewrite E. destruct fp; [|discriminate]. rewrite app_nil_r.
  unfold clean. apply Forall_app. split; [destruct neg; repeat constructor; unfold plain; lia|]. eapply Forall_impl; [|exact F1]. intros c. unfold digit, plain. lia.
Qed.
Lemma value_str s : clean s -> value ([34] ++ s ++ [34]) (JStr s).
Proof. intros C. apply v_str. now apply chars_clean. Qed.

(** ** Whitespace *)
Lemma ws_nil : ws [].
Proof. constructor. Qed.
Lemma ws_app a b : ws a -> ws b -> ws (a ++ b).
Proof. intros A B. apply Forall_app. now split. Qed.
Lemma ws_indent s : ws (new_indent s).
Proof.
  unfold new_indent. destruct (j_depth s =? 0); [constructor|]. destruct (j_pretty s); [|constructor]. constructor; [lia|].
  apply Forall_forall. intros x I. apply repeat_spec in I. lia.
Qed.
Lemma elements_ws t l w : elements t l -> ws w -> elements (t ++ w) l.
Proof.
  intros E W. induction E.
  - rewrite <- !app_assoc. apply e_one; auto. now apply ws_app.
  - rewrite <- !app_assoc. now apply e_more.
Qed.
Lemma members_ws t l w : members t l -> ws w -> members (t ++ w) l.
Proof.
  intros E W. induction E.
  - rewrite <- !app_assoc. apply m_one; auto. now apply ws_app.
  - rewrite <- !app_assoc. now apply m_more.
Qed.
Lemma elements_wsl t l w : elements t l -> ws w -> elements (w ++ t) l.
Proof.
  intros E W. destruct E.
  - rewrite app_assoc. apply e_one; auto. now apply ws_app.
  - rewrite app_assoc. apply e_more; auto. now apply ws_app.
Qed.

(** ** Calls *)
Lemma jcalls_app a : forall s b, jcalls s (a ++ b) = match jcalls s a with
  | Some (s1, t1) => match jcalls s1 b with Some (s2, t2) => Some (s2, t1 ++ t2) | None => None end | None => None end.
Proof.
  induction a as [|c a IH]; intros s b; cbn [jcalls]. { rewrite app_nil_l. destruct (jcalls s b) as [[? ?]|]; reflexivity. }
  rewrite <- app_comm_cons. cbn [jcalls]. destruct (jcall1 s c) as [[s1 t1]|]; [|reflexivity]. rewrite IH. destruct (jcalls s1 a) as [[s2 t2]|]; [|reflexivity].
  destruct (jcalls s2 b) as [[s3 t3]|]; [|reflexivity]. now rewrite app_assoc.
Qed.
Definition comma (s : jsess) : list Z := if j_ent s (j_depth s) =? 0 then [] else [44].
Definition nextto (s s' : jsess) (k : Z) : Prop :=
  j_pretty s' = j_pretty s /\ j_depth s' = j_depth s /\ j_ent s' (j_depth s) = j_ent s (j_depth s) + k /\ (forall e, e < j_depth s -> j_ent s' e = j_ent s e).
Lemma nextto_trans a b c i j : nextto a b i -> nextto b c j -> nextto a c (i + j).
Proof.
  intros (P1 & D1 & E1 & F1) (P2 & D2 & E2 & F2). rewrite D1 in E2, F2. repeat split; try congruence. { rewrite E2, E1. lia. }
  intros e L. now rewrite F2, F1.
Qed.
Lemma in_range s : 0 < j_depth s < maxdepth -> insert_comma s = Some (comma s) /\
  exists s', count_entry s = Some s' /\ nextto s s' 1.
Proof.
  intros H. unfold insert_comma, count_entry, ent, set_ent. assert (E : (0 <=? j_depth s) && (j_depth s <? maxdepth) = true) by lia. rewrite E. split; [reflexivity|].
  eexists. split; [reflexivity|]. unfold nextto. cbn. rewrite Z.eqb_refl. repeat split. intros e L. destruct (e =? j_depth s) eqn:X; [lia|reflexivity].
Qed.
Lemma scalar_ok s key t : 0 < j_depth s < maxdepth -> exists s', scalar s key t = Some (s', comma s ++ new_indent s ++ key_text key ++ t) /\ nextto s s' 1.
Proof. intros H. destruct (in_range s H) as (A & s' & B & N). unfold scalar. rewrite A, B. now exists s'. Qed.
Lemma open_ok s array key : 0 < j_depth s -> j_depth s + 1 < maxdepth ->
  exists s', mark_object s true array key = Some (s', comma s ++ new_indent s ++ key_text key ++ [if array then 91 else 123]) /\
    j_pretty s' = j_pretty s /\ j_depth s' = j_depth s + 1 /\ j_ent s' (j_depth s + 1) = 0 /\ j_ent s' (j_depth s) = j_ent s (j_depth s) + 1 /\
    (forall e, e < j_depth s -> j_ent s' e = j_ent s e).
Proof.
  intros H L. destruct (in_range s ltac:(lia)) as (A & s1 & B & P & D & E & F). unfold mark_object. rewrite A, B. cbn [j_depth set_depth]. rewrite D.
  assert (X : j_depth s + 1 <? maxdepth = true) by lia. rewrite X. unfold set_ent. assert (Y : (0 <=? j_depth s + 1) && (j_depth s + 1 <? maxdepth) = true) by lia. rewrite Y.
  eexists. split; [reflexivity|]. cbn. repeat split; try assumption.
  - now rewrite Z.eqb_refl.
  - destruct (j_depth s =? j_depth s + 1) eqn:Z1; [lia|exact E].
  - intros e Le. destruct (e =? j_depth s + 1) eqn:Z1; [lia|now apply F].
Qed.
Lemma close_ok s array d : j_depth s = d + 1 -> 0 <= d -> d + 1 < maxdepth ->
  exists s' w, mark_object s false array None = Some (s', w ++ [if array then 93 else 125]) /\ ws w /\
    j_pretty s' = j_pretty s /\ j_depth s' = d /\ (forall e, e <= d -> j_ent s' e = j_ent s e).
Proof.
  intros D H L. unfold mark_object, set_ent. rewrite D. assert (Y : (0 <=? d + 1) && (d + 1 <? maxdepth) = true) by lia. rewrite Y. cbn [j_depth set_depth].
  assert (X : 0 <=? d + 1 - 1 = true) by lia. rewrite X. eexists _, _. split; [reflexivity|]. split; [apply ws_indent|]. cbn. repeat split; [lia|].
  intros e Le. destruct (e =? d + 1) eqn:Z1; [lia|reflexivity].
Qed.

(** ** One value *)
Definition prints (n : node) : Prop := forall key s, 0 < j_depth s -> j_depth s + Z.of_nat (height n) < maxdepth -> printable n ->
  exists s' t, jcalls s (calls key n) = Some (s', comma s ++ new_indent s ++ key_text key ++ t) /\ value t (denote n) /\ nextto s s' 1.

Lemma prints_scalar n c t : (forall key s, calls key n = [c key] /\ jcall1 s (c key) = scalar s key t) -> height n = 0%nat ->
  (printable n -> value t (denote n)) -> prints n.
Proof.
  intros C Hh V key s D L P. rewrite Hh in L. destruct (C key s) as (C1 & C2). rewrite C1. cbn [jcalls]. rewrite C2.
  destruct (scalar_ok s key t ltac:(lia)) as (s' & -> & N). exists s', t. rewrite app_nil_r. auto.
Qed.

Lemma elems_ok l : Forall prints l -> forall s, 0 < j_depth s < maxdepth -> 0 <= j_ent s (j_depth s) ->
  (forall n, In n l -> j_depth s + Z.of_nat (height n) < maxdepth) -> Forall printable l ->
  exists s' t, jcalls s (flat_map (calls None) l) = Some (s', t) /\ nextto s s' (Z.of_nat (length l)) /\
    match l with [] => t = [] | _ => exists t', t = comma s ++ t' /\ elements t' (map denote l) end.
Proof.
  induction l as [|n l IH]; intros FP s D E Hh Pr; cbn [flat_map].
  { exists s, []. split; [reflexivity|]. split; [|reflexivity]. unfold nextto. cbn [length]. repeat split. lia. }
  inversion FP; subst. inversion Pr; subst. destruct (H1 None s ltac:(lia) (Hh n (or_introl eq_refl)) H3) as (s1 & tv & C1 & V1 & N1).
  rewrite jcalls_app, C1. pose proof N1 as (P1 & D1 & E1 & F1).
  destruct (IH H2 s1 ltac:(lia) ltac:(rewrite D1, E1; lia) ltac:(intros n' I; rewrite D1; apply Hh; now right) H4) as (s2 & t2 & C2 & N2 & T2).
  rewrite C2. exists s2. eexists. split; [reflexivity|]. split.
  { replace (Z.of_nat (length (n :: l))) with (1 + Z.of_nat (length l)) by (cbn [length]; lia). eapply nextto_trans; eassumption. }
  cbn [key_text map]. rewrite app_nil_l. eexists. rewrite <- app_assoc. split; [reflexivity|]. destruct l as [|n' l].
  - rewrite T2. rewrite <- app_assoc. apply e_one; [apply ws_indent|exact V1|apply ws_nil].
  - destruct T2 as (t' & -> & El). unfold comma at 1. rewrite D1, E1. destruct (j_ent s (j_depth s) + 1 =? 0) eqn:X; [lia|].
    rewrite <- app_assoc. change (tv ++ [44] ++ t') with (tv ++ [] ++ [44] ++ t'). apply e_more; [apply ws_indent|exact V1|apply ws_nil|exact El].
Qed.
Lemma mems_ok l : Forall prints (map snd l) -> Forall (fun m => clean (fst m)) l -> forall s, 0 < j_depth s < maxdepth -> 0 <= j_ent s (j_depth s) ->
  (forall n, In n (map snd l) -> j_depth s + Z.of_nat (height n) < maxdepth) -> Forall printable (map snd l) ->
  exists s' t, jcalls s (calls_members l) = Some (s', t) /\ nextto s s' (Z.of_nat (length l)) /\
    match l with [] => t = [] | _ => exists t', t = comma s ++ t' /\ members t' (denote_members l) end.
Proof.
  unfold calls_members, denote_members.
  induction l as [|[k n] l IH]; intros FP FC s D E Hh Pr; cbn [flat_map].
  { exists s, []. split; [reflexivity|]. split; [|reflexivity]. unfold nextto. cbn [length]. repeat split. lia. }
  cbn [fst snd map] in *. inversion FP; subst. inversion Pr; subst. inversion FC; subst. cbn [fst] in *.
  destruct (H1 (Some k) s ltac:(lia) (Hh n (or_introl eq_refl)) H3) as (s1 & tv & C1 & V1 & N1).
  rewrite jcalls_app, C1. pose proof N1 as (P1 & D1 & E1 & F1).
  destruct (IH H2 ltac:(assumption) s1 ltac:(lia) ltac:(rewrite D1, E1; lia) ltac:(intros n' I; rewrite D1; apply Hh; now right) H4) as (s2 & t2 & C2 & N2 & T2).
  rewrite C2. exists s2. eexists. split; [reflexivity|]. split.
  { replace (Z.of_nat (length ((k, n) :: l))) with (1 + Z.of_nat (length l)) by (cbn [length]; lia). eapply nextto_trans; eassumption. }
  eexists. rewrite <- app_assoc. split; [reflexivity|]. cbn [key_text]. change [34; 58; 32] with ([34] ++ [] ++ [58] ++ [32]). rewrite <- !app_assoc. destruct l as [|m' l].
  - rewrite T2. apply m_one; [apply ws_indent|now apply chars_clean|apply ws_nil|repeat constructor|exact V1|apply ws_nil].
  - destruct T2 as (t' & -> & El). unfold comma at 1. rewrite D1, E1. destruct (j_ent s (j_depth s) + 1 =? 0) eqn:X; [lia|].
    change (tv ++ [44] ++ t') with (tv ++ [] ++ [44] ++ t').
    apply m_more; [apply ws_indent|now apply chars_clean|apply ws_nil|repeat constructor|exact V1|apply ws_nil|exact El].
Qed.

Lemma height_arr l n : In n l -> (height n <= fold_right (fun x a => Nat.max (height x) a) 0%nat l)%nat.
Proof. induction l as [|x l IH]; intros []; cbn [fold_right]. { subst. lia. } specialize (IH H). lia. Qed.
Lemma height_obj (l : list (list Z * node)) n : In n (map snd l) -> (height n <= fold_right (fun m a => Nat.max (height (snd m)) a) 0%nat l)%nat.
Proof. induction l as [|x l IH]; intros []; cbn [fold_right]. { subst. lia. } specialize (IH H). lia. Qed.

Lemma prints_arr l : Forall prints l -> prints (NArr l).
Proof.
  intros FP key s D L P. inversion P; subst. cbn [height] in L. cbn [calls].
  destruct (open_ok s true key D ltac:(lia)) as (s1 & O & P1 & D1 & E1 & Ed & F1).
  destruct (elems_ok l FP s1 ltac:(lia) ltac:(rewrite D1, E1; lia) ltac:(intros n I; pose proof (height_arr l n I); lia) H0) as (s2 & t2 & C2 & (P2 & D2 & E2 & F2) & T2).
  destruct (close_ok s2 true (j_depth s) ltac:(lia) ltac:(lia) ltac:(lia)) as (s3 & w & C3 & W & P3 & D3 & F3).
  rewrite jcalls_app. cbn [jcalls jcall1]. rewrite O, jcalls_app, C2. cbn [jcalls jcall1]. rewrite C3. exists s3. eexists. split; [|split].
  - f_equal. f_equal. rewrite <- !app_assoc. reflexivity.
  - cbn [denote]. rewrite app_nil_r. rewrite !app_nil_l. destruct l as [|n l].
    + rewrite T2. now apply v_arr0.
    + destruct T2 as (t' & -> & El). unfold comma. rewrite D1, E1. cbn [Z.eqb]. rewrite app_nil_l, (app_assoc t'). apply v_arr. now apply elements_ws.
  - unfold nextto. repeat split; try congruence. { rewrite F3, F2, Ed; lia. } intros e Le. rewrite F3, F2, F1; lia || reflexivity.
Qed.
Lemma prints_obj l : Forall prints (map snd l) -> prints (NObj l).
Proof.
  intros FP key s D L P. inversion P; subst. cbn [height] in L. cbn [calls]. fold (calls_members l).
  destruct (open_ok s false key D ltac:(lia)) as (s1 & O & P1 & D1 & E1 & Ed & F1).
  destruct (mems_ok l FP H0 s1 ltac:(lia) ltac:(rewrite D1, E1; lia) ltac:(intros n I; pose proof (height_obj l n I); lia) H1) as (s2 & t2 & C2 & (P2 & D2 & E2 & F2) & T2).
  destruct (close_ok s2 false (j_depth s) ltac:(lia) ltac:(lia) ltac:(lia)) as (s3 & w & C3 & W & P3 & D3 & F3).
  rewrite jcalls_app. cbn [jcalls jcall1]. rewrite O, jcalls_app, C2. cbn [jcalls jcall1]. rewrite C3. exists s3. eexists. split; [|split].
  - f_equal. f_equal. rewrite <- !app_assoc. reflexivity.
  - cbn [denote]. fold (denote_members l). rewrite app_nil_r. rewrite !app_nil_l. destruct l as [|n l].
    + rewrite T2. now apply v_obj0.
    + destruct T2 as (t' & -> & El). unfold comma. rewrite D1, E1. cbn [Z.eqb]. rewrite app_nil_l, (app_assoc t'). apply v_obj. now apply members_ws.
  - unfold nextto. repeat split; try congruence. { rewrite F3, F2, Ed; lia. } intros e Le. rewrite F3, F2, F1; lia || reflexivity.
Qed.
Lemma prints_all : forall n, prints n.
Proof.
  fix IH 1. intros n. destruct n as [b|v|z|d|a|p|l|l].
  - apply (prints_scalar (NBool b) (fun key => CBool key b) (if b then str "true" else str "false")); [intros; split; reflexivity|reflexivity|]. destruct b; constructor.
  - apply (prints_scalar (NStr v) (fun key => CStr key v) ([34] ++ opt v ++ [34])); [intros; split; reflexivity|reflexivity|]. intros P. inversion P; subst. now apply value_str.
  - apply (prints_scalar (NInt z) (fun key => CInt key z) (fmt_d z)); [intros; split; reflexivity|reflexivity|]. intros P. inversion P; subst. cbn [denote]. apply v_num. now apply fmt_d_number.
  - apply (prints_scalar (NFloat d) (fun key => CFloat key d) (match d with Nan => fmt_f false 0 | Inf n => fmt_f n dbl_max | Fin n m => fmt_f n m end));
      [intros; split; reflexivity|reflexivity|].
    intros P. inversion P; subst; cbn [denote]; apply v_num.
    + apply (fmt_f_number false 0). split; [lia|]. now vm_compute.
    + apply (fmt_f_number n dbl_max). split; [|apply Z.le_refl]. now vm_compute.
    + now apply (fmt_f_number n m).
  - apply (prints_scalar (NIp a) (fun key => CIp key a) ([34] ++ opt a ++ [34])); [intros; split; reflexivity|reflexivity|]. intros P. inversion P; subst. now apply value_str.
  - apply (prints_scalar (NPrefix p) (fun key => CPrefix key p) (match p with Some (t, l) => [34] ++ t ++ [47] ++ fmt_d l ++ [34] | None => [34; 34] end));
      [intros; split; reflexivity|reflexivity|].
    intros P. inversion P; subst; cbn [denote]. { apply (value_str []). constructor. }
    change ([34] ++ t ++ [47] ++ fmt_d l ++ [34]) with ([34] ++ (t ++ ([47] ++ fmt_d l ++ [34]))). rewrite (app_assoc [47]), (app_assoc t). apply value_str.
    apply Forall_app. split; [assumption|]. constructor; [unfold plain; lia|]. now apply fmt_d_clean.
  - apply prints_arr. induction l as [|x l IHl]; constructor; [apply IH|exact IHl].
  - apply prints_obj. induction l as [|x l IHl]; cbn [map]; constructor; [apply IH|exact IHl].
Qed.

(** ** Whole documents *)
Lemma document_json pretty l : Forall (fun m => clean (fst m)) l -> Forall (fun m => printable (snd m) /\ (height (snd m) <= 14)%nat) l ->
  exists t, document pretty (calls_members l) = Some t /\ json_text t (JObj (denote_members l)).
Proof.
  intros FC FP. unfold document, mark_output. cbn [j_depth j_reset set_depth set_ent Z.eqb]. unfold set_ent. cbn [j_depth j_reset set_depth]. change ((0 <=? 0 + 1) && (0 + 1 <? maxdepth)) with true. cbn iota.
  set (s1 := mkJ _ _ _). assert (Ds : j_depth s1 = 1) by reflexivity.
  destruct (mems_ok l ltac:(clear; induction l; constructor; [apply prints_all|assumption]) FC s1 ltac:(rewrite Ds; unfold maxdepth; lia) ltac:(rewrite Ds; cbn; lia)) as (s2 & t2 & C2 & (P2 & D2 & E2 & F2) & T2).
  { intros n I. apply in_map_iff in I. destruct I as (m & <- & I). rewrite Forall_forall in FP. destruct (FP m I). rewrite Ds. unfold maxdepth. lia. }
  { apply Forall_forall. intros n I. apply in_map_iff in I. destruct I as (m & <- & I). rewrite Forall_forall in FP. now destruct (FP m I). }
  rewrite C2. assert (D : j_depth s2 = 1) by (rewrite D2; reflexivity). rewrite D. cbn [Z.eqb Pos.eqb]. change ((0 <=? 1) && (1 <? maxdepth)) with true. cbn iota.
  cbn [j_depth set_depth]. eexists. split; [reflexivity|]. unfold json_text.
  exists [], ([123] ++ (t2 ++ (if j_pretty s2 then [10] else [])) ++ [125]), [10]. split; [|split; [|split]].
  - unfold new_indent. cbn [j_depth j_reset set_depth Z.eqb Z.sub Z.add Z.opp Z.pos_sub Pos.pred_double]. cbn [j_pretty set_depth]. rewrite !app_nil_l. rewrite <- !app_assoc. reflexivity.
  - constructor.
  - assert (W : ws (if j_pretty s2 then [10] else [])) by (destruct (j_pretty s2); [constructor; [lia|constructor]|constructor]). destruct l as [|m l].
    + rewrite T2. now apply v_obj0.
    + destruct T2 as (t' & -> & M). change (comma s1) with (@nil Z). apply v_obj. now apply members_ws.
  - constructor; [lia|constructor].
Qed.

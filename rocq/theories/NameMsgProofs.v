From Coq Require Import String Permutation.
From Verif Require Import Base Bytes NetBuf Parser ParserProofs Compare CompareProofs SecureProofs Regex NameSvc NameSvcSpec NameSvcProofs.

Lemma lor3 a : Z.lor a 3 = a / 4 * 4 + 3.
Proof.
  apply Z.bits_inj'. intros n Hn. rewrite Z.lor_spec. destruct (Z.lt_ge_cases n 2) as [L|L].
  - rewrite <- (Z.mod_pow2_bits_low (a / 4 * 4 + 3) 2 n) by lia. change (2 ^ 2) with 4. replace ((a / 4 * 4 + 3) mod 4) with 3 by lia.
    assert (E : n = 0 \/ n = 1) by lia. destruct E as [-> | ->]; cbn; now rewrite orb_true_r.
  - replace n with (n - 2 + 2) by lia. rewrite <- !(Z.div_pow2_bits _ 2 (n - 2)) by lia. change (2 ^ 2) with 4. replace ((a / 4 * 4 + 3) / 4) with (a / 4) by lia.
    change (3 / 4) with 0. rewrite Z.bits_0. now rewrite orb_false_r.
Qed.
Lemma step_len n : 1 + Z.lor (n - 1) 3 = n + - n mod 4.
Proof. rewrite lor3. lia. Qed.
Lemma be_net16 n : 0 <= n < 65536 -> be (net16 n) = n.
Proof. intros H. unfold net16, be. cbn [fold_left]. unfold u16. lia. Qed.

(** processing of an entry without the memory it is in *)
Definition refused (c : ncf) (e : nent) : bool :=
  malformed c (n_type e) (n_name e) || (n_len e >? MAXNAME) || oneof (n_name e) 92 || oneof (n_name e) 39.
Definition put (c : ncf) (e : nent) (l : list nent) : list nent * bool :=
  if refused c e then (l, false)
  else match known c (n_type e) (n_len e) (n_ip e) (n_name e) l with Some r => r | None => (e :: l, true) end.
Lemma rd16_is m pre n post p : m = pre ++ net16 n ++ post -> p = blen pre -> 0 <= n < 65536 -> rd16 m p = Some n.
Proof. intros E P N. unfold rd16. rewrite (rdn_is m pre (net16 n) post p 2 E P eq_refl). cbn [option_map]. now rewrite be_net16. Qed.
Lemma decap_entry c m p pre typ ip name tail r l : m = pre ++ net16 typ ++ net16 (blen name) ++ ip ++ name ++ tail -> p = blen pre -> 0 <= typ < 65536 -> blen ip = 16 ->
  blen name < 65536 -> ~ In 0 name -> tail = 0 :: r -> decap c m p l = Some (put c (mkN ip typ (blen name) name) l).
Proof.
  intros E P T I L N R. pose proof (blen_nonneg name). pose proof (blen_nonneg pre).
  assert (E1 : rd16 m p = Some typ) by (now apply (rd16_is m pre typ (net16 (blen name) ++ ip ++ name ++ tail))).
  assert (E2 : rd16 m (p + 2) = Some (blen name)). { apply (rd16_is m (pre ++ net16 typ) (blen name) (ip ++ name ++ tail)); [now rewrite E, <- app_assoc|rewrite blen_app, blen_net16; lia|lia]. }
  assert (E3 : rdn m (p + 4) 16 = Some ip). { apply (rdn_is m (pre ++ net16 typ ++ net16 (blen name)) ip (name ++ tail)); [now rewrite E, <- !app_assoc|rewrite !blen_app, !blen_net16; lia|lia]. }
  assert (E4 : str_at m (p + 20) = Some name).
  { unfold str_at. assert (Lm : blen m = blen pre + 20 + blen name + blen tail) by (rewrite E, !blen_app, !blen_net16; lia). pose proof (blen_nonneg tail).
    replace ((0 <=? p + 20) && (p + 20 <=? blen m)) with true by lia. replace (Z.to_nat (p + 20)) with (length (pre ++ net16 typ ++ net16 (blen name) ++ ip)).
    - replace m with ((pre ++ net16 typ ++ net16 (blen name) ++ ip) ++ name ++ tail) by (rewrite E, <- !app_assoc; reflexivity). rewrite skipn_app, skipn_all, Nat.sub_diag. cbn [app skipn]. rewrite R. now apply cstr_app.
    - rewrite !app_length. unfold blen in *. cbn [length net16]. lia. }
  unfold decap, put, refused. cbn [n_type n_len n_name n_ip]. rewrite E1, E2, E3, E4. rewrite Z.eqb_refl. cbn [negb].
  destruct (malformed c typ name) eqn:M; cbn [orb].
  - destruct ((typ =? FORWARDER) && (blen name >? MAXNAME)); reflexivity.
  - rewrite orb_false_r. destruct (blen name >? MAXNAME) eqn:B; cbn [orb].
    + rewrite andb_true_r. destruct (typ =? FORWARDER); reflexivity.
    + rewrite andb_false_r. destruct (oneof name 92 || oneof name 39); [reflexivity|]. destruct (known c typ (blen name) ip name l) as [[? ?]|]; reflexivity.
Qed.
Fixpoint into_e (c : ncf) (e : nent) (orig : list Z) (vt : Z) (t : list dbent) : list dbent * bool * bool :=
  match t with
  | [] => ([], false, false)
  | d :: t' =>
      let '(r, f, ch) := into_e c e orig vt t' in
      if ipeq c orig (d_orig d) then let (ns, ch1) := put c e (d_names d) in (mkD (d_orig d) vt ns :: r, true, ch1 || ch) else (d :: r, f, ch)
  end.
Definition insert_e (c : ncf) (e : nent) (orig : list Z) (vt : Z) (t : list dbent) : list dbent * bool :=
  let '(t', f, ch) := into_e c e orig vt t in
  if f then (t', ch) else let (ns, ch2) := put c e [] in (t' ++ [mkD orig vt ns], ch || ch2).
Definition step_e (c : ncf) (orig : list Z) (vt : Z) (e : nent) (st : nst) : nst :=
  let typ := n_type e in
  if (0 <=? typ) && (typ <=? 4) then let (t, ch) := insert_e c e orig vt (tab st typ) in mkS (upd (tab st) typ t) (upd (chg st) typ (chg st typ || ch)) else st.
Definition steps (c : ncf) (orig : list Z) (vt : Z) (es : list nent) (st : nst) : nst := fold_left (fun s e => step_e c orig vt e s) es st.
Lemma into_entry c m p e orig vt : (forall l, decap c m p l = Some (put c e l)) -> forall t, into c m p orig vt t = Some (into_e c e orig vt t).
Proof.
  intros D. induction t as [|d t IH]; cbn [into into_e]; [reflexivity|]. rewrite IH. destruct (into_e c e orig vt t) as [[r f] ch].
  destruct (ipeq c orig (d_orig d)); [|reflexivity]. rewrite D. destruct (put c e (d_names d)); reflexivity.
Qed.
Lemma insert_entry c m p e orig vt t : (forall l, decap c m p l = Some (put c e l)) -> insert_name c m p orig vt t = Some (insert_e c e orig vt t).
Proof.
  intros D. unfold insert_name, insert_e. rewrite (into_entry c m p e orig vt D). destruct (into_e c e orig vt t) as [[r f] ch]. destruct f; [reflexivity|].
  rewrite D. destruct (put c e []); reflexivity.
Qed.
Lemma loop_listed c orig vt body es : listed body es -> forall m pre post pos endp st, m = pre ++ body ++ post -> pos = blen pre -> blen pre + blen body - 20 < endp ->
  names_loop c m orig vt (length es) pos endp st = Some (steps c orig vt es st).
Proof.
  induction 1 as [tail|typ ip name pad rest es T I L N Pd (r & R) Ls IH]; intros m pre post pos endp st E P Q; [reflexivity|].
  cbn [length names_loop]. pose proof (blen_nonneg name). pose proof (blen_nonneg rest). pose proof (blen_nonneg pre). pose proof (blen_nonneg pad).
  rewrite !blen_app, !blen_net16 in Q. replace (pos <? endp) with true by lia.
  assert (E' : m = pre ++ net16 typ ++ net16 (blen name) ++ ip ++ name ++ (pad ++ rest ++ post)) by (rewrite E, <- !app_assoc; reflexivity).
  rewrite (rd16_is m pre typ (net16 (blen name) ++ ip ++ name ++ pad ++ rest ++ post) pos E' P T).
  assert (D : forall l, decap c m pos l = Some (put c (mkN ip typ (blen name) name) l)).
  { intros l. apply (decap_entry c m pos pre typ ip name (pad ++ rest ++ post) (r ++ post)); try assumption. rewrite app_assoc, R. reflexivity. }
  rewrite (rd16_is m (pre ++ net16 typ) (blen name) (ip ++ name ++ pad ++ rest ++ post) (pos + 2)); [|now rewrite E', <- app_assoc|rewrite blen_app, blen_net16; lia|lia].
  rewrite step_len. unfold steps. cbn [fold_left]. unfold step_e at 2. cbn [n_type].
  assert (X : forall st', names_loop c m orig vt (length es) (pos + 20 + (blen name + - blen name mod 4)) endp st' = Some (steps c orig vt es st')).
  { intros st'. apply (IH m (pre ++ net16 typ ++ net16 (blen name) ++ ip ++ name ++ pad) post).
    - rewrite E', <- !app_assoc. reflexivity.
    - rewrite !blen_app, !blen_net16. lia.
    - rewrite !blen_app, !blen_net16. lia. }
  destruct ((0 <=? typ) && (typ <=? 4)).
  - rewrite (insert_entry c m pos _ orig vt (tab st typ) D). destruct (insert_e _ _ _ _ _) as [t ch]. rewrite X. reflexivity.
  - rewrite X. reflexivity.
Qed.
(** the position of the end that is used lies after the message *)
Lemma parser_msg c junk vtime sym orig msg es m pre post p st vt0 : name_msg c orig msg es -> rd8 msg 1 = Some vt0 -> m = pre ++ msg ++ post -> p = blen pre -> 4 <= f_ptr c <= 8 ->
  ns_parser c junk vtime sym m p st =
  Some (if bytes_eqb orig (f_main c) then (st, false) else if negb sym then (st, false) else (steps c (in_union c orig junk) (vtime vt0) es st, true)).
Proof.
  intros (typ & vt & ttl & hops & seq & body & E & Lm & Lo & Lq & Le & Ls) V Em P Hp. pose proof (blen_nonneg pre). pose proof (blen_nonneg body).
  assert (Si : ipsize c = 4 \/ ipsize c = 16) by (unfold ipsize; destruct (f_v6 c); auto).
  assert (Lmsg : blen msg = 12 + ipsize c + blen body). { rewrite E. rewrite !blen_app, !blen_net16. change (blen [typ; vt]) with 2. change (blen [ttl; hops]) with 2. lia. }
  assert (Vv : vt0 = vt). { unfold rd8 in V. rewrite (rdn_is msg [typ] [vt] (net16 (blen msg) ++ orig ++ [ttl; hops] ++ seq ++ net16 1 ++ net16 (Z.of_nat (length es)) ++ body) 1 1) in V; [|exact E|reflexivity|reflexivity]. cbn in V. now apply Some_inj in V. } subst vt0.
  set (n := blen msg) in *. clearbody n. 
  assert (Em' : m = pre ++ ([typ; vt] ++ net16 n ++ orig ++ [ttl; hops] ++ seq ++ net16 1 ++ net16 (Z.of_nat (length es)) ++ body) ++ post) by (rewrite Em, E; reflexivity). clear Em E. 
  unfold ns_parser.
  assert (E1 : rd8 m (p + 1) = Some vt).
  { unfold rd8. rewrite (rdn_is m (pre ++ [typ]) [vt] ((net16 n ++ orig ++ [ttl; hops] ++ seq ++ net16 1 ++ net16 (Z.of_nat (length es)) ++ body) ++ post) (p + 1) 1).
    - cbn. f_equal.
    - rewrite Em'. rewrite <- !app_assoc. reflexivity.
    - rewrite blen_app. change (blen [typ]) with 1. lia.
    - reflexivity. }
  rewrite E1. rewrite (rd16_is m (pre ++ [typ; vt]) n ((orig ++ [ttl; hops] ++ seq ++ net16 1 ++ net16 (Z.of_nat (length es)) ++ body) ++ post) (p + 2));
    [|rewrite Em', <- !app_assoc; reflexivity|rewrite blen_app; change (blen [typ; vt]) with 2; lia|lia].
  rewrite (rdn_is m (pre ++ [typ; vt] ++ net16 n) orig (([ttl; hops] ++ seq ++ net16 1 ++ net16 (Z.of_nat (length es)) ++ body) ++ post) (p + 4));
    [|rewrite Em', <- !app_assoc; reflexivity|rewrite !blen_app, blen_net16; change (blen [typ; vt]) with 2; lia|lia].
  destruct (bytes_eqb orig (f_main c)); [reflexivity|]. destruct (negb sym); [reflexivity|]. unfold update_names.
  rewrite (rd16_is m (pre ++ [typ; vt] ++ net16 n ++ orig ++ [ttl; hops] ++ seq) 1 ((net16 (Z.of_nat (length es)) ++ body) ++ post) (p + 8 + ipsize c));
    [|rewrite Em', <- !app_assoc; reflexivity|rewrite !blen_app, blen_net16; change (blen [typ; vt]) with 2; change (blen [ttl; hops]) with 2; lia|lia].
  change (negb (1 =? 1)) with false. cbv iota.
  rewrite (rd16_is m (pre ++ [typ; vt] ++ net16 n ++ orig ++ [ttl; hops] ++ seq ++ net16 1) (Z.of_nat (length es)) (body ++ post) (p + 8 + ipsize c + 2));
    [|rewrite Em', <- !app_assoc; reflexivity|rewrite !blen_app, !blen_net16; change (blen [typ; vt]) with 2; change (blen [ttl; hops]) with 2; lia|lia].
  rewrite Nat2Z.id. rewrite (loop_listed c (in_union c orig junk) (vtime vt) body es Ls m (pre ++ [typ; vt] ++ net16 n ++ orig ++ [ttl; hops] ++ seq ++ net16 1 ++ net16 (Z.of_nat (length es))) post).
  - reflexivity.
  - rewrite Em', <- !app_assoc. reflexivity.
  - rewrite !blen_app, !blen_net16. change (blen [typ; vt]) with 2. change (blen [ttl; hops]) with 2. lia.
  - rewrite !blen_app, !blen_net16. change (blen [typ; vt]) with 2. change (blen [ttl; hops]) with 2. lia.
Qed.

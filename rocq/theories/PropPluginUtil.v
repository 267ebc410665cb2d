(** C144: the values of plugin parameters; C145: the loading of plugins *)
From Coq Require Import String.
From Verif Require Import Base Regex Strings StringsSpec StringsProofs PluginUtil PluginUtilSpec PluginUtilProofs.
Local Open Scope Z_scope.

(** a value that is a number in the range of ports is that port *)
Theorem C144_port : forall s v, denotes s v -> 0 <= v <= 65535 -> set_port s = Some v.
Proof.
  intros s v D R. destruct (scan_denotes s v D) as (neg & n & E & -> & N). unfold set_port. rewrite E.
  destruct neg.
  - assert (n = 0) by lia. subst n. reflexivity.
  - unfold to_ulong. replace (n >? 2 ^ 64 - 1) with false by lia. replace (u32 n) with n by (unfold u32; lia).
    replace (n >? 65535) with false by lia. reflexivity.
Qed.
Print Assumptions C144_port.
Example C144_port_ex : denotes (str " 0x1F90") 8080 /\ set_port (str " 0x1F90") = Some 8080.
Proof.
  split; [|reflexivity].
  change (str " 0x1F90") with ([32] ++ [48; 120; 49; 70; 57; 48]). apply t_plain; [repeat constructor; left; reflexivity|].
  apply (body_spec [48; 120; 49; 70; 57; 48] 8080). vm_compute. reflexivity.
Qed.

(** what is taken for a port is a number; missing: numbers of 2^32 and more *)
Theorem C144_port_only_partial : forall s p, set_port s = Some p -> exists v, denotes s v /\
  (- 2 ^ 32 + 65535 < v < 2 ^ 32 -> p = v /\ 0 <= v <= 65535).
Proof.
  intros s p. unfold set_port. destruct (scan_num s) as [[[neg n] [|]]|] eqn:E; try discriminate.
  destruct (u32 (to_ulong neg n) >? 65535) eqn:G; [discriminate|]. intros H. apply Some_inj in H.
  destruct (scan_spec s neg n E) as [D N]. exists (if neg then - n else n). split; [exact D|]. intros R.
  unfold to_ulong in *. replace (n >? 2 ^ 64 - 1) with false in * by (destruct neg; lia). destruct neg.
  - unfold u32 in *. lia.
  - unfold u32 in *. lia.
Qed.
Print Assumptions C144_port_only_partial.
Example C144_port_only_ex : set_port (str "-70000") = None /\ set_port (str "80 ") = None /\ set_port (str "") = None /\ set_port (str "65536") = None.
Proof. repeat split; reflexivity. Qed.
Theorem C144_port_refuted : exists s v p, denotes s v /\ v > 65535 /\ set_port s = Some p.
Proof.
  exists (str "4294967376"), 4294967376, 80. split; [|split; [lia|reflexivity]].
  change (str "4294967376") with ([] ++ str "4294967376"). apply t_plain; [constructor|]. apply (body_spec (str "4294967376")). vm_compute. reflexivity.
Qed.
Print Assumptions C144_port_refuted.

(** a number that fits into an int or a long is stored as it is *)
Theorem C144_int : forall s v, denotes s v -> - 2 ^ 31 <= v < 2 ^ 31 -> set_int s = Some v /\ set_long s = Some v.
Proof.
  intros s v D R. destruct (scan_denotes s v D) as (neg & n & E & -> & N). unfold set_int, set_long. rewrite E.
  assert (L : to_long neg n = if neg then - n else n).
  { unfold to_long. destruct neg; [replace (n >? 2 ^ 63) with false by lia|replace (n >? 2 ^ 63 - 1) with false by lia]; reflexivity. }
  rewrite L. split; [|reflexivity]. f_equal. unfold to_int. destruct neg; lia.
Qed.
Print Assumptions C144_int.
Theorem C144_long : forall s v, denotes s v -> - 2 ^ 63 <= v < 2 ^ 63 -> set_long s = Some v.
Proof.
  intros s v D R. destruct (scan_denotes s v D) as (neg & n & E & -> & N). unfold set_long. rewrite E. f_equal.
  unfold to_long. destruct neg; [replace (n >? 2 ^ 63) with false by lia|replace (n >? 2 ^ 63 - 1) with false by lia]; reflexivity.
Qed.
Print Assumptions C144_long.
Example C144_int_ex : denotes (str "-017") (-15) /\ set_int (str "-017") = Some (-15).
Proof.
  split; [|reflexivity]. change (str "-017") with ([] ++ 45 :: [48; 49; 55]). apply (t_minus [] [48; 49; 55] 15); [constructor|].
  apply (body_spec [48; 49; 55]). reflexivity.
Qed.
(** whatever is not a number is refused *)
Theorem C144_number : forall s, (exists x, set_int s = Some x) <-> exists v, denotes s v.
Proof.
  intros s. unfold set_int. split.
  - intros (x & H). destruct (scan_num s) as [[[neg n] [|]]|] eqn:E; try discriminate. eexists. exact (proj1 (scan_spec s neg n E)).
  - intros (v & D). destruct (scan_denotes s v D) as (neg & n & E & _). rewrite E. eexists. reflexivity.
Qed.
Print Assumptions C144_number.
Example C144_number_ex : set_int (str "12a") = None /\ set_int (str "0x") = None /\ set_int (str "08") = None /\ set_int (str "0") = Some 0.
Proof. repeat split; reflexivity. Qed.
(** a number that does not fit is not refused: another one is stored *)
Theorem C144_int_refuted : exists s v x, denotes s v /\ v > 0 /\ set_int s = Some x /\ x <= 0 /\ exists s' v' x', denotes s' v' /\ set_long s' = Some x' /\ x' <> v'.
Proof.
  exists (str "4294967296"), 4294967296, 0. repeat split; try lia.
  - change (str "4294967296") with ([] ++ str "4294967296"). apply t_plain; [constructor|]. apply (body_spec (str "4294967296")). vm_compute. reflexivity.
  - exists (str "9223372036854775808"), 9223372036854775808, 9223372036854775807. split; [|split; [reflexivity|lia]].
    change (str "9223372036854775808") with ([] ++ str "9223372036854775808"). apply t_plain; [constructor|]. apply (body_spec (str "9223372036854775808")). vm_compute. reflexivity.
Qed.
Print Assumptions C144_int_refuted.

(** the words for yes and no, in any case, and no others *)
Theorem C144_boolean : forall s b, set_boolean s = Some b <->
  (b = true /\ (same_word s [121; 101; 115] \/ same_word s [116; 114; 117; 101])) \/
  (b = false /\ (same_word s [110; 111] \/ same_word s [102; 97; 108; 115; 101])).
Proof.
  intros s b. unfold set_boolean. change (str "yes") with [121; 101; 115]. change (str "true") with [116; 114; 117; 101].
  change (str "no") with [110; 111]. change (str "false") with [102; 97; 108; 115; 101]. rewrite <- !caseeq_spec.
  assert (X : forall w1 w2, length w1 <> length w2 -> caseeq s w1 = true -> caseeq s w2 = true -> False).
  { intros w1 w2 L A B. apply caseeq_spec in A, B. unfold same_word in *.
    assert (G : forall x y, Forall2 same_letter x y -> length x = length y) by (intros x y F; induction F; cbn [length]; lia).
    apply G in A, B. lia. }
  assert (Y : forall c d w1 w2, ~ (exists x, same_letter x c /\ same_letter x d) -> caseeq s (c :: w1) = true -> caseeq s (d :: w2) = true -> False).
  { intros c d w1 w2 L A B. apply caseeq_spec in A, B. inversion A; subst. inversion B; subst. apply L. eexists. split; eassumption. }
  assert (N1 : ~ (exists x, same_letter x 121 /\ same_letter x 110)) by (intros (x & A & B); unfold same_letter in *; lia).
  assert (N2 : ~ (exists x, same_letter x 121 /\ same_letter x 102)) by (intros (x & A & B); unfold same_letter in *; lia).
  assert (N3 : ~ (exists x, same_letter x 116 /\ same_letter x 110)) by (intros (x & A & B); unfold same_letter in *; lia).
  assert (N4 : ~ (exists x, same_letter x 116 /\ same_letter x 102)) by (intros (x & A & B); unfold same_letter in *; lia).
  destruct (caseeq s [121; 101; 115]) eqn:E1, (caseeq s [116; 114; 117; 101]) eqn:E2, (caseeq s [110; 111]) eqn:E3, (caseeq s [102; 97; 108; 115; 101]) eqn:E4;
    cbn [orb]; try (exfalso; eauto; fail); (split; [intros H; try discriminate; apply Some_inj in H; subst b; tauto|]); intros [[-> [H|H]]|[-> [H|H]]]; try discriminate; try reflexivity; exfalso; eauto.
Qed.
Print Assumptions C144_boolean.
Example C144_boolean_ex : same_word (str "YeS") [121; 101; 115] /\ set_boolean (str "YeS") = Some true /\ set_boolean (str "1") = None.
Proof. repeat split. apply caseeq_spec. reflexivity. Qed.

(** a string is taken if it fits with its end, and then is what lies in the
    memory; nothing behind [size] is written *)
Theorem C144_string : forall v size s, is_str s -> 0 <= size <= Z.of_nat (length v) -> size < 2 ^ 32 -> Z.of_nat (length s) < 2 ^ 32 ->
  (Z.of_nat (length s) < size -> exists d, set_string v size s = Some (Some d) /\ length d = length v /\ cstr d = Some s /\
      skipn (Z.to_nat size) d = skipn (Z.to_nat size) v) /\
  (size <= Z.of_nat (length s) -> set_string v size s = Some None).
Proof.
  intros v size s I R S32 L. unfold set_string. replace (u32 (Z.of_nat (length s))) with (Z.of_nat (length s)) by (unfold u32; lia). split.
  - intros H. replace (Z.of_nat (length s) >=? size) with false by lia.
    destruct (strscpy_spec v s size I ltac:(lia)) as (d & -> & D1 & D2 & D3 & _). exists d. repeat split; [exact D1| |exact D3].
    rewrite D2. f_equal. apply firstn_all2. lia.
  - intros H. replace (Z.of_nat (length s) >=? size) with true by lia. reflexivity.
Qed.
Print Assumptions C144_string.
Example C144_string_ex : set_string [9; 9; 9; 9; 9] 4 [97; 98; 99] = Some (Some [97; 98; 99; 0; 9]) /\ set_string [9; 9; 9; 9; 9] 3 [97; 98; 99] = Some None.
Proof. split; reflexivity. Qed.

(** olsrd goes on exactly when every plugin of the configuration can be used and
    takes its parameters; then each got its own parameters, in order, and was
    initialized once after them, in the order of the configuration *)
Theorem C145_loaded : forall fs conf cs, load_plugins fs conf = (cs, true) <-> loads fs conf cs.
Proof. exact load_spec. Qed.
Print Assumptions C145_loaded.
Definition ex_lib : shlib := mkLib true (Some 5) true (Some [str "port"; str "Accept"; str ""]) (fun i _ v => match i with O => if set_port v then 0 else 1 | _ => 0 end) 1.
Definition ex_fs (n : list Z) : shlib := if caseeq n (str "a.so") then ex_lib else mkLib false None false None (fun _ _ _ => 0) 0.
Definition ex_plconf : list (list Z * list (list Z * list Z)) :=
  [(str "a.so", [(str "PORT", str "80"); (str "accept", str "10.0.0.1"); (str "other", str "x")]); (str "a.so", [])].
Example C145_loaded_ex : loads ex_fs ex_plconf
  [CSet (str "a.so") 0 (str "PORT") (str "80"); CSet (str "a.so") 1 (str "accept") (str "10.0.0.1"); CSet (str "a.so") 2 (str "other") (str "x");
   CInit (str "a.so"); CInit (str "a.so")].
Proof. apply C145_loaded. reflexivity. Qed.

(** one plugin that is missing or refuses a value stops olsrd *)
Theorem C145_refused : forall fs conf name params names k v i, In (name, params) conf -> In (k, v) params ->
  (l_open (fs name) = false \/ (l_params (fs name) = Some names /\ entry_for names k i /\ l_set (fs name) i k v <> 0)) ->
  snd (load_plugins fs conf) = false.
Proof.
  intros fs conf name params names k v i Hc Hp Hbad. destruct (load_plugins fs conf) as [cs ok] eqn:E. destruct ok; [|reflexivity].
  exfalso. apply C145_loaded in E. induction E as [|nm ps nms c1 r cr U S1 Lo IH]; [contradiction|].
  destruct Hc as [Hc|Hc]; [|exact (IH Hc)]. inversion Hc; subst nm ps. destruct U as (O & _ & _ & P). destruct Hbad as [Hbad|(P2 & En & Hs)]; [congruence|].
  rewrite P in P2. apply Some_inj in P2. subst nms. clear IH Hc Lo. induction S1 as [|k' v' i' r' cs' E' Z' S' IH|k' v' r' cs' N' NE S' IH]; [contradiction| |].
  - destruct Hp as [Hp|Hp]; [|exact (IH Hp)]. inversion Hp; subst k' v'. apply find0_spec in E', En. rewrite E' in En. apply Some_inj in En. subst i'. contradiction.
  - destruct Hp as [Hp|Hp]; [|exact (IH Hp)]. inversion Hp; subst k' v'. exact (N' i En).
Qed.
Print Assumptions C145_refused.
Example C145_refused_ex : snd (load_plugins ex_fs [(str "a.so", [(str "port", str "http")])]) = false.
Proof. reflexivity. Qed.

(** a parameter that the plugin does not know, a slip of the pen, stops nothing *)
Theorem C145_unknown_refuted : exists fs conf name k v, In (name, [(k, v)]) conf /\ snd (load_plugins fs conf) = true /\
  forall i, ~ In (CSet name i k v) (fst (load_plugins fs conf)).
Proof.
  exists (fun _ => mkLib true (Some 5) true (Some [str "port"]) (fun _ _ _ => 0) 1), [(str "a.so", [(str "prot", str "80")])], (str "a.so"), (str "prot"), (str "80").
  repeat split; [now left|]. intros i [H|[]]. discriminate.
Qed.
Print Assumptions C145_unknown_refuted.

(** a plugin is initialized although it refused one of its parameters *)
Theorem C145_initialized_refuted : exists fs conf name, snd (load_plugins fs conf) = false /\ (exists k v, In (name, [(k, v)]) conf /\ l_set (fs name) 0 k v <> 0) /\
  In (CInit name) (fst (load_plugins fs conf)).
Proof.
  exists ex_fs, [(str "a.so", [(str "port", str "http")])], (str "a.so"). repeat split.
  - exists (str "port"), (str "http"). split; [now left|]. vm_compute. discriminate.
  - vm_compute. right. now left.
Qed.
Print Assumptions C145_initialized_refuted.

(** and olsrd goes on with a plugin whose initialization failed *)
Theorem C145_init_refuted : exists fs conf name, l_initrc (fs name) = 0 /\ In (name, []) conf /\ snd (load_plugins fs conf) = true.
Proof.
  exists (fun _ => mkLib true (Some 5) true (Some [str "port"]) (fun _ _ _ => 0) 0), [(str "a.so", [])], (str "a.so"). repeat split. now left.
Qed.
Print Assumptions C145_init_refuted.

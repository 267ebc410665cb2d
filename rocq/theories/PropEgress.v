(** Theorems about the egress file (src/egressFile.c). *)
From Coq Require Import String.
From Verif Require Import Base Regex GwSpeed Egress JsonSpec EgressSpec EgressProofs EgressRunProofs.

(** values for the examples *)
Definition ex_w : gwcfg := mkGc 1 1 1 5 2560.
Definition no6 (_ : list Z) : option (list Z) := None.
Definition ex_if (name : list Z) : eif := mkE name 2 true (bw_clear ex_w true) (bw_clear ex_w true) false false false false false.
Definition ex_st : est := mkS (0, 0) false [ex_if (str "eth0"); ex_if (str "ppp0")].
Definition ex_line : list Z := str "eth0 = 1,0, 1000,2000,5, 192.168.7.9/24,192.168.7.1".
Definition ex_file : list Z := (str "# uplinks" ++ [10]) ++ (ex_line ++ [13; 10]) ++ str "wlan0=1,1,5,5".

(** ** C111 *)
(** The regular expression accepts the lines which are written as documented, and the
    submatches are the fields. *)
Theorem C111_syntax l : (matches rx_egress l = true <-> exists g, egress_line l g) /\ (forall g, egress_groups l = Some g <-> egress_line l g).
Proof.
  split; [apply regex_line|]. intros g. split; [apply egress_groups_inv|apply egress_groups_ok].
Qed.
Print Assumptions C111_syntax.
Example C111_syntax_ex : exists g, egress_line ex_line g /\ g_name g = str "eth0" /\ g_net g = Some (Some (str "192.168.7.9", str "24")) /\ g_gw g = Some (str "192.168.7.1").
Proof. eexists. split; [apply C111_syntax; vm_compute; reflexivity|]. repeat split. Qed.

(** When the file has a new time then every interface gets what the last line for it
    gives, and nothing when there is no such line.  Partial: lines shorter than 255
    characters, not indented, without zero bytes; interfaces with different names. *)
Theorem C111_read_partial w p6 s t content ls : text ls content -> Forall plain ls -> s_time s <> t -> NoDup (map e_name (s_ifs s)) ->
  length (s_ifs (fst (fst (readEgressFile w p6 s (File t content))))) = length (s_ifs s) /\
  forall i e e', nth_error (s_ifs s) i = Some e -> nth_error (s_ifs (fst (fst (readEgressFile w p6 s (File t content))))) i = Some e' ->
    e_name e' = e_name e /\ e_index e' = e_index e /\ e_up e' = e_up e /\ e_prev e' = e_cur e /\
    (forall v, last_gives (e_name e) v ls -> bandwidth w (e_up e) (Some v) (e_cur e')) /\
    ((forall l v, In l ls -> ~ gives (e_name e) v l) -> bandwidth w (e_up e) None (e_cur e')).
Proof.
  intros T P Nt Nd. unfold readEgressFile. assert (Te : time_eqb (s_time s) t = false).
  { unfold time_eqb. destruct (s_time s) as [a b], t as [c d]. cbn [fst snd]. destruct (Z.eqb_spec a c), (Z.eqb_spec b d); cbn [andb]; try reflexivity. congruence. }
  rewrite Te. assert (Nd' : NoDup (map e_name (map clear_if (s_ifs s)))) by (rewrite map_map; exact Nd).
  pose proof (read_lines_map w p6 (file_lines content) _ Nd') as R. destruct (read_lines w p6 (file_lines content) (map clear_if (s_ifs s))) as [es err]. cbn [fst] in R.
  unfold outerror. cbn [fst s_ifs]. subst es. rewrite !map_length. split; [reflexivity|].
  intros i e e' E E'. rewrite !nth_error_map, E in E'. cbn [option_map] in E'. apply Some_inj in E'. unfold file_lines in E'. rewrite (text_rounds ls content T P) in E' by lia.
  set (x := fold_left (fun e l => step w p6 l e) ls (clear_if e)) in *. pose proof (steps_fields w p6 ls (clear_if e)) as Fx. fold x in Fx. unfold fields_of in Fx. cbn [clear_if e_name e_index e_up e_prev] in Fx. inversion Fx as [[F1 F2 F3 F4]].
  subst e'. unfold finish_if. cbn [e_name e_index e_up e_prev e_cur]. rewrite F1, F2, F3, F4. repeat (split; [reflexivity|]). split.
  - intros v L. destruct (steps_last w p6 ls v P (clear_if e) L) as [I C]. fold x in I, C. rewrite I, C. cbn [clear_if e_up].
    destruct L as (pre & l & post & _ & G & _). destruct (gives_range _ _ _ G) as (R1 & R2). apply of_bandwidth; lia.
  - intros N. assert (X : x = clear_if e) by (apply steps_none; [exact P|exact N]). rewrite X. cbn [clear_if e_in]. now apply clear_bandwidth.
Qed.
Print Assumptions C111_read_partial.
Definition ex_vals : vals := mkV true false 1000 2000 5 (Some (3232237312, 24)) (Some 3232237313).
Lemma ex_text : text [str "# uplinks"; ex_line ++ [13]; str "wlan0=1,1,5,5"] ex_file.
Proof.
  unfold ex_file. rewrite <- !app_assoc. change ([10] ++ ?x) with (10 :: x). apply (t_cons (str "# uplinks")). change ([13; 10] ++ ?x) with ([13] ++ 10 :: x). rewrite app_assoc.
  apply (t_cons (ex_line ++ [13])). apply t_last. discriminate.
Qed.
Lemma plain_dec l : (length l <? 255)%nat && forallb (fun c => negb (c =? 0) && negb (c =? 10)) l && match l with c :: _ => negb (spacec c) | [] => false end = true -> plain l.
Proof.
  intros H. apply andb_prop in H. destruct H as [H H3]. apply andb_prop in H. destruct H as [H1 H2]. split; [now apply Nat.ltb_lt|]. split.
  - rewrite forallb_forall in H2. apply Forall_forall. intros c Hc. specialize (H2 c Hc). lia.
  - right. destruct l as [|c r]; [discriminate|]. exists c, r. split; [reflexivity|]. intros B. apply spacec_ok in B. rewrite B in H3. discriminate.
Qed.
Lemma plain_ex : Forall plain [str "# uplinks"; ex_line ++ [13]; str "wlan0=1,1,5,5"].
Proof. repeat (apply Forall_cons; [apply plain_dec; vm_compute; reflexivity|]). constructor. Qed.
Example C111_read_ex : exists e', nth_error (s_ifs (fst (fst (readEgressFile ex_w no6 ex_st (File (7, 7) ex_file))))) 0 = Some e' /\
  bandwidth ex_w true (Some ex_vals) (e_cur e') /\ b_up (e_cur e') = 1000 /\ b_net (e_cur e') = Some (3232237312, 24).
Proof.
  destruct (readEgressFile ex_w no6 ex_st (File (7, 7) ex_file)) as [[s r] o] eqn:E.
  destruct (C111_read_partial ex_w no6 ex_st (7, 7) ex_file _ ex_text plain_ex) as [L H]; [discriminate| |].
  { repeat constructor; cbn; intros X; [destruct X as [X|[]]; discriminate|exact X]. }
  rewrite E in *. cbn [fst] in *. destruct (nth_error (s_ifs s) 0) as [e'|] eqn:Ee; [|apply nth_error_None in Ee; cbn in L; lia].
  exists e'. split; [reflexivity|]. destruct (H 0%nat _ _ eq_refl Ee) as (_ & _ & _ & _ & B & _).
  assert (G : gives (str "eth0") ex_vals (ex_line ++ [13])).
  { apply (line_val_ok no6); [|vm_compute; reflexivity]. pose proof plain_ex as P. inversion P as [|? ? _ P2]. now inversion P2. }
  specialize (B ex_vals). split.
  - apply B. exists [str "# uplinks"], (ex_line ++ [13]), [str "wlan0=1,1,5,5"]. split; [reflexivity|]. split; [exact G|].
    intros l' v' [<-|[]] X. apply (line_val_ok no6) in X; [|apply plain_dec; vm_compute; reflexivity]. vm_compute in X. discriminate.
  - assert (BB : bandwidth ex_w true (Some ex_vals) (e_cur e')).
    { apply B. exists [str "# uplinks"], (ex_line ++ [13]), [str "wlan0=1,1,5,5"]. split; [reflexivity|]. split; [exact G|].
      intros l' v' [<-|[]] X. apply (line_val_ok no6) in X; [|apply plain_dec; vm_compute; reflexivity]. vm_compute in X. discriminate. }
    destruct BB as (_ & _ & _ & Bu & _ & _ & Bn & _). now split.
Qed.

(** An indented line is written as documented and is silently taken for a comment. *)
Theorem C111_indent_refuted : exists w s t l, text [l] (l ++ [10]) /\ s_time s <> t /\
  (exists v, gives (str "eth0") v l /\ v_up v = 1000 /\ v_down v = 2000) /\
  exists e', nth_error (s_ifs (fst (fst (readEgressFile w no6 s (File t (l ++ [10])))))) 0 = Some e' /\ e_name e' = str "eth0" /\
    b_up (e_cur e') = 0 /\ s_rep (fst (fst (readEgressFile w no6 s (File t (l ++ [10]))))) = false.
Proof.
  exists ex_w, ex_st, (7, 7), (str " eth0=1,1,1000,2000"). split; [apply (t_cons _ [] []); constructor|]. split; [discriminate|]. split.
  - exists (mkV true true 1000 2000 0 None None). split; [|now split]. split.
    + intros [F|(b & r & Fb & E)].
      * apply Forall_forall with (x := 101) in F; [unfold is_blank in F; lia|vm_compute; tauto].
      * assert (In 35 (str " eth0=1,1,1000,2000")) by (rewrite E; apply in_or_app; right; now left). vm_compute in H. repeat destruct H as [H|H]; try discriminate H. exact H.
    + destruct (egress_groups (str " eth0=1,1,1000,2000")) as [g|] eqn:G; [|vm_compute in G; discriminate].
      exists g. assert (Eg : g = mkG (str "eth0") (str "1") (str "1") (str "1000") (str "2000") None None None) by (vm_compute in G; apply Some_inj in G; subst g; reflexivity).
      split; [now apply egress_groups_inv|]. subst g. split; [reflexivity|]. split; [vm_compute; lia|]. apply (says_ok no6); [exact Logic.I|]. vm_compute. reflexivity.
  - destruct (readEgressFile ex_w no6 ex_st (File (7, 7) (str " eth0=1,1,1000,2000" ++ [10]))) as [[s r] o] eqn:E. vm_compute in E. inversion E; subst. eexists. split; [reflexivity|]. repeat split.
Qed.
Print Assumptions C111_indent_refuted.

(** What is beyond the 255th character of a comment is taken for a line of its own. *)
Theorem C111_long_refuted : exists w s t l, text [l] (l ++ [10]) /\ s_time s <> t /\ ignored l /\ (forall v, ~ gives (str "eth0") v l) /\
  exists e', nth_error (s_ifs (fst (fst (readEgressFile w no6 s (File t (l ++ [10])))))) 0 = Some e' /\ e_name e' = str "eth0" /\ b_up (e_cur e') = 1000.
Proof.
  exists ex_w, ex_st, (7, 7), (35 :: repeat 45 254 ++ str "eth0=1,1,1000,2000"). split; [apply (t_cons _ [] []); constructor|]. split; [discriminate|].
  assert (I : ignored (35 :: repeat 45 254 ++ str "eth0=1,1,1000,2000")) by (right; exists [], (repeat 45 254 ++ str "eth0=1,1,1000,2000"); split; [constructor|reflexivity]).
  split; [exact I|]. split; [intros v [N _]; contradiction|].
  destruct (readEgressFile ex_w no6 ex_st (File (7, 7) ((35 :: repeat 45 254 ++ str "eth0=1,1,1000,2000") ++ [10]))) as [[s r] o] eqn:E. vm_compute in E. inversion E; subst. eexists. split; [reflexivity|]. repeat split.
Qed.
Print Assumptions C111_long_refuted.

(** ** C112 *)
(** The result tells whether the costs, the network or the gateway of an interface differ
    from what they were. *)
Theorem C112_changed w p6 s f : 
  (snd (fst (readEgressFile w p6 s f)) = true <->
   exists i e e', nth_error (s_ifs s) i = Some e /\ nth_error (s_ifs (fst (fst (readEgressFile w p6 s f)))) i = Some e' /\ ~ same_link (e_cur e) (e_cur e')).
Proof.
  assert (U : (false = true <-> exists i e e', nth_error (s_ifs s) i = Some e /\ nth_error (s_ifs s) i = Some e' /\ ~ same_link (e_cur e) (e_cur e'))).
  { split; [discriminate|]. intros (i & e & e' & E & E' & N). rewrite E in E'. apply Some_inj in E'. subst e'. exfalso. apply N. repeat split. }
  unfold readEgressFile, outerror. destruct f as [| |t|t c]; cbn [fst snd s_ifs].
  - now apply finish_changed.
  - now apply finish_changed.
  - exact U.
  - destruct (time_eqb (s_time s) t); [exact U|]. pose proof (read_lines_fields w p6 (file_lines c) (map clear_if (s_ifs s))) as R.
    destruct (read_lines w p6 (file_lines c) (map clear_if (s_ifs s))) as [es err]. cbn [fst snd s_ifs] in *. now apply finish_changed.
Qed.
Print Assumptions C112_changed.
Example C112_changed_ex : snd (fst (readEgressFile ex_w no6 ex_st (File (7, 7) ex_file))) = true /\
  snd (fst (readEgressFile ex_w no6 (fst (fst (readEgressFile ex_w no6 ex_st (File (7, 7) ex_file)))) (File (8, 0) ex_file))) = false.
Proof. split; vm_compute; reflexivity. Qed.

(** ... but not whether the bandwidth differs, which is what a gateway announces. *)
Theorem C112_bandwidth_refuted : exists w s t content e e', s_time s <> t /\
  nth_error (s_ifs s) 0 = Some e /\ nth_error (s_ifs (fst (fst (readEgressFile w no6 s (File t content))))) 0 = Some e' /\
  b_up (e_cur e) = 1000 /\ b_down (e_cur e) = 2000 /\ b_up (e_cur e') = 2000 /\ b_down (e_cur e') = 1000 /\
  snd (fst (readEgressFile w no6 s (File t content))) = false.
Proof.
  exists ex_w. set (s := fst (fst (readEgressFile ex_w no6 ex_st (File (7, 7) (str "eth0=1,1,1000,2000"))))). exists s, (8, 0), (str "eth0=1,1,2000,1000").
  destruct (readEgressFile ex_w no6 s (File (8, 0) (str "eth0=1,1,2000,1000"))) as [[s' r] o] eqn:E.
  assert (Es : s = s) by reflexivity. vm_compute in s. unfold s in *. vm_compute in E. inversion E; subst. eexists. eexists. split; [discriminate|]. split; [reflexivity|]. split; [reflexivity|]. repeat split.
Qed.
Print Assumptions C112_bandwidth_refuted.

(** Without the file no interface has anything. *)
Theorem C112_absent w p6 s f : f = NoFile \/ f = NoStat ->
  forall i e, nth_error (s_ifs (fst (fst (readEgressFile w p6 s f)))) i = Some e -> bandwidth w (e_up e) None (e_cur e).
Proof.
  intros H i e E. assert (X : s_ifs (fst (fst (readEgressFile w p6 s f))) = map (finish_if w) (map clear_if (s_ifs s))) by (destruct H; subst f; reflexivity).
  rewrite X, map_map, nth_error_map in E. destruct (nth_error (s_ifs s) i) as [e0|]; [|discriminate]. cbn [option_map] in E. apply Some_inj in E. subst e.
  unfold finish_if. cbn [clear_if e_in e_up e_cur]. now apply clear_bandwidth.
Qed.
Print Assumptions C112_absent.
Example C112_absent_ex : let s := fst (fst (readEgressFile ex_w no6 ex_st (File (7, 7) ex_file))) in
  map (fun e => b_up (e_cur e)) (s_ifs s) = [1000; 0] /\ map (fun e => b_up (e_cur e)) (s_ifs (fst (fst (readEgressFile ex_w no6 s NoFile)))) = [0; 0].
Proof. split; vm_compute; reflexivity. Qed.

(** Whatever the file contains over time, the values stay within their limits, the
    networks have no bits behind their prefixes, and the costs are those of the values. *)
Theorem C112_limits w p6 fs s : Forall (fresh w) (s_ifs s) ->
  Forall (fun e => let b := e_cur e in b_costs b = gw_costs_weigh w (e_up e) (b_cost b) (b_up b) (b_down b) /\
    0 <= b_up b <= 320000000 /\ 0 <= b_down b <= 320000000 /\ 0 <= b_cost b <= 2 ^ 32 - 1 /\
    match b_net b with Some (a, n) => 0 <= a < 2 ^ 32 /\ 0 <= n <= 32 /\ a mod 2 ^ (32 - n) = 0 | None => True end /\
    match b_gw b with Some a => 0 <= a < 2 ^ 32 | None => True end) (s_ifs (polls w p6 s fs)).
Proof.
  intros F. enough (H : Forall (fun e => in_range w (e_up e) (e_cur e)) (s_ifs (polls w p6 s fs))) by exact H.
  assert (I : Forall (fun e => in_range w (e_up e) (e_cur e)) (s_ifs s)).
  { eapply Forall_impl; [|exact F]. cbn beta. intros e (_ & C & _ & _ & B1 & B2 & B3 & B4 & B5). unfold in_range, MAX_SPEED. rewrite B4, B5, B1, B2, B3 in *. rewrite C.
    split; [reflexivity|]. repeat split; lia. }
  clear F. revert s I. induction fs as [|f fs IH]; intros s I; cbn [polls]; [exact I|]. apply IH. now apply poll_range.
Qed.
Print Assumptions C112_limits.
Example C112_limits_ex : Forall (fresh ex_w) (s_ifs ex_st) /\
  map (fun e => (b_up (e_cur e), b_down (e_cur e))) (s_ifs (polls ex_w no6 ex_st [File (7, 7) (str "ppp0=,,999999999999,18446744073709551615"); NoStream (8, 8)])) = [(0, 0); (320000000, 320000000)].
Proof. split; [repeat (apply Forall_cons; [split; [reflexivity|now apply clear_bandwidth]|]); constructor|vm_compute; reflexivity]. Qed.

(** A file whose time is the epoch is never read. *)
Theorem C112_epoch_refuted : exists w s content, Forall (fresh w) (s_ifs s) /\ s_time s = (0, 0) /\
  (exists v, gives (str "eth0") v content /\ v_up v = 1000) /\
  forall n, s_ifs (polls w no6 s (repeat (File (0, 0) content) n)) = s_ifs s /\ exists e, In e (s_ifs s) /\ e_name e = str "eth0" /\ b_up (e_cur e) = 0.
Proof.
  exists ex_w, ex_st, (str "eth0=1,1,1000,2000"). split; [repeat (apply Forall_cons; [split; [reflexivity|now apply clear_bandwidth]|]); constructor|]. split; [reflexivity|].
  split.
  - exists (mkV true true 1000 2000 0 None None). split; [|reflexivity]. apply (line_val_ok no6); [apply plain_dec; vm_compute; reflexivity|vm_compute; reflexivity].
  - intros n. split; [|exists (ex_if (str "eth0")); split; [now left|now split]]. induction n as [|n IH]; [reflexivity|]. cbn [repeat polls]. exact IH.
Qed.
Print Assumptions C112_epoch_refuted.

(** A descriptor that has been opened is closed. *)
Theorem C112_descriptor_partial w p6 s f : f <> NoFile -> In Close (snd (readEgressFile w p6 s f)).
Proof.
  intros N. unfold readEgressFile, outerror. destruct f as [| |t|t c]; cbn [snd]; [congruence|now left|now left|].
  destruct (time_eqb (s_time s) t); [now left|]. destruct (read_lines w p6 (file_lines c) (map clear_if (s_ifs s))) as [es err]. cbn [snd]. right. now left.
Qed.
Print Assumptions C112_descriptor_partial.
Example C112_descriptor_ex : snd (readEgressFile ex_w no6 ex_st NoStat) = [Close].
Proof. reflexivity. Qed.

(** ... after a file has been read it is closed twice. *)
Theorem C112_descriptor_refuted : exists w s f, snd (readEgressFile w no6 s f) = [Fclose; Close].
Proof. exists ex_w, ex_st, (File (7, 7) ex_file). vm_compute. reflexivity. Qed.
Print Assumptions C112_descriptor_refuted.

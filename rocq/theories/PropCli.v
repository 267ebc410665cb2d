(** C126 and C127: the command line and the order of the interfaces. *)
From Coq Require Import QArith String.
From Verif Require Import Base Regex ConfIf ConfCheck Cli CliSpec CliProofs.

(** the settings of the examples: the defaults, and a reader of a few numbers *)
Definition c_ex : ccnf :=
  {| k_v6 := false; k_ipsize := 4; k_maxplen := 32; k_lq := 2; k_aging := Fin (1 # 20);
     k_nat := Fin 1; k_debug := 1; k_poll := Fin (1 # 20); k_ipc := 0; k_hemu := None;
     k_delgw := false; k_nofork := false; k_pid := None; k_ifs := [] |}.
Definition f_ex : icnf :=
  {| f_bcast := 0; f_multi := 0; f_hello := (Fin 2, Fin 20); f_hna := (Fin 5, Fin 300);
     f_mid := (Fin 5, Fin 300); f_tc := (Fin 5, Fin 300) |}.
Definition e_ex : env icnf :=
  {| e_int := fun s => if seqb s (str "3") then Some 3 else None;
     e_flt := fun s => if seqb s (str "0.5") then Some (Fin (1 # 2))
                       else if seqb s (str "3") then Some (Fin 3)
                       else if seqb s (str "nan") then Some NaN else None;
     e_p4 := fun s => if seqb s (str "10.0.0.1") then Some 167772161 else None;
     e_p6 := fun _ => None;
     e_bytes := fun f => match fst (f_hello f) with Fin q => [Qnum q] | _ => [] end |}.

(** C126: options that are written out are accepted and mean what they say, one after the
    other; for every reader of numbers and addresses *)
Theorem C126_meaning : forall O (e : env O) prog opts c f, Forall valid opts ->
  process e (prog :: flat_map text opts) c f = means_all e opts (c, f).
Proof. intros. now apply process_means. Qed.
Print Assumptions C126_meaning.

Definition opts_ex : list opt :=
  [PIpv6; PVal VLql (str "3"); PIfs (str "wlan0") [str "eth0"; str "wlan0"]; PVal VLqa (str "0.5");
   PVal VHint (str "3"); PVal VHemu (str "10.0.0.1"); PVal VPid (str "-i")].
Example C126_meaning_ex : Forall valid opts_ex /\
  flat_map text opts_ex = map str ["-ipv6"; "-lql"; "3"; "-i"; "wlan0"; "eth0"; "wlan0"; "-lqa"; "0.5";
                                   "-hint"; "3"; "-hemu"; "10.0.0.1"; "-pidfile"; "-i"]%string /\
  exists c f, process e_ex (str "olsrd" :: flat_map text opts_ex) c_ex f_ex = Acc (c, f) /\
    map q_name (k_ifs c) = map str ["hcif01"; "eth0"; "wlan0"]%string /\
    k_v6 c = true /\ k_lq c = 3 /\ k_hemu c = Some 167772161 /\ k_pid c = Some (str "-i") /\
    f_hello f = (Fin 3, Fin 9).
Proof.
  split.
  { assert (V : Forall plain_name [str "wlan0"; str "eth0"; str "wlan0"])
      by (repeat (apply Forall_cons; [discriminate|]); apply Forall_nil).
    repeat (apply Forall_cons; [first [exact I|exact V]|]); apply Forall_nil. }
  split; [reflexivity|].
  destruct (process e_ex (str "olsrd" :: flat_map text opts_ex) c_ex f_ex) as [| |[c f]] eqn:E;
    [vm_compute in E; discriminate|vm_compute in E; discriminate|].
  exists c, f. split; [reflexivity|]. vm_compute in E. inversion E; subst. repeat split.
Qed.

(** nothing else is accepted *)
Theorem C126_only : forall O (e : env O) prog args c f s,
  process e (prog :: args) c f = Acc s ->
  exists opts, Forall valid opts /\ args = flat_map text opts /\ means_all e opts (c, f) = Acc s.
Proof. intros O e prog args c f s H. exact (process_acc e prog args c f s H). Qed.
Print Assumptions C126_only.

Example C126_only_ex : exists s, process e_ex (map str ["olsrd"; "-d"; "3"; "-nofork"]%string) c_ex f_ex = Acc s /\
  k_debug (fst s) = 3 /\ k_nofork (fst s) = true /\
  process e_ex (map str ["olsrd"; "-d"; "3"; "-nosuch"]%string) c_ex f_ex = Rej /\
  process e_ex (map str ["olsrd"; "-d"]%string) c_ex f_ex = Rej /\
  process e_ex (map str ["olsrd"; "-i"; "-d"; "3"]%string) c_ex f_ex = Rej.
Proof. eexists. repeat split; reflexivity. Qed.

(** no argument makes the behaviour undefined, if the options for link quality get numbers *)
Theorem C126_safe_partial : forall O (e : env O) prog args c f,
  numeric e args -> process e (prog :: args) c f <> Ub.
Proof. intros O e prog args c f N H. exact (process_ub e prog args c f H N). Qed.
Print Assumptions C126_safe_partial.

Example C126_safe_ex : numeric e_ex (map str ["-i"; "-lql"; "3"; "-lqa"; "0.5"; "-lqnt"]%string) /\
  process e_ex (str "olsrd" :: map str ["-lql"; "3"; "-lqa"; "0.5"; "-lqnt"]%string) c_ex f_ex = Rej.
Proof.
  split; [|reflexivity]. intros i k p H1 H2.
  do 6 (destruct i as [|i]; [destruct k; vm_compute in H1; try discriminate H1; try exact I;
        vm_compute in H2; inversion H2; subst; vm_compute; discriminate|]).
  destruct i; discriminate H1.
Qed.

(** without a number a variable is used that was never set *)
Theorem C126_number_refuted : exists args, process e_ex (str "olsrd" :: args) c_ex f_ex = Ub.
Proof. exists (map str ["-lql"; "high"]%string). reflexivity. Qed.
Print Assumptions C126_number_refuted.

(** "nan" passes the limits of -lqa *)
Theorem C126_limits_refuted : exists args c f,
  process e_ex (str "olsrd" :: args) c_ex f_ex = Acc (c, f) /\ k_aging c = NaN.
Proof.
  exists (map str ["-lqa"; "nan"]%string).
  destruct (process e_ex (str "olsrd" :: map str ["-lqa"; "nan"]%string) c_ex f_ex) as [| |[c f]] eqn:E;
    [vm_compute in E; discriminate|vm_compute in E; discriminate|].
  exists c, f. split; [reflexivity|]. vm_compute in E. inversion E; subst. reflexivity.
Qed.
Print Assumptions C126_limits_refuted.

(** -ipv6 leaves prefixes limited to 32 bits *)
Theorem C126_ipv6_refuted : exists args c f,
  process e_ex (str "olsrd" :: args) c_ex f_ex = Acc (c, f) /\ k_ipsize c = 16 /\ k_maxplen c = 32.
Proof.
  exists [str "-ipv6"].
  destruct (process e_ex (str "olsrd" :: [str "-ipv6"]) c_ex f_ex) as [| |[c f]] eqn:E;
    [vm_compute in E; discriminate|vm_compute in E; discriminate|].
  exists c, f. split; [reflexivity|]. vm_compute in E. inversion E; subst. split; reflexivity.
Qed.
Print Assumptions C126_ipv6_refuted.

(** no option that is about all interfaces reaches any of them: whatever -bcast, -multi and
    the intervals are, the settings of the interfaces are the same *)
Theorem C126_interface_refuted : exists a b, a <> b /\ exists x y,
  e_flt e_ex a = Some x /\ e_flt e_ex b = Some y /\ x <> y /\ exists c,
  main_args e_ex (map str ["olsrd"; "-i"; "wlan0"; "-hint"]%string ++ [a]) c_ex f_ex = Acc c /\
  main_args e_ex (map str ["olsrd"; "-i"; "wlan0"; "-hint"]%string ++ [b]) c_ex f_ex = Acc c /\
  map q_name (k_ifs c) = [str "wlan0"].
Proof.
  exists (str "3"), (str "0.5"). split; [discriminate|]. exists (Fin 3), (Fin (1 # 2)).
  split; [reflexivity|]. split; [reflexivity|]. split; [discriminate|].
  destruct (main_args e_ex (map str ["olsrd"; "-i"; "wlan0"; "-hint"]%string ++ [str "3"]) c_ex f_ex) as [| |c] eqn:E;
    [vm_compute in E; discriminate|vm_compute in E; discriminate|].
  exists c. split; [reflexivity|]. vm_compute in E. inversion E; subst. split; vm_compute; reflexivity.
Qed.
Print Assumptions C126_interface_refuted.
(** and so for every command line, if every interface has settings of its own as after
    reading a file *)
Theorem C126_never : forall (e : env icnf) prog args c f c' f',
  Forall (fun i => q_cnf i <> None) (k_ifs c) ->
  process e (prog :: args) c f = Acc (c', f') ->
  main_args e (prog :: args) c f = Acc c'.
Proof.
  intros e prog args c f c' f' F H. unfold main_args. rewrite H.
  destruct (process_acc e prog args c f _ H) as (opts & _ & _ & M).
  pose proof (means_cnf e opts (c, f) (c', f') M F) as F'. cbn [fst] in F'.
  rewrite set_default_id by exact F'. destruct c'; reflexivity.
Qed.
Print Assumptions C126_never.
Example C126_never_ex : exists c' f', Forall (fun i => q_cnf i <> None) (k_ifs c_ex) /\
  process e_ex (map str ["olsrd"; "-i"; "wlan0"; "-hint"; "3"]%string) c_ex f_ex = Acc (c', f') /\
  fst (f_hello f') = Fin 3 /\ map q_cnf (k_ifs c') = [Some (repeat 0 128)].
Proof.
  destruct (process e_ex (map str ["olsrd"; "-i"; "wlan0"; "-hint"; "3"]%string) c_ex f_ex) as [| |[c f]] eqn:E;
    [vm_compute in E; discriminate|vm_compute in E; discriminate|].
  exists c, f. split; [apply Forall_nil|]. split; [reflexivity|]. vm_compute in E. inversion E; subst.
  split; reflexivity.
Qed.

(** before that, all pairs "-f file" are taken out of the arguments, and the files are read
    in this order *)
Theorem C126_files : forall prog args,
  load_args (prog :: args) = Some (prog :: fst (split_files args), snd (split_files args)).
Proof. exact load_args_ok. Qed.
Print Assumptions C126_files.
Example C126_files_ex :
  load_args (map str ["olsrd"; "-f"; "a.conf"; "-d"; "3"; "-f"; "b.conf"; "-f"]%string) =
    Some (map str ["olsrd"; "-d"; "3"; "-f"]%string, map str ["a.conf"; "b.conf"]%string).
Proof. vm_compute. reflexivity. Qed.

(** C127: the interfaces stand in the order in which the file names them; a name that is
    repeated counts where it is last *)
Theorem C127_file_partial : forall bs s, load bs pst0 = Some s ->
  map p_name (t_ifs s) = map Some (nodup (list_eq_dec Z.eq_dec) (all_names bs)).
Proof.
  intros bs s H. exact (load_names bs pst0 [] s eq_refl (NoDup_nil _) H).
Qed.
Print Assumptions C127_file_partial.
Theorem C127_once : forall bs s, NoDup (all_names bs) -> load bs pst0 = Some s ->
  map p_name (t_ifs s) = map Some (all_names bs).
Proof.
  intros bs s D H. rewrite (C127_file_partial bs s H). f_equal. now apply nodup_fixed_point.
Qed.
Print Assumptions C127_once.

Definition file_ex : list block :=
  [BIf [str "a"; str "b"] [SSet 84 [9; 9; 9; 9]]; BDef [SSet 80 [1; 2; 3; 4]]; BIf [str "c"] []].
Example C127_ex : exists s, load file_ex pst0 = Some s /\ NoDup (all_names file_ex) /\
  map p_name (t_ifs s) = map Some [str "a"; str "b"; str "c"].
Proof.
  destruct (load file_ex pst0) as [s|] eqn:E; [|vm_compute in E; discriminate]. exists s.
  split; [reflexivity|]. split; [|vm_compute in E; inversion E; reflexivity].
  apply NoDup_cons; [intros [H|[H|[]]]; vm_compute in H; discriminate|].
  apply NoDup_cons; [intros [H|[]]; vm_compute in H; discriminate|].
  apply NoDup_cons; [intros []|apply NoDup_nil].
Qed.

(** a second block for the first interface makes it the last one *)
Theorem C127_repeated_refuted : exists bs s, load bs pst0 = Some s /\
  all_names bs = [str "a"; str "b"; str "a"] /\
  map p_name (t_ifs s) = map Some [str "b"; str "a"].
Proof.
  exists [BIf [str "a"; str "b"] []; BIf [str "a"] []]. eexists.
  split; [reflexivity|]. split; reflexivity.
Qed.
Print Assumptions C127_repeated_refuted.

(** a second file turns the order of the first one around *)
Theorem C127_again : forall bs bs' s', NoDup (all_names bs ++ all_names bs') ->
  load_all [bs; bs'] pst0 = Some s' -> map p_name (t_ifs s') = map Some (rev (all_names bs) ++ all_names bs').
Proof.
  intros bs bs' s' D H. cbn [load_all] in H. destruct (load bs pst0) as [s|] eqn:E; [|discriminate H].
  destruct (load bs' s) as [s2|] eqn:E2; [|discriminate H]. inversion H; subst. clear H.
  assert (D1 : NoDup (all_names bs)) by exact (nodup_left _ _ D).
  assert (D2 : NoDup (all_names bs')) by exact (nodup_right _ _ D).
  pose proof (C127_once bs s D1 E) as N1.
  rewrite (load_names bs' s (all_names bs) s' N1 D1 E2). rewrite (nodup_fixed_point dec D2). f_equal. f_equal. f_equal.
  revert D. clear. induction (all_names bs) as [|x l IH]; intros D; [reflexivity|]. cbn [filter]. unfold outside at 1.
  cbn [app] in D. inversion D as [|? ? NI D']; subst. destruct (in_dec dec x (all_names bs')) as [I|_].
  - destruct NI. apply in_or_app. now right.
  - f_equal. now apply IH.
Qed.
Print Assumptions C127_again.
Example C127_again_ex : exists s, NoDup (all_names file_ex ++ all_names [BIf [str "d"] []]) /\
  load_all [file_ex; [BIf [str "d"] []]] pst0 = Some s /\
  map p_name (t_ifs s) = map Some [str "c"; str "b"; str "a"; str "d"].
Proof.
  destruct (load_all [file_ex; [BIf [str "d"] []]] pst0) as [s|] eqn:E; [|vm_compute in E; discriminate]. exists s.
  split; [|split; [reflexivity|vm_compute in E; inversion E; reflexivity]].
  apply NoDup_cons; [intros [H|[H|[H|[]]]]; vm_compute in H; discriminate|].
  apply NoDup_cons; [intros [H|[H|[]]]; vm_compute in H; discriminate|].
  apply NoDup_cons; [intros [H|[]]; vm_compute in H; discriminate|].
  apply NoDup_cons; [intros []|apply NoDup_nil].
Qed.
Theorem C127_files_refuted : exists bs bs' s, load_all [bs; bs'] pst0 = Some s /\
  all_names bs ++ all_names bs' = [str "a"; str "b"; str "c"] /\
  map p_name (t_ifs s) = map Some [str "b"; str "a"; str "c"].
Proof.
  exists [BIf [str "a"; str "b"] []], [BIf [str "c"] []]. eexists.
  split; [reflexivity|]. split; reflexivity.
Qed.
Print Assumptions C127_files_refuted.

(** the interfaces of option -i come in front of those of the file, the last one first *)
Theorem C127_option : forall O (e : env O) prog n ns c f, Forall plain_name (n :: ns) ->
  NoDup (n :: ns) -> (forall x, In x (n :: ns) -> ~ In x (map q_name (k_ifs c))) ->
  exists c', process e (prog :: str "-i" :: n :: ns) c f = Acc (c', f) /\
    map q_name (k_ifs c') = rev (n :: ns) ++ map q_name (k_ifs c).
Proof.
  intros O e prog n ns c f P D A.
  pose proof (C126_meaning O e prog [PIfs n ns] c f) as M. cbn [flat_map text] in M. rewrite app_nil_r in M.
  rewrite M by (apply Forall_cons; [exact P|apply Forall_nil]). clear M. unfold means_all, means, verdict. cbn [fst snd].
  eexists. split; [f_equal; f_equal; destruct f; reflexivity|]. cbn [general k_ifs].
  set (l := k_ifs c) in *. clearbody l. revert D A. generalize (n :: ns). clear. intros ns. revert l.
  induction ns as [|x ns IH]; intros l D A; [reflexivity|]. cbn [fold_left rev]. inversion D as [|? ? NI D']; subst.
  unfold add_if at 2. destruct (in_dec _ x _) as [I|_]; [destruct (A x (or_introl eq_refl) I)|].
  rewrite IH; [cbn [map q_name]; now rewrite <- app_assoc|exact D'|].
  intros y Iy. cbn [map q_name]. intros [<-|I2]; [contradiction|]. apply (A y); [now right|exact I2].
Qed.
Print Assumptions C127_option.
Example C127_option_ex : Forall plain_name [str "a"; str "b"] /\ NoDup [str "a"; str "b"] /\
  (forall x, In x [str "a"; str "b"] -> ~ In x (map q_name (k_ifs c_ex))) /\
  exists c f, process e_ex (map str ["olsrd"; "-i"; "a"; "b"; "-i"; "c"]%string) c_ex f_ex = Acc (c, f) /\
  map q_name (k_ifs c) = [str "c"; str "b"; str "a"].
Proof.
  split; [repeat (apply Forall_cons; [discriminate|]); apply Forall_nil|].
  split; [apply NoDup_cons; [intros [H|[]]; vm_compute in H; discriminate|apply NoDup_cons; [intros []|apply NoDup_nil]]|].
  split; [intros x _ []|].
  destruct (process e_ex (map str ["olsrd"; "-i"; "a"; "b"; "-i"; "c"]%string) c_ex f_ex) as [| |[c f]] eqn:E;
    [vm_compute in E; discriminate|vm_compute in E; discriminate|].
  exists c, f. split; [reflexivity|]. vm_compute in E. inversion E; subst. reflexivity.
Qed.
Theorem C127_option_refuted : exists c f,
  process e_ex (map str ["olsrd"; "-i"; "a"; "b"]%string) c_ex f_ex = Acc (c, f) /\
  map q_name (k_ifs c) = [str "b"; str "a"].
Proof.
  destruct (process e_ex (map str ["olsrd"; "-i"; "a"; "b"]%string) c_ex f_ex) as [| |[c f]] eqn:E;
    [vm_compute in E; discriminate|vm_compute in E; discriminate|].
  exists c, f. split; [reflexivity|]. vm_compute in E. inversion E; subst. reflexivity.
Qed.
Print Assumptions C127_option_refuted.

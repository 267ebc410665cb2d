(** C168: the file with the speeds of the gateway *)
From Coq Require Import String.
From Verif Require Import Base Regex SpeedFile SpeedFileSpec SpeedFileProofs.

(** A file of well-formed lines whose time differs from that of the last one read sets each
    speed to the value of the last line with its name, and leaves it when there is none; the
    mark for no bandwidth is set just if one of the speeds is 0.  Missing: files with other lines *)
Theorem C168_read_partial : forall ls m s u d,
  Forall well_formed ls -> m <> sp_stamp s -> last_set (str "upstream") ls u -> last_set (str "downstream") ls d ->
  let s' := read_file (FFile m (concat (map text ls))) s in
  sp_up s' = (match u with Some v => v | None => sp_up s end) /\
  sp_down s' = (match d with Some v => v | None => sp_down s end) /\
  sp_stamp s' = m /\
  ((sp_zero s = true <-> sp_up s = 0 \/ sp_down s = 0) -> (sp_zero s' = true <-> sp_up s' = 0 \/ sp_down s' = 0)).
Proof.
  intros ls m s u d F M U D. cbn [read_file].
  destruct (m =? sp_stamp s) eqn:E; [lia|]. rewrite all_lines_ok by (auto; apply concat_len; exact F).
  rewrite (fold_last ls u d U D).
  pose proof (last_number _ _ _ F U) as Nu. pose proof (last_number _ _ _ F D) as Nd.
  destruct u as [u|], d as [d|]; cbn; unfold u32 in *; rewrite ?(Z.mod_small u), ?(Z.mod_small d) by assumption;
    (split; [reflexivity|split; [reflexivity|split; [reflexivity|]]]); intros H; try exact H; lia.
Qed.
Print Assumptions C168_read_partial.
Definition ex_file : list line :=
  [Comment (str "# speeds"); Comment []; Assign (str "upstream") [32] [32] (str "256"); Assign (str "Downstream") [] [] (str "2048"); Assign (str "UPSTREAM") [] [9] (str "512")].
Ltac ex_forall := repeat (apply Forall_cons; [unfold white, blank, digit; cbn; lia|]); apply Forall_nil.
Ltac ex_assign := split; [discriminate|split; [discriminate|split; [ex_forall|split; [ex_forall|split; [ex_forall|split; [discriminate|split; [ex_forall|reflexivity]]]]]]].
Example C168_read_ex : Forall well_formed ex_file /\ last_set (str "upstream") ex_file (Some 512) /\
  read_file (FFile 7 (concat (map text ex_file))) (mkSp 3 128 1024 false) = mkSp 7 512 2048 false.
Proof.
  split; [|split; [|vm_compute; reflexivity]].
  - constructor; [|constructor; [|constructor; [|constructor; [|constructor; [|constructor]]]]]; (split; [vm_compute; repeat constructor|]).
    + split; [repeat (apply Forall_cons; [cbn; lia|]); apply Forall_nil|right; eexists; reflexivity].
    + split; [apply Forall_nil|left; apply Forall_nil].
    + ex_assign.
    + ex_assign.
    + ex_assign.
  - apply (ls_set (str "upstream") [Comment (str "# speeds"); Comment []; Assign (str "upstream") [32] [32] (str "256"); Assign (str "Downstream") [] [] (str "2048")] (str "UPSTREAM") [] [9] (str "512")).
    unfold called. repeat (apply Forall2_cons; [right; cbn; lia|]). apply Forall2_nil.
Qed.

(** A file that is gone, or has the time of the last one read, changes no speed *)
Theorem C168_kept : forall x s, x = FNone \/ (exists t, x = FFile (sp_stamp s) t) ->
  sp_up (read_file x s) = sp_up s /\ sp_down (read_file x s) = sp_down s /\ sp_zero (read_file x s) = sp_zero s.
Proof. intros x s [-> | [t ->]]; cbn [read_file]; [auto|]. rewrite Z.eqb_refl. auto. Qed.
Print Assumptions C168_kept.
Example C168_kept_ex : read_file (FFile 3 (str "upstream=1" ++ [10])) (mkSp 3 128 1024 false) = mkSp 3 128 1024 false.
Proof. reflexivity. Qed.

(** A line that starts with a blank is taken as a comment *)
Theorem C168_indent_refuted : exists s s', read_file (FFile 7 (str " upstream=512" ++ [10])) s = s' /\ sp_up s' = sp_up s /\ sp_up s <> 512 /\ sp_stamp s <> 7.
Proof. exists (mkSp 3 128 1024 false). eexists. split; [vm_compute; reflexivity|]. cbn. repeat split; discriminate. Qed.
Print Assumptions C168_indent_refuted.
(** A blank behind the number makes the line invalid *)
Theorem C168_trailing_refuted : exists s s', read_file (FFile 7 (str "upstream=512 " ++ [10])) s = s' /\ sp_up s' = sp_up s /\ sp_up s <> 512 /\ sp_stamp s <> 7.
Proof. exists (mkSp 3 128 1024 false). eexists. split; [vm_compute; reflexivity|]. cbn. repeat split; discriminate. Qed.
Print Assumptions C168_trailing_refuted.
(** Negative numbers, and ones of 2^32 and more, are accepted and become others; also ones
    that the configuration file may not have (from 1 to 320000000) *)
Theorem C168_range_refuted :
  (exists s, sp_up (read_file (FFile 7 (str "upstream=-1" ++ [10])) s) = 4294967295) /\
  (exists s, sp_up (read_file (FFile 7 (str "upstream=4294967297" ++ [10])) s) = 1) /\
  (exists s, sp_up (read_file (FFile 7 (str "upstream=4294967295" ++ [10])) s) > 320000000) /\
  (exists s, sp_up (read_file (FFile 7 (str "upstream=0" ++ [10])) s) = 0 /\ sp_up s <> 0).
Proof. split; [|split; [|split]]; exists (mkSp 3 128 1024 false); vm_compute; repeat split; discriminate. Qed.
Print Assumptions C168_range_refuted.
(** The end of a comment of more than 254 characters is read as a line *)
Theorem C168_long_refuted : exists t s, sp_up (read_file (FFile 7 (35 :: t ++ str "upstream=512" ++ [10])) s) = 512 /\ ~ In 10 t /\ sp_up s <> 512.
Proof.
  exists (repeat 45 254), (mkSp 3 128 1024 false). split; [vm_compute; reflexivity|]. split; [|discriminate].
  intros I. apply repeat_spec in I. discriminate.
Qed.
Print Assumptions C168_long_refuted.
(** A file whose new text has the same time is not read *)
Theorem C168_time_refuted : exists a b s, let s1 := read_file (FFile 7 a) s in
  sp_up s1 = 256 /\ sp_up (read_file (FFile 7 b) s1) = 256 /\ sp_up (read_file (FFile 8 b) s1) = 512.
Proof. exists (str "upstream=256" ++ [10]), (str "upstream=512" ++ [10]), (mkSp 3 128 1024 false). vm_compute. auto. Qed.
Print Assumptions C168_time_refuted.

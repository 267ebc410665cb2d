(** C140: the lock file. C141: the PID file. *)
From Coq Require Import String.
From Verif Require Import Base Regex NameSvc ProcFsSpec RunFiles RunFilesSpec RunFilesProofs.

(** a process that is alone gets the lock, whatever happened before, and has it on the file
    that others find *)
Theorem C140_alone_partial : forall l p, once l -> (forall q, alive q l -> q = p) -> l_fd (lsteps l) p = None -> exists w', create_internal p true (lsteps l) = (true, w') /\ guards w' p.
Proof. exact alone_ok. Qed.
Print Assumptions C140_alone_partial.
Lemma ex_once : once [Attempt 1 true; Killed 1; Attempt 2 true; Attempt 3 true].
Proof. intros l1 p ok l2 E. destruct l1 as [|a [|b [|c [|d [|x l1]]]]]; inversion E; subst; try reflexivity; destruct l1; discriminate. Qed.
Example C140_alone_ex : once [Attempt 1 true; Killed 1] /\ (forall q, alive q [Attempt 1 true; Killed 1] -> q = 2%nat) /\ l_fd (lsteps [Attempt 1 true; Killed 1]) 2 = None /\ l_name (lsteps [Attempt 1 true; Killed 1]) <> None.
Proof.
  split; [exact (once_app [Attempt 1 true; Killed 1] (Attempt 2 true) (once_app [Attempt 1 true; Killed 1; Attempt 2 true] _ ex_once))|]. split; [|split; [reflexivity|discriminate]].
  intros q (l1 & l2 & ok & E & H). destruct l1 as [|a [|b l1]]; inversion E; subst; [|destruct l1; discriminate]. exfalso. apply (H (Killed 1)); [now left|now right].
Qed.

(** it gets the lock too if the file cannot be opened at first, but gives up after six attempts *)
Theorem C140_retry_partial : forall l p k r, once l -> (forall q, alive q l -> q = p) -> l_fd (lsteps l) p = None -> (k < 6)%nat -> exists w', create_lock true p (repeat false k ++ true :: r) (fun w => w) (lsteps l) = (true, w') /\ guards w' p.
Proof. exact retry_ok. Qed.
Print Assumptions C140_retry_partial.
Example C140_retry_ex : exists w, create_lock true 2 [false; false; false; false; false; true] (fun w => w) (lsteps [Attempt 1 true; Killed 1]) = (true, w) /\ guards w 2.
Proof. eexists. split; [reflexivity|]. eexists. split; reflexivity. Qed.
Theorem C140_gives_up : forall p r others w, fst (create_lock true p (repeat false 6 ++ r) others w) = false.
Proof. exact gives_up. Qed.
Print Assumptions C140_gives_up.
Example C140_gives_up_ex : fst (create_lock true 1 (repeat false 6 ++ [true]) (fun w => w) lworld0) = false.
Proof. reflexivity. Qed.

(** it keeps it until it ends, and as long as the file has its name each attempt of another
    process fails *)
Theorem C140_kept_partial : forall l p e i, once (l ++ [e]) -> holds (lsteps l) p i -> ~ ends p e -> holds (lsteps (l ++ [e])) p i.
Proof. exact kept_ok. Qed.
Print Assumptions C140_kept_partial.
Example C140_kept_ex : once ([Attempt 1 true; Killed 1; Attempt 2 true] ++ [Attempt 3 true]) /\ holds (lsteps [Attempt 1 true; Killed 1; Attempt 2 true]) 2 0 /\ ~ ends 2 (Attempt 3 true).
Proof. split; [exact ex_once|]. split; [reflexivity|]. intros [E|E]; discriminate. Qed.
Theorem C140_refused_partial : forall l p q, once l -> l_fd (lsteps l) p = None -> p <> q -> guards (lsteps l) q -> fst (create_internal p true (lsteps l)) = false.
Proof. exact refused_ok. Qed.
Print Assumptions C140_refused_partial.
Example C140_refused_ex : l_fd (lsteps [Attempt 1 true; Killed 1; Attempt 2 true]) 3 = None /\ guards (lsteps [Attempt 1 true; Killed 1; Attempt 2 true]) 2.
Proof. split; [reflexivity|]. exists 0%nat. split; reflexivity. Qed.

(** false of the whole: the failed attempt removes the file, and the next one succeeds, so that
    two processes run *)
Theorem C140_two_refuted : exists w1 w2, create_lock true 1 (repeat true 6) (fun w => w) lworld0 = (true, w1) /\ create_lock true 2 (repeat true 6) (fun w => w) w1 = (true, w2) /\ (exists i, holds w2 1 i) /\ guards w2 2.
Proof. eexists. eexists. split; [reflexivity|]. split; [reflexivity|]. split; [exists 0%nat; reflexivity|]. exists 1%nat. split; reflexivity. Qed.
Print Assumptions C140_two_refuted.
(** and without host emulation there is no lock at all *)
Theorem C140_none_refuted : exists w, create_lock false 1 (repeat true 6) (fun w => w) lworld0 = (true, w) /\ create_lock false 2 (repeat true 6) (fun w => w) w = (true, w) /\ forall p i, ~ holds w p i.
Proof. eexists. split; [reflexivity|]. split; [reflexivity|]. intros p i. discriminate. Qed.
Print Assumptions C140_none_refuted.
(** but such a process removes the file of another when it ends *)
Theorem C140_foreign_refuted : exists w1 w2, create_lock true 1 (repeat true 6) (fun w => w) lworld0 = (true, w1) /\ guards w1 1 /\ lstep (Stops 2) (snd (create_lock false 2 [] (fun w => w) w1)) = w2 /\ ~ guards w2 1 /\ (exists i, holds w2 1 i).
Proof.
  eexists. eexists. split; [reflexivity|]. split; [exists 0%nat; split; reflexivity|]. split; [reflexivity|]. split; [intros (i & E & _); discriminate|]. exists 0%nat. reflexivity.
Qed.
Print Assumptions C140_foreign_refuted.

(** the PID file has the number of the process, as long as the numbers of the runs do not fall *)
Theorem C141_rising_partial : forall pids pid, (forall p, In p pids -> 0 <= p) -> (forall l1 p q l2, pids ++ [pid] = l1 ++ p :: q :: l2 -> p <= q) -> 0 <= pid < 2 ^ 31 -> names_pid (pid_runs (pids ++ [pid]) None) pid.
Proof. exact rising_ok. Qed.
Print Assumptions C141_rising_partial.
Example C141_rising_ex : pid_runs ([99; 1234] ++ [70000]) None = Some (str "70000") /\ (forall l1 p q l2, [99; 1234] ++ [70000] = l1 ++ p :: q :: l2 -> p <= q).
Proof. split; [reflexivity|]. intros l1 p q l2 E. destruct l1 as [|a [|b [|c l1]]]; inversion E; subst; try lia. destruct l1; discriminate. Qed.
(** false of a shorter number after a longer one: the file names another process *)
Theorem C141_shorter_refuted : exists p q r, 0 <= p < 2 ^ 22 /\ 0 <= q < 2 ^ 22 /\ q <> r /\ names_pid (pid_runs [p; q] None) r.
Proof.
  exists 12345, 99, 99345. split; [lia|]. split; [lia|]. split; [lia|]. exists (str "99345"). split; [reflexivity|]. split; [discriminate|]. split; [|reflexivity].
  apply Forall_forall. intros x I. assert (E : forallb (fun d => (48 <=? d) && (d <=? 57)) (str "99345") = true) by reflexivity. rewrite forallb_forall in E. specialize (E x I). lia.
Qed.
Print Assumptions C141_shorter_refuted.

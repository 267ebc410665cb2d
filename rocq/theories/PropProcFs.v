(** C139: the settings of the kernel. *)
From Coq Require Import String.
From Verif Require Import Base Regex ProcFs ProcFsSpec ProcFsProofs.

(** the entries of "all", "tunl0" and "eth0", all of them with [x] *)
Definition ex_f (x : list Z) : procfs := fun p =>
  match p with
  | Fwd4 => Some (str "0") | Fwd6 => None
  | Redirect n | Spoof n => if list_eq_dec Z.eq_dec n (str "all") then Some x else if list_eq_dec Z.eq_dec n (str "tunl0") then Some x else if list_eq_dec Z.eq_dec n (str "eth0") then Some x else None
  end.
Definition ex_nc : nconf := mkNc false true true false (fun _ => false) (Some (str "5.10.0-8-amd64")).
Lemma ex_digit : one_digit (ex_f (str "1")).
Proof.
  intros p x H. destruct p as [| |n|n]; cbn in H; [|discriminate| |].
  - exists 48. split; [now inversion H|lia].
  - exists 49. repeat destruct (list_eq_dec Z.eq_dec _ _); inversion H; (split; [reflexivity|lia]).
  - exists 49. repeat destruct (list_eq_dec Z.eq_dec _ _); inversion H; (split; [reflexivity|lia]).
Qed.

(** while olsrd runs the settings are as it wants them, unless they cannot be changed *)
Theorem C139_in_force : forall c l f s f1 s' f' p, set_global c nstart f = Some (s, f1) -> nsteps c l s f1 = (s', f') -> wanted c f l p -> open_for c f p ->
  exists rest, f' p = Some (goal p :: rest).
Proof. intros c l f s f1 s' f' p E S W O. apply (in_force_ok c l f f' p); [now exists s, f1, s'|exact W|exact O]. Qed.
Print Assumptions C139_in_force.
Example C139_in_force_ex : exists s f1 s' f', set_global ex_nc nstart (ex_f (str "1")) = Some (s, f1) /\ nsteps ex_nc [Up (str "eth0:1") true; Down 0] s f1 = (s', f') /\
  wanted ex_nc (ex_f (str "1")) [Up (str "eth0:1") true; Down 0] (Spoof (str "eth0")) /\ open_for ex_nc (ex_f (str "1")) (Spoof (str "eth0")) /\
  f' (Spoof (str "eth0")) = Some (str "0") /\ f' Fwd4 = Some (str "1") /\ f' (Spoof (str "all")) = Some (str "0").
Proof.
  destruct (set_global ex_nc nstart (ex_f (str "1"))) as [[s f1]|] eqn:E; [|vm_compute in E; discriminate]. exists s, f1.
  destruct (nsteps ex_nc [Up (str "eth0:1") true; Down 0] s f1) as [s' f'] eqn:S. exists s', f'. split; [reflexivity|]. split; [reflexivity|].
  assert (O : forall p, In p [Redirect (str "eth0"); Spoof (str "eth0")] -> open_for ex_nc (ex_f (str "1")) p) by (intros p [<-|[<-|[]]]; (split; [reflexivity|]); exists 49, []; reflexivity).
  split; [apply (w_spoof _ _ _ (str "eth0:1") true); [reflexivity|now left| |apply O; now left]|].
  - split; [cbn; lia|]. split; [cbn; lia|]. right. exists (str "1"). reflexivity.
  - split; [apply O; right; now left|]. vm_compute in E. inversion E; subst s f1. vm_compute in S. inversion S. repeat split; vm_compute; reflexivity.
Qed.

(** and when it ends they are as they were before, if no interface was removed *)
Theorem C139_restored_partial : forall c l f, one_digit f -> Forall stays l -> forall p, life true c l f p = f p.
Proof. exact life_ok. Qed.
Print Assumptions C139_restored_partial.
Example C139_restored_ex : one_digit (ex_f (str "1")) /\ Forall stays [Up (str "eth0") true; Up (str "eth0:1") true; Emul (str "hcif01")] /\
  life false ex_nc [Up (str "eth0") true; Up (str "eth0:1") true; Emul (str "hcif01")] (ex_f (str "1")) (Redirect (str "eth0")) = Some (str "0").
Proof. split; [exact ex_digit|]. split; [repeat constructor|]. vm_compute. reflexivity. Qed.

(** the version of the kernel is read right, for those that were published *)
Theorem C139_version_partial : forall s a b c, release s a b c -> (at_least_2_6_31 (Some s) = true <-> modern a b c).
Proof. exact version_ok. Qed.
Print Assumptions C139_version_partial.
Lemma written_b : forall ds, ds <> [] -> forallb (fun d => (48 <=? d) && (d <=? 57)) ds = true -> written ds (fold_left (fun v d => 10 * v + (d - 48)) ds 0).
Proof. intros ds N H. split; [exact N|]. split; [|reflexivity]. apply Forall_forall. intros x I. rewrite forallb_forall in H. specialize (H x I). lia. Qed.
Lemma ex_release : release (str "2.6.31-rc1") 2 6 31 /\ release (str "2.7.0") 2 7 0.
Proof.
  split.
  - exists (str "2"), (str "6"), (str "31"), (str "-rc1"). split; [reflexivity|]. do 3 (split; [apply written_b; [discriminate|reflexivity]|]). do 3 (split; [lia|]). intros r l H. vm_compute in H. inversion H. lia.
  - exists (str "2"), (str "7"), (str "0"), []. split; [reflexivity|]. do 3 (split; [apply written_b; [discriminate|reflexivity]|]). do 3 (split; [lia|]). discriminate.
Qed.
Example C139_version_ex : release (str "2.6.31-rc1") 2 6 31 /\ modern 2 6 31 /\ at_least_2_6_31 (Some (str "2.6.31-rc1")) = true /\ at_least_2_6_31 (Some (str "2.6.30.9")) = false.
Proof. split; [exact (proj1 ex_release)|]. split; [right; lia|]. split; reflexivity. Qed.
(** a later 2.x would be taken for an old one *)
Theorem C139_version_refuted : exists s b c, release s 2 b c /\ b > 6 /\ at_least_2_6_31 (Some s) = false.
Proof. exists (str "2.7.0"), 7, 0. split; [exact (proj2 ex_release)|]. split; [lia|reflexivity]. Qed.
Print Assumptions C139_version_refuted.

(** false of an interface that was removed: it keeps the values of olsrd, also if it came back *)
Theorem C139_removed_refuted : exists c l f p, one_digit f /\ l = [Up (str "eth0") true; Down 0; Up (str "eth0") true] /\ f p = Some (str "1") /\ life true c l f p = Some (str "0") /\ life true c [Up (str "eth0") true; Down 0] f p = Some (str "0").
Proof. eexists ex_nc, _, (ex_f (str "1")), (Redirect (str "eth0")). split; [exact ex_digit|]. split; [reflexivity|]. repeat split; vm_compute; reflexivity. Qed.
Print Assumptions C139_removed_refuted.
(** false of one that could not be brought up at the first attempt *)
Theorem C139_failed_refuted : exists c l f p, one_digit f /\ l = [Up (str "eth0") false; Up (str "eth0") true] /\ f p = Some (str "1") /\ life true c l f p = Some (str "0").
Proof. eexists ex_nc, _, (ex_f (str "1")), (Spoof (str "eth0")). split; [exact ex_digit|]. split; [reflexivity|]. repeat split; vm_compute; reflexivity. Qed.
Print Assumptions C139_failed_refuted.
(** false when olsrd ends during its start, as with a failure of a plugin or of the PID file *)
Theorem C139_early_refuted : exists c f, one_digit f /\ f Fwd4 = Some (str "0") /\ life false c [] f Fwd4 = Some (str "1").
Proof. exists ex_nc, (ex_f (str "1")). split; [exact ex_digit|]. split; vm_compute; reflexivity. Qed.
Print Assumptions C139_early_refuted.
(** false of values with more than one digit *)
Theorem C139_digits_refuted : exists c l f p, Forall stays l /\ f p = Some (str "10") /\ life true c l f p = Some (str "1").
Proof. exists ex_nc, [Up (str "eth0") true], (ex_f (str "10")), (Redirect (str "eth0")). split; [repeat constructor|]. split; vm_compute; reflexivity. Qed.
Print Assumptions C139_digits_refuted.

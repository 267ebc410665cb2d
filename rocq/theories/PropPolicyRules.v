(** C142: the policy rules. *)
From Coq Require Import String.
From Verif Require Import Base Regex PolicyRules PolicyRulesSpec PolicyRulesProofs.

(** at the start each rule that is needed comes to be, once, and those of others stay *)
Theorem C142_start : forall c ifs ks, distinct c -> Forall (foreign c) ks -> exists R, start_rules c ifs ks = ks ++ R /\ NoDup R /\ (forall r, In r R <-> needed c ifs r).
Proof. intros c ifs ks D F. destruct (rules_ok c ifs ks D F) as (R & A & B & C & _). now exists R. Qed.
Print Assumptions C142_start.
Definition ex_rc : rconf := mkRconf 254 223 224 None (Some 32776) (Some 32766) (Some 32786).
Definition ex_ks : list rule := [mkRule 255 0 None; mkRule 254 32766 None; mkRule 253 32767 None].
Lemma ex_distinct : distinct ex_rc.
Proof. split; [discriminate|]. split; intros q E; inversion E; subst; [split; discriminate|discriminate]. Qed.
Lemma ex_foreign : Forall (foreign ex_rc) ex_ks.
Proof. repeat constructor; cbn; intros (A & B); try discriminate; lia. Qed.
Example C142_start_ex : distinct ex_rc /\ Forall (foreign ex_rc) ex_ks /\ start_rules ex_rc [str "eth0"; str "wlan0"; str "eth0"] ex_ks =
  ex_ks ++ [mkRule 224 32776 None; mkRule 223 32786 None; mkRule 223 32766 (Some (str "eth0")); mkRule 223 32766 (Some (str "wlan0"))].
Proof. split; [exact ex_distinct|]. split; [exact ex_foreign|]. vm_compute. reflexivity. Qed.

(** with the same interfaces at the end all is as before *)
Theorem C142_stop_partial : forall c ifs ks, distinct c -> Forall (foreign c) ks -> rules_run c ifs ifs ks = ks.
Proof. intros c ifs ks D F. unfold rules_run. destruct (rules_ok c ifs ks D F) as (R & A & _ & _ & B). now rewrite A. Qed.
Print Assumptions C142_stop_partial.
Example C142_stop_ex : distinct ex_rc /\ Forall (foreign ex_rc) ex_ks /\ rules_run ex_rc [str "eth0"; str "wlan0"] [str "eth0"; str "wlan0"] ex_ks = ex_ks.
Proof. split; [exact ex_distinct|]. split; [exact ex_foreign|]. vm_compute. reflexivity. Qed.

(** false of an interface that was removed in between: its rule stays *)
Theorem C142_removed_refuted : exists c ifs ifs' ks r, distinct c /\ Forall (foreign c) ks /\ incl ifs' ifs /\ needed c ifs r /\ ~ In r ks /\ In r (rules_run c ifs ifs' ks).
Proof.
  exists ex_rc, [str "eth0"; str "wlan0"], [str "eth0"], ex_ks, (mkRule 223 32766 (Some (str "wlan0"))). split; [exact ex_distinct|]. split; [exact ex_foreign|]. split; [intros x [<-|[]]; now left|].
  split; [apply needed_if; [reflexivity|right; now left]|]. split; [intros [H|[H|[H|[]]]]; discriminate|]. vm_compute. tauto.
Qed.
Print Assumptions C142_removed_refuted.
(** and false of one that came later: it never has one *)
Theorem C142_added_refuted : exists c ifs ifs' ks r, distinct c /\ Forall (foreign c) ks /\ incl ifs ifs' /\ needed c ifs' r /\ ~ In r (start_rules c ifs ks).
Proof.
  exists ex_rc, [str "eth0"], [str "eth0"; str "wlan0"], ex_ks, (mkRule 223 32766 (Some (str "wlan0"))). split; [exact ex_distinct|]. split; [exact ex_foreign|]. split; [intros x [<-|[]]; now left|].
  split; [apply needed_if; [reflexivity|right; now left]|]. vm_compute. intros H. repeat destruct H as [H|H]; try discriminate. contradiction.
Qed.
Print Assumptions C142_added_refuted.

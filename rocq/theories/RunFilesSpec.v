(** What the lock file and the PID file are for. *)
From Verif Require Import Base ProcFsSpec RunFiles.

(** a process has the lock on a file *)
Definition holds (w : lworld) (p i : nat) : Prop := l_locks w i = Some p.
(** it has it on the file that others will find *)
Definition guards (w : lworld) (p : nat) : Prop := exists i, l_name w = Some i /\ holds w p i.
(** it has made an attempt and has not ended *)
Definition ends (p : nat) (e : levent) : Prop := e = Stops p \/ e = Killed p.
Definition alive (p : nat) (l : list levent) : Prop := exists l1 l2 ok, l = l1 ++ Attempt p ok :: l2 /\ forall e, In e l2 -> ~ ends p e.
(** the file names a process: its number in decimal, and nothing else *)
Definition names_pid (file : option (list Z)) (pid : Z) : Prop := exists d, file = Some d /\ written d pid.

(** The lock file and the PID file (src/lock_file.c, src/pid_file.c), as built for Linux. *)
From Verif Require Import Base NameSvc.

(** the world of the lock file: the file that has its name, the number of the next file, the
    processes with a lock on a file; and the variable lock_fd of each process
    (src/lock_file.c:69).  All processes use the same name, which is not empty *)
Record lworld := mkL { l_name : option nat; l_next : nat; l_locks : nat -> option nat; l_fd : nat -> option nat }.
(** a function with one value changed; no counterpart; the state of src/lock_file.c:68 *)
Definition at_ {A : Type} (f : nat -> A) (k : nat) (v : A) : nat -> A := fun i => if (i =? k)%nat then v else f i.

(** src/lock_file.c:170-188 olsr_remove_lock_file: closing the file gives up the lock of the
    process (POSIX), the name goes away whoever has a lock *)
Definition remove_lock (p : nat) (w : lworld) : lworld :=
  match l_fd w p with
  | Some i => mkL None (l_next w) (match l_locks w i with Some q => if (q =? p)%nat then at_ (l_locks w) i None else l_locks w | None => l_locks w end) (at_ (l_fd w) p None)
  | None => mkL None (l_next w) (l_locks w) (l_fd w)
  end.
(** src/lock_file.c:100-146 olsr_create_lock_file_internal; [ok]: the file can be opened *)
Definition create_internal (p : nat) (ok : bool) (w : lworld) : bool * lworld :=
  if ok then
    let i := match l_name w with Some i => i | None => l_next w end in
    let w1 := mkL (Some i) (match l_name w with Some _ => l_next w | None => S (l_next w) end) (l_locks w) (at_ (l_fd w) p (Some i)) in
    match l_locks w1 i with
    | Some q => if (q =? p)%nat then (true, w1) else (false, remove_lock p w1)
    | None => (true, mkL (l_name w1) (l_next w1) (at_ (l_locks w1) i (Some p)) (l_fd w1))
    end
  else (false, remove_lock p w).
(** src/lock_file.c:156-167 the loop, with what [others] do while it sleeps *)
Fixpoint attempts (p : nat) (oks : list bool) (others : lworld -> lworld) (w : lworld) : bool * lworld :=
  match oks with
  | [] => (false, w)
  | ok :: oks => let '(r, w) := create_internal p ok w in if r then (true, w) else attempts p oks others (others w)
  end.
(** src/lock_file.c:148-170 olsr_create_lock_file: six attempts *)
Definition create_lock (hemu : bool) (p : nat) (oks : list bool) (others : lworld -> lworld) (w : lworld) : bool * lworld :=
  if hemu then attempts p (firstn 6 oks) others w else (true, w).
(** the kernel when a process ends by itself: its locks are given up, the name stays;
    src/lock_file.c:89-95 *)
Definition killed (p : nat) (w : lworld) : lworld :=
  mkL (l_name w) (l_next w) (fun i => match l_locks w i with Some q => if (q =? p)%nat then None else Some q | None => None end) (at_ (l_fd w) p None).

(** what processes do: an attempt, src/main.c:328 at the end of olsr_shutdown, or they are killed *)
Inductive levent := Attempt (p : nat) (ok : bool) | Stops (p : nat) | Killed (p : nat).
(** see above, src/main.c:328 *)
Definition lstep (e : levent) (w : lworld) : lworld :=
  match e with Attempt p ok => snd (create_internal p ok w) | Stops p => killed p (remove_lock p w) | Killed p => killed p w end.
(** the world before any of them; src/lock_file.c:68 *)
Definition lworld0 : lworld := mkL None 0 (fun _ => None) (fun _ => None).
(** see above, src/main.c:328 *)
Definition lsteps (l : list levent) : lworld := fold_left (fun w e => lstep e w) l lworld0.

(** ** The PID file *)
(** src/pid_file.c:60-102 writePidFile: the file is not emptied when it is opened; [None]: there
    is none *)
Definition write_pid (pid : Z) (file : option (list Z)) : option (list Z) :=
  let d := dec 10 pid [] in Some (d ++ skipn (length d) (match file with Some l => l | None => [] end)).
(** src/pid_file.c:104-114 removePidFile, only called when writing fails
    (src/pid_file.c:88,96), so that nothing happens to the file at the end of olsrd *)
Definition pid_runs (pids : list Z) (file : option (list Z)) : option (list Z) := fold_left (fun f p => write_pid p f) pids file.

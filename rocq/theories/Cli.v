(** The command line (src/cli.c:81-389, src/main.c:388-401, 505-524, src/interfaces.c:284-318),
    the search for configuration files in it (src/cfgparser/olsrd_conf.c:177-241) and the
    order of the interfaces (src/cfgparser/olsrd_conf.c:243-292).

    Simplifications: sscanf and inet_pton are parameters (what they store, or that they
    store nothing); the product with 3 of an interval is not rounded; memory does not run
    out; no Windows.  The contents of a configuration file are the blocks of ConfIf.v. *)
From Coq Require Import QArith String.
From Verif Require Import Base Regex ConfIf ConfCheck.

(** library functions used in src/cli.c:95-388: sscanf with %d and with %f (None: nothing is
    stored), inet_pton for both versions (None: not an address), and the memory of struct
    if_config_options *)
Record env (O : Type) := {
  e_int : list Z -> option Z; e_flt : list Z -> option fl;
  e_p4 : list Z -> option Z; e_p6 : list Z -> option Z;
  e_bytes : O -> bytes }.
Arguments e_int {O}. Arguments e_flt {O}. Arguments e_p4 {O}. Arguments e_p6 {O}.
Arguments e_bytes {O}.

(** the part of struct if_config_options that options set, src/olsr_cfg.h:222-238; pairs of
    interval and validity time *)
Record icnf := {
  f_bcast : Z; f_multi : Z;
  f_hello : fl * fl; f_hna : fl * fl; f_mid : fl * fl; f_tc : fl * fl }.

(** struct olsr_if, src/olsr_cfg.h:240-248: name, cnf (None: NULL), cnfi, host_emul *)
Record cif := { q_name : list Z; q_cnf : option bytes; q_cnfi : bytes; q_hemu : bool }.

(** the part of struct olsrd_config that options set, src/olsr_cfg.h:279-388: ip_version is
    AF_INET6, ipsize, maxplen, lq_level, lq_aging, lq_nat_thresh, debug_level, pollrate,
    ipc_connections, host_emul and the address of the emulated host, del_gws, no_fork,
    pidfile, interfaces *)
Record ccnf := {
  k_v6 : bool; k_ipsize : Z; k_maxplen : Z; k_lq : Z; k_aging : fl; k_nat : fl;
  k_debug : Z; k_poll : fl; k_ipc : Z; k_hemu : option Z; k_delgw : bool; k_nofork : bool;
  k_pid : option (list Z); k_ifs : list cif }.

(** strcmp, src/cli.c:106-374 *)
Definition seqb (a b : list Z) : bool := if list_eq_dec Z.eq_dec a b then true else false.

(** src/interfaces.c:284-318 olsr_create_olsrif: the new list; None: the name exists *)
Definition create (n : list Z) (hemu : bool) (l : list cif) : option (list cif) :=
  if existsb (fun i => seqb (q_name i) n) l then None
  else Some ({| q_name := n; q_cnf := Some new_cnf; q_cnfi := new_cnfi; q_hemu := hemu |} :: l).

(** src/cli.c:223-241: the result is not looked at *)
Definition queue_if (n : list Z) (l : list cif) : list cif :=
  match create n false l with Some l' => l' | None => l end.

(** src/cli.c:341-360: the interface for host emulation *)
Definition hemu_if (l : list cif) : option (list cif) :=
  match create (str "hcif01") true l with
  | Some (i :: r) => Some ({| q_name := q_name i; q_cnf := Some builtin_bytes;
                              q_cnfi := q_cnfi i; q_hemu := true |} :: r)
  | _ => None
  end.

(** interval * 3, src/cli.c:249, 262, 275, 288 *)
Definition triple (x : fl) : fl :=
  match x with Fin q => Fin (3 * q) | _ => x end.

(** setters, src/cli.c:106-381 *)
Definition set_ifs (c : ccnf) (l : list cif) : ccnf :=
  {| k_v6 := k_v6 c; k_ipsize := k_ipsize c; k_maxplen := k_maxplen c; k_lq := k_lq c;
     k_aging := k_aging c; k_nat := k_nat c; k_debug := k_debug c; k_poll := k_poll c;
     k_ipc := k_ipc c; k_hemu := k_hemu c; k_delgw := k_delgw c; k_nofork := k_nofork c;
     k_pid := k_pid c; k_ifs := l |}.
(** see above, src/cli.c:106-381 *)
Definition set_v6 (c : ccnf) : ccnf :=
  {| k_v6 := true; k_ipsize := 16; k_maxplen := k_maxplen c; k_lq := k_lq c;
     k_aging := k_aging c; k_nat := k_nat c; k_debug := k_debug c; k_poll := k_poll c;
     k_ipc := k_ipc c; k_hemu := k_hemu c; k_delgw := k_delgw c; k_nofork := k_nofork c;
     k_pid := k_pid c; k_ifs := k_ifs c |}.
(** see above, src/cli.c:106-381 *)
Definition set_lq (c : ccnf) (x : Z) : ccnf :=
  {| k_v6 := k_v6 c; k_ipsize := k_ipsize c; k_maxplen := k_maxplen c; k_lq := x;
     k_aging := k_aging c; k_nat := k_nat c; k_debug := k_debug c; k_poll := k_poll c;
     k_ipc := k_ipc c; k_hemu := k_hemu c; k_delgw := k_delgw c; k_nofork := k_nofork c;
     k_pid := k_pid c; k_ifs := k_ifs c |}.
(** see above, src/cli.c:106-381 *)
Definition set_aging (c : ccnf) (x : fl) : ccnf :=
  {| k_v6 := k_v6 c; k_ipsize := k_ipsize c; k_maxplen := k_maxplen c; k_lq := k_lq c;
     k_aging := x; k_nat := k_nat c; k_debug := k_debug c; k_poll := k_poll c;
     k_ipc := k_ipc c; k_hemu := k_hemu c; k_delgw := k_delgw c; k_nofork := k_nofork c;
     k_pid := k_pid c; k_ifs := k_ifs c |}.
(** see above, src/cli.c:106-381 *)
Definition set_nat (c : ccnf) (x : fl) : ccnf :=
  {| k_v6 := k_v6 c; k_ipsize := k_ipsize c; k_maxplen := k_maxplen c; k_lq := k_lq c;
     k_aging := k_aging c; k_nat := x; k_debug := k_debug c; k_poll := k_poll c;
     k_ipc := k_ipc c; k_hemu := k_hemu c; k_delgw := k_delgw c; k_nofork := k_nofork c;
     k_pid := k_pid c; k_ifs := k_ifs c |}.
(** see above, src/cli.c:106-381 *)
Definition set_debug (c : ccnf) (x : Z) : ccnf :=
  {| k_v6 := k_v6 c; k_ipsize := k_ipsize c; k_maxplen := k_maxplen c; k_lq := k_lq c;
     k_aging := k_aging c; k_nat := k_nat c; k_debug := x; k_poll := k_poll c;
     k_ipc := k_ipc c; k_hemu := k_hemu c; k_delgw := k_delgw c; k_nofork := k_nofork c;
     k_pid := k_pid c; k_ifs := k_ifs c |}.
(** see above, src/cli.c:106-381 *)
Definition set_poll (c : ccnf) (x : fl) : ccnf :=
  {| k_v6 := k_v6 c; k_ipsize := k_ipsize c; k_maxplen := k_maxplen c; k_lq := k_lq c;
     k_aging := k_aging c; k_nat := k_nat c; k_debug := k_debug c; k_poll := x;
     k_ipc := k_ipc c; k_hemu := k_hemu c; k_delgw := k_delgw c; k_nofork := k_nofork c;
     k_pid := k_pid c; k_ifs := k_ifs c |}.
(** see above, src/cli.c:106-381 *)
Definition set_ipc (c : ccnf) : ccnf :=
  {| k_v6 := k_v6 c; k_ipsize := k_ipsize c; k_maxplen := k_maxplen c; k_lq := k_lq c;
     k_aging := k_aging c; k_nat := k_nat c; k_debug := k_debug c; k_poll := k_poll c;
     k_ipc := 1; k_hemu := k_hemu c; k_delgw := k_delgw c; k_nofork := k_nofork c;
     k_pid := k_pid c; k_ifs := k_ifs c |}.
(** see above, src/cli.c:106-381 *)
Definition set_hemu (c : ccnf) (a : Z) (l : list cif) : ccnf :=
  {| k_v6 := k_v6 c; k_ipsize := k_ipsize c; k_maxplen := k_maxplen c; k_lq := k_lq c;
     k_aging := k_aging c; k_nat := k_nat c; k_debug := k_debug c; k_poll := k_poll c;
     k_ipc := k_ipc c; k_hemu := Some a; k_delgw := k_delgw c; k_nofork := k_nofork c;
     k_pid := k_pid c; k_ifs := l |}.
(** see above, src/cli.c:106-381 *)
Definition set_delgw (c : ccnf) : ccnf :=
  {| k_v6 := k_v6 c; k_ipsize := k_ipsize c; k_maxplen := k_maxplen c; k_lq := k_lq c;
     k_aging := k_aging c; k_nat := k_nat c; k_debug := k_debug c; k_poll := k_poll c;
     k_ipc := k_ipc c; k_hemu := k_hemu c; k_delgw := true; k_nofork := k_nofork c;
     k_pid := k_pid c; k_ifs := k_ifs c |}.
(** see above, src/cli.c:106-381 *)
Definition set_nofork (c : ccnf) : ccnf :=
  {| k_v6 := k_v6 c; k_ipsize := k_ipsize c; k_maxplen := k_maxplen c; k_lq := k_lq c;
     k_aging := k_aging c; k_nat := k_nat c; k_debug := k_debug c; k_poll := k_poll c;
     k_ipc := k_ipc c; k_hemu := k_hemu c; k_delgw := k_delgw c; k_nofork := true;
     k_pid := k_pid c; k_ifs := k_ifs c |}.
(** see above, src/cli.c:106-381 *)
Definition set_pid (c : ccnf) (s : list Z) : ccnf :=
  {| k_v6 := k_v6 c; k_ipsize := k_ipsize c; k_maxplen := k_maxplen c; k_lq := k_lq c;
     k_aging := k_aging c; k_nat := k_nat c; k_debug := k_debug c; k_poll := k_poll c;
     k_ipc := k_ipc c; k_hemu := k_hemu c; k_delgw := k_delgw c; k_nofork := k_nofork c;
     k_pid := Some s; k_ifs := k_ifs c |}.
(** src/cli.c:133-145, 314-325 and 244-290 *)
Definition set_bcast (f : icnf) (a : Z) : icnf :=
  {| f_bcast := a; f_multi := f_multi f; f_hello := f_hello f; f_hna := f_hna f;
     f_mid := f_mid f; f_tc := f_tc f |}.
(** see above, src/cli.c:133-145, 244-290, 314-325 *)
Definition set_multi (f : icnf) (a : Z) : icnf :=
  {| f_bcast := f_bcast f; f_multi := a; f_hello := f_hello f; f_hna := f_hna f;
     f_mid := f_mid f; f_tc := f_tc f |}.
(** see above, src/cli.c:133-145, 244-290, 314-325 *)
Definition set_hello (f : icnf) (x : fl) : icnf :=
  {| f_bcast := f_bcast f; f_multi := f_multi f; f_hello := (x, triple x); f_hna := f_hna f;
     f_mid := f_mid f; f_tc := f_tc f |}.
(** see above, src/cli.c:133-145, 244-290, 314-325 *)
Definition set_hna (f : icnf) (x : fl) : icnf :=
  {| f_bcast := f_bcast f; f_multi := f_multi f; f_hello := f_hello f; f_hna := (x, triple x);
     f_mid := f_mid f; f_tc := f_tc f |}.
(** see above, src/cli.c:133-145, 244-290, 314-325 *)
Definition set_mid (f : icnf) (x : fl) : icnf :=
  {| f_bcast := f_bcast f; f_multi := f_multi f; f_hello := f_hello f; f_hna := f_hna f;
     f_mid := (x, triple x); f_tc := f_tc f |}.
(** see above, src/cli.c:133-145, 244-290, 314-325 *)
Definition set_tc (f : icnf) (x : fl) : icnf :=
  {| f_bcast := f_bcast f; f_multi := f_multi f; f_hello := f_hello f; f_hna := f_hna f;
     f_mid := f_mid f; f_tc := (x, triple x) |}.
(** the interval that is kept if sscanf stores nothing, src/cli.c:244-290 *)
Definition or_old (o : option fl) (old : fl) : fl := match o with Some x => x | None => old end.

(** the result of one turn of the loop src/cli.c:99-385, with argc and the position of argv *)
Inductive turn := TErr | TUb | TNext (argc pos : nat) (c : ccnf) (f : icnf).

(** NEXT_ARG; CHECK_ARGC and reading *argv, src/cli.c:82-88: both reads of argv must hit a
    string *)
Definition param (v : list (list Z)) (argc pos : nat) (k : list Z -> nat -> nat -> turn) : turn :=
  let argc := pred argc in
  let pos := S pos in
  if Nat.eqb argc 0
  then match nth_error v (pred pos) with Some _ => TErr | None => TUb end
  else match nth_error v pos with Some p => k p argc pos | None => TUb end.

(** src/cli.c:228-241: more interface names; None: argv is read outside *)
Fixpoint more_ifs (v : list (list Z)) (fuel argc pos : nat) (l : list cif)
  : option (nat * nat * list cif) :=
  match fuel with
  | O => None
  | S n =>
      if Nat.eqb (pred argc) 0 then Some (argc, pos, l)
      else match nth_error v (S pos) with
           | None => None
           | Some s =>
               if hd 0 s =? 45 then Some (argc, pos, l)
               else more_ifs v n (pred argc) (S pos) (queue_if s l)
           end
  end.

(** src/cli.c:99-385: one turn of the loop, argc > 1 *)
Definition one_turn {O} (e : env O) (v : list (list Z)) (argc pos : nat) (c : ccnf) (f : icnf)
  : turn :=
  let argc := pred argc in
  let pos := S pos in
  match nth_error v pos with
  | None => TUb
  | Some s =>
      if seqb s (str "-f") then TErr
      else if seqb s (str "-ipv6") then TNext argc pos (set_v6 c) f
      else if seqb s (str "-bcast") then
        param v argc pos (fun p argc pos =>
          match e_p4 e p with
          | None => TNext argc pos c f
          | Some a => TNext argc pos c (set_bcast f a)
          end)
      else if seqb s (str "-lql") then
        param v argc pos (fun p argc pos =>
          match e_int e p with
          | None => TUb (* the local variable is not initialised *)
          | Some x => TNext argc pos (set_lq c x) f
          end)
      else if seqb s (str "-lqa") then
        param v argc pos (fun p argc pos =>
          match e_flt e p with
          | None => TUb
          | Some x => if flt x f001 || flt (fz 1) x then TErr
                      else TNext argc pos (set_aging c x) f
          end)
      else if seqb s (str "-lqnt") then
        param v argc pos (fun p argc pos =>
          match e_flt e p with
          | None => TUb
          | Some x => if flt x f01 || flt (fz 1) x then TErr
                      else TNext argc pos (set_nat c x) f
          end)
      else if seqb s (str "-d") then
        param v argc pos (fun p argc pos =>
          TNext argc pos (match e_int e p with Some x => set_debug c x | None => c end) f)
      else if seqb s (str "-i") then
        param v argc pos (fun p argc pos =>
          if hd 0 p =? 45 then TErr
          else match more_ifs v argc argc pos (queue_if p (k_ifs c)) with
               | None => TUb
               | Some (argc, pos, l) => TNext argc pos (set_ifs c l) f
               end)
      else if seqb s (str "-hint") then
        param v argc pos (fun p argc pos =>
          TNext argc pos c (set_hello f (or_old (e_flt e p) (fst (f_hello f)))))
      else if seqb s (str "-hnaint") then
        param v argc pos (fun p argc pos =>
          TNext argc pos c (set_hna f (or_old (e_flt e p) (fst (f_hna f)))))
      else if seqb s (str "-midint") then
        param v argc pos (fun p argc pos =>
          TNext argc pos c (set_mid f (or_old (e_flt e p) (fst (f_mid f)))))
      else if seqb s (str "-tcint") then
        param v argc pos (fun p argc pos =>
          TNext argc pos c (set_tc f (or_old (e_flt e p) (fst (f_tc f)))))
      else if seqb s (str "-T") then
        param v argc pos (fun p argc pos =>
          TNext argc pos (set_poll c (or_old (e_flt e p) (k_poll c))) f)
      else if seqb s (str "-ipc") then TNext argc pos (set_ipc c) f
      else if seqb s (str "-multi") then
        param v argc pos (fun p argc pos =>
          match e_p6 e p with
          | None => TErr
          | Some a => TNext argc pos c (set_multi f a)
          end)
      else if seqb s (str "-hemu") then
        param v argc pos (fun p argc pos =>
          match e_p4 e p with
          | None => TErr
          | Some a => match hemu_if (k_ifs c) with
                      | None => TNext argc pos c f
                      | Some l => TNext argc pos (set_hemu c a l) f
                      end
          end)
      else if seqb s (str "-delgw") then TNext argc pos (set_delgw c) f
      else if seqb s (str "-nofork") then TNext argc pos (set_nofork c) f
      else if seqb s (str "-pidfile") then
        param v argc pos (fun p argc pos => TNext argc pos (set_pid c p) f)
      else TErr
  end.

(** src/cli.c:95-388 olsr_process_arguments: an error, undefined behaviour, or the new
    settings; the loop ends after at most argc turns, [fuel] *)
Fixpoint turns {O} (e : env O) (v : list (list Z)) (fuel argc pos : nat) (c : ccnf) (f : icnf)
  : res (ccnf * icnf) :=
  match fuel with
  | O => Ub
  | S n =>
      if Nat.ltb 1 argc
      then match one_turn e v argc pos c f with
           | TErr => Rej
           | TUb => Ub
           | TNext argc pos c f => turns e v n argc pos c f
           end
      else Acc (c, f)
  end.
(** called with argc and argv of main, src/main.c:512; argv[argc] is NULL *)
Definition process {O} (e : env O) (v : list (list Z)) (c : ccnf) (f : icnf) : res (ccnf * icnf) :=
  turns e v (S (length v)) (length v) 0 c f.

(** src/main.c:388-401 set_default_ifcnfs *)
Definition set_default (b : bytes) (l : list cif) : list cif :=
  map (fun i => {| q_name := q_name i;
                   q_cnf := match q_cnf i with Some x => Some x | None => Some b end;
                   q_cnfi := q_cnfi i; q_hemu := q_hemu i |}) l.

(** src/main.c:505-524: the interfaces that the sanity check gets to see *)
Definition main_args (e : env icnf) (v : list (list Z)) (c : ccnf) (f : icnf) : res ccnf :=
  match process e v c f with
  | Acc (c', f') => Acc (set_ifs c' (set_default (e_bytes e f') (k_ifs c')))
  | Rej => Rej
  | Ub => Ub
  end.

(** * Configuration files *)

(** src/cfgparser/olsrd_conf.c:208-229: the loop of loadConfig over argv with argc, from
    position [i]; the arguments left and the files in the order of loading; memmove of
    argc - i - 1 pointers *)
Fixpoint find_files (fuel : nat) (v : list (list Z)) (argc i : nat) (files : list (list Z))
  : option (list (list Z) * nat * list (list Z)) :=
  match fuel with
  | O => None
  | S n =>
      if Nat.ltb i (argc - 1)
      then match nth_error v i, nth_error v (S i) with
           | Some a, Some b =>
               if seqb a (str "-f")
               then let v' := if Nat.ltb (i + 2) argc
                              then firstn i v ++ skipn (i + 2) v else v in
                    find_files n v' (argc - 2) i (files ++ [b])
               else find_files n v argc (S i) files
           | _, _ => None
           end
      else Some (v, argc, files)
  end.
(** called by src/main.c:497; what olsr_process_arguments can see of argv *)
Definition load_args (v : list (list Z)) : option (list (list Z) * list (list Z)) :=
  match find_files (S (length v)) v (length v) 1 [] with
  | Some (v', argc, files) => Some (firstn argc v', files)
  | None => None
  end.

(** src/cfgparser/olsrd_conf.c:243-292 olsrd_parse_cnf on top of what was read before: the
    queue is reversed *)
Definition load (bs : list block) (s : pst) : option pst :=
  match seqM run_block bs s with
  | Some s' => Some {| t_ifs := rev (t_ifs s'); t_cnt := t_cnt s'; t_defs := t_defs s' |}
  | None => None
  end.
(** src/cfgparser/olsrd_conf.c:208-229: several files *)
Fixpoint load_all (files : list (list block)) (s : pst) : option pst :=
  match files with
  | [] => Some s
  | bs :: r => match load bs s with Some s' => load_all r s' | None => None end
  end.

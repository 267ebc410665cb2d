(** What the command line means: a list of options, written out by [text], each with its
    meaning. *)
From Coq Require Import QArith String.
From Verif Require Import Base Regex ConfIf ConfCheck Cli.

(** options with one value *)
Inductive vopt := VBcast | VLql | VLqa | VLqnt | VDebug | VHint | VHna | VMid | VTc | VPoll
  | VMulti | VHemu | VPid.
(** an option: a switch, an option with a value, a list of interfaces *)
Inductive opt := PIpv6 | PIpc | PDelgw | PNofork | PVal (k : vopt) (p : list Z)
  | PIfs (n : list Z) (ns : list (list Z)).

(** the names of the options in the manual *)
Definition vname (k : vopt) : list Z :=
  match k with
  | VBcast => str "-bcast" | VLql => str "-lql" | VLqa => str "-lqa" | VLqnt => str "-lqnt"
  | VDebug => str "-d" | VHint => str "-hint" | VHna => str "-hnaint" | VMid => str "-midint"
  | VTc => str "-tcint" | VPoll => str "-T" | VMulti => str "-multi" | VHemu => str "-hemu"
  | VPid => str "-pidfile"
  end.
Definition text (o : opt) : list (list Z) :=
  match o with
  | PIpv6 => [str "-ipv6"] | PIpc => [str "-ipc"] | PDelgw => [str "-delgw"]
  | PNofork => [str "-nofork"]
  | PVal k p => [vname k; p]
  | PIfs n ns => str "-i" :: n :: ns
  end.

(** no dash in front *)
Definition plain_name (n : list Z) : Prop := hd 0 n <> 45.
Definition valid (o : opt) : Prop :=
  match o with PIfs n ns => Forall plain_name (n :: ns) | _ => True end.

(** the settings while the options are read *)
Definition both := (ccnf * icnf)%type.

(** interfaces that are added, a name only once *)
Definition add_if (l : list cif) (n : list Z) : list cif :=
  if in_dec (list_eq_dec Z.eq_dec) n (map q_name l) then l
  else {| q_name := n; q_cnf := Some new_cnf; q_cnfi := new_cnfi; q_hemu := false |} :: l.

(** is the option accepted; [Ub] for a value that is no number where there is no old value
    to keep; [Rej] for a number out of limits (0.01 and 0.1 as floats) and for what is no
    address *)
Definition verdict {O} (e : env O) (o : opt) : res unit :=
  let within lo hi x := match x with
                        | None => Ub
                        | Some x => if flt x lo || flt hi x then Rej else Acc tt
                        end in
  match o with
  | PVal VLql p => match e_int e p with None => Ub | Some _ => Acc tt end
  | PVal VLqa p => within (Fin (10737418 # 1073741824)) (Fin 1) (e_flt e p)
  | PVal VLqnt p => within (Fin (13421773 # 134217728)) (Fin 1) (e_flt e p)
  | PVal VMulti p => match e_p6 e p with None => Rej | Some _ => Acc tt end
  | PVal VHemu p => match e_p4 e p with None => Rej | Some _ => Acc tt end
  | _ => Acc tt
  end.

(** a value if there is one, otherwise the old one *)
Definition or_keep {A} (x : option A) (old : A) : A := match x with Some v => v | None => old end.
(** an interval and three times as much for the validity time *)
Definition interval (x : option fl) (old : fl * fl) : fl * fl :=
  let v := or_keep x (fst old) in (v, match v with Fin q => Fin (3 * q) | _ => v end).
(** the interface for host emulation is new *)
Definition new_hemu (o : opt) (c : ccnf) : bool :=
  match o with
  | PVal VHemu _ =>
      if in_dec (list_eq_dec Z.eq_dec) (str "hcif01") (map q_name (k_ifs c)) then false else true
  | _ => false
  end.

(** the settings after an accepted option *)
Definition general {O} (e : env O) (o : opt) (c : ccnf) : ccnf :=
  {| k_v6 := match o with PIpv6 => true | _ => k_v6 c end;
     k_ipsize := match o with PIpv6 => 16 | _ => k_ipsize c end;
     k_maxplen := k_maxplen c;
     k_lq := match o with PVal VLql p => or_keep (e_int e p) (k_lq c) | _ => k_lq c end;
     k_aging := match o with PVal VLqa p => or_keep (e_flt e p) (k_aging c) | _ => k_aging c end;
     k_nat := match o with PVal VLqnt p => or_keep (e_flt e p) (k_nat c) | _ => k_nat c end;
     k_debug := match o with PVal VDebug p => or_keep (e_int e p) (k_debug c) | _ => k_debug c end;
     k_poll := match o with PVal VPoll p => or_keep (e_flt e p) (k_poll c) | _ => k_poll c end;
     k_ipc := match o with PIpc => 1 | _ => k_ipc c end;
     k_hemu := match o with
               | PVal VHemu p => if new_hemu o c then e_p4 e p else k_hemu c
               | _ => k_hemu c
               end;
     k_delgw := match o with PDelgw => true | _ => k_delgw c end;
     k_nofork := match o with PNofork => true | _ => k_nofork c end;
     k_pid := match o with PVal VPid p => Some p | _ => k_pid c end;
     k_ifs := match o with
              | PIfs n ns => fold_left add_if (n :: ns) (k_ifs c)
              | PVal VHemu _ =>
                  if new_hemu o c
                  then {| q_name := str "hcif01"; q_cnf := Some builtin_bytes;
                          q_cnfi := new_cnfi; q_hemu := true |} :: k_ifs c
                  else k_ifs c
              | _ => k_ifs c
              end |}.
Definition per_if {O} (e : env O) (o : opt) (f : icnf) : icnf :=
  {| f_bcast := match o with PVal VBcast p => or_keep (e_p4 e p) (f_bcast f) | _ => f_bcast f end;
     f_multi := match o with PVal VMulti p => or_keep (e_p6 e p) (f_multi f) | _ => f_multi f end;
     f_hello := match o with PVal VHint p => interval (e_flt e p) (f_hello f) | _ => f_hello f end;
     f_hna := match o with PVal VHna p => interval (e_flt e p) (f_hna f) | _ => f_hna f end;
     f_mid := match o with PVal VMid p => interval (e_flt e p) (f_mid f) | _ => f_mid f end;
     f_tc := match o with PVal VTc p => interval (e_flt e p) (f_tc f) | _ => f_tc f end |}.
Definition means {O} (e : env O) (o : opt) (s : both) : res both :=
  match verdict e o with
  | Acc _ => Acc (general e o (fst s), per_if e o (snd s))
  | Rej => Rej
  | Ub => Ub
  end.

(** all options, one after the other *)
Fixpoint means_all {O} (e : env O) (l : list opt) (s : both) : res both :=
  match l with
  | [] => Acc s
  | o :: r => match means e o s with
              | Acc s' => means_all e r s'
              | Rej => Rej
              | Ub => Ub
              end
  end.

(** every option that needs a number has one *)
Definition numeric {O} (e : env O) (args : list (list Z)) : Prop :=
  forall i k p, nth_error args i = Some (vname k) -> nth_error args (S i) = Some p ->
    match k with
    | VLql => e_int e p <> None
    | VLqa | VLqnt => e_flt e p <> None
    | _ => True
    end.

(** * Configuration files *)

(** the arguments with the pairs "-f file" taken out, from left to right, and the files *)
Fixpoint split_files (args : list (list Z)) : list (list Z) * list (list Z) :=
  match args with
  | [] => ([], [])
  | [a] => ([a], [])
  | a :: ((b :: r) as t) =>
      if list_eq_dec Z.eq_dec a (str "-f")
      then let (x, y) := split_files r in (x, b :: y)
      else let (x, y) := split_files t in (a :: x, y)
  end.

(** all names in the interface blocks of a file, in order *)
Fixpoint all_names (bs : list block) : list (list Z) :=
  match bs with
  | [] => []
  | BIf names _ :: r => names ++ all_names r
  | BDef _ :: r => all_names r
  end.

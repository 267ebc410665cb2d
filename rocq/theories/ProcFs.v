(** The settings of the kernel that olsrd changes: IP forwarding, ICMP redirects and the filter
    for source addresses (src/linux/net.c). *)
From Coq Require Import String.
From Verif Require Import Base Regex NameSvc.

(** src/linux/net.c:84-93 the entries in /proc/sys/net: ipv4/ip_forward,
    ipv6/conf/all/forwarding, ipv4/conf/NAME/send_redirects, ipv4/conf/NAME/rp_filter; names of
    interfaces have less than 16 characters, so that the buffer of FILENAME_MAX is never short *)
Inductive path := Fwd4 | Fwd6 | Redirect (n : list Z) | Spoof (n : list Z).
(** see above, src/linux/net.c:84-93 *)
Definition path_dec (p q : path) : {p = q} + {p <> q}.
Proof. decide equality; apply (list_eq_dec Z.eq_dec). Defined.
(** src/linux/net.c:88,92 "all"; src/kernel_tunnel.h:60 "tunl0" *)
Definition ALL : list Z := str "all".
(** see above, src/linux/net.c:88,92 *)
Definition TUNL0 : list Z := str "tunl0".
(** the contents of the entries, without the newline; src/linux/net.c:84-93 *)
Definition procfs := path -> option (list Z).
(** environment of src/linux/net.c:149: a write of one character *)
Definition pset (p : path) (c : Z) (f : procfs) : procfs := fun q => if path_dec p q then Some [c] else f q.

(** src/linux/net.c:133-174 writeToProc: the result is what was there before, or none if it
    fails; [ro] are the entries that cannot be opened for writing.  The kernel takes digits only *)
Definition write_proc (ro : path -> bool) (p : path) (value : Z) (f : procfs) : option Z * procfs :=
  if ro p then (None, f)
  else match f p with
       | None | Some [] => (None, f)
       | Some (rv :: _) =>
           if negb (rv =? value) && negb (value =? 0)
           then if (48 <=? value) && (value <=? 57) then (Some rv, pset p value f) else (None, f)
           else (Some rv, f)
       end.
(** src/linux/net.c:177-180 restoreProc *)
Definition restore_proc (ro : path -> bool) (p : path) (original value : Z) (f : procfs) : procfs :=
  if original =? value then f else snd (write_proc ro p original f).

(** environment of src/linux/net.c:193,203,208: strtol, stored as an int *)
Definition strtol (s : list Z) : Z * list Z := match scan_d s with Some r => r | None => (0, s) end.
(** src/linux/net.c:182-218 is_at_least_linuxkernel_2_6_31, with the release from uname *)
Definition at_least_2_6_31 (uts : option (list Z)) : bool :=
  match uts with
  | None => false
  | Some release =>
      let '(first, next) := strtol release in
      if 3 <=? first then true
      else match next with
           | 46 :: next =>
               let '(second, next) := strtol next in
               match next with
               | 46 :: next => let '(third, _) := strtol next in (first =? 2) && (second =? 6) && (31 <=? third)
               | _ => false
               end
           | _ => false
           end
  end.

(** src/interfaces.h:135,145,157-163 struct nic_state, and what else is looked at of an interface *)
Record nic := mkNic { n_name : list Z; n_hcif : bool; n_redirect : Z; n_spoof : Z }.
(** src/linux/net.c:108-111 the first values, and ifnet *)
Record nstate := mkN { n_fwd : Z; n_red : Z; n_rp : Z; n_tun : Z; n_ifs : list nic }.
(** the options of olsr_cnf and the world; src/linux/net.c:224-361 *)
Record nconf := mkNc { k_v6 : bool; k_forward : bool; k_sgw : bool; k_niit : bool; k_ro : path -> bool; k_uts : option (list Z) }.
(** src/linux/net.c:108-111 static variables *)
Definition nstart : nstate := mkN 0 0 0 0 [].
(** the value stored: [*old] is only written when there is no error (src/linux/net.c:158-160) *)
Definition kept (o : option Z) (old : Z) : Z := match o with Some x => x | None => old end.

(** src/linux/net.c:229-230 *)
Definition fwd_path (c : nconf) : path := if k_v6 c then Fwd6 else Fwd4.
(** src/linux/net.c:224-270 net_os_set_global_ifoptions: none if olsrd ends (IP forwarding is
    not active, and is not to be set) *)
Definition set_global (c : nconf) (s : nstate) (f : procfs) : option (nstate * procfs) :=
  let '(o, f) := write_proc (k_ro c) (fwd_path c) (if k_forward c then 49 else 0) f in
  let fwd := kept o (n_fwd s) in
  if (match o with Some _ => true | None => false end) && negb (k_forward c) && negb (fwd =? 49) then None
  else
    let '(tun, f) := if k_sgw c && (negb (k_v6 c) || k_niit c)
                     then let '(o, f) := write_proc (k_ro c) (Spoof TUNL0) 48 f in (kept o (n_tun s), f) else (n_tun s, f) in
    if k_v6 c then Some (mkN fwd (n_red s) (n_rp s) tun (n_ifs s), f)
    else
      let '(o, f) := write_proc (k_ro c) (Redirect ALL) 48 f in
      let red := kept o (n_red s) in
      let '(rp, f) := if at_least_2_6_31 (k_uts c) then let '(o, f) := write_proc (k_ro c) (Spoof ALL) 48 f in (kept o (n_rp s), f) else (n_rp s, f) in
      Some (mkN fwd red rp tun (n_ifs s), f).

(** src/linux/net.c:276-304 net_os_set_ifoptions, for IPv4; the state was cleared before
    (src/unix/ifnet.c:535) *)
Definition set_if (ro : path -> bool) (name : list Z) (f : procfs) : nic * procfs :=
  let '(o, f) := write_proc ro (Redirect name) 48 f in
  match o with
  | None => (mkNic name false 0 0, f)
  | Some r => let '(o, f) := write_proc ro (Spoof name) 48 f in (mkNic name false r (kept o 0), f)
  end.
(** src/unix/ifnet.c:497-509 if_basename; the buffer has 32 characters (src/unix/ifnet.c:497) *)
Fixpoint upto_colon (s : list Z) : option (list Z) :=
  match s with [] => None | c :: s => if c =? 58 then Some [] else match upto_colon s with Some l => Some (c :: l) | None => None end end.
(** see above, src/unix/ifnet.c:497-509 *)
Definition basename (s : list Z) : list Z :=
  match upto_colon s with Some l => if 31 <=? Z.of_nat (length l) then s else l | None => s end.

(** what happens to the interfaces.  [Up]: src/unix/ifnet.c:519-768 chk_if_up, with [send] as the
    second socket can be made; [Emul]: src/unix/ifnet.c:366-495 add_hemu_if; [Down]:
    src/interfaces.c:378-440 olsr_remove_interface, which does not touch the settings *)
Inductive nevent := Up (name : list Z) (send : bool) | Emul (name : list Z) | Down (i : nat).
(** see above, src/unix/ifnet.c:519-768 *)
Definition nstep (c : nconf) (e : nevent) (s : nstate) (f : procfs) : nstate * procfs :=
  let with_ifs l := mkN (n_fwd s) (n_red s) (n_rp s) (n_tun s) l in
  match e with
  | Up name send =>
      let '(n, f) := if k_v6 c then (mkNic (basename name) false 0 0, f) else set_if (k_ro c) (basename name) f in
      (if send then with_ifs (n :: n_ifs s) else s, f)
  | Emul name => (with_ifs (mkNic name true 0 0 :: n_ifs s), f)
  | Down i => (with_ifs (firstn i (n_ifs s) ++ skipn (S i) (n_ifs s)), f)
  end.
(** see above, src/unix/ifnet.c:519-768 *)
Fixpoint nsteps (c : nconf) (l : list nevent) (s : nstate) (f : procfs) : nstate * procfs :=
  match l with [] => (s, f) | e :: l => let '(s, f) := nstep c e s f in nsteps c l s f end.

(** src/linux/net.c:343-361 the loop of net_os_restore_ifoptions *)
Fixpoint restore_ifs (ro : path -> bool) (l : list nic) (f : procfs) : procfs :=
  match l with
  | [] => f
  | n :: l =>
      if n_hcif n then restore_ifs ro l f
      else restore_ifs ro l (restore_proc ro (Spoof (n_name n)) (n_spoof n) 48 (restore_proc ro (Redirect (n_name n)) (n_redirect n) 48 f))
  end.
(** src/linux/net.c:309-364 net_os_restore_ifoptions *)
Definition restore (c : nconf) (s : nstate) (f : procfs) : procfs :=
  let f := if k_forward c then restore_proc (k_ro c) (fwd_path c) (n_fwd s) 49 f else f in
  let f := if k_sgw c && (negb (k_v6 c) || k_niit c) then restore_proc (k_ro c) (Spoof TUNL0) (n_tun s) 48 f else f in
  if k_v6 c then f
  else
    let f := restore_proc (k_ro c) (Redirect ALL) (n_red s) 48 f in
    let f := if at_least_2_6_31 (k_uts c) then restore_proc (k_ro c) (Spoof ALL) (n_rp s) 48 f else f in
    restore_ifs (k_ro c) (n_ifs s) f.

(** src/olsr.c:565-583 olsr_exit, and src/main.c:770-776: SIGTERM ends the process at once
    before the handlers are set; src/main.c:303-304 afterwards *)
Definition finish (handlers : bool) (c : nconf) (s : nstate) (f : procfs) : procfs := if handlers then restore c s f else f.
(** a run of olsrd: src/main.c:609,641, the events, and the end *)
Definition life (handlers : bool) (c : nconf) (l : list nevent) (f : procfs) : procfs :=
  match set_global c nstart f with
  | None => f
  | Some (s, f) => let '(s, f) := nsteps c l s f in finish handlers c s f
  end.

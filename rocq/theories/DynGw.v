(** Model of the plugins that announce networks while there are routes to them
    (lib/dyn_gw/src/olsrd_dyn_gw.c and lib/dyn_gw_plain/src/olsrd_dyn_gw_plain.c), for IPv4.
    The lists of HNAs of the groups are one list with the number of the group in each
    entry, in the order in which the loops go through them.  The text of /proc/net/route
    is a list of lines that have been read; there is memory for calloc.  The thread that
    pings takes turns with the main thread between two HNAs; what the command ping_cmd
    answers is given.  Definitions only. *)
From Verif Require Import Base Parser IpCalc.

(** lib/dyn_gw/src/olsrd_dyn_gw.c:107-114 struct hna_list, with the number of its group *)
Record hna := mkH { h_grp : nat; h_addr : list Z; h_plen : Z; h_added : bool; h_checked : bool; h_active : bool }.
(** lib/dyn_gw/src/olsrd_dyn_gw.c:118-123 struct hna_group without its HNAs: the addresses to
    ping and probe_ok *)
Record group := mkG { g_pings : list (list Z); g_ok : bool }.
(** olsr_cnf->hna_entries, src/olsr_cfg.h:252-255, 305 *)
Definition nets := list (list Z * Z).
(** a line of /proc/net/route, lib/dyn_gw/src/olsrd_dyn_gw.c:494-504: destination and
    netmask as bytes, flags, metric *)
Record line := mkR { r_dst : list Z; r_mask : list Z; r_flags : Z; r_metric : Z }.
(** the plugin: groups, HNAs, hna_ping_check (lib/dyn_gw/src/olsrd_dyn_gw.c:125-126), where
    looped_checks is in its loops (373-398), and olsr_cnf->hna_entries *)
Record dst := mkD { d_groups : list group; d_hnas : list hna; d_ping : bool; d_pos : nat; d_ents : nets }.

(** src/cfgparser/olsrd_conf.c:1463-1476 ip_prefix_list_add *)
Definition net_add (p : list Z * Z) (l : nets) : nets := p :: l.
(** a comparison of src/cfgparser/olsrd_conf.c:1484 *)
Definition net_eqb (p q : list Z * Z) : bool := bytes_eqb (fst p) (fst q) && (snd p =? snd q).
(** src/cfgparser/olsrd_conf.c:1478-1503 ip_prefix_list_remove until it returns 0, as in
    lib/dyn_gw/src/olsrd_dyn_gw.c:360-362 *)
Definition net_remove_all (p : list Z * Z) (l : nets) : nets := filter (fun q => negb (net_eqb p q)) l.

(** ** Parameters *)
(** a line of the configuration: "ping" or "hna" with what inet_pton makes of it
    (lib/dyn_gw/src/olsrd_dyn_gw.c:154, 193-201); lines that are refused are left out *)
Inductive param := PPing (a : list Z) | PHna (a mask : list Z).
(** lib/dyn_gw/src/olsrd_dyn_gw.c:118-123: a group with its HNAs (address and length of the
    prefix), newest first as all lists *)
Definition pgroup := (list (list Z) * nets)%type.
(** lib/dyn_gw/src/olsrd_dyn_gw.c:149-173 set_plugin_ping and 175-213 set_plugin_hna *)
Definition set_param (gs : list pgroup) (p : param) : list pgroup :=
  match p with
  | PPing a =>
      match gs with
      | [] => [([a], [])]
      | (ps, hs) :: r => match hs with [] => (a :: ps, hs) :: r | _ => ([a], []) :: gs end
      end
  | PHna a m =>
      match gs with
      | [] => [([], [(a, netmask_to_prefix m)])]
      | (ps, hs) :: r => (ps, (a, netmask_to_prefix m) :: hs) :: r
      end
  end.
(** the HNAs of all groups with the numbers of the groups, lib/dyn_gw/src/olsrd_dyn_gw.c:350-351 *)
Fixpoint flatten (i : nat) (gs : list pgroup) : list hna :=
  match gs with
  | [] => []
  | (_, hs) :: r => map (fun p => mkH i (fst p) (snd p) false false false) hs ++ flatten (S i) r
  end.
(** lib/dyn_gw/src/olsrd_dyn_gw.c:258-275: the default gateway for a first group without HNA *)
Definition with_default (gs : list pgroup) : list pgroup :=
  match gs with
  | [] => [([], [([0; 0; 0; 0], netmask_to_prefix [0; 0; 0; 0])])]
  | (ps, hs) :: r => (ps, match hs with [] => [([0; 0; 0; 0], netmask_to_prefix [0; 0; 0; 0])] | _ => hs end) :: r
  end.
(** lib/dyn_gw/src/olsrd_dyn_gw.c:170 hna_ping_check *)
Definition any_ping (ps : list param) : bool := existsb (fun p => match p with PPing _ => true | _ => false end) ps.

(** ** The routing table *)
(** lib/dyn_gw/src/olsrd_dyn_gw.c:422-423 with olsr_prefix_to_netmask *)
Definition fits (x : line) (h : hna) : bool :=
  bytes_eqb (h_addr h) (r_dst x) && bytes_eqb (fst (prefix_to_netmask 4 (h_plen h))) (r_mask x).
(** setting checked of the HNA that lib/dyn_gw/src/olsrd_dyn_gw.c:413-429 find_hna returns,
    line 518 *)
Fixpoint check_first (x : line) (l : list hna) : list hna :=
  match l with
  | [] => []
  | h :: r => if fits x h then mkH (h_grp h) (h_addr h) (h_plen h) (h_added h) true (h_active h) :: r else h :: check_first x r
  end.
(** lib/dyn_gw/src/olsrd_dyn_gw.c:512-519 for one line; RTF_UP is 1; [dm] is
    olsr_cnf->fib_metric_default *)
Definition one_line (dm : Z) (l : list hna) (x : line) : list hna :=
  if (r_flags x mod 2 =? 1) && negb (r_metric x =? dm) then check_first x l else l.
(** lib/dyn_gw/src/olsrd_dyn_gw.c:463-535 update_routing; None: the file cannot be opened *)
Definition update_routing (dm : Z) (t : option (list line)) (l : list hna) : list hna :=
  match t with
  | None => l
  | Some lines =>
      let l0 := map (fun h => mkH (h_grp h) (h_addr h) (h_plen h) (h_added h) false (h_active h)) l in
      map (fun h => mkH (h_grp h) (h_addr h) (h_plen h) (h_added h) (h_checked h) (h_checked h)) (fold_left (one_line dm) lines l0)
  end.

(** lib/dyn_gw/src/olsrd_dyn_gw.c:253-312 olsrd_plugin_init with the parameters [ps], the
    entries [e] and the table [t] *)
Definition init (dm : Z) (ps : list param) (e : nets) (t : option (list line)) : dst :=
  let gs := with_default (fold_left set_param ps []) in
  {| d_groups := map (fun g => mkG (fst g) (negb (any_ping ps))) gs;
     d_hnas := update_routing dm t (flatten 0 gs); d_ping := any_ping ps; d_pos := 0; d_ents := e |}.

(** ** The timer *)
(** probe_ok of the group of an HNA, lib/dyn_gw/src/olsrd_dyn_gw.c:353, 359 *)
Definition ok_of (gs : list group) (h : hna) : bool := match nth_error gs (h_grp h) with Some g => g_ok g | None => false end.
(** lib/dyn_gw/src/olsrd_dyn_gw.c:352-364 for one HNA *)
Definition sync_one (gs : list group) (h : hna) (e : nets) : hna * nets :=
  let set b := mkH (h_grp h) (h_addr h) (h_plen h) b (h_checked h) (h_active h) in
  if negb (h_added h) then
    if ok_of gs h && h_active h then (set true, net_add (h_addr h, h_plen h) e) else (h, e)
  else
    if negb (ok_of gs h) || negb (h_active h) then (set false, net_remove_all (h_addr h, h_plen h) e) else (h, e).
(** lib/dyn_gw/src/olsrd_dyn_gw.c:348-366: the loops *)
Fixpoint sync (gs : list group) (l : list hna) (e : nets) : list hna * nets :=
  match l with
  | [] => ([], e)
  | h :: r => let (h', e1) := sync_one gs h e in let (r', e2) := sync gs r e1 in (h' :: r', e2)
  end.
(** lib/dyn_gw/src/olsrd_dyn_gw.c:340-367 olsr_event_doing_hna *)
Definition timer (dm : Z) (t : option (list line)) (s : dst) : dst :=
  let (l, e) := sync (d_groups s) (update_routing dm t (d_hnas s)) (d_ents s) in
  {| d_groups := d_groups s; d_hnas := l; d_ping := d_ping s; d_pos := d_pos s; d_ents := e |}.

(** ** The thread *)
(** lib/dyn_gw/src/olsrd_dyn_gw.c:580-596 ping_is_possible: the pings made with their answers *)
Fixpoint pings (ans : list Z -> bool) (l : list (list Z)) : list (list Z * bool) * bool :=
  match l with
  | [] => ([], false)
  | a :: r => if ans a then ([(a, true)], true) else let (log, ok) := pings ans r in ((a, false) :: log, ok)
  end.
(** lib/dyn_gw/src/olsrd_dyn_gw.c:545-570 check_gw *)
Definition check_gw (ans : list Z -> bool) (l : list (list Z)) : list (list Z * bool) * bool :=
  match l with [] => ([], true) | _ => pings ans l end.
(** writing probe_ok of group [i], lib/dyn_gw/src/olsrd_dyn_gw.c:392 *)
Fixpoint set_ok (i : nat) (b : bool) (gs : list group) : list group :=
  match gs with
  | [] => []
  | g :: r => match i with O => mkG (g_pings g) b :: r | S i' => g :: set_ok i' b r end
  end.
(** the next HNA of another group, after the break in lib/dyn_gw/src/olsrd_dyn_gw.c:393-394 *)
Fixpoint skip_group (i : nat) (g : nat) (l : list hna) : nat :=
  match l with
  | [] => i
  | h :: r => if (h_grp h =? g)%nat then skip_group (S i) g r else i
  end.
(** lib/dyn_gw/src/olsrd_dyn_gw.c:383-395: one HNA in the loops of looped_checks, and the next
    round after the last; the state and the pings with the number of the group *)
Definition thread (ans : list Z -> bool) (s : dst) : dst * list (nat * list Z * bool) :=
  let at_ gs p := {| d_groups := gs; d_hnas := d_hnas s; d_ping := d_ping s; d_pos := p; d_ents := d_ents s |} in
  if negb (d_ping s) then (s, [])
  else match nth_error (d_hnas s) (d_pos s) with
       | None => (at_ (d_groups s) 0%nat, [])
       | Some h =>
           if negb (h_active h) then (at_ (d_groups s) (S (d_pos s)), [])
           else match nth_error (d_groups s) (h_grp h) with
                | None => (s, [])
                | Some g =>
                    let (log, ok) := check_gw ans (g_pings g) in
                    (at_ (set_ok (h_grp h) ok (d_groups s))
                         (if ok then skip_group (S (d_pos s)) (h_grp h) (skipn (S (d_pos s)) (d_hnas s)) else S (d_pos s)),
                     map (fun x => (h_grp h, fst x, snd x)) log)
                end
       end.

(** what happens: the timer with the routing table as it is then, a step of the thread with
    the answers to pings, lib/dyn_gw/src/olsrd_dyn_gw.c:281, 310 *)
Inductive event := Timer (t : option (list line)) | Thread (ans : list Z -> bool).
(** one of them, with the pings that are made, lib/dyn_gw/src/olsrd_dyn_gw.c:281, 310 *)
Definition step (dm : Z) (s : dst) (e : event) : dst * list (nat * list Z * bool) :=
  match e with Timer t => (timer dm t s, []) | Thread ans => thread ans s end.
(** a run, lib/dyn_gw/src/olsrd_dyn_gw.c:281, 310: the state and all pings *)
Fixpoint run (dm : Z) (s : dst) (l : list event) : dst * list (nat * list Z * bool) :=
  match l with
  | [] => (s, [])
  | e :: r => let (s1, l1) := step dm s e in let (s2, l2) := run dm s1 r in (s2, l1 ++ l2)
  end.

(** ** The plugin dyn_gw_plain *)
(** lib/dyn_gw_plain/src/olsrd_dyn_gw_plain.c:131-190 check_gw; None is -1.  INET_NET and
    INET_PREFIX are 0 *)
Definition plain_check (t : option (list line)) : option bool :=
  match t with
  | None => None
  | Some lines => Some (existsb (fun x => (r_flags x mod 2 =? 1) && (r_metric x =? 0) && bytes_eqb (r_mask x) [0; 0; 0; 0] && bytes_eqb (r_dst x) [0; 0; 0; 0]) lines)
  end.
(** the default route, lib/dyn_gw_plain/src/olsrd_dyn_gw_plain.c:113-114, 120 *)
Definition inet : list Z * Z := ([0; 0; 0; 0], netmask_to_prefix [0; 0; 0; 0]).
(** lib/dyn_gw_plain/src/olsrd_dyn_gw_plain.c:110-129 olsrd_plugin_init: has_inet_gateway and
    the entries *)
Definition plain_init (e : nets) : bool * nets := (false, net_remove_all inet e).
(** lib/dyn_gw_plain/src/olsrd_dyn_gw_plain.c:196-211 olsr_event *)
Definition plain_event (t : option (list line)) (s : bool * nets) : bool * nets :=
  match plain_check t with
  | Some true => if fst s then s else (true, net_add inet (snd s))
  | Some false => if fst s then (false, net_remove_all inet (snd s)) else s
  | None => s
  end.
(** the timer again and again, lib/dyn_gw_plain/src/olsrd_dyn_gw_plain.c:126 *)
Definition plain_run (e : nets) (l : list (option (list line))) : bool * nets := fold_left (fun s t => plain_event t s) l (plain_init e).

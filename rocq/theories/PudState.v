(** The movement state of the PUD plugin (lib/pud/src/state.c), what it is used for
    (lib/pud/src/receiver.c), and the cluster leader (lib/pud/src/uplinkGateway.c), on a host
    with the low byte first.  How movement is found from two positions is an input. *)
From Verif Require Import Base.

(** ** Hysteresis *)
(** unsigned long long, lib/pud/src/state.c:62 *)
Definition u64 (x : Z) : Z := x mod 18446744073709551616.
(** lib/pud/src/state.c:60-66 SubStateType; true: moving *)
Record sub := mkSub { s_int : bool; s_cnt : Z; s_tostat : Z; s_tomov : Z; s_ext : bool }.
(** lib/pud/src/state.c:69-72 StateType *)
Record state := mkState { st_pos : sub; st_gw : sub; st_ext : bool }.
(** the thresholds of the configuration, lib/pud/src/configuration.c:1299-1365 *)
Record hyst := mkHyst { h_pstat : Z; h_pmov : Z; h_gstat : Z; h_gmov : Z }.
(** lib/pud/src/state.c:85-97 initState *)
Definition init_state (h : hyst) : state :=
  mkState (mkSub false 0 (h_pstat h) (h_pmov h) false) (mkSub true 0 (h_gstat h) (h_gmov h) true) true.
(** lib/pud/src/state.h:61-65 TristateBoolean *)
Definition SET : Z := 2.
(** lib/pud/src/state.c:130-197: the substate after a call *)
Definition sub_step (mv : Z) (gpnon : bool) (s : sub) : sub :=
  let i := (mv =? SET) || gpnon in
  let c := if Bool.eqb (s_int s) i then s_cnt s else 0 in
  if Bool.eqb i (s_ext s) then mkSub i c (s_tostat s) (s_tomov s) (s_ext s)
  else if i then
    let c := if gpnon then s_tomov s else u64 (c + 1) in
    mkSub i c (s_tostat s) (s_tomov s) (if c >=? s_tomov s then true else s_ext s)
  else
    let c := u64 (c + 1) in
    mkSub i c (s_tostat s) (s_tomov s) (if c >=? s_tostat s then false else s_ext s).
(** lib/pud/src/state.c:118-230 determineStateWithHysteresis; [g]: for the gateway.  The new
    state, whether the external state changed, whether that of the substate changed *)
Definition determine (g : bool) (mv : Z) (gpnon : bool) (s : state) : state * bool * bool :=
  let old := if g then st_gw s else st_pos s in
  let new := sub_step mv gpnon old in
  let p := if g then st_pos s else new in
  let w := if g then new else st_gw s in
  let ch := negb (Bool.eqb (s_ext old) (s_ext new)) in
  if ch then
    if s_ext new || (negb (s_ext p) && negb (s_ext w)) then (mkState p w (s_ext new), negb (Bool.eqb (st_ext s) (s_ext new)), ch)
    else (mkState p w (st_ext s), false, ch)
  else (mkState p w (st_ext s), false, ch).
(** a call of that function: for the gateway, moving, gpnonChanged; lib/pud/src/state.c:118 *)
Definition call : Type := bool * Z * bool.
(** calls one after the other; lib/pud/src/receiver.c:582, 921 *)
Definition calls (l : list call) (s : state) : state := fold_left (fun s c => fst (fst (determine (fst (fst c)) (snd (fst c)) (snd c) s))) l s.

(** ** Updates *)
(** a position: a name for it, whether it is valid, and the two fields that are cleared;
    lib/pud/src/receiver.c:162-165, 942-945 *)
Record position := mkP { p_id : Z; p_valid : bool; p_speed : Z; p_track : Z }.
(** the intervals in seconds, stationary and moving, and whether there is an uplink;
    lib/pud/src/configuration.c:1013-1120 *)
Record conf := mkC { c_hyst : hyst; c_stat : Z; c_mov : Z; c_ustat : Z; c_umov : Z; c_uplink : bool; c_main : list Z }.
(** lib/pud/src/receiver.c:108-109: the position and gateway to send, gpnonPrev of line 880, and
    the periods of the two timers in milliseconds *)
Record rstate := mkR { r_st : state; r_pos : position; r_gw : list Z; r_gpnon : bool; r_timer : Z; r_utimer : Z }.
(** a transmission: over OLSR, over the uplink, the position with the interval for the
    validity time, and the gateway; lib/pud/src/receiver.c:174-315 *)
Record sent := mkT { t_olsr : bool; t_uplink : bool; t_pos : position; t_val : Z; t_gw : list Z }.
(** lib/pud/src/receiver.c:518-538 and lib/pud/src/timers.c:165, 256: the milliseconds are an
    unsigned int *)
Definition period (stat mov : Z) (moving : bool) : Z := u32 (u64 ((if moving then mov else stat) * 1000)).
(** lib/pud/src/receiver.c:174-315 txToAllOlsrInterfaces *)
Definition tx (c : conf) (o u : bool) (r : rstate) : sent :=
  mkT o (u && c_uplink c) (r_pos r) (if st_ext (r_st r) then c_mov c else c_stat c) (r_gw r).
(** lib/pud/src/receiver.c:540-554 doImmediateTransmit *)
Definition immediate (c : conf) (r : rstate) : rstate * list sent :=
  let m := st_ext (r_st r) in
  let r := mkR (r_st r) (r_pos r) (r_gw r) (r_gpnon r) (period (c_stat c) (c_mov c) m) (if c_uplink c then period (c_ustat c) (c_umov c) m else r_utimer r) in
  (r, [tx c true (c_uplink c) r]).
(** lib/pud/src/receiver.c:562-595 pud_gateway_timer_callback *)
Definition gateway_check (c : conf) (best : list Z) (r : rstate) : rstate * list sent :=
  let mv := if if list_eq_dec Z.eq_dec best (r_gw r) then true else false then 1 else SET in
  let '(s, ch, _) := determine true mv false (r_st r) in
  let r := mkR s (r_pos r) (if mv =? SET then best else r_gw r) (r_gpnon r) (r_timer r) (r_utimer r) in
  if ch then immediate c r else (r, []).
(** lib/pud/src/receiver.c:879-951 receiverProcessIncomingEntry: the average position, what
    lines 610-877 say about moving and about being inside (if both positions are valid, lines
    653-664), and whether there is no information *)
Definition incoming (c : conf) (avg : position) (mv : Z) (inside gpnon : bool) (r : rstate) : rstate * list sent :=
  let chg := negb (Bool.eqb gpnon (r_gpnon r)) in
  let both := p_valid avg && p_valid (r_pos r) in
  let '(s, ch, sch) := determine false (if both then mv else 0) chg (r_st r) in
  let upd := sch || (p_valid avg && negb (p_valid (r_pos r))) || (both && inside) in
  let p := if st_ext s then avg else if upd then mkP (p_id avg) (p_valid avg) 0 0 else r_pos r in
  let r := mkR s p (r_gw r) gpnon (r_timer r) (r_utimer r) in
  if ch then immediate c r else (r, []).
(** what happens: a position, a check of the gateway, and the timers; lib/pud/src/receiver.c:457-500 *)
Inductive event := Incoming (avg : position) (mv : Z) (inside gpnon : bool) | Gateway (best : list Z) | Tick | UplinkTick.
(** see above, lib/pud/src/receiver.c:457-500 *)
Definition step (c : conf) (e : event) (r : rstate) : rstate * list sent :=
  match e with
  | Incoming avg mv i g => incoming c avg mv i g r
  | Gateway b => gateway_check c b r
  | Tick => (r, [tx c true false r])
  | UplinkTick => (r, [tx c false true r])
  end.
(** one after the other, with what was sent; src/scheduler.c:690-740 *)
Fixpoint run (c : conf) (l : list event) (r : rstate) : rstate * list sent :=
  match l with [] => (r, []) | e :: l => let '(r1, o1) := step c e r in let '(r2, o2) := run c l r1 in (r2, o1 ++ o2) end.
(** lib/pud/src/pud.c:335 and lib/pud/src/receiver.c:979-1040 startReceiver; [p]: the position
    of the position file, or one that is not valid *)
Definition start (c : conf) (p : position) : rstate :=
  let s := init_state (c_hyst c) in
  mkR s p (c_main c) false (period (c_stat c) (c_mov c) (st_ext s)) (period (c_ustat c) (c_umov c) (st_ext s)).

(** ** The cluster leader *)
(** src/gateway.h:98-112, with the path cost of the originator if it is in the topology *)
Record gwe := mkG { g_org : list Z; g_up : Z; g_down : Z; g_cost : option Z; g_v4 : bool; g_nat : bool; g_v6 : bool }.
(** the settings and the gateways in use; lib/pud/src/uplinkGateway.c:97-109 *)
Record gcfg := mkGc { n_v6 : bool; n_niit : bool; n_nat : bool; n_main : list Z; n_cur4 : option (list Z); n_cur6 : option (list Z) }.
(** lib/pud/src/uplinkGateway.c:97, 105: the same entry *)
Definition is_cur (g : gwe) (o : option (list Z)) : bool := match o with Some a => if list_eq_dec Z.eq_dec a (g_org g) then true else false | None => false end.
(** lib/pud/src/uplinkGateway.c:89-95 *)
Definition usable (g : gwe) : bool :=
  match g_cost g with Some k => negb ((k >=? 4294967295) || (g_up g =? 0) || (g_down g =? 0)) | None => false end.
(** lib/pud/src/uplinkGateway.c:97-103 *)
Definition eval4 (c : gcfg) (g : gwe) : bool := is_cur g (n_cur4 c) || (g_v4 g && (negb (n_v6 c) || n_niit c) && (n_nat c || negb (g_nat g))).
(** lib/pud/src/uplinkGateway.c:105-109 *)
Definition eval6 (c : gcfg) (g : gwe) : bool := is_cur g (n_cur6 c) || (g_v6 g && n_v6 c).
(** lib/pud/src/uplinkGateway.c:63-65 gw_speed: the sum of two uint32_t *)
Definition gw_speed (g : gwe) : Z := u32 (g_up g + g_down g).
(** the four bytes as they are in memory, as a number; src/ipcalc.h:74 *)
Definition le4 (a : list Z) : Z := nth 0 a 0 + 256 * nth 1 a 0 + 65536 * nth 2 a 0 + 16777216 * nth 3 a 0.
(** src/ipcalc.h:83-86 ip6cmp is less than 0: memcmp *)
Fixpoint mem_lt (a b : list Z) : bool :=
  match a, b with x :: a, y :: b => if x <? y then true else if x =? y then mem_lt a b else false | _, _ => false end.
(** lib/pud/src/uplinkGateway.c:113-129 *)
Definition better (c : gcfg) (g : gwe) (b : gwe) : bool :=
  if gw_speed g >? gw_speed b then true
  else if gw_speed g =? gw_speed b then if eval4 c g then le4 (g_org g) <? le4 (g_org b) else mem_lt (g_org g) (g_org b)
  else false.
(** lib/pud/src/uplinkGateway.c:85-131 *)
Definition choose (c : gcfg) (b : option gwe) (g : gwe) : option gwe :=
  if usable g && (eval4 c g || eval6 c g) then match b with None => Some g | Some x => if better c g x then Some g else b end else b.
(** lib/pud/src/uplinkGateway.c:80-140 getBestUplinkGateway *)
Definition best_gateway (c : gcfg) (l : list gwe) : list Z :=
  match fold_left (choose c) l None with Some g => g_org g | None => n_main c end.

(** The checks on the configuration at start (src/cfgparser/olsrd_conf.c:336-992,
    called by src/main.c:530 with cnf = olsr_cnf) and the numbers of routing tables and
    rules handed out in multi-gateway mode (src/gateway.c:495-516, 853-902).

    Simplifications: a float is a rational number, an infinity or NaN; the constants are
    the exact values of 0.01f and 0.1f.  The options of an interface that are checked
    (intervals, validity times, multipliers) are given as values; the byte-wise mixing
    with the defaults is ConfIf.v.  The printing is left out.  Linux with a kernel not
    older than 2.6.24. *)
From Coq Require Import QArith.
From Verif Require Import Base ConfIf.

(** float, src/olsr_cfg.h:207-208 and 309-385 *)
Inductive fl := Fin (q : Q) | Inf (neg : bool) | NaN.

(** the operator < on floats, as used in src/cfgparser/olsrd_conf.c:484-646 *)
Definition flt (a b : fl) : bool :=
  match a, b with
  | NaN, _ => false
  | _, NaN => false
  | Fin p, Fin q => negb (Qle_bool q p)
  | Inf true, Inf true => false
  | Inf true, _ => true
  | _, Inf true => false
  | Inf false, _ => false
  | Fin _, Inf false => true
  end.

(** the operator <= on floats, as used in src/cfgparser/olsrd_conf.c:576 *)
Definition fle (a b : fl) : bool :=
  match a, b with
  | NaN, _ => false
  | _, NaN => false
  | _, _ => negb (flt b a)
  end.

(** 0.01f: src/olsr_cfg.h:138 MIN_POLLRATE and 156 MIN_LQ_AGING, converted to float in
    src/cfgparser/olsrd_conf.c:595, 640 *)
Definition f001 : fl := Fin (10737418 # 1073741824).
(** 0.1f, src/cfgparser/olsrd_conf.c:646 *)
Definition f01 : fl := Fin (13421773 # 134217728).
(** whole numbers as floats, src/olsr_cfg.h:137-155 *)
Definition fz (z : Z) : fl := Fin (inject_Z z).

(** the outcome of a check: src/cfgparser/olsrd_conf.c:336-992 returns -1 ([Rej]) or 0
    ([Acc], with the changed configuration); [Ub]: the behaviour is undefined *)
Inductive res (A : Type) := Rej | Ub | Acc (a : A).
Arguments Rej {A}. Arguments Ub {A}. Arguments Acc {A} a.

(** `if (b) return -1;`, src/cfgparser/olsrd_conf.c:336-992 *)
Definition rej_if {A} (b : bool) (k : res A) : res A := if b then Rej else k.

(** * Routing policy *)

(** src/olsr_cfg.h:289-296, fields rt_proto to rt_table_default_pri *)
Record rtp := {
  r_tab : Z; r_tabd : Z; r_tabt : Z;
  r_pri : Z; r_prio : Z; r_prit : Z; r_prid : Z;
  r_proto : Z }.

(** src/olsr_cfg.h:84-85 *)
Definition rt_none : Z := -1.
(** see above, src/olsr_cfg.h:84-85 *)
Definition rt_auto : Z := 0.

(** src/cfgparser/olsrd_conf.c:343-366: AUTO replaced by a default *)
Definition auto_or (d x : Z) : Z := if x =? rt_auto then d else x.

(** addition of ints, src/cfgparser/olsrd_conf.c:391, 400, 409: overflow is undefined *)
Definition iadd {A} (a b : Z) (k : Z -> res A) : res A :=
  if a + b >? 2147483647 then Ub else k (a + b).

(** src/cfgparser/olsrd_conf.c:342-367: no smart gateway *)
Definition defaults_plain (r : rtp) : rtp :=
  {| r_tab := auto_or 254 (r_tab r); r_tabd := auto_or 254 (r_tabd r); r_tabt := 254;
     r_pri := auto_or rt_none (r_pri r); r_prio := auto_or rt_none (r_prio r);
     r_prit := auto_or rt_none (r_prit r); r_prid := auto_or rt_none (r_prid r);
     r_proto := r_proto r |}.

(** one step of src/cfgparser/olsrd_conf.c:391-416: the running number [prio] and the new
    value of a priority *)
Definition next_prio {A} (prio x : Z) (k : Z -> Z -> res A) : res A :=
  iadd prio 10 (fun p =>
    if x >? 0 then k x x else k p (if x =? rt_auto then p else x)).

(** src/cfgparser/olsrd_conf.c:369-417: with smart gateway *)
Definition defaults_sgw {A} (r : rtp) (k : rtp -> res A) : res A :=
  let prio0 := if r_pri r >? 0 then r_pri r else 32766 in
  let pri := if r_pri r >? 0 then r_pri r else auto_or rt_none (r_pri r) in
  next_prio prio0 (r_prio r) (fun p1 prio =>
  next_prio p1 (r_prit r) (fun p2 prit =>
  next_prio p2 (r_prid r) (fun _ prid =>
    k {| r_tab := auto_or 254 (r_tab r); r_tabd := auto_or 223 (r_tabd r);
         r_tabt := auto_or 224 (r_tabt r);
         r_pri := pri; r_prio := prio; r_prit := prit; r_prid := prid;
         r_proto := r_proto r |}))).

(** src/cfgparser/olsrd_conf.c:420-469: order of the priorities, tables, protocol *)
Definition check_prios (r : rtp) : res rtp :=
  rej_if ((r_pri r >? 0) && (r_tab r >=? 253)) (
  let p0 := r_pri r in
  rej_if ((r_prio r >? 0) && ((p0 >=? r_prio r) || (r_tabd r >=? 253))) (
  let p1 := if r_prio r >? 0 then r_prio r else p0 in
  rej_if ((r_prit r >? 0) && ((p1 >=? r_prit r) || (r_tabt r >=? 253))) (
  let p2 := if r_prit r >? 0 then r_prit r else p1 in
  rej_if ((r_prid r >? 0) && ((p2 >=? r_prid r) || (r_tabd r >=? 253))) (
  Acc {| r_tab := r_tab r; r_tabd := r_tabd r; r_tabt := r_tabt r;
         r_pri := r_pri r; r_prio := r_prio r; r_prit := r_prit r; r_prid := r_prid r;
         r_proto := if r_proto r =? 1 then 0
                    else if r_proto r =? 0 then 3 else r_proto r |})))).

(** src/cfgparser/olsrd_conf.c:336-472 olsrd_sanity_check_rtpolicy *)
Definition rtpolicy (sgw : bool) (r : rtp) : res rtp :=
  if sgw then defaults_sgw r check_prios else check_prios (defaults_plain r).

(** * Interfaces *)

(** src/olsr_cfg.h:206-209 struct olsr_msg_params *)
Record msgp := { em : fl; vt : fl }.
(** src/olsr_cfg.h:222-238: the checked values of struct if_config_options *)
Record ifvals := { v_hello : msgp; v_tc : msgp; v_mid : msgp; v_hna : msgp;
                   v_mults : list (addr * Z) }.
(** what an interface block sets itself; None: not set (src/cfgparser/oparse.y:985-1036) *)
Record ownvals := {
  o_hello : option fl * option fl; o_tc : option fl * option fl;
  o_mid : option fl * option fl; o_hna : option fl * option fl;
  o_mults : list (addr * Z) }.
(** src/olsr_cfg.h:240-248 struct olsr_if *)
Record ifc := { i_name : list Z; i_own : ownvals }.

(** src/cfgparser/olsrd_conf.c:942-947: own value, else default; see ConfIf.v *)
Definition eff (own : option fl) (d : fl) : fl :=
  match own with Some v => v | None => d end.
(** the same for a pair of values, src/cfgparser/olsrd_conf.c:942-947 *)
Definition effp (own : option fl * option fl) (d : msgp) : msgp :=
  {| em := eff (fst own) (em d); vt := eff (snd own) (vt d) |}.

(** src/cfgparser/olsrd_conf.c:942-983: defaults applied, multipliers merged *)
Definition apply_defaults (d : ifvals) (o : ownvals) : ifvals :=
  {| v_hello := effp (o_hello o) (v_hello d); v_tc := effp (o_tc o) (v_tc d);
     v_mid := effp (o_mid o) (v_mid d); v_hna := effp (o_hna o) (v_hna d);
     v_mults := merge_mults (o_mults o) (v_mults d) |}.

(** src/cfgparser/olsrd_conf.c:1201-1232 get_default_if_config *)
Definition builtin : ifvals :=
  {| v_hello := {| em := fz 2; vt := fz 20 |}; v_tc := {| em := fz 5; vt := fz 300 |};
     v_mid := {| em := fz 5; vt := fz 300 |}; v_hna := {| em := fz 5; vt := fz 300 |};
     v_mults := [] |}.

(** src/cfgparser/olsrd_conf.c:491, 498, 510, 517: interval below the poll rate or above
    the validity time *)
Definition bad_params (poll : fl) (p : msgp) : bool :=
  flt (em p) poll || flt (vt p) (em p).

(** src/cfgparser/olsrd_conf.c:504: v / e < 128.0f; for floats the rounding of the
    quotient does not matter here, as 128 - 2^-17 is a float *)
Definition quot_lt_128 (v e : fl) : bool :=
  match v, e with
  | Fin v, Fin e =>
      if negb (Qle_bool e 0) then negb (Qle_bool (128 * e) v)
      else if Qle_bool 0 e then negb (Qle_bool 0 v)
      else negb (Qle_bool v (128 * e))
  | Inf s, Fin e => if Qle_bool 0 e then s else negb s
  | Fin _, Inf _ => true
  | _, _ => false
  end.

(** src/cfgparser/olsrd_conf.c:483-489: a negative HELLO validity time is replaced; [hold]
    is the value of (int)(REFRESH_INTERVAL / cnf->lq_aging) *)
Definition fix_hello (lq : Z) (hold : Z) (v : ifvals) : ifvals :=
  if flt (vt (v_hello v)) (fz 0) then
    {| v_hello := {| em := em (v_hello v); vt := if lq =? 0 then fz 20 else fz hold |};
       v_tc := v_tc v; v_mid := v_mid v; v_hna := v_hna v; v_mults := v_mults v |}
  else v.

(** src/cfgparser/olsrd_conf.c:491-530: is the interface configuration refused? *)
Definition bad_if (poll mintc : fl) (v : ifvals) : bool :=
  bad_params poll (v_hello v)
  || bad_params poll (v_tc v)
  || (flt (fz 0) mintc && quot_lt_128 (vt (v_tc v)) (em (v_tc v)))
  || bad_params poll (v_mid v)
  || bad_params poll (v_hna v)
  || existsb (fun m => snd m >? 65536) (v_mults v).

(** * The rest of the configuration *)

(** src/olsr_cfg.h:279-385, general part *)
Record gen := {
  g_debug : Z; g_ipv : Z; g_tos : Z; g_will : Z; g_willauto : bool;
  g_hyst : bool; g_hscale : fl; g_hhigh : fl; g_hlow : fl;
  g_poll : fl; g_nic : fl; g_tcred : Z; g_cov : Z;
  g_lq : Z; g_aging : fl; g_nat : fl; g_mintc : fl }.

(** result of stat, src/cfgparser/olsrd_conf.c:731-751 *)
Record stat := { s_reg : bool; s_uid : Z; s_mode : Z }.

(** src/olsr_cfg.h:326-352, smart gateway part; [m_script]: the name and what stat says
    about it; the list of egress interfaces with names that may be NULL *)
Record mgw := {
  m_use : Z; m_takedown : Z; m_id : option (list Z);
  m_script : option (option stat);
  m_egress : list (option (list Z)); m_count : Z;
  m_fper : Z; m_offt : Z; m_offr : Z;
  m_period : Z; m_stable : Z; m_thresh : Z; m_type : Z; m_down : Z; m_up : Z }.

(** src/olsr_cfg.h:279-388 struct olsrd_config *)
Record conf := {
  c_gen : gen; c_sgw : bool; c_rt : rtp; c_gw : mgw;
  c_defs : option ifvals; c_ifs : list ifc }.

(** isspace in the C locale, src/cfgparser/olsrd_conf.c:718 *)
Definition isspace (c : Z) : bool := (c =? 32) || ((9 <=? c) && (c <=? 13)).

(** src/cfgparser/olsrd_conf.c:717-722: the first character looked at is the second one;
    the last one looked at is the terminating zero *)
Definition id_space (s : list Z) : bool := existsb isspace (tl s ++ [0]).

(** src/cfgparser/olsrd_conf.c:706-723 *)
Definition bad_id (o : option (list Z)) : bool :=
  match o with
  | None => true
  | Some s => (Z.of_nat (length s) =? 0) || id_space s
  end.

(** src/cfgparser/olsrd_conf.c:725-752: S_IRUSR is 256, S_IXUSR is 64 *)
Definition bad_script (o : option (option stat)) : bool :=
  match o with
  | None => true
  | Some None => true
  | Some (Some s) =>
      negb (s_reg s) || negb (s_uid s =? 0) || (Z.land (s_mode s) 320 =? 0)
  end.

(** strcmp, src/cfgparser/olsrd_conf.c:774 *)
Definition name_eqb (a b : list Z) : bool := if list_eq_dec Z.eq_dec a b then true else false.

(** src/cfgparser/olsrd_conf.c:762-783, one egress interface; IFNAMSIZ is 16 *)
Definition bad_egress (ifs : list ifc) (o : option (list Z)) : bool :=
  match o with
  | None => true
  | Some n => (Z.of_nat (length n) <? 1) || (Z.of_nat (length n) >? 16)
              || existsb (fun i => name_eqb (i_name i) n) ifs
  end.

(** src/cfgparser/olsrd_conf.c:762-783: the counter is a uint8_t *)
Fixpoint count_egress (ifs : list ifc) (l : list (option (list Z))) (n : Z) : res Z :=
  match l with
  | [] => Acc n
  | o :: r => rej_if (bad_egress ifs o) (count_egress ifs r (u8 (n + 1)))
  end.

(** src/cfgparser/olsrd_conf.c:78 valueInRange and 80-82 rangesOverlap *)
Definition in_rng (v lo hi : Z) : bool := (lo <=? v) && (v <=? hi).
(** see above, src/cfgparser/olsrd_conf.c:78 *)
Definition overlap (l1 h1 l2 h2 : Z) : bool :=
  in_rng l1 l2 h2 || in_rng h1 l2 h2 || in_rng l2 l1 h1 || in_rng h2 l1 h1.

(** src/cfgparser/olsrd_conf.c:797-875: [nifs] OLSR interfaces, [n] egress interfaces,
    [use] gateways; the result is the offset of the rules *)
Definition check_tables (nifs n use offt offr : Z) : res Z :=
  let nt := u32 (1 + n + use) in
  let nb := u32 (n + nifs) in
  let nr := u32 (nb + nt) in
  let tmax := u32 (2147483648 - nt + 1) in
  let rmax := u32 (4294967295 - nr) in
  let thigh := u32 (offt + nt) in
  rej_if (offt =? 0) (
  rej_if (offt >? tmax) (
  rej_if (overlap offt thigh 253 255) (
  rej_if ((offr =? 0) && in_rng offt 1 nb) (
  let rlow := if offr =? 0 then u32 (offt - nb) else offr in
  let rhigh := u32 (rlow + nr) in
  rej_if (rlow =? 0) (
  rej_if (rlow >? rmax) (
  rej_if (overlap rlow rhigh 32766 32767) (
  Acc rlow))))))).

(** the gateway part with a new count and rule offset,
    src/cfgparser/olsrd_conf.c:781, 846 *)
Definition with_gw (m : mgw) (n offr : Z) : mgw :=
  {| m_use := m_use m; m_takedown := m_takedown m; m_id := m_id m;
     m_script := m_script m; m_egress := m_egress m; m_count := n;
     m_fper := m_fper m; m_offt := m_offt m; m_offr := offr;
     m_period := m_period m; m_stable := m_stable m; m_thresh := m_thresh m;
     m_type := m_type m; m_down := m_down m; m_up := m_up m |}.

(** src/cfgparser/olsrd_conf.c:688-876: more than one gateway at a time; AF_INET is 2 *)
Definition check_multi (ipv : Z) (ifs : list ifc) (m : mgw) : res mgw :=
  rej_if (negb (ipv =? 2)) (
  rej_if (m_takedown m >? 100) (
  rej_if (bad_id (m_id m)) (
  rej_if (bad_script (m_script m)) (
  rej_if (match m_egress m with [] => true | _ => false end) (
  match count_egress ifs (m_egress m) (m_count m) with
  | Acc n =>
      rej_if (n >? 32) (
      rej_if (m_fper m <? 1000) (
      match check_tables (u32 (Z.of_nat (length ifs))) n (m_use m) (m_offt m) (m_offr m) with
      | Acc offr => Acc (with_gw m n offr)
      | Rej => Rej
      | Ub => Ub
      end))
  | Rej => Rej
  | Ub => Ub
  end))))).

(** src/cfgparser/olsrd_conf.c:878-910 *)
Definition bad_sgw (m : mgw) : bool :=
  (m_period m <? 1000) || (m_period m >? 320000000)
  || (m_stable m <? 1) || (m_stable m >? 254)
  || (((m_thresh m <? 10) || (m_thresh m >? 100)) && negb (m_thresh m =? 0))
  || (m_type m >=? 4)
  || (m_down m <? 1) || (m_down m >? 320000000)
  || (m_up m <? 1) || (m_up m >? 320000000).

(** src/cfgparser/olsrd_conf.c:542-649; AF_INET6 is 10 *)
Definition bad_gen (g : gen) : bool :=
  (g_debug g <? 0) || (g_debug g >? 9)
  || (negb (g_ipv g =? 2) && negb (g_ipv g =? 10))
  || (g_tos g >? 252)
  || negb (Z.land (g_tos g) 3 =? 0)
  || (negb (g_willauto g) && (g_will g >? 7))
  || (g_hyst g && (flt (g_hscale g) (fz 0) || flt (fz 1) (g_hscale g)
                   || fle (g_hhigh g) (g_hlow g)
                   || flt (g_hhigh g) (fz 0) || flt (fz 1) (g_hhigh g)
                   || flt (g_hlow g) (fz 0) || flt (fz 1) (g_hlow g)))
  || flt (g_poll g) f001 || flt (fz 1) (g_poll g)
  || flt (g_nic g) (fz 1) || flt (fz 100) (g_nic g)
  || negb (g_tcred g =? 2)
  || (g_cov g <? 1) || (g_cov g >? 20)
  || (g_hyst g && negb (g_lq g =? 0))
  || (negb (g_lq g =? 0) && negb (g_lq g =? 2))
  || (negb (g_lq g =? 0) && (flt (g_aging g) f001 || flt (fz 1) (g_aging g)))
  || (negb (g_lq g =? 0) && (flt (g_nat g) f01 || flt (fz 1) (g_nat g))).

(** src/cfgparser/olsrd_conf.c:912-918: the defaults; a refusal of the defaults block is
    ignored, its HELLO validity time may have been replaced *)
Definition the_defaults (lq hold : Z) (o : option ifvals) : ifvals :=
  match o with None => builtin | Some d => fix_hello lq hold d end.

(** src/cfgparser/olsrd_conf.c:921-988, one interface: its effective values *)
Definition check_if (g : gen) (hold : Z) (d : ifvals) (i : ifc) : res ifvals :=
  let v := apply_defaults d (i_own i) in
  rej_if (match i_name i with [] => true | _ => false end) (
  let v' := fix_hello (g_lq g) hold v in
  rej_if (bad_if (g_poll g) (g_mintc g) v') (Acc v')).

(** src/cfgparser/olsrd_conf.c:921-988, all interfaces *)
Fixpoint check_ifs (g : gen) (hold : Z) (d : ifvals) (l : list ifc) : res (list ifvals) :=
  match l with
  | [] => Acc []
  | i :: r =>
      match check_if g hold d i with
      | Acc v => match check_ifs g hold d r with
                 | Acc vs => Acc (v :: vs)
                 | Rej => Rej
                 | Ub => Ub
                 end
      | Rej => Rej
      | Ub => Ub
      end
  end.

(** what olsrd works with after the check: src/main.c:530-537 *)
Record checked := { k_rt : rtp; k_gw : mgw; k_ifs : list ifvals }.

(** src/cfgparser/olsrd_conf.c:536-992 olsrd_sanity_check_cnf *)
Definition sanity (hold : Z) (c : conf) : res checked :=
  rej_if (bad_gen (c_gen c)) (
  match rtpolicy (c_sgw c) (c_rt c) with
  | Rej => Rej
  | Ub => Ub
  | Acc rt =>
  rej_if (match c_ifs c with [] => true | _ => false end) (
  rej_if (flt (g_mintc (c_gen c)) (fz 0)) (
  rej_if ((m_use (c_gw c) <? 1) || (m_use (c_gw c) >? 64)) (
  match (if m_use (c_gw c) >? 1
         then check_multi (g_ipv (c_gen c)) (c_ifs c) (c_gw c) else Acc (c_gw c)) with
  | Rej => Rej
  | Ub => Ub
  | Acc m =>
  rej_if (bad_sgw m) (
  match check_ifs (c_gen c) hold (the_defaults (g_lq (c_gen c)) hold (c_defs c)) (c_ifs c) with
  | Rej => Rej
  | Ub => Ub
  | Acc vs => Acc {| k_rt := rt; k_gw := m; k_ifs := vs |}
  end)
  end)))
  end).

(** * Numbers of tables and rules in multi-gateway mode *)

(** one thing that needs a table or rules: the server tunnel, an egress interface, an OLSR
    interface, a tunnel to a gateway (src/gateway.c:495-516, 862-864, 888-901); None: none *)
Record nums := { n_table : option Z; n_rule : option Z; n_bypass : option Z }.

(** src/gateway.c:508-516 multiGwRulesSgwServerTunnel *)
Definition srv_nums (nifs : Z) (m : mgw) : nums :=
  {| n_table := Some (m_offt m); n_rule := Some (u32 (m_offr m + m_count m + nifs));
     n_bypass := None |}.
(** src/gateway.c:857-879: egress interface number [i], a uint8_t; tableNr is a uint8_t
    (src/egressTypes.h:109) *)
Definition egress_nums (nifs : Z) (m : mgw) (i : Z) : nums :=
  {| n_table := Some (u8 (m_offt m + 1 + u8 i));
     n_rule := Some (u32 (m_offr m + m_count m + nifs + 1 + u8 i));
     n_bypass := Some (u32 (m_offr m + u8 i)) |}.
(** src/gateway.c:482-497 multiGwRulesOlsrInterfaces, interface number [i] *)
Definition olsr_nums (m : mgw) (i : Z) : nums :=
  {| n_table := None; n_rule := None; n_bypass := Some (u32 (m_offr m + m_count m + i)) |}.
(** src/gateway.c:886-901: tunnel number [i]; tableNr is a uint8_t (src/gateway.h:124) *)
Definition tunnel_nums (nifs : Z) (m : mgw) (i : Z) : nums :=
  {| n_table := Some (u8 (u32 (m_offt m + 1 + m_count m + i)));
     n_rule := Some (u32 (m_offr m + m_count m + nifs + 1 + m_count m + i));
     n_bypass := None |}.

(** 0, 1, ..., n-1: the loops of src/gateway.c:487, 857, 886 *)
Definition upto (n : nat) : list Z := map Z.of_nat (seq 0 n).

(** src/gateway.c:482-516, 853-902 all of them *)
Definition all_nums (nifs : nat) (m : mgw) : list nums :=
  srv_nums (Z.of_nat nifs) m
  :: map (egress_nums (Z.of_nat nifs) m) (upto (length (m_egress m)))
  ++ map (olsr_nums m) (upto nifs)
  ++ map (tunnel_nums (Z.of_nat nifs) m) (upto (Z.to_nat (m_use m))).

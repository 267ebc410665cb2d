(** What a checked configuration should be. *)
From Coq Require Import QArith Sorting.Sorted.
From Verif Require Import Base ConfIf ConfCheck.

(** order of the floats without NaN *)
Inductive ext_le : fl -> fl -> Prop :=
| le_fin : forall p q, (p <= q)%Q -> ext_le (Fin p) (Fin q)
| le_ninf : forall b, b <> NaN -> ext_le (Inf true) b
| le_pinf : forall a, a <> NaN -> ext_le a (Inf false).

(** a number between two others *)
Definition between (lo hi : Q) (x : fl) : Prop :=
  exists q, x = Fin q /\ (lo <= q)%Q /\ (q <= hi)%Q.

(** 0.01 and 0.1 as floats *)
Definition q001 : Q := 10737418 # 1073741824.
Definition q01 : Q := 13421773 # 134217728.

(** general settings within their limits *)
Record good_gen (g : gen) : Prop := {
  gg_debug : 0 <= g_debug g <= 9;
  gg_ipv : g_ipv g = 2 \/ g_ipv g = 10;
  gg_tos : g_tos g <= 252 /\ g_tos g mod 4 = 0;
  gg_will : g_willauto g = false -> g_will g <= 7;
  gg_hyst : g_hyst g = true ->
    between 0 1 (g_hscale g) /\ between 0 1 (g_hhigh g) /\ between 0 1 (g_hlow g) /\
    ~ ext_le (g_hhigh g) (g_hlow g);
  gg_poll : between q001 1 (g_poll g);
  gg_nic : between 1 100 (g_nic g);
  gg_tcred : g_tcred g = 2;
  gg_cov : 1 <= g_cov g <= 20;
  gg_lq : g_lq g = 0 \/ g_lq g = 2;
  gg_both : ~ (g_hyst g = true /\ g_lq g <> 0);
  gg_aging : g_lq g <> 0 -> between q001 1 (g_aging g) /\ between q01 1 (g_nat g);
  gg_mintc : ext_le (Fin 0) (g_mintc g) }.

(** an interval is at least the poll rate and at most the validity time *)
Definition good_params (poll : fl) (p : msgp) : Prop :=
  ext_le poll (em p) /\ ext_le (em p) (vt p).

(** the validity time is at least 128 times the interval *)
Definition times_128 (p : msgp) : Prop :=
  vt p = Inf false \/ exists e v, em p = Fin e /\ vt p = Fin v /\ (128 * e <= v)%Q.

Record good_if (poll mintc : fl) (v : ifvals) : Prop := {
  gi_hello : good_params poll (v_hello v);
  gi_tc : good_params poll (v_tc v);
  gi_mid : good_params poll (v_mid v);
  gi_hna : good_params poll (v_hna v);
  gi_128 : ~ ext_le mintc (Fin 0) -> times_128 (v_tc v);
  gi_mults : Forall (fun m => snd m <= 65536) (v_mults v) }.

(** smart gateway settings *)
Definition good_sgw (m : mgw) : Prop :=
  1000 <= m_period m <= 320000000 /\ 1 <= m_stable m <= 254 /\
  (m_thresh m = 0 \/ 10 <= m_thresh m <= 100) /\ m_type m <= 3 /\
  1 <= m_down m <= 320000000 /\ 1 <= m_up m <= 320000000.

(** white space *)
Definition space (c : Z) : Prop := c = 32 \/ 9 <= c <= 13.

(** settings for more than one gateway at a time: instance id without white space; script
    that is a file of root which its owner may execute; 1 to 32 egress interfaces with
    names of 1 to 15 characters that are no OLSR interfaces *)
Record good_multi (ipv : Z) (names : list (list Z)) (m : mgw) : Prop := {
  gm_ipv : ipv = 2;
  gm_takedown : m_takedown m <= 100;
  gm_id : exists s, m_id m = Some s /\ s <> [] /\ Forall (fun c => ~ space c) s;
  gm_script : exists st, m_script m = Some (Some st) /\ s_reg st = true /\ s_uid st = 0 /\
    Z.testbit (s_mode st) 6 = true;
  gm_count : (1 <= length (m_egress m) <= 32)%nat;
  gm_names : Forall (fun o => exists n, o = Some n /\ (1 <= length n <= 15)%nat /\ ~ In n names)
    (m_egress m);
  gm_fper : 1000 <= m_fper m }.

(** what the check does not look at: a float that is NaN, white space at the start of the
    instance id, a script that may be read but not executed, names of 16 characters, 256
    or more egress interfaces *)
Record no_gap (c : conf) : Prop := {
  ng_gen : g_hscale (c_gen c) <> NaN /\ g_hhigh (c_gen c) <> NaN /\ g_hlow (c_gen c) <> NaN /\
    g_poll (c_gen c) <> NaN /\ g_nic (c_gen c) <> NaN /\ g_aging (c_gen c) <> NaN /\
    g_nat (c_gen c) <> NaN /\ g_mintc (c_gen c) <> NaN;
  ng_id : forall a r, m_id (c_gw c) = Some (a :: r) -> ~ space a;
  ng_script : forall st, m_script (c_gw c) = Some (Some st) ->
    Z.testbit (s_mode st) 8 = true -> Z.testbit (s_mode st) 6 = true;
  ng_names : forall n, In (Some n) (m_egress (c_gw c)) -> length n <> 16%nat;
  ng_count : (length (m_egress (c_gw c)) < 256)%nat;
  ng_zero : m_count (c_gw c) = 0 }.

(** the intervals and validity times of an interface are no NaN *)
Definition clean_if (v : ifvals) : Prop :=
  Forall (fun p => em p <> NaN /\ vt p <> NaN) [v_hello v; v_tc v; v_mid v; v_hna v].

(** * Routing policy *)

(** the rules that are installed (src/main.c:714-731: unless the priority is -1), with
    their tables, in the order in which they are to be looked at *)
Definition installed (r : rtp) : list (Z * Z) :=
  filter (fun x => negb (fst x =? -1))
    [(r_pri r, r_tab r); (r_prio r, r_tabd r); (r_prit r, r_tabt r); (r_prid r, r_tabd r)].

Definition rules_ok (r : rtp) : Prop :=
  StronglySorted Z.lt (map fst (installed r)) /\
  Forall (fun x => 0 < fst x /\ snd x < 253) (installed r).

(** * Numbers *)
Fixpoint some_of (l : list (option Z)) : list Z :=
  match l with [] => [] | Some x :: r => x :: some_of r | None :: r => some_of r end.

Definition tables_of (l : list nums) : list Z := some_of (map n_table l).
Definition rules_of (l : list nums) : list Z := some_of (map n_rule l) ++ some_of (map n_bypass l).

(** the value in use is the one of the interface block, or else the built-in one *)
Definition in_use (own : option fl) (builtin : Z) (v : fl) : Prop :=
  v = match own with Some x => x | None => Fin (inject_Z builtin) end.
(** the times in use on an interface without a block of defaults; a negative HELLO validity time
    stands for 20 seconds without link quality and for [hold] with it *)
Definition times (lq hold : Z) (i : ifc) (v : ifvals) : Prop :=
  in_use (fst (o_hello (i_own i))) 2 (em (v_hello v)) /\
  in_use (fst (o_tc (i_own i))) 5 (em (v_tc v)) /\ in_use (snd (o_tc (i_own i))) 300 (vt (v_tc v)) /\
  in_use (fst (o_mid (i_own i))) 5 (em (v_mid v)) /\ in_use (snd (o_mid (i_own i))) 300 (vt (v_mid v)) /\
  in_use (fst (o_hna (i_own i))) 5 (em (v_hna v)) /\ in_use (snd (o_hna (i_own i))) 300 (vt (v_hna v)) /\
  (snd (o_hello (i_own i)) = None -> vt (v_hello v) = Fin (inject_Z 20)) /\
  (forall q, snd (o_hello (i_own i)) = Some (Fin q) -> Qle 0 q -> vt (v_hello v) = Fin q) /\
  (forall q, snd (o_hello (i_own i)) = Some (Fin q) -> Qlt q 0 ->
    (lq = 0 -> vt (v_hello v) = Fin (inject_Z 20)) /\ (lq <> 0 -> vt (v_hello v) = Fin (inject_Z hold))).

(** C169: the willingness from the power supply *)
From Coq Require Import String.
From Verif Require Import Base Regex Apm ApmSpec ApmProofs.

(** the first battery [i] has these lines, the ones before it have no file, and no adapter is on *)
Definition battery (y : sys) (i : nat) (li ls : list line) : Prop :=
  (i < 5)%nat /\ (forall j, (j < i)%nat -> y_info y j = None) /\
  y_info y i = Some (flat_map shown li) /\ y_state y i = Some (flat_map shown ls) /\
  (forall j, (j < 3)%nat -> y_ac y j = None) /\
  exists k b rest, li = [(k, str "present:"); (b, str "yes")] :: rest.

(** With one battery, whose files say that N is full and M remains, the willingness on battery
    is 3 from 78 percent on, 2 from 52, 1 from 26, and else 0; values below 21474837 only.
    Missing: batteries that say "present: no", adapters and other texts *)
Theorem C169_battery_partial : forall y i li ls n m,
  battery y i li ls -> Forall info_ok li -> Forall state_ok ls ->
  value (str "full") 1 3 li n -> value (str "remaining") 0 2 ls m -> 0 < n -> m < 21474837 ->
  exists w, willingness MAcpi y = Some w /\
    (w = 3 <-> 78 * n <= 100 * m) /\ (w = 2 <-> 52 * n <= 100 * m < 78 * n) /\
    (w = 1 <-> 26 * n <= 100 * m < 52 * n) /\ (w = 0 <-> 100 * m < 26 * n).
Proof.
  intros y i li ls n m (Hi & Hno & Hinfo & Hstate & Hac & k & b & rest & El) Fi Fs Vi Vs Nn Nm.
  assert (Rn : 0 <= n < 2 ^ 31) by (refine (value_range _ _ _ info_ok _ _ _ Fi Vi); intros l (_ & _ & H) C; apply H; exact C).
  assert (Rm : 0 <= m < 2 ^ 31) by (refine (value_range _ _ _ state_ok _ _ _ Fs Vs); intros l (_ & _ & H) C; apply H; exact C).
  assert (Pa : probe_ac 3 0 y = Some false) by (cbn [probe_ac]; rewrite !Hac by lia; reflexivity).
  assert (Sw : scanw 2 (flat_map shown li) = Some [str "present:"; str "yes"]).
  { subst li. inversion Fi as [|? ? (G & _ & _) _]; subst. destruct G as (_ & W & B). cbn [flat_map].
    assert (E : shown [(k, str "present:"); (b, str "yes")] ++ flat_map shown rest = tail_of [(k, str "present:"); (b, str "yes")] (flat_map shown rest)) by (unfold shown, tail_of; rewrite <- app_assoc; reflexivity).
    rewrite E, scanw_line by (auto; right; cbn; lia). reflexivity. }
  assert (Pb : probe_bat 5 0 y = Some (Some i)).
  { destruct i as [|[|[|[|[|i]]]]]; try lia; cbn [probe_bat]; rewrite ?(Hno 0%nat), ?(Hno 1%nat), ?(Hno 2%nat), ?(Hno 3%nat) by lia; rewrite Hinfo, Sw, Hstate; reflexivity. }
  unfold willingness, read_acpi. rewrite Pa, Pb, Hinfo, Hstate.
  rewrite (lines_ok info_line (upd (str "full") 1 3) info_ok) by (auto using info_line_ok, shown_len; intros l H; apply H).
  rewrite (lines_ok state_line (upd (str "Remaining") 0 2) state_ok) by (auto using state_line_ok, shown_len; intros l H; apply H).
  rewrite (fold_value _ _ _ _ _ 5000 Vi), (fold_value _ _ _ _ _ 0 (value_rem _ _ Vs)).
  change (2 ^ 31) with 2147483648 in Rn, Rm.
  assert (Q : exists p, percent m n = Some p /\ 0 <= p <= 100 /\ (m < n -> p * n <= 100 * m < (p + 1) * n) /\ (n <= m -> p = 100)).
  { unfold percent, iabs. change (- 2 ^ 31) with (-2147483648). replace (n =? -2147483648) with false by lia. replace (m =? -2147483648) with false by lia.
    rewrite !Z.abs_eq by lia. replace (n =? 0) with false by lia. destruct (m >? n) eqn:E1.
    - replace (n >=? n) with true by lia. exists 100. repeat split; lia.
    - destruct (m >=? n) eqn:E2; [exists 100; repeat split; lia|]. change (2 ^ 31) with 2147483648. replace (m * 100 >=? 2147483648) with false by lia.
      exists (m * 100 / n). split; [reflexivity|]. pose proof (Z.div_mod (m * 100) n ltac:(lia)) as D. pose proof (Z.mod_pos_bound (m * 100) n ltac:(lia)) as B.
      set (q := m * 100 / n) in *. set (r := m * 100 mod n) in *. clearbody q r.
      assert (0 <= q) by nia. assert (q <= 100) by nia. split; [lia|]. split; [intros _; nia|lia]. }
  destruct Q as (p & -> & P1 & P2 & P3). eexists. split; [reflexivity|].
  assert (Uq : u8 (Z.quot p 26) = p / 26) by (rewrite Z.quot_div_nonneg by lia; unfold u8; apply Z.mod_small; lia).
  rewrite Uq. destruct (Z_lt_ge_dec m n) as [L|G].
  - specialize (P2 L). clear - P1 P2 Nn. assert (K : p / 26 = 0 /\ 0 <= p <= 25 \/ p / 26 = 1 /\ 26 <= p <= 51 \/ p / 26 = 2 /\ 52 <= p <= 77 \/ p / 26 = 3 /\ 78 <= p <= 100) by lia.
    set (w := p / 26) in *. clearbody w. destruct K as [(-> & K)|[(-> & K)|[(-> & K)|(-> & K)]]]; (split; [|split; [|split]]); split; intros ?; try lia; nia.
  - rewrite (P3 ltac:(lia)). change (100 / 26) with 3. repeat split; intros; lia.
Qed.
Print Assumptions C169_battery_partial.
Definition L1 (l : list (nat * string)) : line := map (fun p => (fst p, str (snd p))) l.
Definition ex_info : list line :=
  [L1 [(0%nat, "present:"%string); (17%nat, "yes"%string)]; L1 [(0%nat, "design"%string); (1%nat, "capacity:"%string); (9%nat, "5000"%string); (1%nat, "mWh"%string)];
   L1 [(0%nat, "last"%string); (1%nat, "full"%string); (1%nat, "capacity:"%string); (6%nat, "4000"%string); (1%nat, "mWh"%string)]].
Definition ex_state (s : string) : list line :=
  [L1 [(0%nat, "present:"%string); (17%nat, "yes"%string)]; L1 [(0%nat, "remaining"%string); (1%nat, "capacity:"%string); (6%nat, s); (1%nat, "mWh"%string)]].
Definition ex_sys (s : string) : sys :=
  mkSys (fun _ => None) (fun i => if (i =? 3)%nat then Some (flat_map shown ex_info) else None) (fun i => if (i =? 3)%nat then Some (flat_map shown (ex_state s)) else None) None.
Example C169_battery_ex : battery (ex_sys "2200") 3 ex_info (ex_state "2200") /\ value (str "full") 1 3 ex_info 4000 /\ willingness MAcpi (ex_sys "2200") = Some 2.
Proof.
  split; [|split; [|vm_compute; reflexivity]].
  - split; [lia|]. split; [intros j H; cbn; destruct (j =? 3)%nat eqn:E; [apply Nat.eqb_eq in E; lia|reflexivity]|].
    split; [reflexivity|]. split; [reflexivity|]. split; [reflexivity|]. eexists _, _, _. reflexivity.
  - exact (v_last (str "full") 1 3 [L1 [(0%nat, "present:"%string); (17%nat, "yes"%string)]; L1 [(0%nat, "design"%string); (1%nat, "capacity:"%string); (9%nat, "5000"%string); (1%nat, "mWh"%string)]]
      (L1 [(0%nat, "last"%string); (1%nat, "full"%string); (1%nat, "capacity:"%string); (6%nat, "4000"%string); (1%nat, "mWh"%string)])
      ltac:(unfold called; repeat (apply Forall2_cons; [left; reflexivity|]); apply Forall2_nil)).
Qed.

(** Whatever ACPI files there are, the willingness is one of the levels 0, 1, 2, 3 and 6 *)
Theorem C169_range : forall y w, willingness MAcpi y = Some w -> w = 0 \/ w = 1 \/ w = 2 \/ w = 3 \/ w = 6.
Proof.
  intros y w. unfold willingness. destruct (read_acpi y) as [[[ac p]|]|] eqn:E; [| |discriminate].
  - apply acpi_range in E. intros H. apply Some_inj in H. subst w. destruct ac; [lia|]. destruct E as [E|E]; [discriminate|].
    rewrite Z.quot_div_nonneg by lia. unfold u8. rewrite Z.mod_small by lia. lia.
  - intros H. apply Some_inj in H. lia.
Qed.
Print Assumptions C169_range.
Example C169_range_ex : willingness MAcpi (ex_sys "3900") = Some 3.
Proof. vm_compute. reflexivity. Qed.

(** On AC power, with no battery, the willingness is 6 *)
Theorem C169_ac_partial : forall y t w1, y_ac y 0%nat = Some t -> t = w1 ++ 32 :: str "on-line" ++ [10] -> is_word w1 ->
  (forall j, (j < 5)%nat -> y_info y j = None) -> willingness MAcpi y = Some 6.
Proof.
  intros y t w1 H -> W N.
  assert (P : probe_ac 3 0 y = Some true).
  { cbn [probe_ac]. rewrite H.
    assert (E : w1 ++ 32 :: str "on-line" ++ [10] = tail_of [(0%nat, w1); (1%nat, str "on-line")] []) by (unfold tail_of; cbn [flat_map fst snd repeat app]; rewrite <- !app_assoc; reflexivity).
    rewrite E, scanw_line; [reflexivity| |repeat constructor|left; reflexivity].
    constructor; [exact W|constructor; [|constructor]]. split; [discriminate|]. split; [cbn; lia|].
    repeat (apply Forall_cons; [unfold white; cbn; lia|]). apply Forall_nil. }
  assert (B : probe_bat 5 0 y = Some None) by (cbn [probe_bat]; rewrite !N by lia; reflexivity).
  unfold willingness, read_acpi. rewrite P, B. reflexivity.
Qed.
Print Assumptions C169_ac_partial.
Example C169_ac_ex : willingness MAcpi (mkSys (fun i => if (i =? 0)%nat then Some (str "state: on-line" ++ [10]) else None) (fun _ => None) (fun _ => None) None) = Some 6.
Proof. vm_compute. reflexivity. Qed.

(** The comment promises 1 below 26 percent and 2 up to 78; a low battery gives WILL_NEVER *)
Theorem C169_levels_refuted :
  (exists y li ls, battery y 3 li ls /\ value (str "full") 1 3 li 4000 /\ value (str "remaining") 0 2 ls 1000 /\ willingness MAcpi y = Some WILL_NEVER) /\
  (exists y li ls, battery y 3 li ls /\ value (str "full") 1 3 li 4000 /\ value (str "remaining") 0 2 ls 2000 /\ willingness MAcpi y = Some 1).
Proof.
  assert (V : value (str "full") 1 3 ex_info 4000) by apply C169_battery_ex.
  assert (B : forall s, battery (ex_sys s) 3 ex_info (ex_state s)).
  { intros s. split; [lia|]. split; [intros j H; cbn; destruct (j =? 3)%nat eqn:E; [apply Nat.eqb_eq in E; lia|reflexivity]|].
    split; [reflexivity|]. split; [reflexivity|]. split; [reflexivity|]. eexists _, _, _. reflexivity. }
  assert (R : forall s, value (str "remaining") 0 2 (ex_state s) (number (str s))).
  { intros s. exact (v_last (str "remaining") 0 2 [L1 [(0%nat, "present:"%string); (17%nat, "yes"%string)]]
      (L1 [(0%nat, "remaining"%string); (1%nat, "capacity:"%string); (6%nat, s); (1%nat, "mWh"%string)])
      ltac:(unfold called; repeat (apply Forall2_cons; [left; reflexivity|]); apply Forall2_nil)). }
  split.
  - exists (ex_sys "1000"), ex_info, (ex_state "1000"). split; [apply B|]. split; [exact V|]. split; [exact (R "1000"%string)|vm_compute; reflexivity].
  - exists (ex_sys "2000"), ex_info, (ex_state "2000"). split; [apply B|]. split; [exact V|]. split; [exact (R "2000"%string)|vm_compute; reflexivity].
Qed.
Print Assumptions C169_levels_refuted.

(** A word of 32 characters is written beyond its array; an empty line reads arrays that were
    not set; capacities from 21474837 on overflow *)
Definition with_info (t : list Z) (s : string) : sys :=
  mkSys (fun _ => None) (fun i => if (i =? 3)%nat then Some t else None) (fun i => if (i =? 3)%nat then Some (flat_map shown (ex_state s)) else None) None.
Theorem C169_word_refuted : exists t, willingness MAcpi (with_info t "2000") = None /\ apm_init (with_info t "2000") = None.
Proof. exists (str "present: yes" ++ [10] ++ str "serial number: " ++ repeat 48 32 ++ [10]). split; vm_compute; reflexivity. Qed.
Print Assumptions C169_word_refuted.
Theorem C169_unset_refuted : exists t, willingness MAcpi (with_info t "2000") = None.
Proof. exists (str "present: yes" ++ [10; 10]). vm_compute. reflexivity. Qed.
Print Assumptions C169_unset_refuted.
Theorem C169_overflow_refuted : exists t s, willingness MAcpi (with_info t s) = None.
Proof. exists (str "present: yes" ++ [10] ++ str "last full capacity: 50000000 uWh" ++ [10]), "30000000"%string. vm_compute. reflexivity. Qed.
Print Assumptions C169_overflow_refuted.
(** with APM, the percentage can be negative and the willingness above WILL_ALWAYS; a short line
    compares units that were not read *)
Definition with_apm (s : string) : sys := mkSys (fun _ => None) (fun _ => None) (fun _ => None) (Some (str s ++ [10])).
Theorem C169_apm_refuted :
  (exists s w, apm_init (with_apm s) = Some (Some MApm) /\ willingness MApm (with_apm s) = Some w /\ w > WILL_ALWAYS) /\
  (exists s, willingness MApm (with_apm s) = None).
Proof.
  split.
  - exists "1.16ac 1.2 0x02 0x00 0x01 0x01 -99% 120 min"%string, 253. repeat split; vm_compute; reflexivity.
  - exists "1.16ac 1.2 0x02 0x00 0x01 0x01 50%"%string. vm_compute. reflexivity.
Qed.
Print Assumptions C169_apm_refuted.

(** C11, C54: the timer wheel (src/scheduler.c). *)
From Verif Require Import Base SchedTime Timers TimersSpec TimersProofs.

(** C11: after any history of calls, callbacks, passing time and walks, a walk
    makes exactly the callbacks that are due, each once. *)
Theorem C11_walk_exact : forall rmax rnd cb, 0 <= rmax < 2147483648 -> (forall n, 0 <= rnd n <= rmax) ->
  (forall ctx s, Forall op_ok (cb ctx s)) ->
  forall fuel t0 evs s s',
  events_ok no_wrap t0 t0 (evs ++ [TWalk]) ->
  trun_events rmax rnd cb fuel (timers_init t0) evs = Ok s ->
  tstep rmax rnd cb fuel s TWalk = Ok s' ->
  (forall id, In id (fired s') -> armed_due s id) /\ NoDup (fired s') /\
  (forall id t, untouched cb id -> tms s id = Some t -> walk_outcome (now_times s) t (In id (fired s')) (tms s' id)).
Proof. exact c11_exact. Qed.
Print Assumptions C11_walk_exact.

(** context 7 starts a new timer of context 9 each time it runs, context 9 does nothing *)
Definition ex_cb (ctx : Z) (s : tstate) : list top :=
  if ctx =? 7 then [TStart 3 0 false 9] else [].
Definition ex_evs : list tev :=
  [TCalls [TStart 10 0 true 7; TStart 1500 25 false 9; TStart 2000 0 false 9]; TTime 1010; TWalk; TCalls [TStop 3]; TTime 2600].
Definition ex_run : res tstate := trun_events 2147483647 (fun _ => 1000000000) ex_cb 100 (timers_init 1000) ex_evs.
Definition ex_end : tstate := match ex_run with Ok s => s | _ => timers_init 0 end.
Definition ex_after : tstate :=
  match tstep 2147483647 (fun _ => 1000000000) ex_cb 100 ex_end TWalk with Ok s => s | _ => timers_init 0 end.

Example C11_walk_exact_ex :
  (forall ctx s, Forall op_ok (ex_cb ctx s)) /\
  events_ok no_wrap 1000 1000 (ex_evs ++ [TWalk]) /\
  (match ex_run with Ok _ => true | _ => false end = true) /\
  (match tstep 2147483647 (fun _ => 1000000000) ex_cb 100 ex_end TWalk with Ok _ => true | _ => false end = true) /\
  fired ex_after = [2; 1; 4] /\ tms ex_after 2 = None /\ tms ex_after 3 = None /\
  (exists t, tms ex_after 1 = Some t /\ tclock t = 2610).
Proof.
  split; [|split; [|split; [|split; [|split; [|split; [|split]]]]]].
  - intros ctx s. unfold ex_cb. destruct (ctx =? 7); repeat constructor; cbn; lia.
  - cbn. unfold no_wrap. repeat (split || constructor || lia); cbn; try lia; reflexivity.
  - vm_compute. reflexivity.
  - vm_compute. reflexivity.
  - vm_compute. reflexivity.
  - vm_compute. reflexivity.
  - vm_compute. reflexivity.
  - eexists. split; vm_compute; reflexivity.
Qed.

(** C11: at the wrap of the 32 bit millisecond counter the promise fails: a
    timer 100 ms overdue is passed over. *)
Definition quiet_cb (ctx : Z) (s : tstate) : list top := [].
Definition wrap_evs : list tev := [TCalls [TStart 5 0 false 9]; TTime 4294967400].
Definition wrap_end : tstate :=
  match trun_events 2147483647 (fun _ => 0) quiet_cb 100 (timers_init 4294967290) wrap_evs with Ok s => s | _ => timers_init 0 end.
Definition wrap_after : tstate :=
  match tstep 2147483647 (fun _ => 0) quiet_cb 100 wrap_end TWalk with Ok s => s | _ => timers_init 0 end.

Theorem C11_wrap_refuted : exists evs s s' t,
  events_ok (fun tl tn => tn - tl < 2147483648) 4294967290 4294967290 (evs ++ [TWalk]) /\
  trun_events 2147483647 (fun _ => 0) quiet_cb 100 (timers_init 4294967290) evs = Ok s /\
  tstep 2147483647 (fun _ => 0) quiet_cb 100 s TWalk = Ok s' /\
  tms s 1 = Some t /\ trun t = true /\ isTimedOut (now_times s) (tclock t) = true /\ untouched quiet_cb 1 /\
  fired s' = [].
Proof.
  exists wrap_evs, wrap_end, wrap_after. eexists.
  split; [cbn; repeat (split || constructor || lia)|]. split; [vm_compute; reflexivity|]. split; [vm_compute; reflexivity|].
  split; [vm_compute; reflexivity|]. split; [reflexivity|]. split; [vm_compute; reflexivity|]. split; [intros ctx s o []|].
  vm_compute. reflexivity.
Qed.
Print Assumptions C11_wrap_refuted.

(** C11: whatever happened before (the wrap included), no callback comes early,
    none twice in a walk, and a walk a full turn of the wheel after the
    previous one makes all that are due. *)
Theorem C11_full_turn : forall rmax rnd cb, 0 <= rmax < 2147483648 -> (forall n, 0 <= rnd n <= rmax) ->
  (forall ctx s, Forall op_ok (cb ctx s)) ->
  forall fuel t0 evs s s',
  events_ok any_walk t0 t0 evs ->
  trun_events rmax rnd cb fuel (timers_init t0) evs = Ok s ->
  tstep rmax rnd cb fuel s TWalk = Ok s' ->
  (forall id, In id (fired s') -> armed_due s id) /\ NoDup (fired s') /\
  (forall id t, untouched cb id -> tms s id = Some t -> last_run s + 1023 <= now_times s ->
     walk_outcome (now_times s) t (In id (fired s')) (tms s' id)).
Proof. exact c11_visited. Qed.
Print Assumptions C11_full_turn.

Example C11_full_turn_ex :
  match trun_events 2147483647 (fun _ => 0) quiet_cb 100 (timers_init 4294967290) (wrap_evs ++ [TWalk; TTime 4294968500; TWalk]) with
  | Ok s => fired s = [1] /\ tms s 1 = None | _ => False end.
Proof. vm_compute. split; reflexivity. Qed.

(** C11: the walk always ends, even with callbacks that start timers. *)
Theorem C11_terminates : forall rmax rnd cb, 0 <= rmax < 2147483648 -> (forall n, 0 <= rnd n <= rmax) ->
  (forall ctx s, Forall op_ok (cb ctx s)) ->
  forall evs t0, events_ok any_walk t0 t0 evs ->
  exists fuel0 r, r <> Fuel /\ forall fuel, (fuel0 <= fuel)%nat -> trun_events rmax rnd cb fuel (timers_init t0) evs = r.
Proof. exact c11_terminates. Qed.
Print Assumptions C11_terminates.

Example C11_terminates_ex : match trun_events 2147483647 (fun _ => 1000000000) ex_cb 100 (timers_init 1000) (ex_evs ++ [TWalk]) with
  | Ok s => fired s = [2; 1; 4] | _ => False end.
Proof. vm_compute. reflexivity. Qed.

(** C11: timers may be set for 0 ms (olsr_start_timer does not refuse it); then
    a callback that starts another one keeps the walk from ending. *)
Theorem C11_zero_interval_refuted : exists evs, forall fuel,
  trun_events 2147483647 (fun _ => 0) zero_cb fuel (timers_init 0) (evs ++ [TWalk]) = Fuel.
Proof. exact c11_zero. Qed.
Print Assumptions C11_zero_interval_refuted.

(** C11: the scheduler itself never touches a freed timer. *)
Theorem C11_no_freed_timer : forall rmax rnd cb, 0 <= rmax < 2147483648 -> (forall n, 0 <= rnd n <= rmax) ->
  (forall ctx s, Forall op_ok (cb ctx s)) ->
  forall fuel t0 evs s, live_cb cb -> events_ok any_walk t0 t0 evs ->
  trun_events rmax rnd cb fuel (timers_init t0) evs = Ok s -> tstep rmax rnd cb fuel s TWalk <> UB.
Proof. exact c11_live. Qed.
Print Assumptions C11_no_freed_timer.

(** callbacks that stop the newest timer if it exists *)
Example C11_no_freed_timer_ex :
  let cb := fun (ctx : Z) (s : tstate) => match tms s (nextid s - 1) with Some _ => [TStop (nextid s - 1)] | None => [] end in
  live_cb cb /\ (forall ctx s, Forall op_ok (cb ctx s)) /\
  match trun_events 2147483647 (fun _ => 0) cb 100 (timers_init 0) [TCalls [TStart 5 0 true 1; TStart 9 0 false 2]; TTime 8; TWalk] with
  | Ok s => fired s = [1] /\ tms s 2 = None | _ => False end.
Proof.
  cbv zeta. split; [|split].
  - intros ctx s o id. destruct (tms s (nextid s - 1)) eqn:E; [|intros []]. intros [<-|[]] T. cbn in T. congruence.
  - intros ctx s. destruct (tms s (nextid s - 1)); repeat constructor.
  - vm_compute. split; reflexivity.
Qed.

(** C54: a one-shot timer re-armed by its own callback is stopped and freed all
    the same, though olsr_change_timer set it for later. *)
Definition rearm_cb (ctx : Z) (s : tstate) : list top := match tms s 1 with Some _ => [TChange 1 500 0 false] | None => [] end.
Definition rearm_end : tstate :=
  match trun_events 2147483647 (fun _ => 0) rearm_cb 100 (timers_init 0) [TCalls [TStart 5 0 false 1]; TTime 6] with Ok s => s | _ => timers_init 0 end.
Definition rearm_after : tstate :=
  match tstep 2147483647 (fun _ => 0) rearm_cb 100 rearm_end TWalk with Ok s => s | _ => timers_init 0 end.
Theorem C54_rearm_in_callback_refuted : exists s s',
  (forall ctx s, Forall op_ok (rearm_cb ctx s)) /\ live_cb rearm_cb /\
  trun_events 2147483647 (fun _ => 0) rearm_cb 100 (timers_init 0) [TCalls [TStart 5 0 false 1]; TTime 6] = Ok s /\
  tstep 2147483647 (fun _ => 0) rearm_cb 100 s TWalk = Ok s' /\
  fired s' = [1] /\ tms s' 1 = None /\
  (exists t, tms s 1 = Some t /\ rearm_cb (tctx t) s = [TChange 1 500 0 false]).
Proof.
  exists rearm_end, rearm_after. split; [|split; [|split; [vm_compute; reflexivity|split; [vm_compute; reflexivity|]]]].
  - intros ctx s. unfold rearm_cb. destruct (tms s 1); repeat constructor; cbn; lia.
  - intros ctx s o id. unfold rearm_cb. destruct (tms s 1) eqn:E; [|intros []]. intros [<-|[]] T. cbn in T. congruence.
  - split; [vm_compute; reflexivity|]. split; [vm_compute; reflexivity|]. eexists. split; vm_compute; reflexivity.
Qed.
Print Assumptions C54_rearm_in_callback_refuted.

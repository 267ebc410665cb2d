(** Model of the timer wheel of src/scheduler.c.  Definitions only.
    Simplifications: memory of timers is a finite map from identities (block
    addresses) to records and identities are not reused; random numbers come
    from a given stream; a callback is a function from the state it finds to
    the list of timer calls it makes; the cleanup tree is the list of its
    members.  Touching a freed timer is undefined behaviour ([UB]); [Fuel] is
    the model's own limit on loop rounds (see the termination theorem). *)
From Verif Require Import Base SchedTime.

(** how a function of src/scheduler.c ends: value, undefined behaviour, no end within the bound *)
Inductive res (A : Type) := Ok (a : A) | UB | Fuel.
Arguments Ok {A}. Arguments UB {A}. Arguments Fuel {A}.

(** src/scheduler.h:77-87 struct timer_entry; the flags OLSR_TIMER_RUNNING and
    OLSR_TIMER_REMOVED (src/scheduler.h:96-97) as booleans *)
Record timer := mkTimer {
  tclock : Z; tperiod : Z; tjit : Z; trun : bool; trem : bool; trnd : Z; tctx : Z }.

(** number of the list that plays tmp_head_node, src/scheduler.c:673 *)
Definition TMP : Z := 1024.

(** the globals of src/scheduler.c:71-92; [wheel i] is the slot list from head
    to tail; [fired] records the callbacks made, latest first *)
Record tstate := mkT {
  tms : Z -> option timer;
  wheel : Z -> list Z;
  nextid : Z;
  cleanup : list Z;
  now_times : Z;
  last_run : Z;
  rcount : nat;
  fired : list Z }.

(** timers in memory, src/scheduler.h *)
Definition set_tms (s : tstate) (f : Z -> option timer) : tstate :=
  mkT f (wheel s) (nextid s) (cleanup s) (now_times s) (last_run s) (rcount s) (fired s).
(** src/scheduler.c:76 *)
Definition set_wheel (s : tstate) (w : Z -> list Z) : tstate :=
  mkT (tms s) w (nextid s) (cleanup s) (now_times s) (last_run s) (rcount s) (fired s).
(** the list of timers to be freed, src/scheduler.c *)
Definition set_cleanup (s : tstate) (l : list Z) : tstate :=
  mkT (tms s) (wheel s) (nextid s) l (now_times s) (last_run s) (rcount s) (fired s).

(** assignment, src/scheduler.c:76 *)
Definition upd {A} (f : Z -> A) (k : Z) (v : A) : Z -> A := fun x => if x =? k then v else f x.

(** list_remove (src/common/list.c:104-111): the node leaves the list it is on *)
Definition unlink (id : Z) (w : Z -> list Z) : Z -> list Z :=
  fun i => filter (fun x => negb (x =? id)) (w i).
(** list_add_before the head = at the tail; list_add_after the head = in front;
    src/scheduler.c:695, 797, 939, 1040 *)
Definition add_tail (i id : Z) (w : Z -> list Z) : Z -> list Z := upd w i (w i ++ [id]).
(** see above, src/common/list.c:104-111 *)
Definition add_front (i id : Z) (w : Z -> list Z) : Z -> list Z := upd w i (id :: w i).

(** the calls a callback (or any other code) makes; src/scheduler.h:102-105 *)
Inductive top :=
| TStart (rel jit : Z) (periodical : bool) (ctx : Z)
| TChange (id rel jit : Z) (periodical : bool)
| TStop (id : Z).

Section Wheel.
Variable rmax : Z.                 (* OLSR_RANDOM_MAX *)
Variable rnd : nat -> Z.           (* olsr_random() *)
Variable cb : Z -> tstate -> list top.   (* callback of a context *)

(** TIMER_WHEEL_MASK, src/scheduler.h:62-63 *)
Definition slot_of (clock : Z) : Z := Z.land clock 1023.

(** src/scheduler.c:902-945 olsr_start_timer *)
Definition start_timer (s : tstate) (rel jit : Z) (per : bool) (ctx : Z) : tstate :=
  let r := rnd (rcount s) in
  let clock := calc_jitter rmax (now_times s) rel jit r in
  let t := mkTimer clock (if per then rel else 0) jit true false r ctx in
  mkT (upd (tms s) (nextid s) (Some t)) (add_tail (slot_of clock) (nextid s) (wheel s))
      (nextid s + 1) (cleanup s) (now_times s) (last_run s) (S (rcount s)) (fired s).

(** src/scheduler.c:1019-1044 olsr_change_timer *)
Definition change_timer (s : tstate) (id rel jit : Z) (per : bool) : option tstate :=
  match tms s id with
  | None => None
  | Some t =>
      let clock := calc_jitter rmax (now_times s) rel jit (trnd t) in
      let t' := mkTimer clock (if per then rel else 0) jit (trun t) (trem t) (trnd t) (tctx t) in
      Some (set_wheel (set_tms s (upd (tms s) id (Some t')))
                      (add_tail (slot_of clock) id (unlink id (wheel s))))
  end.

(** src/scheduler.c:952-979 olsr_stop_timer *)
Definition stop_timer (s : tstate) (id : Z) : option tstate :=
  match tms s id with
  | None => None
  | Some t =>
      if trun t then
        let t' := mkTimer (tclock t) (tperiod t) (tjit t) false true (trnd t) (tctx t) in
        Some (set_cleanup (set_tms s (upd (tms s) id (Some t')))
                          (if existsb (Z.eqb id) (cleanup s) then cleanup s else cleanup s ++ [id]))
      else Some s
  end.

(** src/scheduler.h:102-105 *)
Definition do_op (s : tstate) (o : top) : option tstate :=
  match o with
  | TStart rel jit per ctx => Some (start_timer s rel jit per ctx)
  | TChange id rel jit per => change_timer s id rel jit per
  | TStop id => stop_timer s id
  end.
(** src/scheduler.h:102-105 *)
Fixpoint do_ops (s : tstate) (l : list top) : option tstate :=
  match l with
  | [] => Some s
  | o :: l' => match do_op s o with Some s' => do_ops s' l' | None => None end
  end.

(** src/scheduler.c:713-727: after the callback of [id] *)
Definition after_cb (s : tstate) (id : Z) : option tstate :=
  match tms s id with
  | None => None
  | Some t =>
      if trun t then
        if negb (tperiod t =? 0) then
          let t' := mkTimer (tclock t) (tperiod t) (tjit t) (trun t) (trem t) (rnd (rcount s)) (tctx t) in
          let s' := mkT (upd (tms s) id (Some t')) (wheel s) (nextid s) (cleanup s) (now_times s) (last_run s) (S (rcount s)) (fired s) in
          change_timer s' id (tperiod t) (tjit t) true
        else stop_timer s id
      else Some s
  end.

(** src/scheduler.c:684-731: one round of the inner loop, for the top element
    [id] of [slot] *)
Definition walk_one (s : tstate) (slot id : Z) : option tstate :=
  let s1 := set_wheel s (add_front TMP id (unlink id (wheel s))) in
  match tms s1 id with
  | None => None
  | Some t =>
      if trem t then Some s1
      else if isTimedOut (now_times s1) (tclock t) then
        let s2 := mkT (tms s1) (wheel s1) (nextid s1) (cleanup s1) (now_times s1) (last_run s1) (rcount s1) (id :: fired s1) in
        match do_ops s2 (cb (tctx t) s2) with
        | None => None
        | Some s3 => after_cb s3 id
        end
      else Some s1
  end.

(** src/scheduler.c:684-736: the inner loop and list_merge *)
Fixpoint walk_slot (fuel : nat) (s : tstate) (slot : Z) : res tstate :=
  match wheel s slot with
  | [] => Ok (set_wheel s (upd (upd (wheel s) slot (wheel s TMP ++ wheel s slot)) TMP []))
  | id :: _ =>
      match fuel with
      | O => Fuel
      | S fuel' => match walk_one s slot id with
                   | None => UB
                   | Some s' => walk_slot fuel' s' slot
                   end
      end
  end.

(** src/scheduler.c:672-745: the outer loop, [n] rounds left *)
Fixpoint walk_slots (n : nat) (fuel : nat) (s : tstate) (lr : Z) : res tstate :=
  match n with
  | O => Ok s
  | S n' =>
      if lr <=? now_times s then
        match walk_slot fuel s (slot_of lr) with
        | Ok s' => walk_slots n' fuel s' (u32 (lr + 1))
        | r => r
        end
      else Ok s
  end.

(** src/scheduler.c:661-756 walk_timers *)
Definition walk_timers (fuel : nat) (s : tstate) : res tstate :=
  match walk_slots 1024 fuel s (last_run s) with
  | Ok s' => Ok (mkT (tms s') (wheel s') (nextid s') (cleanup s') (now_times s') (now_times s') (rcount s') (fired s'))
  | r => r
  end.

(** src/scheduler.c:986-1009 olsr_cleanup_timer *)
Definition cleanup_timer (s : tstate) (id : Z) : option tstate :=
  match tms s id with
  | None => None
  | Some t => if trem t then Some (set_wheel (set_tms s (upd (tms s) id None)) (unlink id (wheel s)))
              else Some s
  end.

(** src/scheduler.c:758-766 walk_timers_cleanup *)
Fixpoint cleanup_all (s : tstate) (l : list Z) : option tstate :=
  match l with
  | [] => Some (set_cleanup s [])
  | id :: l' => match cleanup_timer s id with Some s' => cleanup_all s' l' | None => None end
  end.
(** see above, src/scheduler.c:758-766 *)
Definition walk_timers_cleanup (s : tstate) : option tstate := cleanup_all s (cleanup s).

(** the scheduler as its timers see it (src/scheduler.c:541-586): time passes,
    other code makes timer calls, timers are walked and cleaned up.  The log of
    callbacks starts anew with each walk. *)
Inductive tev := TTime (t : Z) | TCalls (l : list top) | TWalk.

(** no counterpart; the log of callbacks of src/scheduler.c:670-760 *)
Definition new_log (s : tstate) : tstate :=
  mkT (tms s) (wheel s) (nextid s) (cleanup s) (now_times s) (last_run s) (rcount s) [].

(** src/scheduler.c:541-586 *)
Definition tstep (fuel : nat) (s : tstate) (e : tev) : res tstate :=
  match e with
  | TTime t => Ok (mkT (tms s) (wheel s) (nextid s) (cleanup s) (u32 t) (last_run s) (rcount s) (fired s))
  | TCalls l => match do_ops s l with Some s' => Ok s' | None => UB end
  | TWalk => match walk_timers fuel (new_log s) with
             | Ok s' => match walk_timers_cleanup s' with Some s'' => Ok s'' | None => UB end
             | r => r
             end
  end.

(** src/scheduler.c:541-586 *)
Fixpoint trun_events (fuel : nat) (s : tstate) (l : list tev) : res tstate :=
  match l with
  | [] => Ok s
  | e :: l' => match tstep fuel s e with Ok s' => trun_events fuel s' l' | r => r end
  end.

End Wheel.

(** src/scheduler.c:627-655 olsr_init_timers at time [t0] *)
Definition timers_init (t0 : Z) : tstate := mkT (fun _ => None) (fun _ => []) 1 [] (u32 t0) (u32 t0) 0 [].

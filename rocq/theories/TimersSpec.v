(** What a timer service promises. *)
From Verif Require Import Base SchedTime Timers.

(** [id] is armed (started and not stopped) and its time has come. *)
Definition armed_due (s : tstate) (id : Z) : Prop :=
  exists t, tms s id = Some t /\ trem t = false /\ isTimedOut (now_times s) (tclock t) = true.

(** Timers are set for at least 1 ms and less than 2^31 ms (24 days). *)
Definition op_ok (o : top) : Prop :=
  match o with
  | TStart rel jit _ _ => 1 <= rel < 2147483648 /\ 0 <= jit < 256
  | TChange _ rel jit _ => 1 <= rel < 2147483648 /\ 0 <= jit < 256
  | TStop _ => True
  end.

Definition targets (o : top) (id : Z) : Prop :=
  match o with TStart _ _ _ _ => False | TChange i _ _ _ => i = id | TStop i => i = id end.

(** no callback changes or stops [id] *)
Definition untouched (cb : Z -> tstate -> list top) (id : Z) : Prop :=
  forall ctx s o, In o (cb ctx s) -> ~ targets o id.

(** What a walk at time [now] and the cleanup after it do to a timer [t] that
    nothing else touches; [did]: its callback was made; [o]: the timer afterwards.
    A stopped timer is freed, one that is not due stays as it is, a due one-shot
    timer has its callback made and is freed, a due periodic timer has it made
    and runs again, due between (100 - jitter)% and 100% of its period from now. *)
Definition walk_outcome (now : Z) (t : timer) (did : Prop) (o : option timer) : Prop :=
  if trem t then ~ did /\ o = None
  else if isTimedOut now (tclock t) then
    did /\
    if tperiod t =? 0 then o = None
    else exists t' d, o = Some t' /\ trun t' = true /\ trem t' = false /\ tperiod t' = tperiod t /\ tctx t' = tctx t /\ tjit t' = tjit t
         /\ tclock t' = u32 (now + d) /\ 1 <= d <= tperiod t /\ 100 * (tperiod t - d) <= tjit t * tperiod t
  else ~ did /\ o = Some t.

(** Histories: true time never runs backwards; [tl] is the time of the last
    walk, [tn] the present time, both as unbounded numbers. *)
Fixpoint events_ok (walk_ok : Z -> Z -> Prop) (tl tn : Z) (l : list tev) : Prop :=
  match l with
  | [] => True
  | TTime t :: l' => tn <= t /\ events_ok walk_ok tl t l'
  | TCalls ops :: l' => Forall op_ok ops /\ events_ok walk_ok tl tn l'
  | TWalk :: l' => walk_ok tl tn /\ events_ok walk_ok tn tn l'
  end.

(** walks come at least every 24 days and none spans the wrap of the 32 bit
    millisecond counter *)
Definition no_wrap (tl tn : Z) : Prop := tn - tl < 2147483648 /\ tl / 4294967296 = tn / 4294967296.
Definition any_walk (tl tn : Z) : Prop := True.

(** callbacks only change or stop timers that exist *)
Definition live_cb (cb : Z -> tstate -> list top) : Prop :=
  forall ctx s o id, In o (cb ctx s) -> targets o id -> tms s id <> None.

(** a callback that starts another timer of its kind for 0 ms *)
Definition zero_cb (ctx : Z) (s : tstate) : list top := [TStart 0 0 false ctx].

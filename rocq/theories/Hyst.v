(** Model of the RFC 3626 link hysteresis (src/hysteresis.c, src/link_set.c:464-489).
    Definitions only.  A float is the integer number of units of 2^-149, so every
    non-negative binary32 number below 2^105 is a value; arithmetic is IEEE binary32
    with rounding to nearest, ties to even.  Times (L_LOST_LINK_time, timers) are not
    modelled. *)
From Verif Require Import Base.

(** 1.0 of src/hysteresis.c *)
Definition ONE : Z := 2 ^ 149.
(** [n / 2^e] rounded to nearest, ties to even; float of src/hysteresis.c *)
Definition rne (n e : Z) : Z :=
  if e =? 0 then n
  else let q := n / 2 ^ e in
       let r := n mod 2 ^ e in
       if r <? 2 ^ (e - 1) then q else if r >? 2 ^ (e - 1) then q + 1 else if Z.even q then q else q + 1.
(** the binary32 number nearest to [n] units of 2^-(149+sh): 24 significant bits *)
Definition flt (n sh : Z) : Z := let e := Z.max sh (Z.log2 n - 23) in rne n e * 2 ^ (e - sh).
(** addition of floats, src/hysteresis.c *)
Definition fadd (a b : Z) : Z := flt (a + b) 0.
(** subtraction of floats, src/hysteresis.c *)
Definition fsub (a b : Z) : Z := flt (a - b) 0.
(** multiplication of floats, src/hysteresis.c *)
Definition fmul (a b : Z) : Z := flt (a * b) 149.

(** src/olsr_cfg.h:257-261 *)
Record hparam := mkHp { scaling : Z; thr_high : Z; thr_low : Z }.
(** src/link_set.h:79-84 L_link_quality, L_link_pending, olsr_seqno, olsr_seqno_valid *)
Record hy := mkHy { quality : Z; pending : bool; seqno : Z; valid : bool }.
(** src/link_set.c:585-594 *)
Definition hinit : hy := mkHy 0 true 0 false.

(** src/hysteresis.c:61-65 olsr_hyst_calc_stability *)
Definition stability (p : hparam) (q : Z) : Z := fadd (fmul (fsub ONE (scaling p)) q) (scaling p).
(** src/hysteresis.c:67-71 olsr_hyst_calc_instability *)
Definition instability (p : hparam) (q : Z) : Z := fmul (fsub ONE (scaling p)) q.
(** src/hysteresis.c:73-127 olsr_process_hysteresis *)
Definition process (p : hparam) (h : hy) : hy :=
  if quality h >? thr_high p then mkHy (quality h) false (seqno h) (valid h)
  else if quality h <? thr_low p then mkHy (quality h) true (seqno h) (valid h)
  else h.
(** src/hysteresis.c:173-182: at most [n] lost packets *)
Fixpoint lose (p : hparam) (n : nat) (q : Z) : Z :=
  match n with
  | O => q
  | S n' => let q' := instability p q in if q' <? thr_low p then q' else lose p n' q'
  end.
(** src/hysteresis.c:150-190 update_hysteresis_incoming *)
Definition incoming (p : hparam) (h : hy) (seq : Z) : hy :=
  let q := stability p (quality h) in
  let gap := u16 (seq - seqno h) in
  let q' := if valid h && (gap <? 100) then lose p (Z.to_nat gap) q else q in
  mkHy q' (pending h) (u16 (seq + 1)) true.
(** src/link_set.c:464-489 olsr_expire_link_hello_timer *)
Definition hello_timeout (p : hparam) (h : hy) : hy :=
  let h1 := process p (mkHy (instability p (quality h)) (pending h) (seqno h) (valid h)) in
  mkHy (quality h1) (pending h1) (u16 (seqno h1 + 1)) (valid h1).

(** HPacket: src/parser.c:306-309; HHello: src/link_set.c:734-736 *)
Inductive hev := HPacket (seq : Z) | HHello | HTimeout.
(** see above, src/parser.c:306-309 *)
Definition hstep (p : hparam) (h : hy) (e : hev) : hy :=
  match e with HPacket n => incoming p h n | HHello => process p h | HTimeout => hello_timeout p h end.
(** see above, src/parser.c:306-309 *)
Definition hrun (p : hparam) (l : list hev) : hy := fold_left (hstep p) l hinit.

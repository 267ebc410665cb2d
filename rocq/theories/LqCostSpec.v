(** What a link's quality is meant to be, in terms of the packets that
    arrived on it: nothing here refers to the ring buffers of the plugin. *)
From Verif Require Import Base LqCost.

(** An interval between two runs of the timer: packets that arrived, and
    packets the neighbor had sent according to its sequence numbers. *)
Definition interval : Type := (Z * Z)%type.

(** The history of a link: the sequence number of the last packet, the HELLOs
    missed since that packet, the current interval and the closed intervals,
    newest first. *)
Record hist := Hist {
  h_seq : Z;
  h_miss : Z;
  h_cur : interval;
  h_old : list interval
}.

(** A new link is debited three packets in its first interval. *)
Definition hist0 : hist := Hist 0 0 (0, 3) [].

(** How far a sequence number is ahead of the last one, modulo 65536.  The
    same number again is a duplicate; a jump of more than 256 is a restart and
    counts as one packet. *)
Definition ahead (last s : Z) : Z := (s - last) mod 65536.

Definition saw (s : Z) (h : hist) : hist :=
  let d := ahead (h_seq h) s in
  if d =? 0 then h
  else Hist s 0 (fst (h_cur h) + 1, snd (h_cur h) + (if d >? 256 then 1 else d))
            (h_old h).

Definition hstep (i : Z) (o : option hist) (e : lev) : option hist :=
  match e, o with
  | EAdd j _ _ _, None => if j =? i then Some hist0 else None
  | EDel j, Some h => if j =? i then None else Some h
  | EPkt j s, Some h => if j =? i then Some (saw s h) else Some h
  | ELost j, Some h =>
      if j =? i then Some (Hist (h_seq h) (h_miss h + 1) (h_cur h) (h_old h))
      else Some h
  | ETick, Some h => Some (Hist (h_seq h) (h_miss h) (0, 0) (h_cur h :: h_old h))
  | _, _ => o
  end.

(** The history of link [i] in a run; [None] when there is no such link. *)
Definition history (i : Z) (evs : list lev) : option hist :=
  fold_left (hstep i) evs None.

(** The intervals that count: the last thirty-two, where a young link has
    four more intervals of three lost packets. *)
Definition window (h : hist) : list interval :=
  firstn 32 ((h_cur h :: h_old h) ++ repeat (0, 3) 4).

Definition got (w : list interval) : Z := fold_right Z.add 0 (map fst w).
Definition sent (w : list interval) : Z := fold_right Z.add 0 (map snd w).

(** No interval of the history brought more than [n] packets. *)
Definition calm (n : Z) (h : hist) : Prop :=
  forall v, In v (h_cur h :: h_old h) -> fst v <= n.

(** The events the code can meet: sequence numbers of 16 bits, reported
    qualities of 8 bits, multipliers as accepted by the configuration check
    (src/cfgparser/olsrd_conf.c:522-530) and the default rule
    (src/link_set.c:353-359), intervals of 32 bits. *)
Definition lev_ok (e : lev) : Prop :=
  match e with
  | EAdd _ _ m h => 1 <= m <= 65536 /\ 0 <= h < 2 ^ 32
  | EPkt _ s => 0 <= s < 65536
  | ENlq _ v => 0 <= v <= 255
  | EHint _ h => 0 <= h < 2 ^ 32
  | _ => True
  end.

(** [q] is 255 times the proportion [m/65536 * r/t], rounded down, or one
    unit less. *)
Definition close_below (q m r t : Z) : Prop :=
  q * (t * 65536) <= 255 * (r * m) < (q + 2) * (t * 65536).

Definition find_link (i : Z) (ls : list ffl) : option ffl :=
  find (fun l => l_id l =? i) ls.

(** The aging factors a configuration can give etx_fpm: 0.01 to 1.0
    (src/olsr_cfg.h:155-156, src/cfgparser/olsrd_conf.c:638), times 65535. *)
Definition aging_ok (a : Z) : Prop := 655 <= a <= 65535.

Definition pev_ok (e : pev) : Prop :=
  match e with PHello _ => True | PNlq v => 0 <= v <= 255 end.

(** Events during which nothing arrives on link [i] and it is not removed. *)
Definition quiet (i : Z) (e : lev) : Prop :=
  match e with EPkt j _ => j <> i | EDel j => j <> i | _ => True end.

Fixpoint ticks (evs : list lev) : Z :=
  match evs with [] => 0 | ETick :: r => 1 + ticks r | _ :: r => ticks r end.

(** Events of an etx_fpm link without any HELLO of the neighbor. *)
Definition lossy (e : pev) : Prop :=
  match e with PHello b => b = true | PNlq _ => True end.

Fixpoint losses (evs : list pev) : Z :=
  match evs with [] => 0 | PHello true :: r => 1 + losses r | _ :: r => losses r end.

(** A quality fits its octet. *)
Definition in8 (x : Z) : Prop := 0 <= x <= 255.

(** A used quality [s] is within a tenth of the measured [v]. *)
Definition near (s v : Z) : Prop := Z.abs (v - s) <= s / 10.

(** The exact exponential average of quality [q] with weight [a]/65535 for a
    HELLO that arrived (worth [255 * m / 65536]) or was lost (worth 0), times
    65535 * 65536. *)
Definition ema (a m q : Z) (lost : bool) : Z :=
  q * (65535 - a) * 65536 + (if lost then 0 else 255 * (a * m)).

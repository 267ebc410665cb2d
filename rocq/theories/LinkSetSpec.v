(** Vocabulary for the statements about the link set. *)
From Verif Require Import Base SchedTime LinkSet.

(** What a HELLO says about the receiving address: SYM if it is listed as SYM anywhere, otherwise
    the last link type it is listed with, UNSPEC if it is not listed with a link type. *)
Definition mentions (own : Z) (msg : list (Z * Z)) : list Z :=
  map snd (filter (fun p => (fst p =? own) && negb (snd p =? 0)) msg).
Definition said (own : Z) (msg : list (Z * Z)) : Z :=
  if existsb (Z.eqb 2) (mentions own msg) then 2 else last (mentions own msg) 0.

(** What has been heard: at which time which link got a HELLO saying [cls] with validity [v]; or the
    shutdown reset. *)
Inductive item := Heard (i cls v : Z) | Reset.
Definition history := list (Z * item).

(** the item an event adds to the history *)
Definition items (c : lcfg) (t : Z) (s : lstate) (e : lev) : history :=
  match e with
  | EHello ifc remote main vt msg r q =>
      match update_link c (u32 t) s ifc remote main vt msg r q with
      | Some (_, i) => [(t, Heard i (said (i_addr ifc) msg) vt)]
      | None => []
      end
  | EReset => [(t, Reset)]
  | _ => []
  end.

(** The last HELLO on link [i] that confirmed the link (SYM or ASYM), unless a later one called it
    lost.  The most recent item is last. *)
Definition confirm1 (i : Z) (acc : option (Z * Z)) (x : Z * item) : option (Z * Z) :=
  match x with
  | (t, Heard j cls v) => if j =? i then (if cls =? 3 then None else if (cls =? 1) || (cls =? 2) then Some (t, v) else acc) else acc
  | (_, Reset) => None
  end.
Definition confirmed (i : Z) (h : history) : option (Z * Z) := fold_left (confirm1 i) h None.
(** the last HELLO on link [i] since the reset *)
Definition heard1 (i : Z) (acc : option (Z * Z)) (x : Z * item) : option (Z * Z) :=
  match x with
  | (t, Heard j cls v) => if j =? i then Some (t, v) else acc
  | (_, Reset) => None
  end.
Definition heard (i : Z) (h : history) : option (Z * Z) := fold_left (heard1 i) h None.

(** No running timer is overdue by more than [slack] milliseconds. *)
Definition prompt1 (slack t : Z) (d : option Z) : Prop :=
  match d with Some x => isTimedOut (u32 t) x = true -> u32 (u32 t - x) <= slack | None => True end.
Definition prompt (slack t : Z) (s : lstate) : Prop :=
  Forall (fun l => prompt1 slack t (l_sym l) /\ prompt1 slack t (l_timer l)) (links s).

(** The values an event may carry. *)
Definition event_ok (c : lcfg) (e : lev) : Prop :=
  match e with
  | EHello ifc remote main vt msg r q => 2 <= vt < 536870912 /\ 0 <= r <= rmax c /\ Forall (fun p => 0 <= snd p <= 3) msg
  | _ => True
  end.

(** Runs from the initial state: events at times (in milliseconds, not wrapped) that do not
    decrease, at most six days apart, timers fired at most [slack] late. *)
Inductive lrun (c : lcfg) (slack : Z) : history -> Z -> lstate -> Prop :=
| lrun0 : forall t, 0 <= t -> lrun c slack [] t linit
| lrun1 : forall h t0 s t e s', lrun c slack h t0 s -> t0 <= t < t0 + 536870912 ->
    event_ok c e -> prompt slack t s -> possible (u32 t) s e = true ->
    lstep c (u32 t) s e = Some s' -> lrun c slack (h ++ items c t s e) t s'.

(** [s] at time [t] is a state of such a run, possibly some time after its last event. *)
Definition at_time (c : lcfg) (slack : Z) (h : history) (t : Z) (s : lstate) : Prop :=
  exists t0, lrun c slack h t0 s /\ t0 <= t < t0 + 536870912 /\ prompt slack t s.

(** a link to the neighbor with this main address *)
Definition to_nbr (s : lstate) (main : Z) (l : link) : Prop :=
  exists n, In n (nbrs s) /\ n_id n = l_nbr l /\ n_addr n = main.

(** Plain runs: just the events, no assumption on times. *)
Inductive prun (c : lcfg) (ok : lstate -> lev -> Prop) : lstate -> Prop :=
| prun0 : prun c ok linit
| prun1 : forall s now e s', prun c ok s -> 0 <= now < 4294967296 -> event_ok c e -> ok s e ->
    possible now s e = true -> lstep c now s e = Some s' -> prun c ok s'.

(** A network in which every address [a] belongs to the node with main address [own a] and all
    messages say so. *)
Definition sane_event (own : Z -> Z) (s : lstate) (e : lev) : Prop :=
  match e with
  | EHello ifc remote main vt msg r q => main = own remote
  | EAlias main alias => main = own alias /\ alias <> main
  | EMid m a => (forall x y, m x = Some y -> y = own x) /\ (forall x y, In y (a x) -> x = own y /\ y <> x)
  | _ => True
  end.

(** the number of links that point to a neighbor entry *)
Definition cnt (i : Z) (ls : list link) : Z := Z.of_nat (length (filter (fun l => l_nbr l =? i) ls)).

(** neighbor entries and links fit together *)
Definition consistent (s : lstate) : Prop :=
  (forall l, In l (links s) -> exists n, In n (nbrs s) /\ n_id n = l_nbr l) /\
  (forall n, In n (nbrs s) -> n_count n = cnt (n_id n) (links s) /\ 1 <= n_count n) /\
  NoDup (map n_id (nbrs s)) /\ NoDup (map n_addr (nbrs s)).

(** a neighbor is marked symmetric exactly when one of its links is symmetric *)
Definition marks_ok (c : lcfg) (now : Z) (s : lstate) : Prop :=
  forall n, In n (nbrs s) -> (n_status n = 1 <-> exists l, In l (links s) /\ l_nbr l = n_id n /\ link_status c now (links s) l = 2).

(** Single-address neighbors whose HELLOs list us as SYM or LOST, on known interfaces; no link is
    removed while symmetric. *)
Definition quiet_event (s : lstate) (e : lev) : Prop :=
  match e with
  | EHello ifc remote main vt msg r q =>
      main = remote /\ (said (i_addr ifc) msg = 2 \/ said (i_addr ifc) msg = 3) /\
      exists i, In i (ifs s) /\ i_name i = i_name ifc
  | ESymFire _ | ECost _ _ => True
  | ELinkFire i => forall l, In l (links s) -> l_id l = i -> l_sym l = None
  | EIfs l => forall i, In i (ifs s) -> exists j, In j l /\ i_name j = i_name i
  | _ => False
  end.

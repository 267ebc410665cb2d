(** Vocabulary for the statements about the two-hop neighbor table. *)
From Verif Require Import Base SchedTime TwoHop.

(** Neighbor [n] has a record for the two-hop neighbor with address [x]. *)
Definition reaches (s : tstate) (n x : Z) : Prop :=
  exists l t, In l (n2ls s) /\ In t (twos s) /\ l_nbr l = n /\ l_two l = t_id t /\ t_addr t = x.
(** The two-hop neighbor with address [x] has [n] on its list. *)
Definition seen_from (s : tstate) (n x : Z) : Prop :=
  exists t, In t (twos s) /\ t_addr t = x /\ In n (map e_nbr (t_list t)).
(** The two tables agree: both directions, no two-hop neighbor and no pair twice, records only of
    neighbors and two-hop neighbors that are in the tables, and each count is the number of neighbors
    that reach the two-hop neighbor, which is not zero. *)
Record consistent (s : tstate) : Prop := {
  c_both : forall n x, reaches s n x <-> seen_from s n x;
  c_once : NoDup (map (fun l => (l_nbr l, l_two l)) (n2ls s));
  c_addr : NoDup (map t_addr (twos s));
  c_nbr : forall l, In l (n2ls s) -> In (l_nbr l) (map b_id (nbs s));
  c_two : forall l, In l (n2ls s) -> In (l_two l) (map t_id (twos s));
  c_cnt : forall t, In t (twos s) -> 1 <= t_cnt t /\ exists ns, NoDup ns /\ Z.of_nat (length ns) = t_cnt t /\ forall n, In n ns <-> reaches s n (t_addr t) }.

(** In the MID set a HELLO is processed with, the aliases of a main address are registered for it, and
    no main address is itself an alias. *)
Definition no_chain (v : henv) : Prop :=
  (forall m a, In a (v_ali v m) -> v_main v a = Some m) /\ (forall a m, v_main v a = Some m -> v_main v m = None).
(** What is excluded: a HELLO processed while the MID set has chains; an alias learned for a node one
    of whose other aliases (or whose main address, as its own alias) is in the neighbor table as a
    neighbor of its own; more neighbors than an int16_t can count. *)
Definition tolerable (s : tstate) (e : tev) : Prop :=
  Z.of_nat (length (nbs s)) <= 32767 /\
  match e with
  | THello _ v _ => no_chain v
  | TMid main alias known others =>
      ~ In main (alias :: others) /\ (forall a, In a others -> ~ In a (map b_addr (nbs s))) /\
      (forall x y, In x (nbs s) -> In y (nbs s) -> b_addr x = alias -> b_addr y = alias -> x = y)
  | _ => True
  end.

(** Runs from the empty tables; [ok] restricts the events. *)
Inductive nrun (rmax : Z) (hsh : Z -> Z) (ok : tstate -> tev -> Prop) : tstate -> Prop :=
| nrun0 : nrun rmax hsh ok tinit
| nrun1 : forall s now e s', nrun rmax hsh ok s -> 0 <= now < 4294967296 -> ok s e -> tpossible now s e = true ->
    tstep rmax hsh now s e = Some s' -> nrun rmax hsh ok s'.
Definition any (s : tstate) (e : tev) : Prop := True.

(** A HELLO names [x] if it lists, as symmetric, an address that is not ours and belongs to [x]. *)
Definition names (v : henv) (x : Z) (k : hnb) : bool := h_sym k && negb (v_own v (h_addr k)) && (main_of v (h_addr k) =? x).
(** The HELLOs of [n] that name [x]: time and validity. *)
Definition mention (n x : Z) (i : Z * tstate * tev) : option (Z * Z) :=
  match i with
  | (t, _, THello m v msg) => if (m =? n) && existsb (names v x) msg then Some (t, v_time v) else None
  | _ => None
  end.
Definition later {A : Type} (acc new : option A) : option A := match new with Some _ => new | None => acc end.
Definition last_mention (n x : Z) (h : list (Z * tstate * tev)) : option (Z * Z) :=
  fold_left (fun acc i => later acc (mention n x i)) h None.
(** The same, counting only the HELLOs that found the record [i] already there. *)
Definition confirmation (i n x : Z) (k : Z * tstate * tev) : option (Z * Z) :=
  if existsb (fun l => l_id l =? i) (n2ls (snd (fst k))) then mention n x k else None.
Definition last_confirmation (i n x : Z) (h : list (Z * tstate * tev)) : option (Z * Z) :=
  fold_left (fun acc k => later acc (confirmation i n x k)) h None.

(** Timed runs: events at times (milliseconds, not wrapped) that do not decrease, at most six days
    apart, timers fired at most [slack] late; the history keeps the state before each event. *)
Definition event_ok (rmax : Z) (e : tev) : Prop :=
  match e with THello _ v _ => 1 <= v_time v < 536870912 /\ 0 <= v_rand v <= rmax | _ => True end.
Definition nprompt (slack t : Z) (s : tstate) : Prop :=
  Forall (fun l => match l_timer l with Some x => isTimedOut (u32 t) x = true -> u32 (u32 t - x) <= slack | None => True end) (n2ls s).
Inductive ntrun (rmax : Z) (hsh : Z -> Z) (slack : Z) : list (Z * tstate * tev) -> Z -> tstate -> Prop :=
| ntrun0 : forall t, 0 <= t -> ntrun rmax hsh slack [] t tinit
| ntrun1 : forall h t0 s t e s', ntrun rmax hsh slack h t0 s -> t0 <= t < t0 + 536870912 -> event_ok rmax e -> tolerable s e -> nprompt slack t s ->
    tpossible (u32 t) s e = true -> tstep rmax hsh (u32 t) s e = Some s' -> ntrun rmax hsh slack (h ++ [(t, s, e)]) t s'.
Definition at_time (rmax : Z) (hsh : Z -> Z) (slack : Z) (h : list (Z * tstate * tev)) (t : Z) (s : tstate) : Prop :=
  exists t0, ntrun rmax hsh slack h t0 s /\ t0 <= t < t0 + 536870912 /\ nprompt slack t s.

(** The cost of the path by way of [n] with the first hop at [c] after a HELLO: the best of what is
    listed for [x]. *)
Definition listed_costs (v : henv) (x : Z) (msg : list hnb) : list Z :=
  if v_own v x then [] else map h_cost (filter (names v x) msg).
Definition best_path (c : Z) (ks : list Z) : Z := fold_right (fun k acc => Z.min (c + k) acc) LINK_COST_BROKEN ks.
(** The cost recorded for the path by way of [n] to [x]. *)
Definition path_cost (s : tstate) (n x p : Z) : Prop :=
  exists t e, In t (twos s) /\ t_addr t = x /\ In e (t_list t) /\ e_nbr e = n /\ e_path e = p.

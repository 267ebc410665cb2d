(** Vocabulary for the statements about the MID set. *)
From Verif Require Import Base SchedTime Bytes Mid.

(** [a] is listed as an alias of [m]. *)
Definition listed (s : mstate) (m a : Z) : Prop := exists e, In e (ents s) /\ e_main e = m /\ In a (map a_addr (e_ali e)).

(** Plain runs: the calls to the routing table so far and the state. *)
Inductive mrun (ok : mev -> Prop) : list reff -> mstate -> Prop :=
| mrun0 : mrun ok [] minit
| mrun1 : forall log s now e s' l, mrun ok log s -> 0 <= now < 4294967296 -> ok e -> mpossible now s e = true ->
    mstep now s e = Some (s', l) -> mrun ok (log ++ l) s'.
Definition any_event (e : mev) : Prop := True.

(** A network in which every address [a] belongs to the node with main address [owner a], messages
    come from main addresses and declare only their other addresses. *)
Definition honest (owner : Z -> Z) (e : mev) : Prop :=
  match e with
  | MMsg own vd nb sym main vt al => owner main = main /\ forall a, In a al -> owner a = main /\ a <> main
  | MHello vd nb src from vt => owner src = src /\ owner from = src
  | _ => True
  end.

(** Is the route to alias [a] by way of [m] wanted after these calls? *)
Definition route1 (a m : Z) (b : bool) (x : reff) : bool :=
  match x with
  | RAdd a' m' => if (a' =? a) && (m' =? m) then true else b
  | RDel a' m' => if (a' =? a) && (m' =? m) then false else b
  end.
Definition routed (a m : Z) (log : list reff) : bool := fold_left (route1 a m) log false.

(** Timed runs. Values an event may carry: validity times as in messages. *)
Definition mevent_ok (e : mev) : Prop :=
  match e with
  | MMsg own vd nb sym main vt al => 1 <= vt < 536870912
  | MHello vd nb src from vt => 1 <= vt < 536870912
  | _ => True
  end.
Definition mprompt (slack t : Z) (s : mstate) : Prop :=
  Forall (fun e => match e_timer e with Some x => isTimedOut (u32 t) x = true -> u32 (u32 t - x) <= slack | None => True end) (ents s).

(** When [m] last declared [a] in a MID message that was processed while [a] was taken to be its
    alias or free, with the validity; forgotten when something else than the passing of time ends
    it: an empty TC or the shutdown, an empty MID message of [m], or [m] itself turning into an
    alias. *)
Definition declare1 (m a : Z) (acc : option (Z * Z)) (x : Z * mstate * mev) : option (Z * Z) :=
  match x with
  | (t, s, MMsg own vd nb sym main vt al) =>
      if negb (vd main) || negb sym then acc
      else if existsb (Z.eqb m) al && nb m then None
      else if main =? m then
        match al with
        | [] => None
        | _ => if existsb (Z.eqb a) al &&
                  match lookup_main a s with Some (Some x) => x =? m | Some None => negb (own a) && vd a | None => false end
               then Some (t, vt) else acc
        end
      else acc
  | (_, _, MHello vd nb src from vt) => if (from =? m) && nb m then None else acc
  | (_, _, MFire _) => acc
  | (_, _, MCleanup x) => if x =? m then None else acc
  | (_, _, MAll) => None
  end.
Definition declared (m a : Z) (h : list (Z * mstate * mev)) : option (Z * Z) := fold_left (declare1 m a) h None.

(** The validities [m] has been heard with: MID messages that were processed and HELLOs that came
    from another of its addresses. *)
Definition heard_from (m : Z) (x : Z * mstate * mev) : option (Z * Z) :=
  match x with
  | (t, _, MMsg _ vd _ sym main vt _) => if (main =? m) && vd m && sym then Some (t, vt) else None
  | (t, _, MHello vd _ src from vt) => if (src =? m) && negb (from =? m) && vd from then Some (t, vt) else None
  | _ => None
  end.
(** The MID messages of [m] that were processed and declare [a]. *)
Definition declares (m a : Z) (x : Z * mstate * mev) : option (Z * Z) :=
  match x with
  | (t, _, MMsg _ vd _ sym main vt al) => if (main =? m) && vd m && sym && existsb (Z.eqb a) al then Some (t, vt) else None
  | _ => None
  end.

(** Runs from the initial state: events at times (milliseconds, not wrapped) that do not decrease, at
    most six days apart, timers fired at most [slack] late.  The history keeps, with each event, the
    time and the state before it. *)
Inductive trun (slack : Z) : list (Z * mstate * mev) -> Z -> mstate -> Prop :=
| trun0 : forall t, 0 <= t -> trun slack [] t minit
| trun1 : forall h t0 s t e s' l, trun slack h t0 s -> t0 <= t < t0 + 536870912 -> mevent_ok e -> mprompt slack t s ->
    mpossible (u32 t) s e = true -> mstep (u32 t) s e = Some (s', l) -> trun slack (h ++ [(t, s, e)]) t s'.
Definition tstate (slack : Z) (h : list (Z * mstate * mev)) (t : Z) (s : mstate) : Prop :=
  exists t0, trun slack h t0 s /\ t0 <= t < t0 + 536870912 /\ mprompt slack t s.

(** The body of a MID message: whole addresses between the header and the stated size. *)
Definition header (v6 : bool) : Z := if v6 then 24 else 12.
Definition addr_len (v6 : bool) : Z := if v6 then 16 else 4.
Definition body (v6 : bool) (b : list Z) (size : Z) : list (list Z) :=
  map (fun k => slice b (header v6 + addr_len v6 * Z.of_nat k) (addr_len v6)) (seq 0 (Z.to_nat ((size - header v6) / addr_len v6))).

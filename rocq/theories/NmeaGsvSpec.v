(** Satellites in view, as a receiver tells them *)
From Verif Require Import Base NmeaScan NmeaGsv.

(** a satellite that a receiver can see *)
Definition seen (s : sat) : Prop := prn s <> 0.
(** an array with these satellites and nothing behind them *)
Definition holds (l : list sat) (v : list sat) : Prop := v = l ++ repeat (mkSat 0 0 0 0) (72 - length l).
(** what an entry is after a satellite was stored: one without a number is empty *)
Definition stored (x y : sat) : Prop := (prn x = 0 /\ y = mkSat 0 0 0 0) \/ (prn x <> 0 /\ y = x).
(** elevation, azimuth and signal of a satellite are possible *)
Definition possible (s : sat) : Prop := 0 <= prn s /\ - 180 <= elev s <= 180 /\ 0 <= azim s <= 359 /\ 0 <= snr s <= 99.
(** sentences in their order go into the information one after the other *)
Inductive fed : list gsv -> view -> view -> Prop :=
| fed_nil v : fed [] v v
| fed_cons p ps v v1 v2 : to_info p v = Some v1 -> fed ps v1 v2 -> fed (p :: ps) v v2.

(** what is stored for a field that may be empty, and its value: 0 if it is *)
Definition ou (o : option Z) : val := match o with Some v => VUns v | None => VKeep end.
Definition oi (o : option Z) : val := match o with Some v => VInt v | None => VKeep end.
Definition dz (o : option Z) : Z := match o with Some v => v | None => 0 end.
(** the four fields of a satellite *)
Definition four_fields : Type := option Z * option Z * option Z * option Z.
Definition vals_of (f : four_fields) : list val := let '(p, e, a, s) := f in [ou p; oi e; ou a; ou s].
Definition sat_of (f : four_fields) : sat := let '(p, e, a, s) := f in mkSat (dz p) (dz e) (dz a) (dz s).

(** What the movement state, the updates and the cluster leader of the PUD plugin should be. *)
From Verif Require Import Base PudState.

(** what a call says: moving or not *)
Definition wants (c : call) : bool := (snd (fst c) =? 2) || snd c.
(** how many of the newest calls say the same; the newest is first *)
Fixpoint streak (b : bool) (h : list call) : Z :=
  match h with [] => 0 | c :: r => if Bool.eqb (wants c) b then 1 + streak b r else 0 end.
(** what is shown after the calls (newest first): it changes once enough calls in a row say
    so, and to moving at once when information begins or stops *)
Fixpoint shown (init : bool) (tostat tomov : Z) (h : list call) : bool :=
  match h with
  | [] => init
  | c :: r =>
      if wants c then shown init tostat tomov r || snd c || (tomov <=? streak true h)
      else shown init tostat tomov r && (streak false h <? tostat)
  end.
(** the calls for the gateway, or for the position, newest first *)
Definition calls_of (g : bool) (l : list call) : list call := rev (filter (fun c => Bool.eqb (fst (fst c)) g) l).
(** thresholds that can be configured *)
Definition hyst_ok (h : hyst) : Prop := 0 <= h_pstat h < 2 ^ 64 /\ 0 <= h_pmov h < 2 ^ 64 /\ 0 <= h_gstat h < 2 ^ 64 /\ 0 <= h_gmov h < 2 ^ 64.
(** what is shown for the position, for the gateway, and in all *)
Definition pos_shown (h : hyst) (l : list call) : bool := shown false (h_pstat h) (h_pmov h) (calls_of false l).
Definition gw_shown (h : hyst) (l : list call) : bool := shown true (h_gstat h) (h_gmov h) (calls_of true l).
Definition moving (h : hyst) (l : list call) : bool := pos_shown h l || gw_shown h l.

(** the gateway of the last check *)
Fixpoint last_gw (l : list event) (d : list Z) : list Z :=
  match l with [] => d | Gateway b :: r => last_gw r b | _ :: r => last_gw r d end.

(** a gateway that may be the leader: reachable, with bandwidth in both directions, and in use
    or of a kind that can be used *)
Definition may_lead (c : gcfg) (g : gwe) : Prop :=
  (exists k, g_cost g = Some k /\ k < 4294967295) /\ g_up g <> 0 /\ g_down g <> 0 /\
  (n_cur4 c = Some (g_org g) \/ n_cur6 c = Some (g_org g) \/
   (g_v4 g = true /\ (n_v6 c = false \/ n_niit c = true) /\ (n_nat c = true \/ g_nat g = false)) \/ (g_v6 g = true /\ n_v6 c = true)).
(** speeds as they are received *)
Definition speeds_ok (g : gwe) : Prop := 0 <= g_up g <= 320000000 /\ 0 <= g_down g <= 320000000.
(** an address is lower *)
Inductive lower : list Z -> list Z -> Prop :=
| lower_here x y a b : x < y -> lower (x :: a) (y :: b)
| lower_later x a b : lower a b -> lower (x :: a) (x :: b).

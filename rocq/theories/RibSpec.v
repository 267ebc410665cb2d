(** What the table of the kernel has to hold. *)
From Verif Require Import Base RtBest RtBestSpec Rib.

(** results of a calculation as C19 and C20 give them: one result per node and
    prefix, a valid interface, a finite cost, addresses of [n] bytes *)
Definition wf_results (n : nat) (rs : list result) : Prop :=
  NoDup (map (fun r => (rr_orig r, rr_dst r)) rs) /\
  Forall (fun r => length (rr_orig r) = n /\ 0 <= rr_iif r /\ rr_cost r < 2 ^ 32 - 1) rs.

(** [r] is the best offer for the prefix [d]: nobody else offers a better path.
    For a prefix of length 0 the cost of one originator may count scaled. *)
Definition chosen (cf : rcfg) (rs : list result) (d : list Z * Z) (r : result) : Prop :=
  In r rs /\ rr_dst r = d /\ snd d <= cf_maxplen cf /\
  exists disc : list Z -> Prop,
    (snd d <> 0 -> forall o, ~ disc o) /\ (forall o o', disc o -> disc o' -> o = o') /\
    exists c, (forall p, disc (rp_orig p) -> c p = cf_scale cf (rp_cost p)) /\ (forall p, ~ disc (rp_orig p) -> c p = rp_cost p) /\
    forall r', In r' rs -> rr_dst r' = d -> ~ preferred c (path_of 0 r') (path_of 0 r).

(** the routes of the kernel to [d] *)
Definition routes (k : list kroute) (d : list Z * Z) : list kroute := filter (fun r => dst_eqb (k_dst r) d) k.

(** the kernel has exactly one route to [d], that of the best path, or none if
    nobody offers a path to [d] *)
Definition mirrors (cf : rcfg) (rs : list result) (k : list kroute) (d : list Z * Z) : Prop :=
  (exists r m, chosen cf rs d r /\ routes k d = [mkKr d m (rr_gw r) (rr_iif r)] /\
               (cf_fib cf = FLAT -> m = kmetric cf d 0) /\ (cf_fib cf = CORRECT -> m = kmetric cf d (rr_hops r))) \/
  ((forall r, In r rs -> rr_dst r = d -> snd d > cf_maxplen cf) /\ routes k d = []).

(** every request is accepted *)
Definition accepts (acc : bool -> list Z * Z -> bool) : Prop := forall b d, acc b d = true.

(** histories: [A]: calculations and removals of paths, the kernel may refuse;
    [B]: the kernel accepts everything; an interface goes down, flushing its
    routes, only when no path was removed since the last calculation *)
Definition op_A (n : nat) (o : rop) : Prop :=
  match o with OCalc rs _ => wf_results n rs | ODelPath _ _ => True | OIfdown _ _ _ => False end.
Fixpoint hist_B (n : nat) (dirty : bool) (l : list rop) : Prop :=
  match l with
  | [] => True
  | OCalc rs acc :: l' => wf_results n rs /\ accepts acc /\ hist_B n false l'
  | ODelPath _ _ :: l' => hist_B n true l'
  | OIfdown _ flushed acc :: l' => dirty = false /\ flushed = true /\ accepts acc /\ hist_B n false l'
  end.

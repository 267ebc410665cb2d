(** What an MPR set has to be, in terms of the neighborhood alone. *)
From Verif Require Import Base Mpr.

(** the lists of neighbors and of two-hop neighbors agree, without duplicates *)
Definition wf_graph (g : graph) : Prop :=
  (forall b, (b < length (g_nbrs g))%nat -> NoDup (b_two (nb g b)) /\ forall x, In x (b_two (nb g b)) -> (x < length (g_twos g))%nat) /\
  (forall x, (x < length (g_twos g))%nat -> NoDup (nbl g x) /\ forall b, In b (nbl g x) -> (b < length (g_nbrs g))%nat) /\
  (forall b x, (b < length (g_nbrs g))%nat -> (x < length (g_twos g))%nat -> (In x (b_two (nb g b)) <-> In b (nbl g x))).

(** [x] is at distance two: it is not itself a symmetric neighbor *)
Definition distance_two (g : graph) (x : nat) : Prop := (x < length (g_twos g))%nat /\ t_dup (tw g x) = false.
(** a neighbor that may be selected *)
Definition willing (g : graph) (b : nat) : Prop := b_sym (nb g b) = true /\ 1 <= b_will (nb g b) <= 7.
(** [x] is adjacent to a selected, symmetric neighbor *)
Definition is_covered (g : graph) (mpr : nat -> bool) (x : nat) : Prop := exists b, In b (nbl g x) /\ mpr b = true /\ b_sym (nb g b) = true.

(** *** link quality *)
(** the cost that a path over an MPR has to beat: that of the direct link, if [x]
    is a symmetric neighbor; [None] if it is one without link *)
Definition limit (g : graph) (x : nat) : option Z := if t_dup (tw g x) then t_direct (tw g x) else Some BROKEN.
(** [b] connects [x] at cost [v], usefully *)
Definition candidate (g : graph) (x : nat) (lim : Z) (w : nat * Z) : Prop :=
  In w (t_nbl (tw g x)) /\ b_sym (nb g (fst w)) = true /\ snd w < BROKEN /\ snd w < lim.
(** the same as a list *)
Definition candidates (g : graph) (x : nat) (lim : Z) : list (nat * Z) :=
  filter (fun w => b_sym (nb g (fst w)) && (snd w <? BROKEN) && (snd w <? lim)) (t_nbl (tw g x)).

(** Sequences represented by circular doubly linked lists. *)
From Verif Require Import Base DList.
From Coq Require Import Permutation.

(** Following [next] from [x] one meets [l] and then [y]; [prev] is the
    inverse. *)
Fixpoint path (h : heap) (x : Z) (l : list Z) (y : Z) : Prop :=
  match l with
  | [] => nx h x = y /\ pv h y = x
  | z :: l' => nx h x = z /\ pv h z = x /\ path h z l' y
  end.

(** A world: list heads with the sequence of nodes each one holds. *)
Definition world := list (Z * list Z).
Definition nodes (w : world) : list Z := concat (map (fun p => fst p :: snd p) w).

(** The heap represents the world: every list is a circle through its head,
    no node is shared, none is NULL. *)
Definition rep (h : heap) (w : world) : Prop :=
  Forall (fun p => path h (fst p) (snd p) (fst p)) w /\ NoDup (nodes w) /\ ~ In 0 (nodes w).

(** What the calls mean on sequences.  A new node must not be in use. *)
Inductive lmeans : world -> lop -> world -> Prop :=
| lm_init : forall w hd, hd <> 0 -> ~ In hd (nodes w) -> lmeans w (LInit hd) ((hd, []) :: w)
| lm_after_head : forall w w0 hd l n, Permutation w ((hd, l) :: w0) -> n <> 0 -> ~ In n (nodes w) ->
    lmeans w (LAfter hd n) ((hd, n :: l) :: w0)
| lm_after : forall w w0 hd l1 x l2 n, Permutation w ((hd, l1 ++ x :: l2) :: w0) -> n <> 0 -> ~ In n (nodes w) ->
    lmeans w (LAfter x n) ((hd, l1 ++ x :: n :: l2) :: w0)
| lm_before_head : forall w w0 hd l n, Permutation w ((hd, l) :: w0) -> n <> 0 -> ~ In n (nodes w) ->
    lmeans w (LBefore hd n) ((hd, l ++ [n]) :: w0)
| lm_before : forall w w0 hd l1 x l2 n, Permutation w ((hd, l1 ++ x :: l2) :: w0) -> n <> 0 -> ~ In n (nodes w) ->
    lmeans w (LBefore x n) ((hd, l1 ++ n :: x :: l2) :: w0)
| lm_remove : forall w w0 hd l1 x l2, Permutation w ((hd, l1 ++ x :: l2) :: w0) ->
    lmeans w (LRemove x) ((hd, l1 ++ l2) :: w0)
| lm_merge : forall w w0 h1 l1 h2 l2, Permutation w ((h1, l1) :: (h2, l2) :: w0) ->
    lmeans w (LMerge h1 h2) ((h1, l2 ++ l1) :: (h2, []) :: w0).

(** a sequence of calls *)
Inductive lmeans_all : world -> list lop -> world -> Prop :=
| lma_nil : forall w, lmeans_all w [] w
| lma_cons : forall w o w1 l w2, lmeans w o w1 -> lmeans_all w1 l w2 -> lmeans_all w (o :: l) w2.

(** The list can be read back: walking [next] from the head. *)
Fixpoint walk (fuel : nat) (h : heap) (hd cur : Z) : list Z :=
  match fuel with
  | O => []
  | S f => if nx h cur =? hd then [] else nx h cur :: walk f h hd (nx h cur)
  end.
Fixpoint walk_back (fuel : nat) (h : heap) (hd cur : Z) : list Z :=
  match fuel with
  | O => []
  | S f => if pv h cur =? hd then [] else pv h cur :: walk_back f h hd (pv h cur)
  end.

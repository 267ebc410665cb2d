(** Sorted multimaps. *)
From Verif Require Import Base Avl.

(** A comparison function in the style of memcmp is a total preorder. *)
Record comp_ok {K} (comp : K -> K -> Z) : Prop := {
  comp_refl : forall a, comp a a = 0;
  comp_sym : forall a b, comp a b < 0 <-> comp b a > 0;
  comp_trans : forall a b c, comp a b <= 0 -> comp b c <= 0 -> comp a c <= 0
}.

(** What the tree should hold: entries in ascending order, equal keys in order
    of insertion. *)
Fixpoint sinsert {K} (comp : K -> K -> Z) (x : entry K) (l : list (entry K)) : list (entry K) :=
  match l with
  | [] => [x]
  | y :: l' => if comp (ekey x) (ekey y) <? 0 then x :: y :: l' else y :: sinsert comp x l'
  end.

(** removal by identity *)
Definition sdelete {K} (id : Z) (l : list (entry K)) : list (entry K) := filter (fun y => negb (eid y =? id)) l.

(** lookup: the first entry with an equal key *)
Definition sfind {K} (comp : K -> K -> Z) (k : K) (l : list (entry K)) : option (entry K) :=
  List.find (fun y => comp k (ekey y) =? 0) l.

(** What iteration shows: the thread in order. *)
Definition entries {K} (t : atree K) : list (entry K) := map fst (thr t).

(** Height of the search tree (the cost of a lookup). *)
Fixpoint height {K} (t : tree K) : Z :=
  match t with E => 0 | N l _ _ r => 1 + Z.max (height l) (height r) end.

(** The calls and their history; a node may only be inserted while it is not in
    the tree, and only be deleted while it is. *)
Inductive avl_op (K : Type) := AIns (x : entry K) (dup : bool) | ADel (id : Z).
Arguments AIns {K}. Arguments ADel {K}.

(** meaning of a call on the sorted list, with the result code *)
Definition smeans {K} (comp : K -> K -> Z) (l : list (entry K)) (o : avl_op K) : list (entry K) * Z :=
  match o with
  | AIns x dup => match sfind comp (ekey x) l with
                  | Some _ => if dup then (sinsert comp x l, 0) else (l, -1)
                  | None => (sinsert comp x l, 0)
                  end
  | ADel id => (sdelete id l, 0)
  end.

Definition op_legal {K} (l : list (entry K)) (o : avl_op K) : Prop :=
  match o with
  | AIns x _ => ~ In (eid x) (map eid l)
  | ADel id => In id (map eid l)
  end.

Definition avl_step {K} (comp : K -> K -> Z) (t : atree K) (o : avl_op K) : option (atree K * Z) :=
  match o with
  | AIns x dup => avl_insert comp t x dup
  | ADel id => match avl_delete t id with Some t' => Some (t', 0) | None => None end
  end.

Fixpoint avl_run {K} (comp : K -> K -> Z) (t : atree K) (l : list (avl_op K)) : option (atree K * list Z) :=
  match l with
  | [] => Some (t, [])
  | o :: l' => match avl_step comp t o with
               | None => None
               | Some (t1, r) => match avl_run comp t1 l' with
                                 | None => None
                                 | Some (t2, rs) => Some (t2, r :: rs)
                                 end
               end
  end.

Fixpoint smeans_all {K} (comp : K -> K -> Z) (l : list (entry K)) (ops : list (avl_op K)) : list (entry K) * list Z :=
  match ops with
  | [] => (l, [])
  | o :: ops' => let (l1, r) := smeans comp l o in
                 let (l2, rs) := smeans_all comp l1 ops' in (l2, r :: rs)
  end.

Fixpoint all_legal {K} (comp : K -> K -> Z) (l : list (entry K)) (ops : list (avl_op K)) : Prop :=
  match ops with
  | [] => True
  | o :: ops' => op_legal l o /\ all_legal comp (fst (smeans comp l o)) ops'
  end.

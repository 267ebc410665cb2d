(** Model of src/common/olsrd_avl.c.  Definitions only.
    Simplifications: the parent pointers are represented by an explicit context
    (zipper), so a position in the tree is a subtree plus the list of its
    ancestors; the NULL terminated doubly linked thread (next, prev, first,
    last, count; lines 270-316) is the list of its nodes in order.  A NULL
    dereference is [None].  The balance is a [Z] (a signed char in C, it stays
    between -2 and 2). *)
From Verif Require Import Base.

(** a node as seen by the user: its identity (address) and key,
    src/common/olsrd_avl.h:53-62 *)
Record entry (K : Type) := mkEntry { eid : Z; ekey : K }.
Arguments mkEntry {K}. Arguments eid {K}. Arguments ekey {K}.

Section AVL.
Variable K : Type.
(** olsrd_avl_tree_comp, src/common/olsrd_avl.h:64; the inlined IPv4
    comparison (src/common/olsrd_avl.c:92-106) is the instance ip4cmp *)
Variable comp : K -> K -> Z.

(** left, node, balance, right; struct olsrd_avl_node, src/common/olsrd_avl.h *)
Inductive tree :=
| E
| N (l : tree) (e : entry K) (b : Z) (r : tree).

(** an ancestor: the hole is its left (right) child; the pointer parent of struct
    olsrd_avl_node, src/common/olsrd_avl.h *)
Inductive frame :=
| FL (e : entry K) (b : Z) (r : tree)
| FR (l : tree) (e : entry K) (b : Z).

(** the tree with root pointer as seen from a position; tree->root of src/common/olsrd_avl.h *)
Fixpoint plug (t : tree) (c : list frame) : tree :=
  match c with
  | [] => t
  | FL e b r :: c' => plug (N t e b r) c'
  | FR l e b :: c' => plug (N l e b t) c'
  end.

(** src/common/olsrd_avl.c:92-133 olsrd_avl_find_rec(_ipv4): the node where
    the search stops, with its ancestors; [None] only for an empty tree *)
Fixpoint find_rec (t : tree) (key : K) (c : list frame) : option (tree * list frame) :=
  match t with
  | E => None
  | N l e b r =>
      let diff := comp key (ekey e) in
      if diff <? 0 then
        match l with E => Some (t, c) | N _ _ _ _ => find_rec l key (FL e b r :: c) end
      else if diff >? 0 then
        match r with E => Some (t, c) | N _ _ _ _ => find_rec r key (FR l e b :: c) end
      else Some (t, c)
  end.

(** src/common/olsrd_avl.c:135-156 olsrd_avl_find *)
Definition find (t : tree) (key : K) : option (entry K) :=
  match find_rec t key [] with
  | Some (N _ e _ _, _) => if comp (ekey e) key =? 0 then Some e else None
  | _ => None
  end.

(** src/common/olsrd_avl.c:158-188 olsrd_avl_rotate_right *)
Definition rotate_right (t : tree) : option tree :=
  match t with
  | N (N ll le lb lr) e b r =>
      let b' := b + (1 - Z.min lb 0) in
      let lb' := lb + (1 + Z.max b' 0) in
      Some (N ll le lb' (N lr e b' r))
  | _ => None
  end.

(** src/common/olsrd_avl.c:190-220 olsrd_avl_rotate_left *)
Definition rotate_left (t : tree) : option tree :=
  match t with
  | N l e b (N rl re rb rr) =>
      let b' := b - (1 + Z.max rb 0) in
      let rb' := rb - (1 - Z.min b' 0) in
      Some (N (N l e b' rl) re rb' rr)
  | _ => None
  end.

(** the balance field of a node; src/common/olsrd_avl.h *)
Definition balance (t : tree) : option Z := match t with E => None | N _ _ b _ => Some b end.

(** src/common/olsrd_avl.c:222-268 post_insert *)
Fixpoint post_insert (t : tree) (c : list frame) : option tree :=
  match c with
  | [] => Some t
  | FL e b r :: c' =>
      let pb := b - 1 in
      if pb =? 0 then Some (plug (N t e pb r) c')
      else if pb =? -1 then post_insert (N t e pb r) c'
      else match balance t with
           | None => None
           | Some nb =>
               if nb =? -1 then
                 match rotate_right (N t e pb r) with Some p => Some (plug p c') | None => None end
               else match rotate_left t with
                    | Some t' => match rotate_right (N t' e pb r) with Some p => Some (plug p c') | None => None end
                    | None => None
                    end
           end
  | FR l e b :: c' =>
      let pb := b + 1 in
      if pb =? 0 then Some (plug (N l e pb t) c')
      else if pb =? 1 then post_insert (N l e pb t) c'
      else match balance t with
           | None => None
           | Some nb =>
               if nb =? 1 then
                 match rotate_left (N l e pb t) with Some p => Some (plug p c') | None => None end
               else match rotate_right t with
                    | Some t' => match rotate_left (N l e pb t') with Some p => Some (plug p c') | None => None end
                    | None => None
                    end
           end
  end.

(** The thread: nodes in list order with their [leader] flag; next, prev and leader of struct
    olsrd_avl_node, src/common/olsrd_avl.h *)
Definition thread := list (entry K * bool).

(** src/common/olsrd_avl.c:270-284 olsrd_avl_insert_before; the position must
    be on the thread *)
Fixpoint insert_before (th : thread) (pos : Z) (x : entry K * bool) : option thread :=
  match th with
  | [] => None
  | y :: th' => if eid (fst y) =? pos then Some (x :: y :: th')
                else match insert_before th' pos x with Some l => Some (y :: l) | None => None end
  end.

(** src/common/olsrd_avl.c:286-300 olsrd_avl_insert_after *)
Fixpoint insert_after (th : thread) (pos : Z) (x : entry K * bool) : option thread :=
  match th with
  | [] => None
  | y :: th' => if eid (fst y) =? pos then Some (y :: x :: th')
                else match insert_after th' pos x with Some l => Some (y :: l) | None => None end
  end.

(** src/common/olsrd_avl.c:302-316 olsrd_avl_remove *)
Fixpoint remove (th : thread) (pos : Z) : option thread :=
  match th with
  | [] => None
  | y :: th' => if eid (fst y) =? pos then Some th'
                else match remove th' pos with Some l => Some (y :: l) | None => None end
  end.

(** the nodes after [pos] on the thread (following [next]); src/common/olsrd_avl.c:346-349 *)
Fixpoint nexts (th : thread) (pos : Z) : option thread :=
  match th with
  | [] => None
  | y :: th' => if eid (fst y) =? pos then Some th' else nexts th' pos
  end.

(** src/common/olsrd_avl.c:346-349: [last] = the last follower of a leader *)
Fixpoint skip_followers (last : Z) (l : thread) : Z :=
  match l with
  | (y, false) :: l' => skip_followers (eid y) l'
  | _ => last
  end.
(** see above, src/common/olsrd_avl.c:346-349 *)
Definition last_follower (th : thread) (pos : Z) : option Z :=
  match nexts th pos with Some l => Some (skip_followers pos l) | None => None end.

(** src/common/olsrd_avl.h:66-72 struct olsrd_avl_tree *)
Record atree := mkTree { root : tree; thr : thread }.

(** src/common/olsrd_avl.c:81-90 olsrd_avl_init *)
Definition avl_init : atree := mkTree E [].

(** src/common/olsrd_avl.c:318-402 olsrd_avl_insert; the returned [Z] is 0 or
    -1 *)
Definition avl_insert (t : atree) (new : entry K) (dup : bool) : option (atree * Z) :=
  let leaf := N E new 0 E in
  match root t with
  | E => Some (mkTree leaf [(new, true)], 0)
  | N _ _ _ _ =>
      match find_rec (root t) (ekey new) [] with
      | Some (N l e b r, c) =>
          match last_follower (thr t) (eid e) with
          | None => None
          | Some last =>
              let diff := comp (ekey new) (ekey e) in
              if diff =? 0 then
                if dup then
                  match insert_after (thr t) last (new, false) with
                  | Some th => Some (mkTree (root t) th, 0)
                  | None => None
                  end
                else Some (t, -1)
              else if b =? 1 then
                match insert_before (thr t) (eid e) (new, true) with
                | Some th => Some (mkTree (plug (N leaf e 0 r) c) th, 0)
                | None => None
                end
              else if b =? -1 then
                match insert_after (thr t) last (new, true) with
                | Some th => Some (mkTree (plug (N l e 0 leaf) c) th, 0)
                | None => None
                end
              else if diff <? 0 then
                match insert_before (thr t) (eid e) (new, true), post_insert (N leaf e (-1) r) c with
                | Some th, Some rt => Some (mkTree rt th, 0)
                | _, _ => None
                end
              else
                match insert_after (thr t) last (new, true), post_insert (N l e 1 leaf) c with
                | Some th, Some rt => Some (mkTree rt th, 0)
                | _, _ => None
                end
          end
      | _ => None
      end
  end.

(** the second half of lines 412-437 / 488-514: the left subtree [t] of a node
    lost one level *)
Definition after_left (pd : tree -> list frame -> option tree)
    (t : tree) (e : entry K) (b : Z) (r : tree) (c : list frame) : option tree :=
  let pb := b + 1 in
  if pb =? 0 then pd (N t e pb r) c
  else if pb =? 1 then Some (plug (N t e pb r) c)
  else match balance r with
       | None => None
       | Some rb =>
           if rb =? 0 then
             match rotate_left (N t e pb r) with Some p => Some (plug p c) | None => None end
           else if rb =? 1 then
             match rotate_left (N t e pb r) with Some p => pd p c | None => None end
           else match rotate_right r with
                | Some r' => match rotate_left (N t e pb r') with Some p => pd p c | None => None end
                | None => None
                end
       end.

(** lines 440-463 / 515-541: the right subtree lost one level *)
Definition after_right (pd : tree -> list frame -> option tree)
    (l : tree) (e : entry K) (b : Z) (t : tree) (c : list frame) : option tree :=
  let pb := b - 1 in
  if pb =? 0 then pd (N l e pb t) c
  else if pb =? -1 then Some (plug (N l e pb t) c)
  else match balance l with
       | None => None
       | Some lb =>
           if lb =? 0 then
             match rotate_right (N l e pb t) with Some p => Some (plug p c) | None => None end
           else if lb =? -1 then
             match rotate_right (N l e pb t) with Some p => pd p c | None => None end
           else match rotate_left l with
                | Some l' => match rotate_right (N l' e pb t) with Some p => pd p c | None => None end
                | None => None
                end
       end.

(** src/common/olsrd_avl.c:404-464 olsrd_avl_post_delete: the subtree [t] lost
    one level *)
Fixpoint post_delete (t : tree) (c : list frame) : option tree :=
  match c with
  | [] => Some t
  | FL e b r :: c' => after_left post_delete t e b r c'
  | FR l e b :: c' => after_right post_delete l e b t c'
  end.

(** finding a node by its identity (the caller passes a pointer); src/common/olsrd_avl.c,
    olsrd_avl_delete *)
Fixpoint locate (t : tree) (id : Z) (c : list frame) : option (tree * list frame) :=
  match t with
  | E => None
  | N l e b r =>
      if eid e =? id then Some (t, c)
      else match locate l id (FL e b r :: c) with
           | Some p => Some p
           | None => locate r id (FR l e b :: c)
           end
  end.

(** src/common/olsrd_avl.c:466-473 olsrd_avl_local_min, with ancestors *)
Fixpoint local_min (t : tree) (c : list frame) : option (tree * list frame) :=
  match t with
  | E => None
  | N E e b r => Some (t, c)
  | N l e b r => local_min l (FL e b r :: c)
  end.

(** src/common/olsrd_avl.c:482-581 olsrd_avl_delete_worker for a node with at
    most one child *)
Definition delete_simple (l r : tree) (c : list frame) : option tree :=
  match l, r with
  | E, E => post_delete E c        (* 482-543 *)
  | E, _ => post_delete r c        (* 545-562 *)
  | _, E => post_delete l c        (* 564-581 *)
  | _, _ => None
  end.

(** src/common/olsrd_avl.c:585-608 (and 622-650): [new] takes the place of the
    node [id] in the tree *)
Fixpoint replace (t : tree) (id : Z) (new : entry K) : tree :=
  match t with
  | E => E
  | N l e b r => if eid e =? id then N l new b r else N (replace l id new) e b (replace r id new)
  end.

(** src/common/olsrd_avl.c:475-609 olsrd_avl_delete_worker *)
Definition delete_worker (t : tree) (id : Z) : option tree :=
  match locate t id [] with
  | Some (N l e b r, c) =>
      match l, r with
      | N _ _ _ _, N _ _ _ _ =>
          match local_min r (FR l e b :: c) with
          | Some (N ml me mb mr, mc) =>
              match delete_simple ml mr mc with
              | Some t' => Some (replace t' id me)
              | None => None
              end
          | _ => None
          end
      | _, _ => delete_simple l r c
      end
  | _ => None
  end.

(** the node [id] on the thread: its leader flag and what follows; src/common/olsrd_avl.c,
    olsrd_avl_delete *)
Fixpoint flag_of (th : thread) (id : Z) : option bool :=
  match th with
  | [] => None
  | (y, f) :: th' => if eid y =? id then Some f else flag_of th' id
  end.

(** line 623: next->leader = 1 *)
Fixpoint set_leader (th : thread) (id : Z) : thread :=
  match th with
  | [] => []
  | (y, f) :: th' => if eid y =? id then (y, true) :: th' else (y, f) :: set_leader th' id
  end.

(** src/common/olsrd_avl.c:611-657 olsrd_avl_delete *)
Definition avl_delete (t : atree) (id : Z) : option atree :=
  match flag_of (thr t) id, nexts (thr t) id with
  | Some true, Some nx =>
      match nx with
      | (n, false) :: _ =>
          match remove (set_leader (thr t) (eid n)) id with
          | Some th => Some (mkTree (replace (root t) id n) th)
          | None => None
          end
      | _ =>
          match delete_worker (root t) id, remove (thr t) id with
          | Some rt, Some th => Some (mkTree rt th)
          | _, _ => None
          end
      end
  | Some false, _ =>
      match remove (thr t) id with Some th => Some (mkTree (root t) th) | None => None end
  | _, _ => None
  end.

End AVL.

Arguments E {K}. Arguments N {K}. Arguments FL {K}. Arguments FR {K}.
Arguments mkTree {K}. Arguments root {K}. Arguments thr {K}.
Arguments plug {K}. Arguments rotate_left {K}. Arguments rotate_right {K}. Arguments balance {K}.
Arguments post_insert {K}. Arguments post_delete {K}. Arguments after_left {K}. Arguments after_right {K}.
Arguments locate {K}. Arguments local_min {K}. Arguments delete_simple {K}. Arguments replace {K}.
Arguments delete_worker {K}. Arguments avl_delete {K}. Arguments insert_before {K}. Arguments insert_after {K}.
Arguments remove {K}. Arguments nexts {K}. Arguments skip_followers {K}. Arguments last_follower {K}.
Arguments flag_of {K}. Arguments set_leader {K}. Arguments find_rec {K}. Arguments find {K}.
Arguments avl_insert {K}. Arguments avl_init {K}.

(** Model of src/common/list.c and list_merge of src/common/list.h: circular
    doubly linked lists, at the level of pointers.  Definitions only. *)
From Verif Require Import Base.

(** src/common/list.h:53-56 struct list_node; a pointer is a [Z], NULL is 0.
    The heap gives the two fields of every node. *)
Record heap := mkHeap { nx : Z -> Z; pv : Z -> Z }.

(** assignments [p->next = v] and [p->prev = v]; NULL dereference is [None];
    src/common/list.c:85-111 *)
Definition set_next (p v : Z) (h : heap) : option heap :=
  if p =? 0 then None else Some (mkHeap (fun q => if q =? p then v else nx h q) (pv h)).
(** src/common/list.c:85-111 *)
Definition set_prev (p v : Z) (h : heap) : option heap :=
  if p =? 0 then None else Some (mkHeap (nx h) (fun q => if q =? p then v else pv h q)).

(** reads [p->next], [p->prev]; src/common/list.c:65-111 *)
Definition get_next (p : Z) (h : heap) : option Z := if p =? 0 then None else Some (nx h p).
(** src/common/list.c:65-111 *)
Definition get_prev (p : Z) (h : heap) : option Z := if p =? 0 then None else Some (pv h p).

(** statement sequencing; src/common/list.c:51-111 *)
Definition bind {A B} (o : option A) (f : A -> option B) : option B :=
  match o with Some a => f a | None => None end.
Notation "x <- e ;; f" := (bind e (fun x => f)) (at level 61, e at next level, right associativity).

(** src/common/list.c:50-55 list_head_init *)
Definition list_head_init (node : Z) (h : heap) : option heap :=
  h <- set_prev node node h ;; set_next node node h.

(** src/common/list.c:57-62 list_node_init *)
Definition list_node_init (node : Z) (h : heap) : option heap :=
  h <- set_prev node 0 h ;; set_next node 0 h.

(** src/common/list.c:64-72 list_node_on_list *)
Definition list_node_on_list (node : Z) (h : heap) : option bool :=
  p <- get_prev node h ;; n <- get_next node h ;; Some (negb (p =? 0) || negb (n =? 0)).

(** src/common/list.c:74-82 list_is_empty *)
Definition list_is_empty (node : Z) (h : heap) : option bool :=
  p <- get_prev node h ;; n <- get_next node h ;; Some ((p =? node) && (n =? node)).

(** src/common/list.c:84-92 list_add_after *)
Definition list_add_after (pos new : Z) (h : heap) : option heap :=
  n <- get_next pos h ;;
  h <- set_next new n h ;;
  h <- set_prev new pos h ;;
  n <- get_next pos h ;;
  h <- set_prev n new h ;;
  set_next pos new h.

(** src/common/list.c:94-102 list_add_before *)
Definition list_add_before (pos new : Z) (h : heap) : option heap :=
  p <- get_prev pos h ;;
  h <- set_prev new p h ;;
  h <- set_next new pos h ;;
  p <- get_prev pos h ;;
  h <- set_next p new h ;;
  set_prev pos new h.

(** src/common/list.c:104-111 list_remove *)
Definition list_remove (del : Z) (h : heap) : option heap :=
  n <- get_next del h ;;
  p <- get_prev del h ;;
  h <- set_prev n p h ;;
  p <- get_prev del h ;;
  n <- get_next del h ;;
  h <- set_next p n h ;;
  list_node_init del h.

(** src/common/list.h:72-82 list_merge *)
Definition list_merge (head1 head2 : Z) (h : heap) : option heap :=
  e <- list_is_empty head2 h ;;
  if e then Some h else
  n1 <- get_next head1 h ;; p2 <- get_prev head2 h ;; h <- set_prev n1 p2 h ;;
  p2 <- get_prev head2 h ;; n1 <- get_next head1 h ;; h <- set_next p2 n1 h ;;
  n2 <- get_next head2 h ;; h <- set_next head1 n2 h ;;
  n2 <- get_next head2 h ;; h <- set_prev n2 head1 h ;;
  h <- set_prev head2 head2 h ;; set_next head2 head2 h.

(** The calls; src/common/list.h:58-80 *)
Inductive lop :=
| LInit (head : Z) | LAfter (pos new : Z) | LBefore (pos new : Z)
| LRemove (node : Z) | LMerge (head1 head2 : Z).

(** one call; src/common/list.c:51-111, src/common/list.h:73-82 *)
Definition lstep (h : heap) (o : lop) : option heap :=
  match o with
  | LInit x => list_head_init x h
  | LAfter p n => list_add_after p n h
  | LBefore p n => list_add_before p n h
  | LRemove x => list_remove x h
  | LMerge a b => list_merge a b h
  end.

(** a sequence of calls; of src/common/list.h:58-80 *)
Fixpoint lrun (h : heap) (l : list lop) : option heap :=
  match l with [] => Some h | o :: l' => h <- lstep h o ;; lrun h l' end.

(** What the link state database means: sets of originators, links and prefixes. *)
From Verif Require Import Base TcGraph.

Record aset := mkA { a_main : list Z; a_nodes : list (list Z); a_links : list (list Z * list Z); a_pfx : list (list Z * (list Z * Z)) }.
Definition no_main (A : aset) : Prop := Forall (fun b => b = 0) (a_main A).
Definition addr_eq_dec : forall a b : list Z, {a = b} + {a <> b} := list_eq_dec Z.eq_dec.
Definition knows (A : aset) (a : list Z) : Prop := In a (a_nodes A).

(** the sets without everything of originator [a] *)
Definition without (A : aset) (a : list Z) : aset :=
  let keep {B} (x : list Z * B) := if addr_eq_dec (fst x) a then false else true in
  mkA (a_main A) (filter (fun x => if addr_eq_dec x a then false else true) (a_nodes A)) (filter keep (a_links A)) (filter keep (a_pfx A)).
(** with a new originator, which has itself as a prefix *)
Definition with_node (mp : Z) (A : aset) (a : list Z) : aset := mkA (a_main A) (a :: a_nodes A) (a_links A) ((a, (a, mp)) :: a_pfx A).
Definition with_link (A : aset) (a b : list Z) : aset := mkA (a_main A) (a_nodes A) ((a, b) :: a_links A) (a_pfx A).
Definition with_pfx (A : aset) (a : list Z) (p : list Z * Z) : aset := mkA (a_main A) (a_nodes A) (a_links A) ((a, p) :: a_pfx A).
Definition without_link (A : aset) (a b : list Z) : aset :=
  mkA (a_main A) (a_nodes A) (filter (fun x => if addr_eq_dec (fst x) a then if addr_eq_dec (snd x) b then false else true else true) (a_links A)) (a_pfx A).
Definition without_pfx (A : aset) (a : list Z) (p : list Z * Z) : aset :=
  mkA (a_main A) (a_nodes A) (a_links A)
    (filter (fun x => if addr_eq_dec (fst x) a then if addr_eq_dec (fst (snd x)) (fst p) then if Z.eq_dec (snd (snd x)) (snd p) then false else true else true else true) (a_pfx A)).
Definition set_amain (A : aset) (a : list Z) : aset := mkA a (a_nodes A) (a_links A) (a_pfx A).

(** the effect of an operation on the sets; without main address no originator
    is added *)
Definition can_add (A A' : aset) (mp : Z) (a : list Z) : Prop :=
  (knows A a /\ A' = A) \/ (~ knows A a /\ ~ no_main A /\ A' = with_node mp A a).
Inductive ameans (mp : Z) : aset -> gop -> aset -> Prop :=
| m_edge A A' a b : can_add A A' mp a -> ameans mp A (OEdge a b) (with_link A' a b)
| m_edge_no A a b : ~ knows A a -> no_main A -> ameans mp A (OEdge a b) A
| m_del_edge A a b : ameans mp A (ODelEdge a b) (without_link A a b)
| m_del A a : ameans mp A (ODelEntry a) (without A a)
| m_path A A' a d l : l <= mp -> can_add A A' mp a -> ameans mp A (OPath a d l) (with_pfx A' a (d, l))
| m_path_no A a d l : (l > mp \/ (~ knows A a /\ no_main A)) -> ameans mp A (OPath a d l) A
| m_del_path A a d l : l <= mp -> ameans mp A (ODelPath a d l) (without_pfx A a (d, l))
| m_del_path_no A a d l : l > mp -> ameans mp A (ODelPath a d l) A
| m_my_edge A b : ~ no_main A -> ameans mp A (OMyEdge b) (with_link A (a_main A) b)
| m_my_edge_no A b : no_main A -> ameans mp A (OMyEdge b) A
| m_del_my_edge A b : ~ no_main A -> ameans mp A (ODelMyEdge b) (without_link A (a_main A) b)
| m_del_my_edge_no A b : no_main A -> ameans mp A (ODelMyEdge b) A
| m_main_same A : ameans mp A (OMain (a_main A)) A
| m_main A a : a <> a_main A -> ~ Forall (fun b => b = 0) a -> ameans mp A (OMain a) (with_node mp (set_amain (without A (a_main A)) a) a)
| m_main_none A a : a <> a_main A -> Forall (fun b => b = 0) a -> ameans mp A (OMain a) (set_amain (without A (a_main A)) a).

(** the entry of this node does not expire; a new main address is that of no
    known originator *)
Definition allowed (A : aset) (o : gop) : Prop :=
  match o with
  | ODelEntry a => a <> a_main A
  | OMain a => a = a_main A \/ ~ knows A a
  | _ => True
  end.
Inductive history (mp : Z) : aset -> list gop -> aset -> Prop :=
| h_nil A : history mp A [] A
| h_cons A o A' l A'' : allowed A o -> ameans mp A o A' -> history mp A' l A'' -> history mp A (o :: l) A''.

(** the objects of the database: originator [a]; link from [a] to [b] *)
Definition node_obj (s : gst) (a : list Z) (n : Z) : Prop := exists x, In n (g_tree s) /\ g_nodes s n = Some x /\ gn_addr x = a.
Definition link_obj (s : gst) (a b : list Z) (i : Z) : Prop :=
  exists n x e, node_obj s a n /\ g_nodes s n = Some x /\ In i (gn_edges x) /\ g_edges s i = Some e /\ ge_dest e = b.
Definition start (main : list Z) (mp : Z) (A : aset) : Prop :=
  if forallb (fun b => b =? 0) main then A = mkA main [] [] [] else A = with_node mp (mkA main [] [] []) main.

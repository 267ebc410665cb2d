(** What users of the recycling allocator may do, and which blocks they hold. *)
From Verif Require Import Base Cookie.
From Coq Require Import Permutation.

(** blocks in use (with the cookie they came from), and blocks whose cookie is gone *)
Record ghost := mkG { used : list (nat * Z); lost : list Z }.
Definition held (g : ghost) : list Z := map snd (used g) ++ lost g.
Definition count (g : ghost) (i : nat) : Z := Z.of_nat (length (filter (fun x => Nat.eqb (fst x) i) (used g))).
Definition gupd (g : ghost) (e : cev) (r : Z) : ghost :=
  match e with
  | EMalloc i _ => mkG ((i, r) :: used g) (lost g)
  | EFree i p _ => mkG (filter (fun x => negb (snd x =? p)) (used g)) (lost g)
  | EDel i => mkG (filter (fun x => negb (Nat.eqb (fst x) i)) (used g)) (map snd (filter (fun x => Nat.eqb (fst x) i) (used g)) ++ lost g)
  | _ => g
  end.
(** memory cookies have at least 8 bytes; calloc gives blocks not in use; only held
    blocks are given back, to the cookie they came from, or written to, within their
    size *)
Definition allowed (s : cs) (g : ghost) (e : cev) : Prop :=
  match e with
  | ENew m n => m = true -> (8 <= n)%nat
  | EDel i => get s i <> None
  | EMalloc i p => (exists c, get s i = Some c /\ c_mem c = true) /\ mem_get (heap s) p = None
  | EFree i p j => In (i, p) (used g) /\ length j = NODE
  | EWrite p o v => exists i c, In (i, p) (used g) /\ get s i = Some c /\ (o < c_size c)%nat
  | EIncr i | EDecr i => forall c, get s i = Some c -> c_mem c = false
  end.
Inductive hist : cs -> ghost -> Prop :=
| h_init : hist cinit (mkG [] [])
| h_step s g e s' r : hist s g -> allowed s g e -> cstep s e = Ok s' r -> hist s' (gupd g e r).

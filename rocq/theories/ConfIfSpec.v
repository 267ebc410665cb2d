(** What the options of an interface should be: stated on the text of the configuration
    file (the list of blocks), without the parser. *)
From Verif Require Import Base ConfIf.

(** the value a statement gives to byte [p] *)
Definition gives (x : stm) (p : nat) : option Z :=
  match x with
  | SSet off v => if Nat.leb off p then nth_error v (p - off) else None
  | SMult _ => None
  end.

(** the last statement of a body that says something about byte [p] *)
Fixpoint last_write (body : list stm) (p : nat) : option Z :=
  match body with
  | [] => None
  | x :: r => match last_write r p with Some v => Some v | None => gives x p end
  end.

(** the multipliers of a body, the latest first *)
Fixpoint mults_of (body : list stm) : list mult :=
  match body with
  | [] => []
  | SMult m :: r => mults_of r ++ [m]
  | _ :: r => mults_of r
  end.

(** all statements in blocks for interface [n] *)
Fixpoint own_body (n : list Z) (l : list block) : list stm :=
  match l with
  | [] => []
  | BIf names body :: r =>
      (if in_dec (list_eq_dec Z.eq_dec) n names then body else []) ++ own_body n r
  | BDef _ :: r => own_body n r
  end.

(** the last block of defaults *)
Fixpoint def_body (l : list block) : option (list stm) :=
  match l with
  | [] => None
  | BIf _ _ :: r => def_body r
  | BDef body :: r => match def_body r with Some b => Some b | None => Some body end
  end.

(** is there a block for [n] *)
Definition named (n : list Z) (l : list block) : Prop :=
  exists names body, In (BIf names body) l /\ In n names.

(** the byte that interface [n] should work with *)
Definition wanted (l : list block) (n : list Z) (p : nat) : Z :=
  match last_write (own_body n l) p with
  | Some v => v
  | None =>
      match last_write (match def_body l with Some b => b | None => [] end) p with
      | Some v => v
      | None => nth p builtin_bytes 0
      end
  end.

(** a statement writes inside of the structure and not on the multipliers *)
Definition fits (x : stm) : Prop :=
  match x with
  | SSet off v => (off + length v <= 112 \/ (124 <= off /\ off + length v <= 128))%nat
  | SMult _ => True
  end.

(** a well-formed block: the statements fit; no name is given twice *)
Definition wf_block (b : block) : Prop :=
  match b with
  | BIf names body => NoDup names /\ Forall fits body
  | BDef body => Forall fits body
  end.

(** a byte of an option *)
Definition opt_byte (p : nat) : Prop := (p < 112 \/ (124 <= p /\ p < 128))%nat.

(** * Multipliers *)

(** the value given for an address *)
Fixpoint lookup (a : Z) (l : list mult) : option Z :=
  match l with
  | [] => None
  | (x, v) :: r => if x =? a then Some v else lookup a r
  end.

(** the multiplier for neighbour [a]: own statement for the address, statement of the
    defaults for the address, own statement for all, statement of the defaults for all,
    otherwise 1.0 *)
Definition wanted_mult (own defs : list mult) (a : Z) : Z :=
  match lookup a own with
  | Some v => v
  | None => match lookup a defs with
            | Some v => v
            | None => match lookup 0 own with
                      | Some v => v
                      | None => match lookup 0 defs with Some v => v | None => 65536 end
                      end
            end
  end.

(** no address twice, no zero *)
Definition plain (l : list mult) : Prop :=
  NoDup (map fst l) /\ Forall (fun m => snd m <> 0) l.

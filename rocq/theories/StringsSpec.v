(** C strings in a block of bytes. *)
From Verif Require Import Base.

(** The string stored at the beginning of a block ([None]: no terminator). *)
Fixpoint cstr (m : list Z) : option (list Z) :=
  match m with
  | [] => None
  | b :: m' => if b =? 0 then Some [] else match cstr m' with Some s => Some (b :: s) | None => None end
  end.

(** A string: characters are non-zero. *)
Definition is_str (s : list Z) : Prop := Forall (fun c => c <> 0) s.

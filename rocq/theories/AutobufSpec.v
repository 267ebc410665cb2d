(** What a text buffer is supposed to hold. *)
From Verif Require Import Base Autobuf.

(** The visible content: the first [alen] bytes. *)
Definition content (b : abuf) : list Z := firstn (Z.to_nat (alen b)) (mem b).

(** the byte after the content is a terminator *)
Definition terminated (b : abuf) : Prop := nth_error (mem b) (Z.to_nat (alen b)) = Some 0.

(** Effect of one call on the content, given the reported result. *)
Definition aeffect (c : list Z) (o : aop) (r : bool) : list Z :=
  match o with
  | AAppendf s | APuts s | AMemcpy s => if r then c ++ s else c
  | AConcat s => if r then c ++ content s else c
  | APrefix s => if r then s ++ c else c
  | APull n _ => skipn (Z.to_nat n) c
  end.

(** Length of what a call adds. *)
Definition added (o : aop) : Z :=
  match o with
  | AAppendf s | APuts s | AMemcpy s | APrefix s => Z.of_nat (length s)
  | AConcat s => alen s
  | APull _ _ => 0
  end.

(** The largest content for which the 16 MB limit plays no role. *)
Definition ABUF_LIMIT : Z := 16773118.

(** A buffer as a user can have it: the content lies inside the allocation
    with room for a terminator (or nothing is allocated and it is empty). *)
Definition usable (b : abuf) : Prop :=
  0 <= alen b /\ (alen b < asize b \/ (alen b = 0 /\ asize b = 0)) /\ asize b < AUTOBUFSIZEMAX.

(** Arguments a caller may pass: a source buffer must be usable and hold a
    (terminated) text,
    a pull must not exceed the content. *)
Definition arg_ok (len : Z) (o : aop) : Prop :=
  match o with
  | AConcat s => usable s /\ Forall (fun c => c <> 0) (content s) /\ (alen s = 0 \/ terminated s)
  | APull n _ => 0 <= n <= len
  | _ => True
  end.

(** everything behind the content is zero *)
Definition clean (b : abuf) : Prop := Forall (fun c => c = 0) (skipn (Z.to_nat (alen b)) (mem b)).

(** Call histories: buffer, expected content, and whether so far nothing was
    pulled and no call failed.  Allocations may fail, except for a buffer that
    owns no memory yet. *)
Inductive ahist : abuf -> list Z -> bool -> Prop :=
| ahist_init : forall n ok, n <= ABUF_LIMIT -> ahist (abuf_init n ok) [] true
| ahist_step : forall b c f o ok b' r,
    ahist b c f -> arg_ok (Z.of_nat (length c)) o ->
    Z.of_nat (length c) + added o <= ABUF_LIMIT ->
    (0 < asize b \/ ok = true) ->
    astep b o ok = Some (b', r) ->
    ahist b' (aeffect c o r) (match o with APull _ _ => false | _ => f && r end).

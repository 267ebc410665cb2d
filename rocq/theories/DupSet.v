(** Model of src/duplicate_set.c: detection of already seen messages.
    Definitions only.  The AVL tree of records (src/duplicate_set.c:56) is
    modelled as a partial map from originator addresses; see Avl*.v for the
    tree itself. *)
From Verif Require Import Base SchedTime.

(** src/duplicate_set.h:56-59 *)
Definition DUPLICATE_VTIME : Z := 120000.
(** see above, src/duplicate_set.h:56-59 *)
Definition DUP_MAX_TOO_LOW : Z := 16.

(** src/duplicate_set.h:61-68 struct dup_entry *)
Record dup_entry := mkDup {
  seqnr : Z;            (* uint16_t *)
  too_low_counter : Z;  (* uint16_t *)
  array : Z;            (* uint32_t *)
  valid_until : Z       (* uint32_t *)
}.

(** src/duplicate_set.c:56 the tree of records *)
Definition dup_set : Type := Z -> option dup_entry.

(** insertion into / update of the tree, src/duplicate_set.c:150 *)
Definition dup_put (d : dup_set) (ip : Z) (e : dup_entry) : dup_set :=
  fun x => if x =? ip then Some e else d x.

(** src/duplicate_set.c:59-66 the empty set *)
Definition dup_init : dup_set := fun _ => None.

(** src/duplicate_set.c:68-75 olsr_cleanup_duplicates *)
Definition cleanup_duplicates (d : dup_set) (orig : Z) : dup_set :=
  match d orig with
  | None => d
  | Some e => dup_put d orig (mkDup (seqnr e) (DUP_MAX_TOO_LOW - 2) (array e) (valid_until e))
  end.

(** src/duplicate_set.c:77-90 olsr_create_duplicate_entry
    (with [valid_until] filled in by line 151) *)
Definition create_duplicate_entry (seq valid : Z) : dup_entry := mkDup seq 0 0 valid.

(** src/duplicate_set.c:92-104 olsr_cleanup_duplicate_entry *)
Definition cleanup_duplicate_entry (now : Z) (d : dup_set) : dup_set :=
  fun ip => match d ip with
            | Some e => if isTimedOut now (valid_until e) then None else Some e
            | None => None
            end.

(** src/duplicate_set.c:106-117 olsr_seqno_diff *)
Definition seqno_diff (s1 s2 : Z) : Z :=
  let diff := s1 - s2 in
  if diff >? 32768 then diff - 65536
  else if diff <? -32768 then diff + 65536
  else diff.

(** src/duplicate_set.c:156-196: the part of olsr_message_is_duplicate for an
    existing record; returns the new record and the verdict (true =
    duplicate). *)
Definition check_entry (valid : Z) (e : dup_entry) (seq : Z) : dup_entry * bool :=
  let vu := if valid >? valid_until e then valid else valid_until e in
  let diff := seqno_diff seq (seqnr e) in
  if diff <? -31 then
    let tl := u16 (too_low_counter e + 1) in
    if tl >? DUP_MAX_TOO_LOW
    then (mkDup seq 0 1 vu, false)
    else (mkDup (seqnr e) tl (array e) vu, true)
  else if diff <=? 0 then
    let bitmask := Z.shiftl 1 (- diff) in
    if negb (Z.land (array e) bitmask =? 0)
    then (mkDup (seqnr e) 0 (array e) vu, true)
    else (mkDup (seqnr e) 0 (Z.lor (array e) bitmask) vu, false)
  else
    let a := if diff <? 32 then u32 (Z.shiftl (array e) diff) else 0 in
    (mkDup seq 0 (Z.lor a 1) vu, false).

(** src/duplicate_set.c:119-197 olsr_message_is_duplicate; memory allocation
    is assumed to succeed (olsr_malloc exits otherwise). *)
Definition message_is_duplicate (now : Z) (d : dup_set) (ip seq : Z) : dup_set * bool :=
  let valid := getTimestamp now DUPLICATE_VTIME in
  match d ip with
  | None => (dup_put d ip (create_duplicate_entry seq valid), false)
  | Some e => let (e', v) := check_entry valid e seq in (dup_put d ip e', v)
  end.

(** The ways the set is used: a message check (src/olsr.c:361), the periodic
    cleanup timer (src/duplicate_set.c:64) and the restart hint given by the
    topology set (src/tc_set.c, call of olsr_cleanup_duplicates). *)
Inductive dup_op :=
| OpCheck (now ip seq : Z)
| OpTick (now : Z)
| OpHint (ip : Z).

(** One operation; the verdict is [Some dup?] for a check; src/duplicate_set.c, the functions
    above *)
Definition dup_step (d : dup_set) (o : dup_op) : dup_set * option bool :=
  match o with
  | OpCheck now ip seq => let (d', v) := message_is_duplicate now d ip seq in (d', Some v)
  | OpTick now => (cleanup_duplicate_entry now d, None)
  | OpHint ip => (cleanup_duplicates d ip, None)
  end.

(** state after a history; of calls to src/duplicate_set.c *)
Definition dup_run (ops : list dup_op) : dup_set :=
  fold_left (fun d o => fst (dup_step d o)) ops dup_init.

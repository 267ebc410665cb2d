(** What a correct duplicate filter has to do, independent of the 32-bit
    window of the code: an audit trail that places every accepted message of
    one originator on an unbounded (non wrapping) number line. *)
From Verif Require Import Base DupSet.

(** Circular distance in 16-bit sequence space, in -32767..32768. *)
Definition circ (d : Z) : Z :=
  let r := d mod 65536 in if r <=? 32768 then r else r - 65536.

Record trail := mkTrail {
  tr_head : Z;        (* highest position accepted *)
  tr_seen : list Z;   (* positions accepted since the window was (re)started *)
  tr_low : Z          (* consecutive rejected too-old messages (or the hint) *)
}.

(** Position of sequence number [s] nearest to the head. *)
Definition tr_pos (t : trail) (s : Z) : Z := tr_head t + circ (s - tr_head t).

(** A message was seen and reported as duplicate ([dup = true]) or new. *)
Definition tr_note (t : trail) (s : Z) (dup : bool) : trail :=
  let p := tr_pos t s in
  if dup then
    mkTrail (tr_head t) (tr_seen t)
            (if (p <? tr_head t - 31) || (p =? tr_head t + 32768) then tr_low t + 1 else 0)
  else if p <? tr_head t - 31 then mkTrail s [s] 0          (* restart of the window *)
  else mkTrail (Z.max (tr_head t) p) (p :: tr_seen t) 0.

(** The trail of originator [o] along a history.  [first] says whether the
    message that creates the record is counted as accepted. *)
Definition tr_step (first : bool) (o : Z) (acc : dup_set * option trail) (op : dup_op)
  : dup_set * option trail :=
  let (d, t) := acc in
  let (d', v) := dup_step d op in
  (d',
   match d' o with
   | None => None                       (* record forgotten *)
   | Some _ =>
     match op, v with
     | OpCheck _ ip s, Some dup =>
         if ip =? o then
           match t with
           | None => Some (mkTrail s (if first then [s] else []) 0)
           | Some t => Some (tr_note t s dup)
           end
         else t
     | OpHint ip, _ =>
         if ip =? o then option_map (fun t => mkTrail (tr_head t) (tr_seen t) 14) t else t
     | _, _ => t
     end
   end).

Definition tr_run (first : bool) (o : Z) (ops : list dup_op) : dup_set * option trail :=
  fold_left (tr_step first o) ops (dup_init, None).

(** Sequence numbers are 16 bit. *)
Definition op_ok (op : dup_op) : Prop :=
  match op with OpCheck _ _ s => 0 <= s < 65536 | _ => True end.

(** The verdict of a check. *)
Definition verdict (d : dup_set) (now ip s : Z) : bool := snd (message_is_duplicate now d ip s).

(** Operations that can concern originator [o]. *)
Definition concerns (o : Z) (op : dup_op) : bool :=
  match op with OpCheck _ ip _ => ip =? o | OpTick _ => true | OpHint ip => ip =? o end.

(** Verdicts of consecutive checks (time, number) of originator [o]. *)
Fixpoint checks (d : dup_set) (o : Z) (l : list (Z * Z)) : list bool :=
  match l with
  | [] => []
  | (now, s) :: l' => let (d', v) := message_is_duplicate now d o s in v :: checks d' o l'
  end.

(** Clock value at which an operation happens. *)
Definition op_time (op : dup_op) : option Z :=
  match op with OpCheck n _ _ => Some n | OpTick n => Some n | OpHint _ => None end.

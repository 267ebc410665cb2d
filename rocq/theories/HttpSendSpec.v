(** What the peers of the httpinfo plugin may rely on, over the events of a run. *)
From Verif Require Import Base HttpInfo.

(** the bytes that went to a socket *)
Definition bytes_to (s : Z) (t : list ev) : list Z :=
  flat_map (fun e => match e with Sent s' b => if Z.eq_dec s s' then b else [] | _ => [] end) t.
(** [p] is how a text starts *)
Definition starts (p b : list Z) : Prop := exists q, b = p ++ q.
(** the events happen in this order *)
Definition before (a b : ev) (t : list ev) : Prop := exists t1 t2 t3, t = t1 ++ a :: t2 ++ b :: t3.
(** nothing goes to a socket after it was closed *)
Definition quiet_after_close (t : list ev) : Prop :=
  forall t1 s t2, t = t1 ++ Closed s :: t2 -> bytes_to s t2 = [] /\ ~ In (Closed s) t2.
(** the timer goes off, select reports that all sockets take bytes, and they do *)
Definition all_take (i : input) : Prop :=
  match i with ITimer sel ready wr => 0 < sel /\ forall s, ready s = true /\ 0 < wr s | _ => False end.
(** the bytes of all replies *)
Definition all_bytes (t : list ev) : nat :=
  fold_right (fun e a => (match e with Queued _ b => length b | _ => 0 end + a)%nat) 0%nat t.

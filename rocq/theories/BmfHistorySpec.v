(** When a packet counts as seen. *)
From Verif Require Import Base BmfHistory.

(** fingerprints have 32 bits, time goes on, and from one pruning (or the start) to the next
    it is not more than 24 days *)
Fixpoint paced (cur last : Z) (l : list event) : Prop :=
  match l with
  | [] => True
  | Seen t c :: l => cur <= t /\ 0 <= c < 4294967296 /\ paced t last l
  | Prune t :: l => cur <= t /\ t - last < 2147480648 /\ paced t t l
  end.
(** [t] is the time of the last packet with fingerprint [c], and [after] is what came then *)
Definition last_seen (l : list event) (t c : Z) (after : list event) : Prop :=
  (exists before, l = before ++ Seen t c :: after) /\ forall u, ~ In (Seen u c) after.

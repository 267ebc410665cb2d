(** The files of ACPI batteries as the kernel writes them, and the willingness. *)
From Coq Require Import String.
From Verif Require Import Base Regex.

Definition white (c : Z) : Prop := c = 32 \/ 9 <= c <= 13.
(** a word of at most 31 characters *)
Definition is_word (w : list Z) : Prop := w <> [] /\ (List.length w <= 31)%nat /\ Forall (fun c => ~ white c /\ c <> 0) w.
(** a line: words, each with the number of blanks before it (at least one between words) *)
Definition line : Type := list (nat * list Z).
Definition shown (l : line) : list Z := flat_map (fun p => repeat 32 (fst p) ++ snd p) l ++ [10].
Definition good_line (l : line) : Prop :=
  (List.length (shown l) <= 126)%nat /\ Forall (fun p => is_word (snd p)) l /\ Forall (fun p => (0 < fst p)%nat) (tl l).
Definition wd (i : nat) (l : line) : list Z := nth i (map snd l) [].
(** letters match in either case *)
Definition letter_alike (x y : Z) : Prop := x = y \/ (97 <= x <= 122 /\ y = x - 32) \/ (65 <= x <= 90 /\ y = x + 32).
Definition called (key w : list Z) : Prop := Forall2 letter_alike key w.
Definition number (ds : list Z) : Z := fold_left (fun a d => 10 * a + (d - 48)) ds 0.
Definition is_number (w : list Z) : Prop := w <> [] /\ Forall (fun d => 48 <= d <= 57) w /\ number w < 2 ^ 31.
(** the lines of "info": at least two words, "... full capacity: N" *)
Definition info_ok (l : line) : Prop :=
  good_line l /\ (2 <= List.length l)%nat /\ (called (str "full") (wd 1 l) -> (4 <= List.length l)%nat /\ is_number (wd 3 l)).
(** the lines of "state": "remaining capacity: N" *)
Definition state_ok (l : line) : Prop :=
  good_line l /\ (1 <= List.length l)%nat /\ (called (str "remaining") (wd 0 l) -> (3 <= List.length l)%nat /\ is_number (wd 2 l)).
(** the last value of a kind of line, [at] the word with the name and [v] the one with the number *)
Inductive value (key : list Z) (at_ v : nat) : list line -> Z -> Prop :=
| v_last : forall l x, called key (wd at_ x) -> value key at_ v (l ++ [x]) (number (wd v x))
| v_skip : forall l x n, value key at_ v l n -> ~ called key (wd at_ x) -> value key at_ v (l ++ [x]) n.
(** src/olsr_protocol.h:164-168 *)
Definition WILL_NEVER : Z := 0.
Definition WILL_ALWAYS : Z := 7.

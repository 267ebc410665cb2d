(** The history of packets of the BMF plugin (lib/bmf/src/PacketHistory.c:180-298,
    lib/bmf/src/PacketHistory.h:62-75; lib/p2pd/src/PacketHistory.c is the same but for
    more lists).

    olsr_malloc does not return without memory.  [now] is now_times of src/scheduler.c; an
    entry has the fingerprint and the time-out; clock_t holds the 32 bits of it. *)
From Verif Require Import Base SchedTime.

(** lib/bmf/src/PacketHistory.h:67-72 struct TDupEntry: fingerprint and time *)
Definition entry := (Z * Z)%type.
(** the hash table: HISTORY_HASH_SIZE lists; lib/bmf/src/PacketHistory.c:71 *)
Definition history := list (list entry).

(** lib/bmf/src/PacketHistory.c:182-185 Hash *)
Definition hash (x : Z) : Z := Z.land (u32 (Z.shiftr x 12 + x)) 4095.
(** lib/bmf/src/PacketHistory.c:196-206 InitPacketHistory *)
Definition empty : history := repeat [] 4096.
(** lib/bmf/src/PacketHistory.c:227-237 the loop over one list *)
Fixpoint refresh (now c : Z) (l : list entry) : option (list entry) :=
  match l with
  | [] => None
  | (d, t) :: l =>
      if d =? c then Some ((d, getTimestamp now 3000) :: l)
      else match refresh now c l with Some l => Some ((d, t) :: l) | None => None end
  end.
(** one list of the table; an assignment to an element of lib/bmf/src/PacketHistory.c:71 *)
Fixpoint upd (i : nat) (x : list entry) (h : history) : history :=
  match h, i with
  | [], _ => []
  | _ :: h, O => x :: h
  | y :: h, S i => y :: upd i x h
  end.
(** lib/bmf/src/PacketHistory.c:217-252 CheckAndMarkRecentPacket *)
Definition check_and_mark (now c : Z) (h : history) : bool * history :=
  let i := Z.to_nat (hash c) in
  let l := nth i h [] in
  match refresh now c l with
  | Some l => (true, upd i l h)
  | None => (false, upd i ((c, getTimestamp now 3000) :: l) h)
  end.
(** lib/bmf/src/PacketHistory.c:262-298 PrunePacketHistory *)
Definition prune (now : Z) (h : history) : history :=
  map (filter (fun e => negb (isTimedOut now (snd e)))) h.

(** a packet with a fingerprint is checked, or the timer fires (lib/bmf/src/olsrd_plugin.c:116);
    both with the time in milliseconds, of which the clock shows 32 bits *)
Inductive event := Seen (t c : Z) | Prune (t : Z).
(** see above, lib/bmf/src/olsrd_plugin.c:116 *)
Definition step (h : history) (e : event) : history :=
  match e with
  | Seen t c => snd (check_and_mark (u32 t) c h)
  | Prune t => prune (u32 t) h
  end.
(** see above, lib/bmf/src/olsrd_plugin.c:116 *)
Definition run (l : list event) : history := fold_left step l empty.
(** the answer for one more packet; lib/bmf/src/PacketHistory.c:217-298 *)
Definition answer (l : list event) (t c : Z) : bool := fst (check_and_mark (u32 t) c (run l)).

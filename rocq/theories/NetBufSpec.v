(** What an output buffer should be: a queue of messages with a capacity. *)
From Verif Require Import Base Bytes NetBuf.

Record sq := mkSQ { q_msgs : list (list Z); q_cap : Z; q_extra : Z; q_next : Z }.
Definition queued (s : sq) : Z := blen (concat (q_msgs s)).
Definition packet_of (seq : Z) (ms : list (list Z)) : list Z :=
  let len := 4 + blen (concat ms) in [len / 256; len mod 256; seq / 256; seq mod 256] ++ concat ms.

Definition sq_flush (s : sq) : sq * option (list Z) :=
  if queued s =? 0 then (s, None)
  else (mkSQ [] (q_cap s) (q_extra s) ((q_next s + 1) mod 65536), Some (packet_of (q_next s) (q_msgs s))).

Definition sq_step (s : sq) (o : nbop) : sq * nbobs :=
  match o with
  | OPush d => if queued s + blen d <=? q_cap s
               then (mkSQ (q_msgs s ++ [d]) (q_cap s) (q_extra s) (q_next s), (blen d, None)) else (s, (0, None))
  | OPushRes d => if queued s + blen d <=? q_cap s + q_extra s
                  then (mkSQ (q_msgs s ++ [d]) (q_cap s) (q_extra s) (q_next s), (blen d, None)) else (s, (0, None))
  | OReserve n => if n <=? q_cap s then (mkSQ (q_msgs s) (q_cap s - n) n (q_next s), (0, None)) else (s, (-1, None))
  | OLeft => (s, (Z.min 1228 (q_cap s - queued s), None))
  | OOutput ok => let (s', p) := sq_flush s in
                  (s', (match p with None => 0 | Some x => if ok then blen x else -1 end, p))
  | OMtu mtu ok => let (s', p) := sq_flush s in (mkSQ [] (mtu - 4) 0 (q_next s'), (0, p))
  end.
Fixpoint sq_run (s : sq) (ops : list nbop) : sq * list nbobs :=
  match ops with
  | [] => (s, [])
  | o :: ops' => let (s', x) := sq_step s o in let (s2, xs) := sq_run s' ops' in (s2, x :: xs)
  end.

(** sensible calls: reservations are not negative, MTUs are at least a header
    and fit the 16 bit length field *)
Definition sane (o : nbop) : Prop :=
  match o with OReserve n => 0 <= n | OMtu mtu _ => 4 <= mtu < 65536 | _ => True end.

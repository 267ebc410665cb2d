(** When and how a message is to be relayed. *)
From Verif Require Import Base Bytes NetBuf NetBufSpec NetBufProofs DupSet Forward.

(** the message header fields followed by a body *)
Record omsg := mkMsg { o_type : Z; o_vtime : Z; o_orig : list Z; o_ttl : Z; o_hops : Z; o_seq : Z; o_body : list Z }.
Definition enc_msg (x : omsg) : list Z :=
  let size := 8 + blen (o_orig x) + blen (o_body x) in
  [o_type x; o_vtime x; size / 256; size mod 256] ++ o_orig x ++ [o_ttl x; o_hops x; o_seq x / 256; o_seq x mod 256] ++ o_body x.
Definition wf_omsg (ips : Z) (x : omsg) : Prop :=
  blen (o_orig x) = ips /\ 0 <= o_ttl x < 256 /\ 0 <= o_hops x < 256 /\ 0 <= o_seq x < 65536.

(** hop limit used up, or claiming more hops than there can be *)
Definition used_up (x : omsg) : Prop := o_ttl x <= 1 \/ 256 <= o_hops x + o_ttl x.
(** the message as relayed *)
Definition relayed (x : omsg) : omsg :=
  if (o_ttl x <=? 1) || (256 <=? o_hops x + o_ttl x) then x
  else mkMsg (o_type x) (o_vtime x) (o_orig x) (o_ttl x - 1) (o_hops x + 1) (o_seq x) (o_body x).

(** interfaces a message leaves on *)
Definition leaves_on (x : omsg) (in_if : Z) (id : Z) (mode : ifmode) : bool :=
  match mode with
  | SILENT => false
  | ETHER => negb (id =? in_if)
  | MESH => negb ((o_ttl x <=? 1) || (256 <=? o_hops x + o_ttl x))
  end.

(** queueing a message: sent later, after what is queued already if both fit a
    packet, else after a flush; dropped if it fits no packet *)
Definition put (s : sq) (m : list Z) : sq := mkSQ (q_msgs s ++ [m]) (q_cap s) (q_extra s) (q_next s).
Definition enqueue (s : sq) (m : list Z) : sq * option (list Z) :=
  if queued s + blen m <=? q_cap s then (put s m, None)
  else let (s', p) := sq_flush s in
       (if queued s' + blen m <=? q_cap s' then put s' m else s', p).

(** an interface as the specification sees it *)
Definition sif := (Z * ifmode * sq)%type.
Definition relay_if (x : omsg) (in_if : Z) (i : sif) : sif * list (Z * list Z) :=
  let '(id, mode, s) := i in
  if leaves_on x in_if id mode then
    let (s', p) := enqueue s (enc_msg (relayed x)) in
    ((id, mode, s'), match p with Some q => [(id, q)] | None => [] end)
  else (i, []).
Definition if_rel (i : iface) (s : sif) : Prop :=
  if_id i = fst (fst s) /\ if_mode i = snd (fst s) /\ exists mtu, R mtu (snd s) (if_nb i).

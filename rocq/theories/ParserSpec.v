(** What parsing a packet should do, in terms of the bytes received. *)
From Verif Require Import Base Bytes Parser.

(** a message: its size field tells its length, which covers the header and is a
    multiple of four *)
Definition wf_msg (ips : Z) (m : list Z) : Prop :=
  be (slice m 2 2) = blen m /\ 8 + ips <= blen m /\ blen m mod 4 = 0.

(** the messages at the front of [r], which starts at offset [off]: as many as
    there are, one right after the other *)
Inductive chop (ips : Z) : Z -> list Z -> list (Z * list Z) -> Prop :=
| chop_stop off r : (forall m r', r = m ++ r' -> ~ wf_msg ips m) -> chop ips off r []
| chop_msg off m r ms : wf_msg ips m -> chop ips (off + blen m) r ms -> chop ips off (m ++ r) ((off, m) :: ms).

Definition m_type (m : list Z) : Z := be (slice m 0 1).
Definition m_orig (ips : Z) (m : list Z) : list Z := slice m 4 ips.
Definition m_seqno (ips : Z) (m : list Z) : Z := be (slice m (6 + ips) 2).

Definition matching (h : Z * Z) (m : list Z) : bool := (snd h =? PROMISCUOUS) || (snd h =? m_type m).

(** the events one message gives rise to *)
Definition msg_spec (ret : Z -> Z -> bool) (e : penv) (om : Z * list Z) (l : list pev) : Prop :=
  let (off, m) := om in
  let o := m_orig (ipsize e) m in
  (In o (deny e) -> l = []) /\
  (~ In o (deny e) -> o = mainaddr e -> l = [ECollision (m_type m) (m_seqno (ipsize e) m)]) /\
  (~ In o (deny e) -> o <> mainaddr e ->
     let hs := map fst (filter (fun h => matching h m) (handlers e)) in
     l = map (fun f => EHandler f off (blen m)) hs ++ (if forallb (fun f => ret f off) hs then [EForward off (blen m)] else [])).

Definition bytes (l : list Z) : Prop := Forall (fun x => 0 <= x < 256) l.

(** the packet header agrees with the size received *)
Definition header_ok (d : list Z) : Prop := 8 <= blen d /\ be (slice d 0 2) = blen d.

Definition pkt_events (e : penv) (d : list Z) : list pev :=
  map (fun f => EPktParser f (be (slice d 2 2))) (pktparsers e) ++ (if use_hyst e then [EHyst (be (slice d 2 2))] else []).

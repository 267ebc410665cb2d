(** C12, C13, C44: parsing received packets (src/parser.c, src/net_olsr.c). *)
From Verif Require Import Base Bytes Parser ParserSpec ParserProofs.

(** C12: for every datagram of at least 4 bytes and whatever an earlier packet
    left in the buffer: no access outside the buffer, the messages handed to
    handlers or forwarded are well-formed and lie inside the datagram, and they
    are the messages found one after the other from its start. *)
Theorem C12_in_bounds_partial : forall ret e inbuf dgram fuel, 0 < ipsize e -> blen inbuf = INBUF -> bytes dgram -> 4 <= blen dgram ->
  (Z.to_nat INBUF <= fuel)%nat ->
  let (buf, size) := receive inbuf dgram in
  exists ms evs, parse_packet ret fuel e buf size = PDone evs /\
    (header_ok (slice dgram 0 INBUF) -> chop (ipsize e) 4 (skipn 4 (slice dgram 0 INBUF)) ms) /\
    (~ header_ok (slice dgram 0 INBUF) -> ms = [] /\ evs = []) /\
    (forall f off n, In (EHandler f off n) evs \/ In (EForward off n) evs ->
       4 <= off /\ off + n <= size /\ In (off, slice dgram off n) ms /\ wf_msg (ipsize e) (slice dgram off n)).
Proof. exact c12_bounds. Qed.
Print Assumptions C12_in_bounds_partial.

Definition ex_env : penv := mkEnv 4 [10; 0; 0; 1] false (deny_init false) [(1, 1); (2, PROMISCUOUS); (3, 130)] [].
(** two messages of type 1 and 130; the second claims too much *)
Definition ex_dgram : list Z :=
  [0; 28; 0; 7; 1; 134; 0; 12; 10; 0; 0; 2; 1; 0; 0; 5; 130; 134; 0; 16; 10; 0; 0; 3; 1; 0; 0; 6].
Definition ex_buf : list Z := repeat 0 1504.
Example C12_in_bounds_ex : bytes ex_dgram /\ 4 <= blen ex_dgram /\ blen ex_buf = INBUF /\ header_ok (slice ex_dgram 0 INBUF) /\
  (let (buf, size) := receive ex_buf ex_dgram in
   parse_packet (fun _ _ => true) 1504 ex_env buf size = PDone [EHandler 1 4 12; EHandler 2 4 12; EForward 4 12]).
Proof.
  split; [unfold ex_dgram; repeat constructor; lia|]. split; [vm_compute; discriminate|]. split; [reflexivity|].
  split; [split; vm_compute; [discriminate|reflexivity]|]. vm_compute. reflexivity.
Qed.

(** C12: a datagram of 2 bytes makes the parser replay what an earlier packet
    left behind and read on beyond the buffer: the first packet is rejected as
    malformed, the second one hands its message, of claimed size 65532, to the
    handlers. *)
Definition evil1 : list Z := [0; 16; 0; 7; 1; 134; 255; 252; 10; 0; 0; 2; 1; 0; 0; 5].
Definition evil2 : list Z := [0; 2].
Theorem C12_short_datagram_refuted : exists buf1,
  (let (b1, n1) := receive ex_buf evil1 in
   b1 = buf1 /\ parse_packet (fun _ _ => true) 1504 ex_env b1 n1 = PDone []) /\
  (let (b2, n2) := receive buf1 evil2 in
   parse_packet (fun _ _ => true) 1504 ex_env b2 n2 = POob [EHandler 1 4 65532; EHandler 2 4 65532; EForward 4 65532]).
Proof. exists (fst (receive ex_buf evil1)). vm_compute. repeat split; reflexivity. Qed.
Print Assumptions C12_short_datagram_refuted.

(** C13: what each message of the packet gives rise to.  A message of a denied
    originator: nothing; of the node itself: the collision test only; of anybody
    else: each matching handler once, in the order of the registry, and
    forwarding exactly if all of them returned true. *)
Theorem C13_handlers_and_forwarding : forall ret e inbuf dgram fuel, 0 < ipsize e -> blen inbuf = INBUF -> bytes dgram -> 4 <= blen dgram ->
  (Z.to_nat INBUF <= fuel)%nat ->
  let d := slice dgram 0 INBUF in
  let (buf, size) := receive inbuf dgram in
  (~ header_ok d /\ parse_packet ret fuel e buf size = PDone []) \/
  (header_ok d /\ exists ms l, chop (ipsize e) 4 (skipn 4 d) ms /\ Forall2 (msg_spec ret e) ms l /\
     parse_packet ret fuel e buf size = PDone (pkt_events e d ++ concat l)).
Proof. exact parse_ok. Qed.
Print Assumptions C13_handlers_and_forwarding.

(** own message, denied originator, type-130 message whose handler refuses *)
Definition ex_dgram2 : list Z :=
  [0; 40; 0; 7; 1; 134; 0; 12; 10; 0; 0; 1; 1; 0; 0; 5; 1; 134; 0; 12; 127; 0; 0; 1; 1; 0; 0; 6;
   130; 134; 0; 12; 10; 0; 0; 3; 1; 0; 0; 8].
Example C13_ex : let (buf, size) := receive ex_buf ex_dgram2 in
  parse_packet (fun f _ => f =? 2) 1504 ex_env buf size = PDone [ECollision 1 5; EHandler 2 28 12; EHandler 3 28 12].
Proof. vm_compute. reflexivity. Qed.

(** C12, C13: the messages of a packet are determined by its bytes. *)
Theorem C13_messages_determined : forall ips, 0 <= ips -> forall off r ms, chop ips off r ms -> forall ms', chop ips off r ms' -> ms = ms'.
Proof. exact (chop_fun (fun _ _ => true)). Qed.
Print Assumptions C13_messages_determined.

Example C13_messages_ex : exists ms, chop 4 4 [1; 134; 0; 12; 10; 0; 0; 2; 1; 0; 0; 5] ms /\ length ms = 1%nat.
Proof.
  eexists. split; [apply (chop_msg 4 4 [1; 134; 0; 12; 10; 0; 0; 2; 1; 0; 0; 5] [] [])|reflexivity].
  - repeat split; vm_compute; congruence.
  - constructor. intros m r' E (_ & B & _). destruct m; [change (blen []) with 0 in B; lia|discriminate].
Qed.

(** C13: unregistering takes out one registration, the latest of its kind, or
    reports that there is none. *)
Theorem C13_unregister : forall h fn ty,
  let (h', b) := remove_function h fn ty in
  (b = true -> exists h1 h2, h = h1 ++ (fn, ty) :: h2 /\ h' = h1 ++ h2 /\ ~ In (fn, ty) h1) /\
  (b = false -> h' = h /\ ~ In (fn, ty) h).
Proof. exact remove_function_spec. Qed.
Print Assumptions C13_unregister.

Example C13_unregister_ex : remove_function (add_function (add_function [(1, 5); (2, 5)] 1 6) 1 5) 1 5 = ([(1, 6); (1, 5); (2, 5)], true).
Proof. reflexivity. Qed.

(** C44: denied are exactly the defaults and the addresses added. *)
Theorem C44_deny_exact : forall l v6 a, validate (fold_left add_invalid l (deny_init v6)) a = true <-> ~ (In a l \/ In a (deny_init v6)).
Proof. exact deny_hist. Qed.
Print Assumptions C44_deny_exact.

(** C44: the defaults are the unspecified address and that of the loopback. *)
Theorem C44_defaults : forall l a,
  (validate (fold_left add_invalid l (deny_init false)) a = false <-> In a l \/ a = [0; 0; 0; 0] \/ a = [127; 0; 0; 1]) /\
  (validate (fold_left add_invalid l (deny_init true)) a = false <-> In a l \/ a = repeat 0 16 \/ a = repeat 0 15 ++ [1]).
Proof.
  assert (G : forall l v6 a, validate (fold_left add_invalid l (deny_init v6)) a = false <-> In a l \/ In a (deny_init v6)).
  { intros l v6 a. pose proof (deny_hist l v6 a) as H. destruct (validate _ a); split; try discriminate; intros Q.
    - exfalso. now apply (proj1 H).
    - destruct (in_dec (list_eq_dec Z.eq_dec) a l) as [|N1]; [now left|]. destruct (in_dec (list_eq_dec Z.eq_dec) a (deny_init v6)) as [|N2]; [now right|].
      exfalso. assert (false = true) by (apply H; tauto). discriminate.
    - reflexivity. }
  intros l a. split; rewrite G; cbn; intuition congruence.
Qed.
Print Assumptions C44_defaults.

Example C44_ex : validate (fold_left add_invalid [[10; 0; 0; 9]] (deny_init false)) [10; 0; 0; 9] = false /\
  validate (fold_left add_invalid [[10; 0; 0; 9]] (deny_init false)) [127; 0; 0; 1] = false /\
  validate (fold_left add_invalid [[10; 0; 0; 9]] (deny_init false)) [10; 0; 0; 8] = true.
Proof. repeat split. Qed.

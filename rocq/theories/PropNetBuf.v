(** C31, C56: output buffers (src/net_olsr.c). *)
From Verif Require Import Base Bytes NetBuf NetBufSpec NetBufProofs.

(** C31: for all sequences of pushes, reservations, transmissions and MTU
    changes (no packet transform function registered) nothing is written or read
    outside the buffer, and return values and packets are those of a queue of
    messages: a packet is the header (length, sequence number) followed by the
    messages accepted since the last transmission. *)
Theorem C31_buffer_is_queue : forall mtu seq ops, 4 <= mtu < 65536 -> 0 <= seq < 65536 -> Forall sane ops ->
  exists b', nbrun [] (net_add_buffer mtu (nb_zero seq)) ops = Some (b', snd (sq_run (mkSQ [] (mtu - 4) 0 seq) ops)).
Proof. exact c31_refines. Qed.
Print Assumptions C31_buffer_is_queue.
Definition ex_ops : list nbop :=
  [OPush [1; 2; 3; 4]; OReserve 2; OPush [5; 6]; OPushRes [7]; OLeft; OOutput true; OOutput true; OPush [9]; OMtu 300 false; OPush [8]; OOutput true].
Example C31_ex : Forall sane ex_ops /\
  snd (sq_run (mkSQ [] 7 0 65535) ex_ops) =
  [(4, None); (0, None); (0, None); (1, None); (0, None); (9, Some [0; 9; 255; 255; 1; 2; 3; 4; 7]); (0, None); (1, None); (0, Some [0; 5; 0; 0; 9]); (1, None); (5, Some [0; 5; 0; 1; 8])].
Proof. split; [unfold ex_ops; repeat constructor; cbn; lia|]. vm_compute. reflexivity. Qed.

(** every packet fits the MTU in force when it is sent *)
Theorem C31_packets_fit : forall mtu seq ops n r p, 4 <= mtu < 65536 -> 0 <= seq < 65536 -> Forall sane ops ->
  forall b' obs, nbrun [] (net_add_buffer mtu (nb_zero seq)) ops = Some (b', obs) ->
  nth_error obs n = Some (r, Some p) -> blen p <= mtu_before mtu (firstn n ops).
Proof.
  intros mtu seq ops n r p M S Sa b' obs E H. destruct (c31_refines mtu seq ops M S Sa) as (b2 & E2). rewrite E2 in E. injection E as <- <-.
  eapply run_fits; [|exact Sa|exact H]. apply (add_ok mtu (nb_zero seq)); [exact M|exact S|intros x Q; discriminate].
Qed.
Print Assumptions C31_packets_fit.
Example C31_fit_ex : mtu_before 11 (firstn 10 ex_ops) = 300 /\ mtu_before 11 (firstn 5 ex_ops) = 11. Proof. vm_compute. auto. Qed.

(** a negative reservation, which [sane] excludes, would enlarge the buffer
    beyond its memory *)
Example C31_negative_reservation : nbrun [] (net_add_buffer 8 (nb_zero 0)) [OReserve (-8); OPush (repeat 1 12)] = None.
Proof. vm_compute. reflexivity. Qed.

(** C56: a successful reservation does not guarantee the room: not if messages
    were pending already, ... *)
Theorem C56_reserve_pending_refuted : exists mtu ops n d, Forall sane ops /\ blen d = n /\
  option_map snd (nbrun [] (net_add_buffer mtu (nb_zero 0)) (ops ++ [OReserve n; OPushRes d])) =
  Some [(5, None); (0, None); (0, None)].
Proof. exists 12, [OPush [1; 2; 3; 4; 5]], 4, [6; 7; 8; 9]. split; [repeat constructor|]. vm_compute. auto. Qed.
Print Assumptions C56_reserve_pending_refuted.
(** ... nor if another reservation follows: the first one is forgotten (its space
    stays unusable for both), ... *)
Theorem C56_second_reservation_refuted : exists mtu n m d, 0 <= n /\ 0 <= m /\ blen d = n /\
  option_map snd (nbrun [] (net_add_buffer mtu (nb_zero 0)) [OReserve n; OReserve m; OPush [1; 2]; OPushRes d]) =
  Some [(0, None); (0, None); (2, None); (0, None)].
Proof. exists 12, 4, 2, [6; 7; 8; 9]. vm_compute. repeat split; discriminate. Qed.
Print Assumptions C56_second_reservation_refuted.
(** ... nor across a change of the MTU. *)
Theorem C56_mtu_change_refuted : exists mtu mtu' n d, 0 <= n /\ blen d = n /\ mtu < mtu' /\
  option_map snd (nbrun [] (net_add_buffer mtu (nb_zero 0)) [OReserve n; OMtu mtu' true; OPush (repeat 1 20); OPushRes d]) =
  Some [(0, None); (0, None); (20, None); (0, None)].
Proof. exists 12, 24, 4, [6; 7; 8; 9]. vm_compute. repeat split; discriminate. Qed.
Print Assumptions C56_mtu_change_refuted.
(** C56, what holds: made while enough of the buffer is free, and until the next
    reservation, transmission or MTU change, whatever is pushed otherwise. *)
Theorem C56_reserved_room_partial : forall mtu seq ops n ds d, 4 <= mtu < 65536 -> 0 <= seq < 65536 -> Forall sane ops ->
  let s := fst (sq_run (mkSQ [] (mtu - 4) 0 seq) ops) in
  0 <= n -> queued s + n <= q_cap s -> blen d <= n ->
  exists b' obs, nbrun [] (net_add_buffer mtu (nb_zero seq)) (ops ++ OReserve n :: map OPush ds ++ [OPushRes d]) = Some (b', obs ++ [(blen d, None)]).
Proof.
  intros mtu seq ops n ds d M S Sa s N Q L.
  destruct (c31_refines mtu seq (ops ++ OReserve n :: map OPush ds ++ [OPushRes d]) M S) as (b' & E).
  { apply Forall_app. split; [exact Sa|]. constructor; [exact N|]. apply Forall_app. split; [|repeat constructor]. apply Forall_forall. intros o Ho. apply in_map_iff in Ho. destruct Ho as (x & <- & _). exact I. }
  exists b'. rewrite E.
  assert (Ap : forall a b s0, snd (sq_run s0 (a ++ b)) = snd (sq_run s0 a) ++ snd (sq_run (fst (sq_run s0 a)) b)).
  { induction a as [|o a IH]; intros b s0; [reflexivity|]. cbn [app sq_run]. destruct (sq_step s0 o) as [s1 x]. specialize (IH b s1).
    destruct (sq_run s1 (a ++ b)) as [s2 xs]. destruct (sq_run s1 a) as [s3 ys]. cbn [fst snd] in *. rewrite IH. reflexivity. }
  rewrite Ap. fold s. 
  cbn [sq_run].
  assert (Nq : 0 <= queued s) by apply blen_nonneg. cbn [sq_step]. replace (n <=? q_cap s) with true by lia.
  set (s1 := mkSQ (q_msgs s) (q_cap s - n) n (q_next s)).
  assert (Q1 : queued s1 = queued s) by reflexivity.
  pose proof (reserved_room ds s1 n d N ltac:(cbn [q_cap s1]; lia) ltac:(cbn [q_cap s1]; lia) eq_refl L) as H.
  destruct (sq_run s1 (map OPush ds ++ [OPushRes d])) as [s2 xs]. cbn [snd] in H |- *.
  exists (snd (sq_run (mkSQ [] (mtu - 4) 0 seq) ops) ++ (0, None) :: snd (sq_run s1 (map OPush ds))). rewrite H, <- app_assoc. reflexivity.
Qed.
Print Assumptions C56_reserved_room_partial.
Example C56_ex : snd (sq_run (mkSQ [] 8 0 3) ([OPush [1; 2]] ++ OReserve 3 :: map OPush [[4; 4; 4]; [5]] ++ [OPushRes [7; 7; 7]])) =
  [(2, None); (0, None); (3, None); (0, None); (3, None)].
Proof. vm_compute. reflexivity. Qed.

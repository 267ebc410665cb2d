(** Vocabulary for the front end socket.  Nothing here calls the model. *)
From Verif Require Import Base IpSpec IpcFront.

(** a host that may connect: this one, or in one of the configured networks *)
Definition may (nets : list (list Z * Z)) (peer : list Z) : Prop :=
  peer = [127; 0; 0; 1] \/ exists n p, In (n, p) nets /\ same_prefix p peer n.
(** the bytes at an offset *)
Definition at_off (b : list Z) (o n : nat) : list Z := firstn n (skipn o b).
(** a record of 44 bytes that says a route *)
Definition says_route (r : route) (b : list Z) : Prop :=
  length b = 44%nat /\ nth 0 b 0 = 11 /\ at_off b 2 2 = [0; 44] /\ nth 4 b 0 = rt_hops r /\ nth 5 b 0 = 1 /\
  at_off b 8 16 = rt_dst r /\ at_off b 24 16 = rt_gw r /\
  (forall n, rt_name r = Some n -> forall i, (i < 4)%nat -> nth (40 + i) b 0 = nth i n 0) /\
  (rt_name r = None -> at_off b 40 4 = [118; 111; 105; 100]).
(** a record of 36 bytes that says the state of the node *)
Definition says_net (c : icfg) (w : world) (b : list Z) : Prop :=
  length b = 36%nat /\ nth 0 b 0 = 12 /\ at_off b 2 2 = [0; 36] /\ nth 4 b 0 = (if w_mids w then 1 else 0) /\ nth 5 b 0 = (if w_hnas w then 1 else 0) /\
  nth 18 b 0 = (if i_v6 c then 1 else 0) /\ at_off b 20 16 = i_main c.
Definition route_ok (r : route) : Prop :=
  length (rt_dst r) = 16%nat /\ length (rt_gw r) = 16%nat /\ 0 <= rt_hops r < 256 /\ forall n, rt_name r = Some n -> (3 <= length n)%nat.
(** a message as the parser passes it on: at least its size is there *)
Definition msg_ok (m : list Z) : Prop := (4 <= length m)%nat /\ nth 2 m 0 * 256 + nth 3 m 0 = Z.of_nat (length m).
Definition net_ok (n : list Z * Z) : Prop := is_addr 4 (fst n) /\ 0 <= snd n <= 32.
Definition from (e : event) (peer : list Z) : Prop := match e with Connect p _ => p = peer | _ => False end.
Definition addr4 (e : event) : Prop := match e with Connect p _ => is_addr 4 p | _ => True end.

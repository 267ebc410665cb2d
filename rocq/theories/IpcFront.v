(** Model of the socket for the GUI front end (src/ipc_frontend.c).  Connections are named by
    the number of accept calls before them, which stands for the descriptor: -1 is written
    when one is closed, so no number is used again.  The environment says which calls of
    send fail; a send on -1 fails.  [None] is undefined behaviour.  Definitions only. *)
From Verif Require Import Base Parser IpCalc.

(** src/routing_table.h:82-90 rt_entry as far as it is sent: the 16 bytes of the destination,
    hops of the best path, the 16 bytes of the gateway, the name of the interface
    (None: the interface is gone, src/interfaces.c:268-272) *)
Record route := mkRt { rt_dst : list Z; rt_hops : Z; rt_gw : list Z; rt_name : option (list Z) }.
(** the configuration, src/olsr_cfg.h: ip_version, ipc_nets, main_addr (16 bytes); and the
    number of descriptors a process may have for connections *)
Record icfg := mkI { i_v6 : bool; i_nets : list (list Z * Z); i_main : list Z; i_limit : Z }.
(** the rest of the daemon that is sent: more than one interface, any HNA entries
    (src/ipc_frontend.c:351-354), and the routes *)
Record world := mkW { w_mids : bool; w_hnas : bool; w_routes : list route }.
(** src/ipc_frontend.c:72-74 ipc_conn and ipc_active, the connections that are open, the number
    of the next one, and the peers of all *)
Record ist := mkS { s_conn : Z; s_active : bool; s_open : list Z; s_peers : list (list Z) }.
(** src/ipc_frontend.c:72-74 *)
Definition ist0 : ist := mkS (-1) false [] [].

(** src/ipc_frontend.c:170-188 ipc_check_allowed_ip for the four bytes of a peer; behind
    them there are the eight bytes sin_zero (pin in line 145), which the kernel clears *)
Fixpoint in_nets (v6 : bool) (mem : list Z) (l : list (list Z * Z)) : option bool :=
  match l with
  | [] => Some false
  | (n, p) :: r => match ip_in_net v6 mem n p with None => None | Some true => Some true | Some false => in_nets v6 mem r end
  end.
(** src/ipc_frontend.c:170-188 ipc_check_allowed_ip *)
Definition check_allowed (c : icfg) (peer : list Z) : option bool :=
  if bytes_eqb peer [127; 0; 0; 1] then Some true
  else in_nets (i_v6 c) (peer ++ repeat 0 8) (i_nets c).

(** the macro CLOSE, src/defs.h:138, on ipc_conn *)
Definition close_conn (s : ist) : ist := mkS (-1) (s_active s) (filter (fun x => negb (x =? s_conn s)) (s_open s)) (s_peers s).
(** ipc_active = false, src/ipc_frontend.c:218, 281, 328 *)
Definition inactive (s : ist) : ist := mkS (s_conn s) false (s_open s) (s_peers s).
(** send, src/ipc_frontend.c:215, 277, 324, 401: what arrives where, and whether it worked *)
Definition send (ok : bool) (fd : Z) (b : list Z) : list (Z * list Z) * bool :=
  if ok && (0 <=? fd) then ([(fd, b)], true) else ([], false).

(** big endian, htons *)
Definition be2 (x : Z) : list Z := [x / 256 mod 256; x mod 256].
(** src/ipc_frontend.c:303-321: struct ipcmsg (src/ipc_frontend.h:76-84) with its padding, which
    memset has cleared; memcpy takes four bytes from the name, which has its length and one
    byte (src/unix/ifnet.c:695-697) *)
Definition route_msg (r : route) : option (list Z) :=
  let name := match rt_name r with Some n => n ++ [0] | None => [118; 111; 105; 100; 0] end in
  if Z.of_nat (length name) <? 4 then None
  else Some ([11; 0] ++ be2 44 ++ [rt_hops r mod 256; 1; 0; 0] ++ rt_dst r ++ rt_gw r ++ firstn 4 name).
(** src/ipc_frontend.c:333-403: struct ipc_net_msg (src/ipc_frontend.h:86-99) *)
Definition net_msg (c : icfg) (w : world) : list Z :=
  [12; 0] ++ be2 36 ++ [if w_mids w then 1 else 0; if w_hnas w then 1 else 0; 0; 0] ++ repeat 0 10 ++ [if i_v6 c then 1 else 0; 0] ++ i_main c.

(** src/ipc_frontend.c:287-333 ipc_send_all_routes from route number [i] on *)
Fixpoint send_routes (ok : nat -> bool) (fd : Z) (i : nat) (l : list route) (s : ist) : option (ist * list (Z * list Z)) :=
  match l with
  | [] => Some (s, [])
  | r :: l' =>
      match route_msg r with
      | None => None
      | Some m =>
          let (out, good) := send (ok i) fd m in
          if good then match send_routes ok fd (S i) l' s with Some (s', o) => Some (s', out ++ o) | None => None end
          else Some (inactive (close_conn s), [])
      end
  end.

(** what happens: a connection, a message that the parser passes on, other routes (the only
    calls of ipc_route_send_rtentry are in src/win32/kernel_routes.c:126, 196) *)
Inductive event := Connect (peer : list Z) (ok : nat -> bool) | Message (m : list Z) (ok : bool) | Change (w : world).
(** running, or ended by olsr_exit *)
Inductive outcome := Runs (w : world) (s : ist) (o : list (Z * list Z)) | Exits.
(** src/ipc_frontend.c:142-168 ipc_accept *)
Definition accept (c : icfg) (w : world) (s : ist) (peer : list Z) (ok : nat -> bool) : option outcome :=
  if i_limit c <=? Z.of_nat (length (s_open s)) then Some Exits
  else
    let fd := Z.of_nat (length (s_peers s)) in
    let s1 := mkS fd (s_active s) (fd :: s_open s) (s_peers s ++ [peer]) in
    match check_allowed c peer with
    | None => None
    | Some false => Some (Runs w (close_conn s1) [])
    | Some true =>
        let s2 := mkS fd true (s_open s1) (s_peers s1) in
        let (o1, good) := send (ok 0%nat) fd (net_msg c w) in
        let s3 := if good then s2 else close_conn s2 in
        match send_routes ok (s_conn s3) 1 (w_routes w) s3 with
        | None => None
        | Some (s4, o2) => Some (Runs w s4 (o1 ++ o2))
        end
    end.
(** src/ipc_frontend.c:199-222 frontend_msgparser; the size is at the same place for both
    versions of IP *)
Definition msgparser (s : ist) (m : list Z) (ok : bool) : option (ist * list (Z * list Z)) :=
  if negb (s_active s) then Some (s, [])
  else
    let size := nth 2 m 0 * 256 + nth 3 m 0 in
    if Z.of_nat (length m) <? Z.max 4 size then None
    else let (o, good) := send ok (s_conn s) (firstn (Z.to_nat size) m) in
         Some (if good then s else inactive (close_conn s), o).
(** one event, src/ipc_frontend.c:142-222 *)
Definition step (c : icfg) (w : world) (s : ist) (e : event) : option outcome :=
  match e with
  | Connect p ok => accept c w s p ok
  | Message m ok => match msgparser s m ok with Some (s', o) => Some (Runs w s' o) | None => None end
  | Change w' => Some (Runs w' s [])
  end.
(** a run, src/ipc_frontend.c:142-222, with all that is sent *)
Fixpoint run (c : icfg) (w : world) (s : ist) (l : list event) : option outcome :=
  match l with
  | [] => Some (Runs w s [])
  | e :: r =>
      match step c w s e with
      | Some (Runs w1 s1 o1) => match run c w1 s1 r with Some (Runs w2 s2 o2) => Some (Runs w2 s2 (o1 ++ o2)) | x => x end
      | x => x
      end
  end.

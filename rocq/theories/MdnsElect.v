(** The election of a master router in the mDNS plugin (lib/mdns/src/RouterElection.c:79-291,
    lib/mdns/src/mdns.c:639-702).

    [int] is little-endian; addresses are the bytes in memory.  The list of routers is what
    the loops over the linked list visit, in order; before initTimer its head is zero and
    following it is [Outside].  All interfaces of the plugin have no OLSR interface
    (lib/mdns/src/NetworkInterfaces.c:693).  Memory that is not freed and debug output are
    left out. *)
From Verif Require Import Base BmfPacket.

(** lib/mdns/src/RouterElection.h:62-78 struct RouterListEntry and RouterListEntry6 *)
Record router := mkRouter { r_id : list Z; r_net : Z; r_ttl : Z; r_fd : Z }.
(** lib/mdns/src/NetworkInterfaces.h:66-121 struct TBmfInterface: the fields that are used *)
Record iface := mkIface { if_capture : Z; if_election : Z; if_hello : Z; if_active : bool }.
(** lib/mdns/src/RouterElection.c:79-85 and the interfaces; [s_list] is [None] until
    initTimer *)
Record mstate := mkMstate { s_list : option (list router); s_net : Z; s_id : list Z; s_hello : list Z; s_ifs : list iface }.

(** memcmp(a, b, n) < 0 for arrays of the same length; lib/mdns/src/RouterElection.c:211, 226 *)
Fixpoint memless (a b : list Z) : bool :=
  match a, b with
  | x :: a, y :: b => if x <? y then true else if y <? x then false else memless a b
  | _, _ => false
  end.
(** memcmp(a, b, n) == 0, lib/mdns/src/RouterElection.c:120, 141 *)
Fixpoint memsame (a b : list Z) : bool :=
  match a, b with
  | x :: a, y :: b => (x =? y) && memsame a b
  | [], [] => true
  | _, _ => false
  end.

(** lib/mdns/src/RouterElection.c:108-129 UpdateRouterList: the test and the loop *)
Definition same_router (n r : router) : bool :=
  (r_net r =? r_net n) && (r_fd r =? r_fd n) && memsame (r_id n) (r_id r).
(** see above, lib/mdns/src/RouterElection.c:108-129 *)
Definition refresh (n : router) (l : list router) : list router :=
  if existsb (same_router n) l
  then map (fun r => if same_router n r then mkRouter (r_id r) (r_net r) (r_ttl n) (r_fd r) else r) l
  else l ++ [n].

(** lib/mdns/src/mdns.c:655-692 DoElection, with lib/mdns/src/RouterElection.c:88-97
    ParseElectionPacket, ParseElectionPacket6 and :107-155 UpdateRouterList,
    UpdateRouterList6; [v6]: olsr_cnf->ip_version is AF_INET6 *)
Definition le32 (m : list Z) : Z := nth 0 m 0 + 256 * nth 1 m 0 + 65536 * nth 2 m 0 + 16777216 * nth 3 m 0.
(** see above, lib/mdns/src/mdns.c:655-692 *)
Definition do_election (v6 : bool) (fd : Z) (data : list Z) (s : mstate) : outcome mstate :=
  let data := firstn 2047 data in
  if (Z.of_nat (length data) <? 4) || negb (memsame (firstn 4 data) [36; 82; 69; 80]) then Done s
  else if Z.of_nat (length data) <? 25 then Done s
  else
    let four := le32 (skipn 4 data) =? 2 in
    let n := mkRouter (firstn (if four then 4 else 16) (skipn 8 data)) (nth 24 data 0) 10 fd in
    if Bool.eqb four v6 then Done s
    else
      match s_list s with
      | None => Outside
      | Some l => Done (mkMstate (Some (refresh n l)) (s_net s) (s_id s) (s_hello s) (s_ifs s))
      end.

(** lib/mdns/src/RouterElection.c:191-236 electTimer: one pass over the list *)
Fixpoint pass (net : Z) (own : list Z) (fd : Z) (l : list router) : bool * list router :=
  match l with
  | [] => (true, [])
  | r :: l =>
      let (b, l') := pass net own fd l in
      (negb ((r_net r =? net) && (r_fd r =? fd) && memless (r_id r) own) && b,
       if r_ttl r - 1 <=? 0 then l' else mkRouter (r_id r) (r_net r) (r_ttl r - 1) (r_fd r) :: l')
  end.
(** see above, lib/mdns/src/RouterElection.c:191-236 *)
Fixpoint passes (net : Z) (own : list Z) (ifs : list iface) (l : list router) : list iface * list router :=
  match ifs with
  | [] => ([], l)
  | i :: ifs =>
      let (b, l) := pass net own (if_election i) l in
      let (ifs, l) := passes net own ifs l in
      (mkIface (if_capture i) (if_election i) (if_hello i) b :: ifs, l)
  end.
(** see above, lib/mdns/src/RouterElection.c:191-236 *)
Definition elect_timer (s : mstate) : outcome mstate :=
  match s_list s with
  | None => match s_ifs s with [] => Done s | _ => Outside end
  | Some l => let (ifs, l) := passes (s_net s) (s_id s) (s_ifs s) l in Done (mkMstate (Some l) (s_net s) (s_id s) (s_hello s) ifs)
  end.

(** lib/mdns/src/RouterElection.c:239-258 initTimer; [main] is olsr_cnf->main_addr, a union of
    16 bytes *)
Definition init_timer (v6 : bool) (main : list Z) (s : mstate) : mstate :=
  mkMstate (Some []) 1 (firstn (if v6 then 16 else 4) main)
    ([36; 82; 69; 80] ++ [if v6 then 10 else 2; 0; 0; 0] ++ main ++ [1]) (s_ifs s).
(** lib/mdns/src/RouterElection.c:260-269 set_Network_ID: of a number *)
Definition set_network_id (n : Z) (s : mstate) : mstate := mkMstate (s_list s) (n mod 256) (s_id s) (s_hello s) (s_ifs s).
(** lib/mdns/src/RouterElection.c:157-189 helloTimer; [ok fd]: the packet could be sent.  If
    not, the message names the OLSR interface, which is NULL *)
Fixpoint hello_timer (ok : Z -> bool) (data : list Z) (ifs : list iface) : outcome (list (Z * list Z)) :=
  match ifs with
  | [] => Done []
  | i :: ifs => if ok (if_hello i) then let* l := hello_timer ok data ifs in Done ((if_hello i, data) :: l) else Outside
  end.

(** what happens after initTimer: a packet on the socket, a timer; lib/mdns/src/mdns.c:639-702 *)
Inductive event := Got (fd : Z) (data : list Z) | Elect.
(** lib/mdns/src/mdns.c:639-702 *)
Definition step (v6 : bool) (e : event) (s : mstate) : outcome mstate :=
  match e with Got fd data => do_election v6 fd data s | Elect => elect_timer s end.
(** lib/mdns/src/mdns.c:639-702 *)
Fixpoint events (v6 : bool) (l : list event) (s : mstate) : outcome mstate :=
  match l with [] => Done s | e :: l => let* s := step v6 e s in events v6 l s end.

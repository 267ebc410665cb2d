(** What requests to the kernel should say, and how the kernel reads them: the format of
    rtnetlink(7), and the rules by which Linux finds the IPv4 route to delete
    (fib_table_delete and fib_nh_match of the kernel). *)
From Verif Require Import Base Bytes NlRoute.

(** a request as it is understood: nlmsg_type, nlmsg_flags, the fields of struct rtmsg, the
    attributes with their types in order *)
Record nlreq := mkQ { q_type : Z; q_nlflags : Z; q_family : Z; q_dstlen : Z; q_srclen : Z; q_tos : Z; q_table : Z; q_proto : Z;
  q_scope : Z; q_rtype : Z; q_flags : Z; q_attrs : list (Z * list Z) }.
(** attributes: length with the header, type, data, padding to a multiple of 4 (which the
    last one may lack) *)
Inductive attrs (le : bool) : list Z -> list (Z * list Z) -> Prop :=
| attrs_nil : attrs le [] []
| attrs_last n t d : blen n = 2 -> blen t = 2 -> hval le n = 4 + blen d -> attrs le (n ++ t ++ d) [(hval le t, d)]
| attrs_cons n t d pad rest l : blen n = 2 -> blen t = 2 -> hval le n = 4 + blen d -> blen pad < 4 -> (4 + blen d + blen pad) mod 4 = 0 ->
    attrs le rest l -> attrs le (n ++ t ++ d ++ pad ++ rest) ((hval le t, d) :: l).
(** the bytes of a message are read as the request [q]: the length in the header is the
    length of the message *)
Definition reads (le : bool) (m : list Z) (q : nlreq) : Prop :=
  28 <= blen m /\ hval le (slice m 0 4) = blen m /\ hval le (slice m 4 2) = q_type q /\ hval le (slice m 6 2) = q_nlflags q /\
  slice m 8 8 = repeat 0 8 /\
  slice m 16 8 = [q_family q; q_dstlen q; q_srclen q; q_tos q; q_table q; q_proto q; q_scope q; q_rtype q] /\
  hval le (slice m 24 4) = q_flags q /\ attrs le (slice m 28 (blen m - 28)) (q_attrs q).
(** the values of all attributes of type [t] *)
Definition values (q : nlreq) (t : Z) : list (list Z) := map snd (filter (fun a => fst a =? t) (q_attrs q)).
(** the routing table that is meant: attribute RTA_TABLE (15) if there is one *)
Definition table_of (le : bool) (q : nlreq) : Z := match values q 15 with v :: _ => hval le v | [] => q_table q end.

(** arguments of sensible types *)
Definition byte (x : Z) : Prop := 0 <= x < 256.
Definition addr_ok (fam : Z) (a : list Z) : Prop := blen a = if fam =? 2 then 4 else 16.
Definition args_ok (x : rtargs) : Prop :=
  (a_fam x = 2 \/ a_fam x = 10) /\ 0 <= a_table x < 2 ^ 32 /\ 0 <= a_flags x < 2 ^ 32 /\ byte (a_scope x) /\ 0 <= a_if x < 2 ^ 31 /\
  - 2 ^ 31 <= a_metric x < 2 ^ 31 /\ - 2 ^ 31 <= a_proto x < 2 ^ 31 /\ byte (a_plen x) /\ addr_ok (a_fam x) (a_dst x) /\
  (forall s, a_src x = Some s -> addr_ok (a_fam x) s) /\ (forall g, a_gw x = Some g -> addr_ok (a_fam x) g).

(** a number as the value of an attribute *)
Definition num (le : bool) (v : list (list Z)) (n : Z) : Prop := exists b, v = [b] /\ blen b = 4 /\ hval le b = u32 n.

(** IPv4 routes in the kernel, as far as needed *)
Record kroute := mkK { k_table : Z; k_dst : list Z; k_plen : Z; k_type : Z; k_scope : Z; k_proto : Z; k_prio : Z; k_oif : Z; k_gw : list Z }.
(** value of an attribute, 0 or no bytes if it is missing *)
Definition numof (le : bool) (q : nlreq) (t : Z) : Z := match values q t with v :: _ => hval le v | [] => 0 end.
Definition bytesof (q : nlreq) (t : Z) : list Z := match values q t with v :: _ => v | [] => [] end.
(** a request to delete a route applies to the route [r]: same table, destination and
    type; scope, protocol, priority, interface and gateway unless left open *)
Definition applies (le : bool) (q : nlreq) (r : kroute) : Prop :=
  q_type q = 25 /\ table_of le q = k_table r /\ bytesof q 1 = k_dst r /\ q_dstlen q = k_plen r /\
  (q_rtype q = 0 \/ q_rtype q = k_type r) /\ (q_scope q = 255 \/ q_scope q = k_scope r) /\ (q_proto q = 0 \/ q_proto q = k_proto r) /\
  (numof le q 6 = 0 \/ numof le q 6 = k_prio r) /\ (numof le q 4 = 0 \/ numof le q 4 = k_oif r) /\
  (values q 5 = [] \/ bytesof q 5 = k_gw r).
(** the route that a request to add one makes *)
Definition route_of (le : bool) (q : nlreq) : kroute :=
  mkK (table_of le q) (bytesof q 1) (q_dstlen q) (q_rtype q) (q_scope q) (q_proto q) (numof le q 6) (numof le q 4) (bytesof q 5).

(** the kernel's answer with error number [e] (0: done) to a request [m]: NLMSG_ERROR with
    the negated number and the header of the request, then, if there is an error, the
    rest of it *)
Definition ack (le : bool) (e : Z) (m : list Z) : list Z :=
  let body := h32 le (- e) ++ (if e =? 0 then slice m 0 16 else m) in
  h32 le (16 + blen body) ++ h16 le 2 ++ repeat 0 10 ++ body.

(** the route over the next hop [h] that an entry stands for; without a gateway if it is
    the destination itself *)
Definition wanted (e : rtent) (h : nhop) (x : rtargs) : Prop :=
  a_dst x = e_dst e /\ a_plen x = e_plen e /\ a_black x = false /\ a_similar x = false /\ a_if x = snd h /\
  (a_gw x = Some (fst h) \/ a_gw x = None /\ fst h = e_dst e).
(** the entry after its best route has been installed (src/process_routes.c:216-220) *)
Definition installed (e : rtent) : rtent :=
  match e_best e with Some (h, n) => mkRE (e_dst e) (e_plen e) h n (e_best e) | None => e end.
(** the table and the metric that the route for an entry should have: the default route has
    its own table, and with smart gateways a metric that is worse by 2 *)
Definition placed (c : ncfg) (internet : bool) (hops : Z) (x : rtargs) : Prop :=
  a_table x = (if internet then n_tdef c else n_table c) /\
  a_metric x = (if n_flat c then n_defmetric c else hops) + (if internet && n_sgw c then 2 else 0).
(** the destinations that stand for the whole internet: 0.0.0.0/0; in IPv6 2000::/3 (any net of
    this length) and ::ffff:0:0/96 *)
Definition whole (v6 : bool) (a : list Z) (p : Z) : Prop :=
  if v6 then p = 3 \/ p = 96 /\ firstn 12 a = repeat 0 10 ++ [255; 255] else a = [0; 0; 0; 0] /\ p = 0.
(** the answer says that the request was carried out: a complete message of type
    NLMSG_ERROR with error number 0 *)
Definition says_done (le : bool) (r : list Z) : Prop :=
  36 <= blen r /\ hval le (slice r 4 2) = 2 /\ hval le (slice r 16 4) = 0.

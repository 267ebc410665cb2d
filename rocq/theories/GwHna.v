(** Model of smart gateway announcements: how bandwidths and flags travel in the
    netmask of a default route (src/gateway.c).  Definitions only.  A netmask is a
    list of bytes; union olsr_ip_addr has 16 bytes for both address families.
    Writing or reading outside of them is [None]. *)
From Verif Require Import Base IpCalc GwSpeed.

(** the part of olsr_cnf that is announced (src/olsr_cfg.h:326-353, 319-320) *)
Record anncfg := mkAnn { a_active : bool; a_v6 : bool; a_has4 : bool; a_has6 : bool; a_nat : bool;
                         a_uplink : Z; a_downlink : Z; a_plen : Z; a_prefix : list Z }.

(** memset and memcpy of src/gateway.c:101 *)
Definition zeros (n : nat) : list Z := repeat 0 n.
(** writing [v] at offset [o] of [b]; src/gateway.c:200-205 and what is written there *)
Definition put (b : list Z) (o : nat) (v : list Z) : option (list Z) :=
  if Nat.leb (o + length v) (length b) then Some (firstn o b ++ v ++ skipn (o + length v) b) else None.
(** one byte, src/gateway.c:200-205 *)
Definition put1 (b : list Z) (o : nat) (v : Z) : option (list Z) := put b o [v].
(** statements one after the other, src/gateway.c *)
Definition bind {A B} (x : option A) (f : A -> option B) : option B := match x with Some a => f a | None => None end.

(** src/gateway.c:1184-1210 refresh_smartgw_netmask: smart_gateway_netmask and
    smart_gateway_netmask_zero ([z0]: its previous contents) *)
Definition refresh (c : anncfg) (z0 : list Z) : option (list Z * list Z) :=
  let ip := zeros 16 in
  if negb (a_active c) then Some (ip, z0)
  else bind (put1 ip 1 1) (fun ip =>
       bind (put1 ip 3 (serialize_gw_speed (a_downlink c))) (fun ip =>
       bind (put1 ip 2 (serialize_gw_speed (a_uplink c))) (fun ip =>
       bind (if a_v6 c && (a_plen c >? 0)
             then bind (put1 ip 1 (Z.lor (nth 1 ip 0) 16)) (fun ip =>
                  bind (put1 ip 4 (a_plen c)) (fun ip => put ip 5 (firstn 8 (a_prefix c))))
             else Some ip) (fun ip =>
       bind (put1 ip 3 (serialize_gw_speed 0)) (fun iz =>
       bind (put1 iz 2 (serialize_gw_speed 0)) (fun iz => Some (ip, iz))))))).

(** src/gateway.c:200-202 hna_mask_to_hna_pointer: the offset *)
Definition hna_off (plen : Z) : nat := Z.to_nat ((plen + 7) / 8).

(** src/gateway.c:1154-1175 olsr_modifiy_inetgw_netmask *)
Definition modify_netmask (c : anncfg) (masks : list Z * list Z) (mask : list Z) (plen : Z) (zero : bool) : option (list Z) :=
  let o := hna_off plen in
  let src := if zero then snd masks else fst masks in
  bind (put mask o (firstn (16 - Z.to_nat (plen / 8)) src)) (fun m =>
  let flag m f := put1 m (o + 1) (Z.lor (nth (o + 1) m 0) f) in
  bind (if a_has4 c then bind (flag m 2) (fun m => if a_nat c then flag m 4 else Some m) else Some m) (fun m =>
  bind (if a_has6 c then flag m 8 else Some m) (fun m =>
  if negb (a_has6 c) || negb (plen =? 3) then put1 m (o + 1) (Z.land (nth (o + 1) m 0) (255 - 16)) else Some m))).

(** src/build_msg.c:1020-1029 (and 1184-1192 for IPv6): the netmask sent for the
    default route.  olsr_prefix_to_netmask (src/ipcalc.h:109-112) writes ipsize
    bytes; [junk] is the rest of the variable. *)
Definition sent_netmask (c : anncfg) (z0 junk : list Z) (plen : Z) (zero : bool) : option (list Z) :=
  let size := if a_v6 c then 16%nat else 4%nat in
  bind (refresh c z0) (fun masks =>
  bind (modify_netmask c masks (fst (prefix_to_netmask size plen) ++ junk) plen zero) (fun m => Some (firstn size m))).

(** src/gateway.c:1223-1232 olsr_is_smart_gateway *)
Definition is_smart_gateway (v6 : bool) (prefix : list Z * Z) (mask : list Z) : bool :=
  is_prefix_inetgw v6 prefix && (nth (hna_off (snd prefix)) mask 0 =? 0) && negb (nth (hna_off (snd prefix) + 1) mask 0 =? 0).

(** what olsr_update_gateway_entry stores (src/gateway.c:1261-1290); [ext] is the
    external prefix stored before *)
Record gwinfo := mkGi { gi_up : Z; gi_down : Z; gi_v4 : bool; gi_nat : bool; gi_v6 : bool; gi_ext : Z * list Z }.
(** see above, src/gateway.c:1261-1290 *)
Definition has (fl bit : Z) : bool := negb (Z.land fl bit =? 0).
(** see above, src/gateway.c:1261-1290 *)
Definition learn (v6 : bool) (ext : Z * list Z) (mask : list Z) (plen : Z) : gwinfo :=
  let p k := nth (hna_off plen + k) mask 0 in
  let fl := p 1%nat in
  mkGi (if has fl 1 then deserialize_gw_speed (p 2%nat) else 0)
       (if has fl 1 then deserialize_gw_speed (p 3%nat) else 0)
       (has fl 2) (has fl 4) (v6 && has fl 8)
       (if v6 && (plen =? 3) then
          if has fl 16 && memeq 16 mask (fst ipv6_internet_route)
          then (p 4%nat, firstn 8 (skipn (hna_off plen + 5) mask) ++ zeros 8) else (0, zeros 16)
        else ext).

(** src/hna_set.c:444-452: a prefix and a netmask from a message; [None]: not a
    smart gateway (the entry goes to the HNA set) *)
Definition receive (v6 : bool) (ext : Z * list Z) (net mask : list Z) : option gwinfo :=
  let plen := netmask_to_prefix mask in
  if is_smart_gateway v6 (net, plen) mask then Some (learn v6 ext mask plen) else None.

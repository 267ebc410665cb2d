(** Building of HNA messages (src/build_msg.c:978-1304) on Linux: announcing the
    attached networks, the default route as smart gateway, and taking it back.
    Definitions only.  The functions for the two address families are the same text
    up to types and are one definition here, as in BuildMsg.v. *)
From Verif Require Import Base Bytes IpCalc Mantissa GwSpeed GwHna NetBuf Parser Tc BuildMsg.

(** what is used of the configuration and of the interface: what is announced as
    smart gateway, smart_gateway_netmask_zero as it was first and the bytes of the variable at
    src/build_msg.c:988 beyond a netmask, smart_gateway_bandwidth_zero
    (src/olsr_cfg.h:474-476), valtimes.hna, main_addr, valtimes.hna_reltime,
    hna_gen_timer->timer_period *)
Record hcfg := mkHc { c_ann : anncfg; c_z0 : list Z; c_junk : list Z; c_bwzero : bool; c_vt : Z; c_main : list Z; c_valid : Z; c_period : Z }.
(** struct ip_prefix_list: network and prefix length of each entry; src/olsr_cfg.h:252-255 *)
Definition hnet := (list Z * Z)%type.

(** is_prefix_inetgw with smart gateway, src/build_msg.c:990, 994, 1022 *)
Definition as_gateway (c : hcfg) (h : hnet) : bool := a_active (c_ann c) && is_prefix_inetgw (a_v6 (c_ann c)) h.
(** src/build_msg.c:994-997, 1158-1161: left out *)
Definition left_out (c : hcfg) (zero : bool) (h : hnet) : bool := negb zero && as_gateway c h && c_bwzero c.
(** src/build_msg.c:1020-1029, 1184-1193: the bytes of an entry; [None]: outside of the variable *)
Definition hna_entry (c : hcfg) (zero : bool) (h : hnet) : option (list Z) :=
  if as_gateway c h
  then match sent_netmask (c_ann c) (c_z0 c) (c_junk c) (snd h) zero with Some m => Some (fst h ++ m) | None => None end
  else Some (fst h ++ fst (prefix_to_netmask (if a_v6 (c_ann c) then 16 else 4) (snd h))).
(** src/build_msg.c:978-1032 appendHNAEntry, 1142-1196 appendHNA6Entry, for all
    entries (1089-1091, 1253-1255); results: the size, sgw_set *)
Fixpoint hna_loop (c : hcfg) (zero : bool) (l : list hnet) (curr rem : Z) (sgw : bool) : M (Z * bool) :=
  match l with
  | [] => ret (curr, sgw)
  | h :: l' =>
      if left_out c zero h then hna_loop c zero l' curr rem sgw
      else let v6 := a_v6 (c_ann c) in
           x <- make_room v6 (BASE v6) (2 * ipsz v6) (2 * ipsz v6) curr rem ;;
           let (curr', rem') := x : Z * Z in
           match hna_entry c zero h with
           | None => stuck
           | Some e => poke curr' e ;;; hna_loop c zero l' (u16 (curr' + 2 * ipsz v6)) rem' (sgw || as_gateway c h)
           end
  end.
(** src/build_msg.c:1059-1096, 1223-1260: the messages for the networks [l], there is
    one; [zero]: is_zero_bw, [zt]: sgw_sgw_zero_bw_timeout *)
Definition hna_body (c : hcfg) (zero : bool) (zt : Z) (l : list hnet) : M bool :=
  let v6 := a_v6 (c_ann c) in
  rem <- space16 ;;
  let curr := BASE v6 in
  let need := fold_left (fun n _ => u16 (n + ipsz v6 * 2)) l curr in
  rem <- (if need >? rem then (output ;;; space16) else ret rem) ;;
  check_buffspace curr rem ;;;
  poke 0 [4] ;;;
  (if zero then match reltime_to_me zt with Some v => poke 1 [v] | None => stuck end else poke 1 [c_vt c]) ;;;
  poke 4 (c_main c) ;;; poke (4 + ipsz v6) [255] ;;; poke (5 + ipsz v6) [0] ;;;
  x <- hna_loop c zero l curr rem false ;;
  let (curr, sgw) := x : Z * bool in
  finish v6 curr ;;; ret sgw.
(** src/build_msg.c:1042-1140 serialize_hna4, 1206-1304 serialize_hna6 with is_zero_bw
    false; the result is sgw_sgw_zero_bw_timeout afterwards.  The call with is_zero_bw
    true (1121, 1285) is for a list with one entry, all bytes of which are 0; it does not
    change the timeout and does not go on to lines 1108-1135. *)
Definition serialize_hna (c : hcfg) (l : list hnet) (zt : Z) : M Z :=
  let v6 := a_v6 (c_ann c) in
  match l, zt =? 0 with
  | [], true => ret zt
  | _, _ =>
      x <- match l with
           | [] => ret (zt, false)
           | _ => sgw <- hna_body c false zt l ;; ret (if sgw : bool then c_valid c else zt, sgw)
           end ;;
      let (zt, sgw) := x : Z * bool in
      if a_active (c_ann c) && negb sgw && negb (zt =? 0)
      then hna_body c true zt [(repeat 0 (Z.to_nat (ipsz v6)), 0)] ;;;
           ret (if zt <=? c_period c then 0 else zt - c_period c)
      else ret zt
  end.
(** successive calls by the timer of an interface (src/generate_msg.c generate_hna), for
    the lists as they are then *)
Fixpoint hna_run (c : hcfg) (ls : list (list hnet)) (zt : Z) : M Z :=
  match ls with
  | [] => ret zt
  | l :: ls' => zt' <- serialize_hna c l zt ;; hna_run c ls' zt'
  end.

(** Building of outgoing messages (src/build_msg.c, src/lq_packet.c): how lists of
    addresses become bytes of messages and are cut into several messages.
    Definitions only.

    The static message buffer is a list of bytes that keeps what earlier calls left
    in it; accesses outside of it are [None].  Not modelled: the debug output, the
    tests for a NULL interface or message and for the wrong address family (the
    family is an argument and the caller selects the function by it,
    src/build_msg.c:134-228), and who calls when. *)
From Verif Require Import Base Bytes NetBuf Parser Tc.

(** what is observable of the output buffer: a message queued with the value net_outbuffer_push
    returned, a packet handed to the network; src/net_olsr.c, net_outbuffer_push and net_output *)
Inductive bev := EPush (d : list Z) (r : Z) | EOut (p : option (list Z)).
(** the interface's buffer, the message buffer (src/build_msg.c:72-73,
    src/lq_packet.c:68-69), message_seqno (src/olsr.c:126), what happened *)
Record bst := mkS { s_nb : nb; s_msg : list Z; s_seq : Z; s_log : list bev }.

(** computations that may end the process (second [None]) or be undefined; src/build_msg.c,
    olsr_exit *)
Definition M (A : Type) : Type := bst -> option (bst * option A).
(** no counterpart in src/build_msg.c *)
Definition ret {A} (a : A) : M A := fun s => Some (s, Some a).
(** statements one after the other, src/build_msg.c *)
Definition mbind {A B} (m : M A) (f : A -> M B) : M B :=
  fun s => match m s with
           | None => None
           | Some (s', None) => Some (s', None)
           | Some (s', Some a) => f a s'
           end.
(** olsr_exit in src/build_msg.c *)
Definition quit {A} : M A := fun s => Some (s, None).
(** undefined behaviour in src/build_msg.c *)
Definition stuck {A} : M A := fun _ => None.
Notation "x <- m ;; k" := (mbind m (fun x => k)) (at level 61, m at next level, right associativity).
Notation "m ;;; k" := (mbind m (fun _ => k)) (at level 61, right associativity).

(** src/build_msg.c:72, src/lq_packet.c:68 and src/defs.h:75 MAXMESSAGESIZE
    1500: size of the message buffer *)
Definition MSGBUF : Z := ((1500 - 4) / 4 + 1) * 4.
(** olsr_cnf->ipsize; src/olsr_cfg.h:362 *)
Definition ipsz (v6 : bool) : Z := if v6 then 16 else 4.
(** src/olsr_protocol.h:64-65 OLSR_MSGHDRSZ, src/build_msg.c:56-66, src/lq_packet.c:314-320:
    the header of all messages *)
Definition BASE (v6 : bool) : Z := 8 + ipsz v6.

(** src/net_olsr.c:262-273 *)
Definition space : M Z := fun s => Some (s, Some (net_outbuffer_bytes_left (s_nb s))).
(** src/net_olsr.c:202-206 *)
Definition pending : M Z := fun s => Some (s, Some (net_output_pending (s_nb s))).
(** src/net_olsr.c:336-421, the result is not used *)
Definition output : M unit :=
  fun s => match net_output [] true (s_nb s) with
           | None => None
           | Some (b, _, p) => Some (mkS b (s_msg s) (s_seq s) (s_log s ++ [EOut p]), Some tt)
           end.
(** a store to the message buffer; src/build_msg.c, msgbuffer *)
Definition poke (i : Z) (d : list Z) : M unit :=
  fun s => match wr (s_msg s) i d with
           | None => None
           | Some m => Some (mkS (s_nb s) m (s_seq s) (s_log s), Some tt)
           end.
(** src/olsr.c:143-147 get_msg_seqno *)
Definition seqno : M Z := fun s => Some (mkS (s_nb s) (s_msg s) (u16 (s_seq s + 1)) (s_log s), Some (s_seq s)).
(** src/net_olsr.c:219-229 with the first [n] bytes of the message buffer *)
Definition push (n : Z) : M unit :=
  fun s => match rdn (s_msg s) 0 n with
           | None => None
           | Some d => match net_outbuffer_push (s_nb s) d with
                       | None => None
                       | Some (b, r) => Some (mkS b (s_msg s) (s_seq s) (s_log s ++ [EPush d r]), Some tt)
                       end
           end.

(** src/build_msg.c:234-242 check_buffspace: olsr_exit *)
Definition check_buffspace (msgsize buffsize : Z) : M unit := if msgsize >? buffsize then quit else ret tt.
(** the uint16_t remainsize, e.g. src/build_msg.c:269 *)
Definition space16 : M Z := r <- space ;; ret (u16 r).

(** size and sequence number are set and the message is queued, e.g.
    src/build_msg.c:629-632, 657-660, 852-855, 1006-1008 *)
Definition finish (v6 : bool) (curr : Z) : M unit :=
  poke 2 (net16 curr) ;;; n <- seqno ;; poke (6 + ipsz v6) (net16 n) ;;; push curr.

(** no room for another [isz] bytes: queue what there is, send the packet, e.g.
    src/build_msg.c:621-645; [chk] bytes are asked for afterwards *)
Definition make_room (v6 : bool) (hdr isz chk curr rem : Z) : M (Z * Z) :=
  if curr + isz >? rem
  then curr' <- (if curr >? hdr then (finish v6 curr ;;; ret hdr) else ret curr) ;;
       output ;;; rem' <- space16 ;; check_buffspace (curr' + chk) rem' ;;; ret (curr', rem')
  else ret (curr, rem).

(** * TC messages *)

(** struct tc_message, src/packet.h, as far as it is used *)
Record tcm := mkTcm { t_hop : Z; t_ttl : Z; t_orig : list Z; t_ansn : Z; t_addrs : list (list Z) }.
(** src/build_msg.c:619-653, 734-765: the loop over the addresses; results: size,
    found, partial_sent *)
Fixpoint tc_loop (v6 : bool) (l : list (list Z)) (curr rem : Z) (found partial : bool) : M (Z * bool * bool) :=
  match l with
  | [] => ret (curr, found, partial)
  | a :: l' =>
      x <- make_room v6 (BASE v6 + 4) (ipsz v6) (ipsz v6) curr rem ;;
      let partial' := partial || ((curr + ipsz v6 >? rem) && (curr >? BASE v6 + 4)) in
      let (curr', rem') := x : Z * Z in
      poke curr' a ;;; tc_loop v6 l' (u16 (curr' + ipsz v6)) rem' true partial'
  end.
(** src/build_msg.c:575-678 serialize_tc4, 690-787 serialize_tc6; [vt] is
    valtimes.tc, [idle] whether the timer for empty messages is over *)
Definition serialize_tc (v6 : bool) (vt : Z) (idle : bool) (m : tcm) : M bool :=
  rem <- space16 ;;
  let curr := BASE v6 + 4 in
  rem <- (if curr >? rem then (output ;;; space16) else ret rem) ;;
  check_buffspace curr rem ;;;
  poke 1 [vt] ;;; poke 0 [2] ;;; poke (5 + ipsz v6) [t_hop m] ;;; poke (4 + ipsz v6) [t_ttl m] ;;; poke 4 (t_orig m) ;;;
  poke (BASE v6) (net16 (t_ansn m)) ;;; poke (BASE v6 + 2) [0; 0] ;;;
  x <- tc_loop v6 (t_addrs m) curr rem false false ;;
  let '(curr, found, partial) := x : Z * bool * bool in
  if found then finish v6 curr ;;; ret true
  else if negb partial && negb idle then finish v6 curr ;;; ret true
  else ret false.

(** * MID messages *)

(** src/build_msg.c:839-871, 935-966: the loop over the interfaces other than with
    the main address.  IPv4 does not ask for the room of the address after
    sending, line 861 *)
Fixpoint mid_loop (v6 : bool) (main : list Z) (l : list (list Z)) (curr rem : Z) : M Z :=
  match l with
  | [] => ret curr
  | a :: l' =>
      if bytes_eqb main a then mid_loop v6 main l' curr rem
      else x <- make_room v6 (BASE v6) (ipsz v6) (if v6 then ipsz v6 else 0) curr rem ;;
           let (curr', rem') := x : Z * Z in
           poke curr' a ;;; mid_loop v6 main l' (u16 (curr' + ipsz v6)) rem'
  end.
(** src/build_msg.c:797-881 serialize_mid4, 891-976 serialize_mid6; [ifs] are the
    addresses of the interfaces *)
Definition serialize_mid (v6 : bool) (vt : Z) (main : list Z) (ifs : list (list Z)) : M bool :=
  if match ifs with [] => true | [a] => bytes_eqb main a | _ => false end then ret false
  else
    rem <- space16 ;;
    let curr := BASE v6 in
    let need := fold_left (fun n _ => u16 (n + ipsz v6 * 2)) ifs curr in
    rem <- (if need >? rem then (output ;;; space16) else ret rem) ;;
    check_buffspace curr rem ;;;
    poke (5 + ipsz v6) [0] ;;; poke (4 + ipsz v6) [255] ;;; poke 4 main ;;; poke 0 [3] ;;; poke 1 [vt] ;;;
    curr <- mid_loop v6 main ifs curr rem ;;
    n <- seqno ;; poke (6 + ipsz v6) (net16 n) ;;; poke 2 (net16 curr) ;;;
    (if curr >? BASE v6 then push curr else ret tt) ;;; ret true.

(** * HELLO messages *)

(** struct hello_neighbor, src/packet.h, as far as it is used: status, link type, the
    16 bytes of the address union *)
Record hnb := mkHnb { n_status : Z; n_link : Z; n_addr : list Z }.
(** src/olsr_protocol.h:201 CREATE_LINK_CODE *)
Definition link_code (status lnk : Z) : Z := Z.lor lnk (Z.shiftl status 2).
(** src/build_msg.c:308-318, 470-475: neighbor and link types in the order of the
    loops, IPv4 leaves out HIDE_LINK *)
Definition hello_types (v6 : bool) : list (Z * Z) :=
  flat_map (fun i => flat_map (fun j => if negb v6 && (j =? 4) then [] else [(i, j)]) [0; 1; 2; 3; 4]) [0; 1; 2].
(** the variables of the loops: curr_size, remainsize, offsets of hinfo and haddr;
    src/build_msg.c, the serialize_hello functions *)
Record hst := mkH { h_curr : Z; h_rem : Z; h_info : Z; h_addr : Z }.
(** src/build_msg.c:323-389, 480-545: the loop over the neighbors; the second result is
    first_entry *)
Fixpoint hello_inner (v6 : bool) (i j : Z) (l : list hnb) (h : hst) (first : bool) : M (hst * bool) :=
  match l with
  | [] => ret (h, first)
  | n :: l' =>
      if negb (n_status n =? i) || negb (n_link n =? j) then hello_inner v6 i j l' h first
      else
        x <- (if h_curr h + ipsz v6 + (if first then 4 else 0) >? h_rem h
              then y <- (if h_curr h >? BASE v6 + 4
                         then m <- seqno ;; poke (6 + ipsz v6) (net16 m) ;;; poke 2 (net16 (h_curr h)) ;;;
                              poke (h_info h + 2) (net16 (h_addr h - h_info h)) ;;; push (h_curr h) ;;;
                              ret (mkH (BASE v6 + 4) (h_rem h) (BASE v6 + 4) (BASE v6 + 8), true)
                         else ret (h, first)) ;;
                   output ;;; rem <- space16 ;;
                   let (h1, f1) := y : hst * bool in
                   check_buffspace (h_curr h1 + ipsz v6 + 4) rem ;;; ret (mkH (h_curr h1) rem (h_info h1) (h_addr h1), f1)
              else ret (h, first)) ;;
        let (h1, f1) := x : hst * bool in
        (if f1 : bool then poke (h_info h1 + 1) [0] ;;; poke (h_info h1) [link_code i j] else ret tt) ;;;
        poke (h_addr h1) (n_addr n) ;;;
        hello_inner v6 i j l' (mkH (u16 (u16 (h_curr h1 + (if f1 then 4 else 0)) + ipsz v6)) (h_rem h1) (h_info h1) (h_addr h1 + ipsz v6)) false
  end.
(** src/build_msg.c:308-399, 470-554 *)
Fixpoint hello_outer (v6 : bool) (types : list (Z * Z)) (l : list hnb) (h : hst) : M hst :=
  match types with
  | [] => ret h
  | (i, j) :: types' =>
      x <- hello_inner v6 i j l h true ;;
      let (h1, first) := x : hst * bool in
      h2 <- (if first : bool then ret h1
             else poke (h_info h1 + 2) (net16 (h_addr h1 - h_info h1)) ;;; ret (mkH (h_curr h1) (h_rem h1) (h_addr h1) (h_addr h1 + 4))) ;;
      hello_outer v6 types' l h2
  end.
(** src/build_msg.c:256-408 serialize_hello4, 420-563 serialize_hello6; [vt] is
    valtimes.hello, [ht] the encoded hello_etime.  IPv6 asks at once for the room of
    the first address, line 445 *)
Definition serialize_hello (v6 : bool) (vt ht will ttl : Z) (main : list Z) (l : list hnb) : M bool :=
  rem <- space16 ;;
  let curr := BASE v6 + 4 in
  rem <- (if curr >? rem then (output ;;; space16) else ret rem) ;;
  check_buffspace (if v6 then curr + ipsz v6 + 4 else curr) rem ;;;
  poke (4 + ipsz v6) [ttl] ;;; poke (5 + ipsz v6) [0] ;;; poke 0 [1] ;;; poke 4 main ;;; poke 1 [vt] ;;;
  poke (BASE v6 + 3) [will] ;;; poke (BASE v6 + 2) [ht] ;;; poke (BASE v6) [0; 0] ;;;
  h <- hello_outer v6 (hello_types v6) l (mkH curr rem (BASE v6 + 4) (BASE v6 + 8)) ;;
  n <- seqno ;; poke (6 + ipsz v6) (net16 n) ;;; poke 2 (net16 (h_curr h)) ;;; push (h_curr h) ;;; ret true.

(** * HELLO and TC messages with link quality *)

(** src/lq_packet.c:322-352 serialize_common with the size that is set before; [vt]
    is the encoded validity time *)
Definition serialize_common (v6 : bool) (typ vt : Z) (orig : list Z) (ttl hops size : Z) : M unit :=
  poke 0 [typ] ;;; poke 1 [vt] ;;; poke 2 (net16 size) ;;; poke 4 orig ;;; poke (4 + ipsz v6) [ttl] ;;; poke (5 + ipsz v6) [hops] ;;;
  n <- seqno ;; poke (6 + ipsz v6) (net16 n).

(** struct lq_hello_neighbor, src/lq_packet.h:95-101: types, address, the four bytes
    that the link quality plugin writes (e.g. src/lq_plugin_default_fpm.c:130-141) *)
Record lqn := mkLqn { l_link : Z; l_neigh : Z; l_addr : list Z; l_lq : list Z }.
(** src/lq_packet.c:422-426 with src/olsr_protocol.h:114 HELLO_LINK_ORDER_ARRAY *)
Definition lq_types : list (Z * Z) := flat_map (fun i => map (fun j => (i, j)) [0; 3; 1; 2]) [0; 1; 2].
(** see above, src/lq_packet.c:422-426 *)
Definition is_type (i j : Z) (n : lqn) : bool := (l_neigh n =? i) && (l_link n =? j).
(** src/lq_packet.c:397-412 *)
Definition lq_expected (v6 : bool) (l : list lqn) : Z :=
  Z.of_nat (length l) * (ipsz v6 + 4) + fold_left (fun n '(i, j) => if existsb (is_type i j) l then n + 4 else n) lq_types 0.
(** src/lq_packet.c:431-495: size, rem, offset of info_head, is_first *)
Fixpoint lqh_inner (v6 : bool) (common : Z -> M unit) (i j : Z) (l : list lqn) (size rem : Z) (ih : option Z) (first : bool)
  : M (Z * Z * option Z * bool) :=
  let off := BASE v6 + 4 in
  match l with
  | [] => ret (size, rem, ih, first)
  | n :: l' =>
      if negb (is_type i j n) then lqh_inner v6 common i j l' size rem ih first
      else
        let req := ipsz v6 + 4 + (if first then 4 else 0) in
        x <- (if size + req >? rem
              then common (size + off) ;;;
                   (* assert(info_head), a NULL pointer without assertions *)
                   match ih with None => stuck | Some p => poke (p + 2) (net16 (off + size - p)) end ;;;
                   push (size + off) ;;; output ;;; r <- space ;; ret (0, r - off, true)
              else ret (size, rem, first)) ;;
        let '(size, rem, first) := x : Z * Z * bool in
        y <- (if first : bool then poke (off + size + 1) [0] ;;; poke (off + size) [link_code i j] ;;; ret (size + 4, Some (off + size)) else ret (size, ih)) ;;
        let (size, ih) := y : Z * option Z in
        poke (off + size) (l_addr n) ;;; poke (off + size + ipsz v6) (l_lq n) ;;;
        lqh_inner v6 common i j l' (size + ipsz v6 + 4) rem ih false
  end.
(** src/lq_packet.c:424-503 *)
Fixpoint lqh_outer (v6 : bool) (common : Z -> M unit) (types : list (Z * Z)) (l : list lqn) (size rem : Z) (ih : option Z) : M Z :=
  match types with
  | [] => ret size
  | (i, j) :: types' =>
      x <- lqh_inner v6 common i j l size rem ih true ;;
      let '(size, rem, ih, first) := x : Z * Z * option Z * bool in
      (if first : bool then ret tt else match ih with None => stuck | Some p => poke (p + 2) (net16 (BASE v6 + 4 + size - p)) end) ;;;
      lqh_outer v6 common types' l size rem ih
  end.
(** src/lq_packet.c:354-514 serialize_lq_hello *)
Definition serialize_lq_hello (v6 : bool) (vt ht will : Z) (orig : list Z) (l : list lqn) : M unit :=
  let off := BASE v6 + 4 in
  let common := serialize_common v6 201 vt orig 1 0 in
  poke (BASE v6) [0; 0] ;;; poke (BASE v6 + 2) [ht] ;;; poke (BASE v6 + 3) [will] ;;;
  r <- space ;; p <- pending ;;
  let expected := if 0 <? p then lq_expected v6 l else 0 in
  rem <- (if r - off <? expected then (output ;;; r' <- space ;; ret (r' - off)) else ret (r - off)) ;;
  size <- lqh_outer v6 common lq_types l 0 rem None ;;
  common (size + off) ;;; push (size + off).

(** src/lq_packet.c:600-638: neighbors are addresses with the four bytes of the link
    quality; [lower] is left_border_flag, [last] the address last_ip points to *)
Fixpoint lqt_loop (v6 : bool) (common : Z -> M unit) (l : list (list Z * list Z)) (size rem lower : Z) (last : option (list Z)) : M (Z * Z) :=
  let off := BASE v6 + 4 in
  match l with
  | [] => ret (size, lower)
  | (a, q) :: l' =>
      x <- (if size + ipsz v6 + 4 >? rem
            then poke (BASE v6 + 2) [lower] ;;;
                 match last with
                 | None => stuck
                 | Some la =>
                     let up := calculate_border_flag (ipsz v6) la a in
                     poke (BASE v6 + 3) [up] ;;; common (size + off) ;;; push (size + off) ;;; output ;;; r <- space ;; ret (0, r - off, up)
                 end
            else ret (size, rem, lower)) ;;
      let '(size, rem, lower) := x : Z * Z * Z in
      poke (off + size) a ;;; poke (off + size + ipsz v6) q ;;; lqt_loop v6 common l' (size + ipsz v6 + 4) rem lower (Some a)
  end.
(** src/lq_packet.c:545-649 serialize_lq_tc *)
Definition serialize_lq_tc (v6 : bool) (vt : Z) (orig : list Z) (ttl ansn : Z) (l : list (list Z * list Z)) : M unit :=
  let off := BASE v6 + 4 in
  let common := serialize_common v6 202 vt orig ttl 0 in
  poke (BASE v6) (net16 ansn) ;;; poke (BASE v6 + 2) [0] ;;; poke (BASE v6 + 3) [0] ;;;
  r <- space ;; p <- pending ;;
  let expected := if 0 <? p then Z.of_nat (length l) * (ipsz v6 + 4) else 0 in
  rem <- (if r - off <? expected then (output ;;; r' <- space ;; ret (r' - off)) else ret (r - off)) ;;
  x <- lqt_loop v6 common l 0 rem 255 None ;;
  let (size, lower) := x : Z * Z in
  poke (BASE v6 + 2) [lower] ;;; poke (BASE v6 + 3) [255] ;;; common (size + off) ;;; push (size + off).

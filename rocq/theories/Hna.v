(** Model of the HNA set: networks announced by other nodes (src/hna_set.c).
    Definitions only.  Addresses are lists of 4 or 16 bytes; the hash table is a
    function from bucket numbers to lists (first element of a list: the element
    behind the head).  The hash function (src/hashing.c) is a parameter with
    values below HASHSIZE (src/hashing.c:174).  A record is identified by
    gateway, network and prefix length instead of by its address in memory.
    Reading outside of the buffer is [None]. *)
From Verif Require Import Base Bytes Mantissa IpCalc GwHna Parser.

(** src/hashing.h:49 *)
Definition HASHSIZE : nat := 128.
(** src/hna_set.h:58-73 struct hna_net (with the value its timer was last set to)
    and struct hna_entry *)
Record hnet := mkNet { n_net : list Z; n_plen : Z; n_vtime : Z }.
(** see above, src/hna_set.h:58-73 *)
Record hentry := mkEnt { e_gw : list Z; e_nets : list hnet }.
(** src/hna_set.c:56 hna_set *)
Definition hset := nat -> list hentry.

(** calls into other modules; src/hna_set.c *)
Inductive heff :=
| EIns (net : list Z) (plen : Z) (gw : list Z)          (* olsr_insert_routing_table *)
| EDel (net : list Z) (plen : Z) (gw : list Z)          (* olsr_delete_routing_table *)
| EGwDel (gw : list Z) (plen : Z)                       (* olsr_delete_gateway_entry *)
| EGwUpd (gw mask : list Z) (plen seq vtime : Z)        (* olsr_update_gateway_entry *)
| ECollision (net gw : list Z)                          (* olsr_handle_hna_collision *)
| EChanged.                                             (* changes_hna = true *)

(** the parts of olsr_cnf, and ifnet, that are read: own interface addresses, own
    HNA entries, and the optional MAXIMUM_GATEWAY_PREFIX_LENGTH (src/gateway.h:76) *)
Record hcfg := mkHcfg { h_v6 : bool; h_smartgw : bool; h_ifs : list (list Z); h_own : list (list Z * Z); h_maxgw : option Z }.
(** see above, src/gateway.h:76 *)
Definition ipsize (c : hcfg) : Z := if h_v6 c then 16 else 4.

Section Hash.
Variable hash : list Z -> nat.

(** assignment to one bucket; hna_set of src/hna_set.c *)
Definition bset (s : hset) (h : nat) (l : list hentry) : hset := fun k => if Nat.eqb k h then l else s k.

(** src/hna_set.c:107-121 olsr_lookup_hna_net *)
Definition net_is (net : list Z) (plen : Z) (n : hnet) : bool := (n_plen n =? plen) && bytes_eqb (n_net n) net.
(** see above, src/hna_set.c:107-121 *)
Definition lookup_net (nets : list hnet) (net : list Z) (plen : Z) : option hnet := find (net_is net plen) nets.
(** src/hna_set.c:129-145 olsr_lookup_hna_gw *)
Definition lookup_gw (s : hset) (gw : list Z) : option hentry := find (fun e => bytes_eqb (e_gw e) gw) (s (hash gw)).
(** src/hna_set.c:154-178 olsr_add_hna_entry *)
Definition add_entry (s : hset) (gw : list Z) : hset := bset s (hash gw) (mkEnt gw [] :: s (hash gw)).

(** writing through the pointer to the first record with this gateway; src/hna_set.c:213-262 *)
Fixpoint on_gw (l : list hentry) (gw : list Z) (f : list hnet -> list hnet) : list hentry :=
  match l with
  | [] => []
  | e :: r => if bytes_eqb (e_gw e) gw then mkEnt (e_gw e) (f (e_nets e)) :: r else e :: on_gw r gw f
  end.
(** src/hna_set.c:189-210 olsr_add_hna_net *)
Definition add_net (net : list Z) (plen : Z) (nets : list hnet) : list hnet := mkNet net plen 0 :: nets.
(** src/hna_set.c:306-307: olsr_set_timer on the record *)
Fixpoint set_timer (net : list Z) (plen vtime : Z) (nets : list hnet) : list hnet :=
  match nets with
  | [] => []
  | n :: r => if net_is net plen n then mkNet (n_net n) (n_plen n) vtime :: r else n :: set_timer net plen vtime r
  end.
(** src/hna_set.c:276-308 olsr_update_hna_entry *)
Definition update_entry (s : hset) (gw net : list Z) (plen vtime : Z) : hset * list heff :=
  let s1 := match lookup_gw s gw with Some _ => s | None => add_entry s gw end in
  let nets := match lookup_gw s1 gw with Some e => e_nets e | None => [] end in
  let '(s2, ch) := match lookup_net nets net plen with
                   | Some _ => (s1, [])
                   | None => (bset s1 (hash gw) (on_gw (s1 (hash gw)) gw (add_net net plen)), [EChanged])
                   end in
  (bset s2 (hash gw) (on_gw (s2 (hash gw)) gw (set_timer net plen vtime)), ch ++ [EIns net plen gw]).

(** src/hna_set.c:219-242: what deleting a record does elsewhere *)
Definition del_effects (v6 : bool) (gw : list Z) (n : hnet) : list heff :=
  (if is_prefix_inetgw v6 (n_net n, n_plen n) then [EGwDel gw (n_plen n)] else []) ++ [EDel (n_net n) (n_plen n) gw].
(** DEQUEUE_ELEM of a record, src/hna_set.c:244 *)
Fixpoint drop_net (net : list Z) (plen : Z) (nets : list hnet) : list hnet :=
  match nets with
  | [] => []
  | n :: r => if net_is net plen n then r else n :: drop_net net plen r
  end.
(** src/hna_set.c:246-251: the gateway goes with its last network *)
Definition prune (gw : list Z) (l : list hentry) : list hentry :=
  (fix go l := match l with
               | [] => []
               | e :: r => if bytes_eqb (e_gw e) gw then match e_nets e with [] => r | _ :: _ => e :: r end else e :: go r
               end) l.
(** src/hna_set.c:212-263 olsr_delete_hna_net_entry, called for a record that
    exists by olsr_expire_hna_net_entry (otherwise: nothing happens, there is no
    timer) *)
Definition expire (v6 : bool) (s : hset) (gw net : list Z) (plen : Z) : hset * list heff :=
  match lookup_gw s gw with
  | None => (s, [])
  | Some e => match lookup_net (e_nets e) net plen with
              | None => (s, [])
              | Some n => (bset s (hash gw) (prune gw (on_gw (s (hash gw)) gw (drop_net net plen))), del_effects v6 gw n)
              end
  end.

(** src/hna_set.c:92: while (!olsr_delete_hna_net_entry(hna->networks.next)); the
    loop ends when the gateway is gone *)
Fixpoint drain (v6 : bool) (gw : list Z) (nets : list hnet) : list heff :=
  match nets with
  | [] => []
  | n :: r => del_effects v6 gw n ++ drain v6 gw r
  end.
(** src/hna_set.c:90-95, one bucket (macro src/hna_set.h:75-85) *)
Fixpoint clean_bucket (v6 : bool) (orig : list Z) (l : list hentry) : list hentry * list heff :=
  match l with
  | [] => ([], [])
  | e :: r => let '(r', ef) := clean_bucket v6 orig r in
              match e_nets e with
              | _ :: _ => if bytes_eqb (e_gw e) orig then (r', drain v6 (e_gw e) (e_nets e) ++ ef) else (e :: r', ef)
              | [] => (e :: r', ef)
              end
  end.
(** src/hna_set.c:86-96 olsr_cleanup_hna *)
Definition cleanup (v6 : bool) (s : hset) (orig : list Z) : hset * list heff :=
  (fun h => if Nat.ltb h HASHSIZE then fst (clean_bucket v6 orig (s h)) else s h,
   flat_map (fun h => snd (clean_bucket v6 orig (s h))) (seq 0 HASHSIZE)).

(** src/cfgparser/olsrd_conf.c:1514-1523 ip_prefix_list_find *)
Definition own_hna (c : hcfg) (net : list Z) (plen : Z) : bool :=
  existsb (fun h => (plen =? snd h) && bytes_eqb net (fst h)) (h_own c).
(** src/hna_set.c:444-478: one pair of network and netmask *)
Definition input_pair (c : hcfg) (orig : list Z) (seq vtime : Z) (net mask : list Z) (s : hset) : hset * list heff :=
  let plen := netmask_to_prefix mask in
  if h_smartgw c && is_smart_gateway (h_v6 c) (net, plen) mask then (s, [EGwUpd orig mask plen seq vtime])
  else if h_smartgw c && match h_maxgw c with Some m => (plen >? 0) && (plen <=? m) | None => false end then (s, [])
  else if existsb (fun a => bytes_eqb a net) (h_ifs c) then (s, [ECollision net orig])
  else if own_hna c net plen then (s, [])
  else update_entry s orig net plen vtime.
(** src/hna_set.c:434-479: while (curr < curr_end); [fuel] bounds the number of
    turns (never reached, see HnaProofs) *)
Fixpoint input_loop (fuel : nat) (c : hcfg) (b : list Z) (orig : list Z) (seq vtime curr fin : Z) (s : hset) : option (hset * list heff) :=
  if curr <? fin then
    match fuel with
    | O => None
    | S fuel =>
      bind (rdn b curr (ipsize c)) (fun net =>
      bind (rdn b (curr + ipsize c) (ipsize c)) (fun mask =>
      let '(s1, e1) := input_pair c orig seq vtime net mask s in
      bind (input_loop fuel c b orig seq vtime (curr + 2 * ipsize c) fin s1) (fun r => Some (fst r, e1 ++ snd r))))
    end
  else Some (s, []).

(** src/olsr_protocol.h:100 *)
Definition HNA_MESSAGE : Z := 4.
(** src/hna_set.c:368-482 olsr_input_hna: [sym] tells whether check_neighbor_link
    of the sender gives SYM_LINK.  hnasize is converted to the unsigned type of
    ipsize before the remainder is taken (2*ipsize divides 2^64). *)
Definition input_hna (c : hcfg) (sym : bool) (b : list Z) (s : hset) : option (hset * list heff * bool) :=
  bind (rd8 b 0) (fun ty =>
  if negb (ty =? HNA_MESSAGE) then Some (s, [], false) else
  bind (rd8 b 1) (fun me =>
  let vtime := me_to_reltime me in
  bind (rd16 b 2) (fun msgsize =>
  let hnasize := msgsize - 8 - ipsize c in
  bind (rdn b 4 (ipsize c)) (fun orig =>
  bind (rdn b (4 + ipsize c) 2) (fun _ =>
  bind (rd16 b (6 + ipsize c)) (fun seq =>
  if negb (hnasize mod (2 * ipsize c) =? 0) then Some (s, [], false) else
  if negb sym then Some (s, [], false) else
  bind (input_loop (Z.to_nat msgsize) c b orig seq vtime (8 + ipsize c) msgsize s) (fun r =>
  Some (fst r, snd r, true)))))))).

(** what happens to the set: a message, the expiry of a record's timer, the
    removal of an originator (src/tc_set.c:940) *)
Inductive hev :=
| HMsg (sym : bool) (b : list Z)
| HExpire (gw net : list Z) (plen : Z)
| HCleanup (orig : list Z).
(** see above, src/tc_set.c:940 *)
Definition hstep (c : hcfg) (e : hev) (s : hset) : option (hset * list heff) :=
  match e with
  | HMsg sym b => bind (input_hna c sym b s) (fun r => Some (fst r))
  | HExpire gw net plen => Some (expire (h_v6 c) s gw net plen)
  | HCleanup o => Some (cleanup (h_v6 c) s o)
  end.
(** see above, src/tc_set.c:940 *)
Fixpoint hrun (c : hcfg) (evs : list hev) (s : hset) : option (hset * list heff) :=
  match evs with
  | [] => Some (s, [])
  | e :: r => bind (hstep c e s) (fun x => bind (hrun c r (fst x)) (fun y => Some (fst y, snd x ++ snd y)))
  end.
End Hash.
(** src/hna_set.c:66-84 olsr_init_hna_set *)
Definition hna_init : hset := fun _ => [].

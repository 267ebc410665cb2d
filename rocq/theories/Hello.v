(** Model of the HELLO decoder, src/process_package.c:318-447.  Definitions only.
    [buf] is the memory the message lies at the start of (the message alone, or
    the message and what follows it in the receive buffer).  Reading beyond it
    is the outcome [HOob].  The link quality of a neighbor is kept as the two
    bytes read for it (all link quality plugins read two bytes and skip two).
    The list of neighbors is modelled at pointer level: nodes are numbered in
    the order of their allocation. *)
From Verif Require Import Base Bytes.

(** src/lq_packet.h:54, src/olsr_protocol.h (message types) *)
Definition HELLO_MESSAGE : Z := 1.
(** see above, src/lq_packet.h:54 *)
Definition LQ_HELLO_MESSAGE : Z := 201.

(** src/olsr_protocol.h:107-114 *)
Definition UNSPEC_LINK : Z := 0.
(** see above, src/olsr_protocol.h:107-114 *)
Definition ASYM_LINK : Z := 1.
(** see above, src/olsr_protocol.h:107-114 *)
Definition SYM_LINK : Z := 2.
(** see above, src/olsr_protocol.h:107-114 *)
Definition LOST_LINK : Z := 3.
(** see above, src/olsr_protocol.h:107-114 *)
Definition LINK_ORDER : list Z := [UNSPEC_LINK; LOST_LINK; ASYM_LINK; SYM_LINK].

(** src/olsr_protocol.h:201-205 *)
Definition create_link_code (status link : Z) : Z := Z.lor link (Z.shiftl status 2).
(** see above, src/olsr_protocol.h:201-205 *)
Definition extract_status (c : Z) : Z := Z.shiftr (Z.land c 12) 2.
(** see above, src/olsr_protocol.h:201-205 *)
Definition extract_link (c : Z) : Z := Z.land c 3.

(** struct hello_neighbor, src/packet.h:53 *)
Record hneigh := mkHN { hn_link : Z; hn_status : Z; hn_addr : list Z; hn_lq : list Z }.

(** the list under construction: the nodes, newest first (hello->neighbors),
    neigh_unspec_first_prev and neigh_unspec_first as node numbers;
    src/process_package.c:328-396 *)
Record hacc := mkHA { ha_nodes : list hneigh; ha_prev : option nat; ha_first : option nat }.

(** how src/process_package.c:318-447 ends *)
Inductive hres (A : Type) :=
| HOk (a : A)          (* goes on *)
| HRet1 (l : list hneigh)  (* src/process_package.c:339,374: return 1, nodes allocated so far *)
| HOob | HFuel | HUB.
Arguments HOk {A}. Arguments HRet1 {A}. Arguments HOob {A}. Arguments HFuel {A}. Arguments HUB {A}.

(** statements one after the other, src/process_package.c:318-447 *)
Definition hbind {A B} (r : hres A) (f : A -> hres B) : hres B :=
  match r with HOk a => f a | HRet1 l => HRet1 l | HOob => HOob | HFuel => HFuel | HUB => HUB end.

(** src/process_package.c:390-397 *)
Definition ha_push (s : hacc) (n : hneigh) : hacc :=
  let id := length (ha_nodes s) in
  if hn_link n =? UNSPEC_LINK then mkHA (n :: ha_nodes s) (ha_prev s) (Some id)
  else mkHA (n :: ha_nodes s) (match ha_prev s with None => Some id | p => p end) (ha_first s).

Section Dec.
Variable ips : Z.           (* olsr_cnf->ipsize *)

(** src/process_package.c:381-398: the entries of one block; [curr], [limit2] are
    offsets; returns the list and [curr].  In an LQ HELLO four bytes of link
    quality follow, of which two are read
    (src/lq_plugin_default_ff.c:316-323, _float.c:137-149, _fpm.c, _ffeth.c). *)
Fixpoint neighs (fuel : nat) (buf : list Z) (lq : bool) (code curr limit2 : Z) (s : hacc) : hres (hacc * Z) :=
  if curr <? limit2 then
    match fuel with
    | O => HFuel
    | S fuel' =>
        match rdn buf curr ips with
        | None => HOob
        | Some a =>
            if lq then
              match rdn buf (curr + ips) 2 with
              | None => HOob
              | Some q => neighs fuel' buf lq code (curr + ips + 4) limit2
                            (ha_push s (mkHN (extract_link code) (extract_status code) a q))
              end
            else neighs fuel' buf lq code (curr + ips) limit2
                   (ha_push s (mkHN (extract_link code) (extract_status code) a []))
        end
    end
  else HOk (s, curr).

(** src/process_package.c:362-399: the blocks, picking those of link type [want] *)
Fixpoint blocks (fuel : nat) (buf : list Z) (lq : bool) (want curr limit : Z) (s : hacc) : hres hacc :=
  if curr <? limit then
    match fuel with
    | O => HFuel
    | S fuel' =>
        match rd8 buf curr, rd16 buf (curr + 2) with
        | Some code, Some size2 =>
            if size2 =? 0 then HRet1 (ha_nodes s)
            else if negb (extract_link code =? want) then blocks fuel' buf lq want (curr + size2) limit s
            else hbind (neighs fuel' buf lq code (curr + 4) (curr + size2) s)
                       (fun sc => blocks fuel' buf lq want (snd sc) limit (fst sc))
        | _, _ => HOob
        end
    end
  else HOk s.

(** src/process_package.c:359-400 *)
Fixpoint passes (fuel : nat) (buf : list Z) (lq : bool) (order : list Z) (curr limit : Z) (s : hacc) : hres hacc :=
  match order with
  | [] => HOk s
  | want :: order' => hbind (blocks fuel buf lq want curr limit s)
                            (fun s' => passes fuel buf lq order' curr limit s')
  end.

(** the list as pointers: next pointers, the two unspec pointers, freed nodes;
    src/process_package.c:402-430 *)
Record hheap := mkHH { hnx : nat -> option nat; hprev : option nat; hfirst : option nat; hfreed : list nat }.

(** assignment to next, src/process_package.c:402-430 *)
Definition nat_upd (f : nat -> option nat) (k : nat) (v : option nat) : nat -> option nat :=
  fun x => if Nat.eqb x k then v else f x.
(** comparison of pointers, src/process_package.c:404-420 *)
Definition opt_is (o : option nat) (k : nat) : bool := match o with Some x => Nat.eqb x k | None => false end.
(** src/process_package.c:424 *)
Definition freed (h : hheap) (k : nat) : bool := existsb (Nat.eqb k) (hfreed h).

(** src/ipcalc.h ipequal *)
Definition addr_eqb (a b : list Z) : bool := if list_eq_dec Z.eq_dec a b then true else false.

Section Cull.
Variable addr : nat -> list Z.        (* address field of a node *)

(** src/process_package.c:409-425: walk [cull] with predecessor [prev] *)
Fixpoint cull_in (fuel : nat) (a : list Z) (prev cull : option nat) (h : hheap) : hres hheap :=
  match cull with
  | None => HOk h
  | Some c =>
      match fuel with
      | O => HFuel
      | S fuel' =>
          if freed h c then HUB
          else
            let next := hnx h c in
            if negb (addr_eqb (addr c) a) then cull_in fuel' a (Some c) next h
            else
              let first' := if opt_is (hfirst h) c then next else hfirst h in
              match prev with
              | None => HUB
              | Some p => if freed h p then HUB
                          else cull_in fuel' a prev next (mkHH (nat_upd (hnx h) p next) (hprev h) first' (c :: hfreed h))
              end
      end
  end.

(** src/process_package.c:404-426 *)
Fixpoint cull_out (fuel : nat) (neigh : option nat) (h : hheap) : hres hheap :=
  match neigh with
  | None => HOk h
  | Some k =>
      match fuel with
      | O => HFuel
      | S fuel' =>
          if opt_is (hfirst h) k then HOk h
          else if freed h k then HUB
          else hbind (cull_in fuel' (addr k) (hprev h) (hfirst h) h)
                     (fun h' => if freed h' k then HUB else cull_out fuel' (hnx h' k) h')
      end
  end.
End Cull.

(** following the next pointers, as every user of the list does; src/process_package.c:404 *)
Fixpoint follow (fuel : nat) (h : hheap) (p : option nat) : hres (list nat) :=
  match p with
  | None => HOk []
  | Some k => match fuel with
              | O => HFuel
              | S fuel' => if freed h k then HUB else hbind (follow fuel' h (hnx h k)) (fun l => HOk (k :: l))
              end
  end.

(** the node at a pointer, src/process_package.c:404-424 *)
Definition node (s : hacc) (k : nat) : hneigh := nth k (rev (ha_nodes s)) (mkHN 0 0 [] []).
(** the list as built by src/process_package.c:375-398 *)
Definition heap_of (s : hacc) : hheap :=
  mkHH (fun k => match k with O => None | S j => Some j end) (ha_prev s) (ha_first s) [].
(** hello->neighbors, src/process_package.c:404 *)
Definition head_of (s : hacc) : option nat := match length (ha_nodes s) with O => None | S n => Some n end.

(** src/process_package.c:402-427, then the list read off from hello->neighbors *)
Definition cull_list (fuel : nat) (s : hacc) : hres (list hneigh) :=
  let h := heap_of s in
  let r := match ha_prev s, ha_first s with
           | Some _, Some _ => cull_out (fun k => hn_addr (node s k)) fuel (head_of s) h
           | _, _ => HOk h
           end in
  hbind r (fun h' => hbind (follow fuel h' (head_of s)) (fun l => HOk (map (node s) l))).

(** src/process_package.c:318-430 deserialize_hello.  Header fields returned as
    read: vtime byte, originator, ttl, hop count, sequence number, htime byte,
    willingness (the two time bytes are converted by me_to_reltime, see
    Mantissa.v). *)
Record hhdr := mkHdr { h_vtime : Z; h_src : list Z; h_ttl : Z; h_hops : Z; h_seq : Z; h_htime : Z; h_will : Z }.

(** src/process_package.c:318-447 *)
Definition deserialize_hello (fuel : nat) (buf : list Z) : hres (hhdr * list hneigh) :=
  match rd8 buf 0 with
  | None => HOob
  | Some type =>
      if negb (type =? HELLO_MESSAGE) && negb (type =? LQ_HELLO_MESSAGE) then HRet1 []
      else
        match rd8 buf 1, rd16 buf 2, rdn buf 4 ips, rd8 buf (4 + ips), rd8 buf (5 + ips), rd16 buf (6 + ips),
              rd8 buf (10 + ips), rd8 buf (11 + ips) with
        | Some vt, Some size, Some src, Some ttl, Some hops, Some seq, Some ht, Some will =>
            hbind (passes fuel buf (type =? LQ_HELLO_MESSAGE) LINK_ORDER (12 + ips) size (mkHA [] None None))
                  (fun s => hbind (cull_list fuel s) (fun l => HOk (mkHdr vt src ttl hops seq ht will, l)))
        | _, _, _, _, _, _, _, _ => HOob
        end
  end.
End Dec.

(** src/process_package.c:432-447 olsr_input_hello: what happens to the nodes.
    [Tap l]: olsr_hello_tap gets the list (and destroys it at its end,
    olsr_free_hello_packet, src/process_package.c:555); [Drop l]: the function returns
    and the nodes [l] allocated by the decoder are referenced by nobody. *)
Inductive hfate := Tap (l : list hneigh) | Drop (l : list hneigh) | Bad.
(** see above, src/process_package.c:432-447 *)
Definition input_hello (ips : Z) (fuel : nat) (buf : list Z) : hfate :=
  match deserialize_hello ips fuel buf with
  | HOk (_, l) => Tap l
  | HRet1 l => Drop l
  | _ => Bad
  end.

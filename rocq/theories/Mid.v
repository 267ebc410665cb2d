(** Model of the MID set (src/mid_set.c), of the parsing of MID messages
    (src/rebuild_packet.c:63-165) and of the alias learned from a HELLO
    (src/process_package.c:478-500).  Definitions only.

    Simplifications.  Addresses are numbers.  Each hash table is one list with insertion at the head:
    an element always sits in the bucket of its own address and is only searched for by that address.
    A struct mid_address is in two lists, the alias list of its entry and the reverse table; here each
    list has its own copy of the fields alias and main_entry, which never change after insertion, and
    the vtime is kept in the alias list, through which alone it is used.  Of the effects on other
    tables only the calls to the routing table are kept; the neighbor table is asked whether it
    contains an address ([nb]), see LinkSet.v for what insert_mid_alias does to it. *)
From Verif Require Import Base SchedTime Bytes Mantissa.

(** src/mid_set.h:54-63 struct mid_address, as seen from its entry *)
Record malias := mkA { a_id : Z; a_addr : Z; a_vtime : Z }.
(** src/mid_set.h:68-74 struct mid_entry; the timer is the clock at which it fires *)
Record mentry := mkE { e_id : Z; e_main : Z; e_ali : list malias; e_timer : option Z }.
(** src/mid_set.h:54-63 struct mid_address, as seen from the reverse table *)
Record mrev := mkR { r_id : Z; r_addr : Z; r_entry : Z }.
(** src/mid_set.c:61-62 mid_set, reverse_mid_set; [mfresh] numbers the allocations *)
Record mstate := mkM { ents : list mentry; revs : list mrev; mfresh : Z }.
(** src/mid_set.c:70-87 olsr_init_mid_set *)
Definition minit : mstate := mkM [] [] 0.
(** src/routing_table.c olsr_insert_routing_table, olsr_delete_routing_table with the alias and the
    main address *)
Inductive reff := RAdd (alias main : Z) | RDel (alias main : Z).

(** field updates (no counterpart in the source); src/mid_set.h:68-74 *)
Definition set_ali (l : list malias) (e : mentry) : mentry := mkE (e_id e) (e_main e) l (e_timer e).
(** src/mid_set.h:68-74 *)
Definition set_etimer (d : option Z) (e : mentry) : mentry := mkE (e_id e) (e_main e) (e_ali e) d.
(** src/mid_set.h:68-74 *)
Definition upd_ent (i : Z) (f : mentry -> mentry) (l : list mentry) : list mentry := map (fun e => if e_id e =? i then f e else e) l.

(** src/mid_set.c:352-366 mid_lookup_entry_bymain, also the loops at 166-169, 401-408 and 430-433 *)
Definition by_main (a : Z) (s : mstate) : option mentry := find (fun e => e_main e =? a) (ents s).
(** src/mid_set.c:329-344 mid_lookup_main_addr; the outer [None] is a use after free *)
Definition lookup_main (a : Z) (s : mstate) : option (option Z) :=
  match find (fun r => r_addr r =? a) (revs s) with
  | None => Some None
  | Some r => match find (fun e => e_id e =? r_entry r) (ents s) with
              | None => None
              | Some e => Some (Some (e_main e))
              end
  end.
(** src/mid_set.c:374-379 mid_lookup_aliases *)
Definition lookup_aliases (a : Z) (s : mstate) : list malias := match by_main a s with Some e => e_ali e | None => [] end.

(** src/mid_set.c:132-141 olsr_set_mid_timer *)
Definition set_mid_timer (now rel : Z) (e : mentry) : mentry :=
  let w := match e_timer e with Some d => getTimeDue now d | None => -1 end in
  if (w <? 0) || (u32 w <? rel)
  then set_etimer (if rel =? 0 then None else Some (getTimestamp now rel)) e   (* src/scheduler.c:1052-1073, jitter 0 *)
  else e.

(** src/mid_set.c:496-525 olsr_delete_mid_entry *)
Definition delete_entry (e : mentry) (s : mstate) : mstate * list reff :=
  (mkM (filter (fun x => negb (e_id x =? e_id e)) (ents s))
       (filter (fun r => negb (existsb (fun a => a_id a =? r_id r) (e_ali e))) (revs s)) (mfresh s),
   map (fun a => RDel (a_addr a) (e_main e)) (e_ali e)).

(** src/mid_set.c:154-252 insert_mid_tuple for the freshly allocated mid_address [i] *)
Definition insert_tuple (now : Z) (s : mstate) (main i alias vt : Z) : option (mstate * list reff) :=
  match lookup_main alias s with
  | None => None
  | Some reg =>
      if match reg with Some m => m =? main | None => false end then Some (s, [])
      else match by_main main s with
           | Some e =>
               Some (mkM (upd_ent (e_id e) (fun x => set_mid_timer now vt (set_ali (mkA i alias 0 :: e_ali x) x)) (ents s))
                         (mkR i alias (e_id e) :: revs s) (mfresh s), [RAdd alias main])
           | None =>
               let j := mfresh s in
               Some (mkM (set_mid_timer now vt (mkE j main [mkA i alias 0] None) :: ents s)
                         (mkR i alias j :: revs s) (mfresh s + 1), [RAdd alias main])
           end
  end.

(** src/mid_set.c:263-323 insert_mid_alias; [vd] is olsr_validate_address, [nb] whether
    olsr_lookup_neighbor_table_alias finds the address *)
Definition insert_alias (vd nb : Z -> bool) (now : Z) (s : mstate) (main alias vt : Z) : option (mstate * list reff) :=
  if negb (vd alias) then Some (s, [])
  else
    let i := mfresh s in
    let s1 := mkM (ents s) (revs s) (mfresh s + 1) in
    let (s2, l2) := match (if nb alias then by_main alias s1 else None) with
                    | Some e => delete_entry e s1
                    | None => (s1, [])
                    end in
    match insert_tuple now s2 main i alias vt with
    | None => None
    | Some (s3, l3) => Some (s3, l2 ++ l3)
    end.

(** src/mid_set.c:388-408 olsr_update_mid_table *)
Definition update_table (now : Z) (main vt : Z) (s : mstate) : mstate :=
  match by_main main s with
  | Some e => mkM (upd_ent (e_id e) (set_mid_timer now vt) (ents s)) (revs s) (mfresh s)
  | None => s
  end.

(** src/mid_set.c:439-461: what the loop makes of one alias; [None] removes it *)
Definition prune1 (now vt : Z) (decl : list Z) (a : malias) : option malias :=
  if existsb (Z.eqb (a_addr a)) decl then Some (mkA (a_id a) (a_addr a) (getTimestamp now vt))
  else if negb (isTimedOut now (a_vtime a)) && match decl with [] => false | _ => true end then Some a   (* declared_aliases = save_declared_aliases, not NULL *)
  else None.
(** src/mid_set.c:438-487: the loop *)
Fixpoint prune_loop (now vt : Z) (decl : list Z) (l : list malias) : list malias * list malias :=
  match l with
  | [] => ([], [])
  | a :: r => let (k, g) := prune_loop now vt decl r in
              match prune1 now vt decl a with Some a' => (a' :: k, g) | None => (k, a :: g) end
  end.
(** src/mid_set.c:415-488 olsr_prune_aliases *)
Definition prune (now main vt : Z) (decl : list Z) (s : mstate) : mstate * list reff :=
  match by_main main s with
  | None => (s, [])
  | Some e =>
      let (k, g) := prune_loop now vt decl (e_ali e) in
      (mkM (upd_ent (e_id e) (set_ali k) (ents s))
           (filter (fun r => negb (existsb (fun a => a_id a =? r_id r) g)) (revs s)) (mfresh s),
       map (fun a => RDel (a_addr a) main) g)
  end.

(** src/mid_set.c:596-622: the loop over the aliases of a message; [own] are the addresses of our
    interfaces *)
Fixpoint input_loop (own vd nb : Z -> bool) (now main vt : Z) (l : list Z) (s : mstate) : option (mstate * list reff) :=
  match l with
  | [] => Some (s, [])
  | a :: r =>
      if own a then input_loop own vd nb now main vt r s
      else match lookup_main a s with
           | None => None
           | Some (Some _) =>
               match input_loop own vd nb now main vt r s with
               | None => None
               | Some (s', l') => Some (s', RAdd a main :: l')
               end
           | Some None =>
               match insert_alias vd nb now s main a vt with
               | None => None
               | Some (s1, l1) => match input_loop own vd nb now main vt r s1 with
                                  | None => None
                                  | Some (s', l') => Some (s', l1 ++ l')
                                  end
               end
           end
  end.
(** src/mid_set.c:565-630 olsr_input_mid; [sym] is the outcome of check_neighbor_link *)
Definition input_mid (own vd nb : Z -> bool) (sym : bool) (now main vt : Z) (al : list Z) (s : mstate) : option (mstate * list reff) :=
  if negb (vd main) then Some (s, [])
  else if negb sym then Some (s, [])
  else match input_loop own vd nb now main vt al (update_table now main vt s) with
       | None => None
       | Some (s1, l1) => let (s2, l2) := prune now main vt al s1 in Some (s2, l1 ++ l2)
       end.

(** src/process_package.c:478-500 in olsr_hello_tap *)
Definition hello_alias (vd nb : Z -> bool) (now src from vt : Z) (s : mstate) : option (mstate * list reff) :=
  if (src =? from) || negb (vd from) then Some (s, [])
  else match lookup_main from s with
       | None => None
       | Some reg => if match reg with None => true | Some m => src =? m end
                     then insert_alias vd nb now s src from vt
                     else Some (s, [])
       end.

(** src/mid_set.c:98-104 olsr_cleanup_mid *)
Definition cleanup (a : Z) (s : mstate) : mstate * list reff :=
  match by_main a s with Some e => delete_entry e s | None => (s, []) end.
(** src/mid_set.c:109-126 olsr_expire_mid_entry *)
Definition expire_mid (i : Z) (s : mstate) : option (mstate * list reff) :=
  match find (fun e => e_id e =? i) (ents s) with Some e => Some (delete_entry e s) | None => None end.
(** src/mid_set.c:88-96 olsr_delete_all_mid_entries, for the entries in list order *)
Fixpoint delete_list (l : list mentry) (s : mstate) : mstate * list reff :=
  match l with
  | [] => (s, [])
  | e :: r => let (s1, l1) := delete_entry e s in let (s2, l2) := delete_list r s1 in (s2, l1 ++ l2)
  end.
(** see above, src/mid_set.c:88-96 *)
Definition delete_all (s : mstate) : mstate * list reff := delete_list (ents s) s.

(** The events: a MID message (src/mid_set.c:565), a HELLO (src/process_package.c:478), the timer of an
    entry (109), an empty TC (src/tc_set.c:939), the shutdown (src/main.c:253). *)
Inductive mev :=
| MMsg (own vd nb : Z -> bool) (sym : bool) (main vt : Z) (al : list Z)
| MHello (vd nb : Z -> bool) (src from vt : Z)
| MFire (i : Z)
| MCleanup (a : Z)
| MAll.
(** one event at the clock [now]: the functions above; src/mid_set.c *)
Definition mstep (now : Z) (s : mstate) (e : mev) : option (mstate * list reff) :=
  match e with
  | MMsg own vd nb sym main vt al => input_mid own vd nb sym now main vt al s
  | MHello vd nb src from vt => hello_alias vd nb now src from vt s
  | MFire i => expire_mid i s
  | MCleanup a => Some (cleanup a s)
  | MAll => Some (delete_all s)
  end.
(** src/scheduler.c:695-711: only a running timer that is due is fired *)
Definition mpossible (now : Z) (s : mstate) (e : mev) : bool :=
  match e with
  | MFire i => match find (fun e => e_id e =? i) (ents s) with
               | Some e => match e_timer e with Some d => isTimedOut now d | None => false end
               | None => false
               end
  | _ => true
  end.

(** ** src/rebuild_packet.c:63-165 mid_chgestruct.  [b] is the receive buffer from the start of the
    message on; reading beyond it is the outcome [None]. *)
(** src/rebuild_packet.c:84, 126: the number of aliases *)
Definition mid_count (v6 : bool) (size : Z) : Z := Z.quot (size - 12) (if v6 then 16 else 4).
(** src/rebuild_packet.c:98-105, 140-149: the loop; the list grows at its head *)
Fixpoint mid_read (alen : Z) (b : list Z) (off : Z) (n : nat) (acc : list (list Z)) : option (list (list Z)) :=
  match n with
  | O => Some acc
  | S n' => match rdn b off alen with
            | None => None
            | Some a => mid_read alen b (off + alen) n' (a :: acc)
            end
  end.
(** src/rebuild_packet.c:63-165: originator, validity and aliases *)
Definition mid_chgestruct (v6 : bool) (b : list Z) : option (list Z * Z * list (list Z)) :=
  let alen := if v6 then 16 else 4 in
  match rd8 b 1, rd16 b 2, rdn b 4 alen with
  | Some vt, Some size, Some orig =>
      match mid_read alen b (if v6 then 24 else 12) (Z.to_nat (mid_count v6 size)) [] with
      | Some l => Some (orig, me_to_reltime vt, l)
      | None => None
      end
  | _, _, _ => None
  end.

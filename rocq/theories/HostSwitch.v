(** Model of olsr_switch, which connects instances of olsrd on one machine and
    drops packets according to the quality of links (src/olsr_switch/main.c,
    link_rules.c, ohs_cmd.c).  Definitions only.  A connection is identified by
    its address instead of by its place in memory.  The words of a command have
    been read: [None] is the wildcard; IPv4 as in src/olsr_switch/main.c:512. *)
From Verif Require Import Base Parser.

(** src/olsr_switch/olsr_host_switch.h:64-80 *)
Record olink := mkOl { ol_dst : list Z; ol_qual : Z }.
(** see above, src/olsr_switch/olsr_host_switch.h:64-80 *)
Record oconn := mkOc { oc_addr : list Z; oc_sock : Z; oc_links : list olink }.

(** src/olsr_switch/main.c:123-133 get_client_by_addr *)
Definition client (cs : list oconn) (a : list Z) : option oconn := find (fun c => bytes_eqb a (oc_addr c)) cs.
(** src/olsr_switch/main.c:135-202 ohs_init_new_connection *)
Definition connect (cs : list oconn) (a : list Z) (s : Z) : list oconn :=
  match client cs a with Some _ => cs | None => mkOc a s [] :: cs end.
(** src/olsr_switch/main.c:204-237 ohs_delete_connection *)
Fixpoint delete_connection (cs : list oconn) (a : list Z) : list oconn :=
  match cs with
  | [] => []
  | c :: r => if bytes_eqb a (oc_addr c) then r else c :: delete_connection r a
  end.

(** src/olsr_switch/link_rules.c:148-158 get_link *)
Definition get_link (l : list olink) (d : list Z) : option olink := find (fun k => bytes_eqb (ol_dst k) d) l.
(** src/olsr_switch/link_rules.c:106-122 add_link, with the quality that
    src/olsr_switch/ohs_cmd.c:327 or 334 sets *)
Definition add_link (l : list olink) (d : list Z) (q : Z) : list olink := mkOl d q :: l.
(** src/olsr_switch/link_rules.c:124-146 remove_link of what get_link found *)
Fixpoint remove_link (l : list olink) (d : list Z) : list olink :=
  match l with
  | [] => []
  | k :: r => if bytes_eqb (ol_dst k) d then r else k :: remove_link r d
  end.
(** src/olsr_switch/ohs_cmd.c:327: my_link->quality = qual for what get_link found *)
Fixpoint set_quality (l : list olink) (d : list Z) (q : Z) : list olink :=
  match l with
  | [] => []
  | k :: r => if bytes_eqb (ol_dst k) d then mkOl (ol_dst k) (q mod 256) :: r else k :: set_quality r d q
  end.
(** src/olsr_switch/ohs_cmd.c:311-336: one direction of a link *)
Definition one_way (q : Z) (l : list olink) (d : list Z) : list olink :=
  match get_link l d with
  | Some _ => if q =? 100 then remove_link l d else set_quality l d q
  | None => if q =? 100 then l else add_link l d (q mod 256)
  end.
(** writing to the connection with an address; src/olsr_switch/ohs_cmd.c:310-341 *)
Definition on_conn (a : list Z) (f : list olink -> list olink) (cs : list oconn) : list oconn :=
  map (fun c => if bytes_eqb (oc_addr c) a then mkOc (oc_addr c) (oc_sock c) (f (oc_links c)) else c) cs.
(** src/olsr_switch/ohs_cmd.c:310-341: one pair *)
Definition one_pair (bi : bool) (q : Z) (s d : list Z) (cs : list oconn) : list oconn :=
  if bytes_eqb s d then cs
  else
    let cs1 := on_conn s (fun l => one_way q l d) cs in
    if bi then on_conn d (fun l => one_way q l s) cs1 else cs1.
(** the connections that a word of the command stands for, src/olsr_switch/ohs_cmd.c:249-264,
    272-286: None when there is no such client *)
Definition word (cs : list oconn) (w : option (list Z)) : option (list (list Z)) :=
  match w with
  | None => Some (map oc_addr cs)
  | Some a => match client cs a with Some c => Some [oc_addr c] | None => None end
  end.
(** src/olsr_switch/ohs_cmd.c:226-354 ohs_cmd_link; None is the return value -1 *)
Definition cmd_link (bi : bool) (src dst : option (list Z)) (q : Z) (cs : list oconn) : option (list oconn) :=
  match word cs src, word cs dst with
  | Some ss, Some ds =>
      let bi := if match src, dst with None, None => true | _, _ => false end then false else bi in
      if (q <? 0) || (q >? 100) then None
      else Some (fold_left (fun cs s => fold_left (fun cs d => one_pair bi q s d cs) ds cs) ss cs)
  | _, _ => None
  end.

(** src/olsr_random.h:57-79 olsr_random for the 32 bits that are read from
    /dev/urandom; abs(INT_MIN) is undefined: [None] *)
Definition olsr_random (value : Z) : option Z := if value =? - 2 ^ 31 then None else Some (Z.abs value).
(** src/olsr_switch/link_rules.c:70: r for a random number x of olsr_random(), 0
    <= x <= OLSR_RANDOM_MAX = 2^31 - 1 (src/olsr_random.h:55); 100.0 / 2^31 * x is
    exact in double *)
Definition throw (x : Z) : Z := 1 + 100 * x / 2 ^ 31.
(** src/olsr_switch/link_rules.c:55-83 ohs_check_link: the random numbers still
    to come are [rs]; the value and the random numbers left *)
Definition check_link (c : oconn) (d : list Z) (rs : list Z) : bool * list Z :=
  match get_link (oc_links c) d with
  | None => (true, rs)
  | Some k => if ol_qual k =? 0 then (false, rs)
              else match rs with
                   | x :: rs' => (if ol_qual k >? throw x then false else true, rs')
                   | [] => (true, [])
                   end
  end.
(** src/olsr_switch/main.c:255-280: the clients a packet of [c] is sent to *)
Fixpoint receivers (c : oconn) (cs : list oconn) (rs : list Z) : list (list Z) :=
  match cs with
  | [] => []
  | d :: r => let '(ok, rs') := check_link c (oc_addr d) rs in
              if ok && negb (oc_sock c =? oc_sock d) then oc_addr d :: receivers c r rs' else receivers c r rs'
  end.

(** what happens to the switch: a client connects (with a socket that is not in use), leaves, a
    command of the user; src/olsr_switch/main.c:284-351 *)
Inductive oev := OConnect (a : list Z) (s : Z) | OLeave (a : list Z) | OLink (bi : bool) (src dst : option (list Z)) (q : Z).
(** src/olsr_switch/main.c:284-351 *)
Definition ostep (cs : list oconn) (e : oev) : list oconn :=
  match e with
  | OConnect a s => if existsb (fun c => oc_sock c =? s) cs then cs else connect cs a s
  | OLeave a => delete_connection cs a
  | OLink bi src dst q => match cmd_link bi src dst q cs with Some cs' => cs' | None => cs end
  end.
(** src/olsr_switch/main.c:284-351 *)
Definition orun (l : list oev) : list oconn := fold_left ostep l [].

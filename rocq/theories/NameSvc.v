(** The name service plugin (lib/nameservice/src/nameservice.c): parsing of received
    messages, the tables, building of messages, the files written.  Definitions only.

    The receive buffer is a list of bytes, accesses outside are [None].  A hash table is
    the list of its entries (the order of entries of different buckets is not
    represented).  Timers are represented by the validity time that was set last and the
    event of expiry.  Not modelled: debug output, script execution, the time of day in the
    files, Windows, the configuration being read late (name_lazy_init returns early). *)
From Coq Require Import String.
From Verif Require Import Base Bytes NetBuf Parser Compare Regex.

(** lib/nameservice/src/nameservice.h:72-73, 85-91; lib/nameservice/src/nameservice_msg.h:52-58: types *)
Definition MAXNAME := 127.
(** see above, lib/nameservice/src/nameservice.h:72-73, 85-91 *)
Definition HOST := 0.
(** see above, lib/nameservice/src/nameservice.h:72-73, 85-91 *)
Definition FORWARDER := 1.
(** see above, lib/nameservice/src/nameservice.h:72-73, 85-91 *)
Definition SERVICE := 2.
(** see above, lib/nameservice/src/nameservice.h:72-73, 85-91 *)
Definition LATLON := 3.
(** see above, lib/nameservice/src/nameservice.h:72-73, 85-91 *)
Definition MACADDR := 4.

(** configuration: ip_version, main_addr, size of a pointer, my_suffix, the same as a regular
    expression, the test for positions (is_latlon_wellformed, kept abstract), and
    olsr_ip_to_string; lib/nameservice/src/nameservice.c:90, 364-394, 462, 625 *)
Record ncf := mkNF { f_v6 : bool; f_main : list Z; f_ptr : Z; f_suffix : list Z; f_rsuffix : rx; f_latlon : list Z -> bool; f_ipstr : list Z -> list Z }.
(** src/olsr_cfg.h:362 *)
Definition ipsize (c : ncf) : Z := if f_v6 c then 16 else 4.
(** src/ipcalc.h ipequal on the 16 bytes of union olsr_ip_addr *)
Definition ipeq (c : ncf) (a b : list Z) : bool := bytes_eqb (firstn (Z.to_nat (ipsize c)) a) (firstn (Z.to_nat (ipsize c)) b).

(** lib/nameservice/src/nameservice.h:85-91 struct name_entry: ip (16 bytes), type, len, name *)
Record nent := mkN { n_ip : list Z; n_type : Z; n_len : Z; n_name : list Z }.
(** lib/nameservice/src/nameservice.h:104-109 struct db_entry: originator, validity time
    last set, names *)
Record dbent := mkD { d_orig : list Z; d_vt : Z; d_names : list nent }.

(** a C string in memory; lib/nameservice/src/nameservice.c *)
Fixpoint cstr (m : list Z) : option (list Z) :=
  match m with
  | [] => None
  | c :: m' => if c =? 0 then Some [] else option_map (cons c) (cstr m')
  end.
(** lib/nameservice/src/nameservice.c *)
Definition str_at (m : list Z) (p : Z) : option (list Z) := if (0 <=? p) && (p <=? blen m) then cstr (skipn (Z.to_nat p) m) else None.
(** strncmp(a, b, n) == 0 for strings without their ends; lib/nameservice/src/nameservice.c *)
Definition strn_eq (a b : list Z) (n : Z) : bool := bytes_eqb (firstn (Z.to_nat n) a) (firstn (Z.to_nat n) b).

(** ** sscanf *)
(** white space is skipped (lib/nameservice/src/nameservice.c:1585) *)
Fixpoint skip_ws (s : list Z) : list Z :=
  match s with c :: s' => if oneof [32; 9; 10; 11; 12; 13] c then skip_ws s' else s | [] => [] end.
(** digits of a number in a base, at most [w] of them; number of digits, value, rest; sscanf in
    lib/nameservice/src/nameservice.c *)
Definition dig (base : Z) (c : Z) : option Z :=
  if digitc c then if c - 48 <? base then Some (c - 48) else None
  else if (base =? 16) && (97 <=? c) && (c <=? 102) then Some (c - 87)
  else if (base =? 16) && (65 <=? c) && (c <=? 70) then Some (c - 55) else None.
(** see above, lib/nameservice/src/nameservice.c:1585 *)
Fixpoint digits (base : Z) (w : nat) (s : list Z) (v : Z) (k : Z) : Z * Z * list Z :=
  match w, s with
  | S w', c :: s' => match dig base c with Some d => digits base w' s' (v * base + d) (k + 1) | None => (k, v, s) end
  | _, _ => (k, v, s)
  end.
(** %02x into an int: white space, sign, digits; at most two characters of them; "0x" is
    read as 0 *)
Definition scan_x (s : list Z) : option (Z * list Z) :=
  match skip_ws s with
  | 48 :: x :: s' => if oneof (str "xX") x then Some (0, s')
                     else let '(k, v, r) := digits 16 1 (x :: s') 0 1 in Some (v, r)
  | c :: s' =>
      if oneof (str "+-") c
      then let '(k, v, r) := digits 16 1 s' 0 0 in if k =? 0 then None else Some (if c =? 45 then - v else v, r)
      else let '(k, v, r) := digits 16 2 (c :: s') 0 0 in if k =? 0 then None else Some (v, r)
  | [] => None
  end.
(** %d: strtol saturates at 64 bits, the result is stored as an int *)
Definition as_int (v : Z) : Z := let u := u32 v in if u <? 2 ^ 31 then u else u - 2 ^ 32.
(** see above, lib/nameservice/src/nameservice.c:1585 *)
Definition scan_d (s : list Z) : option (Z * list Z) :=
  let fin (neg : bool) (s : list Z) := let '(k, v, r) := digits 10 (length s) s 0 0 in
    if k =? 0 then None else Some (as_int (if neg then Z.max (- v) (- 2 ^ 63) else Z.min v (2 ^ 63 - 1)), r) in
  match skip_ws s with
  | c :: s' => if oneof (str "+-") c then fin (c =? 45) s' else fin false (c :: s')
  | [] => None
  end.
(** a character of the format; sscanf in lib/nameservice/src/nameservice.c *)
Definition lit (c : Z) (s : list Z) : option (list Z) := match s with x :: s' => if x =? c then Some s' else None | [] => None end.
(** lib/nameservice/src/nameservice.c:1578-1589 is_mac_wellformed: the six numbers,
    separated by colons, then a comma and d; a number that is not reached stays -1 *)
Fixpoint scan_mac (n : nat) (s : list Z) : bool :=
  match n with
  | O => match scan_d s with Some (d, _) => (0 <=? d) && (d <=? 65535) | None => false end
  | S n' => match scan_x s with
            | Some (x, s') => match lit (if (n' =? 0)%nat then 44 else 58) s' with Some s'' => (0 <=? x) && scan_mac n' s'' | None => false end
            | None => false
            end
  end.
(** see above, lib/nameservice/src/nameservice.c:1578-1589 *)
Definition mac_ok (s : list Z) : bool := scan_mac 6 s.
(** lib/nameservice/src/nameservice.c:1594-1601 is_latlon_wellformed, for plain decimal
    numbers (no exponents, hexadecimal numbers, infinities): %f,%f,%d.  Only used as a
    value of [f_latlon]. *)
Definition scan_f (s : list Z) : option (bool * list Z) :=
  let fin (s : list Z) := let '(k, v, r) := digits 10 (length s) s 0 0 in
    match r with
    | 46 :: r' => let '(k2, v2, r2) := digits 10 (length r') r' 0 0 in if k + k2 =? 0 then None else Some (negb (v =? 0) || negb (v2 =? 0), r2)
    | _ => if k =? 0 then None else Some (negb (v =? 0), r)
    end in
  match skip_ws s with
  | c :: s' => if oneof (str "+-") c then fin s' else fin (c :: s')
  | [] => None
  end.
(** see above, lib/nameservice/src/nameservice.c:1594-1601 *)
Definition latlon_scan (s : list Z) : bool :=
  match scan_f s with
  | Some (true, s1) =>
      match lit 44 s1 with
      | Some s2 =>
          match scan_f s2 with
          | Some (true, s3) => match lit 44 s3 with Some s4 => match scan_d s4 with Some (d, _) => negb (d =? -1) | None => false end | None => false end
          | _ => false
          end
      | None => false
      end
  | _ => false
  end.

(** ** Received messages *)
(** lib/nameservice/src/nameservice.c:827-830: the tests by type *)
Definition malformed (c : ncf) (typ : Z) (name : list Z) : bool :=
  ((typ =? HOST) && negb (matches rx_name name)) || ((typ =? SERVICE) && negb (matches (rx_service (f_rsuffix c)) name)) ||
  ((typ =? MACADDR) && negb (mac_ok name)) || ((typ =? LATLON) && negb (f_latlon c name)).
(** lib/nameservice/src/nameservice.c:844-880: an entry of the same name (or address), from
    the front; [None]: not known.  Otherwise the list, and whether it has changed. *)
Fixpoint known (c : ncf) (typ len : Z) (ip name : list Z) (l : list nent) : option (list nent * bool) :=
  match l with
  | [] => None
  | e :: l' =>
      if ((typ =? HOST) || (typ =? SERVICE)) && strn_eq (n_name e) name len then Some (l, false)
      else if (typ =? FORWARDER) && ipeq c (n_ip e) ip then Some (l, false)
      else if typ =? LATLON
      then let a := negb (strn_eq (n_name e) name len) in
           let b := negb (ipeq c (n_ip e) ip) in
           Some (mkN (if b then ip else n_ip e) (n_type e) (n_len e) (if a then name else n_name e) :: l', a || b)
      else option_map (fun '(r, ch) => (e :: r, ch)) (known c typ len ip name l')
  end.
(** lib/nameservice/src/nameservice.c:814-899 decap_namemsg: struct name at [p]; the string
    is read by the tests of lines 827-830, and by strlen in line 836 unless the length is
    too large *)
Definition decap (c : ncf) (m : list Z) (p : Z) (l : list nent) : option (list nent * bool) :=
  match rd16 m p, rd16 m (p + 2), rdn m (p + 4) 16 with
  | Some typ, Some len, Some ip =>
      if (typ =? FORWARDER) && (len >? MAXNAME) then Some (l, false)
      else match str_at m (p + 20) with
           | None => None
           | Some name =>
               if malformed c typ name then Some (l, false)
               else if (len >? MAXNAME) || negb (blen name =? len) || oneof name 92 || oneof name 39 then Some (l, false)
               else match known c typ len ip name l with
                    | Some r => Some r
                    | None => Some (mkN ip typ len name :: l, true)
                    end
           end
  | _, _, _ => None
  end.
(** the name is decoded into every entry of the originator (there is at most one);
    lib/nameservice/src/nameservice.c:976-995 *)
Fixpoint into (c : ncf) (m : list Z) (p : Z) (orig : list Z) (vt : Z) (t : list dbent) : option (list dbent * bool * bool) :=
  match t with
  | [] => Some ([], false, false)
  | d :: t' =>
      if ipeq c orig (d_orig d)
      then match decap c m p (d_names d) with
           | None => None
           | Some (ns, ch) => match into c m p orig vt t' with Some (r, _, ch2) => Some (mkD (d_orig d) vt ns :: r, true, ch || ch2) | None => None end
           end
      else match into c m p orig vt t' with Some (r, f, ch) => Some (d :: r, f, ch) | None => None end
  end.
(** lib/nameservice/src/nameservice.c:960-1013 insert_new_name_in_list *)
Definition insert_name (c : ncf) (m : list Z) (p : Z) (orig : list Z) (vt : Z) (t : list dbent) : option (list dbent * bool) :=
  match into c m p orig vt t with
  | None => None
  | Some (t', true, ch) => Some (t', ch)
  | Some (t', false, ch) =>
      match decap c m p [] with Some (ns, ch2) => Some (t' ++ [mkD orig vt ns], ch || ch2) | None => None end
  end.
(** lib/nameservice/src/nameservice.c:108-127: the tables with their flags, by type *)
Record nst := mkS { tab : Z -> list dbent; chg : Z -> bool }.
(** see above, lib/nameservice/src/nameservice.c:108-127 *)
Definition upd {A} (f : Z -> A) (k : Z) (v : A) : Z -> A := fun x => if x =? k then v else f x.
(** lib/nameservice/src/nameservice.c:924-954: the loop *)
Fixpoint names_loop (c : ncf) (m : list Z) (orig : list Z) (vt : Z) (n : nat) (pos endp : Z) (st : nst) : option nst :=
  match n with
  | O => Some st
  | S n' =>
      if pos <? endp
      then match rd16 m pos with
           | None => None
           | Some typ =>
               match (if (0 <=? typ) && (typ <=? 4)
                      then match insert_name c m pos orig vt (tab st typ) with
                           | Some (t, ch) => Some (mkS (upd (tab st) typ t) (upd (chg st) typ (chg st typ || ch)))
                           | None => None
                           end
                      else Some st) with
               | None => None
               | Some st' => match rd16 m (pos + 2) with
                             | Some len => names_loop c m orig vt n' (pos + 20 + (1 + Z.lor (len - 1) 3)) endp st'
                             | None => None
                             end
               end
           end
      else Some st
  end.
(** lib/nameservice/src/nameservice.c:904-957 update_name_entry: struct namemsg at [p] *)
Definition update_names (c : ncf) (m : list Z) (p size : Z) (orig : list Z) (vt : Z) (st : nst) : option nst :=
  match rd16 m p with
  | None => None
  | Some v =>
      if negb (v =? 1) then Some st
      else match rd16 m (p + 2) with
           | None => None
           | Some n => names_loop c m orig vt (Z.to_nat n) (p + 4) (p + 4 + size - f_ptr c) st
           end
  end.
(** an address in union olsr_ip_addr; the rest of the local variable of line 675 is not
    initialised: [junk] *)
Definition in_union (c : ncf) (a junk : list Z) : list Z := if f_v6 c then a else a ++ junk.
(** lib/nameservice/src/nameservice.c:670-721 olsr_parser; message at [p]; [sym]: the
    neighbour is symmetric, [vtime]: me_to_reltime; state and whether to forward *)
Definition ns_parser (c : ncf) (junk : list Z) (vtime : Z -> Z) (sym : bool) (m : list Z) (p : Z) (st : nst) : option (nst * bool) :=
  match rd8 m (p + 1), rd16 m (p + 2), rdn m (p + 4) (ipsize c) with
  | Some vt, Some size, Some orig =>
      if bytes_eqb orig (f_main c) then Some (st, false)
      else if negb sym then Some (st, false)
      else match update_names c m (p + 8 + ipsize c) size (in_union c orig junk) (vtime vt) st with
           | Some st' => Some (st', true)
           | None => None
           end
  | _, _, _ => None
  end.
(** lib/nameservice/src/nameservice.c:576-604, 1402-1438: expiry of the entry of an
    originator; the flags of the types of its names are set *)
Definition expire (c : ncf) (typ : Z) (orig : list Z) (st : nst) : nst :=
  let gone := flat_map d_names (filter (fun d => ipeq c orig (d_orig d)) (tab st typ)) in
  mkS (upd (tab st) typ (filter (fun d => negb (ipeq c orig (d_orig d))) (tab st typ)))
      (fun k => chg st k || existsb (fun e => n_type e =? k) gone).

(** ** Own messages *)
(** lib/nameservice/src/nameservice.c:793-808 create_packet: what is appended *)
Definition create (e : nent) : list Z :=
  net16 (n_type e) ++ net16 (n_len e) ++ n_ip e ++ firstn (Z.to_nat (n_len e)) (n_name e) ++ repeat 0 (Z.to_nat (- n_len e mod 4)).
(** lib/nameservice/src/nameservice.c:729-785 encap_namemsg: names, forwarders, services,
    macs, position in this order; written to a buffer at [p], the result is its length *)
Definition encap (b : list Z) (p : Z) (es : list nent) : option (list Z * Z) :=
  let body := flat_map create es in
  match wr b (p + 4) body with
  | None => None
  | Some b' => match wr b' (p + 2) (net16 (Z.of_nat (length es))) with
               | None => None
               | Some b'' => match wr b'' p (net16 1) with Some b3 => Some (b3, 4 + blen body) | None => None end
               end
  end.
(** lib/nameservice/src/nameservice.c:609-665 olsr_namesvc_gen: the message in the buffer of
    10240 bytes of uninitialised memory [buf] *)
Definition ns_gen (c : ncf) (vt seqno : Z) (buf : list Z) (es : list nent) : option (list Z) :=
  match wr buf 0 [130; vt] with
  | None => None
  | Some b =>
      match wr b 4 (f_main c ++ [255; 0] ++ net16 seqno) with
      | None => None
      | Some b => match encap b (8 + ipsize c) es with
                  | None => None
                  | Some (b, n) => match wr b 2 (net16 (8 + ipsize c + n)) with Some b => rdn b 0 (8 + ipsize c + n) | None => None end
                  end
      end
  end.

(** lib/nameservice/src/nameservice.c:305-321 add_name_to_list: strndup, the length *)
Definition own_entry (value : list Z) (typ : Z) (ip : list Z) : nent :=
  let n := firstn (Z.to_nat MAXNAME) value in mkN ip typ (blen n) n.

(** ** Files *)
(** decimal numbers, printf %i; lib/nameservice/src/nameservice.c *)
Fixpoint dec (fuel : nat) (n : Z) (acc : list Z) : list Z :=
  match fuel with O => acc | S f => let acc' := (48 + n mod 10) :: acc in if n <? 10 then acc' else dec f (n / 10) acc' end.
(** lib/nameservice/src/nameservice.c:1131-1158: the lines of one name; [aliases]: of its
    address (mid_lookup_aliases), numbered from 1 in an unsigned short *)
Fixpoint mid_lines (c : ncf) (orig name : list Z) (k : Z) (al : list (list Z)) : list Z :=
  match al with
  | [] => []
  | a :: al' => f_ipstr c a ++ [9] ++ str "mid" ++ dec 5 k [] ++ [46] ++ name ++ f_suffix c ++ str "	# " ++ f_ipstr c orig ++ str " (mid #" ++ dec 5 k [] ++ str ")" ++ [10] ++
                mid_lines c orig name (u16 (k + 1)) al'
  end.
(** see above, lib/nameservice/src/nameservice.c:1131-1158 *)
Definition host_lines (c : ncf) (aliases : list Z -> list (list Z)) (orig : list Z) (e : nent) : list Z :=
  f_ipstr c (n_ip e) ++ [9] ++ n_name e ++ f_suffix c ++ str "	# " ++ f_ipstr c orig ++ [10] ++ mid_lines c orig (n_name e) 1 (aliases (n_ip e)).
(** the part of the hosts file for received names, lib/nameservice/src/nameservice.c:1114-1164 *)
Definition hosts_part (c : ncf) (aliases : list Z -> list (list Z)) (st : nst) : list Z :=
  flat_map (fun d => flat_map (host_lines c aliases (d_orig d)) (d_names d)) (tab st HOST).
(** lib/nameservice/src/nameservice.c:1222-1241: received services or macs *)
Definition services_part (c : ncf) (macs : bool) (st : nst) : list Z :=
  flat_map (fun d => flat_map (fun e => n_name e ++ [9; 9; 35] ++ f_ipstr c (d_orig d) ++ [10]) (d_names d)) (tab st (if macs then MACADDR else SERVICE)).
(** lib/nameservice/src/mapwrite.c:140-157: the positions of nodes; [nm]: lookup_name_latlon *)
Definition latlon_part (c : ncf) (nm : list Z -> list Z) (st : nst) : list Z :=
  flat_map (fun d => match d_names d with
                     | e :: _ => str "Node('" ++ f_ipstr c (d_orig d) ++ str "'," ++ n_name e ++ str ",'" ++ f_ipstr c (n_ip e) ++ str "','" ++ nm (d_orig d) ++ str "');" ++ [10]
                     | [] => []
                     end) (tab st LATLON).

(** ** Name servers *)
(** a route as used here: destination, cost and hops and originator of the best path;
    src/routing_table.h:82-100 *)
Record rte := mkRt { r_dst : list Z; r_cost : Z; r_hops : Z; r_orig : list Z }.
(** src/routing_table.c olsr_cmp_rt, olsr_cmp_rtp (607-654) without an internet gateway *)
Definition cmp_rt (a b : rte) : bool :=
  if r_cost a <? r_cost b then true else if r_cost a >? r_cost b then false
  else if r_hops a <? r_hops b then true else if r_hops a >? r_hops b then false
  else memcmp (r_orig a) (r_orig b) <? 0.
(** lib/nameservice/src/nameservice.c:1277-1307 select_best_nameserver: one step of the
    loop over the array, which is given from index 0; a NULL first pointer is [None] *)
Fixpoint percolate (n : nat) (a : list (option rte)) : option (list (option rte)) :=
  match n, a with
  | O, _ => Some a
  | S n', x :: y :: a' =>
      match y with
      | None => option_map (cons y) (percolate n' (x :: a'))
      | Some ry => match x with
                   | None => None
                   | Some rx => if cmp_rt rx ry then option_map (cons y) (percolate n' (x :: a')) else option_map (cons x) (percolate n' (y :: a'))
                   end
      end
  | _, _ => None
  end.
(** lib/nameservice/src/nameservice.c:1332-1357: all forwarders in order *)
Fixpoint collect (route : list Z -> option rte) (ips : list (list Z)) (a : list (option rte)) : option (list (option rte)) :=
  match ips with
  | [] => Some a
  | ip :: ips' =>
      match route ip with
      | None => collect route ips' a
      | Some r => match percolate 3 (Some r :: tl a) with Some a' => collect route ips' a' | None => None end
      end
  end.
(** lib/nameservice/src/nameservice.c:1313-1396 write_resolv_file: the addresses in the order
    of the file; no file is written if the last element is NULL (line 1360) *)
Definition resolv (route : list Z -> option rte) (st : nst) : option (list (list Z)) :=
  match collect route (flat_map (fun d => map n_ip (d_names d)) (tab st FORWARDER)) [None; None; None; None] with
  | Some a => Some (flat_map (fun x => match x with Some r => [r_dst r] | None => [] end) (rev a))
  | None => None
  end.

(** ** Own entries *)
(** lib/nameservice/src/nameservice.c:1444-1492 allowed_ip: addresses of the interfaces,
    networks announced; [mask]: the address under the netmask of a length *)
Definition allowed_ip (c : ncf) (mask : list Z -> Z -> list Z) (ifs : list (list Z)) (hna : list (list Z * Z)) (a : list Z) : bool :=
  existsb (fun i => ipeq c i a) ifs || existsb (fun '(p, n) => negb (n =? 0) && ipeq c (mask a n) p) hna.
(** lib/nameservice/src/nameservice.c:1523-1562 allowed_hostname_or_ip_in_service: [h] is the
    host part; [pton]: inet_pton.  The length of the comparison is a size_t. *)
Definition allowed_host (c : ncf) (mask : list Z -> Z -> list Z) (ifs : list (list Z)) (hna : list (list Z * Z)) (pton : list Z -> option (list Z)) (names : list nent) (h : list Z) : bool :=
  existsb (fun e => let k := n_len e - blen (f_suffix c) in if k <? 0 then bytes_eqb (n_name e) h else strn_eq (n_name e) h k) names ||
  match pton h with Some a => allowed_ip c mask ifs hna a | None => false end.

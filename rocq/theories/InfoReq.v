(** Model of the handling of a request by the information plugins: lib/info/olsrd_info.c
    ipc_action and the functions it uses to sanitise the request, with the commands of
    lib/jsoninfo.

    The request buffer is a list of bytes (1024 of them), pointers into it are offsets,
    and sizes are taken modulo 2^64.  An access outside of the buffer is [None], and so is
    a loop that does not end within [FUEL] iterations.  isspace is that of the C locale.
    Not modelled: accept, select, recv (the received bytes are given), Windows. *)
From Coq Require Import String.
From Verif Require Import Base Bytes Regex.

(** lib/info/olsrd_info.c:773 *)
Definition BUFSIZE : Z := 1024.
(** more than the turns of any loop over the buffer of lib/info/olsrd_info.c:773 *)
Definition FUEL : nat := 1100.
(** size_t, lib/info/olsrd_info.c:605-760 *)
Definition u64 (x : Z) : Z := x mod 2 ^ 64.

(** b[i]; lib/info/olsrd_info.c:605-760 *)
Definition rdb (b : list Z) (i : Z) : option Z := if (0 <=? i) && (i <? blen b) then Some (nth (Z.to_nat i) b 0) else None.
(** b[i] = v; lib/info/olsrd_info.c:605-760 *)
Definition wrb (b : list Z) (i v : Z) : option (list Z) :=
  if (0 <=? i) && (i <? blen b) then Some (firstn (Z.to_nat i) b ++ v :: skipn (Z.to_nat i + 1) b) else None.
(** the offset [p + len - 1] for a size_t [len]: pointer arithmetic wraps;
    lib/info/olsrd_info.c:628 *)
Definition before (p len : Z) : Z := if len =? 0 then p - 1 else if len <? 2 ^ 63 then p + len - 1 else p + len - 1 - 2 ^ 64.
(** the offset [p + len]; lib/info/olsrd_info.c:616-640 *)
Definition plus (p len : Z) : Z := if len <? 2 ^ 63 then p + len else p + len - 2 ^ 64.

(** isspace in the C locale; lib/info/olsrd_info.c:616 *)
Definition isspace (c : Z) : bool := (c =? 32) || ((9 <=? c) && (c <=? 13)).
(** tolower in the C locale; strncasecmp in lib/info/olsrd_info.c:673 *)
Definition tolower (c : Z) : Z := if (65 <=? c) && (c <=? 90) then c + 32 else c.

(** a request: buffer, pointer, length; lib/info/olsrd_info.c:605-760 *)
Definition rq := option (list Z * Z * Z).

(** lib/info/olsrd_info.c:101-120 skipMultipleSlashes with a length *)
Fixpoint skip_slashes_loop (fuel : nat) (b : list Z) (r len : Z) : rq :=
  match fuel with
  | O => None
  | S f => match rdb b (r + 1) with
           | Some c => if c =? 47 then skip_slashes_loop f b (r + 1) (u64 (len - 1)) else Some (b, r, len)
           | None => None end
  end.
(** see above, lib/info/olsrd_info.c:101-120 *)
Definition skipMultipleSlashes (b : list Z) (r len : Z) : rq :=
  if len =? 0 then Some (b, r, len)
  else match rdb b r with
       | Some c0 =>
           if (c0 =? 0) || negb (c0 =? 47) then Some (b, r, len)
           else match rdb b (r + 1) with
                | Some c1 => if negb (c1 =? 47) then Some (b, r, len) else skip_slashes_loop FUEL b r len
                | None => None end
       | None => None end.

(** lib/info/olsrd_info.c:611-621 skipLeadingWhitespace *)
Fixpoint skip_ws_loop (fuel : nat) (b : list Z) (r len : Z) : rq :=
  match fuel with
  | O => None
  | S f => match rdb b r with
           | Some c => if isspace c && negb (c =? 0) then skip_ws_loop f b (r + 1) (u64 (len - 1)) else Some (b, r, len)
           | None => None end
  end.
(** see above, lib/info/olsrd_info.c:611-621 *)
Definition skipLeadingWhitespace (b : list Z) (r len : Z) : rq := if len =? 0 then Some (b, r, len) else skip_ws_loop FUEL b r len.

(** lib/info/olsrd_info.c:623-645: the loops of stripTrailingWhitespace and
    stripTrailingSlashes; [p] is the character test *)
Fixpoint strip_loop (p : Z -> bool) (fuel : nat) (b : list Z) (r len : Z) : rq :=
  match fuel with
  | O => None
  | S f => match rdb b (before r len) with
           | Some c =>
               if p c && negb (c =? 0)
               then match wrb b (plus r (u64 (len - 1))) 0 with
                    | Some b' => strip_loop p f b' r (u64 (len - 1))
                    | None => None end
               else Some (b, r, len)
           | None => None end
  end.
(** lib/info/olsrd_info.c:623-633 stripTrailingWhitespace *)
Definition stripTrailingWhitespace (b : list Z) (r len : Z) : rq := if len =? 0 then Some (b, r, len) else strip_loop isspace FUEL b r len.
(** lib/info/olsrd_info.c:635-645 stripTrailingSlashes *)
Definition stripTrailingSlashes (b : list Z) (r len : Z) : rq := if len =? 0 then Some (b, r, len) else strip_loop (Z.eqb 47) FUEL b r len.

(** lib/info/olsrd_info.c:647-664 cutAtFirstEOL *)
Fixpoint cut_loop (fuel : nat) (b : list Z) (s l : Z) : option (Z * Z) :=
  match fuel with
  | O => None
  | S f => match rdb b s with
           | Some c => if negb ((c =? 10) || (c =? 13)) && negb (c =? 0) then cut_loop f b (s + 1) (l + 1) else Some (s, l)
           | None => None end
  end.
(** see above, lib/info/olsrd_info.c:647-664 *)
Definition cutAtFirstEOL (b : list Z) (r len : Z) : rq :=
  if len =? 0 then Some (b, r, len)
  else match cut_loop FUEL b r 0 with
       | Some (s, l) =>
           match rdb b s with
           | Some c => if (c =? 10) || (c =? 13) then match wrb b s 0 with Some b' => Some (b', r, l) | None => None end else Some (b, r, l)
           | None => None end
       | None => None end.

(** strncasecmp of the text at [r] with [t] for the length of [t]: [Some true] if equal;
    reading stops at the first difference; lib/info/olsrd_info.c:673-676, 707, 725 *)
Fixpoint caseeq (b : list Z) (r : Z) (t : list Z) : option bool :=
  match t with
  | [] => Some true
  | c :: t' => match rdb b r with
               | Some x => if tolower x =? tolower c then caseeq b (r + 1) t' else Some false
               | None => None end
  end.

(** lib/info/olsrd_info.c:666-694 parseRequest: also add_headers *)
Definition parseRequest (b : list Z) (r len : Z) (hdr : bool) : option (list Z * Z * Z * bool) :=
  if len =? 0 then Some (b, r, len, hdr)
  else
    let no := Some (b, r, len, false) in
    if len <? 14 then no
    else match caseeq b r (str "GET") with
         | Some true =>
             match rdb b (r + 3), rdb b (plus r (u64 (len - 9))) with
             | Some c3, Some c9 =>
                 if negb (isspace c3) || negb (isspace c9) then no
                 else match caseeq b (plus r (u64 (len - 8))) (str "HTTP/1.") with
                      | Some true =>
                          match rdb b (before r len) with
                          | Some c => if negb (c =? 49) && negb (c =? 48) then no
                                      else match wrb b (plus (r + 4) (u64 (len - 13))) 0 with
                                           | Some b' => Some (b', r + 4, u64 (len - 13), true)
                                           | None => None end
                          | None => None end
                      | Some false => no
                      | None => None end
             | _, _ => None end
         | Some false => no
         | None => None end.

(** lib/info/olsrd_info.c:696-744 checkCommandPrefixes (lib/info/info_types.h:127-130).
    strcasecmp(req, "/http") with length 5 compares the terminating byte as well. *)
Definition checkCommandPrefixes (b : list Z) (r len : Z) (hdr : bool) : option (list Z * Z * Z * bool) :=
  if len =? 0 then Some (b, r, len, hdr)
  else
    match (if 6 <=? len then caseeq b r (str "/http/") else Some false) with
    | None => None
    | Some true => Some (b, r + 5, u64 (len - 5), true)
    | Some false =>
        match (if len =? 5 then caseeq b r (str "/http" ++ [0]) else Some false) with
        | None => None
        | Some true => match wrb b r 0 with Some b' => Some (b', r, 0, true) | None => None end
        | Some false =>
            match (if 7 <=? len then caseeq b r (str "/plain/") else Some false) with
            | None => None
            | Some true => Some (b, r + 6, u64 (len - 6), false)
            | Some false =>
                match (if len =? 6 then caseeq b r (str "/plain" ++ [0]) else Some false) with
                | None => None
                | Some true => match wrb b r 0 with Some b' => Some (b', r, 0, false) | None => None end
                | Some false => Some (b, r, len, hdr)
                end
            end
        end
    end.

(** lib/info/olsrd_info.c:862-889: termination and sanitising; [d] are the received bytes
    (at most 1024), [junk] is what the buffer contains after them *)
Definition terminate (d junk : list Z) : option (list Z) :=
  let b := firstn (Z.to_nat BUFSIZE) (d ++ junk) in
  if blen d =? 0 then wrb b 0 0 else if blen d <? BUFSIZE then wrb b (blen d) 0 else wrb b (BUFSIZE - 1) 0.
(** see above, lib/info/olsrd_info.c:862-889 *)
Definition sanitise (d junk : list Z) (hdr : bool) : option (list Z * Z * Z * bool) :=
  match terminate d junk with
  | None => None
  | Some b =>
      if blen d =? 0 then Some (b, 0, 0, hdr)
      else
        match cutAtFirstEOL b 0 (blen d) with None => None | Some (b1, r1, l1) =>
        match stripTrailingWhitespace b1 r1 l1 with None => None | Some (b2, r2, l2) =>
        match skipLeadingWhitespace b2 r2 l2 with None => None | Some (b3, r3, l3) =>
        match parseRequest b3 r3 l3 hdr with None => None | Some (b4, r4, l4, h4) =>
        match stripTrailingWhitespace b4 r4 l4 with None => None | Some (b5, r5, l5) =>
        match stripTrailingSlashes b5 r5 l5 with None => None | Some (b6, r6, l6) =>
        match skipLeadingWhitespace b6 r6 l6 with None => None | Some (b7, r7, l7) =>
        match skipMultipleSlashes b7 r7 l7 with None => None | Some (b8, r8, l8) =>
        match checkCommandPrefixes b8 r8 l8 h4 with None => None | Some (b9, r9, l9, h9) =>
        match skipMultipleSlashes b9 r9 l9 with None => None | Some (b10, r10, l10) => Some (b10, r10, l10, h9)
        end end end end end end end end end end
  end.

(** the C string at [r]; lib/info/olsrd_info.c:865-868 *)
Fixpoint cstr (fuel : nat) (b : list Z) (r : Z) : option (list Z) :=
  match fuel with
  | O => None
  | S f => match rdb b r with
           | Some c => if c =? 0 then Some [] else match cstr f b (r + 1) with Some s => Some (c :: s) | None => None end
           | None => None end
  end.

(** lib/info/info_types.h:80-123 *)
Definition SIW_EVERYTHING := 2 ^ 24 - 1.
(** lib/jsoninfo/src/olsrd_jsoninfo.c:121-211 get_supported_commands_mask, isCommand, in
    the order of lib/info/olsrd_info.c:122-157 SIW_ENTRIES_ALL *)
Definition commands : list (Z * list Z) :=
  [(1, str "/neighbors"); (2, str "/links"); (4, str "/routes"); (8, str "/hna"); (16, str "/mid"); (32, str "/topology"); (64, str "/gateways");
   (128, str "/interfaces"); (256, str "/2hop"); (512, str "/sgw"); (1024, str "/pudposition"); (2047, str "/runtime"); (3, str "/neighbours");
   (2048, str "/version"); (4096, str "/config"); (8192, str "/plugins"); (14336, str "/startup"); (16383, str "/all"); (16384, str "/olsrd.conf")].
(** see above, lib/jsoninfo/src/olsrd_jsoninfo.c:121-211 *)
Definition supported_mask : Z := 32767.
(** strcmp; lib/info/olsrd_info.c:270-300 *)
Fixpoint streq (a b : list Z) : bool :=
  match a, b with [], [] => true | x :: a', y :: b' => (x =? y) && streq a' b' | _, _ => false end.
(** lib/info/olsrd_info.c:236-250 determine_single_action *)
Definition determine_single_action (s : list Z) : Z :=
  match find (fun e => negb (Z.land (fst e) supported_mask =? 0) && streq s (snd e)) commands with Some e => fst e | None => 0 end.

(** lib/info/olsrd_info.c:101-120 skipMultipleSlashes without a length, on a string *)
Fixpoint collapse (s : list Z) : list Z :=
  match s with
  | a :: (b :: _) as t => if (a =? 47) && (b =? 47) then collapse t else s
  | _ => s
  end.
(** strchr: the string before the first slash, and the string from there;
    lib/info/olsrd_info.c:287 *)
Fixpoint upto_slash (s : list Z) : list Z * option (list Z) :=
  match s with
  | [] => ([], None)
  | c :: s' => if c =? 47 then ([], Some s) else let (a, t) := upto_slash s' in (c :: a, t)
  end.
(** lib/info/olsrd_info.c:252-314 determine_action for composite commands, on the C string
    of the request (the byte that is overwritten meanwhile gets restored) *)
Fixpoint action_loop (fuel : nat) (s : list Z) (action : Z) : option Z :=
  match fuel with
  | O => None
  | S f =>
      match collapse s with
      | [] => Some action
      | c :: s' =>
          let (seg, tl) := upto_slash s' in
          let r := determine_single_action (c :: seg) in
          if r =? 0 then Some 0
          else match tl with
               | None => Some (Z.lor action r)
               | Some t => action_loop f t (Z.lor action r) end
      end
  end.
(** see above, lib/info/olsrd_info.c:252-314 *)
Definition determine_action (s : list Z) : option Z := match s with [] => Some 0 | _ => action_loop FUEL s 0 end.

(** lib/info/http_headers.h:53-60 status codes *)
Definition HTTP_OK := 200.
(** see above, lib/info/http_headers.h:53-60 *)
Definition HTTP_FORBIDDEN := 403.
(** see above, lib/info/http_headers.h:53-60 *)
Definition HTTP_NOTFOUND := 404.
(** see above, lib/info/http_headers.h:53-60 *)
Definition HTTP_TOO_LARGE := 413.
(** see above, lib/info/http_headers.h:53-60 *)
Definition HTTP_SERVER_ERROR := 500.
(** what send_info gets to do: add_headers, send_what, status; lib/info/olsrd_info.c:470-600 *)
Record reply := mkRep { p_headers : bool; p_what : Z; p_status : Z }.

(** configuration: ip_version, accept_ip, allow_localhost, http_headers; addresses are numbers
    (in host order); lib/info/olsrd_info.c:900-909 *)
Record icfg := mkIC { i_v6 : bool; i_accept : Z; i_local : bool; i_headers : bool }.
(** INADDR_ANY and in6addr_any, lib/info/olsrd_info.c:900, 906 *)
Definition ADDR_ANY := 0.
(** INADDR_LOOPBACK, lib/info/olsrd_info.c:902-903 *)
Definition LOOPBACK4 := 2130706433.
(** in6addr_loopback, lib/info/olsrd_info.c:909 *)
Definition LOOPBACK6 := 1.
(** lib/info/olsrd_info.c:898-910 hostDenied *)
Definition host_denied (c : icfg) (peer : Z) : bool :=
  if i_v6 c
  then negb (i_accept c =? ADDR_ANY) && negb (peer =? i_accept c) && (negb (i_local c) || negb (i_accept c =? LOOPBACK6))
  else negb (i_accept c =? ADDR_ANY) && negb (peer =? i_accept c) && (negb (i_local c) || negb (peer =? LOOPBACK4)).

(** lib/info/olsrd_info.c:862-986 ipc_action from the received bytes on, with a free place
    in the output buffer *)
Definition ipc_action (c : icfg) (peer : Z) (d junk : list Z) : option reply :=
  match sanitise d junk (i_headers c) with
  | None => None
  | Some (b, r, len, hdr) =>
      if host_denied c peer then Some (mkRep hdr 0 HTTP_FORBIDDEN)
      else if 2 ^ 63 <=? len then Some (mkRep hdr 0 HTTP_SERVER_ERROR)
      else if len =? 0 then Some (mkRep hdr SIW_EVERYTHING HTTP_OK)
      else if BUFSIZE <=? len then Some (mkRep hdr 0 HTTP_TOO_LARGE)
      else match rdb b r with
           | None => None
           | Some c0 =>
               if (len =? 1) && (c0 =? 47) then Some (mkRep hdr SIW_EVERYTHING HTTP_OK)
               else match cstr FUEL b r with
                    | None => None
                    | Some s => match determine_action s with
                                | None => None
                                | Some w => Some (mkRep hdr w (if w =? 0 then HTTP_NOTFOUND else HTTP_OK)) end
                    end
           end
  end.

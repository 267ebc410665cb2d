(** Model of the requests and replies of the httpinfo plugin (lib/httpinfo/src/olsrd_httpinfo.c)
    without ADMIN_INTERFACE and NETDIRECT, on Linux.  The contents of the pages, the line with
    the date, the test of the peer's address and the results of the system calls are inputs.
    [None] is a read beyond a buffer or of an uninitialised one.  Definitions only. *)
From Coq Require Import String.
From Verif Require Import Base Regex.

(** ** The request *)
(** lib/httpinfo/src/olsrd_httpinfo.c:105 MAX_HTTPREQ_SIZE *)
Definition REQ_SIZE : Z := 10240.
(** lib/httpinfo/src/olsrd_httpinfo.c:384: the strings before the position, last byte first;
    the byte behind them is still 0, so strcmp compares the last four or two bytes *)
Definition blank (rl : list Z) : bool :=
  match rl with
  | 10 :: 10 :: _ => true
  | 10 :: 13 :: 10 :: 13 :: _ => true
  | _ => false
  end.
(** lib/httpinfo/src/olsrd_httpinfo.c:379-387: [c] bytes are in the buffer, [rl] last first;
    after the bytes [inp] recv gives [fin] (0: closed by the peer, negative: timeout or
    error).  The result of recv and the bytes written *)
Fixpoint rd_req (c : Z) (rl inp : list Z) (fin : Z) : list Z * Z :=
  match inp with
  | [] => (rev rl, fin)
  | x :: r =>
      if c <? REQ_SIZE - 1
      then if blank (x :: rl) then (rev (x :: rl), 1) else rd_req (c + 1) (x :: rl) r fin
      else (rev (x :: rl), 1)
  end.
(** the string that starts the buffer, which was cleared in lib/httpinfo/src/olsrd_httpinfo.c:379
    and got the bytes [l]; None: no end within the buffer *)
Fixpoint cstr (room : Z) (l : list Z) : option (list Z) :=
  match l with
  | [] => if 0 <? room then Some [] else None
  | x :: r => if x =? 0 then Some [] else match cstr (room - 1) r with Some s => Some (x :: s) | None => None end
  end.
(** isspace, for sscanf in lib/httpinfo/src/olsrd_httpinfo.c:396-398 *)
Definition space (x : Z) : bool := ((9 <=? x) && (x <=? 13)) || (x =? 32).
(** sscanf in lib/httpinfo/src/olsrd_httpinfo.c:396: the white space before a conversion *)
Fixpoint skip_ws (s : list Z) : list Z := match s with x :: r => if space x then skip_ws r else s | [] => [] end.
(** sscanf in lib/httpinfo/src/olsrd_httpinfo.c:396: at most [n] other characters *)
Fixpoint word (n : nat) (s : list Z) : list Z * list Z :=
  match n, s with
  | S m, x :: r => if space x then ([], s) else let '(w, t) := word m r in (x :: w, t)
  | _, _ => ([], s)
  end.
(** sscanf in lib/httpinfo/src/olsrd_httpinfo.c:396: one conversion of a string *)
Definition conv (n : nat) (s : list Z) : option (list Z * list Z) :=
  match word n (skip_ws s) with ([], _) => None | (w, t) => Some (w, t) end.
(** lib/httpinfo/src/olsrd_httpinfo.c:396-403: req_type, filename and, when it is set, http_version *)
Definition request (s : list Z) : option (list Z * list Z * option (list Z)) :=
  match conv 10 s with
  | None => None
  | Some (m, s1) =>
      match conv 250 s1 with
      | None => None
      | Some (f, s2) => Some (m, f, match conv 10 s2 with Some (v, _) => Some v | None => None end)
      end
  end.

(** ** The pages *)
(** what is sent as body *)
Inductive page := PBin (i : nat) | PTxt (i : nat) | PTab (i : nat) | P400 | P404.
(** lib/httpinfo/src/olsrd_httpinfo.c:239-247 static_bin_files *)
Definition bin_files : list (list Z) := [str "favicon.ico"; str "logo.gif"; str "grayline.gif"].
(** lib/httpinfo/src/olsrd_httpinfo.c:249-252 static_txt_files *)
Definition txt_files : list (list Z) := [str "httpinfo.css"].
(** lib/httpinfo/src/olsrd_httpinfo.c:222-237 tab_entries *)
Definition tab_files : list (list Z) :=
  [str "config"; str "routes"; str "nodes"; str "sgw"; str "position"; str "all"; str "about"; str "cfgfile"].
(** strcmp in lib/httpinfo/src/olsrd_httpinfo.c:111-113, 409, 436 *)
Fixpoint same (a b : list Z) : bool :=
  match a, b with [], [] => true | x :: a', y :: b' => (x =? y) && same a' b' | _, _ => false end.
(** lib/httpinfo/src/olsrd_httpinfo.c:111-113 FILENREQ_MATCH *)
Definition match_req (req f : list Z) : bool :=
  same req f || match req with [] => false | _ :: t => same t f end.
(** lib/httpinfo/src/olsrd_httpinfo.c:439-443, 453-458, 469-474: the first name that matches *)
Fixpoint index_of (i : nat) (req : list Z) (l : list (list Z)) : option nat :=
  match l with [] => None | f :: r => if match_req req f then Some i else index_of (S i) req r end.
(** lib/httpinfo/src/olsrd_httpinfo.c:436-520: the page for the file name of a GET *)
Definition get_page (f : list Z) : page :=
  match index_of 0 f bin_files with
  | Some i => PBin i
  | None =>
      match index_of 0 f txt_files with
      | Some i => PTxt i
      | None => match (match f with _ :: _ :: _ => index_of 0 f tab_files | _ => Some O end) with
                | Some i => PTab i
                | None => P404
                end
      end
  end.

(** ** The reply *)
(** the contents of the pages, the line with the date (lib/httpinfo/src/olsrd_httpinfo.c:636),
    and whether the debug output is printed (src/olsr.c:646) *)
Record env := mkE { e_page : page -> list Z; e_date : list Z; e_debug : bool }.
(** lib/httpinfo/src/olsrd_httpinfo.h:63-64 HTTP_400_MSG, HTTP_404_MSG with
    lib/httpinfo/src/olsrd_plugin.h:73; other pages are inputs *)
Definition body_of (e : env) (p : page) : list Z :=
  match p with
  | P400 => str "<html><h1>400 - ERROR</h1><hr><i>OLSRD httpinfo plugin</i></html>"
  | P404 => str "<html><h1>404 - ERROR, no such file</h1><hr>This server does not support file requests!<br><br><i>OLSRD httpinfo plugin</i></html>"
  | _ => e_page e p
  end.
(** the end of a line, lib/httpinfo/src/olsrd_httpinfo.h:59-61 *)
Definition crlf : list Z := [13; 10].
(** printf %i of a number below 2^31, lib/httpinfo/src/olsrd_httpinfo.c:648 *)
Fixpoint digits (fuel : nat) (n : Z) (acc : list Z) : list Z :=
  match fuel with O => acc | S f => let acc' := (48 + n mod 10) :: acc in if n <? 10 then acc' else digits f (n / 10) acc' end.
(** lib/httpinfo/src/olsrd_httpinfo.h:59-61 *)
Definition status_line (code : Z) : list Z :=
  (if code =? 400 then str "HTTP/1.1 400 Bad Request" else if code =? 404 then str "HTTP/1.1 404 Not Found" else str "HTTP/1.1 200 OK") ++ crlf.
(** lib/httpinfo/src/olsrd_httpinfo.c:612-663 build_http_header *)
Definition header (e : env) (code : Z) (html : bool) (n : Z) : list Z :=
  status_line code
  ++ e_date e
  ++ str "Server: OLSRD httpinfo plugin HTTP/1.1" ++ crlf
  ++ str "Connection: closed" ++ crlf
  ++ (if html then str "Content-type: text/html" else str "Content-type: text/plain") ++ crlf
  ++ (if 0 <? n then str "Content-length: " ++ digits 10 n [] ++ crlf else [])
  ++ str "Cache-Control: no-cache" ++ crlf
  ++ (if html then [] else str "Accept-Ranges: bytes" ++ crlf)
  ++ crlf.
(** lib/httpinfo/src/olsrd_httpinfo.c:409-528: the answer to a method and a file name *)
Definition answer (e : env) (m f : list Z) : list Z :=
  let send code html p := let b := body_of e p in header e code html (Z.of_nat (List.length b)) ++ b in
  if same m (str "POST") then send 400 true P400
  else if same m (str "GET")
  then let p := get_page f in
       send (match p with P404 => 404 | _ => 200 end) (match p with PBin _ | PTxt _ => false | _ => true end) p
  else send 400 true P404.
(** lib/httpinfo/src/olsrd_httpinfo.c:372-548 parse_http_request after accept: [allowed] is
    the result of check_allowed_ip.  Some None: the connection is closed without an answer *)
Definition serve (e : env) (allowed : bool) (inp : list Z) (fin : Z) : option (option (list Z)) :=
  if negb allowed then Some None
  else let '(l, r) := rd_req 0 [] inp fin in
       if r <? 0 then Some None
       else match cstr REQ_SIZE l with
            | None => None
            | Some s =>
                match request s with
                | None => Some None
                | Some (m, f, v) =>
                    match v with
                    | None => if e_debug e then None else Some (Some (answer e m f))
                    | Some _ => Some (Some (answer e m f))
                    end
                end
            end.

(** ** Sending *)
(** lib/httpinfo/src/olsrd_httpinfo.c:212-216: one slot of outbuffer, outbuffer_written,
    outbuffer_socket; a socket is named by the number of its accept *)
Record slot := mkSl { sl_sock : Z; sl_buf : list Z; sl_done : nat }.
(** what the peers see: a reply is queued, bytes are taken by the kernel, a write fails, the
    socket is closed *)
Inductive ev := Queued (s : Z) (b : list Z) | Sent (s : Z) (b : list Z) | Failed (s : Z) | Closed (s : Z).
(** lib/httpinfo/src/olsrd_httpinfo.c:583-603: the loop over the slots.  [ready]: FD_ISSET;
    [wr]: the result of write.  The next slot moves down to the place of one that is
    removed, and i++ passes over it: [skip] *)
Fixpoint round (ready : Z -> bool) (wr : Z -> Z) (skip : bool) (l : list slot) : list slot * list ev :=
  match l with
  | [] => ([], [])
  | k :: r =>
      let s := sl_sock k in
      if skip || negb (ready s) then let '(l', t) := round ready wr false r in (k :: l', t)
      else
        let room := List.length (sl_buf k) in
        let n := Nat.min (Z.to_nat (wr s)) (room - sl_done k) in
        if wr s <=? 0 then let '(l', t) := round ready wr true r in (l', Failed s :: Closed s :: t)
        else
          let out := firstn n (skipn (sl_done k) (sl_buf k)) in
          if (sl_done k + n =? room)%nat
          then let '(l', t) := round ready wr true r in (l', Sent s out :: Closed s :: t)
          else let '(l', t) := round ready wr false r in (mkSl s (sl_buf k) (sl_done k + n) :: l', Sent s out :: t)
  end.
(** what happens: a connection with an answer ([Some]) or without one, or the timer, with the
    results of select and write *)
Inductive input := IReq (b : option (list Z)) | ITimer (sel : Z) (ready : Z -> bool) (wr : Z -> Z).
(** the slots, the number of the next socket, and whether the timer runs *)
Record hst := mkH { h_slots : list slot; h_next : Z; h_timer : bool }.
(** lib/httpinfo/src/olsrd_httpinfo.c:212-218 *)
Definition hst0 : hst := mkH [] 0 false.
(** lib/httpinfo/src/olsrd_httpinfo.c:100 MAX_CLIENTS *)
Definition MAX_CLIENTS : nat := 3.
(** lib/httpinfo/src/olsrd_httpinfo.c:348-351, 530-557 and 560-608 *)
Definition hstep (h : hst) (i : input) : hst * list ev :=
  match i with
  | IReq b =>
      if (MAX_CLIENTS <=? List.length (h_slots h))%nat then (h, [])
      else match b with
           | None => (mkH (h_slots h) (h_next h + 1) (h_timer h), [Closed (h_next h)])
           | Some b =>
               (mkH (h_slots h ++ [mkSl (h_next h) b 0]) (h_next h + 1)
                    (if (List.length (h_slots h) =? 0)%nat then true else h_timer h), [Queued (h_next h) b])
           end
  | ITimer sel ready wr =>
      if negb (h_timer h) then (h, [])
      else if sel <=? 0 then (h, [])
      else let '(l, t) := round ready wr false (h_slots h) in
           (mkH l (h_next h) (if (List.length l =? 0)%nat then false else true), t)
  end.
(** the calls of the two from the main loop, src/scheduler.c olsr_scheduler, in any order *)
Fixpoint hrun (h : hst) (is : list input) : hst * list ev :=
  match is with [] => (h, []) | i :: r => let '(h1, t1) := hstep h i in let '(h2, t2) := hrun h1 r in (h2, t1 ++ t2) end.

(** Model of the replies of the information plugins on their way to the clients:
    lib/info/olsrd_info.c write_data, send_info (from the finished text on) and
    send_status_no_retries, and the headers of lib/info/http_headers.c.

    Sockets are names of connections that are never used again (the kernel reuses
    descriptors only after close).  The kernel is an oracle: select says ready or not, send
    takes at most what is offered, or is full, or fails.  Memory is always available.
    Not modelled: info_plugin_exit, Windows, sockets above FD_SETSIZE. *)
From Coq Require Import String.
From Verif Require Import Base Bytes Regex NameSvc.

(** lib/info/olsrd_info.c:62 *)
Definition MAX_CLIENTS : Z := 8.

(** lib/info/olsrd_info.c:77-83 info_plugin_outbuffer_t, by slot *)
Record slot := mkSlot { s_buf : option (list Z); s_size : Z; s_written : Z; s_sock : Z }.
(** outbuffer, writetimer_entry (NULL or not), and the number of running timers whose
    callback is write_data (lib/info/olsrd_info.c:93-95) *)
Record out := mkOut { o_slots : list slot; o_count : Z; o_entry : bool; o_timers : Z }.

(** what happens at the sockets; lib/info/olsrd_info.c:332-339, 382-403 *)
Inductive event :=
| EConn (s : Z) (reply status : list Z)   (* a connection; its reply, and the short one *)
| ESend (s : Z) (bytes : list Z)          (* the kernel took these bytes *)
| EFail (s : Z)                           (* send failed *)
| EClose (s : Z).
(** result of send; lib/info/olsrd_info.c:382 *)
Inductive outcome := Sent (n : Z) | Again | Fail.

(** lib/info/olsrd_info.c:1101-1104 info_plugin_init *)
Definition free_slot : slot := mkSlot None 0 0 (-1).
(** see above, lib/info/olsrd_info.c:1101-1104 *)
Definition out_init : out := mkOut (repeat free_slot 8) 0 false 0.

(** lib/info/olsrd_info.c:377-412 write_data: one slot; the slot, the change of the count,
    and what happens.  Offering bytes outside of the buffer is [None]. *)
Definition write_slot (o : outcome) (s : slot) : option (slot * Z * list event) :=
  if s_sock s <? 0 then Some (s, 0, [])
  else match s_buf s with
       | None => None
       | Some b =>
           if (0 <=? s_written s) && (s_written s <=? s_size s) && (s_size s <=? blen b)
           then
             let offered := firstn (Z.to_nat (s_size s - s_written s)) (skipn (Z.to_nat (s_written s)) b) in
             match o with
             | Again => Some (s, 0, [])
             | Fail => Some (free_slot, -1, [EFail (s_sock s); EClose (s_sock s)])
             | Sent n =>
                 let k := Z.min (Z.max 0 n) (s_size s - s_written s) in
                 let s' := mkSlot (s_buf s) (s_size s) (s_written s + k) (s_sock s) in
                 let ev := [ESend (s_sock s) (firstn (Z.to_nat k) offered)] in
                 if s_size s <=? s_written s + k then Some (free_slot, -1, ev ++ [EClose (s_sock s)]) else Some (s', 0, ev)
             end
           else None
       end.
(** lib/info/olsrd_info.c:377-412 the loop over the slots; [os i] is the result for slot [i] *)
Fixpoint write_slots (i : nat) (os : nat -> outcome) (l : list slot) (count : Z) : option (list slot * Z * list event) :=
  match l with
  | [] => Some ([], count, [])
  | s :: l' =>
      match write_slot (os i) s with
      | None => None
      | Some (s', d, ev) =>
          match write_slots (S i) os l' (count + d) with
          | None => None
          | Some (l2, c2, ev2) => Some (s' :: l2, c2, ev ++ ev2) end
      end
  end.
(** lib/info/olsrd_info.c:343-418 write_data; [ready] is whether select returns more than 0.
    olsr_stop_timer does nothing for NULL. *)
Definition write_data (ready : bool) (os : nat -> outcome) (o : out) : option (out * list event) :=
  if o_count o <=? 0 then Some (o, [])
  else if negb ready then Some (o, [])
  else match write_slots 0 os (o_slots o) (o_count o) with
       | None => None
       | Some (l, c, ev) =>
           if c =? 0 then Some (mkOut l c false (if o_entry o then o_timers o - 1 else o_timers o), ev)
           else Some (mkOut l c (o_entry o) (o_timers o), ev)
       end.

(** lib/info/olsrd_info.c:581-589 the slot for a reply: from the end to the start; [None] if
    the assertions fail *)
Fixpoint find_slot (n : nat) (l : list slot) : option nat :=
  match n with
  | O => None
  | S i => match s_buf (nth i l free_slot) with
           | None => Some i
           | Some _ => match i with O => None | S _ => find_slot i l end
           end
  end.
(** array assignment; lib/info/olsrd_info.c:78-81 *)
Fixpoint set_nth (i : nat) (s : slot) (l : list slot) : list slot :=
  match l, i with [], _ => [] | _ :: l', O => s :: l' | x :: l', S j => x :: set_nth j s l' end.
(** lib/info/olsrd_info.c:575-609 send_info with the text of the reply *)
Definition send_info (sock : Z) (text : list Z) (ready : bool) (os : nat -> outcome) (o : out) : option (out * list event) :=
  match find_slot (length (o_slots o)) (o_slots o) with
  | None => None
  | Some i =>
      let first_reply := o_count o =? 0 in
      match write_data ready os (mkOut (set_nth i (mkSlot (Some text) (blen text) 0 sock) (o_slots o)) (o_count o + 1) (o_entry o) (o_timers o)) with
      | None => None
      | Some (o2, ev) =>
          if first_reply && (match s_buf (nth i (o_slots o2) free_slot) with Some _ => true | None => false end)
          then Some (mkOut (o_slots o2) (o_count o2) true (o_timers o2 + 1), ev)
          else Some (o2, ev)
      end
  end.
(** lib/info/olsrd_info.c:316-341 send_status_no_retries: one send, whatever it results in *)
Definition send_status (sock : Z) (text : list Z) (oc : outcome) : list event :=
  match oc with
  | Sent n => [ESend sock (firstn (Z.to_nat (Z.min (Z.max 0 n) (blen text))) text); EClose sock]
  | _ => [EFail sock; EClose sock]
  end.

(** a connection is accepted and its reply is made (lib/info/olsrd_info.c:773-986, with the
    test of the number of replies in 825, 839, 891), or the timer expires, if it runs *)
Inductive op :=
| Conn (s : Z) (reply status : list Z) (ready : bool) (os : nat -> outcome)
| Tick (ready : bool) (os : nat -> outcome).
(** see above, lib/info/olsrd_info.c:773-986 *)
Definition step (p : op) (o : out) : option (out * list event) :=
  match p with
  | Conn s reply status ready os =>
      if MAX_CLIENTS <=? o_count o then Some (o, EConn s reply status :: send_status s status (os O))
      else match send_info s reply ready os o with Some (o2, ev) => Some (o2, EConn s reply status :: ev) | None => None end
  | Tick ready os => if o_timers o <=? 0 then Some (o, []) else write_data ready os o
  end.
(** all operations, with everything that happened; lib/info/olsrd_info.c:355-420 *)
Fixpoint run (ps : list op) (o : out) : option (out * list event) :=
  match ps with
  | [] => Some (o, [])
  | p :: ps' => match step p o with
                | None => None
                | Some (o1, ev) => match run ps' o1 with None => None | Some (o2, ev2) => Some (o2, ev ++ ev2) end
                end
  end.

(** ** Headers *)
(** lib/info/http_headers.h:68-97 httpStatusToReply *)
Definition status_reply (status : Z) : list Z :=
  if status =? 204 then str "204 No Content" else if status =? 403 then str "403 Forbidden" else if status =? 404 then str "404 Not Found"
  else if status =? 408 then str "408 Request Timeout" else if status =? 413 then str "413 Request Entity Too Large"
  else if status =? 503 then str "503 Service Unavailable" else if status =? 200 then str "200 OK" else str "500 Internal Server Error".
(** see above, lib/info/http_headers.h:68-97 *)
Definition crlf : list Z := [13; 10].
(** lib/info/http_headers.c:59-108 http_header_build into an empty buffer: the text and
    contentLengthIndex; [date] is what strftime printed (nothing if it failed) *)
Definition header_build (plugin : list Z) (status : Z) (mime : option (list Z)) (date : option (list Z)) : list Z * Z :=
  let before :=
    str "HTTP/1.1 " ++ status_reply status ++ crlf ++
    (match date with Some d => str "Date: " ++ d ++ str " GMT" ++ crlf | None => [] end) ++
    str "Server: OLSRD " ++ plugin ++ crlf ++
    str "Connection: close" ++ crlf ++
    (match mime with Some m => str "Content-Type: " ++ m ++ crlf | None => [] end) ++
    str "Access-Control-Allow-Origin: *" ++ crlf ++
    str "Access-Control-Allow-Methods: GET, POST, OPTIONS" ++ crlf ++
    str "Access-Control-Allow-Headers: Accept, Origin, X-Requested-With" ++ crlf ++
    str "Access-Control-Max-Age: 1728000" ++ crlf ++
    str "Content-Length: " in
  (before ++ repeat 32 12 ++ crlf ++ str "Cache-Control: no-cache" ++ crlf ++ crlf, blen before).
(** the conversion of a length to int; lib/info/http_headers.c:112-118 *)
Definition to_int (x : Z) : Z := let y := x mod 2 ^ 32 in if y <? 2 ^ 31 then y else y - 2 ^ 32.
(** printf "%d"; lib/info/http_headers.c:118 *)
Definition fmt_int (n : Z) : list Z := if n <? 0 then 45 :: dec 10 (- n) [] else dec 10 n [].
(** lib/info/http_headers.c:110-119 http_header_adjust_content_length; [None] if the copy is
    outside of the buffer *)
Definition adjust_length (buf : list Z) (idx : Z) (len : Z) : option (list Z) :=
  let t := firstn 12 (fmt_int (to_int len)) in
  if (0 <=? idx) && (idx + blen t <=? blen buf)
  then Some (firstn (Z.to_nat idx) buf ++ t ++ skipn (Z.to_nat (idx + blen t)) buf)
  else None.
(** lib/info/olsrd_info.c:496-573 send_info: the text of a reply with the [body] *)
Definition reply_text (headers : bool) (plugin : list Z) (status : Z) (mime date : option (list Z)) (body : list Z) : option (list Z) :=
  if headers
  then let '(h, idx) := header_build plugin status mime date in adjust_length (h ++ body) idx (blen (h ++ body) - blen h)
  else Some body.

(** Model of src/parser.c: the walk over a received packet, the registries of
    message handlers, preprocessors and packet parsers, and the list of denied
    addresses of src/net_olsr.c.  Definitions only.
    The receive buffer is a list of bytes: the packet received last in front,
    whatever earlier packets left behind it; reading outside of it is the
    outcome [POob].  Handlers are names; what they and the forwarding code do is
    not part of this model except for the truth value a handler returns. *)
From Verif Require Import Base Bytes.

(** src/parser.h:52 *)
Definition PROMISCUOUS : Z := 4294967295.

(** the globals parse_packet reads: olsr_cnf->ipsize, main_addr, use_hysteresis, deny_entries,
    parse_functions (name, type), packetparser_functions; src/parser.c:79-81 *)
Record penv := mkEnv {
  ipsize : Z; mainaddr : list Z; use_hyst : bool; deny : list (list Z);
  handlers : list (Z * Z); pktparsers : list Z }.

(** what happens during the walk, in order; src/parser.c:264-410 *)
Inductive pev :=
| EPktParser (fn seqno : Z)            (* src/parser.c:297 *)
| EHyst (seqno : Z)                    (* src/parser.c:308 *)
| ECollision (ty seqno : Z)            (* src/parser.c:385 *)
| EHandler (fn off size : Z)           (* src/parser.c:397: message at [off] *)
| EForward (off size : Z).             (* src/parser.c:404 *)

(** how the walk ends, src/parser.c:264-410 *)
Inductive pres := PDone (l : list pev) | POob (l : list pev) | PFuel.
(** no counterpart; the events in order, src/parser.c:264-410 *)
Definition pcons (l : list pev) (r : pres) : pres :=
  match r with PDone m => PDone (l ++ m) | POob m => POob (l ++ m) | PFuel => PFuel end.

(** src/ipcalc.h ipequal on the address bytes *)
Definition bytes_eqb (a b : list Z) : bool := if list_eq_dec Z.eq_dec a b then true else false.

(** src/net_olsr.c:427-436 olsr_add_invalid_address *)
Definition add_invalid (d : list (list Z)) (a : list Z) : list (list Z) := a :: d.
(** src/net_olsr.c:438-453 olsr_validate_address; the test of line 449 compares
    the address of a list entry with that of a configuration field and never holds *)
Fixpoint validate (d : list (list Z)) (a : list Z) : bool :=
  match d with
  | [] => true
  | x :: d' => if bytes_eqb a x then false else validate d' a
  end.
(** src/net_olsr.c:97-110 init_net: 0.0.0.0, 127.0.0.1 or ::, ::1 *)
Definition deny_init (v6 : bool) : list (list Z) :=
  let defaults := if v6 then [repeat 0 16; repeat 0 15 ++ [1]] else [[0; 0; 0; 0]; [127; 0; 0; 1]] in
  fold_left add_invalid defaults [].

(** src/parser.c:121-139 olsr_parser_add_function *)
Definition add_function (h : list (Z * Z)) (fn ty : Z) : list (Z * Z) := (fn, ty) :: h.
(** src/parser.c:141-165 olsr_parser_remove_function *)
Fixpoint remove_function (h : list (Z * Z)) (fn ty : Z) : list (Z * Z) * bool :=
  match h with
  | [] => ([], false)
  | (f, t) :: h' => if (f =? fn) && (t =? ty) then (h', true)
                    else let (r, b) := remove_function h' fn ty in ((f, t) :: r, b)
  end.

Section Parse.
Variable ret : Z -> Z -> bool.       (* value returned by handler [fn] for the message at [off] *)

(** src/parser.c:391-405: the handlers, then forwarding *)
Fixpoint call_handlers (h : list (Z * Z)) (ty off size : Z) (forward : bool) : list pev :=
  match h with
  | [] => if forward then [EForward off size] else []
  | (f, t) :: h' =>
      if (t =? PROMISCUOUS) || (t =? ty) then
        EHandler f off size :: call_handlers h' ty off size (if ret f off then forward else false)
      else call_handlers h' ty off size forward
  end.

(** src/parser.c:311-406: the loop over the messages.  [count] is a uint32_t.
    All fields read in an iteration are read here before the size checks; the
    code reads them in the error messages of lines 330-361 as well. *)
Fixpoint msgs (fuel : nat) (e : penv) (buf : list Z) (off count : Z) : pres :=
  if count =? 0 then PDone []
  else match fuel with
  | O => PFuel
  | S fuel' =>
      if count <? 8 + ipsize e then PDone []
      else
        match rd16 buf (off + 2), rd16 buf (off + 6 + ipsize e), rd8 buf off, rdn buf (off + 4) (ipsize e) with
        | Some msgsize, Some seqno, Some ty, Some orig =>
            if msgsize <? 8 + ipsize e then PDone []
            else if negb (msgsize mod 4 =? 0) then PDone []
            else if msgsize >? count then PDone []
            else
              let validated := validate (deny e) orig in
              let evs := if bytes_eqb orig (mainaddr e) || negb validated
                         then (if validated then [ECollision ty seqno] else [])
                         else call_handlers (handlers e) ty off msgsize true in
              pcons evs (msgs fuel' e buf (off + msgsize) (u32 (count - msgsize)))
        | _, _, _, _ => POob []
        end
  end.

(** src/parser.c:267-309 parse_packet up to the loop *)
Definition parse_packet (fuel : nat) (e : penv) (buf : list Z) (size : Z) : pres :=
  let count := u32 (size - 4) in
  if count <? 4 then PDone []
  else match rd16 buf 0 with
  | None => POob []
  | Some packlen =>
      if negb (packlen =? u16 size) then PDone []
      else match rd16 buf 2 with
      | None => POob []
      | Some seqno =>
          pcons (map (fun f => EPktParser f seqno) (pktparsers e) ++ (if use_hyst e then [EHyst seqno] else []))
                (msgs fuel e buf 4 count)
      end
  end.
End Parse.

(** src/parser.c:83: size of the receive buffer; MAXMESSAGESIZE is src/defs.h:75 *)
Definition INBUF : Z := (1500 / 4 + 1) * 4.

(** src/parser.c:441: a datagram is written over the front of the buffer; what
    exceeds the buffer is cut off.  [inbuf] is [INBUF] bytes long. *)
Definition receive (inbuf dgram : list Z) : list Z * Z :=
  let d := firstn (Z.to_nat INBUF) dgram in
  (d ++ skipn (length d) inbuf, blen d).

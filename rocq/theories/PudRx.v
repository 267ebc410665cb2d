(** Model of the reception of position updates by the PUD plugin: the list of the messages
    seen (lib/pud/src/dedup.c), the handling of a message from the OLSR network and the
    unpacking of a datagram from the downlink (lib/pud/src/pud.c).  Of the sentence only
    is modelled that it is sent (lib/pud/src/gpsConversion.c:84-239 without what is
    written in it).  Definitions only; [None] is a read or a write outside of the memory
    meant, unless said otherwise. *)
From Verif Require Import Base.

(** memory as the bytes of a buffer; a byte of it, as in lib/pud/src/pud.c:235-243 *)
Definition rd (mem : list Z) (i : Z) : option Z := if (i <? 0) || (i >=? Z.of_nat (length mem)) then None else nth_error mem (Z.to_nat i).
(** [n] bytes of it; lib/pud/src/pud.c:181-184 *)
Definition rds (mem : list Z) (i n : Z) : option (list Z) :=
  if (i <? 0) || (i + n >? Z.of_nat (length mem)) then None else Some (firstn (Z.to_nat n) (skipn (Z.to_nat i) mem)).

(** lib/pud/src/dedup.h DeDupEntry: sequence number and originator; the bytes as they are
    in the message *)
Definition key := (list Z * list Z)%type.
(** lib/pud/src/dedup.h DeDupList; [None] is an entry nobody wrote *)
Record dlist := { d_max : Z; d_ents : list (option key); d_count : Z; d_newest : Z }.
(** unsigned long long, lib/pud/src/dedup.h *)
Definition u64 (z : Z) : Z := z mod 2 ^ 64.
(** sizeof(DeDupEntry), lib/pud/src/dedup.h: two bytes, padding, sixteen bytes *)
Definition ENTRY : Z := 20.
(** lib/pud/src/dedup.c:77-100 initDeDupList; [None] is false, or the end of the daemon
    when there is no memory (src/olsr.c:595-611), of which [avail] bytes are there *)
Definition init_dedup (avail max : Z) : option dlist :=
  if max <? 1 then None
  else let size := u64 (max * ENTRY) in
       if size >? avail then None
       else Some {| d_max := max; d_ents := repeat None (Z.to_nat (size / ENTRY)); d_count := 0; d_newest := 0 |}.
(** a write to entries[i], lib/pud/src/dedup.c:137-146 *)
Definition put (l : list (option key)) (i : Z) (k : key) : option (list (option key)) :=
  if (i <? 0) || (i >=? Z.of_nat (length l)) then None
  else Some (firstn (Z.to_nat i) l ++ Some k :: skipn (S (Z.to_nat i)) l).
(** lib/pud/src/dedup.c:130-152 addToDeDup *)
Definition add_dedup (d : dlist) (k : key) : option dlist :=
  let i := u64 (u64 (d_newest d + d_max d) - 1) mod d_max d in
  match put (d_ents d) i k with
  | None => None
  | Some l => Some {| d_max := d_max d; d_ents := l; d_newest := i;
                      d_count := if d_count d <? d_max d then u64 (d_count d + 1) else d_count d |}
  end.
(** equality of bytes, lib/pud/src/dedup.c:181-190 *)
Definition beqb (a b : list Z) : bool := if list_eq_dec Z.eq_dec a b then true else false.
(** lib/pud/src/dedup.c:178-198: the loop; None is also the use of an entry nobody wrote *)
Fixpoint look (n : nat) (d : dlist) (i : Z) (k : key) : option bool :=
  match n with
  | O => Some false
  | S n' =>
      if (i <? 0) || (i >=? Z.of_nat (length (d_ents d))) then None
      else match nth_error (d_ents d) (Z.to_nat i) with
           | Some (Some e) =>
               if beqb (fst e) (fst k) && beqb (snd e) (snd k) then Some true
               else look n' d (u64 (i + 1) mod d_max d) k
           | _ => None
           end
  end.
(** lib/pud/src/dedup.c:167-201 isInDeDupList *)
Definition in_dedup (d : dlist) (k : key) : option bool := look (Z.to_nat (d_count d)) d (d_newest d) k.

(** the configuration that is used: IP version, main address, loopback, de-duplication and
    smart gateway, lib/pud/src/pud.c:184-196, 262, 275 *)
Record conf := { c_v6 : bool; c_main : list Z; c_loop : bool; c_dedup : bool; c_sgw : bool }.
(** the size of an address, src/olsr_types.h *)
Definition asize (v6 : bool) : Z := if v6 then 16 else 4.
(** where the message of an OLSR message starts, struct olsrmsg and olsrmsg6 of
    src/olsr_protocol.h *)
Definition hdr (v6 : bool) : Z := if v6 then 24 else 12.
(** lib/pud/wireformat/include/OlsrdPudWireFormat/wireFormat.h:361 PUD_OLSRWIREFORMATSIZE *)
Definition FIXED : Z := 21.
(** sequence number and originator of the message at [off], lib/pud/src/dedup.c:141-146 *)
Definition key_at (v6 : bool) (mem : list Z) (off : Z) : option key :=
  match rds mem (off + hdr v6 - 2) 2, rds mem (off + 4) (asize v6) with
  | Some s, Some o => Some (s, o)
  | _, _ => None
  end.
(** lib/pud/src/gpsConversion.c:84-160: the version and then all fields of fixed size are
    read *)
Definition sentence (v6 : bool) (mem : list Z) (off : Z) : option bool :=
  match rd mem (off + hdr v6) with
  | None => None
  | Some v => if negb (v =? 3) then Some false
              else match rds mem (off + hdr v6) FIXED with Some _ => Some true | None => None end
  end.
(** lib/pud/src/pud.c:175-207 packetReceivedFromOlsr for the message at [off]: the list
    afterwards and whether a sentence is sent to the LAN *)
Definition received (c : conf) (d : dlist) (mem : list Z) (off : Z) : option (dlist * bool) :=
  match rds mem (off + 4) (asize (c_v6 c)) with
  | None => None
  | Some o =>
      if negb (c_loop c) && beqb o (c_main c) then Some (d, false)
      else if c_dedup c then
        match key_at (c_v6 c) mem off with
        | None => None
        | Some k =>
            match in_dedup d k with
            | None => None
            | Some true => Some (d, false)
            | Some false =>
                match add_dedup d k with
                | None => None
                | Some d' => match sentence (c_v6 c) mem off with Some b => Some (d', b) | None => None end
                end
            end
        end
      else match sentence (c_v6 c) mem off with Some b => Some (d, b) | None => None end
  end.

(** what the downlink does with a message: it goes to the OLSR interfaces with
    net_outbuffer_push(start, length), lib/pud/src/pud.c:275-296, or to
    packetReceivedFromOlsr, line 299 *)
Inductive event := EOlsr (off len : Z) | ELan (off : Z).
(** how the loop ends: at the end of the datagram, at a wrong length, or by reading outside
    of the buffer, lib/pud/src/pud.c:234-251 *)
Inductive fate := Finished | WrongLength | Outside.
(** uint16_t, lib/pud/src/pud.c:237-238 *)
Definition w16 (z : Z) : Z := z mod 65536.
(** lib/pud/src/pud.c:234-300: the loop over a datagram of [count] bytes in [mem]; None:
    not at the end after [n] rounds *)
Fixpoint downlink (n : nat) (c : conf) (mem : list Z) (count i : Z) : option (list event * fate) :=
  match n with
  | O => None
  | S n' =>
      if i <? count then
        match rd mem i, rd mem (i + 1), rd mem (i + 2), rd mem (i + 3) with
        | Some ty, Some h, Some l, fl =>
            let olen := h * 256 + l in
            let ulen := w16 (olen + 4) in
            if i + ulen >? count then Some ([], WrongLength)
            else if negb (ty =? 0) then downlink n' c mem count (i + ulen)
            else match fl with
                 | None => Some ([], Outside)
                 | Some f =>
                     if xorb (f mod 2 =? 1) (c_v6 c) then downlink n' c mem count (i + ulen)
                     else match downlink n' c mem count (i + ulen) with
                          | None => None
                          | Some (ev, fa) => Some ((if c_sgw c then [EOlsr (i + 4) olen] else []) ++ ELan (i + 4) :: ev, fa)
                          end
                 end
        | _, _, _, _ => Some ([], Outside)
        end
      else Some ([], Finished)
  end.
(** lib/pud/src/pud.c:68 BUFFER_SIZE_RX_DOWNLINK; line 228 receives at most one byte less *)
Definition RXBUF : Z := 2048.
(** the messages of the OLSR network one after the other, each in memory of its own size,
    as src/parser.c:393-400 gives them to lib/pud/src/pud.c:175 *)
Fixpoint received_all (c : conf) (d : dlist) (ms : list (list Z)) : option (list bool) :=
  match ms with
  | [] => Some []
  | m :: r => match received c d m 0 with
              | None => None
              | Some (d', b) => match received_all c d' r with Some bs => Some (b :: bs) | None => None end
              end
  end.
(** calls of addToDeDup one after the other, lib/pud/src/pud.c:195 *)
Fixpoint adds (d : dlist) (ks : list key) : option dlist :=
  match ks with [] => Some d | k :: r => match add_dedup d k with Some d' => adds d' r | None => None end end.

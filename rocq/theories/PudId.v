(** Model of the node id of the PUD plugin: how the parameter nodeId becomes bytes
    (lib/pud/src/configuration.c, lib/pud/wireformat/src/nodeIdConversion.c), how the bytes
    get into a position update in the transmit buffer (lib/pud/wireformat/src/wireFormat.c,
    lib/pud/src/gpsConversion.c, lib/pud/src/receiver.c) and how a receiver makes text from
    them.  The fields of a position update before the node id are any 21 bytes; see
    PudWire.v for what is in them.  Definitions only; [None] is a read or a write outside
    of the memory meant. *)
From Verif Require Import Base PluginUtil PudRx.

(** ** Numbers as text *)
(** lib/pud/src/configTools.c:230-250 readULL, with strtoull of the C library for base 10
    and 16: blanks, a sign, for base 16 the prefix 0x, digits up to the end; None is false *)
Definition read_ull (base : Z) (s : list Z) : option Z :=
  let s1 := skip_space s in
  let '(neg, s2) := match s1 with c :: r => if c =? 45 then (true, r) else if c =? 43 then (false, r) else (false, s1) | [] => (false, []) end in
  let s3 := match s2 with
            | z :: x :: d :: r =>
                if (base =? 16) && (z =? 48) && ((x =? 120) || (x =? 88)) && match in_base 16 d with Some _ => true | None => false end
                then d :: r else s2
            | _ => s2
            end in
  match s3 with
  | [] => None
  | c :: _ =>
      match in_base base c with
      | None => None
      | Some _ => match take_digits base 0 s3 with
                  | (v, []) => if v >? 2 ^ 64 - 1 then None else Some (if neg then (- v) mod 2 ^ 64 else v)
                  | _ => None
                  end
      end
  end.
(** %llu and %llx of snprintf, lib/pud/wireformat/src/nodeIdConversion.c:113 and 144; 64 is
    more than the digits of a 64 bit number *)
Fixpoint print (fuel : nat) (base n : Z) (acc : list Z) : list Z :=
  match fuel with
  | O => acc
  | S f => let d := n mod base in
           let acc' := (if d <? 10 then 48 + d else 87 + d) :: acc in
           if n <? base then acc' else print f base (n / base) acc'
  end.
(** two digits of %02x, lib/pud/wireformat/src/nodeIdConversion.c:193-195 *)
Definition hex2 (b : Z) : list Z := let c d := if d <? 10 then 48 + d else 87 + d in [c (b / 16); c (b mod 16)].

(** ** Types, lib/pud/wireformat/include/OlsrdPudWireFormat/wireFormat.h:184-301 *)
Definition MAC : Z := 0.
(** see above, lib/pud/wireformat/include/OlsrdPudWireFormat/wireFormat.h:184-301 *)
Definition MSISDN : Z := 1.
(** see above, lib/pud/wireformat/include/OlsrdPudWireFormat/wireFormat.h:184-301 *)
Definition TETRA : Z := 2.
(** see above, lib/pud/wireformat/include/OlsrdPudWireFormat/wireFormat.h:184-301 *)
Definition DNS : Z := 3.
(** see above, lib/pud/wireformat/include/OlsrdPudWireFormat/wireFormat.h:184-301 *)
Definition IPV4 : Z := 4.
(** see above, lib/pud/wireformat/include/OlsrdPudWireFormat/wireFormat.h:184-301 *)
Definition UUID : Z := 5.
(** see above, lib/pud/wireformat/include/OlsrdPudWireFormat/wireFormat.h:184-301 *)
Definition IPV6 : Z := 6.
(** see above, lib/pud/wireformat/include/OlsrdPudWireFormat/wireFormat.h:184-301 *)
Definition MMSI : Z := 7.
(** see above, lib/pud/wireformat/include/OlsrdPudWireFormat/wireFormat.h:184-301 *)
Definition URN : Z := 8.
(** see above, lib/pud/wireformat/include/OlsrdPudWireFormat/wireFormat.h:184-301 *)
Definition MIP : Z := 9.
(** the types that are one number: smallest and greatest value, number of bytes; lines
    239-295 of the same file *)
Definition range_of (ty : Z) : option (Z * Z * Z) :=
  if ty =? MSISDN then Some (0, 999999999999999, 7)
  else if ty =? TETRA then Some (0, 99999999999999999, 8)
  else if ty =? MMSI then Some (0, 999999999, 4)
  else if ty =? URN then Some (0, 16777215, 3)
  else if ty =? 192 then Some (0, 9999999, 3)
  else if ty =? 193 then Some (0, 999999, 3)
  else if ty =? 194 then Some (1, 8191, 2)
  else None.

(** ** The parameter *)
(** what the parameter leads to: it is refused, an assertion fails, or the bytes;
    lib/pud/src/configuration.c:265-497 *)
Inductive setup := Refused | Aborted | Bin (l : list Z).
(** lib/pud/wireformat/src/nodeIdConversion.c:275-287: the bytes of a number and what is
    left of it *)
Fixpoint split_bytes (n : nat) (v : Z) (acc : list Z) : list Z * Z :=
  match n with O => (acc, v) | S n' => split_bytes n' (v / 256) (v mod 256 :: acc) end.
(** lib/pud/src/configuration.c:265-279 intSetupNodeIdBinaryLongLong *)
Definition setup_number (s : list Z) (mn mx bytes : Z) : setup :=
  match read_ull 10 s with
  | None => Refused
  | Some v => if (v <? mn) || (v >? mx) then Refused
              else let '(l, r) := split_bytes (Z.to_nat bytes) v [] in if r =? 0 then Bin l else Aborted
  end.
(** lib/pud/src/configuration.c:309-371 intSetupNodeIdBinaryDoubleLongLong and
    lib/pud/wireformat/src/nodeIdConversion.c:318-346; the smallest values are 0 *)
Definition setup_double (s : list Z) (chars1 mx1 bytes1 mx2 bytes2 base : Z) : setup :=
  let k := Z.to_nat chars1 in
  match (match s with [] => Some 0 | _ => read_ull base (firstn k s) end) with
  | None => Refused
  | Some v1 =>
      if v1 >? mx1 then Refused
      else
        let done a b :=
          let '(l1, r1) := split_bytes (Z.to_nat bytes1) a [] in
          let '(l2, r2) := split_bytes (Z.to_nat bytes2) b [] in
          if (r1 =? 0) && (r2 =? 0) then Bin (l1 ++ l2) else Aborted in
        if Z.of_nat (length s) >? chars1 then
          match read_ull base (skipn k s) with
          | None => Refused
          | Some v2 => if v2 >? mx2 then Refused else done v1 v2
          end
        else done 0 v1
  end.
(** lib/pud/nmealib/src/validate.c:29-77: characters that must not be in a sentence *)
Definition bad_char (c : Z) : bool :=
  (c <? 32) || (c >? 126) || (c =? 36) || (c =? 42) || (c =? 33) || (c =? 92) || (c =? 94) || (c =? 126).
(** lib/pud/src/configuration.c:381-405 intSetupNodeIdBinaryString: with the NUL byte *)
Definition setup_string (s : list Z) : setup :=
  if existsb bad_char s then Refused else if Z.of_nat (length s) >? 1023 then Refused else Bin (s ++ [0]).
(** lib/pud/src/configuration.c:158-231 setNodeId after the type was taken from the
    parameter, with lines 436-497 setupNodeIdBinaryAndValidate: [s] is what comes after the
    comma; [host] the name of the host, [mac] the address of the main interface, [ip] the
    main address.  Type 9 has 20 digits in two numbers, type 5 has 32. *)
Definition set_node_id (host mac ip : list Z) (ty : Z) (s : list Z) : setup :=
  if Z.of_nat (length s) >? 1023 then Refused
  else
    let s := match s with [] => if ty =? DNS then host else [] | _ => s end in
    if match s with [] => negb ((ty =? MAC) || (ty =? DNS) || (ty =? IPV4) || (ty =? IPV6)) | _ => false end then Refused
    else if ty =? MAC then Bin mac
    else if ty =? DNS then setup_string s
    else if (ty =? IPV4) || (ty =? IPV6) then Bin ip
    else if ty =? UUID then setup_double s 16 (2 ^ 64 - 1) 8 (2 ^ 64 - 1) 8 16
    else if ty =? MIP then setup_double s 1 9 1 9999999999999999999 8 10
    else match range_of ty with Some (mn, mx, n) => setup_number s mn mx n | None => Refused end.

(** ** The message *)
(** a write to memory, lib/pud/src/receiver.c:176 *)
Definition wr (mem : list Z) (i : Z) (l : list Z) : option (list Z) :=
  if (i <? 0) || (i + Z.of_nat (length l) >? Z.of_nat (length mem)) then None
  else Some (firstn (Z.to_nat i) mem ++ l ++ skipn (Z.to_nat i + length l) mem).
(** one after the other; lib/pud/src/gpsConversion.c:256-376 *)
Fixpoint wrs (mem : list Z) (ws : list (Z * list Z)) : option (list Z) :=
  match ws with [] => Some mem | (i, l) :: r => match wr mem i l with Some m => wrs m r | None => None end end.
(** lib/pud/src/receiver.c:112: the bytes of the buffer on the stack; line 206: the header
    of the uplink is in front *)
Definition TXBUF : Z := 1024.
(** see above, lib/pud/src/receiver.c:112 *)
Definition UPHDR : Z := 4.
(** lib/pud/wireformat/src/wireFormat.c:823-889 setPositionUpdateNodeInfo: the bytes that are
    written as the node id and the number that is returned; None: there is no id in the
    message.  After [bin] come the zeros of the static buffer. *)
Definition node_info (ty : Z) (bin : list Z) : option (list Z * Z) :=
  if ty =? DNS then
    let avail := TXBUF - UPHDR - 22 - 1 in
    let n := Z.of_nat (length bin) + 1 in
    let n := if n >? avail then avail else n in
    Some (firstn (Z.to_nat n) (bin ++ repeat 0 1024) ++ [0], n + 1)
  else if (ty =? MAC) || (ty =? UUID) || (ty =? MIP) || match range_of ty with Some _ => true | None => false end
  then Some (bin, Z.of_nat (length bin) + 1)
  else None.
(** the length of an OLSR message in its header, src/olsr_protocol.h: bytes 2 and 3 *)
Definition with_size (hd : list Z) (size : Z) : list Z := firstn 2 hd ++ [size / 256 mod 256; size mod 256] ++ skipn 4 hd.
(** the bit PUD_PRESENT_ID in the first byte of the field present, lib/pud/wireformat/include/OlsrdPudWireFormat/wireFormat.h:76, as it is
    set in lib/pud/wireformat/src/wireFormat.c:884-885 *)
Definition with_id (b : Z) : Z := Z.lor b 128.
(** lib/pud/src/gpsConversion.c:256-376 gpsToOlsr: [mem] is the buffer before, [hd] the header
    of the message without its size, [fx] the fields before the node id; the buffer after
    and the size of the message *)
Definition compose (v6 : bool) (hd fx : list Z) (ty : Z) (bin mem : list Z) : option (list Z * Z) :=
  let base := UPHDR + hdr v6 in
  let '(ws, nl) :=
    match node_info ty bin with
    | Some (l, nl) => ([(base + 21, [ty]); (base + 22, l); (base + 2, [with_id (nth 2 fx 0)])], nl)
    | None => ([(base + 21, [if v6 then IPV6 else IPV4])], 0)
    end in
  let raw := FIXED + nl in
  let rem := raw mod 4 in
  let size := raw + (if rem =? 0 then 0 else 4 - rem) + hdr v6 in
  match wrs mem ([(base, fx ++ [0; 0])] ++ ws ++ [(UPHDR, with_size hd size)] ++
                 (if rem =? 0 then [] else [(base + 22 + nl, repeat 0 (Z.to_nat (4 - rem)))])) with
  | Some m => Some (m, size)
  | None => None
  end.
(** the bytes that go to the OLSR network, lib/pud/src/receiver.c:216-221 *)
Definition sent (p : list Z * Z) : list Z := firstn (Z.to_nat (snd p)) (skipn (Z.to_nat UPHDR) (fst p)).
(** lib/pud/src/receiver.c:246-301: the message about the cluster leader is put after it, 4
    bytes of header and 10 or 34 bytes *)
Definition leader (v6 : bool) (p : list Z * Z) (cl : list Z) : option (list Z) :=
  wr (fst p) (UPHDR + snd p) (firstn (if v6 then 38 else 14) (cl ++ repeat 0 38)).

(** ** Text from a message *)
(** text, or an address that inet_ntop makes text of;
    lib/pud/wireformat/src/nodeIdConversion.c:250 *)
Inductive idtext := Text (l : list Z) | Addr (l : list Z).
(** lib/pud/wireformat/src/wireFormat.c:741-750: the loop over a name *)
Fixpoint dns_len (fuel : nat) (mem : list Z) (i last : Z) : option Z :=
  match fuel with
  | O => None
  | S f => match rd mem i with
           | None => None
           | Some c => if (c =? 0) || (i >? last) then Some 0
                       else match dns_len f mem (i + 1) last with Some n => Some (n + 1) | None => None end
           end
  end.
(** unsigned long long of bytes, lib/pud/wireformat/src/nodeIdConversion.c:104-111 *)
Definition val_of (l : list Z) : Z := fold_left (fun v b => u64 (u64 (v * 256) + b)) l 0.
(** lib/pud/wireformat/src/wireFormat.c:676-683 getPositionUpdateNodeIdType *)
Definition id_type (v6 : bool) (mem : list Z) : option Z :=
  match rd mem (hdr v6 + 2) with
  | None => None
  | Some p => if Z.testbit p 7 then rd mem (hdr v6 + 21) else Some (if v6 then IPV6 else IPV4)
  end.
(** lib/pud/wireformat/src/nodeIdConversion.c:170-258 getNodeIdStringFromOlsr for the message
    [mem], with lib/pud/wireformat/src/wireFormat.c:714-790 getPositionUpdateNodeId.  The two parts of types 5 and 9
    are printed to places 0 and 16, or 1, of the buffer: when the first is shorter its NUL
    byte is the end of the text. *)
Definition id_string (v6 : bool) (mem : list Z) : option idtext :=
  let at_ := hdr v6 + 22 in
  match id_type v6 mem with
  | None => None
  | Some ty =>
      if ty =? MAC then
        match rds mem at_ 6 with
        | Some [a; b; c; d; e; f] => Some (Text (hex2 a ++ 58 :: hex2 b ++ 58 :: hex2 c ++ 58 :: hex2 d ++ 58 :: hex2 e ++ 58 :: hex2 f))
        | _ => None
        end
      else if ty =? DNS then
        match rds mem 2 2 with
        | Some [h; l] =>
            match dns_len (S (length mem)) mem at_ (h * 256 + l - 1) with
            | None => None
            | Some n => match rds mem at_ (if n >=? 1024 then 1023 else n) with Some t => Some (Text t) | None => None end
            end
        | _ => None
        end
      else if ty =? UUID then
        match rds mem at_ 8, rds mem (at_ + 8) 8 with
        | Some a, Some b =>
            let t := firstn 16 (print 64 16 (val_of a) []) in
            Some (Text (if Z.of_nat (length t) =? 16 then t ++ print 64 16 (val_of b) [] else t))
        | _, _ => None
        end
      else if ty =? MIP then
        match rds mem at_ 1, rds mem (at_ + 1) 8 with
        | Some a, Some b => Some (Text (firstn 1 (print 64 10 (val_of a) []) ++ print 64 10 (val_of b) []))
        | _, _ => None
        end
      else match range_of ty with
           | Some (_, _, n) => match rds mem at_ n with Some a => Some (Text (print 64 10 (val_of a) [])) | None => None end
           | None => match rds mem 4 (asize v6) with Some a => Some (Addr a) | None => None end
           end
  end.

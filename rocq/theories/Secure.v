(** The secure plugin (lib/secure/src/olsrd_secure.c, olsrd_secure.h,
    secure_messages.h): signatures at the end of packets, and the handshake that
    exchanges the clocks of two nodes.

    IPv4 only, as in the source (assertions at 565, 930, 1004).  Structures have the
    layout that the usual ABIs give them; it depends on the size and the byte order
    of time_t.  The hash function (MD5 or SHA1) is an argument.  What malloc and the
    random number generator return are arguments.  Reads and writes outside buffers
    make an operation [None].  The hash table of time stamps is a list, newest entry
    first; entries of the same address are always in the same bucket.  Differences of
    clocks are integers without overflow.  Not modelled: debug output, reading the key
    file (1109-1133), registration (174-209). *)
From Verif Require Import Base Bytes NetBuf Parser SchedTime.

(** statements one after the other, lib/secure/src/olsrd_secure.c *)
Definition obind {A B} (x : option A) (f : A -> option B) : option B :=
  match x with Some a => f a | None => None end.

(** sizeof(time_t), which is its alignment, too; SIGSIZE
    (lib/secure/src/secure_messages.h:77-81); byte order *)
Record abi := mkABI { tsz : Z; ssz : Z; little : bool }.
(** [n] rounded up to a multiple of [k]; the layout of lib/secure/src/secure_messages.h:87-183 *)
Definition align (n k : Z) : Z := (n + k - 1) / k * k.
(** lib/secure/src/secure_messages.h:87-113 struct s_olsrmsg: offsets of sig,
    sig.timestamp and sig.signature, and the size *)
Definition sig_off (a : abi) : Z := align 12 (tsz a).
(** see above, lib/secure/src/secure_messages.h:87-113 *)
Definition ts_off (a : abi) : Z := sig_off a + align 4 (tsz a).
(** see above, lib/secure/src/secure_messages.h:87-113 *)
Definition sg_off (a : abi) : Z := ts_off a + tsz a.
(** see above, lib/secure/src/secure_messages.h:87-113 *)
Definition SMSG (a : abi) : Z := align (sg_off a + ssz a) (tsz a).
(** lib/secure/src/secure_messages.h:119-132 struct challengemsg; the signature is at
    20 *)
Definition CMSG (a : abi) : Z := 20 + ssz a.
(** lib/secure/src/secure_messages.h:134-150 struct c_respmsg: offset of the time
    stamp, size *)
Definition cts_off (a : abi) : Z := align 20 (tsz a).
(** see above, lib/secure/src/secure_messages.h:134-150 *)
Definition CRMSG (a : abi) : Z := align (cts_off a + tsz a + ssz a + ssz a) (tsz a).
(** lib/secure/src/secure_messages.h:152-167 struct r_respmsg: the time stamp is at 16 *)
Definition RRMSG (a : abi) : Z := align (16 + tsz a + ssz a + ssz a) (tsz a).

(** htonl; lib/secure/src/olsrd_secure.c:326, 565, 922 *)
Definition net32 (n : Z) : list Z := [u32 n / 16777216; u32 n / 65536 mod 256; u32 n / 256 mod 256; u32 n mod 256].
(** the bytes of a time_t after [x = htonl(t)], and ntohl of such a time_t
    (lib/secure/src/olsrd_secure.c:326, 471, 696, 796, 923, 999): the 32 bits are in
    the half that holds the low bits *)
Definition enc_ts (a : abi) (t : Z) : list Z :=
  if tsz a =? 4 then net32 t else if little a then net32 t ++ [0; 0; 0; 0] else [0; 0; 0; 0] ++ net32 t.
(** see above, lib/secure/src/olsrd_secure.c:326, 471, 696, 796, 923, 999 *)
Definition dec_ts (a : abi) (l : list Z) : Z :=
  if (tsz a =? 4) || little a then be (firstn 4 l) else be (skipn 4 l).

(** configuration: ABI, CHECKSUM, aes_key, main address, addresses of the interfaces;
    lib/secure/src/olsrd_secure.c:87-165 *)
Record scfg := mkSCfg { c_abi : abi; c_hash : list Z -> list Z; c_key : list Z; c_main : list Z; c_ifs : list (list Z) }.
(** lib/secure/src/olsrd_secure.c:126-136 struct stamp *)
Record stamp := mkStamp { p_addr : list Z; p_diff : Z; p_chal : Z; p_valid : bool; p_val : Z; p_conf : Z }.
(** the database of time stamps (144), the output buffer of the interface, the counter of
    messages, and the clock [now] (123) in seconds *)
Record sec := mkSec { s_tab : list stamp; s_nb : nb; s_seq : Z; s_now : Z }.
(** surroundings of a call: now_times, success of sendto, random numbers of send_cres and
    send_challenge, memory returned by malloc in parse_challenge and send_challenge;
    lib/secure/src/olsrd_secure.c:549, 590, 829, 903 *)
Record senv := mkEnv { e_ms : Z; e_ok : bool; e_r1 : Z; e_r2 : Z; e_junk1 : stamp; e_junk2 : Z }.

(** lib/secure/src/olsrd_secure.c:80, 98 SCHEME *)
Definition scheme (a : abi) : Z := if ssz a =? 20 then 1 else 2.

(** lib/secure/src/olsrd_secure.c:333-343, 433-443: the hash of the first [n] bytes and
    the key, through checksum_cache of 1512 + 16 bytes *)
Definition packet_hash (c : scfg) (pck : list Z) (n : Z) : option (list Z) :=
  if n <=? 1512 then obind (rdn pck 0 n) (fun d => Some (c_hash c (d ++ c_key c))) else None.

(** lib/secure/src/olsrd_secure.c:294-364 add_signature *)
Definition add_signature (c : scfg) (now seq : Z) : ptf := fun pck size =>
  let a := c_abi c in
  obind (wr pck 0 (net16 (size + SMSG a))) (fun p1 =>
  obind (wr p1 size ([10; 0] ++ net16 (SMSG a) ++ c_main c ++ [1; 0] ++ net16 seq)) (fun p2 =>
  obind (wr p2 (size + sig_off a) [1; scheme a; 0; 0]) (fun p3 =>
  obind (wr p3 (size + ts_off a) (enc_ts a now)) (fun p4 =>
  obind (packet_hash c p4 (size + SMSG a - ssz a)) (fun h =>
  obind (wr p4 (size + SMSG a - ssz a) h) (fun p5 => Some (p5, size + SMSG a))))))).

(** net_outbuffer_push followed by net_output, lib/secure/src/olsrd_secure.c:583-587,
    963-967, 1038-1042; the packets sent come second *)
Definition send (c : scfg) (e : senv) (s : sec) (m : list Z) : option (sec * list (list Z)) :=
  obind (net_outbuffer_push (s_nb s) m) (fun br =>
  obind (net_output [add_signature c (s_now s) (s_seq s)] (e_ok e) (fst br)) (fun o =>
  let '(b, _, pkt) := o in
  Some (mkSec (s_tab s) b (match pkt with Some _ => u16 (s_seq s + 1) | None => s_seq s end) (s_now s),
        match pkt with Some p => [p] | None => [] end))).

(** the header of a handshake message, lib/secure/src/olsrd_secure.c:556-566, 914-931,
    990-1005 *)
Definition hs_header (c : scfg) (typ size seq : Z) (dest : list Z) : list Z :=
  [typ; 0] ++ net16 size ++ c_main c ++ [1; 0] ++ net16 seq ++ dest.
(** a message and its signature, lib/secure/src/olsrd_secure.c:569-579, 950-960,
    1024-1034 *)
Definition hs_sign (c : scfg) (m : list Z) : list Z := m ++ c_hash c (m ++ c_key c).

(** lib/secure/src/olsrd_secure.c:1047-1066 lookup_timestamp_entry *)
Definition lookup_stamp (l : list stamp) (a : list Z) : option stamp := find (fun p => bytes_eqb (p_addr p) a) l.
(** an assignment to the entry of [a]; lib/secure/src/olsrd_secure.c:493-520 *)
Fixpoint upd_stamp (l : list stamp) (a : list Z) (f : stamp -> stamp) : list stamp :=
  match l with [] => [] | p :: l' => if bytes_eqb (p_addr p) a then f p :: l' else p :: upd_stamp l' a f end.
(** see above, lib/secure/src/olsrd_secure.c:1047-1066 *)
Definition set_tab (s : sec) (l : list stamp) : sec := mkSec l (s_nb s) (s_seq s) (s_now s).
(** see above, lib/secure/src/olsrd_secure.c:1047-1066 *)
Definition set_seq (s : sec) (q : Z) : sec := mkSec (s_tab s) (s_nb s) q (s_now s).

(** lib/secure/src/olsrd_secure.c:537-611 send_challenge; the valid time of the new
    entry is not initialised *)
Definition send_challenge (c : scfg) (e : senv) (s : sec) (host : list Z) : option (sec * list (list Z)) :=
  let m := hs_sign c (hs_header c 11 (CMSG (c_abi c)) (s_seq s) host ++ net32 (e_r2 e)) in
  obind (send c e (set_seq s (u16 (s_seq s + 1))) m) (fun r =>
  let s1 := fst r in
  Some (set_tab s1 (mkStamp host 0 (e_r2 e) false (e_junk2 e) (getTimestamp (e_ms e) 5000) :: s_tab s1), snd r)).

(** lib/secure/src/olsrd_secure.c:894-970 send_cres; [chal_in] are the bytes of the
    challenge received; the memory between the challenge and the time stamp is zero
    (912) *)
Definition send_cres (c : scfg) (e : senv) (s : sec) (to from chal_in : list Z) : option (sec * list (list Z)) :=
  let a := c_abi c in
  let s1 := set_tab s (upd_stamp (s_tab s) to (fun p => mkStamp (p_addr p) (p_diff p) (e_r1 e) (p_valid p) (p_val p) (p_conf p))) in
  let m := hs_sign c (hs_header c 12 (CRMSG a) (s_seq s) to ++ net32 (e_r1 e) ++ repeat 0 (Z.to_nat (cts_off a - 20)) ++
                      enc_ts a (s_now s) ++ c_hash c (chal_in ++ from)) in
  send c e (set_seq s1 (u16 (s_seq s + 1))) m.

(** lib/secure/src/olsrd_secure.c:977-1045 send_rres *)
Definition send_rres (c : scfg) (e : senv) (s : sec) (to from chal_in : list Z) : option (sec * list (list Z)) :=
  let a := c_abi c in
  let m := hs_sign c (hs_header c 13 (RRMSG a) (s_seq s) to ++ enc_ts a (s_now s) ++ c_hash c (chal_in ++ from)) in
  send c e (set_seq s (u16 (s_seq s + 1))) m.

(** a field of the message at &pck[4], lib/secure/src/olsrd_secure.c:268-276 *)
Definition fld (buf : list Z) (off n : Z) : option (list Z) := rdn buf (4 + off) n.
(** if_ifwithaddr != NULL, src/interfaces.c:146-173 *)
Definition is_mine (c : scfg) (a : list Z) : bool := existsb (fun x => bytes_eqb x a) (c_ifs c).
(** the signature of a handshake message of [n] bytes is right,
    lib/secure/src/olsrd_secure.c:635-650, 736-751, 854-868 *)
Definition hs_verify (c : scfg) (buf : list Z) (n : Z) : option bool :=
  obind (fld buf 0 (n - ssz (c_abi c))) (fun m =>
  obind (fld buf (n - ssz (c_abi c)) (ssz (c_abi c))) (fun g => Some (bytes_eqb (c_hash c (m ++ c_key c)) g))).

(** lib/secure/src/olsrd_secure.c:808-887 parse_challenge: the entry is made (828-838)
    before the signature is checked (854-868) *)
Definition parse_challenge (c : scfg) (e : senv) (s : sec) (buf : list Z) : option (sec * list (list Z)) :=
  obind (fld buf 12 4) (fun dest =>
  if negb (is_mine c dest) then Some (s, [])
  else
    obind (fld buf 4 4) (fun orig =>
    match (match lookup_stamp (s_tab s) orig with
           | None => Some (let j := e_junk1 e in
                           set_tab s (mkStamp orig (p_diff j) (p_chal j) (p_valid j) (p_val j) (p_conf j) :: s_tab s))
           | Some p => if isTimedOut (e_ms e) (p_conf p) then Some s else None
           end) with
    | None => Some (s, [])
    | Some s1 =>
        obind (hs_verify c buf (CMSG (c_abi c))) (fun good =>
        if negb good then Some (s1, [])
        else
          obind (fld buf 16 4) (fun chal =>
          let s2 := set_tab s1 (upd_stamp (s_tab s1) orig
                     (fun p => mkStamp (p_addr p) 0 (p_chal p) false (p_val p) (getTimestamp (e_ms e) 5000))) in
          send_cres c e s2 orig dest chal))
    end)).

(** lib/secure/src/olsrd_secure.c:689-699, 789-800: the entry after a good response *)
Definition validated (c : scfg) (e : senv) (s : sec) (orig ts : list Z) : sec :=
  set_tab s (upd_stamp (s_tab s) orig
    (fun p => mkStamp (p_addr p) (s_now s - dec_ts (c_abi c) ts) 0 true (getTimestamp (e_ms e) 30000) (p_conf p))).

(** the checks that parse_cres (627-687) and parse_rres (728-787) share: message of [n]
    bytes with the digest at [doff]; the originator, or nothing *)
Definition response_ok (c : scfg) (s : sec) (buf : list Z) (n doff : Z) : option (option (list Z * list Z)) :=
  obind (fld buf 12 4) (fun dest =>
  if negb (is_mine c dest) then Some None
  else
    obind (hs_verify c buf n) (fun good =>
    if negb good then Some None
    else
      obind (fld buf 4 4) (fun orig =>
      match lookup_stamp (s_tab s) orig with
      | None => Some None
      | Some p =>
          obind (fld buf doff (ssz (c_abi c))) (fun d =>
          Some (if bytes_eqb d (c_hash c (net32 (p_chal p) ++ orig)) then Some (orig, dest) else None))
      end))).

(** lib/secure/src/olsrd_secure.c:613-714 parse_cres *)
Definition parse_cres (c : scfg) (e : senv) (s : sec) (buf : list Z) : option (sec * list (list Z)) :=
  let a := c_abi c in
  obind (response_ok c s buf (CRMSG a) (cts_off a + tsz a)) (fun r =>
  match r with
  | None => Some (s, [])
  | Some (orig, dest) =>
      obind (fld buf (cts_off a) (tsz a)) (fun ts =>
      obind (fld buf 16 4) (fun chal => send_rres c e (validated c e s orig ts) orig dest chal))
  end).

(** lib/secure/src/olsrd_secure.c:716-806 parse_rres *)
Definition parse_rres (c : scfg) (e : senv) (s : sec) (buf : list Z) : option (sec * list (list Z)) :=
  let a := c_abi c in
  obind (response_ok c s buf (RRMSG a) (16 + tsz a)) (fun r =>
  match r with
  | None => Some (s, [])
  | Some (orig, _) => obind (fld buf 16 (tsz a)) (fun ts => Some (validated c e s orig ts, []))
  end).

(** lib/secure/src/olsrd_secure.c:260-284 check_auth: only the first message of the
    packet is looked at, whatever the length of the packet *)
Definition check_auth (c : scfg) (e : senv) (s : sec) (buf : list Z) : option (sec * list (list Z)) :=
  obind (rd8 buf 4) (fun t =>
  if t =? 11 then parse_challenge c e s buf
  else if t =? 12 then parse_cres c e s buf
  else if t =? 13 then parse_rres c e s buf
  else Some (s, [])).

(** lib/secure/src/olsrd_secure.c:487-527 check_timestamp *)
Definition check_timestamp (c : scfg) (e : senv) (s : sec) (orig : list Z) (t : Z) : option (sec * list (list Z) * bool) :=
  match lookup_stamp (s_tab s) orig with
  | None => obind (send_challenge c e s orig) (fun r => Some (r, false))
  | Some p =>
      if negb (p_valid p) then Some (s, [], false)
      else
        let d := p_diff p - (s_now s - t) in
        if (d >? 3) || (d <? -3) then Some (s, [], false)
        else Some (set_tab s (upd_stamp (s_tab s) orig
                    (fun p => mkStamp (p_addr p) (Z.quot (s_now s - t + p_diff p) 2) (p_chal p) (p_valid p)
                                      (getTimestamp (e_ms e) 30000) (p_conf p))), [], true)
  end.

(** lib/secure/src/olsrd_secure.c:366-485 validate_packet; unknown algorithms are treated
    like the known one (413-430); the last component is the new length *)
Definition validate_packet (c : scfg) (e : senv) (s : sec) (buf : list Z) (size : Z) : option (sec * list (list Z) * option Z) :=
  let a := c_abi c in
  let ps := size - SMSG a in
  if ps <? 4 then Some (s, [], None)
  else
    obind (rdn buf ps 12) (fun h =>
    if negb ((be (slice h 0 1) =? 10) && (be (slice h 1 1) =? 0) && bytes_eqb (slice h 2 2) (net16 (SMSG a)) &&
             (be (slice h 8 1) =? 1) && (be (slice h 9 1) =? 0)) then Some (s, [], None)
    else
      obind (rd8 buf (ps + sig_off a)) (fun ty =>
      if negb (ty =? 1) then Some (s, [], None)
      else
        obind (packet_hash c buf (size - ssz a)) (fun x =>
        obind (rdn buf (ps + sg_off a) (ssz a)) (fun g =>
        if negb (bytes_eqb x g) then Some (s, [], None)
        else
          obind (rdn buf (ps + ts_off a) (tsz a)) (fun ts =>
          obind (check_timestamp c e s (slice h 4 4) (dec_ts a ts)) (fun r =>
          let '(s1, o, ok) := r in Some (s1, o, if ok then Some ps else None))))))).

(** lib/secure/src/olsrd_secure.c:226-251 secure_preprocessor: new state, packets sent,
    and what is left of the packet in the buffer unless it is rejected *)
Definition secure_preprocessor (c : scfg) (e : senv) (s : sec) (buf : list Z) (size : Z)
  : option (sec * list (list Z) * option (list Z * Z)) :=
  obind (check_auth c e s buf) (fun r1 =>
  let '(s1, o1) := r1 in
  obind (validate_packet c e s1 buf size) (fun r2 =>
  let '(s2, o2, n) := r2 in
  match n with
  | None => Some (s2, o1 ++ o2, None)
  | Some len => obind (wr buf 0 (net16 len)) (fun buf' => Some (s2, o1 ++ o2, Some (buf', len)))
  end)).

(** lib/secure/src/olsrd_secure.c:1073-1107 timeout_timestamps, run every two seconds
    (206); [t] is the time of day *)
Definition timeout_timestamps (ms t : Z) (s : sec) : sec :=
  mkSec (filter (fun p => negb (isTimedOut ms (p_val p) && isTimedOut ms (p_conf p))) (s_tab s)) (s_nb s) (s_seq s) t.

(** Model of the egress file reader of multi-gateway mode (src/egressFile.c).  Definitions
    only.  Not modelled: the text of the error reports, failures of malloc and regcomp,
    read errors in the middle of the file, and 32-bit platforms (unsigned long is taken to
    have 64 bits in src/egressFile.c:261). *)
From Coq Require Import String.
From Verif Require Import Base Regex GwSpeed IpCalc.

(** src/egressFile.c:68-69 *)
Definition LINE_LENGTH : nat := 256.

(** fgets(line, LINE_LENGTH, fp) of src/egressFile.c:536: at most [n] bytes, up to and
    including a newline; what remains of the file *)
Fixpoint fgets (n : nat) (f : list Z) : list Z * list Z :=
  match n, f with
  | O, _ => ([], f)
  | _, [] => ([], [])
  | S n', c :: f' => if c =? 10 then ([c], f') else let (l, r) := fgets n' f' in (c :: l, r)
  end.
(** the buffer as a C string: up to the first 0 (src/egressFile.c:552,560) *)
Fixpoint upto0 (l : list Z) : list Z :=
  match l with [] => [] | c :: l' => if c =? 0 then [] else c :: upto0 l' end.
(** the lines which the loop of src/egressFile.c:536 sees; [k] bounds the number of rounds *)
Fixpoint rounds (k : nat) (f : list Z) : list (list Z) :=
  match k, f with
  | O, _ | _, [] => []
  | S k', _ => let (l, r) := fgets (LINE_LENGTH - 1) f in upto0 l :: rounds k' r
  end.
(** src/egressFile.c:536 *)
Definition file_lines (f : list Z) : list (list Z) := rounds (List.length f) f.

(** [:space:] in the C locale (src/egressFile.c:72) *)
Definition spacec (c : Z) : bool := (c =? 32) || ((9 <=? c) && (c <=? 13)).
(** [^[:space:]=] (src/egressFile.c:80) *)
Definition ifnc (c : Z) : bool := negb (spacec c) && negb (c =? 61).
(** [[:digit:]\.:] (src/egressFile.c:94,97): the backslash is a member too *)
Definition ipc (c : Z) : bool := digitc c || oneof [92; 46; 58] c.
(** src/egressFile.c:72 regexComment; the strings do not contain 0 *)
Definition rx_comment : rx :=
  Alt (Star (Cls spacec)) (Cat (Plus (Cls (fun c => spacec c || (c =? 35)))) (Star (Cls anyc))).
(** [[:space:]]*,[[:space:]]* and [[:space:]]*=[[:space:]]* (src/egressFile.c:81,83) *)
Definition rx_sep (c : Z) : rx := Cat (Star (Cls spacec)) (Cat (Chr c) (Star (Cls spacec))).
(** src/egressFile.c:79-101 regexEgress *)
Definition rx_egress : rx :=
  Cat (Star (Cls spacec)) (Cat (Plus (Cls ifnc)) (Cat (rx_sep 61)
  (Cat (Star (Cls digitc)) (Cat (rx_sep 44) (Cat (Star (Cls digitc)) (Cat (rx_sep 44)
  (Cat (Star (Cls digitc)) (Cat (rx_sep 44) (Cat (Star (Cls digitc))
  (Cat (Opt (Cat (rx_sep 44) (Cat (Star (Cls digitc))
       (Opt (Cat (rx_sep 44) (Cat (Opt (Cat (Plus (Cls ipc)) (Cat (Chr 47) (Plus (Cls digitc)))))
            (Opt (Cat (rx_sep 44) (Star (Cls ipc))))))))))
  (Star (Cls spacec)))))))))))).

(** the submatches 1-5, 7, 9-11 and 13 of regexec (src/egressFile.c:563); an optional one
    is [None] when rm_so is -1 *)
Record groups := mkG { g_name : list Z; g_rn : list Z; g_rg : list Z; g_up : list Z; g_down : list Z;
  g_cost : option (list Z); g_net : option (option (list Z * list Z)); g_gw : option (list Z) }.

(** how regexec (src/egressFile.c:563) goes through the line: the longest run of a class *)
Fixpoint span (f : Z -> bool) (l : list Z) : list Z * list Z :=
  match l with [] => ([], []) | c :: l' => if f c then let (a, b) := span f l' in (c :: a, b) else ([], l) end.
(** ... blanks (src/egressFile.c:79) *)
Definition skip (l : list Z) : list Z := snd (span spacec l).
(** ... a separator (src/egressFile.c:81,83) *)
Definition sep (s : Z) (l : list Z) : option (list Z) :=
  match skip l with c :: l' => if c =? s then Some (skip l') else None | [] => None end.
(** ... nothing but blanks (src/egressFile.c:101) *)
Definition blank (l : list Z) : bool := match skip l with [] => true | _ => false end.
(** ... group 12 (src/egressFile.c:95-98) *)
Definition group12 (l : list Z) : option (option (list Z)) :=
  match sep 44 l with
  | None => if blank l then Some None else None
  | Some l => let (gw, l) := span ipc l in if blank l then Some (Some gw) else None
  end.
(** ... group 8 (src/egressFile.c:92-99) *)
Definition group8 (l : list Z) : option (option (option (list Z * list Z)) * option (list Z)) :=
  match sep 44 l with
  | None => if blank l then Some (None, None) else None
  | Some l =>
      let (ip, r) := span ipc l in
      match ip, r with
      | [], _ => option_map (fun gw => (Some None, gw)) (group12 l)
      | _, c :: r => if c =? 47 then let (n, r) := span digitc r in
                       match n with [] => None | _ => option_map (fun gw => (Some (Some (ip, n)), gw)) (group12 r) end
                     else None
      | _, [] => None
      end
  end.
(** ... group 6 (src/egressFile.c:89-100) *)
Definition group6 (l : list Z) : option (option (list Z) * (option (option (list Z * list Z)) * option (list Z))) :=
  match sep 44 l with
  | None => if blank l then Some (None, (None, None)) else None
  | Some l => let (pc, l) := span digitc l in option_map (fun t => (Some pc, t)) (group8 l)
  end.
(** regexec with compiledRegexEgress (src/egressFile.c:563) *)
Definition egress_groups (l : list Z) : option groups :=
  let (name, l) := span ifnc (skip l) in
  match name with [] => None | _ =>
  match sep 61 l with None => None | Some l =>
  let (rn, l) := span digitc l in match sep 44 l with None => None | Some l =>
  let (rg, l) := span digitc l in match sep 44 l with None => None | Some l =>
  let (up, l) := span digitc l in match sep 44 l with None => None | Some l =>
  let (down, l) := span digitc l in
  option_map (fun t => mkG name rn rg up down (fst t) (fst (snd t)) (snd (snd t))) (group6 l)
  end end end end end.

(** src/egressFile.c:288-294 stripEols; on the reversed string *)
Fixpoint drop_eols (l : list Z) : list Z :=
  match l with [] => [] | c :: l' => if (c =? 10) || (c =? 13) then drop_eols l' else l end.
(** src/egressFile.c:288-294 *)
Definition stripEols (l : list Z) : list Z := rev (drop_eols (rev l)).

(** src/egressFile.c:259-281 readULL; strtoull reports ERANGE above 2^64-1 *)
Fixpoint strtoull (a : Z) (s : list Z) : Z := match s with [] => a | c :: s' => strtoull (10 * a + (c - 48)) s' end.
(** src/egressFile.c:259-281 *)
Definition readULL (s : list Z) : option Z :=
  let v := strtoull 0 s in if v >? 18446744073709551615 then None else Some v.
(** src/egressFile.c:600,617,633,647,662: the value stays when the field is empty *)
Definition field (d : Z) (s : list Z) : option Z := match s with [] => Some d | _ => readULL s end.

(** inet_pton(AF_INET) of the C library as called in src/egressFile.c:226: four decimal
    octets without leading zeros; [n] octets are still to come, [a] is the address so far,
    [o] the octet being read *)
Fixpoint pton4 (n : nat) (a : Z) (o : option Z) (s : list Z) : option Z :=
  match s with
  | [] => match n, o with O, Some v => Some (256 * a + v) | _, _ => None end
  | c :: s' =>
      if digitc c then
        match o with
        | None => pton4 n a (Some (c - 48)) s'
        | Some v => if (v =? 0) || (10 * v + (c - 48) >? 255) then None else pton4 n a (Some (10 * v + (c - 48))) s'
        end
      else if c =? 46 then
        match n, o with S n', Some v => pton4 n' (256 * a + v) None s' | _, _ => None end
      else None
  end.
(** src/egressFile.c:213-243 readIPAddress: [inl] is an IPv4 address in host byte order,
    [inr] an IPv6 address; [p6] is inet_pton(AF_INET6) *)
Definition readIPAddress (p6 : list Z -> option (list Z)) (s : list Z) : option (Z + list Z) :=
  match pton4 3 0 None s with
  | Some a => Some (inl a)
  | None => option_map inr (p6 s)
  end.

(** what a line says (src/egressFile.c:537-548) *)
Record vals := mkV { v_rn : bool; v_rg : bool; v_up : Z; v_down : Z; v_cost : Z; v_net : option (Z * Z); v_gw : option Z }.

(** src/egressFile.c:670-701 the network *)
Definition read_net (p6 : list Z -> option (list Z)) (n : option (option (list Z * list Z))) : option (option (Z + list Z) * Z) :=
  match n with
  | Some (Some (ip, len)) =>
      match readIPAddress p6 ip, readULL len with
      | Some a, Some v => if v >? (match a with inl _ => 32 | inr _ => 128 end) then None else Some (Some a, u8 v)
      | _, _ => None
      end
  | _ => Some (None, 0)
  end.
(** src/egressFile.c:703-715 the gateway *)
Definition read_gw (p6 : list Z -> option (list Z)) (g : option (list Z)) : option (option (Z + list Z)) :=
  match g with
  | None | Some [] => Some None
  | Some s => option_map Some (readIPAddress p6 s)
  end.
(** src/egressFile.c:733-739 *)
Definition masked (a len : Z) : Z := Z.land a (if len =? 0 then 0 else u32 (Z.shiftl 4294967295 (32 - len))).
(** src/egressFile.c:593-739 the fields of a line; [None]: the line is ignored *)
Definition read_vals (p6 : list Z -> option (list Z)) (g : groups) : option vals :=
  match field 1 (g_rn g), field 1 (g_rg g), field 0 (g_up g), field 0 (g_down g),
        field 0 (match g_cost g with Some s => s | None => [] end), read_net p6 (g_net g), read_gw p6 (g_gw g) with
  | Some rn, Some rg, Some up, Some down, Some pc, Some (net, len), Some gw =>
      match net, gw with
      | Some (inr _), _ | _, Some (inr _) => None
      | _, _ => Some (mkV (negb (rn =? 0)) (negb (rg =? 0)) (Z.min up MAX_SPEED) (Z.min down MAX_SPEED) (Z.min pc 4294967295)
                  (match net with Some (inl a) => Some (masked a len, len) | _ => None end)
                  (match gw with Some (inl a) => Some a | _ => None end))
      end
  | _, _, _, _, _, _, _ => None
  end.

(** src/egressTypes.h:83-99 struct egress_if_bw; [None] for an address which is not set
    (the bytes are then zero) *)
Record bw := mkBw { b_rn : bool; b_rg : bool; b_up : Z; b_down : Z; b_cost : Z; b_net : option (Z * Z); b_gw : option Z; b_costs : Z }.
(** src/egressTypes.h:101-135 struct sgw_egress_if, without the routes *)
Record eif := mkE { e_name : list Z; e_index : Z; e_up : bool; e_prev : bw; e_cur : bw;
  e_cchg : bool; e_nchg : bool; e_gchg : bool; e_bchg : bool; e_in : bool }.

(** src/egressFile.c:343-347 egressBwCalculateCosts *)
Definition bw_costs (w : gwcfg) (up : bool) (b : bw) : bw :=
  mkBw (b_rn b) (b_rg b) (b_up b) (b_down b) (b_cost b) (b_net b) (b_gw b) (gw_costs_weigh w up (b_cost b) (b_up b) (b_down b)).
(** src/egressFile.c:354-367 egressBwClear *)
Definition bw_clear (w : gwcfg) (up : bool) : bw := bw_costs w up (mkBw true true 0 0 0 None None 0).
(** src/egressFile.c:744-755 *)
Definition bw_of (w : gwcfg) (up : bool) (v : vals) : bw :=
  bw_costs w up (mkBw (v_rn v) (v_rg v) (v_up v) (v_down v) (v_cost v) (v_net v) (v_gw v) 0).
(** src/egressFile.c:741-758 *)
Definition take_vals (w : gwcfg) (v : vals) (e : eif) : eif :=
  mkE (e_name e) (e_index e) (e_up e) (e_prev e)
    (if (v_up v =? 0) || (v_down v =? 0) then bw_clear w (e_up e) else bw_of w (e_up e) v)
    (e_cchg e) (e_nchg e) (e_gchg e) (e_bchg e) true.

(** strcmp as called in src/egressFile.c:306 *)
Fixpoint leqb (a b : list Z) : bool :=
  match a, b with [], [] => true | x :: a', y :: b' => (x =? y) && leqb a' b' | _, _ => false end.
(** src/egressFile.c:302-313 findEgressInterface *)
Definition known (name : list Z) (es : list eif) : bool := existsb (fun e => leqb (e_name e) name) es.
(** ... and what is done to the interface which is found; src/egressFile.c:302-313 *)
Fixpoint on_first (name : list Z) (f : eif -> eif) (es : list eif) : list eif :=
  match es with [] => [] | e :: es' => if leqb (e_name e) name then f e :: es' else e :: on_first name f es' end.

(** src/egressFile.c:536-759 one line; the second component is set when an error is
    reported (reportedErrorsLocal).  IFNAMSIZ is 16 *)
Definition read_line (w : gwcfg) (p6 : list Z -> option (list Z)) (l : list Z) (es : list eif) : list eif * bool :=
  if matches rx_comment l then (es, false)
  else match egress_groups (stripEols l) with
       | None => (es, true)
       | Some g =>
           if (Z.of_nat (List.length (g_name g)) >? 16) || negb (known (g_name g) es) then (es, true)
           else match read_vals p6 g with
                | None => (es, true)
                | Some v => (on_first (g_name g) (take_vals w v) es, false)
                end
       end.
(** src/egressFile.c:536-759 *)
Fixpoint read_lines (w : gwcfg) (p6 : list Z -> option (list Z)) (ls : list (list Z)) (es : list eif) : list eif * bool :=
  match ls with
  | [] => (es, false)
  | l :: ls' => let (es1, e1) := read_line w p6 l es in let (es2, e2) := read_lines w p6 ls' es1 in (es2, e1 || e2)
  end.

(** src/egressFile.c:467-480 readEgressFileClear *)
Definition clear_if (e : eif) : eif := mkE (e_name e) (e_index e) (e_up e) (e_cur e) (e_cur e) false false false false false.

(** memcmp of the network and of the gateway (src/egressTypes.h:146,154) *)
Definition net_eqb (a b : option (Z * Z)) : bool :=
  match a, b with Some (x, n), Some (y, m) => (x =? y) && (n =? m) | None, None => true | _, _ => false end.
(** src/egressTypes.h:154 *)
Definition gw_eqb (a b : option Z) : bool :=
  match a, b with Some x, Some y => x =? y | None, None => true | _, _ => false end.
(** src/egressTypes.h:137-139 egressBwCostsChanged *)
Definition costs_changed (p c : bw) : bool := negb (b_costs p =? b_costs c).
(** src/egressTypes.h:141-147 egressBwNetworkChanged *)
Definition net_changed (p c : bw) : bool := negb (eqb (b_rn p) (b_rn c)) || negb (net_eqb (b_net p) (b_net c)).
(** src/egressTypes.h:149-155 egressBwGatewayChanged *)
Definition gw_changed (p c : bw) : bool := negb (eqb (b_rg p) (b_rg c)) || negb (gw_eqb (b_gw p) (b_gw c)).
(** src/egressFile.c:772-779 (egressBwChanged: src/egressTypes.h:157-159) *)
Definition finish_if (w : gwcfg) (e : eif) : eif :=
  let c := if e_in e then e_cur e else bw_clear w (e_up e) in
  let p := e_prev e in
  mkE (e_name e) (e_index e) (e_up e) p c (costs_changed p c) (net_changed p c) (gw_changed p c)
      (costs_changed p c || net_changed p c || gw_changed p c) (e_in e).

(** what is found under the name of the file (src/egressFile.c:499-529): it cannot be
    opened, fstat fails, fdopen fails, or it is read; the time is st_mtim *)
Inductive found := NoFile | NoStat | NoStream (t : Z * Z) | File (t : Z * Z) (content : list Z).
(** what happens to the file descriptor (src/egressFile.c:761,788-793) *)
Inductive fdop := Fclose | Close.
(** the state of the reader: cachedStat, reportedErrors and the interfaces
    (src/egressFile.c:125,141) *)
Record est := mkS { s_time : Z * Z; s_rep : bool; s_ifs : list eif }.
(** memcmp of src/egressFile.c:520 *)
Definition time_eqb (a b : Z * Z) : bool := (fst a =? fst b) && (snd a =? snd b).
(** src/egressFile.c:768-786 *)
Definition outerror (w : gwcfg) (t : Z * Z) (rep : bool) (es : list eif) (ops : list fdop) : est * bool * list fdop :=
  let es := map (finish_if w) es in (mkS t rep es, existsb e_bchg es, ops).
(** src/egressFile.c:488-795 readEgressFile: the state, the result, and the calls with which
    the descriptor is closed *)
Definition readEgressFile (w : gwcfg) (p6 : list Z -> option (list Z)) (s : est) (f : found) : est * bool * list fdop :=
  match f with
  | NoFile => outerror w (0, 0) (s_rep s) (map clear_if (s_ifs s)) []
  | NoStat => outerror w (0, 0) (s_rep s) (map clear_if (s_ifs s)) [Close]
  | NoStream t => (s, false, [Close])
  | File t content =>
      if time_eqb (s_time s) t then (s, false, [Close])
      else let (es, err) := read_lines w p6 (file_lines content) (map clear_if (s_ifs s)) in
           outerror w t err es [Fclose; Close]
  end.

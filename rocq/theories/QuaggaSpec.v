(** What the zebra daemon makes of the bytes it is sent and what it sends
    itself, written down from the message format (not from the plugin). *)
From Verif Require Import Base Bytes Quagga.

(** ** From olsrd to zebra *)
Inductive zhop := HGw (a : list Z) | HIf (i : Z).
Inductive zop :=
  | OpRoute (add : bool) (type flags : Z) (net : list Z) (plen : Z) (hops : list zhop) (distance metric : option Z)
  | OpHello (type : Z)
  | OpRedist (add : bool) (type : Z).

(** the first [n] bytes and what follows, if there are as many *)
Definition cut (n : nat) (l : list Z) : option (list Z * list Z) :=
  if (n <=? length l)%nat then Some (firstn n l, skipn n l) else None.

Definition val (l : list Z) : Z := fold_left (fun a x => 256 * a + x) l 0.

Fixpoint dec_hops (n : nat) (l : list Z) : option (list zhop * list Z) :=
  match n with
  | O => Some ([], l)
  | S n' =>
    match l with
    | [] => None
    | kind :: l' =>
      match (if kind =? 1 then match cut 4 l' with Some (a, r) => Some (HIf (val a), r) | None => None end
             else if kind =? 3 then match cut 4 l' with Some (a, r) => Some (HGw a, r) | None => None end
             else if kind =? 6 then match cut 16 l' with Some (a, r) => Some (HGw a, r) | None => None end
             else None) with
      | None => None
      | Some (h, r) => match dec_hops n' r with Some (hs, r') => Some (h :: hs, r') | None => None end
      end
    end
  end.

(** [width] is the length of an address in bytes *)
Definition dec_route (version : Z) (width : nat) (add : bool) (l : list Z) : option zop :=
  match l with
  | type :: flags :: msg :: l1 =>
    match (if version =? 2 then match l1 with 0 :: 1 :: l2 => Some l2 | _ => None end else Some l1) with
    | Some (plen :: l3) =>
      if plen >? 8 * Z.of_nat width then None else
      match cut (Z.to_nat ((plen + 7) / 8)) l3 with
      | None => None
      | Some (net, l4) =>
        match (if Z.testbit msg 0 then match l4 with n :: l5 => dec_hops (Z.to_nat n) l5 | [] => None end else Some ([], l4)) with
        | None => None
        | Some (hops, l6) =>
          match (if Z.testbit msg 2 then match l6 with d :: l7 => Some (Some d, l7) | [] => None end else Some (None, l6)) with
          | None => None
          | Some (dist, l8) =>
            match (if Z.testbit msg 3 then match cut 4 l8 with Some (m, l9) => Some (Some (val m), l9) | None => None end else Some (None, l8)) with
            | Some (met, []) => Some (OpRoute add type flags (net ++ repeat 0 (width - length net)) plen hops dist met)
            | _ => None
            end
          end
        end
      end
    | _ => None
    end
  | _ => None
  end.

Definition dec_cmd (version : Z) (l : list Z) : option (Z * list Z) :=
  if version =? 0 then match l with c :: r => Some (c, r) | [] => None end
  else match l with
       | m :: v :: a :: b :: r => if (m =? 255) && (v =? version) then Some (256 * a + b, r) else None
       | _ => None
       end.

Definition dec_msg (version : Z) (v6 : bool) (l : list Z) : option zop :=
  match dec_cmd version l with
  | None => None
  | Some (c, r) =>
    if c =? (if v6 then 9 else 7) then dec_route version (if v6 then 16 else 4) true r
    else if c =? (if v6 then 10 else 8) then dec_route version (if v6 then 16 else 4) false r
    else match r with
         | [t] => if c =? 23 then Some (OpHello t) else if c =? 11 then Some (OpRedist true t)
                  else if c =? 12 then Some (OpRedist false t) else None
         | _ => None
         end
  end.

(** The stream is a sequence of messages, each with its length in front;
    [n] bounds the number of messages (the length of the stream will do). *)
Fixpoint dec_stream (n : nat) (version : Z) (v6 : bool) (l : list Z) : option (list zop) :=
  match l with
  | [] => Some []
  | a :: b :: r =>
    match n with
    | O => None
    | S n' =>
      let len := 256 * a + b in
      if len <? 2 then None else
      match cut (Z.to_nat (len - 2)) r with
      | None => None
      | Some (m, r') =>
        match dec_msg version v6 m with
        | None => None
        | Some op => match dec_stream n' version v6 r' with Some ops => Some (op :: ops) | None => None end
        end
      end
    end
  | _ => None
  end.
Definition zebra_sees (version : Z) (v6 : bool) (l : list Z) (ops : list zop) : Prop :=
  dec_stream (length l) version v6 l = Some ops.

(** What zebra should be told about a route: the network (the bits within the
    prefix), reached through the interface if the destination is the gateway
    itself, else through the gateway. *)
Definition net_of (v6 : bool) (plen : Z) (a : list Z) : list Z :=
  let n := Z.to_nat ((plen + 7) / 8) in firstn n a ++ repeat 0 ((if v6 then 16 else 4) - n).
Definition hop_of (v6 : bool) (dst : list Z) (plen : Z) (gw : list Z) (i : Z) (h : zhop) : Prop :=
  let w := (if v6 then 16 else 4)%nat in
  (plen = (if v6 then 128 else 32) /\ firstn w gw = firstn w dst /\ h = HIf (u32 i)) \/
  (~ (plen = (if v6 then 128 else 32) /\ firstn w gw = firstn w dst) /\ h = HGw (firstn w gw)).
Definition op_add (c : zcfg) (r : qroute) (o : zop) : Prop :=
  exists h, hop_of (z_v6 c) (q_dst r) (q_plen r) (q_best_gw r) (q_best_if r) h /\
  o = OpRoute true 11 (z_flags c) (net_of (z_v6 c) (q_plen r) (q_dst r)) (q_plen r) [h]
        (if z_distance c =? 0 then None else Some (z_distance c)) (Some (q_hops r)).
Definition op_del (c : zcfg) (r : qroute) (o : zop) : Prop :=
  exists h, hop_of (z_v6 c) (q_dst r) (q_plen r) (q_nh_gw r) (q_nh_if r) h /\
  o = OpRoute false 11 (z_flags c) (net_of (z_v6 c) (q_plen r) (q_dst r)) (q_plen r) [h]
        (if z_distance c =? 0 then None else Some (z_distance c)) (Some 0).

Definition byte (x : Z) : Prop := 0 <= x < 256.
Definition cfg_ok (c : zcfg) : Prop :=
  (z_version c = 0 \/ z_version c = 1 \/ z_version c = 2) /\ byte (z_flags c) /\ byte (z_distance c).
Definition addr_ok (a : list Z) : Prop := length a = 16%nat /\ Forall byte a.
Definition route_ok (c : zcfg) (r : qroute) : Prop :=
  addr_ok (q_dst r) /\ addr_ok (q_best_gw r) /\ addr_ok (q_nh_gw r) /\
  0 <= q_plen r <= (if z_v6 c then 128 else 32) /\ 0 <= q_hops r < 4294967296.

(** A run of route changes: each is an addition or a removal. *)
Fixpoint changes (c : zcfg) (w : list wres) (l : list (bool * qroute)) (k : qroute -> Z) (s : zst) : zwr :=
  match l with
  | [] => WRet 0 s w
  | (add, r) :: l' =>
    match (if add then zebra_addroute c w r k s else zebra_delroute c w r k s) with
    | WRet _ s' w' => changes c w' l' k s'
    | x => x
    end
  end.
Definition change_op (c : zcfg) (p : bool * qroute) (o : zop) : Prop := if fst p then op_add c (snd p) o else op_del c (snd p) o.

(** the route types asked for, from [t] on *)
Fixpoint asked (t : Z) (red : list bool) : list Z :=
  match red with [] => [] | b :: red' => (if b then [t] else []) ++ asked (t + 1) red' end.

(** The answers of write(2) while the connection lasts; enough of them that
    [n] bytes get through. *)
Definition lasting (w : list wres) : Prop := Forall (fun x => x <> WErr) w.
Definition takes (x : wres) : bool := match x with WSome n => 1 <=? n | _ => false end.

(** ** From zebra to olsrd *)
Record zin := mkIn { in_add : bool; in_type : Z; in_flags : Z; in_net : list Z; in_plen : Z;
                     in_hops : option (list (list Z)); in_ifs : option (list Z);
                     in_dist : option Z; in_metric : option Z }.
Inductive zmsg := MRoute (i : zin) | MOther (cmd : Z) (payload : list Z).

Definition enc16 (x : Z) : list Z := [x / 256; x mod 256].
Definition enc32 (x : Z) : list Z := [x / 16777216; x / 65536 mod 256; x / 256 mod 256; x mod 256].
Definition bit {A} (o : option A) (v : Z) : Z := match o with Some _ => v | None => 0 end.
Definition opt {A} (o : option A) (f : A -> list Z) : list Z := match o with Some x => f x | None => [] end.
Definition enc_cmd (version cmd : Z) : list Z := if version =? 0 then [cmd] else [255; version] ++ enc16 cmd.
(** only the bytes within the prefix are sent; version 0 always sends a metric *)
Definition enc_route (version : Z) (i : zin) : list Z :=
  [in_type i; in_flags i; bit (in_hops i) 1 + bit (in_ifs i) 2 + bit (in_dist i) 4 + bit (in_metric i) 8; in_plen i]
  ++ in_net i
  ++ opt (in_hops i) (fun l => Z.of_nat (length l) :: concat l)
  ++ opt (in_ifs i) (fun l => Z.of_nat (length l) :: concat (map enc32 l))
  ++ opt (in_dist i) (fun d => [d])
  ++ match in_metric i with Some m => enc32 m | None => if version =? 0 then [0; 0; 0; 0] else [] end.
Definition enc_body (version : Z) (v6 : bool) (m : zmsg) : list Z :=
  match m with
  | MRoute i => enc_cmd version (if in_add i then (if v6 then 9 else 7) else (if v6 then 10 else 8)) ++ enc_route version i
  | MOther cmd p => enc_cmd version cmd ++ p
  end.
Definition enc_msg (version : Z) (v6 : bool) (m : zmsg) : list Z :=
  let b := enc_body version v6 m in enc16 (2 + Z.of_nat (length b)) ++ b.
Definition enc_msgs (version : Z) (v6 : bool) (l : list zmsg) : list Z := concat (map (enc_msg version v6) l).

Definition width (v6 : bool) : nat := if v6 then 16%nat else 4%nat.
Definition zin_ok (v6 : bool) (i : zin) : Prop :=
  byte (in_type i) /\ byte (in_flags i) /\ 0 <= in_plen i <= 8 * Z.of_nat (width v6) /\
  Z.of_nat (length (in_net i)) = (in_plen i + 7) / 8 /\ Forall byte (in_net i) /\
  (forall l, in_hops i = Some l -> (length l < 256)%nat /\ Forall (fun a => length a = width v6 /\ Forall byte a) l) /\
  (forall l, in_ifs i = Some l -> (length l < 256)%nat /\ Forall (fun x => 0 <= x < 4294967296) l) /\
  (forall d, in_dist i = Some d -> byte d) /\ (forall m, in_metric i = Some m -> 0 <= m < 4294967296).
Definition zmsg_ok (version : Z) (v6 : bool) (m : zmsg) : Prop :=
  match m with
  | MRoute i => zin_ok v6 i
  | MOther cmd p => 0 <= cmd < (if version =? 0 then 256 else 65536) /\ Forall byte p /\ Z.of_nat (length p) < 65000 /\
                    cmd <> (if v6 then 9 else 7) /\ cmd <> (if v6 then 10 else 8)
  end.

(** The network a message is about. *)
Definition pad16 (a : list Z) : list Z := a ++ repeat 0 (16 - length a).
Definition about (i : zin) : list Z * Z := (pad16 (in_net i), in_plen i).

(** The last word of zebra about a network, provided that its messages about
    it take turns: [b] is whether the network is known so far. *)
Fixpoint last_word (p : list Z * Z) (b : bool) (l : list zmsg) : option bool :=
  match l with
  | [] => Some b
  | MOther _ _ :: l' => last_word p b l'
  | MRoute i :: l' =>
    if (if list_eq_dec Z.eq_dec (fst (about i)) (fst p) then snd (about i) =? snd p else false)
    then if Bool.eqb (in_add i) b then None else last_word p (in_add i) l'
    else last_word p b l'
  end.

(** How often a network is in the list of announced networks. *)
Definition times (p : list Z * Z) (l : list (list Z * Z)) : nat :=
  length (filter (fun e => if list_eq_dec Z.eq_dec (fst e) (fst p) then snd e =? snd p else false) l).
Definition announced (p : list Z * Z) (l : list (list Z * Z)) : Prop := In p l.
Definition hna_ok (l : list (list Z * Z)) : Prop := Forall (fun e => length (fst e) = 16%nat) l.
(** in an IPv4 configuration only the first four of the sixteen bytes are used *)
Definition hna_fam (v6 : bool) (l : list (list Z * Z)) : Prop :=
  Forall (fun e => v6 = true \/ skipn 4 (fst e) = repeat 0 12) l.

(** Calls of [zparse]: what read(2) answers in each of them. *)
Fixpoint polls (fuel : nat) (c : zcfg) (evs : list (list rres)) (stream : list Z) (s : zst) : zpo :=
  match evs with
  | [] => PDone s stream []
  | ev :: evs' =>
    match zparse_connected fuel c ev stream s with
    | PDone s' stream' _ => polls fuel c evs' stream' s'
    | x => x
    end
  end.
(** bytes are there whenever they are asked for, as many as it takes *)
Definition steady (n : nat) (ev : list rres) : Prop :=
  (n < length ev)%nat /\ Forall (fun e => exists k, e = RData k /\ 1 <= k) ev.
Definition idle (ev : list rres) : Prop := exists ev', ev = RAgain :: ev'.
(** a call that finds something *)
Definition steadyb (ev : list rres) : bool := match ev with RData _ :: _ => true | _ => false end.


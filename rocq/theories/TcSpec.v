(** Topology messages: format, meaning, and how a set of links is cut into
    several messages. *)
From Verif Require Import Base Bytes Compare HelloSpec Tc.

(** addresses of the configured family: [n] bytes *)
Definition is_addr (e : tenv) (a : list Z) : Prop := blen a = ips e /\ Forall (fun b => 0 <= b < 256) a.

(** numeric value of an address, first byte most significant, and back *)
Definition val (a : list Z) : Z := fold_left (fun v b => v * 256 + b) a 0.
Fixpoint of_val (n : nat) (v : Z) : list Z :=
  match n with O => [] | S n' => of_val n' (v / 256) ++ [v mod 256] end.

(** the number by which the host orders addresses: IPv4 addresses by their
    value as stored in memory, IPv6 addresses byte by byte *)
Definition akey (e : tenv) (a : list Z) : Z := if te_v6 e || negb (te_little e) then val a else val (rev a).
Definition network_order (e : tenv) : Prop := te_v6 e = true \/ te_little e = false.

(** how far [b] lies after [a] on the circle of 16 bit numbers *)
Definition ahead (a b : Z) : Z := (b - a) mod 65536.

(** a topology message *)
Record tmsg := mkTm { m_vt : Z; m_orig : list Z; m_ttl : Z; m_hops : Z; m_seq : Z; m_ansn : Z; m_lower : Z; m_upper : Z;
                      m_ents : list (list Z * list Z) }.
Definition enc_ent (x : list Z * list Z) : list Z := fst x ++ snd x ++ [0; 0].
Definition enc_tc (m : tmsg) : list Z :=
  let body := flat_map enc_ent (m_ents m) in
  [202; m_vt m] ++ enc16 (12 + blen (m_orig m) + blen body) ++ m_orig m ++ [m_ttl m; m_hops m] ++ enc16 (m_seq m) ++ enc16 (m_ansn m)
  ++ [m_lower m; m_upper m] ++ body.
Definition wf_ent (e : tenv) (x : list Z * list Z) : Prop := is_addr e (fst x) /\ length (snd x) = 2%nat /\ ~ In (fst x) (te_deny e).
Definition wf_tmsg (e : tenv) (m : tmsg) : Prop :=
  is_addr e (m_orig m) /\ 0 <= m_seq m < 65536 /\ 0 <= m_ansn m < 65536 /\
  Forall (wf_ent e) (m_ents m) /\ 12 + blen (m_orig m) + blen (flat_map enc_ent (m_ents m)) < 65536.

(** what is known about a link: the number of the neighbor set it was last
    advertised with, and its quality *)
Definition stored (d : tcdb) (orig a : list Z) : option (Z * list Z) :=
  match d orig with
  | None => None
  | Some t => option_map (fun x => (ed_ansn x, ed_lq x)) (find (fun x => if list_eq_dec Z.eq_dec (ed_dest x) a then true else false) (tc_edges t))
  end.
Definition has_links (d : tcdb) (orig : list Z) : Prop := exists a, stored d orig a <> None.

(** what a list of advertised links says about an address: the last one counts *)
Fixpoint says (l : list (list Z * list Z)) (a : list Z) : option (list Z) :=
  match l with
  | [] => None
  | (b, q) :: l' => match says l' a with Some q' => Some q' | None => if list_eq_dec Z.eq_dec b a then Some q else None end
  end.

(** the border that flag [f] (1 .. 8*ipsize) marks next to address [x]: the bits
    below bit [f - 1] cleared, that bit set *)
Definition border (n : Z) (f : Z) (x : list Z) : list Z := of_val (Z.to_nat n) (val x / 2 ^ f * 2 ^ f + 2 ^ (f - 1)).

(** the range of addresses a non-empty message speaks for: none if both flags
    are 0, otherwise from its lower border on up to before its upper border *)
Definition lower_end (e : tenv) (m : tmsg) : list Z :=
  if m_lower m =? 255 then of_val (Z.to_nat (ips e)) 0 else border (ips e) (m_lower m) (fst (hd ([], []) (m_ents m))).
Definition upper_end (e : tenv) (m : tmsg) : list Z :=
  if m_upper m =? 255 then of_val (Z.to_nat (ips e)) (256 ^ ips e - 1) else border (ips e) (m_upper m) (fst (last (m_ents m) ([], []))).
Definition speaks_for (e : tenv) (m : tmsg) (a : list Z) : bool :=
  negb ((m_lower m =? 0) && (m_upper m =? 0)) && (akey e (lower_end e m) <=? akey e a) && (akey e a <? akey e (upper_end e m)).
Definition good_flags (e : tenv) (m : tmsg) : Prop :=
  (m_lower m = 0 /\ m_upper m = 0) \/
  ((m_lower m = 255 \/ 1 <= m_lower m <= 8 * ips e) /\ (m_upper m = 255 \/ 1 <= m_upper m <= 8 * ips e)).

(** [ansn] is newer than [old]: ahead by less than half of the circle *)
Definition newer (ansn old : Z) : bool := (0 <? ahead old ansn) && (ahead old ansn <=? 32767) || (ahead old ansn =? 32768) && (old >? ansn).

(** the states that any history of the set leads to: any bytes received, timers
    firing, entries added by the routing table *)
Inductive reachable (e : tenv) : tcdb -> Prop :=
| R_init : reachable e (fun _ => None)
| R_input d sym buf r : reachable e d -> Forall (fun b => 0 <= b < 256) buf -> input_tc e sym d buf = Some r -> reachable e (r_db r)
| R_expire d a : reachable e d -> reachable e (expire_tc d a)
| R_gc d a : reachable e d -> reachable e (expire_gc d a)
| R_locate d a : reachable e d -> is_addr e a -> reachable e (locate_tc d a).

(** a sequence of messages received one after another, with the verdicts *)
Fixpoint receive (e : tenv) (d : tcdb) (l : list (list Z)) : option (tcdb * list bool) :=
  match l with
  | [] => Some (d, [])
  | b :: l' => match input_tc e true d b with
               | None => None
               | Some r => match receive e (r_db r) l' with None => None | Some (d', v) => Some (d', r_ret r :: v) end
               end
  end.

(** Relation of a message to the last one processed ([s], [a]): newer by at most
    8192 messages and 1023 changes; among the last 1024 messages and 256 changes;
    none of both *)
Definition is_newer (s a : Z) (m : tmsg) : bool := (1 <=? ahead s (m_seq m)) && (ahead s (m_seq m) <=? 8192) && (ahead a (m_ansn m) <? 1024).
Definition is_recent (s a : Z) (m : tmsg) : bool := (ahead (m_seq m) s <? 1024) && (ahead (m_ansn m) a <? 256).
Definition is_stray (s a : Z) (m : tmsg) : bool := negb (is_newer s a m) && negb (is_recent s a m).

(** How an originator cuts its links into messages: the pieces [frags] are
    numbered consecutively, the flag between two pieces is made from the last
    address of the one and the first of the other ([flag]) *)
Fixpoint pieces (flag : list Z -> list Z -> Z) (vt : Z) (orig : list Z) (ttl hops seq ansn lower : Z) (frags : list (list (list Z * list Z))) : list tmsg :=
  match frags with
  | [] => []
  | f :: rest =>
      let upper := match rest with [] => 255 | g :: _ => flag (fst (last f ([], []))) (fst (hd ([], []) g)) end in
      mkTm vt orig ttl hops seq ansn lower upper f :: pieces flag vt orig ttl hops ((seq + 1) mod 65536) ansn upper rest
  end.

(** in strictly ascending order *)
Fixpoint ascending (e : tenv) (l : list (list Z * list Z)) : Prop :=
  match l with
  | [] => True
  | x :: l' => match l' with [] => True | y :: _ => akey e (fst x) < akey e (fst y) end /\ ascending e l'
  end.

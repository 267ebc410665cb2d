(** Vocabulary for the HNA set: what has been announced and not withdrawn,
    described without hash tables or lists of records. *)
From Verif Require Import Base Bytes Mantissa IpCalc GwHna Parser Hna.

(** announced networks: gateway, network, prefix length -> validity time *)
Definition hmap := list Z -> list Z -> Z -> option Z.
Definition nothing : hmap := fun _ _ _ => None.
Definition same_key (gw net : list Z) (plen : Z) (gw' net' : list Z) (plen' : Z) : bool :=
  bytes_eqb gw gw' && bytes_eqb net net' && (plen =? plen').
Definition say (gw net : list Z) (plen vt : Z) (m : hmap) : hmap :=
  fun g n p => if same_key gw net plen g n p then Some vt else m g n p.
Definition forget (gw net : list Z) (plen : Z) (m : hmap) : hmap :=
  fun g n p => if same_key gw net plen g n p then None else m g n p.
Definition forget_all (gw : list Z) (m : hmap) : hmap :=
  fun g n p => if bytes_eqb gw g then None else m g n p.

(** the fields of an HNA message in a buffer *)
Definition m_size (b : list Z) : Z := be (slice b 2 2).
Definition m_vtime (b : list Z) : Z := me_to_reltime (be (slice b 1 1)).
Definition m_orig (c : hcfg) (b : list Z) : list Z := slice b 4 (ipsize c).
Definition m_count (c : hcfg) (b : list Z) : Z := (m_size b - 8 - ipsize c) / (2 * ipsize c).
Definition m_pair (c : hcfg) (b : list Z) (k : nat) : list Z * list Z :=
  let at0 := 8 + ipsize c + 2 * ipsize c * Z.of_nat k in (slice b at0 (ipsize c), slice b (at0 + ipsize c) (ipsize c)).
Definition m_pairs (c : hcfg) (b : list Z) : list (list Z * list Z) := map (m_pair c b) (seq 0 (Z.to_nat (m_count c b))).
(** a well-formed message from a symmetric neighbor *)
Definition m_ok (c : hcfg) (sym : bool) (b : list Z) : bool :=
  (be (slice b 0 1) =? 4) && sym && ((m_size b - 8 - ipsize c) mod (2 * ipsize c) =? 0).
(** the pairs that are announcements of foreign networks: not of a smart gateway,
    not one of our addresses, not one of our networks *)
Definition foreign (c : hcfg) (p : list Z * list Z) : bool :=
  let (net, mask) := p in
  let plen := netmask_to_prefix mask in
  negb (h_smartgw c && (is_smart_gateway (h_v6 c) (net, plen) mask
                        || match h_maxgw c with Some m => (0 <? plen) && (plen <=? m) | None => false end))
  && negb (existsb (bytes_eqb net) (h_ifs c)) && negb (existsb (fun h => bytes_eqb net (fst h) && (snd h =? plen)) (h_own c)).

Definition heard_pair (c : hcfg) (orig : list Z) (vt : Z) (m : hmap) (p : list Z * list Z) : hmap :=
  if foreign c p then say orig (fst p) (netmask_to_prefix (snd p)) vt m else m.
Definition heard1 (c : hcfg) (m : hmap) (e : hev) : hmap :=
  match e with
  | HMsg sym b => if m_ok c sym b then fold_left (heard_pair c (m_orig c b) (m_vtime b)) (m_pairs c b) m else m
  | HExpire gw net plen => forget gw net plen m
  | HCleanup o => forget_all o m
  end.
(** what has been heard after a history *)
Definition heard (c : hcfg) (evs : list hev) : hmap := fold_left (heard1 c) evs nothing.

(** everything in the table: gateway, network, prefix length, validity time *)
Definition ents (s : hset) : list hentry := flat_map s (seq 0 HASHSIZE).
Definition recs_of (e : hentry) : list (list Z * list Z * Z * Z) := map (fun n => (e_gw e, n_net n, n_plen n, n_vtime n)) (e_nets e).
Definition records (s : hset) : list (list Z * list Z * Z * Z) := flat_map recs_of (ents s).

(** the routes that remain after a sequence of calls *)
Definition route1 (m : list Z -> list Z -> Z -> bool) (x : heff) : list Z -> list Z -> Z -> bool :=
  match x with
  | EIns net plen gw => fun g n p => same_key gw net plen g n p || m g n p
  | EDel net plen gw => fun g n p => negb (same_key gw net plen g n p) && m g n p
  | _ => m
  end.
Definition routes (l : list heff) : list Z -> list Z -> Z -> bool := fold_left route1 l (fun _ _ _ => false).

(** the buffer holds the whole message *)
Definition whole (c : hcfg) (b : list Z) : Prop := 8 + ipsize c <= blen b /\ m_size b <= blen b.
Definition whole_ev (c : hcfg) (e : hev) : Prop := match e with HMsg _ b => whole c b | _ => True end.

(** a message carries a plain announcement of the Internet (default route) *)
Definition plain_default (c : hcfg) (e : hev) : Prop :=
  match e with
  | HMsg sym b => m_ok c sym b = true /\
      exists p, In p (m_pairs c b) /\ foreign c p = true /\ is_prefix_inetgw (h_v6 c) (fst p, netmask_to_prefix (snd p)) = true
  | _ => False
  end.
(** whether a smart gateway is known, judging from the calls made *)
Definition gw1 (gw : list Z) (known : bool) (x : heff) : bool :=
  match x with
  | EGwUpd g _ _ _ _ => bytes_eqb g gw || known
  | EGwDel g _ => negb (bytes_eqb g gw) && known
  | _ => known
  end.
Definition gw_known (gw : list Z) (l : list heff) : bool := fold_left (gw1 gw) l false.

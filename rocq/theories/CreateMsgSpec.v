(** What should be in outgoing HELLO and TC messages. *)
From Verif Require Import Base Bytes Tc TcSpec NetBuf BuildMsg CreateMsg.

(** the neighbors to be advertised with a given TC redundancy (RFC 3626 section 15.1): symmetric
    ones - all of them, or only MPRs and MPR selectors, or only MPR selectors - whose
    link is usable *)
Definition advertise (red : Z) (n : onb) : Prop :=
  o_sym n = true /\ (red = 1 -> o_mpr n = true \/ o_sel n = true) /\ (red = 0 -> o_sel n = true) /\
  exists q cost, o_link n = Some (q, cost) /\ cost < 4194304.
Definition quality (n : onb) : list Z := match o_link n with Some (q, _) => q | None => [] end.
(** a neighbor table: one entry for each main address *)
Definition table_ok (e : tenv) (l : list onb) : Prop :=
  NoDup (map o_addr l) /\ Forall (fun n => is_addr e (o_addr n) /\ ~ In (o_addr n) (te_deny e) /\ length (quality n) = (match o_link n with Some _ => 2 | None => 0 end)%nat) l.

(** the links of a node: one for each pair of interfaces, with a status *)
Definition links_ok (v6 : bool) (ks : list olnk) : Prop :=
  NoDup (map (fun k => (k_local k, k_addr k)) ks) /\ Forall (fun k => 1 <= k_status k <= 4 /\ blen (k_addr k) = ipsz v6 /\ blen (k_lq k) = 4) ks.
Definition neigh_type (k : olnk) : Z := if k_mpr k then 2 else if k_sym k then 1 else 0.
(** a message that was forwarded: other TTL and hop count *)
Definition at_hop (ttl hops : Z) (m : tmsg) : tmsg := mkTm (m_vt m) (m_orig m) ttl hops (m_seq m) (m_ansn m) (m_lower m) (m_upper m) (m_ents m).

(** what a HELLO sent on interface [out] is to say about the neighbor interface [a]:
    the link on [out] counts, otherwise it is mentioned without a link type *)
Definition hello_of (out : list Z) (ks : list olnk) (a : list Z) : option (Z * olnk) :=
  match find (fun k => if list_eq_dec Z.eq_dec (k_addr k) a then if list_eq_dec Z.eq_dec (k_local k) out then true else false else false) ks with
  | Some k => Some (k_status k, k)
  | None => option_map (fun k => (0, k)) (find (fun k => if list_eq_dec Z.eq_dec (k_addr k) a then true else false) ks)
  end.

(** rounds of the TC timer of an interface: number of the neighbor set, time in ms since the
    start (not wrapped), neighbor table *)
Definition round : Type := (Z * Z * list onb)%type.
Fixpoint rounds (e : tenv) (red : Z) (fish : bool) (vt : Z) (orig : list Z) (wait : Z) (rs : list round) (g : tcgen) (s : bst) : option (bst * tcgen) :=
  match rs with
  | [] => Some (s, g)
  | (ansn, t, l) :: rs' => match output_lq_tc e red fish vt orig ansn (t mod 4294967296) wait l g s with
                           | Some (s', Some g') => rounds e red fish vt orig wait rs' g' s'
                           | _ => None
                           end
  end.
(** the fish-eye sequence *)
Definition fisheye : list Z := [2; 8; 2; 16; 2; 8; 2; 255].
Definition nothing (red : Z) (l : list onb) : Prop := forall n, In n l -> ~ advertise red n.

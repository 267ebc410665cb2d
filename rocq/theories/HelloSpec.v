(** What a HELLO message says: the format and its meaning. *)
From Verif Require Import Base Bytes Hello.

(** one advertised address: address, link quality bytes, two spare bytes *)
Record entry := mkE { e_addr : list Z; e_lq : list Z; e_pad : list Z }.
(** a block of addresses that share link and neighbor type *)
Record block := mkB { b_code : Z; b_res : Z; b_entries : list entry }.
Record hello := mkHello { x_lq : bool; x_hdr : hhdr; x_res : list Z; x_blocks : list block }.

Definition enc16 (n : Z) : list Z := [n / 256; n mod 256].
Definition enc_entry (lq : bool) (e : entry) : list Z := e_addr e ++ (if lq then e_lq e ++ e_pad e else []).
Definition enc_block (lq : bool) (b : block) : list Z :=
  let body := flat_map (enc_entry lq) (b_entries b) in
  [b_code b; b_res b] ++ enc16 (4 + blen body) ++ body.
Definition enc_hello (x : hello) : list Z :=
  let body := flat_map (enc_block (x_lq x)) (x_blocks x) in
  let h := x_hdr x in
  [if x_lq x then 201 else 1; h_vtime h] ++ enc16 (12 + blen (h_src h) + blen body) ++ h_src h
  ++ [h_ttl h; h_hops h] ++ enc16 (h_seq h) ++ x_res x ++ [h_htime h; h_will h] ++ body.

Definition wf_entry (ips : Z) (e : entry) : Prop := blen (e_addr e) = ips /\ length (e_lq e) = 2%nat /\ length (e_pad e) = 2%nat.
Definition wf_block (ips : Z) (b : block) : Prop :=
  0 <= b_code b < 256 /\ Forall (wf_entry ips) (b_entries b).
Definition wf_hello (ips : Z) (x : hello) : Prop :=
  blen (h_src (x_hdr x)) = ips /\ length (x_res x) = 2%nat /\ 0 <= h_seq (x_hdr x) < 65536 /\
  Forall (wf_block ips) (x_blocks x) /\ blen (enc_hello x) < 65536.

(** what a block advertises: link type in the lowest two bits of the code,
    neighbor type in the next two *)
Definition advertised (lq : bool) (b : block) : list hneigh :=
  map (fun e => mkHN (b_code b mod 4) (b_code b / 4 mod 4) (e_addr e) (if lq then e_lq e else [])) (b_entries b).

(** superseded: of unspecified link type while the address is advertised with a
    specified link type as well *)
Definition superseded (all : list hneigh) (n : hneigh) : bool :=
  (hn_link n =? 0) && existsb (fun m => negb (hn_link m =? 0) && addr_eqb (hn_addr n) (hn_addr m)) all.

(** what is left of the advertised addresses, in the order of link types
    unspecified, lost, asymmetric, symmetric *)
Definition by_type (l : list hneigh) : list hneigh :=
  flat_map (fun t => filter (fun n => hn_link n =? t) l) [0; 3; 1; 2].
Definition hello_neighbors (x : hello) : list hneigh :=
  let all := flat_map (advertised (x_lq x)) (x_blocks x) in
  filter (fun n => negb (superseded all n)) (by_type all).

(** steps that suffice for any message *)
Definition enough (ips : Z) : nat := Z.to_nat (4 * (131072 + ips + 4)).

(** What the secure plugin should do. *)
From Verif Require Import Base Bytes NetBuf NetBufSpec BuildMsgSpec Secure.

(** the ABIs in use: time_t of 4 or 8 bytes, MD5 or SHA1 *)
Definition abi_ok (a : abi) : Prop := (tsz a = 4 \/ tsz a = 8) /\ (ssz a = 16 \/ ssz a = 20).
(** SHA1 with a time_t of 8 bytes: the structure ends with padding *)
Definition padded (a : abi) : Prop := tsz a = 8 /\ ssz a = 20.
Definition cfg_ok (c : scfg) : Prop :=
  abi_ok (c_abi c) /\ blen (c_main c) = 4 /\ (forall x, blen (c_hash c x) = ssz (c_abi c)).
(** two nodes that use the same build of the plugin and the same key *)
Definition peers (c c' : scfg) : Prop := c_abi c = c_abi c' /\ c_hash c = c_hash c' /\ c_key c = c_key c'.

(** an output buffer as large as it says *)
Definition whole (b : nb) : Prop := (exists m, nb_buf b = Some m /\ blen m = nb_size b) /\ 0 <= nb_pend b.
(** room for the signature: in the buffer, and in the 1512 bytes of checksum_cache *)
Definition room (a : abi) (b : nb) : Prop :=
  nb_pend b + 4 + SMSG a <= nb_size b /\ nb_pend b + 4 + SMSG a - ssz a <= 1512.
(** nothing is waiting and the longest handshake message fits *)
Definition idle (a : abi) (b : nb) : Prop :=
  whole b /\ nb_pend b = 0 /\ CRMSG a <= nb_max b /\ 4 + CRMSG a + SMSG a <= nb_size b.

(** the packet ends with the message authentication code of all the rest *)
Definition authentic (c : scfg) (p : list Z) : Prop :=
  exists d, p = d ++ c_hash c (d ++ c_key c).
(** [s] knows the clock of the node at [a]: it is [d] seconds behind *)
Definition knows (s : sec) (a : list Z) (d : Z) : Prop :=
  exists p, lookup_stamp (s_tab s) a = Some p /\ p_valid p = true /\ p_diff p = d.

(** messages of the handshake *)
Definition handshake_type (w : list Z) : Prop := exists t w', w = t :: w' /\ (t = 11 \/ t = 12 \/ t = 13).

(** the message at the start of a packet of handshake type [t], of [n] bytes, comes from
    [a] to one of our addresses and carries the right signature *)
Definition hs_from (c : scfg) (buf : list Z) (t n : Z) (a : list Z) : Prop :=
  rd8 buf 4 = Some t /\ slice buf 8 4 = a /\ In (slice buf 16 4) (c_ifs c) /\
  slice buf (4 + n - ssz (c_abi c)) (ssz (c_abi c)) = c_hash c (slice buf 4 (n - ssz (c_abi c)) ++ c_key c).
(** it is a response to the challenge [x] *)
Definition responds (c : scfg) (buf : list Z) (a : list Z) (x : Z) : Prop :=
  let k := c_abi c in
  hs_from c buf 12 (CRMSG k) a /\ slice buf (4 + cts_off k + tsz k) (ssz k) = c_hash c (net32 x ++ a) \/
  hs_from c buf 13 (RRMSG k) a /\ slice buf (4 + 16 + tsz k) (ssz k) = c_hash c (net32 x ++ a).

(** some handshake message at the start of the packet carries the right signature *)
Definition hs_signed (c : scfg) (buf : list Z) : Prop :=
  exists t n a, hs_from c buf t n a /\ (t = 11 /\ n = CMSG (c_abi c) \/ t = 12 /\ n = CRMSG (c_abi c) \/ t = 13 /\ n = RRMSG (c_abi c)).
(** the state with one more entry, for [a], with the contents [j] *)
Definition added (s : sec) (j : stamp) (a : list Z) : sec :=
  set_tab s (mkStamp a (p_diff j) (p_chal j) (p_valid j) (p_val j) (p_conf j) :: s_tab s).
(** [p] is a packet that the node [c] sends at the time [now] by its clock, when the
    messages [w] are waiting in the output buffer and the number of the packet is [q] *)
Definition sends (c : scfg) (now q : Z) (w p : list Z) : Prop :=
  exists seq ok b b' r, whole b /\ room (c_abi c) b /\ nb_pend b <> 0 /\ waiting b = w /\ nb_seq b = q /\ 0 <= q < 65536 /\
    net_output [add_signature c now seq] ok b = Some (b', r, Some p).

(** replay: two seconds pass, then the same packet is received twice and accepted both
    times *)
Definition accepts (c : scfg) (e : senv) (s : sec) (buf : list Z) (size : Z) : option sec :=
  match secure_preprocessor c e s buf size with Some (s', [], Some _) => Some s' | _ => None end.
Fixpoint replay (c : scfg) (e : senv) (n : nat) (ms : Z) (s : sec) (buf : list Z) (size : Z) : option sec :=
  match n with
  | O => Some s
  | S n' =>
      let ms' := u32 (ms + 2000) in
      let e' := mkEnv ms' (e_ok e) (e_r1 e) (e_r2 e) (e_junk1 e) (e_junk2 e) in
      obind (accepts c e' (timeout_timestamps ms' (s_now s + 2) s) buf size) (fun s1 =>
      obind (accepts c e' s1 buf size) (fun s2 => replay c e n' ms' s2 buf size))
  end.

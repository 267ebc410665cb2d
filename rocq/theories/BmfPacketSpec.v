(** CRC-32, what is alike for BMF, and checksums of the Internet protocols. *)
From Verif Require Import Base.

Definition byte (x : Z) : Prop := 0 <= x < 256.

(** CRC-32 of IEEE 802.3, bit by bit: a register of 32 bits with all ones, the bits of each
    byte from the lowest, and the complement at the end *)
Definition bit_in (reg : Z) (b : bool) : Z :=
  if xorb (Z.odd reg) b then Z.lxor (reg / 2) 0xedb88320 else reg / 2.
Definition byte_in (reg x : Z) : Z :=
  fold_left bit_in [Z.testbit x 0; Z.testbit x 1; Z.testbit x 2; Z.testbit x 3; Z.testbit x 4; Z.testbit x 5; Z.testbit x 6; Z.testbit x 7] reg.
Definition crc32 (m : list Z) : Z := Z.lxor (fold_left byte_in m 0xffffffff) 0xffffffff.

(** the place of the time to live and of the header checksum in a packet *)
Definition volatile (i : nat) : Prop := (i = 8 \/ i = 10 \/ i = 11)%nat.
(** the packet with fixed values in them *)
Definition normal (m n : list Z) : Prop :=
  length n = length m /\ (forall i, ~ volatile i -> nth_error n i = nth_error m i) /\
  nth_error n 8 = Some 255 /\ nth_error n 10 = Some 90 /\ nth_error n 11 = Some 90.
(** packets that differ at most in them *)
Definition alike (m n : list Z) : Prop :=
  length m = length n /\ forall i, ~ volatile i -> nth_error m i = nth_error n i.
(** what differs elsewhere is in four bytes from [k] *)
Definition differ_at (k : nat) (m n : list Z) : Prop :=
  length m = length n /\ (forall i, ~ volatile i -> (i < k \/ k + 4 <= i)%nat -> nth_error m i = nth_error n i) /\
  exists i, ~ volatile i /\ nth_error m i <> nth_error n i.

(** RFC 1071: sum of the 16-bit words with end-around carry; a last odd byte is a high byte *)
Definition oadd (a b : Z) : Z := if a + b >? 65535 then a + b - 65535 else a + b.
Fixpoint osum (m : list Z) : Z :=
  match m with
  | a :: b :: m => oadd (a * 256 + b) (osum m)
  | [a] => a * 256
  | [] => 0
  end.
(** RFC 791: the header of a packet, and its checksum is right *)
Definition ihl (m : list Z) : nat := 4 * Z.to_nat (nth 0 m 0 mod 16).
Definition header_ok (m : list Z) : Prop := (20 <= ihl m <= length m)%nat /\ osum (firstn (ihl m) m) = 65535.
(** RFC 768: the segment, after a header, up to the total length; its checksum is not used
    or right, with a pseudo header of addresses, protocol and length *)
Definition total (m : list Z) : nat := Z.to_nat (nth 2 m 0 * 256 + nth 3 m 0).
Definition segment (m : list Z) : list Z := skipn (ihl m) (firstn (total m) m).
Definition udp_field (m : list Z) : Z := nth 6 (segment m) 0 * 256 + nth 7 (segment m) 0.
Definition udp_ok (m : list Z) : Prop :=
  (20 <= ihl m)%nat /\ (ihl m + 8 <= total m <= length m)%nat /\
  (udp_field m = 0 \/
   let l := Z.of_nat (total m - ihl m) in
   osum (firstn 8 (skipn 12 m) ++ [0; 17; l / 256; l mod 256] ++ segment m) = 65535).
(** an IPv4 address in a packet *)
Definition dest (m : list Z) : list Z := firstn 4 (skipn 16 m).
Definition bytes_of (a : Z) : list Z := [a / 16777216; a / 65536 mod 256; a / 256 mod 256; a mod 256].
(** the halves of an address, and the two sums for which the carries go wrong *)
Definition halves (a : Z) : Z := a / 65536 + a mod 65536.
Definition carries (check orig new : Z) : Prop :=
  check + halves orig - halves new <> 131071 /\ check + halves orig - halves new <> -65536.
Definition address (m : list Z) : Z := fold_left (fun a b => a * 256 + b) (dest m) 0.
Definition header_field (m : list Z) : Z := nth 10 m 0 * 256 + nth 11 m 0.
(** multicast: 224.0.0.0/4 *)
Definition multicast (a : Z) : Prop := 3758096384 <= a < 4026531840.
(** only the header checksum, the destination and, for UDP, its checksum change *)
Definition untouched (m m' : list Z) : Prop :=
  forall i, ~ (10 <= i < 12 \/ 16 <= i < 20)%nat -> ~ (nth 9 m 0 = 17 /\ (ihl m + 6 <= i < ihl m + 8)%nat) -> nth_error m' i = nth_error m i.

(** The message digest as RFC 1321 defines it. *)
From Verif Require Import Base.

(** the words A, B, C and D *)
Definition words := (Z * Z * Z * Z)%type.
Definition add32 (x y : Z) : Z := (x + y) mod 2 ^ 32.
Definition not32 (x : Z) : Z := 2 ^ 32 - 1 - x.
(** rotation by [n] bits *)
Definition rot (x n : Z) : Z := (x * 2 ^ n) mod 2 ^ 32 + x / 2 ^ (32 - n).
(** RFC 1321 section 3.4 *)
Definition rfun (r : Z) (x y z : Z) : Z :=
  if r =? 0 then Z.lor (Z.land x y) (Z.land (not32 x) z)
  else if r =? 1 then Z.lor (Z.land x z) (Z.land y (not32 z))
  else if r =? 2 then Z.lxor x (Z.lxor y z)
  else Z.lxor y (Z.lor x (not32 z)).
(** the table T: the integer part of 2^32 abs(sin(i)) *)
Definition T : list Z := [
  3614090360; 3905402710; 606105819; 3250441966; 4118548399; 1200080426; 2821735955; 4249261313;
  1770035416; 2336552879; 4294925233; 2304563134; 1804603682; 4254626195; 2792965006; 1236535329;
  4129170786; 3225465664; 643717713; 3921069994; 3593408605; 38016083; 3634488961; 3889429448;
  568446438; 3275163606; 4107603335; 1163531501; 2850285829; 4243563512; 1735328473; 2368359562;
  4294588738; 2272392833; 1839030562; 4259657740; 2763975236; 1272893353; 4139469664; 3200236656;
  681279174; 3936430074; 3572445317; 76029189; 3654602809; 3873151461; 530742520; 3299628645;
  4096336452; 1126891415; 2878612391; 4237533241; 1700485571; 2399980690; 4293915773; 2240044497;
  1873313359; 4264355552; 2734768916; 1309151649; 4149444226; 3174756917; 718787259; 3951481745].
(** the shifts of a round, and which word of the block step [i] uses *)
Definition shift (i : Z) : Z :=
  nth (Z.to_nat (i mod 4)) (nth (Z.to_nat (i / 16)) [[7; 12; 17; 22]; [5; 9; 14; 20]; [4; 11; 16; 23]; [6; 10; 15; 21]] []) 0.
Definition index (i : Z) : Z :=
  let r := i / 16 in
  (if r =? 0 then i else if r =? 1 then 5 * i + 1 else if r =? 2 then 3 * i + 5 else 7 * i) mod 16.
(** little endian *)
Definition le_word (l : list Z) : Z := nth 0 l 0 + 2 ^ 8 * nth 1 l 0 + 2 ^ 16 * nth 2 l 0 + 2 ^ 24 * nth 3 l 0.
Definition le_bytes (n : nat) (w : Z) : list Z := map (fun k => (w / 2 ^ (8 * Z.of_nat k)) mod 2 ^ 8) (seq 0 n).
Definition word_of (block : list Z) (k : Z) : Z := le_word (firstn 4 (skipn (Z.to_nat (4 * k)) block)).
(** step [i] of 64 *)
Definition step (block : list Z) (w : words) (i : nat) : words :=
  let '(a, b, c, d) := w in
  let i := Z.of_nat i in
  (d, add32 b (rot (add32 a (add32 (add32 (rfun (i / 16) b c d) (word_of block (index i))) (nth (Z.to_nat i) T 0))) (shift i)), b, c).
Definition compress (w : words) (block : list Z) : words :=
  let '(a, b, c, d) := w in
  let '(a', b', c', d') := fold_left (step block) (seq 0 64) w in
  (add32 a a', add32 b b', add32 c c', add32 d d').
(** sections 3.1 and 3.2: a one bit, zero bits, the length in bits *)
Definition padded (m : list Z) : list Z :=
  let n := Z.of_nat (length m) in
  m ++ [128] ++ repeat 0 (Z.to_nat ((55 - n) mod 64)) ++ le_bytes 8 ((8 * n) mod 2 ^ 64).
(** block [k] of a message *)
Definition block (p : list Z) (k : nat) : list Z := firstn 64 (skipn (64 * k) p).
Definition start : words := (1732584193, 4023233417, 2562383102, 271733878).
Definition md5 (m : list Z) : list Z :=
  let p := padded m in
  let '(a, b, c, d) := fold_left (fun w k => compress w (block p k)) (seq 0 (length p / 64)) start in
  flat_map (le_bytes 4) [a; b; c; d].
(** bytes *)
Definition byte (x : Z) : Prop := 0 <= x < 256.

(** Model of src/common/string_handling.c.  Definitions only.
    A destination buffer is the list of all bytes of its allocation; a source
    string is the list of its (non zero) characters without the terminator.
    A write outside the allocation, or a search for the terminator that leaves
    it, is [None].  The asserts (lines 68-70, 101-103, 132-134) are taken as
    compiled out, the "paranoid checks" below them are modelled. *)
From Verif Require Import Base.

(** store one byte, e.g. src/common/string_handling.c:81 *)
Definition put (m : list Z) (off : Z) (b : Z) : option (list Z) :=
  if (0 <=? off) && (off <? Z.of_nat (length m))
  then Some (firstn (Z.to_nat off) m ++ b :: skipn (S (Z.to_nat off)) m)
  else None.

(** store several bytes from [off] on (strncpy of line 84 for a source
    without zero byte among the copied ones; also used for memcpy) *)
Definition put_all (m : list Z) (off : Z) (l : list Z) : option (list Z) :=
  if (0 <=? off) && (off + Z.of_nat (length l) <=? Z.of_nat (length m))
  then Some (firstn (Z.to_nat off) m ++ l ++ skipn (Z.to_nat off + length l) m)
  else None.

(** strlen of the string starting at the beginning of the allocation;
    src/common/string_handling.c *)
Fixpoint strlen (m : list Z) : option Z :=
  match m with
  | [] => None
  | b :: m' => if b =? 0 then Some 0 else match strlen m' with Some n => Some (n + 1) | None => None end
  end.

(** src/common/string_handling.c:64-85 _internal_strscpy writing at offset
    [off] of the allocation; [dest_size] is a size_t. *)
Definition internal_strscpy (m : list Z) (off : Z) (src : list Z) (dest_size : Z) : option (list Z) :=
  let n := Z.min (dest_size - 1) (Z.of_nat (length src)) in
  match put m (off + n) 0 with
  | None => None
  | Some m' => put_all m' off (firstn (Z.to_nat n) src)
  end.

(** src/common/string_handling.c:100-111 strscpy *)
Definition strscpy (dest src : list Z) (dest_size : Z) : option (list Z) :=
  if dest_size =? 0 then Some dest else internal_strscpy dest 0 src dest_size.

(** src/common/string_handling.c:129-146 strscat; the subtraction of line 142
    is on size_t (2^64), so "<= 0" is "= 0". *)
Definition strscat (dest src : list Z) (dest_size : Z) : option (list Z) :=
  if dest_size =? 0 then Some dest
  else match strlen dest with
       | None => None
       | Some n =>
           let rest := (dest_size - n) mod 2 ^ 64 in
           if rest <=? 0 then Some dest else internal_strscpy dest n src rest
       end.

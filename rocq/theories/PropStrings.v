(** C28: bounded string functions (src/common/string_handling.c). *)
From Verif Require Import Base Strings StringsSpec StringsProofs.

(** C28, copy: at most [size] bytes and at most strlen(src)+1 bytes are
    written, the result is terminated and is the longest prefix that fits. *)
Theorem C28_strscpy : forall dest src size, is_str src -> 0 < size <= Z.of_nat (length dest) ->
  exists d, strscpy dest src size = Some d /\ length d = length dest /\
    cstr d = Some (firstn (Z.to_nat (size - 1)) src) /\
    skipn (Z.to_nat size) d = skipn (Z.to_nat size) dest /\
    skipn (S (length src)) d = skipn (S (length src)) dest.
Proof. exact strscpy_spec. Qed.
Print Assumptions C28_strscpy.

Example C28_cpy_ex : strscpy [9; 9; 9; 9; 9; 9] [65; 66; 67; 68; 69] 4 = Some [65; 66; 67; 0; 9; 9].
Proof. reflexivity. Qed.

(** C28, concatenation.  Missing: a destination that already holds [size] or
    more characters (see the refutation). *)
Theorem C28_strscat_partial : forall dest src size c, is_str src -> size <= Z.of_nat (length dest) ->
  size < 2 ^ 64 -> cstr dest = Some c -> Z.of_nat (length c) < size ->
  exists d, strscat dest src size = Some d /\ length d = length dest /\
    cstr d = Some (firstn (Z.to_nat (size - 1)) (c ++ src)) /\
    skipn (Z.to_nat size) d = skipn (Z.to_nat size) dest.
Proof. exact strscat_spec. Qed.
Print Assumptions C28_strscat_partial.

Example C28_cat_ex : strscat [65; 66; 0; 9; 9; 9] [67; 68; 69] 5 = Some [65; 66; 67; 68; 0; 9].
Proof. reflexivity. Qed.

(** C28 is false for concatenation when the existing string is longer than
    [size]: the unsigned difference wraps and bytes beyond [size] are written. *)
Theorem C28_strscat_refuted : exists dest src size d,
  is_str src /\ 0 < size <= Z.of_nat (length dest) /\ cstr dest <> None /\
  strscat dest src size = Some d /\ skipn (Z.to_nat size) d <> skipn (Z.to_nat size) dest.
Proof. exact strscat_overrun. Qed.
Print Assumptions C28_strscat_refuted.

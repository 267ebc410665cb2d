(** Model of src/common/autobuf.c.  Definitions only.
    The allocation is the list of its bytes ([size] is its length, [NULL] the
    empty list); every access outside of it is [None].  Allocation failure is
    an input of each operation.  abuf_strftime is not modelled. *)
From Verif Require Import Base Strings.

(** src/common/autobuf.h:46-51 constants *)
Definition AUTOBUFCHUNK : Z := 4096.
(** see above, src/common/autobuf.h:46-51 *)
Definition AUTOBUFSIZEMAX : Z := 2 ^ 24.

(** src/common/autobuf.h:53-57 struct autobuf; [size] is the length of [mem]
    (kept equal by lines 77-81, 113-116, 236-237) *)
Record abuf := { mem : list Z; alen : Z }.
(** see above, src/common/autobuf.h:53-57 *)
Definition asize (b : abuf) : Z := Z.of_nat (length (mem b)).

(** src/common/autobuf.c:57-68 ROUND_UP_TO_POWER_OF_2 with pow2 = 4096 *)
Definition round_up (val : Z) : Z :=
  if val <=? AUTOBUFSIZEMAX - (AUTOBUFCHUNK - 1)
  then Z.land (val + (AUTOBUFCHUNK - 1)) (Z.lnot (AUTOBUFCHUNK - 1))
  else Z.land AUTOBUFSIZEMAX (Z.lnot (AUTOBUFCHUNK - 1)).

(** n zero bytes (calloc / memset, lines 78 and 115) *)
Definition zeros (n : Z) : list Z := repeat 0 (Z.to_nat n).

(** src/common/autobuf.c:70-84 abuf_init *)
Definition abuf_init (initial_size : Z) (ok : bool) : abuf :=
  if initial_size <=? 0 then {| mem := []; alen := 0 |}
  else if ok then {| mem := zeros (round_up initial_size); alen := 0 |}
  else {| mem := []; alen := 0 |}.

(** src/common/autobuf.c:93-119 autobuf_enlarge; the boolean is success.
    new_size is an unsigned int. *)
Definition enlarge (b : abuf) (new_size0 : Z) (ok : bool) : abuf * bool :=
  let new_size := u32 (new_size0 + 1) in
  if AUTOBUFSIZEMAX <=? asize b then (b, false)
  else if asize b <? new_size then
    if ok then
      let r := round_up new_size in
      ({| mem := firstn (Z.to_nat r) (mem b) ++ zeros (r - asize b); alen := alen b |}, true)
    else (b, false)
  else (b, true).

(** vsnprintf(buf + len, n, ...) producing the text [s] (C99 semantics: at
    most n-1 characters and a terminator, nothing if n = 0); lines 126, 135 *)
Definition vsnprintf (m : list Z) (off n : Z) (s : list Z) : option (list Z) :=
  if n <=? 0 then Some m else put_all m off (firstn (Z.to_nat (n - 1)) s ++ [0]).

(** src/common/autobuf.c:121-140 abuf_vappendf; [s] is the formatted text.
    The result is the buffer and whether success was reported. *)
Definition abuf_appendf (b : abuf) (s : list Z) (ok : bool) : option (abuf * bool) :=
  match vsnprintf (mem b) (alen b) (asize b - alen b) s with
  | None => None
  | Some m =>
      let b1 := {| mem := m; alen := alen b |} in
      let min_size := alen b + Z.of_nat (length s) in
      if asize b1 <=? min_size then
        let (b2, r) := enlarge b1 min_size ok in
        if r then
          match vsnprintf (mem b2) (alen b2) (asize b2 - alen b2) s with
          | None => None
          | Some m2 => Some ({| mem := m2; alen := min_size |}, true)
          end
        else match put (mem b2) (alen b2) 0 with
             | None => None
             | Some m2 => Some ({| mem := m2; alen := alen b2 |}, false)
             end
      else Some ({| mem := m; alen := min_size |}, true)
  end.

(** src/common/autobuf.c:151-166 abuf_puts *)
Definition abuf_puts (b : abuf) (s : list Z) (ok : bool) : option (abuf * bool) :=
  if Z.of_nat (length s) =? 0 then Some (b, true)
  else
    let (b1, r) := enlarge b (alen b + Z.of_nat (length s) + 1) ok in
    if r then
      match put_all (mem b1) (alen b1) (s ++ [0]) with
      | None => None
      | Some m => Some ({| mem := m; alen := alen b1 + Z.of_nat (length s) |}, true)
      end
    else Some (b1, false).

(** strncpy of line 179: the first [n] bytes of [src], zero filled after the
    first zero byte; reading beyond the source block is [None] *)
Fixpoint strncpy_bytes (src : list Z) (n : nat) : option (list Z) :=
  match n with
  | O => Some []
  | S n' => match src with
            | [] => None
            | c :: src' => if c =? 0 then Some (repeat 0 n)
                           else match strncpy_bytes src' n' with Some l => Some (c :: l) | None => None end
            end
  end.

(** src/common/autobuf.c:168-182 abuf_concat *)
Definition abuf_concat (b s : abuf) (ok : bool) : option (abuf * bool) :=
  if alen s =? 0 then Some (b, true)
  else
    let (b1, r) := enlarge b (alen b + alen s + 1) ok in
    if r then
      match strncpy_bytes (mem s) (Z.to_nat (alen s + 1)) with
      | None => None
      | Some l => match put_all (mem b1) (alen b1) l with
                  | None => None
                  | Some m => Some ({| mem := m; alen := alen b1 + alen s |}, true)
                  end
      end
    else Some (b1, false).

(** src/common/autobuf.c:198-205 abuf_memcpy *)
Definition abuf_memcpy (b : abuf) (p : list Z) (ok : bool) : option (abuf * bool) :=
  let (b1, r) := enlarge b (alen b + Z.of_nat (length p)) ok in
  if r then
    match put_all (mem b1) (alen b1) p with
    | None => None
    | Some m => Some ({| mem := m; alen := alen b1 + Z.of_nat (length p) |}, true)
    end
  else Some (b1, false).

(** read [n] bytes from offset [off] (source side of memmove, lines 211, 222) *)
Definition get_all (m : list Z) (off n : Z) : option (list Z) :=
  if (0 <=? off) && (0 <=? n) && (off + n <=? Z.of_nat (length m))
  then Some (firstn (Z.to_nat n) (skipn (Z.to_nat off) m)) else None.

(** src/common/autobuf.c:207-215 abuf_memcpy_prefix *)
Definition abuf_prefix (b : abuf) (p : list Z) (ok : bool) : option (abuf * bool) :=
  let (b1, r) := enlarge b (alen b + Z.of_nat (length p)) ok in
  if r then
    match get_all (mem b1) 0 (alen b1) with
    | None => None
    | Some old =>
        match put_all (mem b1) (Z.of_nat (length p)) old with
        | None => None
        | Some m => match put_all m 0 p with
                    | None => None
                    | Some m2 => Some ({| mem := m2; alen := alen b1 + Z.of_nat (length p) |}, true)
                    end
        end
    end
  else Some (b1, false).

(** src/common/autobuf.c:217-239 abuf_pull; [g] is the value of the bytes
    realloc adds when it grows the block *)
Definition abuf_pull (b : abuf) (len : Z) (ok : bool) (g : Z) : option (abuf * bool) :=
  let m1 := if len =? alen b then Some (mem b)
            else match get_all (mem b) len (alen b - len) with
                 | None => None
                 | Some rest => put_all (mem b) 0 rest
                 end in
  match m1 with
  | None => None
  | Some m =>
      let l' := alen b - len in
      let ns := round_up (l' + 1) in
      if ok then Some ({| mem := firstn (Z.to_nat ns) m ++ repeat g (Z.to_nat (ns - Z.of_nat (length m)));
                          alen := l' |}, true)
      else Some ({| mem := m; alen := l' |}, false)
  end.

(** The calls a user of the module can make; src/common/autobuf.h:66-75 *)
Inductive aop :=
| AAppendf (s : list Z) | APuts (s : list Z) | AConcat (s : abuf)
| AMemcpy (p : list Z) | APrefix (p : list Z) | APull (n g : Z).

(** one call, with the outcome of the allocator; src/common/autobuf.c, as cited at the
    functions; src/common/autobuf.h:66-75 *)
Definition astep (b : abuf) (o : aop) (ok : bool) : option (abuf * bool) :=
  match o with
  | AAppendf s => abuf_appendf b s ok
  | APuts s => abuf_puts b s ok
  | AConcat s => abuf_concat b s ok
  | AMemcpy p => abuf_memcpy b p ok
  | APrefix p => abuf_prefix b p ok
  | APull n g => abuf_pull b n ok g
  end.


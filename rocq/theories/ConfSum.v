(** Model of the checksum of the configuration (src/superfasthash.c and
    src/cfgparser/olsrd_conf_checksum.c, called in src/cfgparser/oscan.lex and
    src/main.c:436-437, 527).  char is signed, as on x86 and on Linux in general.
    Definitions only; [None] is undefined behaviour. *)
From Coq Require Import String.
From Verif Require Import Base Regex ConfScan.

(** src/superfasthash.c:44-47 get16bits *)
Definition get16 (a b : Z) : Z := b * 256 + a.
(** assignments to a uint32_t, as in src/superfasthash.c:66-97 *)
Definition shl (h n : Z) : Z := u32 (Z.shiftl h n).
(** hash += hash >> n; src/superfasthash.c:70-97 *)
Definition addshr (n h : Z) : Z := u32 (h + Z.shiftr h n).
(** hash ^= hash << n; src/superfasthash.c:76-96 *)
Definition xorshl (n h : Z) : Z := Z.lxor h (shl h n).
(** char as int, src/superfasthash.c:77, 85 *)
Definition schar (c : Z) : Z := if c <? 128 then c else c - 256.
(** src/superfasthash.c:65-71: the main loop; reading past the text is None *)
Fixpoint blocks (n : nat) (data : list Z) (h : Z) : option (list Z * Z) :=
  match n with
  | O => Some (data, h)
  | S n' => match data with
            | a :: b :: c :: d :: r =>
                let h := u32 (h + get16 a b) in
                let tmp := Z.lxor (shl (get16 c d) 11) h in
                let h := Z.lxor (shl h 16) tmp in
                blocks n' r (addshr 11 h)
            | _ => None
            end
  end.
(** src/superfasthash.c:74-89: the end cases; the shift of a negative int is
    undefined (line 77) *)
Definition tailcase (rem : Z) (data : list Z) (h : Z) : option Z :=
  if rem =? 3 then
    match data with
    | a :: b :: c :: _ =>
        let h := xorshl 16 (u32 (h + get16 a b)) in
        if schar c <? 0 then None else Some (addshr 11 (Z.lxor h (shl (schar c) 18)))
    | _ => None
    end
  else if rem =? 2 then
    match data with
    | a :: b :: _ => Some (addshr 17 (xorshl 11 (u32 (h + get16 a b))))
    | _ => None
    end
  else
    match data with
    | a :: _ => Some (addshr 1 (xorshl 10 (u32 (h + schar a))))
    | [] => None
    end.
(** src/superfasthash.c:91-97 *)
Definition avalanche (h : Z) : Z := addshr 6 (xorshl 25 (addshr 17 (xorshl 4 (addshr 5 (xorshl 3 h))))).
(** src/superfasthash.c:54-100 hash_inc: the memory from data on *)
Definition hash_inc (data : list Z) (len h : Z) : option Z :=
  if len <=? 0 then Some 0
  else match blocks (Z.to_nat (len / 4)) data h with
       | Some (r, h) => option_map avalanche (tailcase (len mod 4) r h)
       | None => None
       end.
(** src/cfgparser/olsrd_conf_checksum.c:103-110 olsrd_config_checksum_add for text that
    a 0 follows, as yytext and the arguments of main *)
Definition sum_add (h : Z) (t : list Z) : option Z :=
  match t with
  | [] => Some h
  | _ => match hash_inc (t ++ [0]) (Z.of_nat (length t)) h with Some h => hash_inc [10; 0] 1 h | None => None end
  end.
(** the calls one after the other, src/cfgparser/olsrd_conf_checksum.c:90-100 and the
    rules of src/cfgparser/oscan.lex:169-799 *)
Fixpoint sum_adds (h : Z) (ts : list (list Z)) : option Z :=
  match ts with [] => Some h | t :: r => match sum_add h t with Some h => sum_adds h r | None => None end end.
(** src/cfgparser/olsrd_conf_checksum.c:83-101 olsrd_config_checksum_add_cli: what is
    added for the arguments; there is at least one *)
Definition cli_texts (argv : list (list Z)) : list (list Z) := str "*CLI START*" :: argv ++ [str "*CLI END*"].
(** the rules of src/cfgparser/oscan.lex:169-799 whose actions add their text *)
Definition adds (k : kind) : bool := match k with KComment | KNewline | KBlank | KOther => false | _ => true end.
(** the checksum of a start with arguments and a file, src/main.c:436-437, 496-527 *)
Definition checksum (argv : list (list Z)) (s : list Z) : option Z :=
  sum_adds 0 (cli_texts argv ++ map snd (filter (fun p => adds (fst p)) (lexemes (length s) s))).
(** %x, src/cfgparser/olsrd_conf_checksum.c:69 *)
Definition hexchar (d : Z) : Z := if d <? 10 then 48 + d else 87 + d.
(** %08x, src/cfgparser/olsrd_conf_checksum.c:69 *)
Fixpoint hexdigits (n : nat) (h : Z) : list Z := match n with O => [] | S n' => hexdigits n' (h / 16) ++ [hexchar (h mod 16)] end.
(** src/cfgparser/olsrd_conf_checksum.c:68-71 olsrd_config_checksum_final *)
Definition sum_text (h : Z) : list Z := hexdigits 8 h.

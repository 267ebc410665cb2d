(** Model of the comparison functions used for ordered trees.  Definitions
    only.  Addresses are byte lists in network order, most significant first. *)
From Verif Require Import Base.

(** value of a byte list, most significant byte first: ntohl of an in_addr;
    src/common/olsrd_avl.c:64-80 *)
Fixpoint be_val (acc : Z) (l : list Z) : Z := match l with [] => acc | b :: l' => be_val (acc * 256 + b) l' end.
(** src/common/olsrd_avl.c:64-80 *)
Definition ntohl_val (l : list Z) : Z := be_val 0 l.

(** the same bytes read as an unsigned int by the host (in_addr.s_addr); src/ipcalc.h:74-79 *)
Definition s_addr (little : bool) (l : list Z) : Z := if little then ntohl_val (rev l) else ntohl_val l.

(** src/ipcalc.h:71-75 ip4cmp; src/common/olsrd_avl.c:63-67; the same
    comparison as inlined in src/common/olsrd_avl.c:92-106 *)
Definition ip4cmp (little : bool) (a b : list Z) : Z :=
  if s_addr little a >? s_addr little b then 1 else if s_addr little a <? s_addr little b then -1 else 0.

(** memcmp over byte lists of equal length (the sign of the first difference); src/ipcalc.h:85 *)
Fixpoint memcmp (a b : list Z) : Z :=
  match a, b with
  | x :: a', y :: b' => if x <? y then -1 else if x >? y then 1 else memcmp a' b'
  | _, _ => 0
  end.

(** src/ipcalc.h:82-86 ip6cmp; src/common/olsrd_avl.c:69-73 (16 bytes) and
    75-79 olsrd_avl_comp_mac (6 bytes) *)
Definition ip6cmp (a b : list Z) : Z := memcmp a b.

(** src/routing_table.c:107-132 olsrd_avl_comp_ipv4_prefix; a prefix is its
    address bytes and its length *)
Definition comp_ipv4_prefix (p q : list Z * Z) : Z :=
  let a := ntohl_val (fst p) in let b := ntohl_val (fst q) in
  if a <? b then -1 else if a >? b then 1
  else if snd p <? snd q then -1 else if snd p >? snd q then 1 else 0.

(** src/routing_table.c:144-165 olsrd_avl_comp_ipv6_prefix *)
Definition comp_ipv6_prefix (p q : list Z * Z) : Z :=
  let res := memcmp (fst p) (fst q) in
  if negb (res =? 0) then res
  else if snd p <? snd q then -1 else if snd p >? snd q then 1 else 0.

(** src/olsr_spf.c:91-103 olsrd_avl_comp_etx (32 bit costs) and
    src/scheduler.c:114-124 olsrd_avl_comp_timer (addresses) *)
Definition comp_etx (a b : Z) : Z := if a <? b then -1 else if a >? b then 1 else 0.

(** The options of the interfaces: how the configuration parser writes them down
    (src/cfgparser/oparse.y:76-136, 388-480, 579-826, 978-1040), how the defaults are mixed
    in (src/cfgparser/olsrd_conf.c:912-983) and how the multiplier of a link is chosen
    (src/link_set.c:313-361).

    Simplifications: the statements of a block are given as writes of bytes into the
    option structure and as multipliers; the structure has 128 bytes (the layout of
    x86_64), the list of multipliers hanging off it is kept beside it; addresses are
    numbers; memory does not run out. *)
From Verif Require Import Base.

(** union olsr_ip_addr compared with ipequal, src/ipcalc.h:94-97; 0 is the null address *)
Definition addr := Z.
(** struct if_config_options as bytes, src/olsr_cfg.h:222-238 *)
Definition bytes := list Z.
(** struct olsr_lq_mult, src/olsr_cfg.h:211-215: address and value *)
Definition mult := (Z * Z)%type.

(** struct olsr_if, src/olsr_cfg.h:240-248: name (None: not initialised), cnf, cnfi and the
    list of multipliers *)
Record pif := { p_name : option (list Z); p_cnf : bytes; p_cnfi : bytes; p_mults : list mult }.

(** the parser: olsr_cnf->interfaces, ifs_in_curr_cfg (src/cfgparser/oparse.y:88) and
    olsr_cnf->interface_defaults (bytes and multipliers) *)
Record pst := { t_ifs : list pif; t_cnt : nat; t_defs : option (bytes * list mult) }.

(** size of struct if_config_options, src/olsr_cfg.h:222-238 *)
Definition opt_size : nat := 128.
(** lq_mult and orig_lq_mult_cnt in it, src/olsr_cfg.h:235-236 *)
Definition mult_lo : nat := 112.
(** see above, src/olsr_cfg.h:235-236 *)
Definition mult_hi : nat := 124.

(** assignment to a member at offset [off], src/cfgparser/oparse.y:78-79; None: outside of
    the structure *)
Fixpoint write (b : bytes) (off : nat) (v : list Z) : option bytes :=
  match off, b with
  | S o, x :: r => option_map (cons x) (write r o v)
  | S _, [] => None
  | O, _ => if Nat.leb (length v) (length b) then Some (v ++ skipn (length v) b) else None
  end.

(** src/cfgparser/oparse.y:1006-1031: memory of a new interface: cnf all zero, cnfi all
    0xFF except orig_lq_mult_cnt (bytes 120 to 123) *)
Definition new_cnf : bytes := repeat 0 opt_size.
(** see above, src/cfgparser/oparse.y:1006-1031 *)
Definition new_cnfi : bytes := repeat 255 120 ++ repeat 0 4 ++ repeat 255 4.

(** strcmp, src/cfgparser/oparse.y:991 *)
Definition neqb (a b : list Z) : bool := if list_eq_dec Z.eq_dec a b then true else false.

(** src/cfgparser/oparse.y:990-1005: the interface with this name taken out of the list;
    the outer None: a name that is not initialised is compared *)
Fixpoint take_out (n : list Z) (l : list pif) : option (option pif * list pif) :=
  match l with
  | [] => Some (None, [])
  | i :: r =>
      match p_name i with
      | None => None
      | Some m =>
          if neqb m n then Some (Some i, r)
          else match take_out n r with
               | Some (o, r') => Some (o, i :: r')
               | None => None
               end
      end
  end.

(** src/cfgparser/oparse.y:985-1040 ifnick *)
Definition ifnick (n : list Z) (s : pst) : option pst :=
  match take_out n (t_ifs s) with
  | None => None
  | Some (o, r) =>
      let i := match o with
               | Some i => i
               | None => {| p_name := Some n; p_cnf := new_cnf; p_cnfi := new_cnfi;
                            p_mults := [] |}
               end in
      Some {| t_ifs := i :: r; t_cnt := S (t_cnt s); t_defs := t_defs s |}
  end.

(** src/cfgparser/oparse.y:978-983 ifstart *)
Definition ifstart (s : pst) : pst :=
  {| t_ifs := t_ifs s; t_cnt := 0; t_defs := t_defs s |}.

(** the loop over the first [k] interfaces in src/cfgparser/oparse.y:76-81 SET_IFS_CONF,
    118-133 and 585-593; None: the list is shorter *)
Fixpoint first_k (k : nat) (f : pif -> option pif) (l : list pif) : option (list pif) :=
  match k, l with
  | O, _ => Some l
  | S _, [] => None
  | S j, i :: r =>
      match f i, first_k j f r with
      | Some i', Some r' => Some (i' :: r')
      | _, _ => None
      end
  end.

(** src/cfgparser/oparse.y:78-79 *)
Definition set_one (off : nat) (v : list Z) (i : pif) : option pif :=
  match write (p_cnf i) off v, write (p_cnfi i) off v with
  | Some a, Some b => Some {| p_name := p_name i; p_cnf := a; p_cnfi := b;
                              p_mults := p_mults i |}
  | _, _ => None
  end.

(** src/cfgparser/oparse.y:119-130, the list only (its bytes in the structure are left
    as they are) *)
Definition mult_one (m : mult) (i : pif) : option pif :=
  Some {| p_name := p_name i; p_cnf := p_cnf i; p_cnfi := p_cnfi i;
          p_mults := m :: p_mults i |}.

(** a statement in the block of an interface, src/cfgparser/oparse.y:410-436 *)
Inductive stm := SSet (off : nat) (v : list Z) | SMult (m : mult).

(** src/cfgparser/oparse.y:579-826 and 94-136 *)
Definition stmt (x : stm) (s : pst) : option pst :=
  let f := match x with SSet off v => set_one off v | SMult m => mult_one m end in
  match first_k (t_cnt s) f (t_ifs s) with
  | Some l => Some {| t_ifs := l; t_cnt := t_cnt s; t_defs := t_defs s |}
  | None => None
  end.

(** src/cfgparser/olsrd_conf.c:1201-1232 get_default_if_config: the IPv6 multicast address
    of src/ipcalc.c:77-82, the intervals 2, 5, 5, 5 and validity times 20, 300, 300, 300 as
    floats, autodetect_chg *)
Definition builtin_bytes : bytes :=
  repeat 0 16 ++ [255; 2; 0; 0; 0; 0; 0; 0; 0; 0; 0; 0; 0; 0; 0; 109]
  ++ repeat 0 48
  ++ [0; 0; 0; 64; 0; 0; 160; 65]
  ++ [0; 0; 160; 64; 0; 0; 150; 67]
  ++ [0; 0; 160; 64; 0; 0; 150; 67]
  ++ [0; 0; 160; 64; 0; 0; 150; 67]
  ++ repeat 0 12 ++ [1; 0; 0; 0].

(** src/cfgparser/oparse.y:449-480 ifdblock: the name is not initialised *)
Definition def_open (s : pst) : pst :=
  {| t_ifs := {| p_name := None; p_cnf := builtin_bytes; p_cnfi := builtin_bytes;
                 p_mults := [] |} :: t_ifs s;
     t_cnt := 1; t_defs := Some (builtin_bytes, []) |}.

(** src/cfgparser/oparse.y:395-407 ifdbody *)
Definition def_close (s : pst) : option pst :=
  match t_ifs s with
  | [] => None
  | i :: r => Some {| t_ifs := r; t_cnt := 0; t_defs := Some (p_cnf i, p_mults i) |}
  end.

(** a block, src/cfgparser/oparse.y:360-370, 388-396, 449: `Interface "a" "b" { ... }` or
    `InterfaceDefaults { ... }` *)
Inductive block := BIf (names : list (list Z)) (body : list stm) | BDef (body : list stm).

(** the steps in order, src/cfgparser/oparse.y:388-436 *)
Fixpoint seqM {A} (f : A -> pst -> option pst) (l : list A) (s : pst) : option pst :=
  match l with
  | [] => Some s
  | a :: r => match f a s with Some s' => seqM f r s' | None => None end
  end.

(** src/cfgparser/oparse.y:360-436, 449-480: one block *)
Definition run_block (b : block) (s : pst) : option pst :=
  match b with
  | BIf names body =>
      match seqM ifnick names (ifstart s) with
      | Some s1 => seqM stmt body s1
      | None => None
      end
  | BDef body =>
      match seqM stmt body (def_open s) with
      | Some s1 => def_close s1
      | None => None
      end
  end.

(** before parsing, src/cfgparser/olsrd_conf.c:1074-1190: nothing configured *)
Definition pst0 : pst := {| t_ifs := []; t_cnt := 0; t_defs := None |}.

(** a whole configuration file, src/cfgparser/oparse.y:300-360 *)
Definition run (l : list block) : option pst := seqM run_block l pst0.

(** src/cfgparser/olsrd_conf.c:942-947: byte by byte *)
Fixpoint mix (cnf cnfi d : bytes) : bytes :=
  match cnf, cnfi, d with
  | a :: r, b :: s, x :: t => (if a =? b then a else x) :: mix r s t
  | _, _, _ => []
  end.

(** src/cfgparser/olsrd_conf.c:949-983: the own multipliers first, then those of the
    defaults for other addresses, pushed to the front one after the other *)
Definition merge_mults (own defs : list mult) : list mult :=
  own ++ rev (filter (fun d => negb (existsb (fun o => fst o =? fst d) own)) defs).

(** src/cfgparser/olsrd_conf.c:912-915 *)
Definition defs_of (o : option (bytes * list mult)) : bytes * list mult :=
  match o with Some d => d | None => (builtin_bytes, []) end.

(** src/cfgparser/olsrd_conf.c:931-983: what an interface works with *)
Definition effective (s : pst) (i : pif) : bytes * list mult :=
  (mix (p_cnf i) (p_cnfi i) (fst (defs_of (t_defs s))),
   merge_mults (p_mults i) (snd (defs_of (t_defs s)))).

(** src/link_set.c:337-349: the loop over the multipliers *)
Fixpoint pick (a : addr) (l : list mult) (val : Z) : Z :=
  match l with
  | [] => val
  | (x, v) :: r => pick a r (if ((x =? 0) && (val =? 0)) || (x =? a) then v else val)
  end.

(** src/link_set.c:313-358 set_loss_link_multiplier for a link to [a] over an interface with
    these multipliers *)
Definition loss_mult (l : list mult) (a : addr) : Z :=
  let v := pick a l 0 in if v =? 0 then 65536 else v.

(** Model of the parameters of plugins: the functions that turn the values of the
    configuration file into numbers, booleans and strings (src/plugin_util.c) and
    the loading of plugins (src/plugin_loader.c, without
    SUPPORT_OLD_PLUGIN_VERSIONS and TESTLIB_PATH).  Definitions only.  Strings
    are lists of bytes without the zero at the end.  int has 32 bits, long 64. *)
From Coq Require Import String.
From Verif Require Import Base Regex Strings.

(** isspace, toupper and the value of a digit in strtol of the C library; src/plugin_util.c:56,
    116, 135 *)
Definition space (c : Z) : bool := (c =? 32) || ((9 <=? c) && (c <=? 13)).
(** src/plugin_util.c:56, 116, 135 *)
Definition digit_of (c : Z) : option Z :=
  if (48 <=? c) && (c <=? 57) then Some (c - 48)
  else if (65 <=? c) && (c <=? 90) then Some (c - 55)
  else if (97 <=? c) && (c <=? 122) then Some (c - 87)
  else None.
(** strtol, src/plugin_util.c:56, 116, 135 *)
Definition in_base (base : Z) (c : Z) : option Z :=
  match digit_of c with Some d => if d <? base then Some d else None | None => None end.
(** strtol, src/plugin_util.c:56, 116, 135 *)
Fixpoint take_digits (base : Z) (acc : Z) (s : list Z) : Z * list Z :=
  match s with
  | c :: r => match in_base base c with Some d => take_digits base (acc * base + d) r | None => (acc, s) end
  | [] => (acc, [])
  end.
(** strtol, src/plugin_util.c:56, 116, 135 *)
Fixpoint skip_space (s : list Z) : list Z := match s with c :: r => if space c then skip_space r else s | [] => [] end.
(** strtol and strtoul with base 0, called in src/plugin_util.c:56, 116 and 135,
    before the value is limited: the sign, the value, what endptr points to; None
    when there is no number, endptr is then the value itself *)
Definition scan_num (s : list Z) : option (bool * Z * list Z) :=
  let s1 := skip_space s in
  let '(neg, s2) := match s1 with c :: r => if c =? 45 then (true, r) else if c =? 43 then (false, r) else (false, s1) | [] => (false, []) end in
  match s2 with
  | [] => None
  | c :: r =>
      if c =? 48 then
        match r with
        | x :: d :: r' =>
            if (x =? 120) || (x =? 88) then
              match in_base 16 d with Some _ => let '(v, e) := take_digits 16 0 (d :: r') in Some (neg, v, e) | None => Some (neg, 0, r) end
            else let '(v, e) := take_digits 8 0 s2 in Some (neg, v, e)
        | _ => let '(v, e) := take_digits 8 0 s2 in Some (neg, v, e)
        end
      else match in_base 10 c with Some _ => let '(v, e) := take_digits 10 0 s2 in Some (neg, v, e) | None => None end
  end.
(** the limits of strtol and strtoul; src/plugin_util.c:56, 116, 135 *)
Definition to_long (neg : bool) (v : Z) : Z :=
  if neg then (if v >? 2 ^ 63 then - 2 ^ 63 else - v) else (if v >? 2 ^ 63 - 1 then 2 ^ 63 - 1 else v).
(** see above, src/plugin_util.c:56, 116 *)
Definition to_ulong (neg : bool) (v : Z) : Z :=
  if v >? 2 ^ 64 - 1 then 2 ^ 64 - 1 else if neg then (- v) mod 2 ^ 64 else v.
(** conversion to int; src/plugin_util.c:116 *)
Definition to_int (v : Z) : Z := (v + 2 ^ 31) mod 2 ^ 32 - 2 ^ 31.

(** src/plugin_util.c:52-72 set_plugin_port; None is the return value 1, otherwise
    the number that is stored *)
Definition set_port (s : list Z) : option Z :=
  match scan_num s with
  | Some (neg, v, []) => let port := u32 (to_ulong neg v) in if port >? 65535 then None else Some port
  | _ => None
  end.
(** src/plugin_util.c:112-129 set_plugin_int *)
Definition set_int (s : list Z) : option Z :=
  match scan_num s with Some (neg, v, []) => Some (to_int (to_long neg v)) | _ => None end.
(** src/plugin_util.c:131-148 set_plugin_long *)
Definition set_long (s : list Z) : option Z :=
  match scan_num s with Some (neg, v, []) => Some (to_long neg v) | _ => None end.

(** strcasecmp(a, b) == 0; src/plugin_util.c:102-104 *)
Definition low (c : Z) : Z := if (65 <=? c) && (c <=? 90) then c + 32 else c.
(** src/plugin_util.c:102-104, src/plugin_loader.c:266-281 *)
Fixpoint caseeq (a b : list Z) : bool :=
  match a, b with
  | [], [] => true
  | x :: a, y :: b => (low x =? low y) && caseeq a b
  | _, _ => false
  end.
(** src/plugin_util.c:97-110 set_plugin_boolean *)
Definition set_boolean (s : list Z) : option bool :=
  if caseeq s (str "yes") || caseeq s (str "true") then Some true
  else if caseeq s (str "no") || caseeq s (str "false") then Some false
  else None.
(** src/plugin_util.c:150-167 set_plugin_string: [v] is the memory that data
    points to, [size] is addon.ui; the outer None is a write outside of it *)
Definition set_string (v : list Z) (size : Z) (s : list Z) : option (option (list Z)) :=
  if u32 (Z.of_nat (length s)) >=? size then Some None
  else match strscpy v s size with Some d => Some (Some d) | None => None end.

(** A shared object: whether dlopen finds it, what olsrd_plugin_interface_version() returns if
    it is there, whether olsrd_plugin_init is there, the names in the table of
    olsrd_get_plugin_parameters if that is there, and what the setter of the i-th name returns
    for a key and a value; src/plugin_loader.c:104-243, src/olsrd_plugin.h:91-101 *)
Record shlib := mkLib { l_open : bool; l_version : option Z; l_init : bool; l_params : option (list (list Z));
                        l_set : nat -> list Z -> list Z -> Z; l_initrc : Z }.
(** calls into plugins: a parameter (the number of the table entry, the value, the key), the
    initialization; src/plugin_loader.c:255-310 *)
Inductive pcall := CSet (lib : list Z) (i : nat) (key value : list Z) | CInit (lib : list Z).

(** src/plugin_loader.c:163-243 olsr_add_dl: None is -1, otherwise the table *)
Definition add_dl (l : shlib) : option (list (list Z)) :=
  match l_version l with
  | None => None
  | Some v => if v =? -1 then None
              else if v <? 5 then None
              else if negb (l_init l) then None
              else l_params l
  end.
(** src/plugin_loader.c:266-281: the first entry that fits; an empty name fits any key *)
Fixpoint find_param (i : nat) (names : list (list Z)) (key : list Z) : option nat :=
  match names with
  | [] => None
  | n :: r => if match n with [] => true | _ => false end || caseeq n key then Some i else find_param (S i) r key
  end.
(** src/plugin_loader.c:260-305: the parameters of one plugin; false is rv = -1 *)
Fixpoint send_params (name : list Z) (l : shlib) (names : list (list Z)) (params : list (list Z * list Z)) : list pcall * bool :=
  match params with
  | [] => ([], true)
  | (k, v) :: r =>
      let '(cs, ok) := send_params name l names r in
      match names with
      | [] => (cs, false)
      | _ => match find_param 0 names k with
             | Some i => (CSet name i k v :: cs, (l_set l i k v =? 0) && ok)
             | None => (cs, ok)
             end
      end
  end.
(** src/plugin_loader.c:255-310 init_olsr_plugin; the value of plugin_init is not used *)
Definition init_plugin (name : list Z) (l : shlib) (names : list (list Z)) (params : list (list Z * list Z)) : list pcall * bool :=
  let '(cs, ok) := send_params name l names params in (cs ++ [CInit name], ok).
(** src/plugin_loader.c:91-136 olsr_load_dl *)
Definition load_dl (fs : list Z -> shlib) (name : list Z) (params : list (list Z * list Z)) : list pcall * bool :=
  let l := fs name in
  if negb (l_open l) then ([], false)
  else match add_dl l with None => ([], false) | Some names => init_plugin name l names params end.
(** src/plugin_loader.c:66-80 olsr_load_plugins: the calls made and whether olsrd
    goes on (otherwise olsr_exit) *)
Fixpoint load_plugins (fs : list Z -> shlib) (conf : list (list Z * list (list Z * list Z))) : list pcall * bool :=
  match conf with
  | [] => ([], true)
  | (name, params) :: r =>
      let '(c1, ok1) := load_dl fs name params in
      let '(c2, ok2) := load_plugins fs r in
      (c1 ++ c2, ok1 && ok2)
  end.

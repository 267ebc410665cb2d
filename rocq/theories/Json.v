(** Model of the JSON writer of the information plugins: lib/info/json_helpers.c
    and struct json_session in lib/info/json_helpers.h. *)
From Coq Require Import String.
From Verif Require Import Base Regex NameSvc.

(** lib/info/json_helpers.h:54-64 INFO_JSON_ENTRY_MAX_DEPTH, struct json_session.  The
    counters are mathematical integers (the C ints would overflow after 2^31 entries of one
    object). *)
Definition maxdepth : Z := 16.
(** see above, lib/info/json_helpers.h:54-64 *)
Record jsess := mkJ { j_pretty : bool; j_ent : Z -> Z; j_depth : Z }.

(** lib/info/json_helpers.c:58-63 abuf_json_reset_entry_number_and_depth *)
Definition j_reset (pretty : bool) : jsess := mkJ pretty (fun _ => 0) 0.

(** entrynumber[i]; outside of the array is [None]; lib/info/json_helpers.h:62 *)
Definition ent (s : jsess) (i : Z) : option Z :=
  if (0 <=? i) && (i <? maxdepth) then Some (j_ent s i) else None.
(** entrynumber[i] = v; outside of the array is [None]; lib/info/json_helpers.h:62 *)
Definition set_ent (s : jsess) (i v : Z) : option jsess :=
  if (0 <=? i) && (i <? maxdepth) then Some (mkJ (j_pretty s) (fun k => if k =? i then v else j_ent s k) (j_depth s)) else None.
(** entrynumber[currentjsondepth]++; lib/info/json_helpers.c:123 *)
Definition count_entry (s : jsess) : option jsess :=
  match ent s (j_depth s) with Some n => set_ent s (j_depth s) (n + 1) | None => None end.
(** assignment to currentjsondepth; lib/info/json_helpers.c:97, 102, 124, 129 *)
Definition set_depth (s : jsess) (d : Z) : jsess := mkJ (j_pretty s) (j_ent s) d.

(** lib/info/json_helpers.c:65-79 abuf_json_new_indent: the text that is appended *)
Definition new_indent (s : jsess) : list Z :=
  if j_depth s =? 0 then [] else if j_pretty s then 10 :: repeat 32 (2 * Z.to_nat (j_depth s)) else [].

(** lib/info/json_helpers.c:81-87 abuf_json_insert_comma *)
Definition insert_comma (s : jsess) : option (list Z) :=
  match ent s (j_depth s) with Some n => Some (if n =? 0 then [] else [44]) | None => None end.

(** A call returns the new session and the text that it appends to the buffer; [None] is a
    failing assertion or an access outside of entrynumber; lib/info/json_helpers.c *)
Definition jres := option (jsess * list Z).

(** lib/info/json_helpers.c:89-109 abuf_json_mark_output *)
Definition mark_output (s : jsess) (open : bool) : jres :=
  if open
  then if j_depth s =? 0
       then match set_ent (set_depth s (j_depth s + 1)) (j_depth s + 1) 0 with
            | Some s' => Some (s', new_indent s ++ [123])
            | None => None end
       else None
  else if j_depth s =? 1
       then match set_ent s (j_depth s) 0 with
            | Some s1 => let s' := set_depth s1 (j_depth s1 - 1) in
                         Some (s', new_indent s' ++ (if j_pretty s' then [10] else []) ++ [125])
            | None => None end
       else None.

(** lib/info/json_helpers.c:118-122, 149-151: the quoted key and a colon, if there is a key *)
Definition key_text (key : option (list Z)) : list Z :=
  match key with Some k => [34] ++ k ++ [34; 58; 32] | None => [] end.

(** lib/info/json_helpers.c:111-134 abuf_json_mark_object *)
Definition mark_object (s : jsess) (open array : bool) (key : option (list Z)) : jres :=
  if open
  then match insert_comma s, count_entry s with
       | Some comma, Some s1 =>
           let s2 := set_depth s1 (j_depth s1 + 1) in
           if j_depth s2 <? maxdepth
           then match set_ent s2 (j_depth s2) 0 with
                | Some s3 => Some (s3, comma ++ new_indent s ++ key_text key ++ [if array then 91 else 123])
                | None => None end
           else None
       | _, _ => None end
  else match set_ent s (j_depth s) 0 with
       | Some s1 => let s2 := set_depth s1 (j_depth s1 - 1) in
                    if 0 <=? j_depth s2 then Some (s2, new_indent s2 ++ [if array then 93 else 125]) else None
       | None => None end.

(** the common part of abuf_json_boolean, _string, _int, _float, _ip_address,
    _ip_address46, _prefix (lib/info/json_helpers.c:143-274): comma, indentation, key,
    value, entrynumber *)
Definition scalar (s : jsess) (key : option (list Z)) (text : list Z) : jres :=
  match insert_comma s, count_entry s with
  | Some comma, Some s' => Some (s', comma ++ new_indent s ++ key_text key ++ text)
  | _, _ => None end.

(** a double: not a number, infinite, or finite; [micro] is the magnitude in millionths as
    printf %f rounds it; lib/info/json_helpers.h:82 *)
Inductive dbl := Nan | Inf (neg : bool) | Fin (neg : bool) (micro : Z).
(** DBL_MAX in millionths: (2^53 - 1) * 2^971 * 10^6 *)
Definition dbl_max : Z := (2 ^ 53 - 1) * 2 ^ 971 * 1000000.
(** printf %f of a finite double; lib/info/json_helpers.c, abuf_json_float *)
Definition fmt_f (neg : bool) (micro : Z) : list Z :=
  (if neg then [45] else []) ++ dec 400 (micro / 1000000) [] ++ [46] ++
  [48 + micro / 100000 mod 10; 48 + micro / 10000 mod 10; 48 + micro / 1000 mod 10;
   48 + micro / 100 mod 10; 48 + micro / 10 mod 10; 48 + micro mod 10].
(** printf %lld; lib/info/json_helpers.c, abuf_json_int *)
Definition fmt_d (z : Z) : list Z := if z <? 0 then 45 :: dec 20 (- z) [] else dec 20 z [].

(** lib/info/json_helpers.c:143-154 abuf_json_boolean *)
Definition json_boolean s key (b : bool) : jres := scalar s key (if b then str "true" else str "false").
(** lib/info/json_helpers.c:156-167 abuf_json_string: no character is escaped *)
Definition json_string s key (v : option (list Z)) : jres :=
  scalar s key ([34] ++ (match v with Some t => t | None => [] end) ++ [34]).
(** lib/info/json_helpers.c:169-187 abuf_json_int *)
Definition json_int s key (z : Z) : jres := scalar s key (fmt_d z).
(** lib/info/json_helpers.c:189-211 abuf_json_float *)
Definition json_float s key (d : dbl) : jres :=
  scalar s key (match d with
                | Nan => fmt_f false 0
                | Inf n => fmt_f n dbl_max
                | Fin n m => fmt_f n m end).
(** lib/info/json_helpers.c:213-250 abuf_json_ip_address, abuf_json_ip_address46: the
    address is given by its text (inet_ntop) *)
Definition json_ip s key (a : option (list Z)) : jres :=
  scalar s key ([34] ++ (match a with Some t => t | None => [] end) ++ [34]).
(** lib/info/json_helpers.c:252-274 abuf_json_prefix *)
Definition json_prefix s key (p : option (list Z * Z)) : jres :=
  scalar s key (match p with Some (t, l) => [34] ++ t ++ [47] ++ fmt_d l ++ [34] | None => [34; 34] end).

(** a call of one of the functions; lib/info/json_helpers.h:66-88 *)
Inductive jcall :=
| COpen (array : bool) (key : option (list Z))
| CClose (array : bool)
| CBool (key : option (list Z)) (b : bool)
| CStr (key : option (list Z)) (v : option (list Z))
| CInt (key : option (list Z)) (z : Z)
| CFloat (key : option (list Z)) (d : dbl)
| CIp (key : option (list Z)) (a : option (list Z))
| CPrefix (key : option (list Z)) (p : option (list Z * Z)).

(** dispatch to lib/info/json_helpers.c:111-274 *)
Definition jcall1 (s : jsess) (c : jcall) : jres :=
  match c with
  | COpen a k => mark_object s true a k
  | CClose a => mark_object s false a None
  | CBool k b => json_boolean s k b
  | CStr k v => json_string s k v
  | CInt k z => json_int s k z
  | CFloat k d => json_float s k d
  | CIp k a => json_ip s k a
  | CPrefix k p => json_prefix s k p
  end.

(** a sequence of calls; the appended texts follow each other in the buffer;
    lib/info/json_helpers.h:66-88 *)
Fixpoint jcalls (s : jsess) (l : list jcall) : jres :=
  match l with
  | [] => Some (s, [])
  | c :: l' => match jcall1 s c with
               | Some (s1, t1) => match jcalls s1 l' with Some (s2, t2) => Some (s2, t1 ++ t2) | None => None end
               | None => None end
  end.

(** lib/jsoninfo/src/olsrd_jsoninfo.c:217-240, lib/netjson/src/olsrd_netjson.c:96-106
    output_start and output_end: the session is reset, the outermost object is opened,
    the calls [l] are made, and the outermost object is closed and followed by a newline *)
Definition document (pretty : bool) (l : list jcall) : option (list Z) :=
  match mark_output (j_reset pretty) true with
  | Some (s1, t1) =>
      match jcalls s1 l with
      | Some (s2, t2) => match mark_output s2 false with
                         | Some (_, t3) => Some (t1 ++ t2 ++ t3 ++ [10])
                         | None => None end
      | None => None end
  | None => None end.

(** What a JSON text is (RFC 8259), independent of the writer: a relation between texts
    (lists of bytes) and the values that they denote; and the data that the plugins print
    with the sequences of calls that print it.  Bytes above 127 stand for themselves. *)
From Coq Require Import String.
From Verif Require Import Base Regex Json.

(** values; a number is m / 10^k *)
Inductive jval := JBool (b : bool) | JStr (s : list Z) | JNum (m : Z) (k : nat) | JArr (l : list jval) | JObj (l : list (list Z * jval)).

(** RFC 8259 section 2: insignificant whitespace *)
Definition ws (t : list Z) : Prop := Forall (fun c => c = 32 \/ c = 9 \/ c = 10 \/ c = 13) t.

(** section 7: the characters between the quotation marks.  Escapes with \u are left out
    (nothing here writes them). *)
Definition plain (c : Z) : Prop := 32 <= c /\ c <> 34 /\ c <> 92.
Definition escapes : list (Z * Z) := [(34, 34); (92, 92); (47, 47); (98, 8); (102, 12); (110, 10); (114, 13); (116, 9)].
Inductive chars : list Z -> list Z -> Prop :=
| ch_nil : chars [] []
| ch_plain c t s : plain c -> chars t s -> chars (c :: t) (c :: s)
| ch_esc e c t s : In (e, c) escapes -> chars t s -> chars (92 :: e :: t) (c :: s).

(** section 6: numbers, without exponents (nothing here writes them) *)
Definition digit (c : Z) : Prop := 48 <= c <= 57.
Definition value_of (ds : list Z) : Z := fold_left (fun a c => 10 * a + (c - 48)) ds 0.
Definition number (t : list Z) (m : Z) (k : nat) : Prop :=
  exists (neg : bool) ip fp, Forall digit ip /\ Forall digit fp /\ ip <> [] /\ (hd 0 ip = 48 -> ip = [48]) /\
    t = (if neg then [45] else []) ++ ip ++ (match fp with [] => [] | _ => 46 :: fp end) /\
    k = length fp /\ m = (if neg then - value_of (ip ++ fp) else value_of (ip ++ fp)).

(** sections 3 to 5 *)
Inductive value : list Z -> jval -> Prop :=
| v_true : value (str "true") (JBool true)
| v_false : value (str "false") (JBool false)
| v_str t s : chars t s -> value ([34] ++ t ++ [34]) (JStr s)
| v_num t m k : number t m k -> value t (JNum m k)
| v_arr0 w : ws w -> value ([91] ++ w ++ [93]) (JArr [])
| v_arr t l : elements t l -> value ([91] ++ t ++ [93]) (JArr l)
| v_obj0 w : ws w -> value ([123] ++ w ++ [125]) (JObj [])
| v_obj t l : members t l -> value ([123] ++ t ++ [125]) (JObj l)
with elements : list Z -> list jval -> Prop :=
| e_one w1 t w2 v : ws w1 -> value t v -> ws w2 -> elements (w1 ++ t ++ w2) [v]
| e_more w1 t w2 v t' l : ws w1 -> value t v -> ws w2 -> elements t' l -> elements (w1 ++ t ++ w2 ++ [44] ++ t') (v :: l)
with members : list Z -> list (list Z * jval) -> Prop :=
| m_one w1 k s w2 w3 t w4 v : ws w1 -> chars k s -> ws w2 -> ws w3 -> value t v -> ws w4 ->
    members (w1 ++ [34] ++ k ++ [34] ++ w2 ++ [58] ++ w3 ++ t ++ w4) [(s, v)]
| m_more w1 k s w2 w3 t w4 v t' l : ws w1 -> chars k s -> ws w2 -> ws w3 -> value t v -> ws w4 -> members t' l ->
    members (w1 ++ [34] ++ k ++ [34] ++ w2 ++ [58] ++ w3 ++ t ++ w4 ++ [44] ++ t') ((s, v) :: l).
(** a whole text *)
Definition json_text (t : list Z) (v : jval) : Prop := exists w1 u w2, t = w1 ++ u ++ w2 /\ ws w1 /\ value u v /\ ws w2.

(** the data that is printed *)
Inductive node :=
| NBool (b : bool) | NStr (v : option (list Z)) | NInt (z : Z) | NFloat (d : dbl) | NIp (a : option (list Z)) | NPrefix (p : option (list Z * Z))
| NArr (l : list node) | NObj (l : list (list Z * node)).
(** the calls that print it, under a key or as an element of an array *)
Fixpoint calls (key : option (list Z)) (n : node) : list jcall :=
  match n with
  | NBool b => [CBool key b] | NStr v => [CStr key v] | NInt z => [CInt key z] | NFloat d => [CFloat key d]
  | NIp a => [CIp key a] | NPrefix p => [CPrefix key p]
  | NArr l => [COpen true key] ++ flat_map (calls None) l ++ [CClose true]
  | NObj l => [COpen false key] ++ flat_map (fun m => calls (Some (fst m)) (snd m)) l ++ [CClose false]
  end.
Definition calls_members (l : list (list Z * node)) : list jcall := flat_map (fun m => calls (Some (fst m)) (snd m)) l.

(** the value that it stands for: not-a-number is shown as 0, infinities as the largest
    finite doubles *)
Definition opt (v : option (list Z)) : list Z := match v with Some t => t | None => [] end.
Definition signed (neg : bool) (m : Z) : Z := if neg then - m else m.
Fixpoint denote (n : node) : jval :=
  match n with
  | NBool b => JBool b | NStr v => JStr (opt v) | NInt z => JNum z 0 | NIp a => JStr (opt a)
  | NFloat Nan => JNum 0 6 | NFloat (Inf n) => JNum (signed n dbl_max) 6 | NFloat (Fin n m) => JNum (signed n m) 6
  | NPrefix None => JStr [] | NPrefix (Some (t, l)) => JStr (t ++ [47] ++ fmt_d l)
  | NArr l => JArr (map denote l)
  | NObj l => JObj (map (fun m => (fst m, denote (snd m))) l)
  end.
Definition denote_members (l : list (list Z * node)) : list (list Z * jval) := map (fun m => (fst m, denote (snd m))) l.

(** strings that need no escaping, numbers in the range of their type *)
Definition clean (s : list Z) : Prop := Forall plain s.
Inductive printable : node -> Prop :=
| p_bool b : printable (NBool b)
| p_str v : clean (opt v) -> printable (NStr v)
| p_int z : - 2 ^ 63 <= z < 2 ^ 63 -> printable (NInt z)
| p_nan : printable (NFloat Nan)
| p_inf n : printable (NFloat (Inf n))
| p_fin n m : 0 <= m <= dbl_max -> printable (NFloat (Fin n m))
| p_ip a : clean (opt a) -> printable (NIp a)
| p_noprefix : printable (NPrefix None)
| p_prefix t l : clean t -> 0 <= l <= 255 -> printable (NPrefix (Some (t, l)))
| p_arr l : Forall printable l -> printable (NArr l)
| p_obj l : Forall (fun m => clean (fst m)) l -> Forall printable (map snd l) -> printable (NObj l).
(** nesting of arrays and objects *)
Fixpoint height (n : node) : nat :=
  match n with
  | NArr l => S (fold_right (fun x a => Nat.max (height x) a) 0%nat l)
  | NObj l => S (fold_right (fun m a => Nat.max (height (snd m)) a) 0%nat l)
  | _ => 0
  end.

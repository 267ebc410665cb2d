(** Vocabulary for the name service: languages of regular expressions, what may be in the
    files, how a message lists names, what the best name servers are. *)
From Coq Require Import String Permutation.
From Verif Require Import Base Bytes NetBuf Parser Regex NameSvc.

(** the language of a regular expression *)
Inductive lang : rx -> list Z -> Prop :=
| L_eps : lang Eps []
| L_cls (f : Z -> bool) c : f c = true -> lang (Cls f) [c]
| L_cat a b s t : lang a s -> lang b t -> lang (Cat a b) (s ++ t)
| L_altl a b s : lang a s -> lang (Alt a b) s
| L_altr a b s : lang b s -> lang (Alt a b) s
| L_star0 a : lang (Star a) []
| L_star a s t : lang a s -> lang (Star a) t -> lang (Star a) (s ++ t).

(** host names: letters, digits, '_', '.', '-' *)
Definition host_char (c : Z) : Prop := 48 <= c <= 57 \/ 65 <= c <= 90 \/ 97 <= c <= 122 \/ c = 95 \/ c = 46 \/ c = 45.
Definition hostname (s : list Z) : Prop := s <> [] /\ blen s <= 127 /\ Forall host_char s.
(** text without control characters *)
Definition printable (s : list Z) : Prop := Forall (fun c => 32 <= c /\ c <> 127) s.
(** no quotes and backslashes *)
Definition unquoted (s : list Z) : Prop := ~ In 39 s /\ ~ In 92 s.

(** lines of a file *)
Definition lines_of (ls : list (list Z)) : list Z := flat_map (fun l => l ++ [10]) ls.
(** a line for a name: address, tab, name (of an alias with a number before it) and suffix,
    tab, comment *)
Definition host_line (c : ncf) (l : list Z) : Prop :=
  exists ip mid name rest, l = f_ipstr c ip ++ [9] ++ mid ++ name ++ f_suffix c ++ [9; 35; 32] ++ rest /\ hostname name /\
  (mid = [] \/ exists k, mid = str "mid" ++ k ++ [46] /\ Forall (fun x => 48 <= x <= 57) k /\ (1 <= length k <= 5)%nat) /\ ~ In 10 l.

(** what happens to the tables *)
Inductive nev :=
| NMsg (junk : list Z) (sym : bool) (m : list Z) (p : Z)
| NExpire (typ : Z) (orig : list Z).
Definition nstep (c : ncf) (vtime : Z -> Z) (ev : nev) (st : nst) : option nst :=
  match ev with
  | NMsg junk sym m p => option_map fst (ns_parser c junk vtime sym m p st)
  | NExpire typ orig => Some (expire c typ orig st)
  end.
Fixpoint nrun (c : ncf) (vtime : Z -> Z) (l : list nev) (st : nst) : option nst :=
  match l with [] => Some st | ev :: l' => match nstep c vtime ev st with Some st' => nrun c vtime l' st' | None => None end end.
(** at the beginning *)
Definition nst0 : nst := mkS (fun _ => []) (fun _ => true).
(** all entries of a type *)
Definition stored (st : nst) (typ : Z) : list nent := flat_map d_names (tab st typ).

(** The entries in a message: type, length, address, text, padding; every text is followed
    by a 0 within the message. *)
Inductive listed : list Z -> list nent -> Prop :=
| listed_end tail : listed tail []
| listed_entry typ ip name pad rest es : 0 <= typ < 65536 -> blen ip = 16 -> blen name < 65536 -> ~ In 0 name ->
    blen pad = - blen name mod 4 -> (exists r, pad ++ rest = 0 :: r) -> listed rest es ->
    listed (net16 typ ++ net16 (blen name) ++ ip ++ name ++ pad ++ rest) (mkN ip typ (blen name) name :: es).
(** a message for the name service with these entries: type, validity time, size,
    originator, ttl, hop count, sequence number, version 1, number of entries, entries *)
Definition name_msg (c : ncf) (orig : list Z) (msg : list Z) (es : list nent) : Prop :=
  exists typ vt ttl hops seq body, msg = [typ; vt] ++ net16 (blen msg) ++ orig ++ [ttl; hops] ++ seq ++ net16 1 ++ net16 (Z.of_nat (length es)) ++ body /\
  blen msg < 65536 /\ blen orig = ipsize c /\ blen seq = 2 /\ Z.of_nat (length es) < 65536 /\ listed body es.

(** entries that a node accepts *)
Definition acceptable (c : ncf) (e : nent) : Prop :=
  blen (n_ip e) = 16 /\ n_len e = blen (n_name e) /\ n_len e <= 127 /\ ~ In 0 (n_name e) /\ unquoted (n_name e) /\ 0 <= n_type e <= 4 /\
  (n_type e = 0 -> hostname (n_name e)) /\ (n_type e = 2 -> lang (rx_service (f_rsuffix c)) (n_name e)) /\
  (n_type e = 3 -> f_latlon c (n_name e) = true) /\ (n_type e = 4 -> mac_ok (n_name e) = true).
Definition prefix_of (a b : list Z) : Prop := exists t, b = a ++ t.
(** two entries, the first one before the other, that do not get into each other's way *)
Definition apart (c : ncf) (a b : nent) : Prop :=
  n_type a = n_type b ->
  ((n_type a = 0 \/ n_type a = 2) -> ~ prefix_of (n_name b) (n_name a)) /\
  (n_type a = 1 -> firstn (Z.to_nat (ipsize c)) (n_ip a) <> firstn (Z.to_nat (ipsize c)) (n_ip b)) /\ n_type a <> 3.

(** [a] is better than [b] *)
Definition better (a b : rte) : Prop :=
  r_cost a < r_cost b \/ r_cost a = r_cost b /\ (r_hops a < r_hops b \/ r_hops a = r_hops b /\ Compare.memcmp (r_orig a) (r_orig b) < 0).
(** the three best of [all] in order *)
Definition three_best (all l : list rte) : Prop :=
  exists rest, Permutation all (l ++ rest) /\ (length l <= 3)%nat /\ ((length l < 3)%nat -> rest = []) /\
  (forall i j a b, (i < j)%nat -> nth_error l i = Some a -> nth_error l j = Some b -> ~ better b a) /\
  (forall a b, In a l -> In b rest -> ~ better b a).

(** the space that an entry takes in a message *)
Definition space (e : nent) : Z := 20 + (blen (n_name e) + 3) / 4 * 4.
Definition total (es : list nent) : Z := fold_right (fun e n => space e + n) 0 es.
(** the routes to a list of addresses *)
Fixpoint routes (route : list Z -> option rte) (ips : list (list Z)) : list rte :=
  match ips with [] => [] | ip :: l => match route ip with Some r => r :: routes route l | None => routes route l end end.
(** an address of an interface or of an announced network (not the default route) *)
Definition own_address (c : ncf) (mask : list Z -> Z -> list Z) (ifs : list (list Z)) (hna : list (list Z * Z)) (a : list Z) : Prop :=
  let bytes x := firstn (Z.to_nat (ipsize c)) x in
  (exists i, In i ifs /\ bytes i = bytes a) \/ (exists p n, In (p, n) hna /\ n <> 0 /\ bytes (mask a n) = bytes p).

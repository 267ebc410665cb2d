(** What requests look like and what they ask for, independent of the parser *)
From Coq Require Import String.
From Verif Require Import Base Bytes Regex InfoReq.

(** names in a path; blanks *)
Definition namechar (c : Z) : Prop := 33 <= c <= 255 /\ c <> 47.
Definition name (s : list Z) : Prop := s <> [] /\ Forall namechar s.
Definition blank (s : list Z) : Prop := Forall (fun c => c = 32 \/ c = 9) s.
(** a path: names, each after one or more slashes *)
Definition ptext (l : list (nat * list Z)) : list Z := flat_map (fun p => repeat 47 (S (fst p)) ++ snd p) l.
Definition names (l : list (nat * list Z)) : list (list Z) := map snd l.
Definition slashes (n : nat) : list Z := repeat 47 n.

(** the line of the request: a path by itself, or a GET request for it *)
Definition plain_line (line : list Z) (l : list (nat * list Z)) : Prop :=
  exists w1 n w2, line = w1 ++ ptext l ++ slashes n ++ w2 /\ blank w1 /\ blank w2 /\ Forall name (names l) /\ l <> [].
Definition http_line (line : list Z) (l : list (nat * list Z)) : Prop :=
  exists w1 g w2 n w3 v w4, line = w1 ++ g ++ w2 ++ (ptext l ++ slashes n) ++ w3 ++ v ++ w4 /\ blank w1 /\ blank w2 /\ blank w3 /\ blank w4 /\
    w2 <> [] /\ w3 <> [] /\ map tolower g = str "get" /\ (exists d, map tolower v = str "http/1." ++ [d] /\ (d = 48 \/ d = 49)) /\
    Forall name (names l) /\ ptext l ++ slashes n <> [].
(** the received bytes: the line, and nothing or the end of the line and anything else *)
Definition received (d line : list Z) : Prop :=
  exists rest, d = line ++ rest /\ (rest = [] \/ exists c r, rest = c :: r /\ (c = 10 \/ c = 13)) /\ blen d <= BUFSIZE /\ blen line < BUFSIZE.

(** the sections by name *)
Definition known : list (list Z * Z) :=
  [(str "neighbors", 1); (str "links", 2); (str "routes", 4); (str "hna", 8); (str "mid", 16); (str "topology", 32); (str "gateways", 64);
   (str "interfaces", 128); (str "2hop", 256); (str "sgw", 512); (str "pudposition", 1024); (str "version", 2048); (str "config", 4096); (str "plugins", 8192);
   (str "olsrd.conf", 16384); (str "neighbours", 1 + 2); (str "runtime", 2 ^ 11 - 1); (str "startup", 2048 + 4096 + 8192); (str "all", 2 ^ 14 - 1)].
Definition lookup (n : list Z) : option Z := match find (fun e => streq n (fst e)) known with Some e => Some (snd e) | None => None end.
Fixpoint union (l : list (list Z)) : option Z :=
  match l with
  | [] => Some 0
  | n :: l' => match lookup n, union l' with Some a, Some b => Some (Z.lor a b) | _, _ => None end
  end.
(** the answer: the prefixes http and plain choose whether there are headers; no names ask
    for everything; all names have to be known *)
Definition meaning (hdr : bool) (l : list (list Z)) : reply :=
  let '(h, l') := match l with
                  | n :: r => if streq (map tolower n) (str "http") then (true, r) else if streq (map tolower n) (str "plain") then (false, r) else (hdr, l)
                  | [] => (hdr, []) end in
  match l' with
  | [] => mkRep h SIW_EVERYTHING HTTP_OK
  | _ => match union l' with Some w => mkRep h w HTTP_OK | None => mkRep h 0 HTTP_NOTFOUND end
  end.

(** who may ask: anybody if nothing is configured, the configured host, and the local host
    if that is configured *)
Definition may_ask (c : icfg) (peer : Z) : Prop :=
  i_accept c = 0 \/ peer = i_accept c \/ (i_local c = true /\ peer = (if i_v6 c then LOOPBACK6 else LOOPBACK4)).

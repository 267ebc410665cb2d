(** What clients see, independent of the slots *)
From Coq Require Import String.
From Verif Require Import Base Bytes Regex InfoOut.

(** the bytes that went to a connection *)
Fixpoint bytes_to (s : Z) (t : list event) : list Z :=
  match t with [] => [] | ESend s' b :: t' => if s =? s' then b ++ bytes_to s t' else bytes_to s t' | _ :: t' => bytes_to s t' end.
Definition closes (s : Z) (e : event) : bool := match e with EClose s' => s =? s' | _ => false end.
Definition fails (s : Z) (e : event) : bool := match e with EFail s' => s =? s' | _ => false end.
(** how often it was closed *)
Definition closed (s : Z) (t : list event) : nat := length (filter (closes s) t).
Definition failed (s : Z) (t : list event) : Prop := In (EFail s) t.
(** the connections that were made and are not closed *)
Fixpoint conns (t : list event) : list Z := match t with [] => [] | EConn s _ _ :: t' => s :: conns t' | _ :: t' => conns t' end.
Definition opened (t : list event) : list Z := filter (fun s => (closed s t =? 0)%nat) (conns t).
Definition prefix (a b : list Z) : Prop := exists c, b = a ++ c.

(** connections of a history *)
Fixpoint socks (ps : list op) : list Z := match ps with [] => [] | Conn s _ _ _ _ :: ps' => s :: socks ps' | _ :: ps' => socks ps' end.

(** a response: lines up to an empty one, then the body *)
Fixpoint line_of (t : list Z) : option (list Z * list Z) :=
  match t with
  | [] => None
  | c :: t' => if (c =? 13) && (match t' with 10 :: _ => true | _ => false end) then Some ([], tl t')
               else match line_of t' with Some (l, r) => Some (c :: l, r) | None => None end
  end.
Inductive response : list Z -> list (list Z) -> list Z -> Prop :=
| rs_end t b : line_of t = Some ([], b) -> response t [] b
| rs_line t l r ls b : line_of t = Some (l, r) -> l <> [] -> response r ls b -> response t (l :: ls) b.
(** the fields with a name (given with the colon): their values without blanks around *)
Fixpoint strip (s : list Z) : list Z := match s with 32 :: s' => strip s' | _ => s end.
Definition trim (s : list Z) : list Z := rev (strip (rev (strip s))).
Fixpoint after (p s : list Z) : option (list Z) := match p, s with [], _ => Some s | x :: p', y :: s' => if x =? y then after p' s' else None | _, _ => None end.
Definition fields (name : list Z) (ls : list (list Z)) : list (list Z) := flat_map (fun l => match after name l with Some v => [trim v] | None => [] end) ls.
(** a value that is a number *)
Definition number (s : list Z) (n : Z) : Prop := s <> [] /\ Forall (fun c => 48 <= c <= 57) s /\ fold_left (fun a c => 10 * a + (c - 48)) s 0 = n.
(** text within a line *)
Definition inline (s : list Z) : Prop := Forall (fun c => c <> 13 /\ c <> 10) s.

(** the phrases of RFC 7231, 6.1, for the status codes of the plugins *)
Definition phrases : list (Z * list Z) :=
  [(200, str "200 OK"); (204, str "204 No Content"); (403, str "403 Forbidden"); (404, str "404 Not Found");
   (408, str "408 Request Timeout"); (413, str "413 Request Entity Too Large"); (500, str "500 Internal Server Error");
   (503, str "503 Service Unavailable")].

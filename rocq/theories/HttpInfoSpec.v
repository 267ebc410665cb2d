(** What a client of the httpinfo plugin expects, stated on bytes. *)
From Coq Require Import String.
From Verif Require Import Base Regex.

(** white space of the C locale *)
Definition ws (x : Z) : Prop := 9 <= x <= 13 \/ x = 32.
(** a word: no white space and no NUL *)
Definition is_word (l : list Z) : Prop := l <> [] /\ Forall (fun x => ~ ws x /\ x <> 0) l.
(** the bytes end with an empty line *)
Definition ends_blank (m : list Z) : Prop :=
  exists p, m = p ++ [10; 10] \/ m = p ++ [13; 10; 13; 10].
(** a complete request: it ends with its first empty line, and has no NUL *)
Definition complete (m : list Z) : Prop :=
  ends_blank m /\ (forall p q, m = p ++ q -> q <> [] -> ~ ends_blank p) /\ ~ In 0 m.

(** the names under which there is a page *)
Inductive kind := Picture (n : nat) | Style | Tab (n : nat).
Definition pages : list (list Z * kind) :=
  [(str "favicon.ico", Picture 0); (str "logo.gif", Picture 1); (str "grayline.gif", Picture 2);
   (str "httpinfo.css", Style); (str "config", Tab 0); (str "routes", Tab 1); (str "nodes", Tab 2);
   (str "sgw", Tab 3); (str "position", Tab 4); (str "all", Tab 5); (str "about", Tab 6); (str "cfgfile", Tab 7)].

(** a line of a header *)
Definition is_line (l : list Z) : Prop := exists s, l = s ++ [13; 10] /\ ~ In 13 s /\ ~ In 10 s /\ s <> [].
(** the value of decimal digits *)
Definition number (ds : list Z) : Z := fold_left (fun a d => 10 * a + (d - 48)) ds 0.
(** a reply with this status line and this body, whose length it announces *)
Definition is_reply (status : list Z) (body r : list Z) : Prop :=
  exists lines ds,
    r = status ++ [13; 10] ++ concat lines ++ [13; 10] ++ body /\
    Forall is_line lines /\
    In (str "Content-length: " ++ ds ++ [13; 10]) lines /\
    Forall (fun d => 48 <= d <= 57) ds /\ number ds = Z.of_nat (List.length body).
(** the status lines of RFC 2616, 6.1 *)
Definition ok : list Z := str "HTTP/1.1 200 OK".
Definition not_found : list Z := str "HTTP/1.1 404 Not Found".
Definition bad_request : list Z := str "HTTP/1.1 400 Bad Request".

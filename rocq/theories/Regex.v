(** POSIX extended regular expressions as far as the name service uses them: whether a
    string is matched as a whole ("^...$" without REG_NEWLINE), by derivatives.  Models
    regexec of the C library as called in lib/nameservice/src/nameservice.c:1499-1503 and
    1569-1573 (which matches exist, not the submatches). *)
From Verif Require Import Base.
From Coq Require Import String Ascii.

(** text as bytes; only for writing down literals of lib/nameservice/src/nameservice.c:356,391-395 *)
Definition str (s : string) : list Z := map (fun c => Z.of_N (N_of_ascii c)) (list_ascii_of_string s).

(** regular expressions; [Cls] is a set of characters (lib/nameservice/src/nameservice.c:354-358) *)
Inductive rx := Nul | Eps | Cls (f : Z -> bool) | Cat (a b : rx) | Alt (a b : rx) | Star (a : rx).
(** + {1,3} and single characters (lib/nameservice/src/nameservice.c:391-395) *)
Definition Plus (a : rx) : rx := Cat a (Star a).
(** see above, lib/nameservice/src/nameservice.c:391-395 *)
Definition Opt (a : rx) : rx := Alt Eps a.
(** see above, lib/nameservice/src/nameservice.c:391-395 *)
Definition OneThree (a : rx) : rx := Cat a (Cat (Opt a) (Opt a)).
(** see above, lib/nameservice/src/nameservice.c:391-395 *)
Definition Chr (c : Z) : rx := Cls (Z.eqb c).
(** see above, lib/nameservice/src/nameservice.c:391-395 *)
Fixpoint Lit (l : list Z) : rx := match l with [] => Eps | c :: l' => Cat (Chr c) (Lit l') end.

(** regexec (as called in lib/nameservice/src/nameservice.c:1502): the empty string matches *)
Fixpoint nullable (r : rx) : bool :=
  match r with
  | Nul | Cls _ => false
  | Eps | Star _ => true
  | Cat a b => nullable a && nullable b
  | Alt a b => nullable a || nullable b
  end.
(** ... what remains to be matched after a character; regexec,
    lib/nameservice/src/nameservice.c:1499-1503 *)
Fixpoint deriv (c : Z) (r : rx) : rx :=
  match r with
  | Nul | Eps => Nul
  | Cls f => if f c then Eps else Nul
  | Cat a b => if nullable a then Alt (Cat (deriv c a) b) (deriv c b) else Cat (deriv c a) b
  | Alt a b => Alt (deriv c a) (deriv c b)
  | Star a => Cat (deriv c a) (Star a)
  end.
(** ... the whole string matches; regexec, lib/nameservice/src/nameservice.c:1499-1503 *)
Fixpoint matches (r : rx) (s : list Z) : bool :=
  match s with [] => nullable r | c :: s' => matches (deriv c r) s' end.

(** character classes of the C locale (used in lib/nameservice/src/nameservice.c:356,391-395) *)
Definition digitc (c : Z) : bool := (48 <=? c) && (c <=? 57).
(** see above, lib/nameservice/src/nameservice.c:356,391-395 *)
Definition alnumc (c : Z) : bool := digitc c || ((65 <=? c) && (c <=? 90)) || ((97 <=? c) && (c <=? 122)).
(** see above, lib/nameservice/src/nameservice.c:356,391-395 *)
Definition cntrlc (c : Z) : bool := (c <=? 31) || (c =? 127).
(** see above, lib/nameservice/src/nameservice.c:356,391-395 *)
Definition oneof (l : list Z) (c : Z) : bool := existsb (Z.eqb c) l.
(** any character but the end of the string; lib/nameservice/src/nameservice.c:364-394 *)
Definition anyc (c : Z) : bool := negb (c =? 0).

(** lib/nameservice/src/nameservice.c:356: ^[[:alnum:]_.-]+$ *)
Definition namec (c : Z) : bool := alnumc c || oneof (str "_.-") c.
(** see above, lib/nameservice/src/nameservice.c:356 *)
Definition rx_name : rx := Plus (Cls namec).
(** lib/nameservice/src/nameservice.c:391-395, the suffix is used as a part of the
    expression *)
Definition rx_service (suffix : rx) : rx :=
  Cat (Plus (Cls alnumc)) (Cat (Lit (str "://")) (Cat
    (Alt (Cat (Plus (Cls namec)) suffix)
         (Cat (OneThree (Cls digitc)) (Cat (Chr 46) (Cat (OneThree (Cls digitc)) (Cat (Chr 46) (Cat (OneThree (Cls digitc)) (Cat (Chr 46) (OneThree (Cls digitc)))))))))
    (Cat (Chr 58) (Cat (Plus (Cls digitc)) (Cat (Star (Cls (fun c => alnumc c || oneof (str "/?._=#-") c)))
    (Cat (Chr 124) (Cat (Alt (Lit (str "tcp")) (Lit (str "udp"))) (Cat (Chr 124) (Plus (Cls (fun c => anyc c && negb (c =? 124) && negb (cntrlc c)))))))))))).

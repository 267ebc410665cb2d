(** Model of the file with a fixed position (lib/pud/src/posFile.c).  Characters are numbers from
    0 to 255, the locale is C, and regexec finds the longest matches from the left as POSIX says.
    The numbers are of any type [D] with [rd] for readDouble (lib/pud/src/configTools.c:267-285);
    what nmeaInfoSanitise and nmeaInfoUnitConversion make of the values is [fin].  The open file
    is taken to be a file that fstat and fdopen accept.  Messages are left out.  Definitions
    only. *)
From Coq Require Import String.
From Verif Require Import Base Regex SpeedFile.

(** ([^[:space:]]+)[[:space:]]*$ behind the = and blanks, lib/pud/src/posFile.c:69-70 *)
Definition value (s : list Z) : option (list Z) :=
  let '(w, r) := span (skip_sp s) in
  match w with [] => None | _ => if forallb sp r then Some w else None end.
(** the last = in a word [w] behind which, with the rest [r] of the line, is a value,
    lib/pud/src/posFile.c:69-70 *)
Fixpoint best (w r : list Z) : option (list Z * list Z) :=
  match w with
  | [] => None
  | x :: t =>
      match best t r with
      | Some (a, v) => Some (x :: a, v)
      | None => if x =? 61 then match value (t ++ r) with Some v => Some ([], v) | None => None end else None
      end
  end.
(** lib/pud/src/posFile.c:69-70 regexNameValueString: the two subexpressions; the first takes as
    much as it can *)
Definition pair_of (s : list Z) : option (list Z * list Z) :=
  let '(w, r) := span (skip_sp s) in
  let inside := match best w r with Some (x :: n, v) => Some (x :: n, v) | _ => None end in
  match w with
  | [] => None
  | _ =>
      match skip_sp r with
      | c :: v => if c =? 61 then match value v with Some v => Some (w, v) | None => inside end else inside
      | [] => inside
      end
  end.
(** the names of numbers in the order of lib/pud/src/posFile.h:102-109 *)
Definition num_keys : list (list Z) :=
  [str "hdop"; str "lat"; str "lon"; str "elv"; str "speed"; str "track"; str "mtrack"; str "magvar"].
(** what the file gives: signal, fix and the numbers, each with its bit of [present],
    lib/pud/src/posFile.c:248-343.  PDOP and VDOP go with HDOP (284-289) *)
Record pos (D : Type) := mkPos { p_sig : option Z; p_fix : option Z; p_num : list (option D) }.
Arguments mkPos {D}. Arguments p_sig {D}. Arguments p_fix {D}. Arguments p_num {D}.
(** lib/pud/src/posFile.c:211-224: nothing is present *)
Definition none_yet {D} : pos D := mkPos None None (repeat None 8).
(** lib/pud/src/posFile.c:249-256, lib/pud/src/posFile.h:111-114, the names of the signals *)
Definition sig_of (v : list Z) : option Z :=
  if case_eq (str "bad") v then Some 0 else if case_eq (str "low") v then Some 1
  else if case_eq (str "mid") v then Some 2 else if case_eq (str "high") v then Some 3 else None.
(** lib/pud/src/posFile.c:265-271, lib/pud/src/posFile.h:116-118, the names of the fixes *)
Definition fix_of (v : list Z) : option Z :=
  if case_eq (str "bad") v then Some 1 else if case_eq (str "2d") v then Some 2
  else if case_eq (str "3d") v then Some 3 else None.
(** the first name of lib/pud/src/posFile.c:278-336 that is equal *)
Fixpoint index_of (ks : list (list Z)) (n : list Z) : option nat :=
  match ks with
  | [] => None
  | k :: r => if case_eq k n then Some O else match index_of r n with Some i => Some (S i) | None => None end
  end.
(** a store in [result], lib/pud/src/posFile.c:278-343 *)
Definition put {D} (i : nat) (x : D) (l : list (option D)) : list (option D) := firstn i l ++ Some x :: skipn (S i) l.
(** lib/pud/src/posFile.c:248-350: one setting; [None] is goto out *)
Definition setting {D} (rd : list Z -> option D) (n v : list Z) (p : pos D) : option (pos D) :=
  if case_eq (str "sig") n then match sig_of v with Some x => Some (mkPos (Some x) (p_fix p) (p_num p)) | None => None end
  else if case_eq (str "fix") n then match fix_of v with Some x => Some (mkPos (p_sig p) (Some x) (p_num p)) | None => None end
  else match index_of num_keys n with
       | Some i => match rd v with Some x => Some (mkPos (p_sig p) (p_fix p) (put i x (p_num p))) | None => None end
       | None => None
       end.
(** lib/pud/src/posFile.c:228-350: one line; [None] is goto out *)
Definition pos_line {D} (rd : list Z -> option D) (l : list Z) (p : pos D) : option (pos D) :=
  let s := cut0 l in
  if comment s then Some p else match pair_of s with Some (n, v) => setting rd n v p | None => None end.
(** lib/pud/src/posFile.c:228: the lines of LINE_LENGTH (256) with the final NUL *)
Fixpoint pos_lines {D} (rd : list Z -> option D) (fuel : nat) (s : list Z) (p : pos D) : option (pos D) :=
  match fuel, s with
  | S m, _ :: _ => let '(l, r) := fgets 255 s in match pos_line rd l p with Some p => pos_lines rd m r p | None => None end
  | _, _ => Some p
  end.
(** the time of the file when it was read (0: none), lib/pud/src/posFile.c:94, and the position of
    the caller *)
Record held (I : Type) := mkHeld { h_stamp : Z; h_info : I }.
Arguments mkHeld {I}. Arguments h_stamp {I}. Arguments h_info {I}.
(** lib/pud/src/posFile.c:168-373 readPositionFile: the state, what it returns, and how often the
    descriptor is closed: fclose(fp) and close(fd) close the same one *)
Definition read_pos {D I} (rd : list Z -> option D) (fin : pos D -> I) (x : file) (h : held I) : held I * bool * nat :=
  match x with
  | FNone => (mkHeld 0 (h_info h), false, 0%nat)
  | FFile m t =>
      if m =? h_stamp h then (h, false, 1%nat)
      else match pos_lines rd (List.length t) t none_yet with
           | Some p => (mkHeld m (fin p), true, 2%nat)
           | None => (mkHeld m (h_info h), false, 2%nat)
           end
  end.

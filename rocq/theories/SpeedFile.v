(** Model of the file with the speeds of the gateway (lib/sgwdynspeed/src/speedFile.c).
    Characters are numbers from 0 to 255, the locale is C, and regexec finds the longest
    matches from the left as POSIX says.  Messages are left out.  Definitions only. *)
From Coq Require Import String.
From Verif Require Import Base Regex.

(** [[:space:]] in lib/sgwdynspeed/src/speedFile.c:73-77, and isspace of strtoul *)
Definition sp (c : Z) : bool := (c =? 32) || ((9 <=? c) && (c <=? 13)).
(** [[:space:]]* in lib/sgwdynspeed/src/speedFile.c:77 *)
Fixpoint skip_sp (s : list Z) : list Z := match s with c :: r => if sp c then skip_sp r else s | [] => [] end.
(** fgets in lib/sgwdynspeed/src/speedFile.c:274 with room for [n] characters *)
Fixpoint fgets (n : nat) (s : list Z) : list Z * list Z :=
  match n, s with
  | S m, x :: r => if x =? 10 then ([x], r) else let '(l, t) := fgets m r in (x :: l, t)
  | _, _ => ([], s)
  end.
(** the string in the buffer for regexec, lib/sgwdynspeed/src/speedFile.c:199 *)
Fixpoint cut0 (s : list Z) : list Z := match s with x :: r => if x =? 0 then [] else x :: cut0 r | [] => [] end.
(** lib/sgwdynspeed/src/speedFile.c:73 regexCommentString: only white space, or white space or
    # and then anything *)
Definition comment (s : list Z) : bool :=
  forallb sp s || match s with x :: _ => sp x || (x =? 35) | [] => false end.
(** the longest start without white space: [^[:space:]]+ in lib/sgwdynspeed/src/speedFile.c:77 *)
Fixpoint span (s : list Z) : list Z * list Z :=
  match s with x :: r => if sp x then ([], s) else let '(w, t) := span r in (x :: w, t) | [] => ([], []) end.
(** what is before and behind the last = in a word, lib/sgwdynspeed/src/speedFile.c:77 *)
Fixpoint last_eq (w : list Z) : option (list Z * list Z) :=
  match w with
  | [] => None
  | x :: r => match last_eq r with Some (a, b) => Some (x :: a, b) | None => if x =? 61 then Some ([], r) else None end
  end.
(** lib/sgwdynspeed/src/speedFile.c:76-77 regexNameValueString: the two subexpressions.  The
    first takes as much as it can; the second takes all up to the end of the line, also white
    space, as .*? is the same as .* in a POSIX expression *)
Definition name_value (s : list Z) : option (list Z * list Z) :=
  let '(w, r) := span (skip_sp s) in
  match w with
  | [] => None
  | _ =>
      match skip_sp r with
      | 61 :: v => Some (w, skip_sp v)
      | _ => match last_eq w with
             | Some (x :: n, b) => Some (x :: n, skip_sp (b ++ r))
             | _ => None
             end
      end
  end.
(** lib/sgwdynspeed/src/speedFile.c:145-151 stripEols *)
Fixpoint drop_eol (rv : list Z) : list Z := match rv with x :: r => if (x =? 10) || (x =? 13) then drop_eol r else rv | [] => [] end.
(** lib/sgwdynspeed/src/speedFile.c:145-151 stripEols *)
Definition strip_eols (v : list Z) : list Z := rev (drop_eol (rev v)).
(** strtoul in lib/sgwdynspeed/src/speedFile.c:126: the digits and what is behind them *)
Fixpoint take_num (acc : Z) (s : list Z) : Z * list Z :=
  match s with c :: r => if (48 <=? c) && (c <=? 57) then take_num (10 * acc + (c - 48)) r else (acc, s) | [] => (acc, []) end.
(** lib/sgwdynspeed/src/speedFile.c:117-137 readUL, unsigned long has 64 bits *)
Definition read_ul (s : list Z) : option Z :=
  let s1 := skip_sp s in
  let '(neg, s2) := match s1 with c :: r => if c =? 45 then (true, r) else if c =? 43 then (false, r) else (false, s1) | [] => (false, []) end in
  match s2 with
  | [] => None
  | c :: _ =>
      if (48 <=? c) && (c <=? 57)
      then let '(v, e) := take_num 0 s2 in
           match e with
           | [] => if v >=? 2 ^ 64 then None else Some (if neg then (- v) mod 2 ^ 64 else v)
           | _ => None
           end
      else None
  end.
(** strncasecmp in lib/sgwdynspeed/src/speedFile.c:297, 305 *)
Definition lower (c : Z) : Z := if (65 <=? c) && (c <=? 90) then c + 32 else c.
(** strncasecmp in lib/sgwdynspeed/src/speedFile.c:297, 305 *)
Fixpoint case_eq (a b : list Z) : bool :=
  match a, b with [], [] => true | x :: a', y :: b' => (lower x =? lower y) && case_eq a' b' | _, _ => false end.
(** lib/sgwdynspeed/src/speedFile.c:236-239 uplinkSet and uplink, downlinkSet and downlink *)
Definition found : Type := option Z * option Z.
(** lib/sgwdynspeed/src/speedFile.c:275-319: one line *)
Definition one_line (l : list Z) (f : found) : found :=
  let s := cut0 l in
  if comment s then f
  else match name_value s with
       | None => f
       | Some (n, v) =>
           let v := strip_eols v in
           if case_eq (str "upstream") n
           then match read_ul v with Some x => (Some x, snd f) | None => f end
           else if case_eq (str "downstream") n
           then match read_ul v with Some x => (fst f, Some x) | None => f end
           else f
       end.
(** lib/sgwdynspeed/src/speedFile.c:274: the lines of LINE_LENGTH (256) with the final NUL *)
Fixpoint all_lines (fuel : nat) (s : list Z) (f : found) : found :=
  match fuel, s with
  | S m, _ :: _ => let '(l, r) := fgets 255 s in all_lines m r (one_line l f)
  | _, _ => f
  end.

(** the time of the file when it was read (0: none), smart_gw_uplink, smart_gw_downlink and
    smart_gateway_bandwidth_zero, src/olsr_cfg.h:350-355 *)
Record speeds := mkSp { sp_stamp : Z; sp_up : Z; sp_down : Z; sp_zero : bool }.
(** lib/sgwdynspeed/src/speedFile.c:242-270: what is found at the name of the file *)
Inductive file := FNone | FFile (mtime : Z) (text : list Z).
(** src/olsr_cfg.h:460-467 smartgw_set_uplink, with a uint32_t *)
Definition set_up (v : Z) (s : speeds) : speeds :=
  mkSp (sp_stamp s) (u32 v) (sp_down s) ((u32 v =? 0) || (sp_down s =? 0)).
(** src/olsr_cfg.h:460-462, 469-472 smartgw_set_downlink *)
Definition set_down (v : Z) (s : speeds) : speeds :=
  mkSp (sp_stamp s) (sp_up s) (u32 v) ((sp_up s =? 0) || (u32 v =? 0)).
(** lib/sgwdynspeed/src/speedFile.c:226-340 readSpeedFile; the time stamp is set to the
    file's before it is read *)
Definition read_file (x : file) (s : speeds) : speeds :=
  match x with
  | FNone => mkSp 0 (sp_up s) (sp_down s) (sp_zero s)
  | FFile m t =>
      if m =? sp_stamp s then s
      else
        let '(u, d) := all_lines (List.length t) t (None, None) in
        let s := mkSp m (sp_up s) (sp_down s) (sp_zero s) in
        let s := match u with Some v => set_up v s | None => s end in
        match d with Some v => set_down v s | None => s end
  end.

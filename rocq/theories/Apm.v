(** Model of the willingness that follows the power supply: src/linux/apm.c and
    olsr_calculate_willingness of src/olsr.c.  Characters are numbers from 0 to 255; the
    contents of the files in /proc are inputs and do not change during one call.  [None] is a
    write beyond an array, a read of one that was not set, or a signed overflow.
    Definitions only. *)
From Coq Require Import String.
From Verif Require Import Base Regex.

(** isspace, for sscanf in src/linux/apm.c:192, 255, 269, 315, 344 *)
Definition sp (c : Z) : bool := (c =? 32) || ((9 <=? c) && (c <=? 13)).
(** sscanf in src/linux/apm.c:255: white space before a conversion *)
Fixpoint skip_sp (s : list Z) : list Z := match s with c :: r => if sp c then skip_sp r else s | [] => [] end.
(** %32s and %10s in src/linux/apm.c:192, 255: at most [n] characters *)
Fixpoint word (n : nat) (s : list Z) : list Z * list Z :=
  match n, s with
  | S m, x :: r => if sp x then ([], s) else let '(w, t) := word m r in (x :: w, t)
  | _, _ => ([], s)
  end.
(** src/linux/apm.c:251-255, 266-269, 306-315, 335-344: up to [n] words of %32s into arrays of
    32 characters, with the final NUL; the words that were set *)
Fixpoint scanw (n : nat) (s : list Z) : option (list (list Z)) :=
  match n with
  | O => Some []
  | S m =>
      let '(w, t) := word 32 (skip_sp s) in
      match w with
      | [] => Some []
      | _ => if (List.length w =? 32)%nat then None
             else match scanw m t with Some l => Some (w :: l) | None => None end
      end
  end.
(** fgets in src/linux/apm.c:174, 252, 267 with room for [n] characters *)
Fixpoint fgets (n : nat) (s : list Z) : list Z * list Z :=
  match n, s with
  | S m, x :: r => if x =? 10 then ([x], r) else let '(l, t) := fgets m r in (x :: l, t)
  | _, _ => ([], s)
  end.
(** the string that fgets leaves for sscanf, src/linux/apm.c:255 *)
Fixpoint cut0 (s : list Z) : list Z := match s with x :: r => if x =? 0 then [] else x :: cut0 r | [] => [] end.
(** strcasecmp in src/linux/apm.c:256, 272, 324, 353 *)
Definition lower (c : Z) : Z := if (65 <=? c) && (c <=? 90) then c + 32 else c.
(** strcasecmp in src/linux/apm.c:256, 272, 324, 353 *)
Fixpoint case_eq (a b : list Z) : bool :=
  match a, b with [], [] => true | x :: a', y :: b' => (lower x =? lower y) && case_eq a' b' | _, _ => false end.
(** atoi in src/linux/apm.c:257, 273: the digits *)
Fixpoint digits (acc : Z) (s : list Z) : Z :=
  match s with c :: r => if (48 <=? c) && (c <=? 57) then digits (10 * acc + (c - 48)) r else acc | [] => acc end.
(** atoi in src/linux/apm.c:257, 273: strtol with 64 bits, converted to int *)
Definition atoi (s : list Z) : Z :=
  let s := skip_sp s in
  let v := match s with c :: r => if c =? 45 then - digits 0 r else if c =? 43 then digits 0 r else digits 0 s | [] => 0 end in
  let v := if v >? 2 ^ 63 - 1 then 2 ^ 63 - 1 else if v <? - 2 ^ 63 then - 2 ^ 63 else v in
  (v + 2 ^ 31) mod 2 ^ 32 - 2 ^ 31.

(** ** ACPI *)
(** src/linux/apm.c:61, 77-99: the files; None: it cannot be opened *)
Record sys := mkSys { y_ac : nat -> option (list Z); y_info : nat -> option (list Z); y_state : nat -> option (list Z); y_apm : option (list Z) }.
(** src/linux/apm.c:302-331: the first of the files from [i] on that says on-line *)
Fixpoint probe_ac (n i : nat) (y : sys) : option bool :=
  match n with
  | O => Some false
  | S m =>
      match y_ac y i with
      | None => probe_ac m (S i) y
      | Some t =>
          match scanw 2 t with
          | None => None
          | Some [_; s2] => if case_eq s2 (str "on-line") then Some true else probe_ac m (S i) y
          | Some _ => probe_ac m (S i) y
          end
      end
  end.
(** src/linux/apm.c:333-365: the first battery that is not absent and has a state *)
Fixpoint probe_bat (n i : nat) (y : sys) : option (option nat) :=
  match n with
  | O => Some None
  | S m =>
      match y_info y i with
      | None => probe_bat m (S i) y
      | Some t =>
          match scanw 2 t with
          | None => None
          | Some [s1; s2] =>
              if case_eq s1 (str "present:") && case_eq s2 (str "no") then probe_bat m (S i) y
              else match y_state y i with None => probe_bat m (S i) y | Some _ => Some (Some i) end
          | Some _ => probe_bat m (S i) y
          end
      end
  end.
(** src/linux/apm.c:255-257: one line of the info file, bat_max *)
Definition info_line (l : list Z) (cur : Z) : option Z :=
  match scanw 4 (cut0 l) with
  | None => None
  | Some ws =>
      match nth_error ws 1 with
      | None => None
      | Some s2 => if case_eq s2 (str "full") then match nth_error ws 3 with Some s4 => Some (atoi s4) | None => None end else Some cur
      end
  end.
(** src/linux/apm.c:269-273: one line of the state file, bat_val *)
Definition state_line (l : list Z) (cur : Z) : option Z :=
  match scanw 4 (cut0 l) with
  | None => None
  | Some ws =>
      match nth_error ws 0 with
      | None => None
      | Some s1 => if case_eq s1 (str "Remaining") then match nth_error ws 2 with Some s3 => Some (atoi s3) | None => None end else Some cur
      end
  end.
(** src/linux/apm.c:250-258, 265-274: the lines, of 126 characters at most *)
Fixpoint lines (f : list Z -> Z -> option Z) (fuel : nat) (s : list Z) (cur : Z) : option Z :=
  match fuel, s with
  | S m, _ :: _ => let '(l, r) := fgets 126 s in match f l cur with Some c => lines f m r c | None => None end
  | _, _ => Some cur
  end.
(** abs in src/linux/apm.c:280-281 *)
Definition iabs (x : Z) : option Z := if x =? - 2 ^ 31 then None else Some (Z.abs x).
(** src/linux/apm.c:279-292: the percentage *)
Definition percent (bat_val bat_max : Z) : option Z :=
  match iabs bat_max, iabs bat_val with
  | Some m, Some v =>
      let v := if v >? m then m else v in
      if m =? 0 then Some 0
      else if v >=? m then Some 100
      else if v * 100 >=? 2 ^ 31 then None else Some (v * 100 / m)
  | _, _ => None
  end.
(** src/apm.h:56-60: AC power, battery_percentage *)
Definition info : Type := bool * Z.
(** src/linux/apm.c:221-295 apm_read_acpi; Some None is the return value 0 *)
Definition read_acpi (y : sys) : option (option info) :=
  match probe_ac 3 0 y, probe_bat 5 0 y with
  | Some ac, Some None => Some (if ac then Some (true, -1) else None)
  | Some ac, Some (Some i) =>
      match y_info y i, y_state y i with
      | Some ti, Some ts =>
          match lines info_line (List.length ti) ti 5000 with
          | None => None
          | Some mx => match lines state_line (List.length ts) ts 0 with
                       | None => None
                       | Some v => match percent v mx with Some p => Some (Some (ac, p)) | None => None end
                       end
          end
      | _, _ => Some None
      end
  | _, _ => None
  end.

(** ** APM *)
(** %d in src/linux/apm.c:192; None: no number, or not an int *)
Definition conv_d (s : list Z) : option (Z * list Z) :=
  let s := skip_sp s in
  let '(neg, s) := match s with c :: r => if c =? 45 then (true, r) else if c =? 43 then (false, r) else (false, s) | [] => (false, []) end in
  let fix go (seen : bool) (acc : Z) (s : list Z) : option (Z * list Z) :=
    match s with
    | c :: r => if (48 <=? c) && (c <=? 57) then go true (10 * acc + (c - 48)) r else if seen then Some (acc, s) else None
    | [] => if seen then Some (acc, []) else None
    end in
  match go false 0 s with
  | Some (v, t) => if v >=? 2 ^ 31 then None else Some (if neg then - v else v, t)
  | None => None
  end.
(** the value of a hexadecimal digit, %x in src/linux/apm.c:192 *)
Definition hex (c : Z) : option Z :=
  if (48 <=? c) && (c <=? 57) then Some (c - 48) else if (97 <=? c) && (c <=? 102) then Some (c - 87) else if (65 <=? c) && (c <=? 70) then Some (c - 55) else None.
(** %x in src/linux/apm.c:192, with 0x or without, no sign *)
Definition conv_x (s : list Z) : option (Z * list Z) :=
  let s := skip_sp s in
  let s := match s with a :: b :: r => if (a =? 48) && ((b =? 120) || (b =? 88)) then r else s | _ => s end in
  let fix go (seen : bool) (acc : Z) (s : list Z) : option (Z * list Z) :=
    match s with
    | c :: r => match hex c with Some d => go true (16 * acc + d) r | None => if seen then Some (acc, s) else None end
    | [] => if seen then Some (acc, []) else None
    end in
  match go false 0 s with Some (v, t) => if v >=? 2 ^ 32 then None else Some (v, t) | None => None end.
(** a character of the format in src/linux/apm.c:192 *)
Definition lit (c : Z) (s : list Z) : option (list Z) := match s with x :: r => if x =? c then Some r else None | [] => None end.
(** src/linux/apm.c:192-194: the words %10s, into arrays of 10 characters *)
Definition conv_s (s : list Z) : option (list Z * list Z) :=
  match word 10 (skip_sp s) with ([], _) => None | (w, t) => if (List.length w =? 10)%nat then None else Some (w, t) end.
(** sequence of conversions, src/linux/apm.c:192 *)
Definition bind {A B : Type} (x : option A) (f : A -> option B) : option B := match x with Some a => f a | None => None end.
(** src/linux/apm.c:162-219 apm_read_apm; when a conversion fails, units is compared in line
    196 without having been set *)
Definition read_apm (y : sys) : option (option info) :=
  match y_apm y with
  | None | Some [] => Some None
  | Some t =>
      let s := cut0 (fst (fgets 99 t)) in
      bind (conv_s s) (fun '(_, s) =>
      bind (conv_d s) (fun '(_, s) => bind (lit 46 s) (fun s => bind (conv_d s) (fun '(_, s) =>
      bind (conv_x s) (fun '(_, s) => bind (conv_x s) (fun '(ac, s) => bind (conv_x s) (fun '(_, s) => bind (conv_x s) (fun '(_, s) =>
      bind (conv_d s) (fun '(p, s) => bind (lit 37 (skip_sp s)) (fun s => bind (conv_d s) (fun '(_, s) => bind (conv_s s) (fun _ =>
      Some (Some (negb (ac =? 0), if p >? 100 then -1 else p))))))))))))))
  end.

(** ** The willingness *)
(** src/linux/apm.c:103-104 *)
Inductive meth := MApm | MAcpi.
(** src/linux/apm.c:120-137 apm_init: the method, None for -1 *)
Definition apm_init (y : sys) : option (option meth) :=
  match probe_ac 3 0 y, probe_bat 5 0 y with
  | Some ac, Some b =>
      let next := match read_apm y with Some (Some _) => Some (Some MApm) | Some None => Some None | None => None end in
      if (match b with Some _ => true | None => false end) || ac
      then match read_acpi y with Some (Some _) => Some (Some MAcpi) | Some None => next | None => None end
      else next
  | _, _ => None
  end.
(** src/linux/apm.c:148-160 apm_read and src/olsr.c:460-485 olsr_calculate_willingness with
    willingness_auto: int division, converted to uint8_t *)
Definition willingness (m : meth) (y : sys) : option Z :=
  match (match m with MApm => read_apm y | MAcpi => read_acpi y end) with
  | None => None
  | Some None => Some 3
  | Some (Some (ac, p)) => Some (if ac then 6 else u8 (Z.quot p 26))
  end.

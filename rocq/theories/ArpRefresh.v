(** Model of the plugin arprefresh (lib/arprefresh/src/olsrd_arprefresh.c): the filter program,
    the packet socket and the timer.  [cap] is how many frames the socket holds.  Definitions
    only. *)
From Verif Require Import Base.

(** the instructions used in lib/arprefresh/src/olsrd_arprefresh.c:185-199 *)
Inductive ins := LdH (k : Z) | LdB (k : Z) | LdxMsh (k : Z) | LdhInd (k : Z) | Jeq (k : Z) (jt jf : nat) | Jset (k : Z) (jt jf : nat) | Ret (k : Z).
(** loads, lib/arprefresh/src/olsrd_arprefresh.c:185-193; beyond the frame the filter returns 0 *)
Definition ld1 (p : list Z) (k : Z) : option Z := if (0 <=? k) && (k <? Z.of_nat (length p)) then Some (nth (Z.to_nat k) p 0) else None.
(** two bytes in network order, lib/arprefresh/src/olsrd_arprefresh.c:185, 191, 194 *)
Definition ld2 (p : list Z) (k : Z) : option Z := match ld1 p k, ld1 p (k + 1) with Some a, Some b => Some (a * 256 + b) | _, _ => None end.
(** the machine that runs lib/arprefresh/src/olsrd_arprefresh.c:180-199 in the kernel: the rest of
    the program, A and X; jumps go forward *)
Fixpoint exec (fuel : nat) (prog : list ins) (a x : Z) (p : list Z) : Z :=
  match fuel, prog with
  | S f, i :: r =>
      match i with
      | LdH k => match ld2 p k with Some v => exec f r v x p | None => 0 end
      | LdB k => match ld1 p k with Some v => exec f r v x p | None => 0 end
      | LdxMsh k => match ld1 p k with Some v => exec f r a (4 * Z.land v 15) p | None => 0 end
      | LdhInd k => match ld2 p (x + k) with Some v => exec f r v x p | None => 0 end
      | Jeq k jt jf => exec f (skipn (if a =? k then jt else jf) r) a x p
      | Jset k jt jf => exec f (skipn (if Z.land a k =? 0 then jf else jt) r) a x p
      | Ret k => k
      end
  | _, _ => 0
  end.
(** lib/arprefresh/src/olsrd_arprefresh.c:180-199 BPF_code; sizeof(arprefresh_buf) is 42 (103-107) *)
Definition code : list ins :=
  [LdH 12; Jeq 2048 0 8; LdB 23; Jeq 17 0 6; LdH 20; Jset 8191 4 0; LdxMsh 14; LdhInd 16; Jeq 698 0 1; Ret 42; Ret 0].
(** the filter on a frame, lib/arprefresh/src/olsrd_arprefresh.c:201-202, 206 *)
Definition filter_len (p : list Z) : Z := exec (length code) code 0 0 p.

(** struct arpreq as it is filled, lib/arprefresh/src/olsrd_arprefresh.c:138-145: the interface, the
    IP address and the hardware address *)
Record arpreq := mkA { a_dev : Z; a_ip : list Z; a_ha : list Z }.
(** arprefresh_sockfd (lib/arprefresh/src/olsrd_arprefresh.c:109) is open, and the frames in the
    socket with their interfaces *)
Record ast := mkT { t_open : bool; t_queue : list (Z * list Z) }.
(** a frame comes in on an interface; the timer runs and SIOCSARP works or not *)
Inductive event := Frame (dev : Z) (f : list Z) | Timer (ok : bool).
(** lib/arprefresh/src/olsrd_arprefresh.c:116-164 olsr_arp_event with the requests made; a frame that
    comes in is cut to what the filter returns, and dropped if that is 0 or the socket is full *)
Definition step (cap : nat) (s : ast) (e : event) : ast * list arpreq :=
  match e with
  | Frame dev f =>
      if t_open s && (0 <? filter_len f) && (length (t_queue s) <? cap)%nat
      then (mkT true (t_queue s ++ [(dev, firstn (Z.to_nat (filter_len f)) f)]), []) else (s, [])
  | Timer ok =>
      if t_open s then
        match t_queue s with
        | [] => (s, [])
        | (dev, b) :: q =>
            if 42 <=? Z.of_nat (length b)
            then (mkT ok (if ok then q else []), [mkA dev (firstn 4 (skipn 26 b)) (firstn 6 (skipn 6 b))])
            else (mkT true q, [])
        end
      else (s, [])
  end.
(** a run, lib/arprefresh/src/olsrd_arprefresh.c:208 *)
Fixpoint run (cap : nat) (s : ast) (l : list event) : ast * list arpreq :=
  match l with
  | [] => (s, [])
  | e :: r => let (s1, o1) := step cap s e in let (s2, o2) := run cap s1 r in (s2, o1 ++ o2)
  end.
(** after lib/arprefresh/src/olsrd_arprefresh.c:203-209 *)
Definition start : ast := mkT true [].

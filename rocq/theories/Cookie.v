(** Model of the recycling allocator (src/olsr_cookie.c).  Definitions only.
    Memory is a list of live blocks (address and bytes); the ring of free blocks is
    the list of their addresses in ring order; the pointers stored in a free block
    are arbitrary bytes. *)
From Verif Require Import Base.

(** src/olsr_cookie.h:66-75 *)
Record ck := mkCk { c_mem : bool; c_size : nat; c_usage : Z; c_free : list Z; c_fusage : Z }.
(** src/olsr_cookie.c:54 cookies, and the blocks obtained from calloc *)
Record cs := mkCs { cks : list (option ck); heap : list (Z * list Z) }.
(** src/olsr_cookie.h:52, 77 *)
Definition COOKIE_MAX : nat := 50.
(** see above, src/olsr_cookie.h:52, 77 *)
Definition THRESHOLD : Z := 10.
(** see above, src/olsr_cookie.h:52, 77 *)
Definition cinit : cs := mkCs (repeat None COOKIE_MAX) [].

(** src/olsr_cookie.c:165-172 olsr_cookie_valid and the array access *)
Definition get (s : cs) (i : nat) : option ck := match nth_error (cks s) i with Some (Some c) => Some c | _ => None end.
(** see above, src/olsr_cookie.c:165-172 *)
Fixpoint set_nth {A} (l : list A) (i : nat) (x : A) : list A :=
  match l, i with [], _ => [] | _ :: l', O => x :: l' | y :: l', S i' => y :: set_nth l' i' x end.
(** see above, src/olsr_cookie.c:165-172 *)
Definition put (s : cs) (i : nat) (c : option ck) : cs := mkCs (set_nth (cks s) i c) (heap s).
(** memory; blocks of calloc in src/olsr_cookie.c *)
Fixpoint mem_get (h : list (Z * list Z)) (p : Z) : option (list Z) :=
  match h with [] => None | (q, d) :: h' => if q =? p then Some d else mem_get h' p end.
(** see above, src/olsr_cookie.c:165-172 *)
Fixpoint mem_set (h : list (Z * list Z)) (p : Z) (d : list Z) : list (Z * list Z) :=
  match h with [] => [] | (q, e) :: h' => if q =? p then (q, d) :: h' else (q, e) :: mem_set h' p d end.
(** see above, src/olsr_cookie.c:165-172 *)
Fixpoint mem_del (h : list (Z * list Z)) (p : Z) : list (Z * list Z) :=
  match h with [] => [] | (q, e) :: h' => if q =? p then h' else (q, e) :: mem_del h' p end.
(** write the bytes [b] at offset [o]; out of the block is not allowed; writes in
    src/olsr_cookie.c:190-320 *)
Definition poke (d : list Z) (o : nat) (b : list Z) : option (list Z) :=
  if (o + length b <=? length d)%nat then Some (firstn o d ++ b ++ skipn (o + length b) d) else None.
(** read [n] bytes at offset [o]; reads in src/olsr_cookie.c:190-320 *)
Definition peek (d : list Z) (o n : nat) : option (list Z) :=
  if (o + n <=? length d)%nat then Some (firstn n (skipn o d)) else None.

(** src/olsr_cookie.h:83-86: six characters and the 16-bit id *)
Definition brand (i : nat) : list Z := [99; 111; 111; 107; 105; 101] ++ [Z.of_nat i mod 256; Z.of_nat i / 256].
(** see above, src/olsr_cookie.h:83-86 *)
Definition BRAND : nat := 8.
(** src/common/list.h:49-53 struct list_node, two pointers *)
Definition NODE : nat := 16.

(** how a call ends: value, olsr_exit, failed assertion, bad access; src/olsr_cookie.c *)
Inductive res := Ok (s : cs) (r : Z) | Exit | Abort | Fault.

(** src/olsr_cookie.c:69-73: first unused index from 1 *)
Fixpoint free_index (l : list (option ck)) (i : nat) : option nat :=
  match l with [] => None | None :: _ => Some i | Some _ :: l' => free_index l' (S i) end.
(** src/olsr_cookie.c:60-98 olsr_alloc_cookie followed by 152-160
    olsr_cookie_set_memory_size, as all callers do *)
Definition alloc_cookie (s : cs) (m : bool) (size : nat) : res :=
  match free_index (tl (cks s)) 1 with
  | None => Exit
  | Some i => Ok (put s i (Some (mkCk m size 0 [] 0))) (Z.of_nat i)
  end.
(** src/olsr_cookie.c:104-126 olsr_free_cookie *)
Definition free_cookie (s : cs) (i : nat) : res :=
  match get s i with
  | None => Fault
  | Some c => Ok (mkCs (set_nth (cks s) i None)
                       (if c_mem c then fold_left mem_del (c_free c) (heap s) else heap s)) 0
  end.
(** src/olsr_cookie.c:178-196 *)
Definition usage_incr (s : cs) (i : nat) : cs :=
  match get s i with Some c => put s i (Some (mkCk (c_mem c) (c_size c) (u32 (c_usage c + 1)) (c_free c) (c_fusage c))) | None => s end.
(** see above, src/olsr_cookie.c:178-196 *)
Definition usage_decr (s : cs) (i : nat) : cs :=
  match get s i with Some c => put s i (Some (mkCk (c_mem c) (c_size c) (u32 (c_usage c - 1)) (c_free c) (c_fusage c))) | None => s end.

(** src/olsr_cookie.c:218-277 olsr_cookie_malloc; [p]: the block calloc gives if asked *)
Definition cookie_malloc (s : cs) (i : nat) (p : Z) : res :=
  match get s i with
  | None => Fault
  | Some c =>
      let got :=
        if c_fusage c =? 0 then Some (p, mkCs (cks s) ((p, repeat 0 (c_size c + BRAND)) :: heap s))
        else match c_free c with
             | [] => None
             | q :: r =>
                 match mem_get (heap s) q with
                 | None => None
                 | Some d =>
                     match poke d 0 (repeat 0 (c_size c)) with
                     | None => None
                     | Some d' => Some (q, mkCs (set_nth (cks s) i (Some (mkCk (c_mem c) (c_size c) (c_usage c) r (u32 (c_fusage c - 1)))))
                                                (mem_set (heap s) q d'))
                     end
                 end
             end in
      match got with
      | None => Fault
      | Some (q, s1) =>
          match mem_get (heap s1) q with
          | None => Fault
          | Some d => match poke d (c_size c) (brand i) with
                      | None => Fault
                      | Some d' => Ok (usage_incr (mkCs (cks s1) (mem_set (heap s1) q d')) i) q
                      end
          end
      end
  end.

(** bytes equal; memcmp of the branding, src/olsr_cookie.c *)
Definition beq (a b : list Z) : bool := if list_eq_dec Z.eq_dec a b then true else false.
(** src/olsr_cookie.c:284-334 olsr_cookie_free; [junk]: the pointers of the list node *)
Definition cookie_free (s : cs) (i : nat) (p : Z) (junk : list Z) : res :=
  match get s i, mem_get (heap s) p with
  | Some c, Some d =>
      match peek d (c_size c) BRAND with
      | None => Fault
      | Some b =>
          if negb (beq b (brand i)) then Abort
          else match poke d (c_size c) (repeat 0 BRAND) with
               | None => Fault
               | Some d1 =>
                   if (c_fusage c <? THRESHOLD) || (c_fusage c <? c_usage c / THRESHOLD)
                   then match poke d1 0 junk with
                        | None => Fault
                        | Some d2 =>
                            Ok (usage_decr (mkCs (set_nth (cks s) i (Some (mkCk (c_mem c) (c_size c) (c_usage c) (c_free c ++ [p]) (u32 (c_fusage c + 1)))))
                                                 (mem_set (heap s) p d2)) i) 0
                        end
                   else Ok (usage_decr (mkCs (cks s) (mem_del (heap s) p)) i) 0
               end
      end
  | _, _ => Fault
  end.
(** the user of a block writes a byte; code outside of src/olsr_cookie.c *)
Definition user_write (s : cs) (p : Z) (o : nat) (v : Z) : res :=
  match mem_get (heap s) p with
  | None => Fault
  | Some d => match poke d o [v] with None => Fault | Some d' => Ok (mkCs (cks s) (mem_set (heap s) p d')) 0 end
  end.

(** calls of the functions of src/olsr_cookie.h, and writes of users *)
Inductive cev := ENew (m : bool) (size : nat) | EDel (i : nat) | EMalloc (i : nat) (p : Z) | EFree (i : nat) (p : Z) (junk : list Z)
               | EWrite (p : Z) (o : nat) (v : Z) | EIncr (i : nat) | EDecr (i : nat).
(** one call of src/olsr_cookie.h *)
Definition cstep (s : cs) (e : cev) : res :=
  match e with
  | ENew m n => alloc_cookie s m n
  | EDel i => free_cookie s i
  | EMalloc i p => cookie_malloc s i p
  | EFree i p j => cookie_free s i p j
  | EWrite p o v => user_write s p o v
  | EIncr i => Ok (usage_incr s i) 0
  | EDecr i => Ok (usage_decr s i) 0
  end.
